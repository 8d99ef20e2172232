(** C82: windows with Jones terms of their own. *)
From Coq Require Import List ZArith QArith Bool Arith Lia Permutation.
From Verif Require Import Lib.Py Lib.Np Lib.Cube Model.Tools Model.Times Model.UVCal Model.FlexJones Spec.CalSpec Spec.FlexJonesSpec
  Proofs.CalMove Proofs.FlexJonesMatch Proofs.FlexJonesConvert Proofs.FlexJonesMake Proofs.FlexJonesBack.
Import ListNotations.
Notation length := List.length.
Open Scope list_scope.
Open Scope Z_scope.

(** Windows 3 and 1 with the channels 100, 110 and 500, 510, two antennas, one time, two
    Jones terms; the channels of the windows alternate. *)
Definition gains : ucal :=
  {| c_gain := true; c_wide := false; c_compat := 0; c_ants := [4; 7]; c_spws := [3; 1]; c_freq_range := [];
     c_freqs := [100; 500; 110; 510]; c_widths := [10; 20; 10; 20]; c_flex := [3; 1; 3; 1]; c_flex_jones := None;
     c_time_array := Some [50]; c_time_range := None; c_lst_array := Some [60]; c_lst_range := None; c_ref_ant := None;
     c_int_time := [10]; c_jones := [-5; -6];
     c_sol := fun a f t j => (Z.of_nat f + 10 * Z.of_nat a, Z.of_nat j);
     c_flags := fun a f t j => ((f =? 1)%nat && (j =? 1)%nat)%bool;
     c_qual := Some (fun a f t j => Z.of_nat (a + f + j)); c_tqual := None |}.
Lemma gains_ok : cal_ok gains.
Proof.
  split; [repeat split; intros l H; injection H as <- || discriminate; reflexivity|]. split; [cbn; repeat split; intros H; tauto|].
  split; [cbn; constructor; [intros [H|[]]; discriminate|constructor; [intros []|constructor]]|]. split; [discriminate|].
  split; [intros [|[|i]] [|[|j]] Hi Hj E; cbn in *; try reflexivity; try discriminate; lia|].
  split; [intros [|[|[|[|i]]]] [|[|[|[|j]]]] Hi Hj E; cbn in *; try reflexivity; try discriminate; lia|].
  split; [intros [|i] [|j] Hi Hj E; cbn in *; try reflexivity; lia|].
  intros [|[|i]] [|[|j]] Hi Hj E; cbn in *; try reflexivity; try discriminate; lia.
Qed.
Definition mhz : Q * Q := (0, 1)%Q.
Lemma sane_mhz : sane mhz.
Proof. split; unfold Qle; cbn; lia. Qed.
Lemma listed_id : lister (fun l => l).
Proof. intros l. apply Permutation_refl. Qed.

(** convert_to_flex_jones gives each Jones term a window for each window, whose
    channels have the frequencies, widths, solutions, flags and qualities they had ... *)
Theorem C82_convert : forall listed u v,
  (forall l, Permutation l (listed l)) -> cal_ok u -> c_spws u <> [] -> convert_to_flex_jones listed u = Ok v ->
  exists win, flex_jones_made u v win.
Proof.
  intros listed u v HL Hu HS H. destruct (converted_laid listed u v HL Hu HS H) as (L & HJ & _). exists (win_of u v). apply laid_made; assumption.
Qed.
Print Assumptions C82_convert.
Example C82_convert_case : cal_ok gains /\ c_spws gains <> [] /\
  match convert_to_flex_jones (fun l => l) gains with
  | Ok v => c_spws v = [3; 1; 2; 4] /\ c_flex v = [3; 1; 3; 1; 2; 4; 2; 4] /\ c_freqs v = [100; 500; 110; 510; 100; 500; 110; 510] /\
            c_flex_jones v = Some [-5; -5; -6; -6] /\ c_jones v = [0] /\
            entry v 1 5 0 0 = ((11, 1), true, Some 3) /\ entry gains 1 1 0 1 = ((11, 1), true, Some 3)
  | Err _ => False
  end.
Proof. split; [exact gains_ok|]. split; [discriminate|]. vm_compute. repeat split. Qed.

(** ... it does so for every object with Jones terms, unless the windows have their
    own already, or there is a total quality for several Jones terms. *)
Theorem C82_convert_when : forall listed u, cal_ok u -> (0 < Njones u)%nat ->
  (exists v, convert_to_flex_jones listed u = Ok v) <-> c_flex_jones u = None /\ (c_tqual u = None \/ Njones u = 1%nat).
Proof.
  intros listed u Hu HJ. split.
  - intros [v H]. unfold convert_to_flex_jones in H. destruct (c_flex_jones u); [discriminate|]. split; [reflexivity|]. unfold Njones.
    destruct (c_jones u) as [|p [|q l]]; [discriminate|auto|]. cbv zeta in H. destruct (c_tqual u); [|auto].
    destruct (if c_wide u then _ else _) in H; discriminate.
  - intros [F [T|T]]; [apply convert_total; assumption|]. unfold convert_to_flex_jones, Njones in *. rewrite F. destruct (c_jones u) as [|p [|q l]]; try discriminate. eauto.
Qed.
Print Assumptions C82_convert_when.
Example C82_convert_when_case : c_flex_jones gains = None /\ c_tqual gains = None /\ Njones gains = 2%nat.
Proof. repeat split. Qed.

(** remove_flex_jones makes an ordinary Jones axis: window [w] becomes the entries of
    window [m w] for its Jones term, and entries there is nothing for are flagged.
    Windows are combined only if their channels agree within the tolerances and each
    has all Jones terms then; with combine_spws = False all windows are kept. *)
Theorem C82_remove : forall ftol ctol combine_spws u r,
  flex_ok u -> sane ftol -> sane ctol -> (combine_spws = true -> resolved ftol u) ->
  remove_flex_jones ftol ctol combine_spws u = Ok r ->
  exists m, flex_jones_removed ftol ctol u r m /\ (combine_spws = false -> forall w, m w = w) /\
    ((forall w, m w = w) \/ forall v p, In v (c_spws r) -> has_jones r p -> exists w, window_jones u w p /\ m w = v).
Proof.
  intros ftol ctol c u r Hu Sf Sc R H. destruct (c_flex_jones u) as [fj|] eqn:HF; [|destruct Hu as (_ & _ & X & _); contradiction].
  eapply removed; eassumption.
Qed.
Print Assumptions C82_remove.
Definition flexed : ucal := match convert_to_flex_jones (fun l => l) gains with Ok v => v | Err _ => gains end.
Lemma flexed_eq : convert_to_flex_jones (fun l => l) gains = Ok flexed.
Proof. unfold flexed. assert (H : match convert_to_flex_jones (fun l => l) gains with Ok _ => True | Err _ => False end) by (vm_compute; exact I).
  destruct (convert_to_flex_jones _ gains); [reflexivity|destruct H]. Qed.
Lemma flexed_ok : flex_ok flexed.
Proof. destruct (C82_convert _ _ _ listed_id gains_ok ltac:(discriminate) flexed_eq) as (win & H & _). exact H. Qed.
Lemma mhz_close x y : closeZ mhz x y = true -> -1 <= x - y <= 1.
Proof.
  unfold closeZ, isclose, mhz. cbn [fst snd]. intros H. apply Qle_bool_iff in H.
  assert (H' : (qabs (inject_Z x - inject_Z y) <= 1)%Q) by (eapply Qle_trans; [exact H|]; rewrite Qmult_0_l, Qplus_0_r; apply Qle_refl).
  clear H. unfold qabs in H'. destruct (Qle_bool 0 (inject_Z x - inject_Z y)) eqn:E.
  - apply Qle_bool_iff in E. unfold inject_Z, Qle, Qminus, Qplus, Qopp in *. cbn in *. lia.
  - assert (N : ~ (0 <= inject_Z x - inject_Z y)%Q) by (intros C; apply Qle_bool_iff in C; congruence).
    unfold inject_Z, Qle, Qminus, Qplus, Qopp in *. cbn in *. lia.
Qed.
Lemma flexed_resolved : resolved mhz flexed.
Proof.
  intros _ w x H f K. pose proof (kth_bound _ _ _ _ K) as [B E]. change (Nchans flexed) with 8%nat in B.
  assert (G : exists f0, kth flexed w 0 f0 /\ (1 < Z.abs (snd (chan_at flexed f) - snd (chan_at flexed f0)) - 1)%Z).
  { do 8 (destruct f as [|f]; [rewrite <- E in K |- *; vm_compute in K; first [discriminate K|eexists; split; vm_compute; reflexivity]|]). lia. }
  destruct G as (f0 & K0 & G). destruct H as [H|H]; pose proof (mhz_close _ _ (H _ _ K)); pose proof (mhz_close _ _ (H _ _ K0)); lia.
Qed.
Example C82_remove_case : flex_ok flexed /\ resolved mhz flexed /\
  match remove_flex_jones mhz mhz true flexed with
  | Ok r => c_spws r = [1; 3] /\ c_freqs r = [500; 510; 100; 110] /\ c_jones r = [-5; -6] /\
            entry r 1 0 0 1 = ((11, 1), true, Some 3) /\ entry r 0 3 0 0 = ((2, 0), false, Some 2)
  | Err _ => False
  end /\
  match remove_flex_jones mhz mhz false flexed with
  | Ok r => c_spws r = [1; 2; 3; 4] /\ c_freqs r = [500; 510; 100; 110; 100; 110; 500; 510] /\
            entry r 1 7 0 1 = ((13, 1), false, Some 5) /\ entry r 1 7 0 0 = ((0, 0), true, Some 0)
  | Err _ => False
  end.
Proof. split; [exact flexed_ok|]. split; [exact flexed_resolved|]. split; vm_compute; repeat split. Qed.

(** Without combining, it always works if there is no total quality; an object whose
    windows have no Jones terms of their own is left alone. *)
Theorem C82_remove_total : forall ftol ctol u, flex_ok u -> sane ftol -> sane ctol -> c_tqual u = None ->
  exists r, remove_flex_jones ftol ctol false u = Ok r.
Proof.
  intros ftol ctol u Hu Sf Sc T. destruct (c_flex_jones u) as [fj|] eqn:HF; [|destruct Hu as (_ & _ & X & _); contradiction].
  eapply remove_total; eassumption.
Qed.
Print Assumptions C82_remove_total.
Theorem C82_idle : forall ftol ctol combine_spws u, c_flex_jones u = None -> remove_flex_jones ftol ctol combine_spws u = Ok u.
Proof. intros ftol ctol c u H. unfold remove_flex_jones. now rewrite H. Qed.
Print Assumptions C82_idle.
Example C82_remove_total_case : flex_ok flexed /\ sane mhz /\ c_tqual flexed = None /\ c_flex_jones gains = None.
Proof. split; [exact flexed_ok|]. split; [exact sane_mhz|]. split; reflexivity. Qed.

(** There and back, everything is as it was, if the windows have equally many channels
    and no two have the same ones. *)
Theorem C82_there_and_back : forall listed ftol ctol u v,
  (forall l, Permutation l (listed l)) -> sane ftol -> sane ctol ->
  cal_ok u -> c_spws u <> [] -> c_tqual u = None -> equal_windows u ->
  (forall w w', In w (c_spws u) -> In w' (c_spws u) -> windows_close ftol ctol u w w' -> w = w') ->
  convert_to_flex_jones listed u = Ok v ->
  exists r, remove_flex_jones ftol ctol true v = Ok r /\ cal_ok r /\ same_content u r.
Proof.
  intros listed ftol ctol u v HL Sf Sc Hu HS T HE HD H. destruct (converted_laid listed u v HL Hu HS H) as (L & HJ & FJ).
  destruct (came_back ftol ctol u v Hu HS HJ L Sf Sc HE HD T) as (r & m & E & D & M). exists r. split; [exact E|]. split; [apply D|].
  eapply back_content; eassumption.
Qed.
Print Assumptions C82_there_and_back.
Example C82_there_and_back_case : sane mhz /\ cal_ok gains /\ equal_windows gains /\
  (forall w w', In w (c_spws gains) -> In w' (c_spws gains) -> windows_close mhz mhz gains w w' -> w = w') /\ same_content gains
    (match remove_flex_jones mhz mhz true flexed with Ok r => r | Err _ => flexed end).
Proof.
  assert (HE : equal_windows gains).
  { intros w w' k Hw Hw' [f K]. cbn in Hw, Hw'. destruct Hw as [<-|[<-|[]]], Hw' as [<-|[<-|[]]]; unfold kth in *; cbn in *;
    destruct k as [|[|[|k]]]; try discriminate K; cbn; eauto. }
  assert (HD : forall w w', In w (c_spws gains) -> In w' (c_spws gains) -> windows_close mhz mhz gains w w' -> w = w').
  { intros w w' Hw Hw' C. cbn in Hw, Hw'. destruct Hw as [<-|[<-|[]]], Hw' as [<-|[<-|[]]]; try reflexivity; exfalso.
    - destruct (C O 0%nat 1%nat eq_refl eq_refl) as [X _]. vm_compute in X. discriminate X.
    - destruct (C O 1%nat 0%nat eq_refl eq_refl) as [X _]. vm_compute in X. discriminate X. }
  split; [exact sane_mhz|]. split; [exact gains_ok|]. split; [exact HE|]. split; [exact HD|].
  destruct (C82_there_and_back _ _ _ _ _ listed_id sane_mhz sane_mhz gains_ok ltac:(discriminate) eq_refl HE HD flexed_eq) as (r & -> & _ & H). exact H.
Qed.

(** Neither direction accepts a total quality: the axes are taken to be those of a
    solution. *)
Definition with_total (u : ucal) : ucal :=
  set_arrays (c_sol u) (c_flags u) (c_qual u) (Some (fun f t j => Z.of_nat f)) u.
Theorem C82_total_quality_refuted :
  exists u v, cal_ok u /\ c_spws u <> [] /\ (0 < Njones u)%nat /\ c_flex_jones u = None /\ convert_to_flex_jones (fun l => l) u = Err ValueError /\
    flex_ok v /\ remove_flex_jones mhz mhz true v = Err IndexError /\ remove_flex_jones mhz mhz false v = Err IndexError.
Proof.
  exists (with_total gains), (with_total flexed). split; [exact gains_ok|]. split; [discriminate|]. split; [cbn; lia|]. split; [reflexivity|]. split; [vm_compute; reflexivity|].
  split; [exact flexed_ok|]. split; vm_compute; reflexivity.
Qed.
Print Assumptions C82_total_quality_refuted.

(** Windows with different numbers of channels cannot be compared: there is no way
    back without combine_spws = False. *)
Definition uneven : ucal :=
  {| c_gain := true; c_wide := false; c_compat := 0; c_ants := [4; 7]; c_spws := [1; 2]; c_freq_range := [];
     c_freqs := [100; 110; 500; 510; 520]; c_widths := [10; 10; 10; 10; 10]; c_flex := [1; 1; 2; 2; 2]; c_flex_jones := None;
     c_time_array := Some [50]; c_time_range := None; c_lst_array := Some [60]; c_lst_range := None; c_ref_ant := None;
     c_int_time := [10]; c_jones := [-5; -6]; c_sol := fun a f t j => (0, 0); c_flags := fun a f t j => false; c_qual := None; c_tqual := None |}.
Theorem C82_uneven_refuted :
  exists u v, cal_ok u /\ c_spws u <> [] /\ c_tqual u = None /\
    (forall w w', In w (c_spws u) -> In w' (c_spws u) -> windows_close mhz mhz u w w' -> w = w') /\
    convert_to_flex_jones (fun l => l) u = Ok v /\ remove_flex_jones mhz mhz true v = Err ValueError.
Proof.
  exists uneven.
  assert (H : match convert_to_flex_jones (fun l => l) uneven with Ok v => remove_flex_jones mhz mhz true v = Err ValueError | Err _ => False end) by (vm_compute; reflexivity).
  destruct (convert_to_flex_jones (fun l => l) uneven) as [v|e] eqn:E; [|destruct H]. exists v. split.
  { split; [repeat split; intros l X; injection X as <- || discriminate; reflexivity|]. split; [cbn; repeat split; intros X; tauto|].
    split; [cbn; constructor; [intros [X|[]]; discriminate|constructor; [intros []|constructor]]|]. split; [discriminate|].
    split; [intros [|[|i]] [|[|j]] Hi Hj X; cbn in *; try reflexivity; try discriminate; lia|].
    split; [intros [|[|[|[|[|i]]]]] [|[|[|[|[|j]]]]] Hi Hj X; cbn in *; try reflexivity; try discriminate; lia|].
    split; [intros [|i] [|j] Hi Hj X; cbn in *; try reflexivity; lia|].
    intros [|[|i]] [|[|j]] Hi Hj X; cbn in *; try reflexivity; try discriminate; lia. }
  split; [discriminate|]. split; [reflexivity|]. split.
  { intros w w' Hw Hw' C. cbn in Hw, Hw'. destruct Hw as [<-|[<-|[]]], Hw' as [<-|[<-|[]]]; try reflexivity; exfalso.
    - destruct (C O 0%nat 2%nat eq_refl eq_refl) as [X _]. vm_compute in X. discriminate X.
    - destruct (C O 2%nat 0%nat eq_refl eq_refl) as [X _]. vm_compute in X. discriminate X. }
  split; [reflexivity|exact H].
Qed.
Print Assumptions C82_uneven_refuted.

(** Windows with the same channels cannot be told apart on the way back. *)
Definition twins : ucal :=
  {| c_gain := true; c_wide := false; c_compat := 0; c_ants := [4; 7]; c_spws := [1; 2]; c_freq_range := [];
     c_freqs := [100; 110; 100; 110]; c_widths := [10; 10; 10; 10]; c_flex := [1; 1; 2; 2]; c_flex_jones := None;
     c_time_array := Some [50]; c_time_range := None; c_lst_array := Some [60]; c_lst_range := None; c_ref_ant := None;
     c_int_time := [10]; c_jones := [-5; -6]; c_sol := fun a f t j => (0, 0); c_flags := fun a f t j => false; c_qual := None; c_tqual := None |}.
Theorem C82_twins_refuted :
  exists u v, cal_ok u /\ c_spws u <> [] /\ c_tqual u = None /\ equal_windows u /\
    convert_to_flex_jones (fun l => l) u = Ok v /\ remove_flex_jones mhz mhz true v = Err ValueError.
Proof.
  exists twins.
  assert (H : match convert_to_flex_jones (fun l => l) twins with Ok v => remove_flex_jones mhz mhz true v = Err ValueError | Err _ => False end) by (vm_compute; reflexivity).
  destruct (convert_to_flex_jones (fun l => l) twins) as [v|e] eqn:E; [|destruct H]. exists v. split.
  { split; [repeat split; intros l X; injection X as <- || discriminate; reflexivity|]. split; [cbn; repeat split; intros X; tauto|].
    split; [cbn; constructor; [intros [X|[]]; discriminate|constructor; [intros []|constructor]]|]. split; [discriminate|].
    split; [intros [|[|i]] [|[|j]] Hi Hj X; cbn in *; try reflexivity; try discriminate; lia|].
    split; [intros [|[|[|[|i]]]] [|[|[|[|j]]]] Hi Hj X; cbn in *; try reflexivity; try discriminate; lia|].
    split; [intros [|i] [|j] Hi Hj X; cbn in *; try reflexivity; lia|].
    intros [|[|i]] [|[|j]] Hi Hj X; cbn in *; try reflexivity; try discriminate; lia. }
  split; [discriminate|]. split; [reflexivity|]. split.
  { intros w w' k Hw Hw' [f K]. cbn in Hw, Hw'. destruct Hw as [<-|[<-|[]]], Hw' as [<-|[<-|[]]]; unfold kth in *; cbn in *;
    destruct k as [|[|[|k]]]; try discriminate K; cbn; eauto. }
  split; [reflexivity|exact H].
Qed.
Print Assumptions C82_twins_refuted.
