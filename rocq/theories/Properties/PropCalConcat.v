(** C97: UVCal.fast_concat. *)
From Coq Require Import List ZArith QArith Bool Arith Lia Sorted.
From Verif Require Import Lib.Py Lib.Np Lib.Cube Model.Freq Model.UVCal Model.CalConcat
  Spec.FreqSpec Spec.ConcatSpec Spec.CalSpec Spec.CalConcatSpec Proofs.CalConcatProofs.
Import ListNotations.
Notation length := List.length.
Open Scope list_scope.
Open Scope Z_scope.

(** Each antenna, channel, window, time or Jones term of each object appears at its offset after
    the preceding objects, with its label, metadata, solutions, flags and qualities; the other
    axes are those of the first object. *)
Theorem C97_blocks : forall t axis u others r,
  (forall v, In v (u :: others) -> cal_shaped v) ->
  (axis = CalTime -> forall v, In v others -> same_time_kinds u v) ->
  cal_concat t axis u others = Ok r ->
  let l := u :: others in
  axis_size axis r = cal_total axis l /\ others_kept axis u r /\
  forall b v i, nth_error l b = Some v -> (i < axis_size axis v)%nat -> copied axis l v i r (cal_start axis l b + i).
Proof. exact blocks. Qed.
Print Assumptions C97_blocks.

(** Each window keeps its Jones term if windows are concatenated, and if channels of objects with
    different windows are. *)
Theorem C97_window_jones : forall t axis u others r,
  axis = CalFreq \/ axis = CalSpw ->
  (forall v, In v (u :: others) -> cal_shaped v) ->
  (axis = CalFreq -> (forall v, In v (u :: others) -> windows_in_order v) /\ windows_apart (u :: others)) ->
  cal_concat t axis u others = Ok r ->
  forall w p, window_jones r w p <-> exists v, In v (u :: others) /\ window_jones v w p.
Proof. exact windows. Qed.
Print Assumptions C97_window_jones.

Theorem C97_new_windows : forall t u others r, cal_concat t CalFreq u others = Ok r -> windows_in_order r.
Proof. exact new_windows. Qed.
Print Assumptions C97_new_windows.

(** Axes that the object does not have, and objects that do not agree with it, are refused. *)
Theorem C97_refused : forall t axis u others,
  ~ axis_of u axis \/ (exists v, In v others /\ ~ cal_fits t axis u v) -> cal_concat t axis u others = Err ValueError.
Proof. exact refused. Qed.
Print Assumptions C97_refused.

(** Objects that agree are concatenated. *)
Theorem C97_accepted : forall t axis u others,
  axis_of u axis -> (forall v, In v others -> cal_fits t axis u v) ->
  (forall v, In v (u :: others) -> cal_shaped v) ->
  (axis = CalTime -> forall v, In v others -> same_time_kinds u v) ->
  (axis = CalFreq -> forall v w, In v (u :: others) -> In w (c_flex v) -> In w (c_spws v)) ->
  (axis <> CalFreq -> axis <> CalSpw -> c_wide u = true -> forall v, In v others -> length (c_spws u) = length (c_spws v)) ->
  exists r, cal_concat t axis u others = Ok r.
Proof. exact accepted. Qed.
Print Assumptions C97_accepted.

(** ** Cases *)
Definition tols : cal_tols := mkCalTols (0, 0)%Q (0, 0)%Q (0, 0)%Q (0, 0)%Q (0, 0)%Q (0, 0)%Q.
Definition cal (wide : bool) (ants spws freqs flex : list Z) fj (times : list Z) refs (s : Z) q : ucal :=
  {| c_gain := true; c_wide := wide; c_compat := 7; c_ants := ants; c_spws := spws;
     c_freq_range := if wide then map (fun w => (10 * w, 10 * w + 1)) spws else [];
     c_freqs := freqs; c_widths := map (fun _ => 1) freqs; c_flex := flex; c_flex_jones := fj;
     c_time_array := Some times; c_time_range := None; c_lst_array := Some times; c_lst_range := None;
     c_ref_ant := refs; c_int_time := map (fun _ => 8) times; c_jones := [0];
     c_sol := fun a f t j => (s + Z.of_nat a, Z.of_nat (f + 10 * t + 100 * j)); c_flags := fun _ _ _ _ => false;
     c_qual := q; c_tqual := None |}.
Definition low := cal false [1; 4] [0; 1] [10; 20] [0; 1] (Some [-5; -6]) [3] None 100 (Some (fun a _ _ _ => Z.of_nat a)).
Definition high := cal false [1; 4] [2] [30; 40] [2; 2] (Some [-7]) [3] None 200 None.
Definition later := cal false [1; 4] [0; 1] [10; 20] [0; 1] (Some [-5; -6]) [4; 5] None 300 None.
Ltac fitting := apply compatible_spec; vm_compute; reflexivity.
Lemma low_shaped : cal_shaped low.
Proof. unfold cal_shaped. cbn. repeat split; intros l E; try discriminate; injection E as <-; reflexivity. Qed.
Lemma high_shaped : cal_shaped high.
Proof. unfold cal_shaped. cbn. repeat split; intros l E; try discriminate; injection E as <-; reflexivity. Qed.
Lemma later_shaped : cal_shaped later.
Proof. unfold cal_shaped. cbn. repeat split; intros l E; try discriminate; injection E as <-; reflexivity. Qed.

Example C97_case :
  (forall v, In v [low; high; later] -> cal_shaped v) /\
  axis_of low CalFreq /\ axis_of low CalTime /\ cal_fits tols CalFreq low high /\ cal_fits tols CalTime low later /\
  same_time_kinds low later /\ windows_in_order low /\ windows_in_order high /\ windows_apart [low; high] /\
  (exists r, cal_concat tols CalFreq low [high] = Ok r /\ c_freqs r = [10; 20; 30; 40] /\ c_spws r = [0; 1; 2] /\
     c_flex_jones r = Some [-5; -6; -7] /\ c_sol r 1%nat 3%nat 0%nat 0%nat = (201, 1)) /\
  (exists r q, cal_concat tols CalTime low [later] = Ok r /\ c_time_array r = Some [3; 4; 5] /\ c_sol r 1%nat 0%nat 2%nat 0%nat = (301, 10) /\
     c_qual r = Some q /\ q 1%nat 0%nat 0%nat 0%nat = 1 /\ q 1%nat 0%nat 2%nat 0%nat = 0).
Proof.
  split; [intros v [<-|[<-|[<-|[]]]]; [apply low_shaped|apply high_shaped|apply later_shaped]|].
  split; [split; intros E; (discriminate || split; reflexivity)|]. split; [split; discriminate|].
  split; [fitting|]. split; [fitting|]. split; [repeat split; cbn; congruence|].
  split; [split; [intros w; reflexivity|]; repeat constructor; exists 0%nat; split; [reflexivity|]; intros [|j] Hj; [discriminate|lia]|].
  split; [split; [intros w; cbn; tauto|]; repeat constructor|].
  split; [cbn; split; [|split; [intros v w []|exact I]]; intros v w [<-|[]] Hw Hw'; cbn in Hw, Hw'; lia|].
  split.
  - eexists. split; [vm_compute; reflexivity|]. repeat split.
  - eexists. eexists. split; [vm_compute; reflexivity|]. repeat split.
Qed.
Example C97_misfit_case : ~ cal_fits tols CalTime low high /\ ~ axis_of low CalSpw.
Proof.
  split; [|intros [H _]; discriminate (H eq_refl)].
  intros H. apply compatible_spec in H. vm_compute in H. discriminate H.
Qed.

(** If two objects share a window, the Jones term of another window may be wrong; *)
Definition high_and_low := cal false [1; 4] [0; 2] [30; 40] [0; 2] (Some [-5; -7]) [3] None 200 None.
Theorem C97_shared_window_refuted : exists t a b r w p q,
  cal_shaped a /\ cal_shaped b /\ windows_in_order a /\ windows_in_order b /\
  (forall x y z, window_jones a x y -> window_jones b x z -> y = z) /\
  cal_concat t CalFreq a [b] = Ok r /\ window_jones b w p /\ window_jones r w q /\ q <> p.
Proof.
  exists tols, low, high_and_low. eexists. exists 2, (-7), (-5).
  split; [apply low_shaped|].
  split; [unfold cal_shaped; cbn; repeat split; intros l E; try discriminate; injection E as <-; reflexivity|].
  split; [split; [intros w; reflexivity|]; repeat constructor; exists 0%nat; split; [reflexivity|]; intros [|j] Hj; [discriminate|lia]|].
  split; [split; [intros w; reflexivity|]; repeat constructor; exists 0%nat; split; [reflexivity|]; intros [|j] Hj; [discriminate|lia]|].
  split.
  { intros x y z (f & k & E & Hk & Hx & Hy) (g & m & E' & Hm & Hx' & Hz). cbn in E, E'. injection E as <-. injection E' as <-.
    destruct k as [|[|k]], m as [|[|m]]; cbn in *; try lia; congruence. }
  split; [vm_compute; reflexivity|].
  split; [exists [-5; -7], 1%nat; cbn; auto|]. split; [|discriminate].
  exists [-5; -6; -5], 2%nat. cbn. auto.
Qed.
Print Assumptions C97_shared_window_refuted.

(** if the first object does not list its windows in the order of their channels, even its own
    windows may be wrong. *)
Definition low_unordered := cal false [1; 4] [1; 0] [10; 20] [0; 1] (Some [-6; -5]) [3] None 100 None.
Theorem C97_window_order_refuted : exists t a b r w p q,
  cal_shaped a /\ cal_shaped b /\ windows_apart [a; b] /\ (forall w, In w (c_flex a) <-> In w (c_spws a)) /\
  cal_concat t CalFreq a [b] = Ok r /\ window_jones a w p /\ window_jones r w q /\ q <> p.
Proof.
  exists tols, low_unordered, high. eexists. exists 0, (-5), (-6).
  split; [unfold cal_shaped; cbn; repeat split; intros l E; try discriminate; injection E as <-; reflexivity|].
  split; [apply high_shaped|].
  split; [cbn; split; [|split; [intros v w []|exact I]]; intros v w [<-|[]] Hw Hw'; cbn in Hw, Hw'; lia|].
  split; [intros w; cbn; tauto|].
  split; [vm_compute; reflexivity|].
  split; [exists [-6; -5], 1%nat; cbn; auto|]. split; [|discriminate].
  exists [-6; -5; -7], 0%nat. cbn. repeat split; lia.
Qed.
Print Assumptions C97_window_order_refuted.

(** Windows of wide_band objects are not compared when times (antennas, Jones terms) are
    concatenated: solutions may end up in a window their object does not have. *)
Definition wide_now := cal true [1; 4] [0; 1] [] [] None [3] None 100 None.
Definition wide_later := cal true [1; 4] [5; 6] [] [] None [4] None 300 None.
Theorem C97_wide_windows_refuted : exists t a b r x y z p,
  cal_shaped a /\ cal_shaped b /\ same_time_kinds a b /\ cal_concat t CalTime a [b] = Ok r /\
  ~ has_time a z /\ has_time b z /\ ~ has_chan b y /\ solution r x y z p (c_sol b 0%nat 0%nat 0%nat 0%nat, false, None).
Proof.
  exists tols, wide_now, wide_later. eexists. exists 1, (0, 0), 4, 0.
  split; [unfold cal_shaped; cbn; repeat split; intros l E; try discriminate; injection E as <-; reflexivity|].
  split; [unfold cal_shaped; cbn; repeat split; intros l E; try discriminate; injection E as <-; reflexivity|].
  split; [repeat split; cbn; congruence|]. split; [vm_compute; reflexivity|].
  split; [intros (k & Hk & E); cbn in Hk; destruct k as [|k]; [discriminate E|lia]|].
  split; [exists 0%nat; split; [cbn; lia|reflexivity]|].
  split; [intros (k & Hk & E); cbn in Hk; destruct k as [|[|k]]; [discriminate E|discriminate E|lia]|].
  exists 0%nat, 0%nat, 1%nat, 0%nat. cbn. repeat split; lia.
Qed.
Print Assumptions C97_wide_windows_refuted.

(** Reference antennas by time are those of the first object, whatever those of the others are. *)
Theorem C97_references_refuted : exists t a b r,
  cal_shaped a /\ cal_shaped b /\ cal_concat t CalFreq a [b] = Ok r /\
  c_ref_ant a <> None /\ c_ref_ant b <> None /\ c_ref_ant r = c_ref_ant a /\ c_ref_ant r <> c_ref_ant b.
Proof.
  exists tols, (cal false [1; 4] [0] [10] [0] None [3] (Some [1]) 100 None), (cal false [1; 4] [1] [20] [1] None [3] (Some [4]) 200 None). eexists.
  split; [unfold cal_shaped; cbn; repeat split; intros l E; try discriminate; injection E as <-; reflexivity|].
  split; [unfold cal_shaped; cbn; repeat split; intros l E; try discriminate; injection E as <-; reflexivity|].
  split; [vm_compute; reflexivity|]. cbn. repeat split; discriminate.
Qed.
Print Assumptions C97_references_refuted.
