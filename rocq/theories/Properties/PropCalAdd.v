(** C79: combining calibration solutions. *)
From Coq Require Import List ZArith Bool Arith Lia Permutation Sorted String.
From Verif Require Import Lib.Py Lib.Np Lib.Cube Spec.FreqSpec Spec.AddSpec Spec.ToolsSpec Spec.CalSpec Model.UVData Model.Freq Model.UVCal
  Proofs.CalArrange Proofs.CalMove Proofs.CalSum Proofs.CalAdd.
Import ListNotations.
Notation length := List.length.
Open Scope list_scope.
Open Scope Z_scope.
Notation Ntimes := UVCal.Ntimes.
Notation add := UVCal.add.

(** The result is valid, its axes are the unions of the axes. *)
Theorem C79_axes :
  forall a b r,
  cal_ok a -> cal_ok b -> same_kinds a b -> shared_come_first a b -> add a b = Ok r ->
  cal_ok r /\ axes_united a b r /\ c_gain r = c_gain a /\ c_wide r = c_wide a /\ c_compat r = c_compat a.
Proof. intros a b r Ha Hb Hk Hs E. exact (whole_ok a b r Ha Hb Hk Hs E). Qed.
Print Assumptions C79_axes.

(** The solution for given labels is that of the object that has one, with its flag
    and quality; where neither has one it is zero and flagged. *)
Theorem C79_solutions :
  forall a b r x y z p c,
  cal_ok a -> cal_ok b -> same_kinds a b -> shared_come_first a b -> add a b = Ok r ->
  (solution r x y z p c <->
   exists c0, c = graded a b c0 /\
     (solution b x y z p c0 \/ solution a x y z p c0 \/
      (has_solution r x y z p /\ ~ has_solution a x y z p /\ ~ has_solution b x y z p /\ c0 = no_solution))).
Proof. intros a b r x y z p c Ha Hb Hk Hs E. exact (whole_solutions a b r Ha Hb Hk Hs E x y z p c). Qed.
Print Assumptions C79_solutions.

(** Total qualities are kept unless antennas are added. *)
Theorem C79_total_quality :
  forall a b r,
  cal_ok a -> cal_ok b -> same_kinds a b -> shared_come_first a b -> add a b = Ok r ->
  (c_tqual r <> None <-> (forall x, has_ant b x -> has_ant a x) /\ (c_tqual a <> None \/ c_tqual b <> None)) /\
  (c_tqual r <> None -> forall y z p q,
     total_quality r y z p q <->
     total_quality b y z p q \/ (~ has_total b y z p /\ total_quality a y z p q) \/
     (~ has_total b y z p /\ ~ has_total a y z p /\ (has_chan r y /\ has_time r z /\ has_jones r p) /\ q = 0)).
Proof.
  intros a b r Ha Hb Hk Hs E. split; [exact (whole_has_total a b r Ha Hb Hk Hs E)|].
  intros H y z p q. exact (whole_total a b r Ha Hb Hk Hs E y z p q H).
Qed.
Print Assumptions C79_total_quality.

(** What is recorded about times and channels comes from the first object, or from
    the second for those the first does not have. *)
Theorem C79_metadata :
  forall a b r,
  cal_ok a -> cal_ok b -> same_kinds a b -> shared_come_first a b -> add a b = Ok r ->
  (forall z m, about_time r z m <-> about_time a z m \/ (~ has_time a z /\ about_time b z m)) /\
  (forall y m, about_chan r y m <-> about_chan a y m \/ (~ has_chan a y /\ about_chan b y m)).
Proof.
  intros a b r Ha Hb Hk Hs E. split; intros; [apply (whole_times a b r Ha Hb Hk Hs E)|apply (whole_chans a b r Ha Hb Hk Hs E)].
Qed.
Print Assumptions C79_metadata.

(** The Jones terms of the windows, if the windows of the second object are all
    above those of the first and both are in increasing order, or no channel is new. *)
Theorem C79_window_jones :
  forall a b r w p,
  cal_ok a -> cal_ok b -> same_kinds a b -> shared_come_first a b -> add a b = Ok r ->
  (forall y, has_chan b y -> has_chan a y) \/
  ((forall x, In x (c_spws a) -> ~ In x (c_spws b)) /\ StronglySorted Z.lt (c_spws a ++ c_spws b)) ->
  (window_jones r w p <-> window_jones a w p \/ (~ In w (c_spws a) /\ window_jones b w p)).
Proof. intros a b r w p Ha Hb Hk Hs E. exact (whole_windows a b r Ha Hb Hk Hs E w p). Qed.
Print Assumptions C79_window_jones.

(** Objects that both have a solution for some labels are not combined. *)
Theorem C79_overlap_refused :
  forall a b x y z p,
  cal_ok a -> cal_ok b -> has_solution a x y z p -> has_solution b x y z p -> add a b = Err ValueError.
Proof. intros a b x y z p Ha Hb. exact (overlap_refused a b Ha Hb x y z p). Qed.
Print Assumptions C79_overlap_refused.

Theorem C79_different_refused : forall a b, ~ same_parameters a b -> add a b = Err ValueError.
Proof. exact different_refused. Qed.
Print Assumptions C79_different_refused.

Theorem C79_references_refused : forall a b, cal_ok a -> cal_ok b -> ~ same_references a b -> add a b = Err ValueError.
Proof. exact references_refused. Qed.
Print Assumptions C79_references_refused.

(** All others are, whatever the order of their labels. *)
Theorem C79_combined :
  forall a b,
  cal_ok a -> cal_ok b -> same_kinds a b -> same_parameters a b -> times_apart a b ->
  (forall x y z p, has_solution a x y z p -> ~ has_solution b x y z p) -> same_references a b -> totals_combine a b ->
  exists r, add a b = Ok r /\ cal_ok r.
Proof.
  intros a b Ha Hb Hk Hp Ht Hn Hr Hq. destruct (add_total a b Ha Hb Hk Hp Ht Hn Hr Hq) as (r & E).
  exists r. split; [exact E|]. exact (add_ok a b r Ha Hb Hk E).
Qed.
Print Assumptions C79_combined.

(** Cases *)
Definition small (wide : bool) (ants spws freqs flex : list Z) fj (times jones : list Z) s q tq : ucal :=
  {| c_gain := true; c_wide := wide; c_compat := 7; c_ants := ants; c_spws := spws;
     c_freq_range := if wide then map (fun w => (w, w + 1)) spws else [];
     c_freqs := freqs; c_widths := map (fun _ => 1) freqs; c_flex := flex; c_flex_jones := fj;
     c_time_array := Some times; c_time_range := None; c_lst_array := Some times; c_lst_range := None;
     c_ref_ant := None; c_int_time := map (fun _ => 8) times; c_jones := jones;
     c_sol := fun a f t j => (s + Z.of_nat a, Z.of_nat (f + 10 * t + 100 * j)); c_flags := fun _ _ _ _ => false;
     c_qual := q; c_tqual := tq |}.
Ltac ok_tac :=
  apply cal_ok_lists; split;
  [ split; [split; [reflexivity|]; split; [|split; [|split]]; intros l E; try discriminate; injection E as <-; reflexivity|];
    split; [first [reflexivity | split; [reflexivity|split; [reflexivity|]]; intros w; simpl; tauto]|];
    split; [repeat constructor; simpl; lia|]; intros l E; first [discriminate | injection E as <-; reflexivity]
  | cbn; repeat split; repeat constructor; simpl; intuition (try lia; try congruence) ].
Ltac kinds_tac := split; [split; intros K; discriminate|]; split; [split; intros K; reflexivity|]; split; intros ? ? K; discriminate.

Definition one : option (arr4 Z) := Some (fun _ _ _ _ => 1).
Definition left_part : ucal := small false [1; 4; 2] [0] [10; 20] [0; 0] None [3] [-5; -6] 100 one (Some (fun _ _ _ => 9)).
Definition right_part : ucal := small false [2; 1] [0] [20; 10] [0; 0] None [1] [-6; -5] 200 None (Some (fun _ _ _ => 8)).

Definition labels (r : ucal) := (c_ants r, c_spws r, chan_labels r, time_keys r, c_jones r, c_flex_jones r).
Definition entries (r : ucal) : list (Z * (Z * Z) * Z * Z * (cplx * bool * option Z)) :=
  flat_map (fun a => flat_map (fun f => flat_map (fun t => map (fun j =>
    (ant_at r a, chan_at r f, time_at r t, jones_at r j, entry r a f t j)) (seq 0 (Njones r))) (seq 0 (Ntimes r))) (seq 0 (Nchans r))) (seq 0 (Nants r)).

Example C79_case :
  cal_ok left_part /\ cal_ok right_part /\ same_kinds left_part right_part /\ shared_come_first left_part right_part /\
  same_parameters left_part right_part /\ times_apart left_part right_part /\ same_references left_part right_part /\
  totals_combine left_part right_part /\
  (forall x y z p, has_solution left_part x y z p -> ~ has_solution right_part x y z p) /\
  (forall y, has_chan right_part y -> has_chan left_part y) /\
  match add left_part right_part with
  | Ok r => labels r = ([2; 4; 1], [0], [(0, 20); (0, 10)], [1; 3], [-6; -5], None) /\
            nth 2 (entries r) (0, (0, 0), 0, 0, no_solution) = (2, (0, 20), 3, -6, (102, 101, false, Some 1)) /\
            nth 8 (entries r) (0, (0, 0), 0, 0, no_solution) = (4, (0, 20), 1, -6, (0, 0, true, Some 0)) /\
            nth 16 (entries r) (0, (0, 0), 0, 0, no_solution) = (1, (0, 20), 1, -6, (201, 0, false, Some 0))
  | Err _ => False
  end.
Proof.
  assert (A : cal_ok left_part) by ok_tac. assert (B : cal_ok right_part) by ok_tac.
  assert (S0 : forall i j, (i < j < 2)%nat -> i = 0%nat) by lia.
  do 2 (split; [assumption|]). split; [kinds_tac|].
  split.
  { split; [|split; [|split]]; intros i j Hij [k [Hk E]]; cbn in Hij, Hk.
    - assert (i = 0%nat) as -> by lia. exists 2%nat. split; [cbn; lia|reflexivity].
    - assert (i = 0%nat) as -> by lia. exists 1%nat. split; [cbn; lia|reflexivity].
    - lia.
    - assert (i = 0%nat) as -> by lia. exists 1%nat. split; [cbn; lia|reflexivity]. }
  split; [repeat split; intros K; first [reflexivity|discriminate]|].
  split; [intros la lb i j K; discriminate|]. split; [intros la lb i j K; discriminate|].
  split; [right; right; split; [right; left; discriminate|left; discriminate]|].
  split; [intros x y z p (_ & _ & (i & Hi & Ei) & _) (_ & _ & (j & Hj & Ej) & _); cbn in Hi, Hj; assert (i = 0%nat) as -> by lia; assert (j = 0%nat) as -> by lia; cbn in Ei, Ej; lia|].
  split; [intros y (i & Hi & <-); cbn in Hi; destruct i as [|[|i]]; [exists 1%nat|exists 0%nat|lia]; (split; [cbn; lia|reflexivity])|].
  vm_compute. repeat split.
Qed.

(** Without the condition on the order of the labels solutions are exchanged:
    antennas 1 and 2 at time 3, antennas 0 and 1 at time 5.  The result has at time
    5 the solution of antenna 0 for antenna 1. *)
Theorem C79_solutions_refuted :
  exists a b r x x' y z p c c',
    cal_ok a /\ cal_ok b /\ same_kinds a b /\ add a b = Ok r /\ ~ shared_come_first a b /\
    x <> x' /\ c <> c' /\ solution b x y z p c /\ solution b x' y z p c' /\
    solution r x y z p (graded a b c') /\ solution r x' y z p (graded a b c) /\ ~ solution r x y z p (graded a b c).
Proof.
  set (a := small false [1; 2] [0] [10] [0] None [3] [-5] 100 None None). set (b := small false [0; 1] [0] [10] [0] None [5] [-5] 200 None None).
  assert (A : cal_ok a) by ok_tac. assert (B : cal_ok b) by ok_tac. assert (K : same_kinds a b) by kinds_tac.
  assert (H : match add a b with Ok r => (Nants r, Nchans r, Ntimes r, Njones r) = (3, 1, 2, 1)%nat /\ labels r = ([0; 1; 2], [0], [(0, 10)], [3; 5], [-5], None) /\
    chan_at r 0%nat = (0, 10) /\ entry r 0%nat 0%nat 1%nat 0%nat = (201, 0, false, None) /\ entry r 1%nat 0%nat 1%nat 0%nat = (200, 0, false, None) | Err _ => False end)
    by (vm_compute; repeat split).
  destruct (add a b) as [r|] eqn:E; [|contradiction]. destruct H as (Hn & Hl & Hc & H0 & H1).
  injection Hn as N1 N2 N3 N4. unfold labels in Hl. injection Hl as L1 _ _ L2 L3 _.
  assert (Or : cal_ok r) by (apply (add_ok a b r A B K E)).
  assert (S0 : solution r 0 (0, 10) 5 (-5) (201, 0, false, None)).
  { exists 0%nat, 0%nat, 1%nat, 0%nat. unfold ant_at, time_at, jones_at. rewrite N1, N2, N3, N4, L1, L2, L3, Hc, H0. repeat split; lia. }
  assert (S1 : solution r 1 (0, 10) 5 (-5) (200, 0, false, None)).
  { exists 1%nat, 0%nat, 1%nat, 0%nat. unfold ant_at, time_at, jones_at. rewrite N1, N2, N3, N4, L1, L2, L3, Hc, H1. repeat split; lia. }
  exists a, b, r, 0, 1, (0, 10), 5, (-5), (200, 0, false, None), (201, 0, false, None).
  do 3 (split; [assumption|]). split; [exact E|].
  split.
  { intros (F & _). destruct (F 0%nat 1%nat) as (k & Hk & Ek); [cbn; lia|exists 0%nat; split; [cbn; lia|reflexivity]|].
    cbn in Hk. destruct k as [|[|k]]; [discriminate Ek|discriminate Ek|lia]. }
  split; [lia|]. split; [discriminate|].
  split; [exists 0%nat, 0%nat, 0%nat, 0%nat; repeat split; cbn; lia|]. split; [exists 1%nat, 0%nat, 0%nat, 0%nat; repeat split; cbn; lia|].
  split; [exact S0|]. split; [exact S1|]. intros C. pose proof (solution_fun r _ _ _ _ _ _ Or S0 C) as X. discriminate X.
Qed.
Print Assumptions C79_solutions_refuted.

(** The Jones terms of the windows are exchanged if the window of the second object
    comes before that of the first, for channels and for wide bands. *)
Theorem C79_window_jones_refuted :
  forall wide : bool, exists a b r w w' p p',
    c_wide a = wide /\ cal_ok a /\ cal_ok b /\ same_kinds a b /\ shared_come_first a b /\ add a b = Ok r /\
    w <> w' /\ p <> p' /\ window_jones a w p /\ window_jones b w' p' /\ window_jones r w p' /\ window_jones r w' p.
Proof.
  intros wide.
  set (a := small wide [1] [2] (if wide then [] else [10]) (if wide then [] else [2]) (Some [-5]) [3] [0] 100 None None).
  set (b := small wide [1] [1] (if wide then [] else [20]) (if wide then [] else [1]) (Some [-6]) [3] [0] 200 None None).
  assert (A : cal_ok a) by (destruct wide; ok_tac). assert (B : cal_ok b) by (destruct wide; ok_tac).
  assert (H : match add a b with Ok r => c_spws r = [1; 2] /\ c_flex_jones r = Some [-5; -6] | Err _ => False end) by (destruct wide; vm_compute; split; reflexivity).
  destruct (add a b) as [r|] eqn:E; [|contradiction]. destruct H as (H1 & H2).
  exists a, b, r, 2, 1, (-5), (-6). split; [reflexivity|]. do 2 (split; [assumption|]). split; [kinds_tac|].
  split; [split; [|split; [|split]]; intros i j Hij; destruct wide; cbn in Hij; lia|].
  split; [exact E|]. split; [lia|]. split; [lia|].
  split; [exists [-5], 0%nat; repeat split; cbn; lia|]. split; [exists [-6], 0%nat; repeat split; cbn; lia|].
  split; [exists [-5; -6], 1%nat|exists [-5; -6], 0%nat]; rewrite H1, H2; repeat split; cbn; lia.
Qed.
Print Assumptions C79_window_jones_refuted.

(** Objects for the same time range cannot be combined, along whatever axis. *)
Theorem C79_same_range_refuted :
  exists a b, cal_ok a /\ cal_ok b /\ same_kinds a b /\ same_parameters a b /\ same_references a b /\ shared_come_first a b /\
    c_time_range a = c_time_range b /\ c_time_range a <> None /\
    (forall x y z p, has_solution a x y z p -> ~ has_solution b x y z p) /\ add a b = Err ValueError.
Proof.
  set (f := fun x : Z => {| c_gain := true; c_wide := false; c_compat := 7; c_ants := [x]; c_spws := [0]; c_freq_range := [];
     c_freqs := [10]; c_widths := [1]; c_flex := [0]; c_flex_jones := None;
     c_time_array := None; c_time_range := Some [(3, 5)]; c_lst_array := None; c_lst_range := Some [(3, 5)];
     c_ref_ant := None; c_int_time := [8]; c_jones := [-5];
     c_sol := fun _ _ _ _ => (1, 1); c_flags := fun _ _ _ _ => false; c_qual := None; c_tqual := None |}).
  assert (F : forall x, cal_ok (f x)) by (intros x; ok_tac).
  exists (f 1), (f 2). split; [apply F|]. split; [apply F|].
  split; [split; [split; reflexivity|]; split; [split; discriminate|]; split; intros l r K; injection K as <-; intros [<-|[]]; cbn; lia|].
  split; [repeat split; intros K; first [reflexivity|discriminate]|]. split; [intros l l' i j K; discriminate|].
  split; [split; [|split; [|split]]; intros i j Hij; cbn in Hij; lia|].
  split; [reflexivity|]. split; [discriminate|].
  split; [|reflexivity]. intros x y z p ((i & Hi & Ei) & _) ((j & Hj & Ej) & _). cbn in Hi, Hj.
  assert (i = 0%nat) as -> by lia. assert (j = 0%nat) as -> by lia. cbn in Ei, Ej. lia.
Qed.
Print Assumptions C79_same_range_refuted.

(** Total qualities make the combination fail: along times if there are no
    qualities; with several windows if only the second object has them. *)
Theorem C79_totals_refuted :
  (exists a b, cal_ok a /\ cal_ok b /\ same_kinds a b /\ same_parameters a b /\ c_tqual a <> None /\ c_tqual b <> None /\
     c_ants a = c_ants b /\ chan_labels a = chan_labels b /\ c_jones a = c_jones b /\ (forall z, has_time a z -> ~ has_time b z) /\
     add a b = Err AttributeError) /\
  (exists a b, cal_ok a /\ cal_ok b /\ same_kinds a b /\ same_parameters a b /\ c_wide a = true /\ (Nchans a > 1)%nat /\ c_tqual b <> None /\
     c_ants a = c_ants b /\ time_keys a = time_keys b /\ c_jones a = c_jones b /\ (forall y, has_chan a y -> ~ has_chan b y) /\
     add a b = Err IndexError).
Proof.
  split.
  - exists (small false [1] [2] [10] [2] None [3] [0] 100 None (Some (fun _ _ _ => 1))), (small false [1] [2] [10] [2] None [4] [0] 200 None (Some (fun _ _ _ => 1))).
    split; [ok_tac|]. split; [ok_tac|]. split; [kinds_tac|]. split; [repeat split; intros K; first [reflexivity|discriminate]|].
    do 2 (split; [discriminate|]). do 3 (split; [reflexivity|]). split; [|reflexivity].
    intros z (i & Hi & Ei) (j & Hj & Ej). cbn in Hi, Hj. assert (i = 0%nat) as -> by lia. assert (j = 0%nat) as -> by lia. cbn in Ei, Ej. lia.
  - exists (small true [1] [2; 3] [] [] None [3] [0] 100 None None), (small true [1] [4] [] [] None [3] [0] 200 None (Some (fun _ _ _ => 1))).
    split; [ok_tac|]. split; [ok_tac|]. split; [kinds_tac|]. split; [repeat split; intros K; first [reflexivity|discriminate]|].
    split; [reflexivity|]. split; [cbn; lia|]. split; [discriminate|]. do 3 (split; [reflexivity|]). split; [|reflexivity].
    intros y (i & Hi & Ei) (j & Hj & Ej). cbn in Hi, Hj. assert (j = 0%nat) as -> by lia. rewrite <- Ej in Ei.
    destruct i as [|[|i]]; [discriminate Ei|discriminate Ei|lia].
Qed.
Print Assumptions C79_totals_refuted.
