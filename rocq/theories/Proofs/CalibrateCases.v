(** Concrete calibrations. *)
From Coq Require Import List ZArith QArith Qcanon Bool Arith Sorted String Lia.
From Verif Require Import Lib.Py Lib.Np Lib.Cube Model.UVData Model.Access Model.FreqAvg Model.Calibrate
  Spec.BlsSpec Spec.AccessSpec Spec.FlagSpec Spec.CalibrateSpec Proofs.Samples Proofs.AccessRead Proofs.FlagCases
  Proofs.CalibrateTop Proofs.CalibrateTotal.
Import ListNotations.
Open Scope Z_scope.
Open Scope list_scope.
Notation length := List.length.

Definition whole (n : Z) : Qc := Q2Qc (inject_Z n).
(** Antennas 0, 1, 2 are A, B, C; east and north dipoles, x to the north *)
Definition seen (rows : list (Z * Z * Z)) (nb nt : nat) : vdata :=
  mkV (clean rows [-5; -6] nb nt) (fun i j p : nat => (whole (Z.of_nat (1 + i)), whole (Z.of_nat (j + p))))
      [0; 1; 2] ["A"; "B"; "C"]%string (Some "north"%string) "uncalib"%string None.
(** Antennas 7, 3, 9 are B, A, C; x to the east *)
Definition ramp (a f t j : nat) : cqc := (whole (Z.of_nat (1 + a + 10 * t)), whole (Z.of_nat (f + j))).
Definition open_ (a f t j : nat) : bool := false.
Definition solved (times : ktimes) (freqs : list Z) (gain : nat -> nat -> nat -> nat -> cqc) (flag : nat -> nat -> nat -> nat -> bool)
    (mult : bool) : cal :=
  mkCal [3; 7; 9] [7; 3; 9] ["B"; "A"; "C"]%string [-5; -6] times freqs gain flag mult (Some "Jy"%string) (Some AvgConv) "east"%string.
Definition usual : options := mkOpts true false false true true None None.

Lemma seen_well_formed rows nb nt times freqs g fl m : rows <> [] -> freqs <> [] ->
  match times with KTimes l => l <> [] | KRanges l => l <> [] end ->
  Forall (fun r => 0 <= snd (fst r) < 2048 /\ 0 <= snd r < 2048) rows -> well_formed (seen rows nb nt) (solved times freqs g fl m).
Proof.
  intros H1 H2 H3 H4. split; [apply clean_consistent; [exact H1|discriminate|exact H4]|].
  split; [repeat constructor; simpl; intuition discriminate|]. split; [repeat constructor; simpl; lia|].
  split; [repeat constructor; simpl; lia|]. split; [reflexivity|]. split; [repeat constructor; simpl; intuition discriminate|]. split; [reflexivity|].
  split; [repeat constructor; simpl; lia|]. split; [repeat constructor; simpl; lia|]. split; [exact H2|].
  unfold k_ntimes, solved. cbn [k_times]. destruct times as [l|l]; (destruct l; [contradiction|discriminate]).
Qed.
Lemma seen_compatible rows nb nt times freqs g fl m : freqs = [100; 200; 300] \/ freqs = [300; 200; 100] ->
  Forall (fun r => 0 <= snd (fst r) < 3 /\ 0 <= snd r < 3) rows ->
  nt = length (nodup Z.eq_dec (map (fun r => fst (fst r)) rows)) ->
  match times with
  | KTimes l => forall t, In t (map (fun r => fst (fst r)) rows) -> In t l
  | KRanges l => forall t, In t (map (fun r => fst (fst r)) rows) -> exists r, In r l /\ within r t
  end ->
  compatible 0 0 usual (seen rows nb nt) (solved times freqs g fl m).
Proof.
  intros Hf Hr Hn Ht. split.
  { intros x Hx.
    assert (Rx : 0 <= x < 3).
    { rewrite Forall_forall in Hr. unfold seen, clean, sample in Hx. cbn in Hx. rewrite !in_map_iff in Hx.
      destruct Hx as [(r & <- & I)|(r & <- & I)]; apply Hr in I; tauto. }
    assert (Dx : x = 0 \/ x = 1 \/ x = 2) by lia.
    destruct Dx as [-> | [-> | ->]]; (split; [simpl; tauto|intros _]).
    - exists "A"%string, 3. split; [exists 0%nat; split; reflexivity|]. split; [exists 1%nat; split; reflexivity|simpl; tauto].
    - exists "B"%string, 7. split; [exists 1%nat; split; reflexivity|]. split; [exists 0%nat; split; reflexivity|simpl; tauto].
    - exists "C"%string, 9. split; [exists 2%nat; split; reflexivity|]. split; [exists 2%nat; split; reflexivity|simpl; tauto]. }
  split; [repeat constructor; simpl; lia|]. split; [simpl; tauto|]. split; [repeat constructor; simpl; lia|].
  split; [intros p Hp; unfold seen, clean, sample in Hp; simpl in Hp; destruct p as [|[|p]]; [vm_compute; tauto|vm_compute; tauto|lia]|].
  split; [intros K; discriminate K|]. split; [discriminate|]. split.
  { intros f If. exists f. split; [|lia]. unfold solved. cbn [k_freqs]. unfold seen, clean, sample in If. cbn in If.
    destruct Hf as [-> | ->]; simpl; tauto. }
  split; [exact Hn|]. split.
  { unfold solved. cbn [k_times]. destruct times as [l|l]; right; intros t It; specialize (Ht t It); [exists t; split; [exact Ht|lia]|exact Ht]. }
  split; [discriminate|]. split; reflexivity.
Qed.

(** Two times of three pairs, solutions at the same times *)
Definition good_rows : list (Z * Z * Z) := [(1, 0, 1); (1, 2, 0); (2, 0, 1); (2, 2, 0)].
Definition good : vdata := seen good_rows 2 2.
Definition gains : cal := solved (KTimes [1; 2]) [100; 200; 300] ramp (fun a f _ _ => (a =? 2)%nat && (f =? 1)%nat) true.

Lemma clear_two t1 t2 : t1 < t2 -> clear_times 0 [t1; t2].
Proof. intros H. split; [repeat constructor; exact H|]. intros i j [H1 H2]. cbn in H2. destruct i as [|i]; destruct j as [|[|j]]; cbn; lia. Qed.
Lemma clear_three : clear_times 0 [100; 200; 300].
Proof. split; [repeat constructor|]. intros i j [H1 H2]. cbn in H2. destruct i as [|[|i]]; destruct j as [|[|[|j]]]; cbn; lia. Qed.

Lemma good_well_formed : well_formed good gains.
Proof. apply seen_well_formed; try discriminate. repeat constructor; simpl; lia. Qed.
Lemma good_compatible : compatible 0 0 usual good gains.
Proof. apply seen_compatible; [left; reflexivity|repeat constructor; simpl; lia|reflexivity|]. simpl. tauto. Qed.
Lemma pair_found u a b i : In i (pair_rows u a b) -> nth i (ant_1_array u) 0 = a /\ nth i (ant_2_array u) 0 = b /\ (i < length (time_array u))%nat.
Proof. unfold pair_rows. rewrite filter_In, in_seq, andb_true_iff, !Z.eqb_eq. lia. Qed.
Lemma good_aligned : aligned 0 0 good gains.
Proof.
  split; [apply clear_three|]. split; [apply clear_three|]. right. split; [apply clear_two; reflexivity|].
  intros a b Hr. destruct (pair_rows (v_u good) a b) as [|i l] eqn:E; [contradiction|].
  assert (I : In i (pair_rows (v_u good) a b)) by (rewrite E; left; reflexivity). apply pair_found in I. destruct I as (A & B & C).
  change (i < 4)%nat in C. assert (D : (a = 0 /\ b = 1) \/ (a = 2 /\ b = 0)) by (destruct i as [|[|[|[|i]]]]; cbn in A, B; subst; try tauto; lia).
  destruct D as [[-> ->]|[-> ->]].
  - change (pair_times (v_u good) 0 1) with [1; 2]. split; [apply clear_two; reflexivity|]. simpl. intuition.
  - change (pair_times (v_u good) 2 0) with [1; 2]. split; [apply clear_two; reflexivity|]. simpl. intuition.
Qed.

Definition q2 (x : cqc) : Q * Q := (this (fst x), this (snd x)).
Definition outcome {A} (r : A * result unit) : option exn := match snd r with Ok _ => None | Err e => Some e end.
Lemma outcome_ok {A} (r : A * result unit) : outcome r = None -> r = (fst r, Ok tt).
Proof. destruct r as [v [[]|e]]; cbn; [reflexivity|discriminate]. Qed.
Lemma outcome_err {A} (r : A * result unit) e : outcome r = Some e -> r = (fst r, Err e).
Proof. destruct r as [v [[]|e']]; cbn; [discriminate|intros H; injection H as ->; reflexivity]. Qed.
Definition row_shown (v : vdata) (i p : nat) : list (Q * Q * bool) :=
  map (fun j => (q2 (v_vis v i j p), flag_array (v_u v) i j p)) (seq 0 3).

(** Solutions of the feeds of antennas 0 and 1 for the first polarization *)
Lemma seen_solves rows nb nt times freqs g fl m :
  solves (seen rows nb nt) (solved times freqs g fl m) 0 (-6) (0, 1)%nat /\
  solves (seen rows nb nt) (solved times freqs g fl m) 1 (-6) (1, 1)%nat.
Proof.
  split; (split; [|reflexivity]).
  - exists "A"%string, 3. split; [exists 0%nat; split; reflexivity|]. split; [exists 1%nat; split; reflexivity|reflexivity].
  - exists "B"%string, 7. split; [exists 1%nat; split; reflexivity|]. split; [exists 0%nat; split; reflexivity|reflexivity].
Qed.

Lemma q2_neq (x y : cqc) : Qeq_bool (fst (q2 x)) (fst (q2 y)) && Qeq_bool (snd (q2 x)) (snd (q2 y)) = false -> x <> y.
Proof. intros H ->. unfold q2 in H. cbn [fst snd] in H. rewrite !(proj2 (Qeq_bool_iff _ _) (Qeq_refl _)) in H. discriminate H. Qed.

(** What is wrong with a sample: not calibrated with solutions for its time and frequency *)
Lemma wrong_sample o v v' c i j p s1 s2 f t :
  solves v c (nth i (ant_1_array (v_u v)) 0) (feed1 v c p) s1 -> solves v c (nth i (ant_2_array (v_u v)) 0) (feed2 v c p) s2 ->
  (forall f', serves_freq 0 c (nth j (freq_array (v_u v)) 0) f' -> f' = f) ->
  (forall t', serves_time 0 c (nth i (time_array (v_u v)) 0) t' -> t' = t) ->
  k_multiply c = true -> undo o = false ->
  k_flag c (fst s1) f t (snd s1) = false -> k_flag c (fst s2) f t (snd s2) = false ->
  Qle_bool (this (norm2 (visibility_gain (flip_gain_conj o) (k_gain c (fst s1) f t (snd s1)) (k_gain c (fst s2) f t (snd s2))))) (1 # 10000000000000000) = false ->
  v_vis v' i j p <> cscale (factor o v c) (cmul (v_vis v i j p)
    (visibility_gain (flip_gain_conj o) (k_gain c (fst s1) f t (snd s1)) (k_gain c (fst s2) f t (snd s2)))) ->
  ~ sample_result 0 0 o v v' c i j p.
Proof.
  intros S1 S2 Hf Ht Hm Hu F1 F2 Hb Hn [_ H]. destruct (H s1 s2 S1 S2) as (f' & t' & Sf & St & C). rewrite (Hf f' Sf), (Ht t' St) in C.
  unfold sample_calibrated in C. cbv zeta in C. destruct C as [_ C]. destruct C as [_ C].
  - intros [_ [K|[K|K]]]; [|congruence|congruence]. unfold negligible in K. unfold norm2 in Hb.
    apply not_true_iff_false in Hb. apply Hb. apply Qle_bool_iff. unfold Qcle in K. exact K.
  - rewrite Hm, Hu in C. cbn [xorb] in C. contradiction.
Qed.

(** (a) rows of a baseline in decreasing time order *)
Definition late_first : vdata := seen [(2, 0, 1); (1, 0, 1)] 1 2.
Definition two_times : cal := solved (KTimes [1; 2]) [100; 200; 300] ramp open_ true.
Lemma time_order : exists v c v', well_formed v c /\ compatible 0 0 usual v c /\
  clear_times 0 (k_freqs c) /\ clear_times 0 (freq_array (v_u v)) /\
  uvcalibrate 0 0 usual v c = (v', Ok tt) /\ ~ sample_result 0 0 usual v v' c 0 0 0.
Proof.
  exists late_first, two_times, (fst (uvcalibrate 0 0 usual late_first two_times)).
  split; [apply seen_well_formed; try discriminate; repeat constructor; simpl; lia|].
  split; [apply seen_compatible; [left; reflexivity|repeat constructor; simpl; lia|reflexivity|simpl; tauto]|].
  split; [apply clear_three|]. split; [apply clear_three|].
  split; [apply outcome_ok; vm_compute; reflexivity|].
  destruct (seen_solves [(2, 0, 1); (1, 0, 1)] 1 2 (KTimes [1; 2]) [100; 200; 300] ramp open_ true) as [S1 S2].
  apply (wrong_sample usual late_first _ two_times 0 0 0 (0, 1)%nat (1, 1)%nat 0 1); try reflexivity; [exact S1|exact S2| | |].
  - intros f' [L D]. change (f' < 3)%nat in L. change (Z.abs (100 - nth f' [100; 200; 300] 0) <= 0) in D.
    destruct f' as [|[|[|f']]]; cbn in D; lia.
  - intros t' [L D]. change (t' < 2)%nat in L. destruct D as [D|D]; [discriminate D|]. change (Z.abs (2 - nth t' [1; 2] 0) <= 0) in D.
    destruct t' as [|[|t']]; cbn in D; lia.
  - apply q2_neq. vm_compute. reflexivity.
Qed.

(** (b) solutions with decreasing frequencies *)
Definition high_first : cal := solved (KTimes [1; 2]) [300; 200; 100] ramp open_ true.
Lemma freq_order : exists v c v', well_formed v c /\ compatible 0 0 usual v c /\
  (forall a b, pair_rows (v_u v) a b <> [] -> pair_times (v_u v) a b = [1; 2]) /\ k_times c = KTimes [1; 2] /\
  uvcalibrate 0 0 usual v c = (v', Ok tt) /\ ~ sample_result 0 0 usual v v' c 0 0 0.
Proof.
  exists good, high_first, (fst (uvcalibrate 0 0 usual good high_first)).
  split; [apply seen_well_formed; try discriminate; repeat constructor; simpl; lia|].
  split; [apply seen_compatible; [right; reflexivity|repeat constructor; simpl; lia|reflexivity|simpl; tauto]|].
  split.
  { intros a b Hr. destruct (pair_rows (v_u good) a b) as [|i l] eqn:E; [contradiction|].
    assert (I : In i (pair_rows (v_u good) a b)) by (rewrite E; left; reflexivity). apply pair_found in I. destruct I as (A & B & C).
    change (i < 4)%nat in C. assert (D : (a = 0 /\ b = 1) \/ (a = 2 /\ b = 0)) by (destruct i as [|[|[|[|i]]]]; cbn in A, B; subst; try tauto; lia).
    destruct D as [[-> ->]|[-> ->]]; reflexivity. }
  split; [reflexivity|]. split; [apply outcome_ok; vm_compute; reflexivity|].
  destruct (seen_solves good_rows 2 2 (KTimes [1; 2]) [300; 200; 100] ramp open_ true) as [S1 S2].
  apply (wrong_sample usual good _ high_first 0 0 0 (0, 1)%nat (1, 1)%nat 2 0); try reflexivity; [exact S1|exact S2| | |].
  - intros f' [L D]. change (f' < 3)%nat in L. change (Z.abs (100 - nth f' [300; 200; 100] 0) <= 0) in D.
    destruct f' as [|[|[|f']]]; cbn in D; lia.
  - intros t' [L D]. change (t' < 2)%nat in L. destruct D as [D|D]; [discriminate D|]. change (Z.abs (1 - nth t' [1; 2] 0) <= 0) in D.
    destruct t' as [|[|t']]; cbn in D; lia.
  - apply q2_neq. vm_compute. reflexivity.
Qed.

(** (c) a baseline without some of the times *)
Definition ragged : vdata := seen [(1, 0, 1); (2, 0, 1); (3, 0, 1); (1, 0, 2); (2, 0, 2)] 2 3.
Definition three_times : cal := solved (KTimes [1; 2; 3]) [100; 200; 300] ramp open_ true.
Lemma half_done : exists v c v', well_formed v c /\ compatible 0 0 usual v c /\
  clear_times 0 (k_freqs c) /\ clear_times 0 (freq_array (v_u v)) /\
  uvcalibrate 0 0 usual v c = (v', Err ValueError) /\
  v_vis v' 0%nat 0%nat 0%nat <> v_vis v 0%nat 0%nat 0%nat /\ v_units v' = v_units v.
Proof.
  exists ragged, three_times, (fst (uvcalibrate 0 0 usual ragged three_times)).
  split; [apply seen_well_formed; try discriminate; repeat constructor; simpl; lia|].
  split; [apply seen_compatible; [left; reflexivity|repeat constructor; simpl; lia|reflexivity|simpl; tauto]|].
  split; [apply clear_three|]. split; [apply clear_three|].
  split; [apply outcome_err; vm_compute; reflexivity|]. split; [apply q2_neq; vm_compute; reflexivity|]. vm_compute. reflexivity.
Qed.

(** (d) gains of 1e-5 *)
Definition faint : cal := solved (KTimes [1; 2]) [100; 200; 300] (fun _ _ _ _ => (Q2Qc (1 # 100000), 0)%Qc) open_ false.
Lemma faint_flagged : exists v c v', well_formed v c /\ aligned 0 0 v c /\ compatible 0 0 usual v c /\
  (forall a f t j, k_gain c a f t j <> (0, 0)%Qc /\ k_flag c a f t j = false) /\
  uvcalibrate 0 0 usual v c = (v', Ok tt) /\
  flag_array (v_u v) 0%nat 0%nat 0%nat = false /\ flag_array (v_u v') 0%nat 0%nat 0%nat = true /\ v_vis v' 0%nat 0%nat 0%nat = v_vis v 0%nat 0%nat 0%nat.
Proof.
  exists good, faint, (fst (uvcalibrate 0 0 usual good faint)).
  split; [apply seen_well_formed; try discriminate; repeat constructor; simpl; lia|].
  split; [exact good_aligned|].
  split; [apply seen_compatible; [left; reflexivity|repeat constructor; simpl; lia|reflexivity|simpl; tauto]|].
  split; [intros a f t j; split; [discriminate|reflexivity]|].
  split; [apply outcome_ok; vm_compute; reflexivity|].
  split; [reflexivity|]. split; [vm_compute; reflexivity|].
  assert (G : forall x y : cqc, Qeq_bool (fst (q2 x)) (fst (q2 y)) && Qeq_bool (snd (q2 x)) (snd (q2 y)) = true -> x = y).
  { intros [x1 x2] [y1 y2] K. unfold q2 in K. cbn [fst snd] in K. apply andb_true_iff in K. destruct K as [K1 K2].
    apply Qeq_bool_iff in K1, K2. f_equal; apply Qc_is_canon; assumption. }
  apply G. vm_compute. reflexivity.
Qed.

(** (e) undoing a relative calibration renames the unit *)
Definition in_jy : vdata := mkV (v_u good) (v_vis good) (v_numbers good) (v_names good) (v_xo good) "Jy"%string None.
Definition relative : cal :=
  mkCal [3; 7; 9] [7; 3; 9] ["B"; "A"; "C"]%string [-5; -6] (KTimes [1; 2]) [100; 200; 300] ramp open_ true None None "east"%string.
Lemma unit_lost : exists v c v1 v2, well_formed v c /\ aligned 0 0 v c /\
  uvcalibrate 0 0 usual v c = (v1, Ok tt) /\ uvcalibrate 0 0 (undoing usual) v1 c = (v2, Ok tt) /\
  v_units v1 = "Jy"%string /\ v_units v = "Jy"%string /\ v_units v2 = "uncalib"%string.
Proof.
  set (v1 := fst (uvcalibrate 0 0 usual in_jy relative)). exists in_jy, relative, v1, (fst (uvcalibrate 0 0 (undoing usual) v1 relative)).
  split; [exact good_well_formed|]. split; [exact good_aligned|].
  split; [apply outcome_ok; vm_compute; reflexivity|]. split; [apply outcome_ok; vm_compute; reflexivity|].
  repeat split; vm_compute; reflexivity.
Qed.

(** (f) conventions given for the calibration but not for undoing it *)
Definition no_conv : cal :=
  mkCal [3; 7; 9] [7; 3; 9] ["B"; "A"; "C"]%string [-5; -6] (KTimes [1; 2]) [100; 200; 300] ramp open_ true (Some "Jy"%string) None "east"%string.
Definition told : options := mkOpts true false false true true (Some SumConv) (Some AvgConv).
Lemma convention_forgotten : exists v c v1 v2, well_formed v c /\ aligned 0 0 v c /\
  uvcalibrate 0 0 told v c = (v1, Ok tt) /\ uvcalibrate 0 0 (undoing usual) v1 c = (v2, Ok tt) /\
  v_vis v 0%nat 0%nat 0%nat = (1, 0)%Qc /\ v_vis v2 0%nat 0%nat 0%nat = (Q2Qc 2, 0)%Qc.
Proof.
  set (v1 := fst (uvcalibrate 0 0 told good no_conv)). exists good, no_conv, v1, (fst (uvcalibrate 0 0 (undoing usual) v1 no_conv)).
  split; [exact good_well_formed|]. split; [exact good_aligned|].
  split; [apply outcome_ok; vm_compute; reflexivity|]. split; [apply outcome_ok; vm_compute; reflexivity|].
  assert (G : forall x y : cqc, Qeq_bool (fst (q2 x)) (fst (q2 y)) && Qeq_bool (snd (q2 x)) (snd (q2 y)) = true -> x = y).
  { intros [x1 x2] [y1 y2] K. unfold q2 in K. cbn [fst snd] in K. apply andb_true_iff in K. destruct K as [K1 K2].
    apply Qeq_bool_iff in K1, K2. f_equal; apply Qc_is_canon; assumption. }
  split; apply G; vm_compute; reflexivity.
Qed.
