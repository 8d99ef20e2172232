(** Averaging redundant baselines: examples. *)
From Coq Require Import List ZArith QArith Qcanon Bool Arith Lia.
From Verif Require Import Lib.Py Lib.Np Lib.Cube Lib.QSum Model.FreqAvg Model.Redundancy Model.Compress Spec.CompressSpec.
Import ListNotations.
Open Scope Z_scope.
Open Scope list_scope.

Definition q (z : Z) : Qc := Q2Qc (inject_Z z).
Definition one : Qc := q 1.
(** What a run leaves at a place: real part, imaginary part, samples, flag *)
Definition outcome (x : result cvis) (o j p : nat) : option (Q * Q * Q * bool) :=
  match x with Ok w => Some (this (fst (c_data w o j p)), this (snd (c_data w o j p)), this (c_ns w o j p), c_flag w o j p) | Err _ => None end.
Lemma outcome_at x o j p a b n f : outcome x o j p = Some (a, b, n, f) ->
  exists w, x = Ok w /\ this (fst (c_data w o j p)) = a /\ this (snd (c_data w o j p)) = b /\ this (c_ns w o j p) = n /\ c_flag w o j p = f.
Proof. destruct x as [w|]; [|discriminate]. intros H. unfold outcome in H. exists w. split; [reflexivity|]. repeat split; congruence. Qed.
Lemma this_q (x : Qc) (z : Z) : this x = inject_Z z -> x = q z.
Proof. intros H. apply Qc_is_canon. rewrite H. unfold q, Q2Qc. cbn [this]. symmetry. apply Qred_correct. Qed.

(** Two baselines, 10 and the reversed one 20; two polarizations, xy and yx.  The
    visibilities are the same but for the direction. *)
Definition crossed : cvis :=
  mkC [10; 20] [0; 0] 1 2 (fun i _ p => match i, p with 0%nat, 0%nat => (q 1, q 0) | 0%nat, _ => (q 3, q 0) | _, 0%nat => (q 3, q 0) | _, _ => (q 1, q 0) end)
      (fun _ _ _ => false) (fun _ _ _ => one).
Lemma crossed_out : outcome (compress_average 2 [[10; 20]] [20] crossed) 0 0 0 = Some (inject_Z 2, inject_Z 0, inject_Z 2, false).
Proof. vm_compute. reflexivity. Qed.

(** Two baselines, two channels, the first flagged in both *)
Definition half_flagged : cvis :=
  mkC [10; 20] [0; 0] 2 1 (fun i j _ => (q 5, q 0)) (fun _ j _ => (j =? 0)%nat) (fun _ _ _ => one).
Lemma half_flagged_out : outcome (compress_average 2 [[10; 20]] [] half_flagged) 0 0 0 = Some (inject_Z 0, inject_Z 0, inject_Z 0, true).
Proof. vm_compute. reflexivity. Qed.

(** Three baselines at times 0, 1 and 2, tolerance 2, everything flagged *)
Definition chained : cvis :=
  mkC [10; 20; 30] [0; 1; 2] 1 1 (fun _ _ _ => (q 5, q 0)) (fun _ _ _ => true) (fun _ _ _ => one).
Lemma chained_out : outcome (compress_average 2 [[10; 20; 30]] [] chained) 0 0 0 = Some (inject_Z 0, inject_Z 0, inject_Z 0, false).
Proof. vm_compute. reflexivity. Qed.

(** One baseline that has two rows at one time *)
Definition repeated : cvis :=
  mkC [10; 10; 20] [0; 0; 0] 1 1 (fun _ _ _ => (q 5, q 0)) (fun _ _ _ => true) (fun _ _ _ => one).
Lemma repeated_out : outcome (compress_average 2 [[10; 20]] [] repeated) 0 0 0 = Some (inject_Z 0, inject_Z 0, inject_Z 0, false).
Proof. vm_compute. reflexivity. Qed.

(** A good case: two times, baseline 20 reversed and missing the second time *)
Definition regular : cvis :=
  mkC [20; 10; 10; 30] [1; 0; 10; 0] 1 1 (fun i _ _ => (q (Z.of_nat i + 1), q 1)) (fun i _ _ => (i =? 3)%nat) (fun i _ _ => q (Z.of_nat i + 1)).
Definition regular_gps : list (list Z) := [[10; 20]; [30]].
Lemma regular_sound : sound regular_gps regular.
Proof.
  split; [reflexivity|]. split; [repeat constructor; cbn; intuition discriminate|]. split; [repeat constructor; discriminate|]. cbn. intuition.
Qed.
Lemma regular_no_chains : no_chains 2 [10; 20] regular.
Proof.
  intros i k l Hi Hk Hl Bi Bk Bl. cbn [regular c_bl length] in Hi, Hk, Hl. unfold near_in_time, time_at.
  destruct i as [|[|[|[|i]]]]; [| | | |lia]; destruct k as [|[|[|[|k]]]]; [| | | |lia| | | | |lia| | | | |lia| | | | |lia];
    (destruct l as [|[|[|[|l]]]]; [| | | |lia]); cbn in *; lia.
Qed.
Lemma regular_only : only_row 2 regular 1.
Proof. intros i Hi Hb Hn. cbn [regular c_bl length] in Hi. destruct i as [|[|[|[|i]]]]; [| | | |lia]; cbn in *; unfold near_in_time, time_at in Hn; cbn in Hn; lia. Qed.
Lemma regular_out : outcome (compress_average 2 regular_gps [20] regular) 0 0 0 = Some ((5 # 3)%Q, (1 # 3)%Q, inject_Z 3, false).
Proof. vm_compute. reflexivity. Qed.

(** ** What fails *)
Lemma neq_q (x : Qc) (z y : Z) : this x = inject_Z z -> z <> y -> x <> q y.
Proof.
  intros H N E. apply N. rewrite E in H. unfold q, Q2Qc in H. cbn [this] in H.
  assert (K : (inject_Z y == inject_Z z)%Q) by (rewrite <- H; symmetry; apply Qred_correct). unfold Qeq in K. cbn in K. lia.
Qed.
Theorem cross_pols : exists tol gps conjs v w (swap : nat -> nat) (u : nat -> nat -> cqc),
  0 < tol /\ sound gps v /\ no_chains tol (hd [] gps) v /\ only_row tol v 0 /\ compress_average tol gps conjs v = Ok w /\
  (forall p, (p < c_np v)%nat -> (swap p < c_np v)%nat /\ swap (swap p) = p) /\
  (forall i j p, (i < length (c_bl v))%nat -> (j < c_nf v)%nat -> (p < c_np v)%nat ->
     c_flag v i j p = false /\ c_data v i j p = if existsb (Z.eqb (bl_at v i)) conjs then cconj (u j (swap p)) else u j p) /\
  In (bl_at v 0) (hd [] gps) /\ c_data w 0%nat 0%nat 0%nat <> u 0%nat 0%nat.
Proof.
  destruct (outcome_at _ _ _ _ _ _ _ _ crossed_out) as (w & E & Ea & Eb & En & Ef).
  exists 2, [[10; 20]], [20], crossed, w, (fun p => (1 - p)%nat), (fun _ p => if (p =? 0)%nat then (q 1, q 0) else (q 3, q 0)).
  split; [lia|]. split; [|split; [|split; [|split; [exact E|split; [|split; [|split]]]]]].
  - split; [reflexivity|]. split; [repeat constructor; cbn; intuition discriminate|]. split; [repeat constructor; discriminate|]. cbn. intuition.
  - intros i k l Hi Hk Hl _ _ _ _ _. cbn [crossed c_bl length] in *. unfold near_in_time, time_at. destruct i as [|[|i]]; [| |lia]; (destruct l as [|[|l]]; [| |lia]); cbn; lia.
  - intros i Hi Hb _. cbn [crossed c_bl length] in Hi. destruct i as [|[|i]]; [reflexivity|discriminate|lia].
  - intros p Hp. cbn [crossed c_np] in *. destruct p as [|[|p]]; cbn; lia.
  - intros i j p Hi Hj Hp. cbn [crossed c_bl c_np c_nf length] in *. split; [reflexivity|]. destruct i as [|[|i]]; [| |lia]; (destruct p as [|[|p]]; [| |lia]); cbn; try reflexivity;
      unfold cconj; cbn [fst snd]; f_equal; apply Qc_is_canon; reflexivity.
  - left; reflexivity.
  - intros K. apply (neq_q (fst (c_data w 0%nat 0%nat 0%nat)) 2 1); [exact Ea|lia|]. rewrite K. reflexivity.
Qed.

Theorem flagged_lost : exists tol gps conjs v w r o,
  0 < tol /\ sound gps v /\ no_chains tol (hd [] gps) v /\ only_row tol v r /\ compress_average tol gps conjs v = Ok w /\ bl_at w o = bl_at v r /\
  let l := joined tol (hd [] gps) v r in
  (forall i, In i l -> c_flag v i 0%nat 0%nat = true /\ c_ns v i 0%nat 0%nat = one /\ c_data v i 0%nat 0%nat = (q 5, q 0)) /\ length l = 2%nat /\
  c_flag w o 0%nat 0%nat = true /\ c_ns w o 0%nat 0%nat = q 0 /\ c_data w o 0%nat 0%nat = (q 0, q 0).
Proof.
  destruct (outcome_at _ _ _ _ _ _ _ _ half_flagged_out) as (w & E & Ea & Eb & En & Ef).
  assert (B : c_bl w = [10]) by (assert (K : match compress_average 2 [[10; 20]] [] half_flagged with Ok x => c_bl x | Err _ => [] end = [10]) by (vm_compute; reflexivity); rewrite E in K; exact K).
  exists 2, [[10; 20]], [], half_flagged, w, 0%nat, 0%nat.
  split; [lia|]. split; [|split; [|split; [|split; [exact E|split; [unfold bl_at; rewrite B; reflexivity|]]]]].
  - split; [reflexivity|]. split; [repeat constructor; cbn; intuition discriminate|]. split; [repeat constructor; discriminate|]. cbn. intuition.
  - intros i k l Hi Hk Hl _ _ _ _ _. cbn [half_flagged c_bl length] in *. unfold near_in_time, time_at. destruct i as [|[|i]]; [| |lia]; (destruct l as [|[|l]]; [| |lia]); cbn; lia.
  - intros i Hi Hb _. cbn [half_flagged c_bl length] in Hi. destruct i as [|[|i]]; [reflexivity|discriminate|lia].
  - cbv zeta. split; [intros i _; repeat split|]. split; [reflexivity|]. split; [exact Ef|]. split; [apply this_q; exact En|].
    rewrite (surjective_pairing (c_data w 0%nat 0%nat 0%nat)). f_equal; apply this_q; assumption.
Qed.

Theorem unflagged_zeros : exists tol gps conjs v v' w w',
  0 < tol /\ sound gps v /\ sound gps v' /\
  only_row tol v 0 /\ ~ no_chains tol (hd [] gps) v /\ no_chains tol (hd [] gps) v' /\ ~ only_row tol v' 0 /\
  compress_average tol gps conjs v = Ok w /\ compress_average tol gps conjs v' = Ok w' /\
  (forall i, c_flag v i 0%nat 0%nat = true /\ c_flag v' i 0%nat 0%nat = true) /\
  c_flag w 0%nat 0%nat 0%nat = false /\ c_ns w 0%nat 0%nat 0%nat = q 0 /\ c_data w 0%nat 0%nat 0%nat = (q 0, q 0) /\
  c_flag w' 0%nat 0%nat 0%nat = false /\ c_ns w' 0%nat 0%nat 0%nat = q 0 /\ c_data w' 0%nat 0%nat 0%nat = (q 0, q 0).
Proof.
  assert (R : outcome (compress_average 2 [[10; 20; 30]] [] (mkC [10; 10; 20; 30] [0; 0; 0; 0] 1 1 (fun _ _ _ => (q 5, q 0)) (fun _ _ _ => true) (fun _ _ _ => one))) 0 0 0 = Some (inject_Z 0, inject_Z 0, inject_Z 0, false)) by (vm_compute; reflexivity).
  destruct (outcome_at _ _ _ _ _ _ _ _ chained_out) as (w & E & Ea & Eb & En & Ef). destruct (outcome_at _ _ _ _ _ _ _ _ R) as (w' & E' & Ea' & Eb' & En' & Ef').
  exists 2, [[10; 20; 30]], [], chained, (mkC [10; 10; 20; 30] [0; 0; 0; 0] 1 1 (fun _ _ _ => (q 5, q 0)) (fun _ _ _ => true) (fun _ _ _ => one)), w, w'.
  split; [lia|]. split; [|split; [|split; [|split; [|split; [|split; [|split; [exact E|split; [exact E'|]]]]]]]].
  - split; [reflexivity|]. split; [repeat constructor; cbn; intuition discriminate|]. split; [repeat constructor; discriminate|]. cbn. intuition.
  - split; [reflexivity|]. split; [repeat constructor; cbn; intuition discriminate|]. split; [repeat constructor; discriminate|]. cbn. intuition.
  - intros i Hi Hb _. cbn [chained c_bl length] in Hi. destruct i as [|[|[|i]]]; [reflexivity|discriminate|discriminate|lia].
  - intros K. specialize (K 0%nat 1%nat 2%nat). cbn in K. unfold near_in_time, time_at in K. cbn in K. assert (2 < 2) by (apply K; try lia; tauto). lia.
  - intros i k l Hi Hk Hl _ _ _ _ _. cbn [c_bl length] in *. unfold near_in_time, time_at. destruct i as [|[|[|[|i]]]]; [| | | |lia]; (destruct l as [|[|[|[|l]]]]; [| | | |lia]); cbn; lia.
  - intros K. specialize (K 1%nat). assert (1%nat = 0%nat) by (apply K; [cbn; lia|reflexivity|unfold near_in_time, time_at; cbn; lia]). discriminate.
  - split; [intros i; split; reflexivity|]. split; [exact Ef|]. split; [apply this_q; exact En|]. split; [rewrite (surjective_pairing (c_data w 0%nat 0%nat 0%nat)); f_equal; apply this_q; assumption|].
    split; [exact Ef'|]. split; [apply this_q; exact En'|]. rewrite (surjective_pairing (c_data w' 0%nat 0%nat 0%nat)); f_equal; apply this_q; assumption.
Qed.
