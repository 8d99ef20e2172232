From Coq Require Import List ZArith QArith Qround Qcanon Bool Arith Lia Lqa Sorted Permutation.
From Verif Require Import Lib.Py Lib.Np Lib.Sorting Lib.QSum Model.FreqAvg Model.Resample Spec.ResampleSpec.
Import ListNotations.
Open Scope Qc_scope.

Lemma qle_spec a b : qle a b = true <-> a <= b.
Proof. unfold qle, Qcle. apply Qle_bool_iff. Qed.
Lemma qle_false a b : qle a b = false <-> b < a.
Proof.
  split; intros H.
  - destruct (Qclt_le_dec b a) as [L|L]; [exact L|]. apply qle_spec in L. congruence.
  - destruct (qle a b) eqn:E; [|reflexivity]. apply qle_spec in E. exfalso. exact (Qclt_not_le _ _ H E).
Qed.
Lemma qlt_spec a b : qlt a b = true <-> a < b.
Proof. unfold qlt. rewrite negb_true_iff. apply qle_false. Qed.
Lemma qlt_false a b : qlt a b = false <-> b <= a.
Proof. unfold qlt. rewrite negb_false_iff. apply qle_spec. Qed.
Lemma qceq_spec a b : qceq a b = true <-> a = b.
Proof. unfold qceq. destruct (Qc_eq_dec a b); split; intros; congruence. Qed.

(** Linear arithmetic over Qc. *)
Ltac qcnorm :=
  unfold Qcle, Qclt, Qcminus in *;
  repeat match goal with
  | H : context [this (?a + ?b)] |- _ => change (this (a + b)) with (Qred (this a + this b)) in H; rewrite (Qred_correct (this a + this b)) in H
  | H : context [this (?a * ?b)] |- _ => change (this (a * b)) with (Qred (this a * this b)) in H; rewrite (Qred_correct (this a * this b)) in H
  | H : context [this (- ?a)] |- _ => change (this (- a)) with (Qred (- this a)) in H; rewrite (Qred_correct (- this a)) in H
  | |- context [this (?a + ?b)] => change (this (a + b)) with (Qred (this a + this b)); rewrite (Qred_correct (this a + this b))
  | |- context [this (?a * ?b)] => change (this (a * b)) with (Qred (this a * this b)); rewrite (Qred_correct (this a * this b))
  | |- context [this (- ?a)] => change (this (- a)) with (Qred (- this a)); rewrite (Qred_correct (- this a))
  end.
Ltac qlra := qcnorm; cbn [this Q2Qc] in *; rewrite ?Qred_correct in *; lra.

Lemma qz_add a b : qz (a + b) = qz a + qz b.
Proof. apply Qc_is_canon. unfold qz, Qcplus, Q2Qc. cbn [this]. rewrite !Qred_correct. rewrite inject_Z_plus. reflexivity. Qed.
Lemma qz_mul a b : qz (a * b) = qz a * qz b.
Proof. apply Qc_is_canon. unfold qz, Qcmult, Q2Qc. cbn [this]. rewrite !Qred_correct. rewrite inject_Z_mult. reflexivity. Qed.
Lemma qz_le a b : (a <= b)%Z -> qz a <= qz b.
Proof. intros H. unfold Qcle, qz, Q2Qc. cbn [this]. rewrite !Qred_correct. rewrite <- Zle_Qle. exact H. Qed.
Lemma qz_lt a b : (a < b)%Z -> qz a < qz b.
Proof. intros H. unfold Qclt, qz, Q2Qc. cbn [this]. rewrite !Qred_correct. rewrite <- Zlt_Qlt. exact H. Qed.
Lemma qz_nonzero a : a <> 0%Z -> qz a <> 0.
Proof. intros H E. apply H. unfold qz in E. apply (proj1 (Q2Qc_eq_iff _ _)) in E. unfold Qeq, inject_Z in E. cbn in E. lia. Qed.
Lemma qz_of_nat n : qz (Z.of_nat n) = qnat n.
Proof. reflexivity. Qed.
Lemma this_qz a : (this (qz a) == inject_Z a)%Q.
Proof. unfold qz, Q2Qc. cbn [this]. apply Qred_correct. Qed.

Lemma qcabs_bound a b : qle (qcabs a) b = true <-> a <= b /\ - a <= b.
Proof.
  rewrite qle_spec. unfold qcabs. destruct (qle 0 a) eqn:E.
  - apply qle_spec in E. split; [intros H; split; [exact H|qlra]|intros [H _]; exact H].
  - apply qle_false in E. split; [intros H; split; [qlra|exact H]|intros [_ H]; exact H].
Qed.

Lemma near_spec a b : near a b = true <-> a - b <= milli /\ b - a <= milli.
Proof.
  unfold near, qclose. rewrite qcabs_bound.
  assert (E : Q2Qc (1 # 1000) + 0 * qcabs b = milli) by (unfold milli; ring). rewrite E.
  assert (E2 : - (a - b) = b - a) by ring. rewrite E2. tauto.
Qed.

Lemma too_long_spec m r : too_long m r = true <-> is_long m r.
Proof.
  unfold too_long, is_long. rewrite andb_true_iff, qlt_spec, negb_true_iff, <- not_true_iff_false, near_spec.
  unfold milli. split.
  - intros [H N]. destruct (Qclt_le_dec (m + Q2Qc (1 # 1000)) (t_int r)) as [L|L]; [exact L|].
    exfalso. apply N. split; qlra.
  - intros H. split; [qlra|]. intros [A _]. qlra.
Qed.
Lemma too_short_spec m r : too_short m r = true <-> is_short m r.
Proof.
  unfold too_short, is_short. rewrite andb_true_iff, qlt_spec, negb_true_iff, <- not_true_iff_false, near_spec.
  unfold milli. split.
  - intros [H N]. destruct (Qclt_le_dec (t_int r + Q2Qc (1 # 1000)) m) as [L|L]; [exact L|].
    exfalso. apply N. split; qlra.
  - intros H. split; [qlra|]. intros [_ A]. qlra.
Qed.
Lemma over_min_spec m w : over_min m (total_time w) = true <-> reaches m w.
Proof.
  unfold over_min, reaches. rewrite orb_true_iff, qlt_spec, near_spec. unfold milli. split.
  - intros [H|[A B]]; qlra.
  - intros H. destruct (Qclt_le_dec m (total_time w)) as [L|L]; [left; exact L|]. right. split; qlra.
Qed.
