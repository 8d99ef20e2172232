(** Sums and means of exact rationals. *)
From Coq Require Import List ZArith QArith Qcanon Permutation.
Import ListNotations.
Open Scope Qc_scope.

Definition qnat (n : nat) : Qc := Q2Qc (inject_Z (Z.of_nat n)).
Definition qsum (l : list Qc) : Qc := fold_right Qcplus 0 l.
Definition qmean (l : list Qc) : Qc := qsum l / qnat (length l).

Lemma qsum_app a b : qsum (a ++ b) = qsum a + qsum b.
Proof. induction a as [|x a IH]; simpl; [ring|]. rewrite IH. ring. Qed.

Lemma qsum_perm a b : Permutation a b -> qsum a = qsum b.
Proof. induction 1; simpl; try congruence; ring. Qed.

Lemma qsum_concat l : qsum (concat l) = qsum (map qsum l).
Proof. induction l as [|x l IH]; [reflexivity|]. simpl. rewrite qsum_app, IH. reflexivity. Qed.

Lemma qsum_nonneg l : (forall x, In x l -> 0 <= x) -> 0 <= qsum l.
Proof.
  induction l as [|x l IH]; intros H; simpl; [apply Qcle_refl|].
  setoid_replace 0 with (0 + 0) at 1 by ring. apply Qcplus_le_compat; [apply H; left; reflexivity|].
  apply IH. intros y Hy. apply H. right. exact Hy.
Qed.

Lemma qsum_zero l : (forall x, In x l -> 0 <= x) -> qsum l = 0 -> forall x, In x l -> x = 0.
Proof.
  induction l as [|y l IH]; intros H E x Hx; [destruct Hx|]. simpl in E.
  assert (Hy : 0 <= y) by (apply H; left; reflexivity).
  assert (Hl : 0 <= qsum l) by (apply qsum_nonneg; intros z Hz; apply H; right; exact Hz).
  assert (Ey : y = 0).
  { apply Qcle_antisym; [|exact Hy]. setoid_replace y with (y + qsum l - qsum l) by ring.
    rewrite E. setoid_replace 0 with (0 - 0) at 2 by ring. unfold Qcminus.
    apply Qcplus_le_compat; [apply Qcle_refl|]. apply Qcopp_le_compat. exact Hl. }
  subst y. destruct Hx as [<-|Hx]; [reflexivity|].
  apply IH; try assumption; [intros z Hz; apply H; right; exact Hz|]. rewrite <- E. ring.
Qed.

Lemma qnat_nonzero n : n <> O -> qnat n <> 0.
Proof.
  intros Hn E. unfold qnat in E. apply Hn.
  apply (proj1 (Q2Qc_eq_iff _ _)) in E. unfold Qeq, inject_Z in E. simpl in E. Lia.lia.
Qed.
