(** A generic stable sort and the uniqueness of sorted arrangements. *)
From Coq Require Import List Permutation Sorted Arith ZArith Lia Bool.
Import ListNotations.

Section Sort.
  Context {A : Type} (leb : A -> A -> bool).

  (** Stable insertion sort; models numpy's [lexsort] and (with ties broken by
      position) [argsort], and Python's [sorted]. *)
  Fixpoint insert (x : A) (l : list A) : list A :=
    match l with
    | [] => [x]
    | y :: t => if leb x y then x :: l else y :: insert x t
    end.

  Fixpoint isort (l : list A) : list A :=
    match l with [] => [] | x :: t => insert x (isort t) end.

  Lemma insert_perm x l : Permutation (x :: l) (insert x l).
  Proof.
    induction l as [|y t IH]; simpl; [reflexivity|].
    destruct (leb x y); [reflexivity|].
    rewrite perm_swap. constructor. exact IH.
  Qed.

  Lemma isort_perm l : Permutation l (isort l).
  Proof.
    induction l as [|x t IH]; simpl; [reflexivity|].
    rewrite <- insert_perm. constructor. exact IH.
  Qed.

  Lemma isort_length l : length (isort l) = length l.
  Proof. symmetry; apply Permutation_length, isort_perm. Qed.

  Lemma isort_In x l : In x (isort l) <-> In x l.
  Proof.
    split; apply Permutation_in; [symmetry|]; apply isort_perm.
  Qed.

  Definition le x y := leb x y = true.

  Hypothesis leb_total : forall x y, leb x y = true \/ leb y x = true.
  Hypothesis leb_trans : forall x y z, leb x y = true -> leb y z = true -> leb x z = true.

  Lemma insert_sorted x l : StronglySorted le l -> StronglySorted le (insert x l).
  Proof.
    induction 1 as [|y t Hs IH Hall]; simpl.
    - repeat constructor.
    - destruct (leb x y) eqn:E.
      + constructor; [constructor; assumption|].
        constructor; [exact E|].
        eapply Forall_impl; [|exact Hall]. intros z Hz. unfold le in *. eauto.
      + constructor; [exact IH|].
        assert (Hyx : leb y x = true) by (destruct (leb_total x y); congruence).
        apply Forall_forall. intros z Hz.
        assert (In z (x :: t)) as [<-|Hz'].
        { eapply Permutation_in; [symmetry; apply insert_perm|exact Hz]. }
        * exact Hyx.
        * rewrite Forall_forall in Hall. auto.
  Qed.

  Lemma isort_sorted l : StronglySorted le (isort l).
  Proof. induction l; simpl; [constructor|]. apply insert_sorted; assumption. Qed.

  (** A sorted list is left alone. *)
  Lemma isort_sorted_id l : StronglySorted le l -> isort l = l.
  Proof.
    induction 1 as [|x t Hs IH Hall]; simpl; [reflexivity|].
    rewrite IH. destruct t as [|y t]; simpl; [reflexivity|].
    inversion Hall as [|? ? Hy _]; subst. unfold le in Hy. rewrite Hy. reflexivity.
  Qed.
End Sort.

(** Two lists that are strictly sorted by a transitive irreflexive relation and
    have the same members are equal. *)
Lemma sorted_unique {A} (lt : A -> A -> Prop)
  (lt_irrefl : forall x, ~ lt x x)
  (lt_trans : forall x y z, lt x y -> lt y z -> lt x z) :
  forall l l', StronglySorted lt l -> StronglySorted lt l' ->
  (forall x, In x l <-> In x l') -> l = l'.
Proof.
  induction l as [|x t IH]; intros l' Hs Hs' Heq.
  - destruct l' as [|y t']; [reflexivity|].
    exfalso. apply (Heq y). left; reflexivity.
  - destruct l' as [|y t'].
    { exfalso. apply (proj1 (Heq x)). left; reflexivity. }
    inversion Hs as [|? ? Hst Hall]; subst.
    inversion Hs' as [|? ? Hst' Hall']; subst.
    rewrite Forall_forall in Hall, Hall'.
    assert (x = y) as ->.
    { destruct (proj1 (Heq x) (or_introl eq_refl)) as [->|Hx]; [reflexivity|].
      destruct (proj2 (Heq y) (or_introl eq_refl)) as [->|Hy]; [reflexivity|].
      exfalso. apply (lt_irrefl x). eauto. }
    f_equal. apply IH; auto.
    intros z. split; intros Hz.
    + destruct (proj1 (Heq z) (or_intror Hz)) as [<-|]; [|assumption].
      exfalso. apply (lt_irrefl y). auto.
    + destruct (proj2 (Heq z) (or_intror Hz)) as [<-|]; [|assumption].
      exfalso. apply (lt_irrefl y). auto.
Qed.

Lemma StronglySorted_impl {A} (R S : A -> A -> Prop) l :
  (forall x y, In x l -> In y l -> R x y -> S x y) -> StronglySorted R l -> StronglySorted S l.
Proof.
  intros HRS Hs. induction Hs as [|x t Hs IH Hall]; constructor.
  - apply IH. intros; apply HRS; simpl; auto.
  - rewrite Forall_forall in *. intros y Hy. apply HRS; simpl; auto.
Qed.

Lemma StronglySorted_app {A} (R : A -> A -> Prop) l1 l2 :
  StronglySorted R (l1 ++ l2) <->
  StronglySorted R l1 /\ StronglySorted R l2 /\ (forall x y, In x l1 -> In y l2 -> R x y).
Proof.
  induction l1 as [|a l1 IH]; simpl.
  - split; [intros H; split; [constructor|split; [assumption|tauto]]|tauto].
  - split.
    + intros H. inversion H as [|? ? H1 H2]; subst. apply IH in H1 as (H1a & H1b & H1c).
      rewrite Forall_app in H2. destruct H2 as [H2a H2b].
      split; [constructor; assumption|]. split; [assumption|].
      intros x y [<-|Hx] Hy; [rewrite Forall_forall in H2b; auto|auto].
    + intros (H1 & H2 & H3). inversion H1 as [|? ? H1a H1b]; subst. constructor.
      * apply IH. split; [assumption|]. split; [assumption|]. auto.
      * apply Forall_app. split; [assumption|]. apply Forall_forall. auto.
Qed.

Lemma StronglySorted_filter {A} (R : A -> A -> Prop) (f : A -> bool) l :
  StronglySorted R l -> StronglySorted R (filter f l).
Proof.
  induction 1 as [|x t Hs IH Hall]; simpl; [constructor|].
  destruct (f x); [|exact IH]. constructor; [exact IH|].
  rewrite Forall_forall in *. intros y Hy. apply filter_In in Hy. apply Hall, Hy.
Qed.

Lemma StronglySorted_map {A B} (R : B -> B -> Prop) (f : A -> B) l :
  StronglySorted (fun x y => R (f x) (f y)) l <-> StronglySorted R (map f l).
Proof.
  induction l as [|a l IH]; simpl.
  - split; constructor.
  - split; intros H; inversion H as [|? ? H1 H2]; subst; constructor.
    + apply IH; assumption.
    + apply Forall_map. assumption.
    + apply IH; assumption.
    + rewrite Forall_map in H2. assumption.
Qed.

Lemma StronglySorted_nth {A} (R : A -> A -> Prop) (d : A) l :
  StronglySorted R l <->
  (forall i j, i < j -> j < length l -> R (nth i l d) (nth j l d)).
Proof.
  induction l as [|a l IH]; simpl.
  - split; [intros; lia|constructor].
  - split.
    + intros H i j Hij Hj. inversion H as [|? ? H1 H2]; subst.
      destruct j as [|j]; [lia|]. destruct i as [|i].
      * rewrite Forall_forall in H2. apply H2. apply nth_In. lia.
      * apply IH; [assumption|lia|lia].
    + intros H. constructor.
      * apply IH. intros i j Hij Hj. apply (H (S i) (S j)); lia.
      * apply Forall_forall. intros x Hx. apply (In_nth _ _ d) in Hx as (k & Hk & <-).
        apply (H 0 (S k)); lia.
Qed.

Lemma seq_sorted n m : StronglySorted lt (seq n m).
Proof.
  revert n; induction m as [|m IH]; intros n; simpl; constructor; [apply IH|].
  apply Forall_forall. intros x Hx. apply in_seq in Hx. lia.
Qed.

Lemma StronglySorted_lt_NoDup l : StronglySorted lt l -> NoDup l.
Proof.
  induction 1 as [|x t Hs IH Hall]; constructor; [|assumption].
  intros Hin. rewrite Forall_forall in Hall. apply Hall in Hin. lia.
Qed.

Lemma StronglySorted_Zlt_NoDup l : StronglySorted Z.lt l -> NoDup l.
Proof.
  induction 1 as [|x t Hs IH Hall]; constructor; [|assumption].
  intros Hin. rewrite Forall_forall in Hall. apply Hall in Hin. lia.
Qed.

Lemma insert_ext {A} (leb leb' : A -> A -> bool) x l :
  (forall y, In y l -> leb x y = leb' x y) -> insert leb x l = insert leb' x l.
Proof.
  induction l as [|y t IH]; simpl; intros H; [reflexivity|].
  rewrite (H y (or_introl eq_refl)), IH by (intros; apply H; right; assumption). reflexivity.
Qed.

Lemma isort_ext {A} (leb leb' : A -> A -> bool) l :
  (forall x y, In x l -> In y l -> leb x y = leb' x y) -> isort leb l = isort leb' l.
Proof.
  induction l as [|x t IH]; simpl; intros H; [reflexivity|].
  rewrite IH by (intros; apply H; right; assumption). apply insert_ext.
  intros y Hy. apply (proj1 (isort_In leb' y t)) in Hy. apply H; [left; reflexivity|right; exact Hy].
Qed.

Lemma insert_map {A B} (f : A -> B) (leb : B -> B -> bool) x l :
  map f (insert (fun a b => leb (f a) (f b)) x l) = insert leb (f x) (map f l).
Proof.
  induction l as [|y t IH]; simpl; [reflexivity|]. destruct (leb (f x) (f y)); simpl; [reflexivity|].
  rewrite IH. reflexivity.
Qed.

Lemma isort_map {A B} (f : A -> B) (leb : B -> B -> bool) l :
  map f (isort (fun a b => leb (f a) (f b)) l) = isort leb (map f l).
Proof. induction l as [|x t IH]; simpl; [reflexivity|]. rewrite insert_map, IH. reflexivity. Qed.
