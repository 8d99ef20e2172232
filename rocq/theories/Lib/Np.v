(** numpy-level prelude: index lists, [nonzero], [take], [isin], [unique],
    [argsort]. *)
From Coq Require Import List Permutation Sorted Arith ZArith Lia Bool.
From Verif Require Import Lib.Sorting.
Import ListNotations.

(** [np.nonzero(mask)[0]] where [mask = f(l)] element by element. *)
Fixpoint where_from {A} (n : nat) (f : A -> bool) (l : list A) : list nat :=
  match l with
  | [] => []
  | x :: t => if f x then n :: where_from (S n) f t else where_from (S n) f t
  end.
Definition nonzero {A} (f : A -> bool) (l : list A) : list nat := where_from 0 f l.

(** Fancy indexing [l[idx]] with indices known to be in range (the default is
    never used by a theorem). *)
Definition take {A} (d : A) (l : list A) (idx : list nat) : list A :=
  map (fun i => nth i l d) idx.

(** Boolean-mask indexing [l[mask]]. *)
Fixpoint mask_select {A} (m : list bool) (l : list A) : list A :=
  match m, l with
  | b :: m', x :: l' => if b then x :: mask_select m' l' else mask_select m' l'
  | _, _ => []
  end.

(** [x in l] / [np.isin]. *)
Definition memb {A} (eqb : A -> A -> bool) (x : A) (l : list A) : bool :=
  existsb (eqb x) l.
Definition isinZ (x : Z) (l : list Z) : bool := memb Z.eqb x l.
Definition isinN (x : nat) (l : list nat) : bool := memb Nat.eqb x l.

(** [sorted(set(l))] / [np.unique(l)] on integers. *)
Fixpoint insert_uniqZ (x : Z) (l : list Z) : list Z :=
  match l with
  | [] => [x]
  | y :: t => if (x <? y)%Z then x :: l else if (x =? y)%Z then l else y :: insert_uniqZ x t
  end.
Definition uniqueZ (l : list Z) : list Z := fold_right insert_uniqZ [] l.

Fixpoint insert_uniqN (x : nat) (l : list nat) : list nat :=
  match l with
  | [] => [x]
  | y :: t => if x <? y then x :: l else if x =? y then l else y :: insert_uniqN x t
  end.
Definition uniqueN (l : list nat) : list nat := fold_right insert_uniqN [] l.

(** [np.argsort] with key function on positions; ties keep position order. *)
Definition argsort_by (leb : nat -> nat -> bool) (n : nat) : list nat :=
  isort leb (seq 0 n).

Definition argsortZ (keys : list Z) : list nat :=
  argsort_by (fun i j => (nth i keys 0 <=? nth j keys 0)%Z) (length keys).

(** Position of first occurrence ([list.index]). *)
Fixpoint index_of {A} (eqb : A -> A -> bool) (x : A) (l : list A) : option nat :=
  match l with
  | [] => None
  | y :: t => if eqb x y then Some 0 else option_map S (index_of eqb x t)
  end.

(** [a[i] = v]. *)
Fixpoint set_nth {A} (i : nat) (v : A) (l : list A) : list A :=
  match l, i with
  | [], _ => []
  | _ :: t, 0 => v :: t
  | x :: t, S i' => x :: set_nth i' v t
  end.

(* ------------------------------------------------------------------ *)
(** ** Lemmas *)

Lemma where_from_spec {A} (d : A) n f l i :
  In i (where_from n f l) <-> n <= i < n + length l /\ f (nth (i - n) l d) = true.
Proof.
  revert n; induction l as [|x t IH]; intros n; simpl.
  - split; [tauto|lia].
  - assert (Hcase : forall P : Prop,
      (n <= i < n + S (length t) /\ f (nth (i - n) (x :: t) d) = true) <->
      ((i = n /\ f x = true) \/ (S n <= i < S n + length t /\ f (nth (i - S n) t d) = true))).
    { intros _. split.
      - intros [Hr Hf]. destruct (Nat.eq_dec i n) as [->|Hne].
        + left. rewrite Nat.sub_diag in Hf. auto.
        + right. replace (i - n) with (S (i - S n)) in Hf by lia. simpl in Hf. split; [lia|assumption].
      - intros [[-> Hf]|[Hr Hf]].
        + rewrite Nat.sub_diag. split; [lia|assumption].
        + replace (i - n) with (S (i - S n)) by lia. simpl. split; [lia|assumption]. }
    rewrite (Hcase True). destruct (f x) eqn:Ef; simpl; rewrite IH; intuition congruence.
Qed.

Lemma nonzero_spec {A} (d : A) f l i :
  In i (nonzero f l) <-> i < length l /\ f (nth i l d) = true.
Proof.
  unfold nonzero. rewrite (where_from_spec d). rewrite Nat.sub_0_r.
  simpl. intuition lia.
Qed.

Lemma where_from_ge {A} n (f : A -> bool) l i : In i (where_from n f l) -> n <= i.
Proof.
  revert n; induction l as [|x t IH]; intros n; simpl; [tauto|].
  destruct (f x); simpl; intros H.
  - destruct H as [<-|H]; [lia|]. apply IH in H. lia.
  - apply IH in H. lia.
Qed.

Lemma where_from_sorted {A} n (f : A -> bool) l : StronglySorted lt (where_from n f l).
Proof.
  revert n; induction l as [|x t IH]; intros n; simpl; [constructor|].
  destruct (f x); [|apply IH]. constructor; [apply IH|].
  apply Forall_forall. intros i Hi. apply where_from_ge in Hi. lia.
Qed.

Lemma nonzero_sorted {A} (f : A -> bool) l : StronglySorted lt (nonzero f l).
Proof. apply where_from_sorted. Qed.

Lemma nonzero_NoDup {A} (f : A -> bool) l : NoDup (nonzero f l).
Proof. apply StronglySorted_lt_NoDup, nonzero_sorted. Qed.

Lemma nonzero_lt {A} (f : A -> bool) l i : In i (nonzero f l) -> i < length l.
Proof.
  destruct l as [|x t]; [simpl; tauto|]. intros H. apply (nonzero_spec x) in H. tauto.
Qed.

(** [nonzero] is the unique strictly increasing list of the matching positions. *)
Lemma nonzero_unique {A} (d : A) f l idx :
  StronglySorted lt idx ->
  (forall i, In i idx <-> i < length l /\ f (nth i l d) = true) ->
  idx = nonzero f l.
Proof.
  intros Hs Hspec. apply (sorted_unique lt); try (intros; lia); auto using nonzero_sorted.
  intros i. rewrite Hspec, (nonzero_spec d). reflexivity.
Qed.

Lemma where_from_map_filter {A} (f : A -> bool) l n (d : A) :
  map (fun i => nth (i - n) l d) (where_from n f l) = filter f l.
Proof.
  revert n; induction l as [|x t IH]; intros n; simpl; [reflexivity|].
  assert (H : map (fun i => nth (i - n) (x :: t) d) (where_from (S n) f t)
            = map (fun i => nth (i - S n) t d) (where_from (S n) f t)).
  { apply map_ext_in. intros i Hi. apply where_from_ge in Hi.
    replace (i - n) with (S (i - S n)) by lia. reflexivity. }
  destruct (f x); simpl; [rewrite Nat.sub_diag|]; simpl in H; rewrite H, IH; reflexivity.
Qed.

Lemma take_nonzero_filter {A} (d : A) f l : take d l (nonzero f l) = filter f l.
Proof.
  unfold take, nonzero. rewrite <- (where_from_map_filter f l 0 d).
  apply map_ext. intros i. rewrite Nat.sub_0_r. reflexivity.
Qed.

Lemma take_length {A} (d : A) l idx : length (take d l idx) = length idx.
Proof. apply map_length. Qed.

Lemma nth_take {A} (d d' : A) l idx k :
  k < length idx -> nth k (take d l idx) d' = nth (nth k idx 0) l d.
Proof.
  intros H. unfold take.
  rewrite (nth_indep _ d' ((fun i => nth i l d) 0)) by (rewrite map_length; exact H).
  rewrite (map_nth (fun i => nth i l d)). reflexivity.
Qed.

Lemma take_seq {A} (d : A) l : take d l (seq 0 (length l)) = l.
Proof.
  unfold take. apply (nth_ext _ _ d d); [rewrite map_length, seq_length; reflexivity|].
  intros n Hn. rewrite map_length, seq_length in Hn.
  rewrite (nth_indep _ d ((fun i => nth i l d) 0)) by (rewrite map_length, seq_length; exact Hn).
  rewrite (map_nth (fun i => nth i l d)). rewrite seq_nth by assumption. reflexivity.
Qed.

Lemma take_perm {A} (d : A) l idx :
  Permutation idx (seq 0 (length l)) -> Permutation (take d l idx) l.
Proof.
  intros H. rewrite <- (take_seq d l) at 2. unfold take. apply Permutation_map, H.
Qed.

Lemma take_take {A} (d : A) l i1 i2 :
  (forall k, In k i2 -> k < length i1) ->
  take d (take d l i1) i2 = take d l (take 0 i1 i2).
Proof.
  intros H. unfold take at 1 3 4. rewrite map_map. apply map_ext_in. intros k Hk.
  apply nth_take; auto.
Qed.

Lemma memb_spec {A} (eqb : A -> A -> bool) (H : forall x y, eqb x y = true <-> x = y) x l :
  memb eqb x l = true <-> In x l.
Proof.
  unfold memb. rewrite existsb_exists. split.
  - intros (y & Hy & He). apply H in He. subst; assumption.
  - intros Hx. exists x. split; [assumption|apply H; reflexivity].
Qed.

Lemma isinZ_spec x l : isinZ x l = true <-> In x l.
Proof. apply memb_spec, Z.eqb_eq. Qed.
Lemma isinN_spec x l : isinN x l = true <-> In x l.
Proof. apply memb_spec, Nat.eqb_eq. Qed.
Lemma isinZ_false x l : isinZ x l = false <-> ~ In x l.
Proof. rewrite <- isinZ_spec. destruct (isinZ x l); intuition congruence. Qed.
Lemma isinN_false x l : isinN x l = false <-> ~ In x l.
Proof. rewrite <- isinN_spec. destruct (isinN x l); intuition congruence. Qed.

Lemma insert_uniqZ_In x y l : In y (insert_uniqZ x l) <-> y = x \/ In y l.
Proof.
  induction l as [|z t IH]; simpl; [intuition|].
  destruct (x <? z)%Z eqn:E1; [simpl; intuition|].
  destruct (x =? z)%Z eqn:E2; simpl.
  - apply Z.eqb_eq in E2. subst. intuition.
  - rewrite IH. intuition.
Qed.

Lemma uniqueZ_In x l : In x (uniqueZ l) <-> In x l.
Proof.
  induction l as [|y t IH]; simpl; [tauto|].
  rewrite insert_uniqZ_In, IH. intuition.
Qed.

Lemma insert_uniqZ_sorted x l : StronglySorted Z.lt l -> StronglySorted Z.lt (insert_uniqZ x l).
Proof.
  induction 1 as [|y t Hs IH Hall]; simpl; [repeat constructor|].
  destruct (x <? y)%Z eqn:E1.
  - apply Z.ltb_lt in E1. constructor; [constructor; assumption|]. constructor; [assumption|].
    eapply Forall_impl; [|exact Hall]. simpl. lia.
  - destruct (x =? y)%Z eqn:E2; [constructor; assumption|].
    constructor; [exact IH|]. apply Forall_forall. intros z Hz.
    apply insert_uniqZ_In in Hz as [->|Hz]; [lia|]. rewrite Forall_forall in Hall. auto.
Qed.

Lemma uniqueZ_sorted l : StronglySorted Z.lt (uniqueZ l).
Proof. induction l; simpl; [constructor|]. apply insert_uniqZ_sorted; assumption. Qed.

Lemma uniqueZ_char l l' :
  StronglySorted Z.lt l' -> (forall x, In x l' <-> In x l) -> l' = uniqueZ l.
Proof.
  intros Hs Hm. apply (sorted_unique Z.lt); try (intros; lia); auto using uniqueZ_sorted.
  intros x. rewrite Hm, uniqueZ_In. reflexivity.
Qed.

Lemma uniqueZ_NoDup l : NoDup (uniqueZ l).
Proof. apply StronglySorted_Zlt_NoDup, uniqueZ_sorted. Qed.

Lemma uniqueZ_nil l : uniqueZ l = [] <-> l = [].
Proof.
  split; [|intros ->; reflexivity]. destruct l as [|x t]; [reflexivity|].
  intros H. assert (Hx : In x (uniqueZ (x :: t))) by (apply uniqueZ_In; left; reflexivity).
  rewrite H in Hx. destruct Hx.
Qed.

Lemma insert_uniqN_In x y l : In y (insert_uniqN x l) <-> y = x \/ In y l.
Proof.
  induction l as [|z t IH]; simpl; [intuition|].
  destruct (x <? z) eqn:E1; [simpl; intuition|].
  destruct (x =? z) eqn:E2; simpl.
  - apply Nat.eqb_eq in E2. subst. intuition.
  - rewrite IH. intuition.
Qed.

Lemma uniqueN_In x l : In x (uniqueN l) <-> In x l.
Proof.
  induction l as [|y t IH]; simpl; [tauto|].
  rewrite insert_uniqN_In, IH. intuition.
Qed.

Lemma insert_uniqN_sorted x l : StronglySorted lt l -> StronglySorted lt (insert_uniqN x l).
Proof.
  induction 1 as [|y t Hs IH Hall]; simpl; [repeat constructor|].
  destruct (x <? y) eqn:E1.
  - apply Nat.ltb_lt in E1. constructor; [constructor; assumption|]. constructor; [assumption|].
    eapply Forall_impl; [|exact Hall]. simpl. lia.
  - apply Nat.ltb_ge in E1. destruct (x =? y) eqn:E2; [constructor; assumption|].
    apply Nat.eqb_neq in E2.
    constructor; [exact IH|]. apply Forall_forall. intros z Hz.
    apply insert_uniqN_In in Hz as [->|Hz]; [lia|]. rewrite Forall_forall in Hall. auto.
Qed.

Lemma uniqueN_sorted l : StronglySorted lt (uniqueN l).
Proof. induction l; simpl; [constructor|]. apply insert_uniqN_sorted; assumption. Qed.

Lemma uniqueN_char l l' :
  StronglySorted lt l' -> (forall x, In x l' <-> In x l) -> l' = uniqueN l.
Proof.
  intros Hs Hm. apply (sorted_unique lt); try (intros; lia); auto using uniqueN_sorted.
  intros x. rewrite Hm, uniqueN_In. reflexivity.
Qed.

Lemma argsort_by_perm leb n : Permutation (argsort_by leb n) (seq 0 n).
Proof. symmetry. apply isort_perm. Qed.

Lemma argsort_by_length leb n : length (argsort_by leb n) = n.
Proof. unfold argsort_by. rewrite isort_length, seq_length. reflexivity. Qed.

Lemma argsort_by_In leb n i : In i (argsort_by leb n) <-> i < n.
Proof. unfold argsort_by. rewrite isort_In, in_seq. lia. Qed.

Lemma argsortZ_perm keys : Permutation (argsortZ keys) (seq 0 (length keys)).
Proof. apply argsort_by_perm. Qed.

Lemma argsortZ_sorted keys : StronglySorted Z.le (take 0%Z keys (argsortZ keys)).
Proof.
  unfold take. apply (proj1 (StronglySorted_map _ _ _)). unfold argsortZ, argsort_by.
  eapply StronglySorted_impl; [|apply isort_sorted].
  - intros x y _ _ H. unfold le in H. apply Z.leb_le in H. exact H.
  - intros x y. rewrite !Z.leb_le. lia.
  - intros x y z. rewrite !Z.leb_le. lia.
Qed.

Lemma index_of_Some {A} (eqb : A -> A -> bool) (H : forall x y, eqb x y = true <-> x = y) d x l i :
  index_of eqb x l = Some i ->
  i < length l /\ nth i l d = x /\ (forall j, j < i -> nth j l d <> x).
Proof.
  revert i; induction l as [|y t IH]; simpl; intros i Hi; [discriminate|].
  destruct (eqb x y) eqn:E.
  - injection Hi as <-. apply H in E. subst. split; [lia|]. split; [reflexivity|lia].
  - destruct (index_of eqb x t) as [k|] eqn:E2; [|discriminate]. simpl in Hi. injection Hi as <-.
    destruct (IH k eq_refl) as (Hk & Hn & Hlt). split; [lia|]. split; [exact Hn|].
    intros [|j] Hj; simpl.
    + intros ->. assert (eqb x x = true) by (apply H; reflexivity). congruence.
    + apply Hlt. lia.
Qed.

Lemma index_of_None {A} (eqb : A -> A -> bool) (H : forall x y, eqb x y = true <-> x = y) x l :
  index_of eqb x l = None <-> ~ In x l.
Proof.
  induction l as [|y t IH]; simpl; [tauto|].
  destruct (eqb x y) eqn:E.
  - apply H in E. subst. split; [discriminate|tauto].
  - assert (x <> y) by (intros ->; assert (eqb y y = true) by (apply H; reflexivity); congruence).
    destruct (index_of eqb x t) eqn:E2; simpl.
    + split; [discriminate|]. intros Hn. exfalso. apply Hn. right.
      destruct (index_of_Some eqb H x x t n E2) as (Hl & Hnth & _).
      rewrite <- Hnth. apply nth_In, Hl.
    + split; [|reflexivity]. intros _ [->|Hin]; [congruence|]. apply IH in Hin; auto.
Qed.

Lemma set_nth_length {A} i (v : A) l : length (set_nth i v l) = length l.
Proof. revert i; induction l; intros [|i]; simpl; auto. Qed.

Lemma nth_set_nth {A} i j (v : A) l d :
  i < length l -> nth j (set_nth i v l) d = if Nat.eqb i j then v else nth j l d.
Proof.
  revert i j; induction l as [|x t IH]; simpl; intros i j H; [lia|].
  destruct i as [|i]; destruct j as [|j]; simpl; try reflexivity.
  apply IH. lia.
Qed.

Lemma mask_select_filter {A} (f : A -> bool) l : mask_select (map f l) l = filter f l.
Proof. induction l as [|x t IH]; simpl; [reflexivity|]. destruct (f x); rewrite IH; reflexivity. Qed.

Lemma nth_map {A B} (f : A -> B) l i d d' :
  i < length l -> nth i (map f l) d' = f (nth i l d).
Proof.
  intros H. rewrite (nth_indep _ d' (f d)) by (rewrite map_length; exact H). apply map_nth.
Qed.
