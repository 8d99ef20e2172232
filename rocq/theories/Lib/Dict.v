(** Python dictionaries as association lists in insertion order, and the string
    methods used by the code. *)
From Coq Require Import List ZArith Bool String Ascii.
From Verif Require Import Lib.Py.
Import ListNotations.

Section Dict.
  Context {K V : Type} (eqb : K -> K -> bool).

  (** [d[k]] *)
  Fixpoint dget (k : K) (d : list (K * V)) : result V :=
    match d with
    | [] => Err KeyError
    | (k', v) :: t => if eqb k k' then Ok v else dget k t
    end.

  (** [d[k] = v] *)
  Fixpoint dset (k : K) (v : V) (d : list (K * V)) : list (K * V) :=
    match d with
    | [] => [(k, v)]
    | (k', v') :: t => if eqb k k' then (k', v) :: t else (k', v') :: dset k v t
    end.

  (** [d.pop(k)] *)
  Definition ddel (k : K) (d : list (K * V)) : list (K * V) :=
    filter (fun p => negb (eqb k (fst p))) d.

  Definition dmem (k : K) (d : list (K * V)) : bool := existsb (fun p => eqb k (fst p)) d.
  Definition dkeys (d : list (K * V)) : list K := map fst d.

  (** A dict comprehension [{k: v for ...}] over a list of pairs. *)
  Definition dict_of (l : list (K * V)) : list (K * V) :=
    fold_left (fun d p => dset (fst p) (snd p) d) l [].

  Hypothesis eqb_eq : forall x y, eqb x y = true <-> x = y.

  Lemma eqb_refl' x : eqb x x = true.
  Proof. apply eqb_eq. reflexivity. Qed.
  Lemma eqb_neq' x y : x <> y -> eqb x y = false.
  Proof. intros H. destruct (eqb x y) eqn:E; [apply eqb_eq in E; contradiction|reflexivity]. Qed.

  Lemma dget_dset k k' v d : dget k (dset k' v d) = if eqb k k' then Ok v else dget k d.
  Proof.
    induction d as [|[k0 v0] d IH]; simpl.
    - reflexivity.
    - destruct (eqb k' k0) eqn:E0; simpl.
      + apply eqb_eq in E0. subst k0. destruct (eqb k k'); reflexivity.
      + rewrite IH. destruct (eqb k k0) eqn:E1, (eqb k k') eqn:E2; try reflexivity.
        apply eqb_eq in E1, E2. subst. rewrite eqb_refl' in E0. discriminate.
  Qed.

  Lemma dget_ddel k k' d : dget k (ddel k' d) = if eqb k k' then Err KeyError else dget k d.
  Proof.
    induction d as [|[k0 v0] d IH]; simpl.
    - destruct (eqb k k'); reflexivity.
    - destruct (eqb k' k0) eqn:E0; simpl.
      + rewrite IH. apply eqb_eq in E0. subst k0. destruct (eqb k k') eqn:E; [reflexivity|].
        reflexivity.
      + rewrite IH. destruct (eqb k k0) eqn:E1, (eqb k k') eqn:E2; try reflexivity.
        apply eqb_eq in E1, E2. subst. rewrite eqb_refl' in E0. discriminate.
  Qed.

  Lemma dmem_In k d : dmem k d = true <-> In k (dkeys d).
  Proof.
    unfold dmem, dkeys. rewrite existsb_exists. split.
    - intros ([k0 v0] & Hin & He). apply eqb_eq in He. simpl in He. subst.
      apply (in_map fst) in Hin. exact Hin.
    - intros H. apply in_map_iff in H as ([k0 v0] & <- & Hin). exists (k0, v0). split; [exact Hin|apply eqb_refl'].
  Qed.

  Lemma dmem_dget k d : dmem k d = true <-> exists v, dget k d = Ok v.
  Proof.
    induction d as [|[k0 v0] d IH]; simpl.
    - split; [discriminate|intros (v & H); discriminate].
    - destruct (eqb k k0); simpl; [split; eauto|exact IH].
  Qed.

  Lemma dget_In k d v : dget k d = Ok v -> In (k, v) d.
  Proof.
    induction d as [|[k0 v0] d IH]; simpl; [discriminate|].
    destruct (eqb k k0) eqn:E; [|auto]. intros H. injection H as ->. apply eqb_eq in E. subst. left; reflexivity.
  Qed.

  Lemma In_dget k d v : NoDup (dkeys d) -> In (k, v) d -> dget k d = Ok v.
  Proof.
    induction d as [|[k0 v0] d IH]; simpl; intros Hnd Hin; [contradiction|].
    inversion Hnd as [|? ? Hni Hnd']; subst. destruct Hin as [H|Hin].
    - injection H as -> ->. rewrite eqb_refl'. reflexivity.
    - rewrite eqb_neq'; [auto|]. intros ->. apply Hni. apply (in_map fst) in Hin. exact Hin.
  Qed.

  Lemma dset_keys k v d : In k (dkeys d) -> dkeys (dset k v d) = dkeys d.
  Proof.
    induction d as [|[k0 v0] d IH]; simpl; [tauto|].
    destruct (eqb k k0) eqn:E; simpl; [reflexivity|]. intros [->|H].
    - rewrite eqb_refl' in E. discriminate.
    - f_equal. auto.
  Qed.

  Lemma dset_keys_new k v d : ~ In k (dkeys d) -> dset k v d = d ++ [(k, v)].
  Proof.
    induction d as [|[k0 v0] d IH]; simpl; [reflexivity|]. intros H.
    rewrite eqb_neq' by (intros ->; tauto). f_equal. tauto.
  Qed.

  Lemma dset_In_keys k v d x : In x (dkeys (dset k v d)) <-> x = k \/ In x (dkeys d).
  Proof.
    induction d as [|[k0 v0] d IH]; simpl; [intuition|].
    destruct (eqb k k0) eqn:E; simpl.
    - apply eqb_eq in E. subst. intuition.
    - rewrite IH. intuition.
  Qed.

  Lemma dset_NoDup k v d : NoDup (dkeys d) -> NoDup (dkeys (dset k v d)).
  Proof.
    induction d as [|[k0 v0] d IH]; simpl; intros H.
    - repeat constructor. tauto.
    - inversion H as [|? ? Hni Hnd]; subst. destruct (eqb k k0) eqn:E; simpl.
      + constructor; assumption.
      + constructor; [|auto]. intros Hin. apply dset_In_keys in Hin as [->|Hin]; [|contradiction].
        rewrite eqb_refl' in E. discriminate.
  Qed.

  Lemma ddel_keys k d x : In x (dkeys (ddel k d)) <-> x <> k /\ In x (dkeys d).
  Proof.
    unfold dkeys, ddel. rewrite !in_map_iff. split.
    - intros ([k0 v0] & <- & H). apply filter_In in H as [H1 H2]. simpl in *.
      split; [|exists (k0, v0); auto]. intros ->. rewrite eqb_refl' in H2. discriminate.
    - intros [Hne ([k0 v0] & <- & H)]. exists (k0, v0). split; [reflexivity|]. apply filter_In.
      split; [exact H|]. simpl in *. rewrite eqb_neq'; [reflexivity|congruence].
  Qed.

  Lemma ddel_NoDup k d : NoDup (dkeys d) -> NoDup (dkeys (ddel k d)).
  Proof.
    unfold dkeys, ddel. induction d as [|[k0 v0] d IH]; simpl; intros H; [constructor|].
    inversion H as [|? ? Hni Hnd]; subst. destruct (eqb k k0); simpl; [auto|].
    constructor; [|auto]. intros Hin. apply Hni. apply in_map_iff in Hin as (p & <- & Hp).
    apply filter_In in Hp as [Hp _]. apply in_map. exact Hp.
  Qed.
End Dict.

(** [str.lower()] on ASCII. *)
Definition lower_char (c : ascii) : ascii :=
  let n := nat_of_ascii c in
  if (Nat.leb 65 n && Nat.leb n 90)%bool then ascii_of_nat (n + 32) else c.
Fixpoint lower (s : string) : string :=
  match s with EmptyString => EmptyString | String c t => String (lower_char c) (lower t) end.

(** [s.replace(c, r)] for one-character strings. *)
Fixpoint replace_char (c r : ascii) (s : string) : string :=
  match s with
  | EmptyString => EmptyString
  | String c' t => String (if Ascii.eqb c' c then r else c') (replace_char c r t)
  end.
