(** 3-d arrays as functions on indices; complex numbers as pairs. *)
From Coq Require Import List ZArith Bool Arith.
Import ListNotations.

(** An array of shape (n0, n1, n2); values outside the shape are irrelevant. *)
Definition cube (A : Type) := nat -> nat -> nat -> A.

Definition cplx := (Z * Z)%type.
Definition cconj (c : cplx) : cplx := (fst c, (- snd c)%Z).

Lemma cconj_invol c : cconj (cconj c) = c.
Proof. destruct c. unfold cconj. simpl. rewrite Z.opp_involutive. reflexivity. Qed.

(** [a[idx]], [a[:, idx]], [a[:, :, idx]] *)
Definition take0 {A} (idx : list nat) (c : cube A) : cube A := fun i j k => c (nth i idx 0) j k.
Definition take1 {A} (idx : list nat) (c : cube A) : cube A := fun i j k => c i (nth j idx 0) k.
Definition take2 {A} (idx : list nat) (c : cube A) : cube A := fun i j k => c i j (nth k idx 0).

(** numpy's meaning of an integer index array on an axis of length [n]:
    negative indices count from the end; [None] if out of range (IndexError). *)
Definition norm_index (n : nat) (z : Z) : option nat :=
  if (0 <=? z)%Z && (z <? Z.of_nat n)%Z then Some (Z.to_nat z)
  else if (z <? 0)%Z && (0 <=? z + Z.of_nat n)%Z then Some (Z.to_nat (z + Z.of_nat n))
  else None.
