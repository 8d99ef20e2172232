(** Python-level prelude: exceptions as values. *)
From Coq Require Import Lia List.
Import ListNotations.

(** The exception classes raised by the modelled code.  [Undefined] stands
    for undefined behaviour of the Cython extension (reads outside a buffer
    with bounds checking switched off). *)
Inductive exn :=
| ValueError | IndexError | KeyError | AssertionError | TypeError
| AttributeError | ZeroDivisionError | Undefined.

Inductive result (A : Type) :=
| Ok (a : A)
| Err (e : exn).
Arguments Ok {A} _.
Arguments Err {A} _.

Definition bind {A B} (r : result A) (f : A -> result B) : result B :=
  match r with Ok a => f a | Err e => Err e end.

Notation "'do' x <- r ; k" := (bind r (fun x => k))
  (at level 200, x pattern, r at level 100, k at level 200).

Definition rmap {A B} (f : A -> B) (r : result A) : result B :=
  match r with Ok a => Ok (f a) | Err e => Err e end.

(** [all(...)]-style sequencing of a list of computations, left to right. *)
Fixpoint mapM {A B} (f : A -> result B) (l : list A) : result (list B) :=
  match l with
  | [] => Ok []
  | x :: t => do y <- f x; do ys <- mapM f t; Ok (y :: ys)
  end.

Lemma bind_Ok {A B} (r : result A) (f : A -> result B) b :
  bind r f = Ok b -> exists a, r = Ok a /\ f a = Ok b.
Proof. destruct r; simpl; intros H; [eauto | discriminate]. Qed.

Lemma mapM_Ok_length {A B} (f : A -> result B) l ys :
  mapM f l = Ok ys -> length ys = length l.
Proof.
  revert ys; induction l as [|x t IH]; simpl; intros ys H.
  - injection H as <-. reflexivity.
  - apply bind_Ok in H as (y & _ & H). apply bind_Ok in H as (ys' & H' & H).
    injection H as <-. simpl. f_equal. auto.
Qed.

Lemma mapM_Ok_Forall2 {A B} (f : A -> result B) l ys :
  mapM f l = Ok ys -> Forall2 (fun x y => f x = Ok y) l ys.
Proof.
  revert ys; induction l as [|x t IH]; simpl; intros ys H.
  - injection H as <-. constructor.
  - apply bind_Ok in H as (y & Hy & H). apply bind_Ok in H as (ys' & H' & H).
    injection H as <-. constructor; auto.
Qed.

Lemma mapM_Forall2_Ok {A B} (f : A -> result B) l ys :
  Forall2 (fun x y => f x = Ok y) l ys -> mapM f l = Ok ys.
Proof.
  induction 1 as [|x y l ys H _ IH]; simpl; [reflexivity|].
  rewrite H; simpl. rewrite IH. reflexivity.
Qed.

Lemma mapM_Err {A B} (f : A -> result B) l e :
  mapM f l = Err e -> exists x, In x l /\ f x = Err e.
Proof.
  induction l as [|x t IH]; simpl; intros H; [discriminate|].
  destruct (f x) eqn:E; simpl in H.
  - destruct (mapM f t) eqn:E2; simpl in H; [discriminate|].
    injection H as ->. destruct (IH eq_refl) as (y & ? & ?). eauto.
  - injection H as ->. eauto.
Qed.

Lemma mapM_Ok_nth {A B} (f : A -> result B) l ys (d : A) (e : B) :
  mapM f l = Ok ys -> forall k, k < length l -> f (nth k l d) = Ok (nth k ys e).
Proof.
  intros H. apply mapM_Ok_Forall2 in H. induction H as [|x y l ys Hxy _ IH]; intros k Hk; simpl in *; [lia|].
  destruct k as [|k]; [exact Hxy|]. apply IH. lia.
Qed.
