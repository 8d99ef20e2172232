(** What adding metadata tables of Mir data sets is to do. *)
From Coq Require Import List ZArith Bool Arith String Sorting.Sorted.
From Verif Require Import Lib.Py Lib.Dict Model.MirMeta Spec.MirMetaSpec.
Import ListNotations.
Notation length := List.length.
Open Scope list_scope.
Open Scope Z_scope.

(** Record i of the table has key k. *)
Definition has (t : table) (k : list Z) (i : nat) : Prop := (i < t_size t)%nat /\ key_of t i = k.
Definition same_record (t : table) (i : nat) (o : table) (j : nat) : Prop := forall f, In f (fields t) -> cell_at t f i = cell_at o f j.
(** A table whose keys are found one by one, each once; for a table read this is so if the keys
    differ *)
Record good (t : table) : Prop := {
  gd_table : table_ok t;
  gd_index : index_ok t;
  gd_once : NoDup (dkeys (t_index t)) }.
Definition alike (t o : table) : Prop := fields t = fields o /\ t_key t = t_key o.
(** The keys are in the order of the records. *)
Definition in_order (t : table) : Prop := map snd (t_index t) = seq 0 (t_size t).
(** The same keys at the same places *)
Definition same_places (t o : table) : Prop := t_size t = t_size o /\ forall i, (i < t_size t)%nat -> key_of t i = key_of o i.
(** Records with the same key that differ and of which none may be dropped *)
Definition conflict (overwrite : option bool) (t : table) (i : nat) (o : table) (j : nat) : Prop :=
  ~ same_record t i o j /\ match overwrite with Some true => False | Some false => True | None => active t i /\ active o j end.
Definition allowed (t o : table) (merge overwrite : option bool) : Prop :=
  match merge with Some true => same_places t o | Some false => forall k i j, ~ (has t k i /\ has o k j) | None => True end /\
  forall k i j, has t k i -> has o k j -> ~ conflict overwrite t i o j.
Record sum (overwrite : option bool) (t o t' : table) : Prop := {
  su_good : good t';
  su_alike : alike t t';
  su_keys : forall k, (exists p, has t' k p) <-> (exists i, has t k i) \/ (exists j, has o k j);
  su_this : forall k p i, has t' k p -> has t k i -> (forall j, ~ has o k j) -> (active t' p <-> active t i) /\ same_record t' p t i;
  su_other : forall k p j, has t' k p -> has o k j -> (forall i, ~ has t k i) -> (active t' p <-> active o j) /\ same_record t' p o j;
  su_both : forall k p i j, has t' k p -> has t k i -> has o k j ->
    (active t' p <-> active t i \/ active o j) /\
    match overwrite with
    | Some true => same_record t' p o j
    | _ => (active t i -> same_record t' p t i) /\ (~ active t i -> same_record t' p o j)
    end }.
