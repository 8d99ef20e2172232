(** What the metadata tables of Mir data sets are to do. *)
From Coq Require Import List ZArith Bool Arith String Sorting.Sorted.
From Verif Require Import Lib.Py Lib.Dict Model.MirMeta.
Import ListNotations.
Notation length := List.length.
Open Scope list_scope.
Open Scope Z_scope.

(** * Tables *)
Definition fields (t : table) : list string := map fst (t_data t).
(** The entry of a record in a field *)
Definition cell_at (t : table) (f : string) (i : nat) : cell :=
  match dget String.eqb f (t_data t) with Ok c => nth i c [] | Err _ => [] end.
Definition active (t : table) (i : nat) : Prop := nth i (t_mask t) false = true.
(** The header key of a record, or the values of several fields *)
Definition names_of (t : table) (fs : list string) (i : nat) : list Z := map (fun f => hd 0 (cell_at t f i)) fs.
Definition key_of (t : table) (i : nat) : list Z := names_of t (t_key t) i.
Record table_ok (t : table) : Prop := {
  ok_fields : NoDup (fields t);
  ok_columns : Forall (fun p => length (snd p) = t_size t) (t_data t);
  ok_mask : length (t_mask t) = t_size t;
  ok_key : incl (t_key t) (fields t) }.
(** The records have different keys, and each is found by its key. *)
Definition index_ok (t : table) : Prop :=
  forall k p, dget eqb_key k (t_index t) = Ok p <-> (p < t_size t)%nat /\ key_of t p = k.

(** * Conditions *)
Definition compare (c : comp) (v : sel) (z : Z) : Prop :=
  match c, v with
  | CEq, One x => z = x | CEq, Many l => In z l
  | CNe, One x => z <> x | CNe, Many l => ~ In z l
  | CLt, One x => z < x | CLe, One x => z <= x | CGt, One x => z > x | CGe, One x => z >= x
  | CBetween, Many (a :: b :: _) => a <= z <= b
  | COutside, Many (a :: b :: _) => z < a \/ z > b
  | _, _ => False
  end.
Definition sensible (w : condition) : Prop :=
  match snd (fst w), snd w with
  | CEq, _ | CNe, _ => True
  | CLt, One _ | CLe, One _ | CGt, One _ | CGe, One _ => True
  | CBetween, Many (_ :: _ :: _) | COutside, Many (_ :: _ :: _) => True
  | _, _ => False
  end.
Definition known (t : table) (w : condition) : Prop := In (fst (fst w)) (fields t).
(** Some value of the entry compares as asked. *)
Definition holds (t : table) (w : condition) (i : nat) : Prop :=
  exists z, In z (cell_at t (fst (fst w)) i) /\ compare (snd (fst w)) (snd w) z.
(** All the conditions, or any of them; those on fields that the table does not have are left out. *)
Definition meets (t : table) (both : bool) (ws : list condition) (i : nat) : Prop :=
  if both then forall w, In w ws -> known t w -> holds t w i else exists w, In w ws /\ known t w /\ holds t w i.

(** * Choosing records *)
Definition masked (use_mask : option bool) : Prop := use_mask <> Some false.
Definition chosen (t : table) (use_mask : option bool) (q : query) (ps : list nat) : Prop :=
  match q with
  | QAll => StronglySorted lt ps /\ forall i, In i ps <-> (i < t_size t)%nat /\ (masked use_mask -> active t i)
  | QWhere ws both =>
      (Exists (known t) ws /\ forall w, In w ws -> known t w -> sensible w) /\
      StronglySorted lt ps /\ forall i, In i ps <-> (i < t_size t)%nat /\ (masked use_mask -> active t i) /\ meets t both ws i
  | QKeys ks => use_mask <> Some true /\ Forall2 (fun k p => (p < t_size t)%nat /\ key_of t p = k) ks ps
  | QIndex l => use_mask <> Some true /\ ps = l /\ Forall (fun i => (i < t_size t)%nat) l
  end.
(** Not a choice by any of several conditions among the active records *)
Definition fair (use_mask : option bool) (q : query) : Prop :=
  match q with QWhere _ false => use_mask = Some false | _ => True end.

(** * Values
    Only the entries of one field at some records are replaced, by one value or one each. *)
Definition replaced (t t' : table) (f : string) (v : value) (ps : list nat) : Prop :=
  t_key t' = t_key t /\ t_size t' = t_size t /\ t_mask t' = t_mask t /\ t_index t' = t_index t /\ fields t' = fields t /\
  (forall g i, g <> f \/ ~ In i ps -> cell_at t' g i = cell_at t g i) /\
  match v with
  | Same x => forall i, In i ps -> cell_at t' f i = x
  | Each xs => NoDup ps -> forall k, (k < length ps)%nat -> cell_at t' f (nth k ps 0%nat) = nth k xs []
  end.

(** * Histories *)
Inductive op :=
| OSet (f : string) (v : value) (use_mask : option bool) (q : query)
| OMask (mask : option (list bool)) (use_mask : bool) (q : query) (reset and_mask : bool)
| OResetValues (fs : option (list string))
| OReset.
Definition apply (o : op) (t : table) : result table :=
  match o with
  | OSet f v um q => set_value t f v um q
  | OMask m um q r a => do x <- set_mask t m um q r a; Ok (snd x)
  | OResetValues fs => reset_values t fs
  | OReset => reset t
  end.
Fixpoint run (ops : list op) (t : table) : result table :=
  match ops with [] => Ok t | o :: ops => do t <- apply o t; run ops t end.

(** * Groups *)
(** The groups of the records chosen: j is the place of a record among those. *)
Record grouping (t : table) (fs : list string) (ps : list nat) (g : list (list Z * list nat)) : Prop := {
  gr_names : NoDup (map fst g);
  gr_groups : forall k l, In (k, l) g -> l <> [] /\ StronglySorted lt l /\
    forall j, In j l <-> (j < length ps)%nat /\ names_of t fs (nth j ps 0%nat) = k;
  gr_all : forall j, (j < length ps)%nat -> exists l, In (names_of t fs (nth j ps 0%nat), l) g /\ In j l }.
