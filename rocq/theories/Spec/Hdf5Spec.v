(** What a selection addresses, independently of how it is carried out. *)
From Coq Require Import List ZArith Sorted.
From Verif Require Import Lib.Py Lib.Slice Lib.Cube Model.Hdf5 Spec.ToolsSpec.
Import ListNotations.
Open Scope Z_scope.

(** A slice with non-negative bounds and positive step, selecting [l] (not empty). *)
Definition plain_slice (n : Z) (s : slice) (l : list Z) : Prop :=
  match s_start s with None => True | Some v => 0 <= v end /\
  match s_stop s with None => True | Some v => 0 <= v end /\
  match s_step s with None => True | Some v => 0 < v end /\
  slice_indices s n = Ok l /\ l <> [].

(** [selects n sel l]: on an axis of length [n], [sel] addresses the elements
    [l], in this order. *)
Inductive selects (n : Z) : axis_sel -> list Z -> Prop :=
| sel_int i : 0 <= i < n -> selects n (AInt i) [i]
| sel_slice s l : plain_slice n s l -> selects n (ASlice s) l
| sel_list l : l <> [] -> increasing_in n l -> selects n (AList l) l
| sel_slices ss ls : ss <> [] -> Forall2 (plain_slice n) ss ls -> selects n (ASlices ss) (concat ls).

(** At most one axis is addressed by a list of integers (or an integer): the
    restriction of HDF5. *)
Definition one_list (s0 s1 s2 : axis_sel) : Prop :=
  (length (filter is_list [s0; s1; s2]) <= 1)%nat.

(** An optional index list: the whole axis if absent, else a non-empty strictly
    increasing list inside the axis. *)
Definition chosen (n : Z) (inds : option (list Z)) (l : list Z) : Prop :=
  match inds with
  | None => l = map Z.of_nat (seq 0 (Z.to_nat n))
  | Some l' => l' = l /\ l <> [] /\ increasing_in n l
  end.

(** The [i]-th selected element, as an array position. *)
Definition at_pos (l : list Z) (i : nat) : nat := Z.to_nat (nth i l 0).

(** [c'] is the block of [c] addressed by [l0], [l1], [l2]. *)
Definition is_block {A} (c : cube A) (l0 l1 l2 : list Z) (c' : cube A) : Prop :=
  forall i j k, (i < length l0)%nat -> (j < length l1)%nat -> (k < length l2)%nat ->
  c' i j k = c (at_pos l0 i) (at_pos l1 j) (at_pos l2 k).

Definition lengths (l0 l1 l2 : list Z) : shape3 :=
  (Z.of_nat (length l0), Z.of_nat (length l1), Z.of_nat (length l2)).

(** [d'] is [d] with the addressed block replaced by [c] and nothing else changed. *)
Definition is_update {A} (d : cube A) (l0 l1 l2 : list Z) (c d' : cube A) : Prop :=
  is_block d' l0 l1 l2 c /\
  forall i j k, ~ (In (Z.of_nat i) l0 /\ In (Z.of_nat j) l1 /\ In (Z.of_nat k) l2) -> d' i j k = d i j k.

(** One call of the partial writer: the three index lists, the shape of the
    array passed and the array. *)
Definition part_write (A : Type) := (option (list Z) * option (list Z) * option (list Z) * shape3 * cube A)%type.

(** The call addresses [l0 x l1 x l2] and passes the matching block of [full]. *)
Definition part_of {A} (shape : shape3) (full : cube A) (w : part_write A) (l0 l1 l2 : list Z) : Prop :=
  let '(b, f, p, ashape, arr) := w in
  let '(n0, n1, n2) := shape in
  chosen n0 b l0 /\ chosen n1 f l1 /\ chosen n2 p l2 /\ ashape = lengths l0 l1 l2 /\ is_block full l0 l1 l2 arr.

(** A cell addressed by one of the calls. *)
Definition touched {A} (shape : shape3) (full : cube A) (ws : list (part_write A)) (i j k : nat) : Prop :=
  exists w l0 l1 l2, In w ws /\ part_of shape full w l0 l1 l2 /\
    In (Z.of_nat i) l0 /\ In (Z.of_nat j) l1 /\ In (Z.of_nat k) l2.

Definition in_shape (shape : shape3) (i j k : nat) : Prop :=
  let '(n0, n1, n2) := shape in Z.of_nat i < n0 /\ Z.of_nat j < n1 /\ Z.of_nat k < n2.

(** The calls made one after the other. *)
Definition write_parts {A} (shape : shape3) (ws : list (part_write A)) (d : cube A) : result (cube A) :=
  foldM (fun d (w : part_write A) => let '(b, f, p, ashape, arr) := w in write_part shape d b f p ashape arr) ws d.
