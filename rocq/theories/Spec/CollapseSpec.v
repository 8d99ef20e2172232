(** What the collapses of C49 and C50 should give, cell by cell. *)
From Coq Require Import List ZArith Bool Arith QArith Qcanon Reals Qreals.
From Verif Require Import Lib.QSum Model.Collapse.
Import ListNotations.

(** Axis [k] of an [n]-dimensional array is one of those reduced *)
Definition named (n k : nat) (z : Z) : Prop := z = Z.of_nat k \/ (z + Z.of_nat n)%Z = Z.of_nat k.
Definition reduced (ax : axis) (n k : nat) : Prop :=
  match ax with AxisNone => True | AxisInt z => named n k z | AxisTuple l => exists z, In z l /\ named n k z end.
(** Element [i] of an array of this shape lands in element [o] of the result: [i]
    is within the shape, and [o] lists its coordinates along the axes kept *)
Inductive projects (gone : nat -> Prop) : nat -> index -> index -> Prop :=
| PNil k : projects gone k [] []
| PGone k x i o : gone k -> projects gone (S k) i o -> projects gone k (x :: i) o
| PKept k x i o : ~ gone k -> projects gone (S k) i o -> projects gone k (x :: i) (x :: o).
Definition lands (ax : axis) (s : list nat) (i o : index) : Prop :=
  Forall2 lt i s /\ projects (reduced ax (length s)) 0 i o.
(** The finite elements landing in [o], each listed once *)
Definition finite_cells (ax : axis) (a : arr num) (o : index) (cells : list index) : Prop :=
  NoDup cells /\ forall i, In i cells <-> lands ax (shape a) i o /\ exists q, at_ a i = Fin q.
Definition weight_of (w : option (index -> Qc)) (i : index) : Qc := match w with None => 1%Qc | Some w => w i end.
Definition value_of (a : arr num) (i : index) : Qc := match at_ a i with Fin q => q | _ => 0%Qc end.
Definition total (f : index -> Qc) (cells : list index) : Qc := qsum (map f cells).

(** The number a float stands for *)
Definition real_of (x : num) : option R :=
  match x with Fin q => Some (Q2R (this q)) | Root q => Some (sqrt (Q2R (this q))) | Inf _ => None end.
(** A plain array: no square roots in it *)
Definition plain (a : arr num) : Prop := forall i q, at_ a i <> Root q.

(** The axis argument makes sense for an [n]-dimensional array: every axis named is
    one of its axes, counted from the front or from the back, and named once *)
Definition axis_ok (ax : axis) (n : nat) : Prop :=
  match ax with
  | AxisNone => True
  | AxisInt z => (- Z.of_nat n <= z < Z.of_nat n)%Z
  | AxisTuple l => Forall (fun z => - Z.of_nat n <= z < Z.of_nat n)%Z l /\ NoDup (map (fun z => z mod Z.of_nat n)%Z l)
  end.
