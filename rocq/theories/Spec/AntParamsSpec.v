(** What is meant by the antennas given to a new telescope. *)
From Coq Require Import List ZArith String.
From Verif Require Import Model.AntParams.
Import ListNotations.
Notation length := List.length.

(** The antennas of a telescope: distinct names and numbers, each with three coordinates *)
Definition sound (pos : list (list Z)) (names : list string) (nums : list Z) : Prop :=
  NoDup names /\ NoDup nums /\ length names = length nums /\ length pos = length nums.
(** The names made for numbers, and the numbers read from names *)
Definition named (names : list string) (nums : list Z) : Prop := names = map fmt nums.
Definition read_as (names : list string) (nums : list Z) : Prop := Forall2 (fun s n => py_int s = Some n) names nums.
