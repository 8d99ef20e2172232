(** Specification of C100. *)
From Coq Require Import List ZArith Arith.
Import ListNotations.
Notation length := List.length.
Open Scope list_scope.
Open Scope Z_scope.

(** row k of one table of antennas is row i of another, in numbers, names and positions *)
Definition same_row (nums names pos nums' names' pos' : list Z) (i k : nat) : Prop :=
  nth_error nums' k = nth_error nums i /\ nth_error names' k = nth_error names i /\ nth_error pos' k = nth_error pos i.
(** i is the first position of v *)
Definition first_at (l : list Z) (v : Z) (i : nat) : Prop := nth_error l i = Some v /\ forall j, (j < i)%nat -> nth_error l j <> Some v.
(** lo and hi are the lowest and highest frequencies of the channels of window w *)
Definition window_range (ids freqs : list Z) (w lo hi : Z) : Prop :=
  (exists c, nth_error ids c = Some w /\ nth_error freqs c = Some lo) /\ (exists c, nth_error ids c = Some w /\ nth_error freqs c = Some hi) /\
  forall c f, nth_error ids c = Some w -> nth_error freqs c = Some f -> lo <= f <= hi.
