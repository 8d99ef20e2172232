(** What the removal of equalization coefficients means (C96). *)
From Coq Require Import List ZArith QArith Qcanon Bool Arith String.
From Verif Require Import Lib.Py Model.UVData Model.EqCoeffs.
Import ListNotations.
Open Scope nat_scope.

(** Position [i] of the telescope's antennas is that of antenna [a] *)
Definition is_at (o : eqobj) (a : Z) (i : nat) : Prop :=
  i < List.length (e_numbers o) /\ nth i (e_numbers o) 0%Z = a.

Definition first_ant (o : eqobj) (r : nat) : Z := nth r (ant_1_array (e_u o)) 0%Z.
Definition second_ant (o : eqobj) (r : nat) : Z := nth r (ant_2_array (e_u o)) 0%Z.

(** Every antenna of a record is one of the telescope's *)
Definition known (o : eqobj) : Prop :=
  NoDup (e_numbers o) /\
  forall r, r < Nblts (e_u o) -> In (first_ant o r) (e_numbers o) /\ In (second_ant o r) (e_numbers o).

(** All but the visibilities is the same *)
Definition same_but_vis (o o' : eqobj) : Prop :=
  e_u o' = e_u o /\ e_numbers o' = e_numbers o /\ e_coeffs o' = e_coeffs o /\ e_conv o' = e_conv o.

(** Multiplication of a complex by a real number *)
Definition by_real (z : Qc * Qc) (k : Qc) : Qc * Qc := (fst z * k, snd z * k)%Qc.
