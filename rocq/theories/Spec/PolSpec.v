(** Legal polarization / Jones numbers (AIPS memo 117) and the CASA ordering. *)
From Coq Require Import List ZArith.
Import ListNotations.
Open Scope Z_scope.

Definition legal_pol (n : Z) : Prop := 1 <= n <= 4 \/ -8 <= n <= -1.
Definition legal_jones (n : Z) : Prop := -8 <= n <= -1.

(** CASA convention: within a family the cross-hand products sit between the
    parallel-hand ones (XX, XY, YX, YY); Stokes first, circular, then linear. *)
Definition casa_rank (n : Z) : Z :=
  if n =? 1 then 0 else if n =? 2 then 1 else if n =? 3 then 2 else if n =? 4 then 3
  else if n =? -1 then 4 else if n =? -3 then 5 else if n =? -4 then 6 else if n =? -2 then 7
  else if n =? -5 then 8 else if n =? -7 then 9 else if n =? -8 then 10 else if n =? -6 then 11
  else 12.

(** The polarization seen when the two antennas are exchanged. *)
Definition swapped (n : Z) : Z :=
  if n =? -3 then -4 else if n =? -4 then -3 else if n =? -7 then -8 else if n =? -8 then -7 else n.
