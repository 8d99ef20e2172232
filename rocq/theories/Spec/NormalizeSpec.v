(** What normalization by autocorrelations means (C95).  Only the record of the object is used. *)
From Coq Require Import List ZArith Bool Arith Sorted Reals.
From Verif Require Import Lib.Py Model.Normalize.
Import ListNotations.
Open Scope nat_scope.

Definition time (x : vobj) (r : nat) : Z := nth r (v_time x) 0%Z.

(** The arrays have one length *)
Definition shaped (x : vobj) : Prop :=
  length (v_ant1 x) = length (v_time x) /\ length (v_ant2 x) = length (v_time x).

(** Times do not decrease *)
Definition in_order (x : vobj) : Prop := forall r s, r <= s -> s < v_n x -> (time x r <= time x s)%Z.

(** Times are the same, or differ by more than the tolerance *)
Definition distinct (tol : Z) (x : vobj) : Prop :=
  (0 <= tol)%Z /\
  forall r s, r < v_n x -> s < v_n x -> (time x r < time x s)%Z -> (time x r + tol < time x s)%Z.

(** Record [s] is the autocorrelation of antenna [a] in the integration of record [r] *)
Definition auto_of (x : vobj) (a : Z) (r s : nat) : Prop :=
  s < v_n x /\ time x s = time x r /\ ant1 x s = a /\ ant2 x s = a.

(** No antenna has two autocorrelations in one integration *)
Definition single_autos (x : vobj) : Prop :=
  forall a r s s', auto_of x a r s -> auto_of x a r s' -> s = s'.

(** The polarizations of the autocorrelations that belong to a polarization: rl = -3, lr = -4,
    xy = -7, yx = -8, the others are their own *)
Definition hands (q : Z) : Z * Z :=
  (if q =? -3 then (-1, -2) else if q =? -4 then (-2, -1)
   else if q =? -7 then (-5, -6) else if q =? -8 then (-6, -5) else (q, q))%Z.

(** Position [i] holds polarization [q] *)
Definition holds (x : vobj) (i : nat) (q : Z) : Prop := i < length (v_pol x) /\ nth i (v_pol x) 0%Z = q.

(** The autocorrelation can be divided by *)
Definition usable (x : vobj) (s f i : nat) : Prop := (0 < fst (v_data x s f i))%R /\ v_flag x s f i = false.

(** The geometric mean of two autocorrelations *)
Definition geo_mean (x : vobj) (s1 i1 s2 i2 f : nat) : R :=
  (sqrt (fst (v_data x s1 f i1)) * sqrt (fst (v_data x s2 f i2)))%R.

(** Everything that identifies records and polarizations is as before *)
Definition same_axes (x y : vobj) : Prop :=
  v_ant1 y = v_ant1 x /\ v_ant2 y = v_ant2 x /\ v_time y = v_time x /\ v_pol y = v_pol x.

Definition times_real (z : R * R) (k : R) : R * R := ((fst z * k)%R, (snd z * k)%R).
