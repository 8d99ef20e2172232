(** What it means to turn baselines round. *)
From Coq Require Import List ZArith Bool Permutation.
From Verif Require Import Lib.Py Lib.Cube Spec.BlsSpec Spec.PolSpec Spec.BltSpec Spec.UVDataSpec Spec.AccessSpec
  Model.UVData Model.Reorder.
Import ListNotations.
Open Scope Z_scope.

(** The first component that is not zero within the tolerance is positive. *)
Inductive leading_positive (tol : Z) : list Z -> Prop :=
| lp_here x l : tol < x -> leading_positive tol (x :: l)
| lp_next x l : Z.abs x <= tol -> leading_positive tol l -> leading_positive tol (x :: l).

(** The baseline vector of row [i]: its uvw, or the difference of the positions of
    its two antennas. *)
Definition coords_at (enu : option (Z -> Z * Z * Z)) (u : uvd) (i : nat) : Z * Z * Z :=
  match enu with
  | None => nth i (uvw_array u) (0, 0, 0)
  | Some pos =>
      let '(x2, y2, z2) := pos (nth i (ant_2_array u) 0) in
      let '(x1, y1, z1) := pos (nth i (ant_1_array u) 0) in
      (x2 - x1, y2 - y1, z2 - z1)
  end.

(** Row [i] is one that the convention asks to turn round. *)
Definition asked (conv : conj_convention) (tol : Z) (enu : option (Z -> Z * Z * Z)) (u : uvd) (i : nat) : Prop :=
  let '(x, y, z) := coords_at enu u i in
  match conv with
  | Ant1LtAnt2 => nth i (ant_2_array u) 0 < nth i (ant_1_array u) 0
  | Ant2LtAnt1 => nth i (ant_1_array u) 0 < nth i (ant_2_array u) 0
  | ULt0 => leading_positive tol [x; y; z]
  | UGt0 => leading_positive tol [- x; - y; - z]
  | VLt0 => leading_positive tol [y; x; z]
  | VGt0 => leading_positive tol [- y; - x; - z]
  | ConjIndex idx => In (Z.of_nat i) idx
  end.

Definition neg3 (v : Z * Z * Z) : Z * Z * Z := let '(x, y, z) := v in (- x, - y, - z).

(** Row [i] of [u'] is row [i] of [u] seen from the other end: the antennas are
    exchanged, the uvw negated and the visibility of each polarization is stored,
    conjugated, at the conjugate polarization (position [nth k P 0] for the
    polarization at position [k]). *)
Definition row_turned (P : list nat) (u u' : uvd) (i : nat) : Prop :=
  nth i (ant_1_array u') 0 = nth i (ant_2_array u) 0 /\
  nth i (ant_2_array u') 0 = nth i (ant_1_array u) 0 /\
  nth i (uvw_array u') (0, 0, 0) = neg3 (nth i (uvw_array u) (0, 0, 0)) /\
  (forall j k, (k < length (polarization_array u))%nat ->
     data_array u' i j (nth k P 0%nat) = cconj (data_array u i j k)).

(** Everything on the blt axis but antennas, baseline numbers and uvw. *)
Definition same_stamps (u u' : uvd) : Prop :=
  time_array u' = time_array u /\ lst_array u' = lst_array u /\ integration_time u' = integration_time u /\
  phase_center_id_array u' = phase_center_id_array u /\ phase_center_app_ra u' = phase_center_app_ra u /\
  phase_center_app_dec u' = phase_center_app_dec u /\ phase_center_frame_pa u' = phase_center_frame_pa u.

(** The numbering scheme antnums_to_baseline chooses when not told otherwise. *)
Definition default_scheme (nants m off : Z) : Prop :=
  (m = 2048 /\ off = 65536 /\ nants <= 2048) \/
  (m = 2147483648 /\ off = 65536 + 4194304 /\ 2048 < nants <= 2147483648).

Definition default_coded (u : uvd) : Prop :=
  exists m off, default_scheme (Nants_telescope u) m off /\
  forall i, (i < length (time_array u))%nat ->
    0 <= nth i (ant_1_array u) 0 < m /\ 0 <= nth i (ant_2_array u) 0 < m /\
    nth i (baseline_array u) 0 = m * nth i (ant_1_array u) 0 + nth i (ant_2_array u) 0 + off.

(** The two calls give the same records in some order, or the same error. *)
Definition same_answers {A} (t t' : result (list Z)) (r r' : result (list A)) : Prop :=
  (exists e, r = Err e /\ r' = Err e) \/
  (exists ts ts' l l', t = Ok ts /\ t' = Ok ts' /\ r = Ok l /\ r' = Ok l' /\
     length ts = length l /\ length ts' = length l' /\ Permutation (combine ts l) (combine ts' l')).

(** Whole baselines are turned, and no turned baseline was also recorded in the
    direction it is turned to by rows that are not turned. *)
Definition turns_cleanly (turn : nat -> Prop) (u : uvd) : Prop :=
  forall i j, (i < length (time_array u))%nat -> (j < length (time_array u))%nat ->
  (nth i (ant_1_array u) 0 = nth j (ant_1_array u) 0 -> nth i (ant_2_array u) 0 = nth j (ant_2_array u) 0 ->
     (turn i <-> turn j)) /\
  (turn i -> nth i (ant_1_array u) 0 = nth j (ant_2_array u) 0 -> nth i (ant_2_array u) 0 = nth j (ant_1_array u) 0 ->
     turn j).
