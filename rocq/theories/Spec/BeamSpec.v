(** What beam conversions and normalization mean (C75-C77). *)
From Coq Require Import List ZArith Reals Bool Arith String.
From Verif Require Import Lib.Py Lib.Dict Model.Phase Model.Beam.
Import ListNotations.
Open Scope list_scope.
Open Scope R_scope.
Notation length := List.length.

(** Complex numbers as pairs: sums over an index and the Hermitian product of vectors *)
Fixpoint csum (n : nat) (f : nat -> cx) : cx :=
  match n with 0%nat => (0, 0) | S m => cx_add (csum m f) (f m) end.
Definition norm2 (a : cx) : R := fst a ^ 2 + snd a ^ 2.
Definition herm (n : nat) (u w : nat -> cx) : cx := csum n (fun i => cx_mul (u i) (cx_conj (w i))).

(** The field that feed [f] responds to, along axis [a] of the sky, at frequency [k] and
    pixel [x]: the vector components times the basis vectors. *)
Definition sky_field (b : beam) (bv : nat -> nat -> nat -> R) (f k x a : nat) : cx :=
  csum (b_nvec b) (fun v => cx_scale (bv v a x) (b_data b v f k x)).
Definition power_of (b : beam) (bv : nat -> nat -> nat -> R) (f g k x : nat) : cx :=
  herm 2 (sky_field b bv f k x) (sky_field b bv g k x).

(** Feeds and the numbers of their products (AIPS Memo 117).  East and north feeds are x
    or y by the orientation. *)
Inductive hand := HX | HY | HR | HL.
Definition points_east (xo : option string) : option bool :=
  match xo with
  | None => None
  | Some s => let s := lower s in
      if (String.eqb s "east" || String.eqb s "e" || String.eqb s "ew")%bool then Some true
      else if (String.eqb s "north" || String.eqb s "n" || String.eqb s "ns")%bool then Some false else None
  end.
Definition hand_of (xo : option string) (s : string) : option hand :=
  if String.eqb s "x" then Some HX else if String.eqb s "y" then Some HY
  else if String.eqb s "r" then Some HR else if String.eqb s "l" then Some HL
  else match points_east xo with
       | Some true => if String.eqb s "e" then Some HX else if String.eqb s "n" then Some HY else None
       | Some false => if String.eqb s "n" then Some HX else if String.eqb s "e" then Some HY else None
       | None => None
       end.
Definition product_number (a c : hand) : option Z :=
  match a, c with
  | HR, HR => Some (-1) | HL, HL => Some (-2) | HR, HL => Some (-3) | HL, HR => Some (-4)
  | HX, HX => Some (-5) | HY, HY => Some (-6) | HX, HY => Some (-7) | HY, HX => Some (-8)
  | _, _ => None
  end%Z.
(** Products are only named for feeds called alike: x and e, say, do not mix. *)
Definition compass (s : string) : bool := (String.eqb s "e" || String.eqb s "n")%bool.
Definition label (xo : option string) (feeds : list string) (f g : nat) : option Z :=
  match nth_error feeds f, nth_error feeds g with
  | Some s, Some t =>
      if Bool.eqb (compass s) (compass t)
      then match hand_of xo s, hand_of xo t with Some a, Some c => product_number a c | _, _ => None end
      else None
  | _, _ => None
  end.

(** The one or two feeds of a beam are x and y (or e and n), or r and l, in any order. *)
Definition good_feeds (xo : option string) (feeds : list string) : Prop :=
  (length feeds = 1%nat \/ length feeds = 2%nat) /\
  (forall f g, (f < length feeds)%nat -> (g < length feeds)%nat -> exists n, label xo feeds f g = Some n) /\
  (forall f g, (f < length feeds)%nat -> (g < length feeds)%nat -> label xo feeds f f = label xo feeds g g -> f = g).

(** An electric field beam of a single antenna that lists its feeds *)
Definition field_beam (b : beam) (feeds : list string) : Prop :=
  b_type b = "efield"%string /\ b_ant b <> "phased_array"%string /\ b_feeds b = Some feeds.

(** The value of the power beam with polarization number [n], vector component [v] *)
Definition beam_at (b : beam) (n : Z) (v k x : nat) (z : cx) : Prop :=
  exists pols i, b_pols b = Some pols /\ nth_error pols i = Some n /\ b_data b v i k x = z.
Definition in_beam (b : beam) (k x : nat) : Prop := (k < b_nfreq b)%nat /\ (x < b_npix b)%nat.
Definition product_of (cross : bool) (feeds : list string) (f g : nat) : Prop :=
  (f < length feeds)%nat /\ (g < length feeds)%nat /\ (cross = true \/ f = g).

(** The parts a conversion does not touch *)
Definition same_frame (b b' : beam) : Prop :=
  b_nfreq b' = b_nfreq b /\ b_npix b' = b_npix b /\ b_nside b' = b_nside b /\ b_norm b' = b_norm b /\
  b_cs b' = b_cs b /\ b_xo b' = b_xo b /\ b_ant b' = b_ant b /\ b_bandpass b' = b_bandpass b.

(** The basis vectors of a pixel are orthonormal. *)
Definition orthonormal (bv : nat -> nat -> nat -> R) (x : nat) : Prop :=
  bv 0%nat 0%nat x ^ 2 + bv 0%nat 1%nat x ^ 2 = 1 /\ bv 1%nat 0%nat x ^ 2 + bv 1%nat 1%nat x ^ 2 = 1 /\
  bv 0%nat 0%nat x * bv 1%nat 0%nat x + bv 0%nat 1%nat x * bv 1%nat 1%nat x = 0.

(** Two by two matrices, and the Mueller matrix of a Jones matrix (Kohn et al. 2018):
    M_ij = 1/2 Tr(s_i J s_j J^+) *)
Definition mprod (a c : mat) : mat := fun i j => csum 2 (fun k => cx_mul (a i k) (c k j)).
Definition madj (a : mat) : mat := fun i j => cx_conj (a j i).
Definition trace (a : mat) : cx := csum 2 (fun i => a i i).
Inductive stokes := SI | SQ | SU | SV.
Definition stokes_number (s : stokes) : Z := match s with SI => 1 | SQ => 2 | SU => 3 | SV => 4 end.
Definition pauli (s : stokes) : mat := fun i j =>
  match s with
  | SI => if Nat.eqb i j then (1, 0) else (0, 0)
  | SQ => if Nat.eqb i j then (if Nat.eqb i 0 then (1, 0) else (-1, 0)) else (0, 0)
  | SU => if Nat.eqb i j then (0, 0) else (1, 0)
  | SV => if Nat.eqb i j then (0, 0) else (if Nat.eqb i 0 then (0, -1) else (0, 1))
  end.
Definition mueller (s t : stokes) (j : mat) : cx :=
  cx_scale (1 / 2) (trace (mprod (mprod (mprod (pauli s) j) (pauli t)) (madj j))).
(** The Jones matrix of a beam in a direction: vector component by feed *)
Definition jones (b : beam) (k x : nat) : mat := fun v f => b_data b v f k x.

(** A cell of the data array of a beam *)
Definition in_cells (b : beam) (v p k x : nat) : Prop :=
  (v < b_nvec b)%nat /\ (p < b_npol_axis b)%nat /\ (k < b_nfreq b)%nat /\ (x < b_npix b)%nat.
(** The gain of a cell including the bandpass *)
Definition total_gain (b : beam) (v p k x : nat) : cx := cx_scale (nth k (b_bandpass b) 0) (b_data b v p k x).

(** Solid angle of a healpix pixel *)
Definition pixel_area (nside : nat) : R := 4 * PI / (12 * INR nside ^ 2).
Fixpoint rsum (n : nat) (f : nat -> R) : R := match n with 0%nat => 0 | S m => rsum m f + f m end.
