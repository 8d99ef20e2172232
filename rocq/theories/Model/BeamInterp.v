(** Interpolation of beams (UVBeam.interp) in frequency and to new directions, with saved splines.
    Frequencies and values are exact. The spline through an image (scipy's RectBivariateSpline, with
    its options, or the bilinear interpolation of healpix maps) is any function of the real or
    imaginary values of that image and of a direction. Not modelled: kinds of frequency interpolation
    other than nearest and linear, coupling matrices, basis vectors and the check that directions are
    within the grid. *)
From Coq Require Import List ZArith QArith Qcanon Bool Arith.
From Verif Require Import Lib.Py Lib.Np Lib.Dict.
Import ListNotations.
Notation length := List.length.
Open Scope list_scope.
Open Scope Qc_scope.

Definition qle (x y : Qc) : bool := Qle_bool (this x) (this y).
Definition qlt (x y : Qc) : bool := negb (qle y x).
Definition qabs (x : Qc) : Qc := if qle 0 x then x else - x.

Definition C := (Qc * Qc)%type.

(** The parts of a UVBeam: data_array by axis, polarization (or feed), frequency and pixel. *)
Record beam := {
  b_power : bool; b_freqs : list Qc; b_pols : list Z; b_nfeeds : nat; b_naxes : nat; b_npix : nat;
  b_axis1 : list Qc; b_axis2 : list Qc; b_data : nat -> nat -> nat -> nat -> C; b_band : list Qc }.

Inductive kind := Nearest | Linear.

(** np.argmin: the first index of a smallest value *)
Definition argmin (l : list Qc) : nat :=
  hd 0%nat (filter (fun i => forallb (fun y => qle (nth i l 0) y) l) (seq 0 (length l))).

(** uvbeam.py:1233-1235: nearest_inds *)
Definition nearest_ind (fs : list Qc) (f : Qc) : nat := argmin (map (fun x => qabs (x - f)) fs).

(** scipy.interpolate.interp1d sorts its points and takes, for each new one, the two neighbours
    clip(searchsorted(x, x_new), 1, len(x) - 1) - 1 and the next *)
Definition bracket (fs : list Qc) (f : Qc) : nat * nat :=
  let ord := argsort_by (fun i j => qle (nth i fs 0) (nth j fs 0)) (length fs) in
  let k := length (filter (fun i => qlt (nth i fs 0) f) ord) in
  let hi := Nat.min (Nat.max k 1) (length fs - 1) in
  (nth (hi - 1) ord 0%nat, nth hi ord 0%nat).

(** interp1d._call_linear: slope * (x_new - x_lo) + y_lo *)
Definition line (x_lo x_hi x y_lo y_hi : Qc) : Qc := (y_hi - y_lo) / (x_hi - x_lo) * (x - x_lo) + y_lo.

Definition lin (fs : list Qc) (series : nat -> Qc) (f : Qc) : Qc :=
  let (lo, hi) := bracket fs f in line (nth lo fs 0) (nth hi fs 0) f (series lo) (series hi).

(** uvbeam/uvbeam.py:1204-1303 _interp_freq; data.real and data.imag are interpolated separately *)
Definition interp_freq (b : beam) (k : kind) (freqs : list Qc) : result ((nat -> nat -> nat -> nat -> C) * list Qc) :=
  match k with
  | Nearest =>
      let inds := map (nearest_ind (b_freqs b)) freqs in
      Ok (fun a p i x => b_data b a p (nth i inds 0%nat) x, map (fun i => nth i (b_band b) 0) inds)
  | Linear =>
      if (length (b_freqs b) =? 1)%nat then Err ValueError
      else if existsb (fun f => forallb (fun x => qlt f x) (b_freqs b)) freqs || existsb (fun f => forallb (fun x => qlt x f) (b_freqs b)) freqs
      then Err ValueError
      else Ok (fun a p i x => (lin (b_freqs b) (fun j => fst (b_data b a p j x)) (nth i freqs 0),
                               lin (b_freqs b) (fun j => snd (b_data b a p j x)) (nth i freqs 0)),
               map (lin (b_freqs b) (fun j => nth j (b_band b) 0)) freqs)
  end.

(** uvbeam.py:1926-1934 (interp): the nearest beam is used if no frequency is farther than the
    tolerance from the frequencies of the object *)
Definition effective_kind (b : beam) (k : kind) (tol : Qc) (freqs : list Qc) : kind :=
  if existsb (fun f => forallb (fun x => qle tol (qabs (x - f))) (b_freqs b)) freqs then k else Nearest.

(** The bandpass is returned as an array or, without frequencies, as bandpass_array[0] *)
Inductive bandpass := Array (l : list Qc) | Scalar (x : Qc).

(** uvbeam.py:1366-1384 (_interp_az_za_rect_spline) and 1647-1667 (_interp_healpix_bilinear): the
    arrays at the frequencies, their number and the frequencies *)
Definition at_freqs (b : beam) (k : kind) (tol : Qc) (freqs : option (list Qc)) : result ((nat -> nat -> nat -> nat -> C) * list Qc * bandpass) :=
  match freqs with
  | Some fs => do r <- interp_freq b (effective_kind b k tol fs) fs; Ok (fst r, fs, Array (snd r))
  | None => Ok (b_data b, b_freqs b, Scalar (nth 0 (b_band b) 0))
  end.

(** uvbeam.py:1473-1498: indices of the requested polarizations; feeds of E-field beams *)
Definition pol_inds (b : beam) (pols : option (list Z)) : result (list nat) :=
  if b_power b then
    match pols with
    | None => Ok (seq 0 (length (b_pols b)))
    | Some l => mapM (fun p => match index_of Z.eqb p (b_pols b) with Some i => Ok i | None => Err ValueError end) l
    end
  else Ok (seq 0 (b_nfeeds b)).

Section Splines.
  Context {opts : Type}.
  (** the spline with some options through the values of an image, at (zenith angle, azimuth) *)
  Variable spline : opts -> list Qc -> Qc * Qc -> Qc.

  Definition lut := Qc * Qc -> C.
  (** uvbeam.py:1544-1563: real and imaginary parts separately *)
  Definition make_lut (o : opts) (n : nat) (image : nat -> C) : lut :=
    fun q => (spline o (map (fun x => fst (image x)) (seq 0 n)) q, spline o (map (fun x => snd (image x)) (seq 0 n)) q).

  (** saved_interp_functions, by (frequency, index of polarization, axis); [] if there is none *)
  Definition key := (Qc * nat * nat)%type.
  Definition key_eqb (x y : key) : bool :=
    let '(f, p, a) := x in let '(g, q, b) := y in qle f g && qle g f && (p =? q)%nat && (a =? b)%nat.
  Definition cache := list (key * lut).

  Record call := {
    c_freqs : option (list Qc); c_kind : kind; c_tol : Qc; c_pols : option (list Z);
    c_points : list (Qc * Qc); c_reuse : bool; c_opts : opts }.

  (** uvbeam.py:1531-1570: one round of the loop over frequencies, axes and polarizations, on
      interp_data and the saved functions *)
  Definition position := (nat * nat * nat)%type.
  Definition position_eqb (x y : position) : bool :=
    let '(a, p, i) := x in let '(a', p', i') := y in (a =? a')%nat && (p =? p')%nat && (i =? i')%nat.
  Definition round (b : beam) (c : call) (data : nat -> nat -> nat -> nat -> C) (fs : list Qc) (inds : list nat)
      (st : (position -> list C) * cache) (at_ : position) : (position -> list C) * cache :=
    let '(a, p, i) := at_ in
    let k := (nth i fs 0, nth p inds 0%nat, a) in
    let fresh := make_lut (c_opts c) (b_npix b) (data a (nth p inds 0%nat) i) in
    let '(f, saved) :=
      if c_reuse c then
        match dget key_eqb k (snd st) with
        | Ok f => (f, snd st)
        | Err _ => (fresh, dset key_eqb k fresh (snd st))
        end
      else (fresh, snd st) in
    (fun q => if position_eqb q (a, p, i) then map f (c_points c) else fst st q, saved).

  (** the order of the loops *)
  Definition positions (naxes npols nfreqs : nat) : list position :=
    flat_map (fun i => flat_map (fun a => map (fun p => (a, p, i)) (seq 0 npols)) (seq 0 naxes)) (seq 0 nfreqs).

  (** uvbeam.py:1304-1575 and 1766-2006: interp with az_array and za_array, without new_object: the
      array by axis, polarization and frequency, its length in polarizations, the frequencies, the
      bandpass and the saved functions after it *)
  Definition interp (b : beam) (saved : cache) (c : call) : result ((position -> list C) * nat * list Qc * bandpass * cache) :=
    do r <- at_freqs b (c_kind c) (c_tol c) (c_freqs c);
    let '(data, fs, band) := r in
    do inds <- pol_inds b (c_pols c);
    let st := fold_left (round b c data fs inds) (positions (b_naxes b) (length inds) (length fs)) (fun _ => [], saved) in
    Ok (fst st, length inds, fs, band, snd st).

  (** A history of calls on one object; a call that raises leaves the saved functions as they were,
      since all errors come before the loop *)
  Definition after (b : beam) (saved : cache) (c : call) : cache :=
    match interp b saved c with Ok (_, _, _, _, s) => s | Err _ => saved end.

  (** uvbeam.py:1936-1947: np.meshgrid(az_array, za_array), flattened *)
  Definition grid (az za : list Qc) : list (Qc * Qc) := flat_map (fun z => map (fun a => (z, a)) az) za.

  (** uvbeam.py:2008-2114: a new object on a grid. Values that do not fit the number of
      polarizations of the object are refused by check. The saved functions are not kept. *)
  Definition interp_grid (b : beam) (saved : cache) (c : call) (az za : list Qc) : result (beam * cache) :=
    let c' := {| c_freqs := c_freqs c; c_kind := c_kind c; c_tol := c_tol c; c_pols := c_pols c;
                 c_points := grid az za; c_reuse := c_reuse c; c_opts := c_opts c |} in
    do r <- interp b saved c';
    let '(out, npols, fs, band, saved') := r in
    if b_power b && negb (npols =? length (b_pols b))%nat then Err ValueError else
    Ok ({| b_power := b_power b; b_freqs := fs; b_pols := b_pols b; b_nfeeds := b_nfeeds b; b_naxes := b_naxes b;
           b_npix := (length za * length az)%nat; b_axis1 := az; b_axis2 := za;
           b_data := fun a p i x => nth x (out (a, p, i)) (0, 0);
           b_band := match band with Array l => l | Scalar _ => b_band b end |}, saved').

  (** uvbeam.py:2890-3290 select(polarizations=...) in place, for polarizations the object has, in
      the order of the object: the saved functions stay on the object *)
  Definition select_pols (b : beam) (pols : list Z) : beam :=
    let inds := nonzero (fun p => existsb (Z.eqb p) pols) (b_pols b) in
    {| b_power := b_power b; b_freqs := b_freqs b; b_pols := take 0%Z (b_pols b) inds; b_nfeeds := b_nfeeds b; b_naxes := b_naxes b;
       b_npix := b_npix b; b_axis1 := b_axis1 b; b_axis2 := b_axis2 b;
       b_data := fun a p i x => b_data b a (nth p inds 0%nat) i x; b_band := b_band b |}.
End Splines.

(** uvbeam.py:1386-1390 and 2008-2040: frequency-only interpolation to a new object *)
Definition interp_freqs (b : beam) (k : kind) (tol : Qc) (freqs : list Qc) : result beam :=
  do r <- at_freqs b k tol (Some freqs);
  let '(data, fs, band) := r in
  Ok {| b_power := b_power b; b_freqs := fs; b_pols := b_pols b; b_nfeeds := b_nfeeds b; b_naxes := b_naxes b; b_npix := b_npix b;
        b_axis1 := b_axis1 b; b_axis2 := b_axis2 b; b_data := data;
        b_band := match band with Array l => l | Scalar _ => b_band b end |}.
