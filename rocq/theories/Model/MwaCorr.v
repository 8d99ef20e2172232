(** Reading files of the MWA correlators: which product of the correlator becomes which visibility,
    which file becomes which part of the frequency axis, and which data are flagged.
    Not modelled: the FITS files themselves, scaling by SCALEFAC and the Van Vleck, bandpass,
    digital gain and cable corrections, which multiply data in place, and parsing of file names. *)
From Coq Require Import List ZArith Bool Arith.
From Verif Require Import Lib.Py Lib.Np Lib.Dict Lib.Slice Lib.Cube.
Import ListNotations.
Notation length := List.length.
Open Scope list_scope.
Open Scope Z_scope.

(** uvdata/corr_fits.pyx:29-37 pfb_mapper *)
Definition pfb_mapper (index : Z) : Z := index / 4 + index mod 4 * 16.

(** corr_fits.pyx:39-48 input_output_mapping *)
Definition input_output_mapping : list (Z * Z) :=
  dict_of Z.eqb (flat_map (fun p => map (fun i => (pfb_mapper i + p * 64, p * 64 + i)) (py_range 0 64 1)) (py_range 0 4 1)).

(** uvdata/mwa_corr_fits.py:1680-1686: the inputs of each antenna (by index) and polarization *)
Definition eqb_pair (x y : Z * Z) : bool := (fst x =? fst y) && (snd x =? snd y).
Definition ants_to_pf (antenna_inds : list Z) : list ((Z * Z) * Z) :=
  dict_of eqb_pair (flat_map (fun i => map (fun p => ((nth i antenna_inds 0, p), 2 * Z.of_nat i + p)) [0; 1]) (seq 0 (length antenna_inds))).

Definition upd {A} (f : Z -> A) (k : Z) (v : A) : Z -> A := fun x => if x =? k then v else f x.
Fixpoint foldM {A B} (f : A -> B -> result B) (l : list A) (b : B) : result B :=
  match l with [] => Ok b | x :: t => do c <- f x b; foldM f t c end.

(** corr_fits.pyx:73-77: the four nested loops *)
Definition quads (n : nat) : list (Z * Z * (Z * Z)) :=
  flat_map (fun a => flat_map (fun b => flat_map (fun p => map (fun q => (Z.of_nat a, Z.of_nat b, (p, q))) [0; 1]) [0; 1]) (seq a (n - a))) (seq 0 n).

(** corr_fits.pyx:78-118: one round of generate_map, on the arrays map_inds and conj. A missing
    antenna is a KeyError. *)
Definition map_step (pf : list ((Z * Z) * Z)) (q : Z * Z * (Z * Z)) (st : (Z -> Z) * (Z -> bool)) : result ((Z -> Z) * (Z -> bool)) :=
  let '(ant1, ant2, (p1, p2)) := q in
  let pol_ind := 2 * p1 + p2 in
  let bls_ind := 128 * ant1 - ant1 * (ant1 + 1) / 2 + ant2 in
  do ind1_1 <- dget eqb_pair (ant1, p1) pf;
  do ind1_2 <- dget eqb_pair (ant2, p2) pf;
  do ind2_1 <- dget Z.eqb ind1_1 input_output_mapping;
  do ind2_2 <- dget Z.eqb ind1_2 input_output_mapping;
  let out_ant1 := ind2_1 / 2 in
  let out_ant2 := ind2_2 / 2 in
  let out_p1 := ind2_1 mod 2 in
  let out_p2 := ind2_2 mod 2 in
  if ind2_2 >? ind2_1 then
    Ok (upd (fst st) (bls_ind * 4 + pol_ind) (2 * out_ant2 * (out_ant2 + 1) + 4 * out_ant1 + 2 * out_p2 + out_p1),
        upd (snd st) (bls_ind * 4 + pol_ind) true)
  else
    Ok (upd (fst st) (bls_ind * 4 + pol_ind) (2 * out_ant1 * (out_ant1 + 1) + 4 * out_ant2 + 2 * out_p1 + out_p2), snd st).

(** corr_fits.pyx:50-120 generate_map, from arrays of zeros and False (mwa_corr_fits.py:1699-1705) *)
Definition generate_map (pf : list ((Z * Z) * Z)) : result ((Z -> Z) * (Z -> bool)) :=
  foldM (map_step pf) (quads 128) (fun _ => 0, fun _ => false).

(** itertools.combinations_with_replacement(l, 2) *)
Fixpoint pairs_of {A} (l : list A) : list (A * A) :=
  match l with [] => [] | x :: t => map (fun y => (x, y)) l ++ pairs_of t end.

(** mwa_corr_fits.py:87-93: antenna numbers (tiles) in the order of the antenna indices *)
Definition sorted_tiles (antenna_inds tiles : list Z) : list Z := take 0 tiles (argsortZ antenna_inds).

(** mwa_corr_fits.py:1667-1676: polarizations of the legacy correlator, and their order *)
Definition legacy_pols : list Z := [-6; -8; -7; -5].
Definition pol_index_array : list nat := argsortZ (map Z.abs legacy_pols).

(** mwa_corr_fits.py:1578-1594 and 1680-1831, with _read_fits_file:715-735, for one time and fine
    channel of a file of the legacy correlator: antenna pairs of the rows, polarizations, and the
    visibility of each row and polarization. [raw] are the values in the file. *)
Definition legacy_read (antenna_inds tiles : list Z) (raw : Z -> cplx) : result (list (Z * Z) * list Z * (nat -> nat -> cplx)) :=
  do mc <- generate_map (ants_to_pf antenna_inds);
  let taken := fun k => let v := raw (fst mc k) in if snd mc k then cconj v else v in
  Ok (pairs_of (sorted_tiles antenna_inds tiles), take 0 legacy_pols pol_index_array,
      fun row j => cconj (taken (Z.of_nat row * 4 + Z.of_nat (nth j pol_index_array 0%nat)))).

(** ** Coarse channels *)
(** mwa_corr_fits.py:1607-1620 *)
Definition mapped_chans (chans : list Z) : list Z := filter (fun c => c <=? 128) chans ++ rev (filter (fun c => c >? 128) chans).
(** mwa_corr_fits.py:1621-1627: the file of each coarse channel *)
Definition ordered_files (mwax : bool) (chans : list Z) : list Z :=
  if mwax then chans else map (fun i => Z.of_nat i + 1) (argsortZ (mapped_chans chans)).
(** mwa_corr_fits.py:1628-1634 *)
Definition spw_inds (mwax : bool) (chans included : list Z) : list nat := nonzero (fun f => isinZ f included) (ordered_files mwax chans).
Definition file_nums (mwax : bool) (chans included : list Z) : list Z := take 0 (ordered_files mwax chans) (spw_inds mwax chans included).
(** mwa_corr_fits.py:1633-1642: spectral windows; np.any(np.diff(spw_inds) > 1) *)
Fixpoint has_gap (l : list nat) : bool :=
  match l with x :: (y :: _) as t => (1 <? y - x)%nat || has_gap t | _ => false end.
Definition window_ids (mwax : bool) (chans included : list Z) (nfine : nat) : list Z :=
  flat_map (fun s => repeat (if has_gap (spw_inds mwax chans included) then nth s chans 0 else 0) nfine) (spw_inds mwax chans included).
(** mwa_corr_fits.py:1648-1666: frequencies. [center] is obs_freq_center, [cfine] is
    coarse_num_fine_chans; numbers are exact. *)
Definition freq_array (mwax : bool) (chans included : list Z) (center cfine width : Z) (nfine : nat) : list Z :=
  flat_map (fun s => map (fun k => center + (Z.of_nat s - Z.of_nat (length chans / 2)) * cfine * width + Z.of_nat k * width) (seq 0 nfine))
    (spw_inds mwax chans included).
(** _read_fits_file:678: where the channels of file [f] start *)
Definition file_start (mwax : bool) (chans included : list Z) (nfine : nat) (f : Z) : result nat :=
  match index_of Z.eqb f (file_nums mwax chans included) with Some i => Ok (i * nfine)%nat | None => Err IndexError end.

(** ** Flags *)
(** mwa_corr_fits.py:1717-1719, 714 and 1735-1742: data that no file has are flagged, in all coarse
    channels if one is missing and propagate_coarse_flags is set. [have t i]: some file has data of
    time [t] for the coarse channel at position [i]. *)
Definition coarse_flags (propagate : bool) (ncoarse nfine : nat) (have : nat -> nat -> bool) (t c : nat) : bool :=
  if propagate then existsb (fun i => negb (have t i)) (seq 0 ncoarse) else negb (have t (c / nfine)%nat).

(** mwa_corr_fits.py:600-613 *)
Definition bad_chans (nfreqs nfine nflag : Z) (dc : bool) : list Z :=
  flat_map (fun c => py_range c nfreqs nfine ++ py_range (nfreqs - 1 - c) 0 (- nfine)) (py_range 0 nflag 1) ++
  (if dc then py_range (nfine / 2) nfreqs nfine else []).

(** mwa_corr_fits.py:535-629 flag_init. Widths and times are exact numbers. *)
Definition flag_init (ntimes nfreqs nfine width int_time edge_width start_flag end_flag : Z) (dc : bool) (flags : nat -> nat -> nat -> nat -> bool)
  : result (nat -> nat -> nat -> nat -> bool) :=
  if edge_width mod width >? 0 then Err ValueError else
  if start_flag mod int_time >? 0 then Err ValueError else
  if end_flag mod int_time >? 0 then Err ValueError else
  let ns := start_flag / int_time in
  let ne := end_flag / int_time in
  let bad := bad_chans nfreqs nfine (edge_width / width) dc in
  Ok (fun t b c p => flags t b c p || isinZ (Z.of_nat c) bad || ((ns >? 0) && (Z.of_nat t <? ns)) ||
                     ((ne >? 0) && (ntimes - ne <=? Z.of_nat t))).

(** mwa_corr_fits.py:64 and 1753-1758: rows of flagged antennas. [marks] is the column Flag of the
    metafits file. *)
Definition bad_rows (antenna_inds : list Z) (marks : list bool) : list bool :=
  let flagged := mask_select marks antenna_inds in
  map (fun p => isinZ (Z.of_nat (fst p)) flagged || isinZ (Z.of_nat (snd p)) flagged) (pairs_of (seq 0 (length antenna_inds))).
Definition flag_ants (antenna_inds : list Z) (marks : list bool) (flags : nat -> nat -> nat -> nat -> bool) : nat -> nat -> nat -> nat -> bool :=
  fun t b c p => flags t b c p || nth b (bad_rows antenna_inds marks) false.
