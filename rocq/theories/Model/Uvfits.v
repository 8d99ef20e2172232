(** UVFITS files: /repo/src/pyuvdata/uvdata/uvfits.py.  Frequencies, times and coordinates
    are exact numbers here; in the file some of them are rounded.  Baseline coordinates are
    only reversed: the conversion between metres and seconds is left out.  Antennas have only
    their numbers, and an entry of the catalog of phase centers is one number.  The data
    are phased to sidereal sources. *)
From Coq Require Import List ZArith Bool Arith QArith.
From Verif Require Import Lib.Py Lib.Np Lib.Cube Lib.Sorting Lib.Dict Model.Freq.
Import ListNotations.
Open Scope Z_scope.

(** What belongs to one row: coordinates, time, LST, antennas, integration time and id of
    the phase center *)
Record row := mkRow { r_uvw : Z * Z * Z; r_time : Z; r_lst : Z; r_ant1 : Z; r_ant2 : Z; r_int : Z; r_src : Z }.
Record fobj := mkFobj {
  o_rows : list row;
  o_freqs : list Z; o_widths : list Z; o_flex : list Z; o_spws : list Z; o_pols : list Z;
  o_data : cube cplx; o_flags : cube bool; o_ns : cube Z;
  o_ants : list Z; o_cat : list (Z * Z) }.

(** The file: the axes of the header; the FQ table, with the starts and the channel widths of
    the windows, or None; the random parameters; the data by row, window, channel and
    polarization: real part, imaginary part and weight; the numbers of the AN table; the ids
    and entries of the SU table.  BASELINE is written but not read, because ANTENNA1 and
    ANTENNA2 are there. *)
Record uvfits := mkUvfits {
  f_nspw : nat; f_nchan : nat; f_npol : nat;
  f_pol0 : Z; f_dpol : Z; f_freq0 : Z; f_dfreq : Z;
  f_fq : option (list Z * list Z);
  f_rows : list row;
  f_data : nat -> nat -> nat -> nat -> Z * Z * Z;
  f_ants : list Z; f_src : list (Z * Z) }.

(** np.diff *)
Fixpoint diffs (l : list Z) : list Z :=
  match l with x :: ((y :: _) as t) => (y - x) :: diffs t | _ => [] end.
(** tools.py:184-228 with tolerance zero *)
Definition constant (l : list Z) : bool :=
  match l with [] => true | x :: t => forallb (Z.eqb x) t end.
(** The numbers of one window *)
Definition of_window (o : fobj) (l : list Z) (w : Z) : list Z := take 0 l (nonzero (Z.eqb w) (o_flex o)).

(** frequency.py:99-113, one window, with tolerances zero: evenly spaced by the width *)
Definition window_spaced (o : fobj) (w : Z) : bool :=
  let d := diffs (of_window o (o_freqs o) w) in
  let ws := of_window o (o_widths o) w in
  match d with
  | [] => true
  | _ => constant d && constant ws &&
         forallb (Z.eqb (nth 0 ws 0 * (if forallb (fun x => x <? 0) d then -1 else 1))) d
  end.

(** uvfits.py:915-925: the first frequency, and the median width with the sign of the median
    of the steps *)
Definition window_start (o : fobj) (w : Z) : Z := nth 0 (of_window o (o_freqs o) w) 0.
Definition window_delta (o : fobj) (w : Z) : Z :=
  let d := diffs (of_window o (o_freqs o) w) in
  median2 (of_window o (o_widths o) w) / 2 * (match d with [] => 1 | _ => Z.sgn (median2 d) end).

(** uvfits.py:896-905, 915-1141, 1350-1460.  [miriad] is use_miriad_convention.  Of the check
    before writing only that of the frequencies is modelled. *)
Definition write_uvfits (miriad : bool) (o : fobj) : result uvfits :=
  do _ <- check_flex_spw_contiguous (o_spws o) (o_flex o);
  if negb (forallb (window_spaced o) (o_spws o)) then Err ValueError
  else
    let sizes := map (fun w => length (nonzero (Z.eqb w) (o_flex o))) (o_spws o) in
    let starts := map (window_start o) (o_spws o) in
    let deltas := map (window_delta o) (o_spws o) in
    if negb (length (uniqueN sizes) =? 1)%nat then Err IndexError
    else if existsb (fun x => x <=? 0) starts then Err ValueError
    else if existsb (Z.eqb 0) deltas then Err ValueError
    else
      let npols := length (o_pols o) in
      let order := if (1 <? npols)%nat then argsortZ (map Z.abs (o_pols o)) else [0%nat] in
      let pols := take 0 (o_pols o) order in
      if (2 <? npols)%nat && negb (constant (diffs pols)) then Err ValueError
      else
        let dpol := if (1 <? npols)%nat then nth 1 pols 0 - nth 0 pols 0 else 1 in
        let nspw := length (o_spws o) in
        let nchan := (length (o_freqs o) / nspw)%nat in
        let ref := nth 0 starts 0 in
        let shift := if miriad && isinZ 0 (o_ants o) && forallb (Z.leb 0) (o_ants o) then 1 else 0 in
        let id_offset := if isinZ 0 (map fst (o_cat o)) then 1 else 0 in
        Ok {| f_nspw := nspw; f_nchan := nchan; f_npol := npols;
              f_pol0 := nth 0 pols 0; f_dpol := dpol; f_freq0 := ref; f_dfreq := nth 0 deltas 0;
              f_fq := if (1 <? nspw)%nat then Some (map (fun x => x - ref) starts, deltas) else None;
              f_rows := map (fun r =>
                {| r_uvw := (- fst (fst (r_uvw r)), - snd (fst (r_uvw r)), - snd (r_uvw r));
                   r_time := r_time r; r_lst := r_lst r;
                   r_ant1 := r_ant1 r + shift; r_ant2 := r_ant2 r + shift;
                   r_int := r_int r; r_src := r_src r + id_offset |}) (o_rows o);
              f_data := fun b s c p =>
                let k := (s * nchan + c)%nat in
                let q := nth p order 0%nat in
                let v := cconj (o_data o b k q) in
                (fst v, snd v, o_ns o b k q * (if o_flags o b k q then -1 else 1));
              f_ants := map (Z.add shift) (o_ants o);
              f_src := map (fun e => (fst e + id_offset, snd e)) (o_cat o) |}.

(** utils/io/fits.py:9-32, with CRPIX 1 *)
Definition hdu_axis (n : nat) (val delta : Z) : list Z := map (fun i => delta * Z.of_nat i + val) (seq 0 n).

(** uvfits.py:413-463 and 41-198: everything but the visibilities *)
Definition read_meta (f : uvfits) : fobj :=
  let n := f_nspw f in
  let c := f_nchan f in
  {| o_rows := map (fun r =>
       {| r_uvw := (- fst (fst (r_uvw r)), - snd (fst (r_uvw r)), - snd (r_uvw r));
          r_time := r_time r; r_lst := r_lst r; r_ant1 := r_ant1 r; r_ant2 := r_ant2 r;
          r_int := r_int r; r_src := r_src r |}) (f_rows f);
     o_freqs := match f_fq f with
       | Some (starts, widths) =>
           List.concat (map (fun s => map (fun j => f_freq0 f + nth s starts 0 + Z.of_nat j * nth s widths 0) (seq 0 c)) (seq 0 n))
       | None => hdu_axis c (f_freq0 f) (f_dfreq f)
       end;
     o_widths := match f_fq f with
       | Some (_, widths) => List.concat (map (fun s => repeat (Z.abs (nth s widths 0)) c) (seq 0 n))
       | None => repeat (f_dfreq f) c
       end;
     o_flex := match f_fq f with
       | Some _ => List.concat (map (fun s => repeat (Z.of_nat s) c) (seq 0 n))
       | None => repeat 0 c
       end;
     o_spws := map Z.of_nat (seq 0 n);
     o_pols := hdu_axis (f_npol f) (f_pol0 f) (f_dpol f);
     o_data := fun _ _ _ => (0, 0); o_flags := fun _ _ _ => false; o_ns := fun _ _ _ => 0;
     o_ants := f_ants f; o_cat := f_src f |}.

(** uvdata.py:7017-7134: the metadata after a selection *)
Definition pick {A} (d : A) (l : list A) (i : option (list nat)) : list A :=
  match i with None => l | Some i => take d l i end.
Definition no_row : row := mkRow (0, 0, 0) 0 0 0 0 0 0.
Definition select_meta (bi fi pi : option (list nat)) (o : fobj) : fobj :=
  let flex := pick 0 (o_flex o) fi in
  {| o_rows := pick no_row (o_rows o) bi;
     o_freqs := pick 0 (o_freqs o) fi; o_widths := pick 0 (o_widths o) fi; o_flex := flex;
     o_spws := match fi with None => o_spws o | Some _ => filter (fun w => isinZ w flex) (o_spws o) end;
     o_pols := pick 0 (o_pols o) pi;
     o_data := o_data o; o_flags := o_flags o; o_ns := o_ns o; o_ants := o_ants o; o_cat := o_cat o |}.

(** uvfits.py:340-346: the visibilities from what was read, indexed by row, window, channel
    and polarization, with [c] channels in each window *)
Definition fill_data (o : fobj) (c : nat) (raw : nat -> nat -> nat -> nat -> Z * Z * Z) : fobj :=
  let at_ b k p := raw b (k / c)%nat (k mod c)%nat p in
  {| o_rows := o_rows o; o_freqs := o_freqs o; o_widths := o_widths o; o_flex := o_flex o; o_spws := o_spws o; o_pols := o_pols o;
     o_data := fun b k p => let '(re, im, _) := at_ b k p in (re, - im);
     o_flags := fun b k p => let '(_, _, w) := at_ b k p in w <=? 0;
     o_ns := fun b k p => let '(_, _, w) := at_ b k p in Z.abs w;
     o_ants := o_ants o; o_cat := o_cat o |}.

(** The part of an axis that is read: all of it or the indices given; numpy raises IndexError
    if one is out of range *)
Definition in_axis (n : nat) (i : option (list nat)) : bool :=
  match i with None => true | Some i => forallb (fun k => (k <? n)%nat) i end.
Definition along (i : option (list nat)) (k : nat) : nat :=
  match i with None => k | Some i => nth k i 0%nat end.
Definition count (n : nat) (i : option (list nat)) : nat := match i with None => n | Some i => length i end.
Definition only_if (b : bool) (i : option (list nat)) : option (list nat) := if b then i else None.

(** uvfits.py:242-256 *)
Definition fraction (i : option (list nat)) (k n : nat) : Q :=
  match i with None => 1%Q | Some i => (Z.of_nat (length i * k) # Pos.of_nat n)%Q end.
Definition Qlt1 (x : Q) : bool := negb (Qle_bool 1 x).

(** uvfits.py:200-346, for the indices that _select_preprocess has found, and a file with an
    axis for the windows.  The numbers of rows and polarizations are the same in the metadata
    and in what is read; those of channels may not be. *)
Definition read_uvfits (bi fi pi : option (list nat)) (f : uvfits) : result fobj :=
  let o := read_meta f in
  let nb := length (f_rows f) in
  let blt_frac := fraction bi 1 nb in
  let freq_frac := fraction fi (f_nspw f) (length (o_freqs o)) in
  let pol_frac := fraction pi 1 (f_npol f) in
  if Qle_bool 1 blt_frac && Qle_bool 1 freq_frac && Qle_bool 1 pol_frac then Ok (fill_data o (f_nchan f) (f_data f))
  else
    let o' := select_meta bi fi pi o in
    let by_blt := Qle_bool blt_frac freq_frac && Qle_bool blt_frac pol_frac in
    let by_freq := negb by_blt && Qle_bool freq_frac pol_frac in
    let bi := only_if (by_blt || Qlt1 blt_frac) bi in
    let fi := only_if (by_freq || Qlt1 freq_frac) fi in
    let pi := only_if (negb by_blt && negb by_freq || Qlt1 pol_frac) pi in
    let bounds := in_axis nb bi && in_axis (f_nchan f) fi && in_axis (f_npol f) pi in
    let first := if by_blt then in_axis nb bi else if by_freq then in_axis (f_nchan f) fi else in_axis (f_npol f) pi in
    if negb first then Err IndexError
    else if negb (length (o_spws o') =? f_nspw f)%nat then Err AssertionError
    else if negb bounds then Err IndexError
    else
      let c := count (f_nchan f) fi in
      if negb (f_nspw f * c =? length (o_freqs o'))%nat then Err ValueError
      else Ok (fill_data o' c (fun b s k p => f_data f (along bi b) s (along fi k) (along pi p))).
