(** Flag objects (UVFlag in flag mode): waterfalls, conversion between the three
    types and application to visibilities.
    /repo/src/pyuvdata/uvflag/uvflag.py, /repo/src/pyuvdata/utils/apply_uvflag.py.
    Metric arrays, weights, LSTs, histories and telescope metadata are not modelled;
    the comparisons of telescope and spectral window metadata in the conversions
    are taken to succeed.  Of UVFlag.check only the count of times is modelled. *)
From Coq Require Import List ZArith Bool Arith Qcanon.
From Verif Require Import Lib.Py Lib.Np Lib.Cube Lib.QSum Model.Bls Model.UVData Model.Hdf5 Model.Access.
Import ListNotations.
Open Scope Z_scope.
Open Scope list_scope.

(** uvflag.py:37-59.  The number of set cells divided by the number of cells equals
    one; with no cells the quotient is NaN.  Division is exact. *)
Definition count (l : list bool) : nat := List.length (filter (fun b => b) l).
Definition full (l : list bool) : bool := negb (List.length l =? 0)%nat && (count l =? List.length l)%nat.
Definition and_rows_cols (nt nf : nat) (w : nat -> nat -> bool) : nat -> nat -> bool :=
  let wf := fun _ _ : nat => false in
  let wf := fun i j : nat => if full (map (fun i => w i j) (seq 0 nt)) then true else wf i j in
  fun i j : nat => if full (map (fun j => w i j) (seq 0 nf)) then true else wf i j.

(** np.mean of booleans *)
Definition b2q (b : bool) : Qc := if b then 1%Qc else 0%Qc.
Definition bmean (l : list bool) : Qc := qmean (map b2q l).

(** uvflag.py:62-123, UVData input; [flags] is the given flag array or that of the
    object.  The result of shape (Ntimes, Nfreqs) or (Ntimes, Nfreqs, Npols) has the
    same value at every polarization unless [keep_pol]. *)
Definition rows_at (times : list Z) (t : Z) : list nat := nonzero (Z.eqb t) times.
Definition flags2waterfall (u : uvd) (flags : cube bool) (keep_pol : bool) : result (nat -> nat -> nat -> Qc) :=
  let ts := uniqueZ (time_array u) in
  if (List.length ts <=? Ntimes u)%nat then
    Ok (fun i j p : nat =>
      if (i <? List.length ts)%nat then
        bmean (flat_map (fun r => map (fun q => flags r j q) (if keep_pol then [p] else seq 0 (Npols u)))
                 (rows_at (time_array u) (nth i ts 0)))
      else 0%Qc)
  else Err IndexError.

(** uvflag.py:103-112, UVCal input of shape (Nants_data, Nfreqs, Ntimes, Njones) *)
Definition flags2waterfall_cal (na nj : nat) (flags : nat -> nat -> nat -> nat -> bool) (keep_pol : bool)
    : nat -> nat -> nat -> Qc :=
  fun t j p => bmean (flat_map (fun a => map (fun q => flags a j t q) (if keep_pol then [p] else seq 0 nj)) (seq 0 na)).

(** polarization_array: integers, or after collapse_pol the one string that joins
    them (uvflag.py:1184-1186) *)
Inductive fpols := Pols (l : list Z) | Joined (l : list Z).
Definition pol_size (p : fpols) : nat := match p with Pols l => List.length l | Joined _ => 1%nat end.

(** type "waterfall": flag_array has shape (Ntimes, Nfreqs, Npols) *)
Record wflag := mkw { w_time : list Z; w_freq : list Z; w_pol : fpols; w_flags : cube bool }.
(** type "baseline": flag_array has shape (Nblts, Nfreqs, f_np) *)
Record bflag := mkb { f_time : list Z; f_ant1 : list Z; f_ant2 : list Z; f_bl : list Z;
  f_freq : list Z; f_pol : fpols; f_Ntimes : nat; f_Nants : Z; f_np : nat; f_flags : cube bool }.
(** type "antenna": flag_array has shape (Nants_data, Nfreqs, Ntimes, Npols) *)
Record aflag := mka { a_time : list Z; a_freq : list Z; a_pol : fpols; a_ants : list Z;
  a_flags : nat -> nat -> nat -> nat -> bool }.
Inductive uvflag := Metric | Waterfall (w : wflag) | Baseline (b : bflag) | Antenna (a : aflag).

(** np.isclose with the absolute tolerance of the time (frequency) array; the
    relative tolerance is zero. *)
Definition near (tol a b : Z) : bool := Z.abs (a - b) <=? tol.
Definition all_near (tol : Z) (a b : list Z) : bool :=
  (List.length a =? List.length b)%nat && forallb (fun p => near tol (fst p) (snd p)) (combine a b).

(** uvflag.py:1137-1211, collapse_pol with "or"/"and" on one (…, Npols) vector *)
Inductive bmethod := MOr | MAnd.
Definition collapse (m : bmethod) (l : list bool) : bool :=
  match m with MOr => existsb (fun b => b) l | MAnd => forallb (fun b => b) l end.
Definition collapse_pols (m : bmethod) (p : fpols) : fpols :=
  match p with Pols l => if (1 <? List.length l)%nat then Joined l else p | Joined _ => p end.
Definition collapse_last (m : bmethod) (p : fpols) (v : nat -> bool) : nat -> bool :=
  match p with
  | Pols l => if (1 <? List.length l)%nat then fun _ : nat => collapse m (map v (seq 0 (List.length l))) else v
  | Joined _ => v
  end.

(** uvflag.py:1213-1328, to_waterfall with "or"/"and" *)
Definition waterfall_of_baseline (m : bmethod) (keep_pol : bool) (f : bflag) : wflag :=
  let flags := if keep_pol then f_flags f else fun i j : nat => collapse_last m (f_pol f) (f_flags f i j) in
  let ts := uniqueZ (f_time f) in
  mkw ts (f_freq f) (if keep_pol then f_pol f else collapse_pols m (f_pol f))
    (fun i j p : nat => collapse m (map (fun r => flags r j p) (rows_at (f_time f) (nth i ts 0)))).
Definition waterfall_of_antenna (m : bmethod) (keep_pol : bool) (a : aflag) : wflag :=
  let flags := if keep_pol then a_flags a else fun i j t : nat => collapse_last m (a_pol a) (a_flags a i j t) in
  mkw (a_time a) (a_freq a) (if keep_pol then a_pol a else collapse_pols m (a_pol a))
    (fun t j p : nat => collapse m (map (fun r => flags r j t p) (seq 0 (List.length (a_ants a))))).
(** a waterfall to waterfall: uvflag.py:1250-1257 *)
Definition waterfall_of_waterfall (m : bmethod) (keep_pol : bool) (w : wflag) : wflag :=
  if keep_pol then w
  else mkw (w_time w) (w_freq w) (collapse_pols m (w_pol w)) (fun i j : nat => collapse_last m (w_pol w) (w_flags w i j)).

(** uvflag.py:1473-1502: [force_pol] broadcasts a single polarization; the result
    says whether it did *)
Definition match_pols (force_pol : bool) (p : fpols) (target : list Z) : result bool :=
  if force_pol && (pol_size p =? 1)%nat then Ok true
  else match p with
       | Pols l => if (List.length l =? List.length target)%nat && forallb (fun q => fst q =? snd q) (combine l target)
                   then Ok false else Err ValueError
       | Joined _ => Err ValueError
       end.
Definition pol_at (rep : bool) (p : nat) : nat := if rep then 0%nat else p.

(** uvflag.py:1503-1529: one waterfall row after another is assigned *)
Definition broadcast_rows (ttol : Z) (wt ut : list Z) (sarr : cube bool) : cube bool :=
  fold_left (fun arr it => fun i j p : nat =>
      if existsb (Nat.eqb i) (nonzero (fun x => near ttol x (snd it)) ut) then sarr (fst it) j p else arr i j p)
    (combine (seq 0 (List.length (uniqueZ wt))) (uniqueZ wt)) (fun _ _ _ : nat => false).

(** uvflag.py:1530-1579: the flags of one visibility row *)
Definition or_row (ttol : Z) (a : aflag) (ants : list Z) (flags : nat -> nat -> nat -> nat -> bool) (nants : Z)
    (t bl : Z) : result (nat -> nat -> bool) :=
  match nonzero (fun x => near ttol t x) (a_time a) with
  | [] => Ok (fun _ _ : nat => true)
  | tix =>
      do (l1, l2) <- baseline_to_antnums [bl] nants;
      match nonzero (Z.eqb (nth 0 l1 0)) ants, nonzero (Z.eqb (nth 0 l2 0)) ants, tix with
      | [i1], [i2], [k] => Ok (fun j p : nat => flags i1 j k p || flags i2 j k p)
      | _, _, _ => Err ValueError
      end
  end.
Definition rows_of_antenna (ttol : Z) (a : aflag) (u : uvd) (rep : bool) : result (cube bool) :=
  let ants_data := uniqueZ (ant_1_array u ++ ant_2_array u) in
  let new_ants := filter (fun x => negb (isinZ x (a_ants a))) ants_data in
  let ants := a_ants a ++ new_ants in
  let flags := fun i j k p : nat => if (i <? List.length (a_ants a))%nat then a_flags a i j k (pol_at rep p) else true in
  do rows <- mapM (fun tb => or_row ttol a ants flags (Nants_telescope u) (fst tb) (snd tb))
               (combine (time_array u) (baseline_array u));
  Ok (fun i j p : nat => nth i rows (fun _ _ : nat => true) j p).

(** uvflag.py:1387-1611 with a UVData object.  [run_check] stands for the count of
    times in UVFlag.check (uvflag.py:789-793); Ntimes is not updated. *)
Definition to_baseline (ttol ftol : Z) (force_pol run_check : bool) (f : uvflag) (u : uvd) : result bflag :=
  let build := fun (freq : list Z) (pol : fpols) (nt : nat) (flags : bool -> result (cube bool)) =>
    if negb (all_near ftol freq (freq_array u)) then Err ValueError
    else
      do rep <- match_pols force_pol pol (polarization_array u);
      do fl <- flags rep;
      if run_check && negb (nt =? List.length (uniqueZ (time_array u)))%nat then Err ValueError
      else Ok (mkb (time_array u) (ant_1_array u) (ant_2_array u) (baseline_array u) freq
                 (Pols (polarization_array u)) nt (Nants_telescope u) (Npols u) fl) in
  match f with
  | Metric => Err ValueError
  | Baseline b => Ok b
  | Waterfall w => build (w_freq w) (w_pol w) (List.length (w_time w))
      (fun rep => Ok (broadcast_rows ttol (w_time w) (time_array u) (fun i j p : nat => w_flags w i j (pol_at rep p))))
  | Antenna a => build (a_freq a) (a_pol a) (List.length (a_time a)) (fun rep => rows_of_antenna ttol a u rep)
  end.

(** uvflag.py:1613-1780, from a waterfall, for antennas [ants], frequencies [freq]
    and polarizations [pols] of the given object *)
Definition to_antenna (ftol : Z) (force_pol : bool) (w : wflag) (ants freq pols : list Z) : result aflag :=
  if negb (all_near ftol (w_freq w) freq) then Err ValueError
  else
    do rep <- match_pols force_pol (w_pol w) pols;
    Ok (mka (w_time w) (w_freq w) (Pols pols) ants (fun _ j t p : nat => w_flags w t j (pol_at rep p))).

(** uvflag.py:1007, 1053-1061 *)
Definition f_pair_rows (f : bflag) (a b : Z) : list nat :=
  nonzero (fun q => zpair_eqb q (a, b)) (combine (f_ant1 f) (f_ant2 f)).
Definition f_antpairs (f : bflag) : result (list (Z * Z)) :=
  do (a1, a2) <- baseline_to_antnums (uniqueZ (f_bl f)) (f_Nants f);
  Ok (combine a1 a2).

(** apply_uvflag.py:60-80: polarizations of a baseline type object *)
Definition same_set (a b : list Z) : bool := forallb (fun x => isinZ x b) a && forallb (fun x => isinZ x a) b.
Definition apply_pols (force_pol : bool) (u : uvd) (f : bflag) : result fpols :=
  let mine := match f_pol f with Pols l => Some l | Joined _ => None end in
  do p <- match (match mine with Some l => if same_set (polarization_array u) l then Some l else None | None => None end) with
          | Some l => Ok l
          | None => if (pol_size (f_pol f) =? 1)%nat && force_pol then Ok (polarization_array u) else Err ValueError
          end;
  do idx <- mapM (fun x => match index_of Z.eqb x (polarization_array u) with Some i => Ok i | None => Err ValueError end) p;
  if forallb (fun i => i <? List.length p)%nat idx then Ok (Pols (take 0 p idx)) else Err IndexError.

(** apply_uvflag.py:82-104: sizes one are never compared *)
Definition mismatched (tol : Z) (mine theirs : list Z) (n m : nat) : bool :=
  if (n =? 1)%nat then false
  else if (n =? m)%nat then existsb (fun q => tol <? fst q - snd q) (combine (uniqueZ mine) (uniqueZ theirs))
  else true.

(** apply_uvflag.py:112-123, one antenna pair.  An absent index (None) is numpy's
    newaxis: all rows. *)
Definition bcast (n m : nat) : bool := (n =? m)%nat || (n =? 1)%nat.
Definition bpos (n i : nat) : nat := if (n =? 1)%nat then 0%nat else i.
Definition apply_pair (u : uvd) (f : bflag) (fpairs : list (Z * Z)) (flag_missing : bool)
    (flags : cube bool) (ap : Z * Z) : result (cube bool) :=
  do ix <- antpair_search u (fst ap) (snd ap) true;
  do rows <- match ix with None => Ok (seq 0 (Nblts u)) | Some ix => at_index (Nblts u) ix end;
  if negb (memb zpair_eqb ap fpairs) then
    Ok (if flag_missing then fun i j p : nat => if isinN i rows then true else flags i j p else flags)
  else
    let frows := f_pair_rows f (fst ap) (snd ap) in
    if bcast (List.length frows) (List.length rows) && bcast (List.length (f_freq f)) (Nfreqs u) && bcast (f_np f) (Npols u)
    then Ok (fun i j p : nat =>
           match index_of Nat.eqb i rows with
           | Some r => flags i j p ||
               f_flags f (nth (bpos (List.length frows) r) frows 0%nat) (bpos (List.length (f_freq f)) j) (bpos (f_np f) p)
           | None => flags i j p
           end)
    else Err ValueError.

(** apply_uvflag.py:10-128.  [ttol], [ftol]: the tolerances of the arrays.  The
    lookup of antpair2ind is done without its cache (C20, C23). *)
Definition apply_uvflag (ttol ftol : Z) (unflag_first flag_missing force_pol : bool) (u : uvd) (f : uvflag) : result uvd :=
  do b <- match f with
          | Baseline b =>
              do p <- apply_pols force_pol u b;
              Ok (mkb (f_time b) (f_ant1 b) (f_ant2 b) (f_bl b) (f_freq b) p (f_Ntimes b) (f_Nants b) (f_np b) (f_flags b))
          | _ => to_baseline ttol ftol force_pol true f u
          end;
  if mismatched ttol (f_time b) (time_array u) (f_Ntimes b) (Ntimes u) then Err ValueError
  else if mismatched ftol (f_freq b) (freq_array u) (List.length (f_freq b)) (Nfreqs u) then Err ValueError
  else
    let flags := if unflag_first then fun _ _ _ : nat => false else flag_array u in
    do fpairs <- f_antpairs b;
    do aps <- get_antpairs u;
    do flags <- foldM (apply_pair u b fpairs flag_missing) aps flags;
    Ok (set_flag_array flags u).
