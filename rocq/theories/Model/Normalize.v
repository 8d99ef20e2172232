(** Normalization of visibilities by autocorrelations, and removal of equalization coefficients:
    /repo/src/pyuvdata/uvdata/uvdata.py.
    Visibilities are pairs of real numbers (so no nan, no rounding); arrays are functions of the
    record, the channel and the position of the polarization.  Times are only compared with each
    other and with a sum of one and the tolerance, they are integers of a fine unit. *)
From Coq Require Import List ZArith Bool Arith String Reals.
From Verif Require Import Lib.Py Lib.Np Lib.Dict Model.Pol.
Import ListNotations.
Open Scope list_scope.
Open Scope nat_scope.
Notation length := List.length.

Definition arr (A : Type) := nat -> nat -> nat -> A.

(** The attributes that are used *)
Record vobj := mkvobj {
  v_ant1 : list Z; v_ant2 : list Z; v_time : list Z; v_pol : list Z;
  v_data : arr (R * R); v_flag : arr bool }.
Definition v_n (x : vobj) : nat := length (v_time x).
Definition ant1 (x : vobj) (r : nat) : Z := nth r (v_ant1 x) 0%Z.
Definition ant2 (x : vobj) (r : nat) : Z := nth r (v_ant2 x) 0%Z.

(** uvdata.py:11917-11937 for one polarization: the positions of its two "auto" polarizations.
    A KeyError of a lookup in the dictionaries means that it is its own, a ValueError of
    [list.index] is raised again. *)
Definition pol_index (q : Z) (pols : list Z) : result nat :=
  match index_of Z.eqb q pols with Some i => Ok i | None => Err ValueError end.
Definition feed_index (pols : list Z) (feed : string) : result nat :=
  do q <- dget String.eqb (append feed feed) POL_STR2NUM_DICT;
  pol_index q pols.
Definition pol_group (pols : list Z) (q : Z) : result (nat * nat) :=
  let tried :=
    do name <- dget Z.eqb q POL_NUM2STR_DICT;
    do (f1, f2) <- dget String.eqb name POL_TO_FEED_DICT;
    do i <- feed_index pols f1;
    do j <- feed_index pols f2;
    Ok (i, j) in
  match tried with
  | Err KeyError => do i <- pol_index q pols; Ok (i, i)
  | r => r
  end.

(** uvdata.py:11913-11937 *)
Definition pol_groups (pols : list Z) : result (list (nat * nat)) := mapM (pol_group pols) pols.

(** uvdata.py:11941 *)
Definition auto_pols (groups : list (nat * nat)) : list nat :=
  uniqueN (flat_map (fun g => [fst g; snd g]) groups).

(** numpy.searchsorted(l, v, "right"): the bisection of its compiled code, also for a list that is
    not sorted.  The first argument bounds the number of steps. *)
Fixpoint bisect (steps : nat) (l : list Z) (v : Z) (lo hi : nat) : nat :=
  match steps with
  | 0 => lo
  | S k =>
      if lo <? hi then
        let mid := lo + (hi - lo) / 2 in
        if (nth mid l 0 <=? v)%Z then bisect k l v (mid + 1) hi else bisect k l v lo mid
      else lo
  end.
Definition searchsorted_right (l : list Z) (v : Z) : nat := bisect (S (length l)) l v 0 (length l).

(** uvdata.py:11949: [not np.any(time_array[:-1] > time_array[1:])] *)
Fixpoint time_ordered (l : list Z) : bool :=
  match l with
  | a :: (b :: _) as t => negb (b <? a)%Z && time_ordered t
  | _ => true
  end.

(** uvdata.py:11958-11968; the two lists are the rests of blt_idx and ordered_time from start_idx
    on.  The loop takes at least one record each time, [steps] is their number. *)
Fixpoint time_groups (steps : nat) (tol : Z) (blt_idx : list nat) (ordered : list Z) : list (list nat) :=
  match steps, ordered with
  | S k, t :: _ =>
      let e := searchsorted_right ordered (t + tol)%Z in
      firstn e blt_idx :: time_groups k tol (skipn e blt_idx) (skipn e ordered)
  | _, _ => []
  end.

(** uvdata.py:11949-11968.  For times that are not in order the indices are those of the sorted
    times, but ordered_time is [time_array[...]], which is not sorted. *)
Definition groups_of (tol : Z) (times : list Z) : list (list nat) :=
  let n := length times in
  let blt_idx := if time_ordered times then seq 0 n else argsortZ times in
  let ordered := if time_ordered times then take 0%Z times blt_idx else times in
  time_groups n tol blt_idx ordered.

(** uvdata.py:11985-11998: the factor and the flag of one auto-correlation *)
Definition positive (a : R) : bool := if Rlt_dec 0 a then true else false.
Definition auto_flag (d : R * R) (f : bool) : bool := f || negb (positive (fst d)).
Definition auto_norm (invert : bool) (d : R * R) (f : bool) : R :=
  let v := if invert then (if auto_flag d f then 0%R else sqrt (fst d))
           else sqrt (if auto_flag d f then 0%R else (/ fst d)%R) in v.

(** norm_dict and flag_dict, which have the same keys: antenna, then polarization; values are
    spectra *)
Definition spectra := list (nat * ((nat -> R) * (nat -> bool))).
Definition norms := list (Z * spectra).

(** uvdata.py:11984-11998 *)
Definition auto_spectra (invert : bool) (pols : list nat) (data : arr (R * R)) (flag : arr bool) (r : nat) : spectra :=
  map (fun p => (p, (fun f => auto_norm invert (data r f p) (flag r f p),
                     fun f => auto_flag (data r f p) (flag r f p)))) pols.

(** uvdata.py:11975-11998 *)
Definition group_norms (invert : bool) (pols : list nat) (x : vobj) (data : arr (R * R)) (flag : arr bool)
  (group : list nat) : norms :=
  fold_left (fun d r =>
    if (ant1 x r =? ant2 x r)%Z
    then dset Z.eqb (ant1 x r) (auto_spectra invert pols data flag r) d
    else d) group [].

Definition upd {A} (r p : nat) (g : nat -> A -> A) (a : arr A) : arr A :=
  fun i f j => if (i =? r) && (j =? p) then g f (a i f j) else a i f j.

Definition rscale (k : R) (z : R * R) : R * R := ((fst z * k)%R, (snd z * k)%R).

Definition state := (arr (R * R) * arr bool)%type.

(** uvdata.py:12004-12013, from position [j] of the polarizations on; the result says whether it
    came to the end without a KeyError *)
Fixpoint norm_pols (skip : bool) (ns : norms) (a b : Z) (r j : nat) (groups : list (nat * nat)) (s : state)
  : state * bool :=
  match groups with
  | [] => (s, true)
  | (p1, p2) :: t =>
      if skip && (a =? b)%Z && (p1 =? p2) then norm_pols skip ns a b r (S j) t s
      else
        match (do s1 <- dget Z.eqb a ns; do v1 <- dget Nat.eqb p1 s1;
               do s2 <- dget Z.eqb b ns; do v2 <- dget Nat.eqb p2 s2; Ok (v1, v2)) with
        | Ok (v1, v2) =>
            norm_pols skip ns a b r (S j) t
              (upd r j (fun f z => rscale (fst v1 f * fst v2 f)%R z) (fst s),
               upd r j (fun f w => w || (snd v1 f || snd v2 f)) (snd s))
        | Err _ => (s, false)
        end
  end.

(** uvdata.py:12002-12016 for one record *)
Definition norm_row (skip : bool) (groups : list (nat * nat)) (ns : norms) (x : vobj) (s : state) (r : nat) : state :=
  match norm_pols skip ns (ant1 x r) (ant2 x r) r 0 groups s with
  | (s', true) => s'
  | (s', false) => (fst s', fun i f j => if i =? r then true else snd s' i f j)
  end.

(** uvdata.py:11971-12016 for one group *)
Definition norm_group (skip invert : bool) (groups : list (nat * nat)) (x : vobj) (s : state) (group : list nat) : state :=
  let ns := group_norms invert (auto_pols groups) x (fst s) (snd s) group in
  fold_left (norm_row skip groups ns x) group s.

(** uvdata.py:11885-12016; [tol] is the absolute tolerance of times *)
Definition normalize_by_autos (tol : Z) (skip invert : bool) (x : vobj) : result vobj :=
  if negb (existsb (fun r => (ant1 x r =? ant2 x r)%Z) (seq 0 (v_n x))) then Err ValueError
  else
    do groups <- pol_groups (v_pol x);
    let s := fold_left (norm_group skip invert groups x) (groups_of tol (v_time x)) (v_data x, v_flag x) in
    Ok {| v_ant1 := v_ant1 x; v_ant2 := v_ant2 x; v_time := v_time x; v_pol := v_pol x;
          v_data := fst s; v_flag := snd s |}.
