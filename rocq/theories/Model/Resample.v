(** Resampling along the time axis: UVData.upsample_in_time, downsample_in_time
    and resample_in_time, /repo/src/pyuvdata/uvdata/uvdata.py:7327-8210.
    Floats are exact rationals.  An object is its list of blt rows with the
    numbers Nbls and Nphase.  Not modelled: the phasing of unprojected and
    driftscan data before and after (7472-7495, 7851-7874: the model is that of
    projected data or of allow_drift), the recomputed LSTs, apparent coordinates
    and uvws, metadata-only objects, warnings and the history. *)
From Coq Require Import List ZArith QArith Qround Qcanon Bool Arith.
From Verif Require Import Lib.Py Lib.Np Lib.Sorting Lib.QSum Model.FreqAvg.
Import ListNotations.
Open Scope Qc_scope.

(** One row of the blt axis: baseline number, phase center id, time (days),
    integration time (seconds) and, by channel and polarization, data, flags
    and nsamples. *)
Record trow := mkTrow {
  t_bl : Z; t_id : Z; t_time : Qc; t_int : Qc;
  t_data : nat -> nat -> cqc; t_flag : nat -> nat -> bool; t_ns : nat -> nat -> Qc }.
Record tobj := mkTobj { o_rows : list trow; o_nbls : nat; o_nphase : nat }.

Definition qle (a b : Qc) : bool := Qle_bool (this a) (this b).
Definition qlt (a b : Qc) : bool := negb (qle b a).
Definition qceq (a b : Qc) : bool := if Qc_eq_dec a b then true else false.
Definition qcabs (a : Qc) : Qc := if qle 0 a then a else - a.
Definition qz (a : Z) : Qc := Q2Qc (inject_Z a).
(** np.isclose *)
Definition qclose (rtol atol a b : Qc) : bool := qle (qcabs (a - b)) (atol + rtol * qcabs b).
(** np.isclose with the tolerances of integration_time, (0, 1e-3)
    (uvdata.py:272-277, parameter.py: a single tolerance is the absolute one) *)
Definition near : Qc -> Qc -> bool := qclose 0 (Q2Qc (1 # 1000)).
(** np.isclose with its default tolerances *)
Definition close : Qc -> Qc -> bool := qclose (Q2Qc (1 # 100000)) (Q2Qc (1 # 100000000)).
Definition day : Qc := qz 86400.

Definition rows_of (bl : Z) (rows : list trow) : list trow := filter (fun r => Z.eqb (t_bl r) bl) rows.

(** uvdata.py:3824-4056, a named order given as the comparison it sorts by.
    Sorting is stable (np.lexsort). *)
Definition reorder (leb : trow -> trow -> bool) (rows : list trow) : list trow := isort leb rows.
(** The default order of reorder_blts: time, then baseline. *)
Definition by_time (a b : trow) : bool :=
  qlt (t_time a) (t_time b) || (qceq (t_time a) (t_time b) && Z.leb (t_bl a) (t_bl b)).

(** uvdata.py:7327-7391 [_harmonize_resample_arrays], and the reordering and
    check that follow (7620-7624, 8089-8093).  Nbls is not updated; of check() only the
    comparison of Nbls with the number of different baselines is modelled. *)
Definition harmonize (leb : trow -> trow -> bool) (o : tobj) (kept new : list trow) : result tobj :=
  let rows := reorder leb (kept ++ new) in
  if (length (uniqueZ (map t_bl rows)) =? o_nbls o)%nat
  then Ok {| o_rows := rows; o_nbls := o_nbls o; o_nphase := o_nphase o |}
  else Err ValueError.

(** ** Upsampling *)

(** uvdata.py:7453-7463 *)
Definition too_long (max_int_time : Qc) (r : trow) : bool :=
  qlt max_int_time (t_int r) && negb (near (t_int r) max_int_time).

(** uvdata.py:7497-7505: the number of pieces *)
Definition n_pieces (max_int_time int_time : Qc) : Z :=
  let x := int_time / max_int_time in
  if close x (qz (Qfloor (this x))) then Qfloor (this x) else Qceiling (this x).

(** uvdata.py:7532-7570, one row.  [int % 2] and [int // 2] are Z.modulo and Z.div. *)
Definition piece (summing : bool) (n : Z) (r : trow) (ii : nat) : trow :=
  let dt := t_int r / qz n in
  let offset := Q2Qc (1 # 2) + Q2Qc (1 # 2) * qz (n mod 2) in
  let idx2 := qnat ii + offset + qz (n / 2) - qz n in
  {| t_bl := t_bl r; t_id := t_id r;
     t_time := t_time r + dt * idx2 / day;
     t_int := dt;
     t_data := fun j p => if summing then (fst (t_data r j p) / qz n, snd (t_data r j p) / qz n) else t_data r j p;
     t_flag := t_flag r; t_ns := t_ns r |}.
Definition pieces (summing : bool) (max_int_time : Qc) (r : trow) : list trow :=
  let n := n_pieces max_int_time (t_int r) in
  map (piece summing n r) (seq 0 (Z.to_nat n)).

(** uvdata.py:7394-7634.  [max_int_time < 1e-2 * min(integration_time)] is
    written for all rows; the minimum of no rows raises ValueError. *)
Definition upsample_in_time (max_int_time : Qc) (summing : bool) (leb : trow -> trow -> bool) (o : tobj) : result tobj :=
  if forallb (fun r => qlt max_int_time (Q2Qc (1 # 100) * t_int r)) (o_rows o) then Err ValueError
  else
    match filter (too_long max_int_time) (o_rows o) with
    | [] => Ok o
    | long => harmonize leb o (filter (fun r => qle (t_int r) max_int_time) (o_rows o))
                (flat_map (pieces summing max_int_time) long)
    end.

(** ** Downsampling *)

(** uvdata.py:7731-7741 *)
Definition too_short (min_int_time : Qc) (r : trow) : bool :=
  qlt (t_int r) min_int_time && negb (near (t_int r) min_int_time).

(** uvdata.py:7783-7788, 7909-7914 *)
Definition over_min (min_int_time running : Qc) : bool := qlt min_int_time running || near running min_int_time.

(** uvdata.py:7779-7798: the number of windows of a baseline, first pass *)
Fixpoint count_windows (over : Qc -> bool) (keep_ragged : bool) (running : Qc) (ints : list Qc) : nat :=
  match ints with
  | [] => 0
  | x :: rest =>
      let running := running + x in
      let last_sample := match rest with [] => true | _ => false end in
      if over running || last_sample then
        if last_sample && negb (over running || keep_ragged)
        then count_windows over keep_ragged running rest
        else S (count_windows over keep_ragged 0 rest)
      else count_windows over keep_ragged running rest
  end.

(** uvdata.py:7800-7805 *)
Definition count_n_times (n : Z) (keep_ragged : bool) (n_bl_times : nat) : result Z :=
  if (n =? 0)%Z then Err ZeroDivisionError
  else
    let x := qnat n_bl_times / qz n in
    Ok (if keep_ragged && negb (close x (qz (Qfloor (this x)))) then Qceiling (this x) else Qfloor (this x)).

(** uvdata.py:7773-7847, one baseline.  The look at gaps takes [dtime[0]], which
    does not exist for a baseline of one row (its integration times are then all equal). *)
Definition predicted (min_int_time : option Qc) (n_times : Z) (keep_ragged : bool) (rows : list trow) (bl : Z) : result Z :=
  let here := rows_of bl rows in
  do n <- match min_int_time with
          | Some m => Ok (Z.of_nat (count_windows (over_min m) keep_ragged 0 (map t_int here)))
          | None => count_n_times n_times keep_ragged (length here)
          end;
  if (length here <=? 1)%nat then Err IndexError else Ok n.

(** uvdata.py:7900-7929, 8023-8027: the second pass over a baseline; gives for each window its
    first position, its number of rows and its running integration time. *)
Fixpoint scan (over : Qc -> nat -> bool) (keep_ragged : bool) (running : Qc) (n_sum summing_idx : nat) (ints : list Qc)
    : list (nat * nat * Qc) :=
  match ints with
  | [] => []
  | x :: rest =>
      let running := running + x in
      let n_sum := S n_sum in
      let last_sample := match rest with [] => true | _ => false end in
      if over running n_sum || last_sample then
        if last_sample && negb (over running n_sum || keep_ragged)
        then scan over keep_ragged running n_sum summing_idx rest
        else (summing_idx, n_sum, running) :: scan over keep_ragged 0 0 (summing_idx + n_sum) rest
      else scan over keep_ragged running n_sum summing_idx rest
  end.

(** uvdata.py:7962-7976: the inputs that are not masked *)
Definition unmasked_rows (w : list trow) (j p : nat) : list trow :=
  if forallb (fun r => t_flag r j p) w then w else filter (fun r => negb (t_flag r j p)) w.
Definition weight (r : trow) (j p : nat) : Qc := t_ns r j p * t_int r.

(** uvdata.py:7926-8022: the row a window becomes *)
Definition average_rows (summing : bool) (bl : Z) (w : list trow) (running : Qc) : trow :=
  let total := qsum (map t_int w) in
  {| t_bl := bl; t_id := match w with r :: _ => t_id r | [] => 0%Z end;
     t_time := qsum (map (fun r => t_time r * t_int r) w) / total;
     t_int := running;
     t_data := fun j p =>
       let used := unmasked_rows w j p in
       if summing then csum (map (fun r => t_data r j p) used)
       else cdiv (csum (map (fun r => cscale (weight r j p) (t_data r j p)) used))
                 (qsum (map (fun r => weight r j p) used));
     t_flag := fun j p => forallb (fun r => t_flag r j p) w;
     t_ns := fun j p => qsum (map (fun r => weight r j p) (unmasked_rows w j p)) / total |}.

(** The window of the second pass as rows. *)
Definition slice {A} (start n : nat) (l : list A) : list A := firstn n (skipn start l).
Definition bl_windows (min_int_time : option Qc) (n_times : Z) (keep_ragged : bool) (rows : list trow) (bl : Z)
    : list (Z * list trow * Qc) :=
  let here := rows_of bl rows in
  let over := fun running n_sum => match min_int_time with
                                   | Some m => over_min m running
                                   | None => Z.leb n_times (Z.of_nat n_sum) end in
  map (fun x => match x with (start, n, running) => (bl, slice start n here, running) end)
      (scan over keep_ragged 0 0 0 (map t_int here)).

(** uvdata.py:7926-7942: writing window number [temp_idx] into arrays of size [size] *)
Definition write_row (summing : bool) (nphase : nat) (size : Z) (x : nat * (Z * list trow * Qc)) : result trow :=
  match x with (temp_idx, (bl, w, running)) =>
    if Z.leb size (Z.of_nat temp_idx) then Err IndexError
    else if (1 <? nphase)%nat && (1 <? length (uniqueZ (map t_id w)))%nat then Err ValueError
    else Ok (average_rows summing bl w running)
  end.

Definition sumZ (l : list Z) : Z := fold_right Z.add 0%Z l.

(** uvdata.py:7752-8093.  The baselines left alone are kept in their order here;
    the code visits them in the order of a set, before the final reordering. *)
Definition downsample_rows (min_int_time : option Qc) (n_times : Z) (keep_ragged summing : bool)
    (leb : trow -> trow -> bool) (o : tobj) : result tobj :=
  let rows := reorder by_time (o_rows o) in
  let bls := match min_int_time with
             | Some m => uniqueZ (map t_bl (filter (too_short m) rows))
             | None => uniqueZ (map t_bl rows) end in
  do counts <- mapM (predicted min_int_time n_times keep_ragged rows) bls;
  let size := sumZ counts in
  if Z.ltb size 0 then Err ValueError (* np.zeros of a negative size *)
  else
    let windows := flat_map (bl_windows min_int_time n_times keep_ragged rows) bls in
    do new <- mapM (write_row summing (o_nphase o) size) (combine (seq 0 (length windows)) windows);
    if negb (Z.of_nat (length new) =? size)%Z then Err AssertionError
    else
      let kept := match min_int_time with
                  | Some _ => filter (fun r => negb (isinZ (t_bl r) bls)) rows
                  | None => [] end in
      harmonize leb o kept new.

(** Ntimes = 1 *)
Definition one_time (rows : list trow) : bool :=
  match rows with
  | [] => false
  | r :: rest => forallb (fun r' => qceq (t_time r') (t_time r)) rest
  end.

(** uvdata.py:7636-8109.  [min_int_time > 1e2 * max(integration_time)] is
    written for all rows. *)
Definition downsample_in_time (min_int_time : option Qc) (n_times_to_avg : option Z) (keep_ragged summing : bool)
    (leb : trow -> trow -> bool) (o : tobj) : result tobj :=
  match min_int_time, n_times_to_avg with
  | None, None => Err ValueError
  | Some _, Some _ => Err ValueError
  | Some m, None =>
      if one_time (o_rows o) then Err ValueError
      else if forallb (fun r => qlt (qz 100 * t_int r) m) (o_rows o) then Err ValueError
      else match filter (too_short m) (o_rows o) with
           | [] => Ok o
           | _ => downsample_rows (Some m) 1 keep_ragged summing leb o
           end
  | None, Some n =>
      if one_time (o_rows o) then Err ValueError
      else downsample_rows None n keep_ragged summing leb o
  end.

(** uvdata.py:8111-8210 *)
Definition at_least_twice (a b : Qc) : bool := Z.leb 2 (Qfloor (this (a / b))).
Definition qc_min (l : list Qc) (d : Qc) : Qc := fold_right (fun x m => if qle x m then x else m) d l.
Definition qc_max (l : list Qc) (d : Qc) : Qc := fold_right (fun x m => if qle m x then x else m) d l.
Definition resample_in_time (target_time : Qc) (only_downsample only_upsample keep_ragged summing : bool)
    (leb : trow -> trow -> bool) (o : tobj) : result tobj :=
  match map t_int (o_rows o) with
  | [] => Err ValueError
  | x :: rest =>
      let downsample := at_least_twice target_time (qc_min rest x) && negb only_upsample in
      let upsample := at_least_twice (qc_max rest x) target_time && negb only_downsample in
      do o1 <- (if downsample then downsample_in_time (Some target_time) None keep_ragged summing leb o else Ok o);
      if upsample then upsample_in_time target_time summing leb o1 else Ok o1
  end.
