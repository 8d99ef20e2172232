(** Making new objects: src/pyuvdata/uvdata/initializers.py (UVData.new, and in part UVCal.new).
    Times and integration times are multiples of 10^-6 days and 10^-6 seconds, frequencies and
    widths of 1 Hz.  Antenna pairs are an array of shape (N, 2).  The telescope, phase centers,
    uvws and attributes given by further keywords are not modelled. *)
From Coq Require Import List ZArith Bool Arith String.
From Verif Require Import Lib.Py Lib.Np Lib.Dict Model.Pol.
Import ListNotations.
Notation length := List.length.
Open Scope list_scope.
Open Scope Z_scope.

(** A parameter that is left out, one number, or an array *)
Inductive amount := Unset | Scalar (z : Z) | Array (l : list Z).
Definition second : Z := 1000000.

(** np.diff *)
Fixpoint diffs (l : list Z) : list Z :=
  match l with
  | x :: (y :: _) as r => (y - x) :: diffs r
  | _ => []
  end.
(** np.concatenate([d, d[-1:]]) *)
Definition repeat_last (l : list Z) : list Z := l ++ match l with [] => [] | _ => [last l 0] end.
(** np.tile(l, n), np.repeat(l, n) *)
Definition tile {A} (l : list A) (n : nat) : list A := List.concat (repeat l n).
Definition repeats {A} (l : list A) (n : nat) : list A := flat_map (fun x => repeat x n) l.
(** np.unique(a, axis=0) of pairs *)
Definition pair_leb (p q : Z * Z) : bool := (fst p <? fst q) || (fst p =? fst q) && (snd p <=? snd q).
Definition pair_eqb (p q : Z * Z) : bool := (fst p =? fst q) && (snd p =? snd q).
Fixpoint insert_pair (p : Z * Z) (l : list (Z * Z)) : list (Z * Z) :=
  match l with
  | [] => [p]
  | q :: r => if pair_eqb p q then l else if pair_leb p q then p :: l else q :: insert_pair p r
  end.
Definition unique_pairs (l : list (Z * Z)) : list (Z * Z) := fold_right insert_pair [] l.

(** initializers.py:17-85 for an array of times; [lst] stands for utils.get_lst_for_time *)
Definition get_time_params (lst : Z -> Z) (times : list Z) (integration : amount) : result (list Z * list Z) :=
  let ints :=
    match integration with
    | Unset => let u := uniqueZ times in if (1 <? length u)%nat then repeat_last (map (fun d => d * 86400) (diffs u)) else [second]
    | Scalar z => repeat z (length times)
    | Array l => l
    end in
  if (length ints =? length times)%nat then Ok (map lst times, ints) else Err ValueError.
(** initializers.py:88-115 *)
Definition get_freq_params (freqs : list Z) (width : amount) : result (list Z * list Z) :=
  let ws :=
    match width with
    | Unset => if (1 <? length freqs)%nat then repeat_last (diffs freqs) else [1]
    | Scalar z => repeat z (length freqs)
    | Array l => l
    end in
  if (length ws =? length freqs)%nat then Ok (freqs, ws) else Err ValueError.

Record rows := mkRows {
  r_nbls : nat; r_ntimes : nat; r_rect : option bool; r_fast : option bool;
  r_time : list Z; r_pair : list (Z * Z); r_lst : list Z; r_int : list Z }.
(** initializers.py:136-162: whether each pair has each time *)
Definition decide (times : list Z) (pairs : list (Z * Z)) (outer : option bool) : result bool :=
  let nt := length (uniqueZ times) in
  let nbl := length (unique_pairs pairs) in
  match outer with
  | Some o => Ok o
  | None =>
      if negb (length times =? length pairs)%nat then
        if negb (nt =? length times)%nat then Err ValueError
        else if negb (nbl =? length pairs)%nat then Err ValueError
        else Ok true
      else if negb (nbl =? length pairs)%nat || negb (nt =? length times)%nat then Ok false
      else Err ValueError
  end.
(** initializers.py:164-184 *)
Definition product (times : list Z) (pairs : list (Z * Z)) (fast : option bool) (lsts ints : list Z) : result rows :=
  let ut := uniqueZ times in
  let up := unique_pairs pairs in
  let nt := length ut in
  let nbl := length up in
  if negb (nt =? length times)%nat then Err ValueError
  else if negb (nbl =? length pairs)%nat then Err ValueError
  else if match fast with Some f => f | None => false end then
    Ok {| r_nbls := nbl; r_ntimes := nt; r_rect := Some true; r_fast := Some true;
          r_time := tile ut nbl; r_pair := repeats up nt; r_lst := tile lsts nbl; r_int := tile ints nbl |}
  else
    Ok {| r_nbls := nbl; r_ntimes := nt; r_rect := Some true; r_fast := Some false;
          r_time := repeats times nbl; r_pair := tile pairs nt; r_lst := repeats lsts nbl; r_int := repeats ints nbl |}.
(** initializers.py:186-213.  The last branch, determine_rectangularity (C17), is left out: its
    answer is used for no attribute, since then no order of the axis is set (line 576). *)
Definition as_given (times : list Z) (pairs : list (Z * Z)) (rect : option bool) (lsts ints : list Z) : result rows :=
  let nt := length (uniqueZ times) in
  let nbl := length (unique_pairs pairs) in
  match rect with
  | Some true =>
      if negb (length times =? length pairs)%nat || negb (length times =? nt * nbl)%nat then Err ValueError
      else match times with
           | t0 :: t1 :: _ => Ok {| r_nbls := nbl; r_ntimes := nt; r_rect := rect; r_fast := Some (0 <? Z.abs (t1 - t0)); r_time := times; r_pair := pairs; r_lst := lsts; r_int := ints |}
           | _ => Err IndexError
           end
  | _ => Ok {| r_nbls := nbl; r_ntimes := nt; r_rect := rect; r_fast := None; r_time := times; r_pair := pairs; r_lst := lsts; r_int := ints |}
  end.
(** initializers.py:127-223 *)
Definition configure (times : list Z) (pairs : list (Z * Z)) (outer rect fast : option bool) (lsts ints : list Z) : result rows :=
  do o <- decide times pairs outer;
  if (o : bool) then product times pairs fast lsts ints else as_given times pairs rect lsts ints.

(** itertools.combinations_with_replacement(l, 2) *)
Fixpoint combinations (l : list Z) : list (Z * Z) :=
  match l with [] => [] | x :: r => map (fun y => (x, y)) l ++ combinations r end.

Record blts := mkBlts {
  n_time : list Z; n_pair : list (Z * Z); n_lst : list Z; n_int : list Z;
  n_nbls : nat; n_ntimes : nat; n_order : option (string * string) }.
(** initializers.py:530-587 *)
Definition new_blts (lst : Z -> Z) (ants times : list Z) (antpairs : option (list (Z * Z))) (outer rect fast : option bool) (integration : amount) : result blts :=
  do li <- get_time_params lst times integration;
  let pairs := match antpairs with Some ps => ps | None => combinations ants end in
  let outer := match antpairs with Some _ => outer | None => Some true end in
  do r <- configure times pairs outer rect fast (fst li) (snd li);
  if negb (match outer with Some o => o | None => false end) && negb (length (r_time r) =? length (r_pair r))%nat then Err ValueError else
  let order :=
    match antpairs, r_rect r with
    | None, Some true => Some (if match r_fast r with Some f => f | None => false end then ("ant1", "ant2") else ("time", "ant1"))%string
    | _, _ => None
    end in
  Ok {| n_time := r_time r; n_pair := r_pair r; n_lst := r_lst r; n_int := r_int r; n_nbls := r_nbls r; n_ntimes := r_ntimes r; n_order := order |}.

(** initializers.py:251-276, as used with spw_array=None (lines 594-596) and with both *)
Definition get_spw_params (nfreqs : nat) (ids spws : option (list Z)) : result (list Z * list Z) :=
  match ids, spws with
  | None, None => Ok (repeat 0 nfreqs, [0])
  | None, Some s => if (1 <? length s)%nat then Err ValueError else match s with x :: _ => Ok (repeat x nfreqs, s) | [] => Err IndexError end
  | Some i, None => Ok (i, uniqueZ i)
  | Some i, Some s => if negb (length (uniqueZ s) =? length (uniqueZ i))%nat then Err ValueError else Ok (i, s)
  end.

(** initializers.py:598-602, polarizations given by names; [tel] is the x_orientation of the
    telescope, [arg] the one given (deprecated) *)
Definition new_pols (tel arg : option string) (names : list string) : result (list Z) := mapM (polstr2num arg) names.

(** Arrays of three axes: their shape and entries *)
Record array3 := mkArray3 { a_shape : nat * nat * nat; a_at : nat -> nat -> nat -> Z }.
Definition shape_eqb (a b : nat * nat * nat) : bool :=
  (fst (fst a) =? fst (fst b))%nat && (snd (fst a) =? snd (fst b))%nat && (snd a =? snd b)%nat.
Definition const (s : nat * nat * nat) (v : Z) : array3 := {| a_shape := s; a_at := fun _ _ _ => v |}.
(** initializers.py:654-691: data, flags (0 is False), nsamples; None if there is only metadata *)
Definition new_arrays (s : nat * nat * nat) (empty : bool) (data flags nsamples : option array3) : result (option (array3 * array3 * array3)) :=
  if empty then Ok (Some (const s 0, const s 0, const s 1))
  else match data with
       | None => Ok None
       | Some d =>
           if negb (shape_eqb (a_shape d) s) then Err ValueError else
           do f <- match flags with Some f => if shape_eqb (a_shape f) s then Ok f else Err ValueError | None => Ok (const s 0) end;
           do n <- match nsamples with Some n => if shape_eqb (a_shape n) s then Ok n else Err ValueError | None => Ok (const s 1) end;
           Ok (Some (d, f, n))
       end.
