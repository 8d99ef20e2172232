(** Making a calibration object for a data object: UVCal.initialize_from_uvdata / new_uvcal_from_uvdata,
    /repo/src/pyuvdata/uvcal/initializers.py:400-658. Numbers, names and positions of antennas are
    integers. Not modelled: new antenna positions and diameters given by the user, other keywords
    passed on, sidereal times, history and the final check. *)
From Coq Require Import List ZArith Bool Arith.
From Verif Require Import Lib.Py Lib.Np Model.NewData.
Import ListNotations.
Notation length := List.length.
Open Scope list_scope.
Open Scope Z_scope.

Record tel := { t_nums : list Z; t_names : list Z; t_pos : list Z; t_diams : option (list Z) }.
(** The data object: one entry per record, per channel, and the telescope *)
Record src := {
  s_times : list Z; s_ints : list Z; s_ant1 : list Z; s_ant2 : list Z; s_pols : list Z;
  s_freqs : list Z; s_widths : list Z; s_ids : list Z; s_tel : tel }.

(** initializers.py:453-462: np.unique(time_array, return_index=True) *)
Definition time_params (u : src) : list Z * list Z :=
  let indx := map (fun t => match index_of Z.eqb t (s_times u) with Some i => i | None => 0%nat end) (uniqueZ (s_times u)) in
  (take 0 (s_times u) indx, take 0 (s_ints u) indx).

(** initializers.py:464-486 with new_uvcal:270-278: frequencies, widths, windows of channels and
    windows, for one solution per channel *)
Definition narrow_params (u : src) (spws : option (list Z)) : result (list Z * list Z * (list Z * list Z)) :=
  if match spws with Some s => negb (length s =? length (uniqueZ (s_ids u)))%nat | None => false end then Err ValueError
  else do w <- get_spw_params (length (s_freqs u)) (Some (s_ids u)) None; Ok (s_freqs u, s_widths u, w).

(** min and max of an array; of an empty one a ValueError *)
Definition range_of (l : list Z) : result (Z * Z) :=
  match l with [] => Err ValueError | x :: t => Ok (fold_left Z.min t x, fold_left Z.max t x) end.

(** initializers.py:487-511 with new_uvcal:283-289: windows and their ranges of frequencies, for one
    solution per window *)
Definition wide_params (u : src) (spws : option (list Z)) (ranges : option (list (Z * Z))) : result (list Z * list (Z * Z)) :=
  let spw_array := match spws with Some s => s | None => uniqueZ (s_ids u) end in
  do r <- match ranges with
          | Some r => Ok r
          | None => mapM (fun w => range_of (mask_select (map (Z.eqb w) (s_ids u)) (s_freqs u))) spw_array
          end;
  Ok (spw_array, r).

(** initializers.py:513-561 *)
Definition new_tel (t : tel) (nums names : option (list Z)) : result tel :=
  let cut (idx : list nat) :=
    let antenna_numbers := take 0 (t_nums t) idx in
    let antenna_names := take 0 (t_names t) idx in
    let antenna_positions := take 0 (t_pos t) idx in
    let antenna_diameters := option_map (fun d => take 0 d idx) (t_diams t) in
    let sort_idx := argsortZ antenna_numbers in
    {| t_nums := take 0 antenna_numbers sort_idx; t_names := take 0 antenna_names sort_idx;
       t_pos := take 0 antenna_positions sort_idx; t_diams := antenna_diameters |} in
  match nums, names with
  | Some _, Some _ => Err ValueError
  | Some l, None => Ok (cut (nonzero (fun v => isinZ v l) (t_nums t)))
  | None, Some l => Ok (cut (nonzero (fun v => isinZ v l) (t_names t)))
  | None, None => Ok t
  end.

(** initializers.py:601-612: np.intersect1d of the antennas asked for, or np.union1d of those with
    data, and those of the telescope *)
Definition new_ants (u : src) (t : tel) (ants : option (list Z)) : list Z :=
  filter (fun a => isinZ a (t_nums t)) (uniqueZ (match ants with Some l => l | None => s_ant1 u ++ s_ant2 u end)).

(** initializers.py:614-631 *)
Definition new_jones (u : src) (jones : option (list Z)) : result (list Z) :=
  match jones with
  | Some j => Ok j
  | None =>
      if forallb (fun p => p <? -4) (s_pols u) then
        if (length (s_pols u) =? 1)%nat && (nth 0 (s_pols u) 0 >? -7) then Ok (s_pols u) else Ok [-5; -6]
      else if forallb (fun p => p <? 0) (s_pols u) then
        if (length (s_pols u) =? 1)%nat && (nth 0 (s_pols u) 0 >? -3) then Ok (s_pols u) else Ok [-1; -2]
      else Err ValueError
  end.
