(** UVCal.select and the methods that return the solutions of an antenna:
    /repo/src/pyuvdata/uvcal/uvcal.py:1805-2042, 3898-4510.  phase_center_ids,
    catalog_names, history, warnings and the final check are not modelled. *)
From Coq Require Import List ZArith Bool Arith QArith String.
From Verif Require Import Lib.Py Lib.Np Lib.Cube Lib.Sorting Model.UVData Model.Reorder Model.Tools Model.Pol Model.Times Model.Select Model.UVCal.
Import ListNotations.
Notation length := List.length.
Open Scope list_scope.
Open Scope Z_scope.

Record cal_criteria := mkCalCriteria {
  cc_antenna_nums : option (list Z);
  cc_antenna_names : option (list string);
  cc_frequencies : option (list Z);
  cc_freq_chans : option (list Z);
  cc_spws : option (list Z);
  cc_time : time_request;
  cc_jones : option (list pol_name) }.

(** The parts of the telescope that are used *)
Record cal_telescope := mkCalTelescope {
  ct_numbers : list Z;
  ct_names : list string;
  ct_x_orientation : option string }.

(** uvcal.py:3995-4010 *)
Definition ant_of_name (tel : cal_telescope) (s : string) : result Z :=
  match index_of String.eqb s (ct_names tel) with
  | None => Err ValueError
  | Some i => match nth_error (ct_numbers tel) i with Some n => Ok n | None => Err IndexError end
  end.
Definition asked_ants (tel : cal_telescope) (cr : cal_criteria) : result (option (list Z)) :=
  match cc_antenna_names cr, cc_antenna_nums cr with
  | Some _, Some _ => Err ValueError
  | Some names, None => do nums <- mapM (ant_of_name tel) names; Ok (Some nums)
  | None, nums => Ok nums
  end.

(** uvcal.py:4012-4029 *)
Definition ant_positions (ants nums : list Z) : result (list nat) :=
  do l <- mapM (fun n => if isinZ n ants then Ok (nonzero (Z.eqb n) ants) else Err ValueError) nums;
  Ok (uniqueN (List.concat l)).

(** uvcal.py:4048-4062 *)
Definition cal_time_axis (u : ucal) : time_axis :=
  match c_time_range u with
  | Some r => TimeRanges r
  | None => TimeArray (match c_time_array u with Some t => t | None => [] end)
  end.
Definition cal_lst_axis (u : ucal) : time_axis :=
  match c_lst_range u with
  | Some r => TimeRanges r
  | None => TimeArray (match c_lst_array u with Some t => t | None => [] end)
  end.
Definition time_positions (two_pi : Z) (tols lst_tols : Q * Q) (cr : cal_criteria) (u : ucal) : result (option (list nat)) :=
  do t <- select_times_helper two_pi (cc_time cr) (cal_time_axis u) (cal_lst_axis u) tols lst_tols;
  Ok (option_map uniqueN t).

(** uvcal.py:4101-4134: the windows to keep, and the channels asked for so far *)
Definition wanted_windows (cr : cal_criteria) (u : ucal) : result (option (list Z) * option (list Z)) :=
  match cc_spws cr with
  | None => Ok (None, cc_freq_chans cr)
  | Some spws =>
      if (length (c_spws u) =? 1)%nat then Ok (None, cc_freq_chans cr)
      else if c_wide u then
        if forallb (fun w => isinZ w (c_spws u)) spws
        then Ok (Some (map Z.of_nat (nonzero (fun w => isinZ w spws) (c_spws u))), cc_freq_chans cr)
        else Err ValueError
      else Ok (None, Some (sorted_unique_union (map Z.of_nat (nonzero (fun w => isinZ w spws) (c_flex u))) (cc_freq_chans cr)))
  end.

(** uvcal.py:4136-4157 *)
Definition wanted_chans (cr : cal_criteria) (chans : option (list Z)) (u : ucal) : result (option (list Z)) :=
  if c_wide u && negb (match chans, cc_frequencies cr with None, None => true | _, _ => false end) then Err ValueError
  else
    match cc_frequencies cr with
    | None => Ok chans
    | Some freqs =>
        if forallb (fun f => isinZ f (c_freqs u)) freqs
        then Ok (Some (sorted_unique_union (map Z.of_nat (nonzero (fun f => isinZ f freqs) (c_freqs u))) chans))
        else Err ValueError
    end.

(** An index of an axis, which may be negative *)
Definition at_index (n : nat) (c : Z) : result nat := match norm_index n c with Some i => Ok i | None => Err IndexError end.

(** uvcal.py:4159-4193.  [_test_array_constant] of an empty array raises. *)
Fixpoint steps (flex : list Z) (l : list (Z * nat)) : list Q :=
  match l with
  | (c, i) :: (((c', i') :: _) as t) =>
      if nth i' flex 0 - nth i flex 0 =? 0 then inject_Z (c' - c) :: steps flex t else steps flex t
  | _ => []
  end.
Definition chan_positions (chans : option (list Z)) (u : ucal) : result (option (list Z)) :=
  match chans with
  | None => Ok None
  | Some l =>
      let sorted := isort Z.leb l in
      do _ <- (if (1 <? length sorted)%nat then
                 do pos <- mapM (at_index (length (c_flex u))) sorted;
                 test_array_constant (steps (c_flex u) (combine sorted pos)) 0 0
               else Ok true);
      Ok (Some (uniqueZ l))
  end.

(** uvcal.py:4207-4228 *)
Definition jones_number (xo : option string) (p : pol_name) : result Z :=
  match p with PolNum n => Ok n | PolStr s => jstr2num xo s end.
Fixpoint jones_places (xo : option string) (jones : list Z) (fj : option (list Z)) (asked : list pol_name) : result (list nat * list nat) :=
  match asked with
  | [] => Ok ([], [])
  | p :: asked =>
      do n <- jones_number xo p;
      do (ks, ws) <-
        (if isinZ n jones then Ok (nonzero (Z.eqb n) jones, [])
         else
           match fj with
           | Some fj => if isinZ n fj then Ok ([], nonzero (Z.eqb n) fj) else Err ValueError
           | None => Err ValueError
           end);
      do (ks', ws') <- jones_places xo jones fj asked; Ok (ks ++ ks', ws ++ ws')
  end.

(** uvcal.py:4195-4266: windows, channels and Jones terms to keep *)
Definition jones_positions (tel : cal_telescope) (cr : cal_criteria) (wins chans : option (list Z)) (u : ucal)
    : result (option (list Z) * option (list Z) * option (list nat)) :=
  match cc_jones cr with
  | None => Ok (wins, chans, None)
  | Some asked =>
      do (ks, ws) <- jones_places (ct_x_orientation tel) (c_jones u) (c_flex_jones u) asked;
      match ws with
      | [] => Ok (wins, chans, Some (uniqueN ks))
      | _ =>
          let chans' :=
            if c_wide u then chans
            else Some (sorted_unique_intersection
                         (map Z.of_nat (nonzero (fun w => isinZ w (take 0 (c_spws u) ws)) (c_flex u))) chans) in
          let wins' := sorted_unique_intersection (map Z.of_nat ws) wins in
          if empty wins' || (negb (c_wide u) && match chans' with Some [] => true | _ => false end) then Err ValueError
          else Ok (Some wins', chans', None)
      end
  end.

(** uvcal.py:4302-4378.  The window axis of an object with channels has only
    spw_array and flex_jones_array. *)
Definition drop_windows (idx : list nat) (u : ucal) : ucal :=
  {| c_gain := c_gain u; c_wide := c_wide u; c_compat := c_compat u; c_ants := c_ants u;
     c_spws := take 0 (c_spws u) idx; c_freq_range := c_freq_range u;
     c_freqs := c_freqs u; c_widths := c_widths u; c_flex := c_flex u;
     c_flex_jones := option_map (fun l => take 0 l idx) (c_flex_jones u);
     c_time_array := c_time_array u; c_time_range := c_time_range u; c_lst_array := c_lst_array u; c_lst_range := c_lst_range u;
     c_ref_ant := c_ref_ant u; c_int_time := c_int_time u; c_jones := c_jones u;
     c_sol := c_sol u; c_flags := c_flags u; c_qual := c_qual u; c_tqual := c_tqual u |}.
Definition keep_windows (idx : list nat) (u : ucal) : ucal := if c_wide u then take_windows idx u else drop_windows idx u.
Definition keep_channels (idx : list nat) (u : ucal) : ucal :=
  drop_windows (nonzero (fun w => isinZ w (take 0 (c_flex u) idx)) (c_spws u))
    {| c_gain := c_gain u; c_wide := c_wide u; c_compat := c_compat u; c_ants := c_ants u;
       c_spws := c_spws u; c_freq_range := c_freq_range u;
       c_freqs := take 0 (c_freqs u) idx; c_widths := take 0 (c_widths u) idx; c_flex := take 0 (c_flex u) idx;
       c_flex_jones := c_flex_jones u;
       c_time_array := c_time_array u; c_time_range := c_time_range u; c_lst_array := c_lst_array u; c_lst_range := c_lst_range u;
       c_ref_ant := c_ref_ant u; c_int_time := c_int_time u; c_jones := c_jones u;
       c_sol := on1 idx (c_sol u); c_flags := on1 idx (c_flags u); c_qual := option_map (on1 idx) (c_qual u);
       c_tqual := option_map (take0 idx) (c_tqual u) |}.
Definition by_index (ants times : option (list nat)) (wins chans : option (list Z)) (jones : option (list nat)) (u : ucal) : result ucal :=
  let u := match ants with Some idx => take_ants idx u | None => u end in
  let u := match times with Some idx => take_times idx u | None => u end in
  let u := match wins with Some idx => keep_windows (map Z.to_nat idx) u | None => u end in
  do u <- match chans with
          | Some l => do idx <- mapM (at_index (length (c_freqs u))) l; Ok (keep_channels idx u)
          | None => Ok u
          end;
  Ok (match jones with Some idx => take_jones idx u | None => u end).

(** uvcal.py:4380-4527 *)
Definition cal_select (two_pi : Z) (tols lst_tols : Q * Q) (tel : cal_telescope) (cr : cal_criteria) (u : ucal) : result ucal :=
  do nums <- asked_ants tel cr;
  do ants <- match nums with None => Ok None | Some nums => do l <- ant_positions (c_ants u) nums; Ok (Some l) end;
  do times <- time_positions two_pi tols lst_tols cr u;
  do (wins, chans) <- wanted_windows cr u;
  do chans <- wanted_chans cr chans u;
  do chans <- chan_positions chans u;
  do (wins, chans, jones) <- jones_positions tel cr wins chans u;
  by_index ants times wins chans jones u.

(** ** The solutions of an antenna *)

(** [np.argmin(np.abs(l - n))], the first position of the least distance *)
Fixpoint argmin_from (best : Z) (at_ k : nat) (l : list Z) : nat :=
  match l with
  | [] => at_
  | x :: t => if x <? best then argmin_from x k (S k) t else argmin_from best at_ (S k) t
  end.
Definition nearest (n : Z) (l : list Z) : nat :=
  match map (fun x => Z.abs (x - n)) l with [] => O | x :: t => argmin_from x 0 1 t end.

(** uvcal.py:1831-1872 *)
Definition ant2ind (u : ucal) (n : Z) : result nat := if isinZ n (c_ants u) then Ok (nearest n (c_ants u)) else Err ValueError.
Definition jpol2ind (xo : option string) (u : ucal) (p : pol_name) : result nat :=
  do n <- jones_number xo p; if isinZ n (c_jones u) then Ok (nearest n (c_jones u)) else Err ValueError.

(** uvcal.py:1874-1930: an array over channels, times and Jones terms, or over
    channels and times *)
Inductive slice (A : Type) := Slice3 (c : cube A) | Slice2 (c : nat -> nat -> A).
Arguments Slice3 {A}. Arguments Slice2 {A}.
Definition slice_array {A} (xo : option string) (u : ucal) (c : arr4 A) (ant : Z) (jpol : option pol_name) (squeeze : bool) : result (slice A) :=
  do a <- ant2ind u ant;
  match jpol with
  | None => Ok (if squeeze && (Njones u =? 1)%nat then Slice2 (fun f t : nat => c a f t O) else Slice3 (fun f t j : nat => c a f t j))
  | Some p => do j <- jpol2ind xo u p; Ok (Slice2 (fun f t : nat => c a f t j))
  end.

(** uvcal.py:1932-2013.  An object without qualities has None for the array. *)
Definition get_gains xo u ant jpol squeeze : result (slice cplx) :=
  if c_gain u then slice_array xo u (c_sol u) ant jpol squeeze else Err ValueError.
Definition get_flags xo u ant jpol squeeze : result (slice bool) := slice_array xo u (c_flags u) ant jpol squeeze.
Definition get_quality xo u ant jpol squeeze : result (slice Z) :=
  match c_qual u with Some q => slice_array xo u q ant jpol squeeze | None => do _ <- ant2ind u ant; Err TypeError end.
