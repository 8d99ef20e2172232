(** The frequency axis: /repo/src/pyuvdata/utils/frequency.py and
    UVData.reorder_freqs in /repo/src/pyuvdata/uvdata/uvdata.py *)
From Coq Require Import List ZArith Bool Arith.
From Verif Require Import Lib.Py Lib.Np Lib.Cube Lib.Sorting Model.UVData Model.Reorder.
Import ListNotations.
Open Scope Z_scope.

Fixpoint listZ_eqb (a b : list Z) : bool :=
  match a, b with
  | [], [] => true
  | x :: a, y :: b => (x =? y) && listZ_eqb a b
  | _, _ => false
  end.

(** [np.all(a == b)] for 1-d arrays.  An array of length 1 is broadcast.  For
    other unequal lengths older numpy compares as unequal and newer numpy
    raises; both count as failing here. *)
Definition all_equal (a b : list Z) : bool :=
  match a, b with
  | [x], _ => forallb (fun y => x =? y) b
  | _, [y] => forallb (fun x => x =? y) a
  | _, _ => listZ_eqb a b
  end.

(** [np.sum(a[1:] != a[:-1])] *)
Fixpoint count_breaks (l : list Z) : nat :=
  match l with
  | a :: ((b :: _) as t) => if a =? b then count_breaks t else S (count_breaks t)
  | _ => O
  end.

(** frequency.py:12-48 *)
Definition check_flex_spw_contiguous (spw_array flex_spw_id_array : list Z) : result unit :=
  let exp_spw_ids := uniqueZ spw_array in
  if negb (all_equal (uniqueZ flex_spw_id_array) exp_spw_ids) then Err AssertionError
  else if negb (count_breaks flex_spw_id_array + 1 =? length spw_array)%nat then Err ValueError
  else Ok tt.

(** The arguments of reorder_freqs.  A string is one of the named orders (with
    [true] for a leading '-') or something else. *)
Inductive spw_request := SpwIndex (idx : list Z) | SpwNumber (desc : bool) | SpwFreq (desc : bool) | SpwOther.
Inductive chan_request := ChanIndex (idx : list Z) | ChanFreq (desc : bool) | ChanOther.

(** frequency.py:217-219 and 254-256: the size and [np.all(np.sort(a) == np.arange(n))] *)
Definition is_index_array (n : nat) (idx : list Z) : bool :=
  (length idx =? n)%nat && listZ_eqb (isort Z.leb idx) (map Z.of_nat (seq 0 n)).

(** Twice [np.median(l)] (twice, so that it is a whole number).  The median of
    an empty array (nan) is not modelled. *)
Definition median2 (l : list Z) : Z :=
  let s := isort Z.leb l in
  nth ((length l - 1) / 2)%nat s 0 + nth (length l / 2)%nat s 0.

(** frequency.py:250-284: which position of spw_array comes first, second, ... *)
Definition spw_positions (req : spw_request) (freqs spws : list Z) (flex : list Z) : result (list nat) :=
  match req with
  | SpwIndex idx => if is_index_array (length spws) idx then Ok (map Z.to_nat idx) else Err ValueError
  | SpwOther => Err ValueError
  | SpwNumber desc =>
      if (1 <? length spws)%nat
      then let o := argsortZ spws in Ok (if desc then rev o else o)
      else Ok (seq 0 (length spws))
  | SpwFreq desc =>
      if (1 <? length spws)%nat
      then let o := argsortZ (map (fun w => median2 (take 0 freqs (nonzero (Z.eqb w) flex))) spws) in
           Ok (if desc then rev o else o)
      else Ok (seq 0 (length spws))
  end.

(** frequency.py:286-288.  np.concatenate of no arrays raises ValueError. *)
Definition group_spws (worder : list Z) (flex : list Z) : result (list nat) :=
  match worder with
  | [] => Err ValueError
  | _ => Ok (concat (map (fun w => nonzero (Z.eqb w) flex) worder))
  end.

(** frequency.py:299-308, one pass of the loop *)
Definition chan_step (desc : bool) (temp_freqs temp_spws : list Z) (index_array : list nat) (w : Z) : list nat :=
  let pos := nonzero (Z.eqb w) temp_spws in
  let sub := take 0%nat index_array pos in
  let sub := take 0%nat sub (argsortZ (take 0 temp_freqs pos)) in
  assign_at pos (if desc then rev sub else sub) index_array.

(** frequency.py:232-308: the sort when channel_order is not an index array *)
Definition sort_freq_named (freqs spws flex : list Z) (spw_order : option spw_request)
    (channel_order : option chan_request) (select_spw : option (list Z)) : result (option (list nat)) :=
  let start := seq 0 (length freqs) in
  match select_spw, channel_order with
  | Some _, None => Ok None
  | _, _ =>
      do idx <- match select_spw, spw_order with
                | None, Some req =>
                    do pos <- spw_positions req freqs spws flex;
                    group_spws (take 0 spws pos) flex
                | _, _ => Ok start
                end;
      match channel_order with
      | None => Ok (Some idx)
      | Some (ChanFreq desc) =>
          let temp_freqs := take 0 freqs idx in
          let temp_spws := take 0 flex idx in
          let sort_spw w := match select_spw with Some s => isinZ w s | None => true end in
          Ok (Some (fold_left (fun ix w => if sort_spw w then chan_step desc temp_freqs temp_spws ix w else ix) spws idx))
      | Some _ => Err ValueError
      end
  end.

(** [np.all(a[1:] > a[:-1])] *)
Fixpoint increasing (l : list nat) : bool :=
  match l with
  | a :: ((b :: _) as t) => (a <? b)%nat && increasing t
  | _ => true
  end.

(** frequency.py:136-313.  [select_spw] is the list of selected windows. *)
Definition sort_freq_helper (freqs spws flex : list Z) (spw_order : option spw_request)
    (channel_order : option chan_request) (select_spw : option (list Z)) : result (option (list nat)) :=
  do idx <- match spw_order, channel_order with
            | None, None => Ok None
            | _, Some (ChanIndex idx) =>
                if is_index_array (length freqs) idx then Ok (Some (map Z.to_nat idx)) else Err ValueError
            | _, _ => sort_freq_named freqs spws flex spw_order channel_order select_spw
            end;
  match idx with
  | None => Ok None
  | Some ix => if increasing ix then Ok None else Ok (Some ix)
  end.

(** The parameters on the frequency and window axes that are not in [uvd]:
    eq_coeffs has shape (Nants, Nfreqs), flex_spw_polarization_array (Nspws,). *)
Record freqobj := mkFreqobj {
  fo_uvd : uvd;
  eq_coeffs : option (nat -> nat -> Z);
  flex_spw_polarization_array : option (list Z) }.

(** [np.sort(np.unique(a, return_index=True)[1])] *)
Definition first_positions (l : list Z) : list nat :=
  isort Nat.leb (map (fun v => match index_of Z.eqb v l with Some i => i | None => O end) (uniqueZ l)).

(** uvdata.py:4149-4153.  [np.nonzero(..)[0][0]] of no match raises IndexError;
    so does filling [spw_sort_inds] beyond the length of spw_array. *)
Definition spw_sort_inds (spws new_spws : list Z) : result (list nat) :=
  if (length spws <? length new_spws)%nat then Err IndexError
  else
    do pos <- mapM (fun w => match index_of Z.eqb w spws with Some i => Ok i | None => Err IndexError end) new_spws;
    Ok (pos ++ repeat O (length spws - length new_spws)).

(** Indexing the frequency axis: uvdata.py:4135-4163 *)
Definition take_freqs (idx : list nat) (spws : list Z) (u : uvd) : uvd :=
  {| time_array := time_array u;
     lst_array := lst_array u;
     ant_1_array := ant_1_array u;
     ant_2_array := ant_2_array u;
     baseline_array := baseline_array u;
     integration_time := integration_time u;
     uvw_array := uvw_array u;
     phase_center_id_array := phase_center_id_array u;
     phase_center_app_ra := phase_center_app_ra u;
     phase_center_app_dec := phase_center_app_dec u;
     phase_center_frame_pa := phase_center_frame_pa u;
     freq_array := take 0 (freq_array u) idx;
     channel_width := take 0 (channel_width u) idx;
     flex_spw_id_array := take 0 (flex_spw_id_array u) idx;
     spw_array := spws;
     polarization_array := polarization_array u;
     data_array := take1 idx (data_array u);
     flag_array := take1 idx (flag_array u);
     nsample_array := take1 idx (nsample_array u);
     Nbls := Nbls u;
     Ntimes := Ntimes u;
     blt_order := blt_order u;
     blts_are_rectangular := blts_are_rectangular u;
     time_axis_faster_than_bls := time_axis_faster_than_bls u;
     Nants_telescope := Nants_telescope u |}.

(** uvdata.py:4058-4171 (run_check=False) *)
Definition reorder_freqs (spw_order : option spw_request) (channel_order : option chan_request)
    (select_spw : option (list Z)) (o : freqobj) : result freqobj :=
  let u := fo_uvd o in
  do idx <- sort_freq_helper (freq_array u) (spw_array u) (flex_spw_id_array u) spw_order channel_order select_spw;
  match idx with
  | None => Ok o
  | Some idx =>
      let flex := take 0 (flex_spw_id_array u) idx in
      let new_spw_array := take 0 flex (first_positions flex) in
      do fp <- match flex_spw_polarization_array o with
               | None => Ok None
               | Some fp => do inds <- spw_sort_inds (spw_array u) new_spw_array; Ok (Some (take 0 fp inds))
               end;
      Ok (mkFreqobj (take_freqs idx new_spw_array u)
            (match eq_coeffs o with None => None | Some e => Some (fun a j => e a (nth j idx O)) end) fp)
  end.
