(** Combining two objects: UVData.__add__,
    /repo/src/pyuvdata/uvdata/uvdata.py:5231-5821.  The objects hold data (not
    metadata_only).  History, filename, Nants_data, warnings and the calls of
    check are not modelled. *)
From Coq Require Import List ZArith Bool Arith QArith.
From Verif Require Import Lib.Py Lib.Np Lib.Cube Lib.Sorting Lib.Dict Model.UVData Model.Reorder Model.Freq
  Model.PhaseCenter Model.Times.
Import ListNotations.
Notation length := List.length.
Open Scope Z_scope.

(** The object: [ad_telescope] and [ad_vis_units] stand for the values of those
    parameters, which are only compared. *)
Record addobj := mkAddobj {
  ad_freq : freqobj;
  ad_catalog : catalog;
  ad_Nphase : nat;
  ad_telescope : Z;
  ad_vis_units : Z }.
Definition ad_uvd (o : addobj) : uvd := fo_uvd (ad_freq o).

Definition pair_eqb (x y : Z * Z) : bool := (fst x =? fst y) && (snd x =? snd y).
Fixpoint listN_eqb (a b : list nat) : bool :=
  match a, b with
  | [], [] => true
  | x :: a, y :: b => (x =? y)%nat && listN_eqb a b
  | _, _ => false
  end.

(** uvdata.py:5317-5334: a row is labelled by the string "time_baseline"; the
    time is written with 16 decimals, more than a double has, so labels are equal
    when time and baseline number are.  A channel is known by its window and frequency. *)
Definition blt_labels (u : uvd) : list (Z * Z) := combine (time_array u) (baseline_array u).
Definition chan_labels (u : uvd) : list (Z * Z) := combine (flex_spw_id_array u) (freq_array u).

(** [np.intersect1d(a, b, return_indices=True)]: the positions in [a] and in [b]
    of the common values, in increasing order of the values *)
Definition position {A} (eqb : A -> A -> bool) (x : A) (l : list A) : nat :=
  match index_of eqb x l with Some i => i | None => O end.
Fixpoint dedup {A} (eqb : A -> A -> bool) (l : list A) : list A :=
  match l with [] => [] | x :: t => if memb eqb x t then dedup eqb t else x :: dedup eqb t end.
Definition intersect1d {A} (eqb leb : A -> A -> bool) (a b : list A) : list nat * list nat :=
  let both := isort leb (filter (fun x => memb eqb x b) (dedup eqb a)) in
  (map (fun x => position eqb x a) both, map (fun x => position eqb x b) both).

(** uvdata.py:5345-5360 *)
Definition both_spw (a b : uvd) : list Z := filter (fun w => isinZ w (spw_array b)) (uniqueZ (spw_array a)).
Definition intersect_channels (a b : uvd) : list nat * list nat :=
  let per w :=
    let this_mask := nonzero (Z.eqb w) (flex_spw_id_array a) in
    let other_mask := nonzero (Z.eqb w) (flex_spw_id_array b) in
    let '(ai, bi) := intersect1d Z.eqb Z.leb (take 0 (freq_array a) this_mask) (take 0 (freq_array b) other_mask) in
    (take O this_mask ai, take O other_mask bi) in
  (concat (map (fun w => fst (per w)) (both_spw a b)), concat (map (fun w => snd (per w)) (both_spw a b))).

(** uvdata.py:5382-5386: over the product of three index lists *)
Definition all_cells (rows chans pols : list nat) (f : nat -> nat -> nat -> bool) : bool :=
  forallb (fun i => forallb (fun j => forallb (fun k => f i j k) pols) chans) rows.
Definition blank (u : uvd) (i j k : nat) : bool :=
  let '(re, im) := data_array u i j k in (re =? 0) && (im =? 0) && flag_array u i j k.

(** uvdata.py:5365-5402: shared cells must be invalid (zero and flagged) in this *)
Definition overlap_check (a : uvd) (rows chans pols : list nat) : result unit :=
  if (length rows =? 0)%nat || (length chans =? 0)%nat || (length pols =? 0)%nat then Ok tt
  else if all_cells rows chans pols (blank a) then Ok tt else Err ValueError.

(** uvdata.py:5461-5468: positions in [b] that are new *)
Definition new_channels (a b : uvd) : list nat :=
  nonzero (fun x => negb (isinZ (fst x) (both_spw a b) && memb pair_eqb x (chan_labels a))) (chan_labels b).
Definition new_in {A} (eqb : A -> A -> bool) (a b : list A) : list nat := nonzero (fun x => negb (memb eqb x a)) b.

(** The tolerances of the compared parameters *)
Record tolerances := mkTols {
  tol_integration_time : Q * Q; tol_lst : Q * Q; tol_app_ra : Q * Q; tol_app_dec : Q * Q;
  tol_frame_pa : Q * Q; tol_id : Q * Q; tol_uvw : Q * Q; tol_width : Q * Q }.

Definition close_at (tols : Q * Q) (a b : list Z) (ai bi : list nat) : bool :=
  forallb (fun p => closeZ tols (nth (fst p) a 0) (nth (snd p) b 0)) (combine ai bi).
Definition close3 (tols : Q * Q) (x y : Z * Z * Z) : bool :=
  let '(x1, x2, x3) := x in let '(y1, y2, y3) := y in closeZ tols x1 y1 && closeZ tols x2 y2 && closeZ tols x3 y3.

(** uvdata.py:5411-5430, 5480-5485, 5501-5541.  [same_cat] is the equality test
    of the phase_center_catalog parameters, left open. *)
Definition compatible (t : tolerances) (same_cat : catalog -> catalog -> bool) (a b : addobj)
    (rows_a rows_b chans_a chans_b : list nat) : bool :=
  let u := ad_uvd a in let v := ad_uvd b in
  (ad_vis_units a =? ad_vis_units b) && (ad_telescope a =? ad_telescope b) &&
  (negb (existsb (fun x => memb pair_eqb x (blt_labels u)) (blt_labels v)) ||
   (close_at (tol_integration_time t) (integration_time u) (integration_time v) rows_a rows_b &&
    close_at (tol_lst t) (lst_array u) (lst_array v) rows_a rows_b &&
    same_cat (ad_catalog a) (ad_catalog b) &&
    close_at (tol_id t) (phase_center_id_array u) (phase_center_id_array v) rows_a rows_b &&
    close_at (tol_app_ra t) (phase_center_app_ra u) (phase_center_app_ra v) rows_a rows_b &&
    close_at (tol_app_dec t) (phase_center_app_dec u) (phase_center_app_dec v) rows_a rows_b &&
    close_at (tol_frame_pa t) (phase_center_frame_pa u) (phase_center_frame_pa v) rows_a rows_b &&
    (ad_Nphase a =? ad_Nphase b)%nat &&
    forallb (fun p => close3 (tol_uvw t) (nth (fst p) (uvw_array u) (0, 0, 0)) (nth (snd p) (uvw_array v) (0, 0, 0)))
      (combine rows_a rows_b))) &&
  (negb (existsb (fun x => isinZ x (freq_array u)) (freq_array v)) ||
   close_at (tol_width t) (channel_width u) (channel_width v) chans_a chans_b).

(** uvdata.py:5433-5459: a window must not have two polarizations.  Result: the
    polarization of each window, for flex-pol objects. *)
Definition merge_flexpol (a b : addobj) : result (option (list (Z * Z))) :=
  match flex_spw_polarization_array (ad_freq a), flex_spw_polarization_array (ad_freq b) with
  | None, None => Ok None
  | Some fa, Some fb =>
      let da := combine (spw_array (ad_uvd a)) fa in
      let db := combine (spw_array (ad_uvd b)) fb in
      if forallb (fun p => match dget Z.eqb (fst p) da with Ok q => snd p =? q | Err _ => true end) db
      then Ok (Some (da ++ filter (fun p => negb (dmem Z.eqb (fst p) da)) db))
      else Err ValueError
  | _, _ => Err ValueError
  end.

(** uvdata.py:5551-5581: the index array that puts the shared positions of this
    into the order they have in other; None if they already are *)
Definition argsortN (l : list nat) : list nat := argsortZ (map Z.of_nat l).
Definition overlap_order (n : nat) (this_ind other_ind : list nat) : option (list nat) :=
  let this_argsort := argsortN this_ind in
  let other_argsort := argsortN other_ind in
  if listN_eqb this_argsort other_argsort then None
  else Some (assign_at (take O this_ind this_argsort) (take O this_ind other_argsort) (seq 0 n)).

Definition on_uvd (f : uvd -> result uvd) (o : freqobj) : result freqobj :=
  do u <- f (fo_uvd o); Ok (mkFreqobj u (eq_coeffs o) (flex_spw_polarization_array o)).
Definition maybe {A} (idx : option (list nat)) (f : list Z -> A -> result A) (x : A) : result A :=
  match idx with None => Ok x | Some idx => f (map Z.of_nat idx) x end.

Definition match_orders (rows chans pols : list nat * list nat) (o : freqobj) : result freqobj :=
  do o <- maybe (overlap_order (Nblts (fo_uvd o)) (fst rows) (snd rows))
            (fun idx => on_uvd (reorder_blts (BltIndex idx) None false None)) o;
  do o <- maybe (overlap_order (Nfreqs (fo_uvd o)) (fst chans) (snd chans))
            (fun idx => reorder_freqs None (Some (ChanIndex idx)) None) o;
  maybe (overlap_order (Npols (fo_uvd o)) (fst pols) (snd pols))
    (fun idx => on_uvd (reorder_pols (PolIndex idx))) o.

(** uvdata.py:5643-5668: windows in increasing order; the channels of a window
    are sorted unless they increase or decrease already *)
Fixpoint monotone (lt : Z -> Z -> bool) (l : list Z) : bool :=
  match l with
  | a :: ((b :: _) as t) => lt a b && monotone lt t
  | _ => true
  end.
Definition sort_window (freqs flex : list Z) (f_order : list nat) (w : Z) : list nat :=
  let pos := nonzero (fun i => nth i flex 0 =? w) f_order in
  let sub := take O f_order pos in
  let check_freqs := take 0 freqs sub in
  if monotone Z.ltb check_freqs || monotone Z.gtb check_freqs then f_order
  else assign_at pos (take O sub (argsortZ check_freqs)) f_order.
Definition freq_order (freqs flex spws : list Z) : list nat :=
  fold_left (sort_window freqs flex) spws
    (concat (map (fun w => nonzero (Z.eqb w) flex) (isort Z.leb spws))).

(** [np.zeros] padding of an axis of length [n] (uvdata.py:5586-5596, 5670-5681, 5688-5700) *)
Definition pad {A} (nb nf np : nat) (z : A) (c : cube A) : cube A :=
  fun i j k => if (i <? nb)%nat && (j <? nf)%nat && (k <? np)%nat then c i j k else z.
(** [a[np.ix_(rows, chans, pols)] = b] *)
Definition place {A} (rows chans pols : list nat) (b : cube A) (c : cube A) : cube A :=
  fun i j k =>
    match index_of Nat.eqb i rows, index_of Nat.eqb j chans, index_of Nat.eqb k pols with
    | Some i', Some j', Some k' => b i' j' k'
    | _, _, _ => c i j k
    end.

(** uvdata.py:5737-5747: the data are left alone if the order is a run of
    consecutive indices *)
Fixpoint consecutive (l : list nat) : bool :=
  match l with
  | a :: ((b :: _) as t) => (b =? S a)%nat && consecutive t
  | _ => true
  end.
Definition data_order (order : list nat) : list nat :=
  if (1 <? length order)%nat && consecutive order then seq 0 (length order) else order.

(** The order of an axis that has grown by [added] entries; otherwise as it is. *)
Definition order_if (added : list nat) (n : nat) (order : list nat) : list nat :=
  match added with [] => seq 0 n | _ => order end.

(** [np.concatenate([a, b[new]])[order]] *)
Definition joined {A} (d : A) (a b : list A) (added order : list nat) : list A := take d (a ++ take d b added) order.

(** uvdata.py:5583-5821.  [a] has been through match_orders, [stale] are the row
    labels from before (this_blts is not recomputed).  [str_le] is the order of the
    label strings.  Assignment of an array of another shape raises ValueError
    (broadcasting an axis of length one cannot arise when labels are distinct). *)
Definition join (str_le : Z * Z -> Z * Z -> bool) (stale : list (Z * Z)) (bnew fnew pnew : list nat)
    (flexpol : option (list (Z * Z))) (a b : freqobj) : result freqobj :=
  let u := fo_uvd a in let v := fo_uvd b in
  let labels := stale ++ take (0, 0) (blt_labels v) bnew in
  let blt_order := order_if bnew (length labels)
    (argsort_by (fun i j => str_le (nth i labels (0, 0)) (nth j labels (0, 0))) (length labels)) in
  let freqs := freq_array u ++ take 0 (freq_array v) fnew in
  let widths := channel_width u ++ take 0 (channel_width v) fnew in
  let flex := flex_spw_id_array u ++ take 0 (flex_spw_id_array v) fnew in
  let spws := match fnew with [] => spw_array u | _ => take 0 flex (first_positions flex) end in
  do fp <- match fnew, flexpol with
           | [], _ => Ok (flex_spw_polarization_array a)
           | _, None => Ok None
           | _, Some d => do l <- mapM (fun w => dget Z.eqb w d) spws; Ok (Some l)
           end;
  let f_order := order_if fnew (length freqs) (freq_order freqs flex spws) in
  let pols := polarization_array u ++ take 0 (polarization_array v) pnew in
  let p_order := order_if pnew (length pols) (argsortZ (map Z.abs pols)) in
  let pol_t2o := nonzero (fun p => isinZ p (polarization_array v)) pols in
  let freq_t2o := nonzero (fun x => isinZ (fst x) spws && isinZ (fst x) (spw_array v) && memb pair_eqb x (chan_labels v))
                    (combine flex freqs) in
  let blt_t2o := nonzero (fun x => memb pair_eqb x (blt_labels v)) labels in
  if negb ((length blt_t2o =? Nblts v)%nat && (length freq_t2o =? Nfreqs v)%nat && (length pol_t2o =? Npols v)%nat)
  then Err ValueError
  else
    let fill {A} (z : A) (c d : cube A) : cube A :=
      take2 (data_order p_order) (take1 (data_order f_order) (take0 (data_order blt_order)
        (place blt_t2o freq_t2o pol_t2o d (pad (Nblts u) (Nfreqs u) (Npols u) z c)))) in
    let times := joined 0 (time_array u) (time_array v) bnew blt_order in
    let bls := joined 0 (baseline_array u) (baseline_array v) bnew blt_order in
    do w <- set_rectangularity true
      {| time_array := times;
         lst_array := joined 0 (lst_array u) (lst_array v) bnew blt_order;
         ant_1_array := joined 0 (ant_1_array u) (ant_1_array v) bnew blt_order;
         ant_2_array := joined 0 (ant_2_array u) (ant_2_array v) bnew blt_order;
         baseline_array := bls;
         integration_time := joined 0 (integration_time u) (integration_time v) bnew blt_order;
         uvw_array := joined (0, 0, 0) (uvw_array u) (uvw_array v) bnew blt_order;
         phase_center_id_array := joined 0 (phase_center_id_array u) (phase_center_id_array v) bnew blt_order;
         phase_center_app_ra := joined 0 (phase_center_app_ra u) (phase_center_app_ra v) bnew blt_order;
         phase_center_app_dec := joined 0 (phase_center_app_dec u) (phase_center_app_dec v) bnew blt_order;
         phase_center_frame_pa := joined 0 (phase_center_frame_pa u) (phase_center_frame_pa v) bnew blt_order;
         freq_array := take 0 freqs f_order;
         channel_width := take 0 widths f_order;
         flex_spw_id_array := take 0 flex f_order;
         spw_array := spws;
         polarization_array := take 0 pols p_order;
         data_array := fill (0, 0) (data_array u) (data_array v);
         flag_array := fill true (flag_array u) (flag_array v);
         nsample_array := fill 0 (nsample_array u) (nsample_array v);
         Nbls := length (uniqueZ bls);
         Ntimes := length (uniqueZ times);
         blt_order := match blt_t2o with [] => UVData.blt_order u | _ => None end;
         blts_are_rectangular := blts_are_rectangular u;
         time_axis_faster_than_bls := time_axis_faster_than_bls u;
         Nants_telescope := Nants_telescope u |};
    Ok (mkFreqobj w (eq_coeffs a) fp).

(** uvdata.py:5544-5546 *)
Definition merge_catalogs (pop : list Z -> Z) (ignore_name : bool) (a b : addobj) : result (freqobj * pcobj) :=
  let u := ad_uvd a in
  do s <- consolidate pop (ad_catalog b) ignore_name (mkpc (ad_catalog a) (ad_Nphase a) (phase_center_id_array u));
  Ok (mkFreqobj (set_phase_center_id_array (pc_ids s) u) (eq_coeffs (ad_freq a)) (flex_spw_polarization_array (ad_freq a)), s).

(** uvdata.py:5231-5821 *)
Definition add (pop : list Z -> Z) (str_le : Z * Z -> Z * Z -> bool) (t : tolerances) (same_cat : catalog -> catalog -> bool)
    (ignore_name : bool) (a b : addobj) : result addobj :=
  let u := ad_uvd a in let v := ad_uvd b in
  let pols := intersect1d Z.eqb Z.leb (polarization_array u) (polarization_array v) in
  let chans := intersect_channels u v in
  let rows := intersect1d pair_eqb str_le (blt_labels u) (blt_labels v) in
  do _ <- overlap_check u (fst rows) (fst chans) (fst pols);
  do flexpol <- merge_flexpol a b;
  if negb (compatible t same_cat a b (fst rows) (snd rows) (fst chans) (snd chans)) then Err ValueError
  else
    do (o, s) <- merge_catalogs pop ignore_name a b;
    do o <- match_orders rows chans pols o;
    do o <- join str_le (blt_labels u) (new_in pair_eqb (blt_labels u) (blt_labels v)) (new_channels u v)
              (new_in Z.eqb (polarization_array u) (polarization_array v)) flexpol o (ad_freq b);
    Ok (mkAddobj o (pc_cat s) (pc_n s) (ad_telescope a) (ad_vis_units a)).
