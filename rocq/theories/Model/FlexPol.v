(** Flexible polarization: UVData.convert_to_flex_pol, remove_flex_pol and
    _make_flex_pol, /repo/src/pyuvdata/uvdata/uvdata.py:1691-2097.  The object
    holds data (not metadata_only).  eq_coeffs is not touched by these methods
    (except through reorder_freqs). *)
From Coq Require Import List ZArith Bool Arith.
From Verif Require Import Lib.Py Lib.Np Lib.Cube Lib.Sorting Model.UVData Model.Freq Model.PhaseCenter.
Import ListNotations.
Notation length := List.length.
Open Scope Z_scope.

(** Attribute assignments on the frequency and polarization axes. *)
Definition set_axes (freqs widths flex spws pols : list Z) (data : cube cplx) (flags : cube bool) (ns : cube Z) (u : uvd) : uvd :=
  {| time_array := time_array u; lst_array := lst_array u; ant_1_array := ant_1_array u; ant_2_array := ant_2_array u;
     baseline_array := baseline_array u; integration_time := integration_time u; uvw_array := uvw_array u;
     phase_center_id_array := phase_center_id_array u; phase_center_app_ra := phase_center_app_ra u;
     phase_center_app_dec := phase_center_app_dec u; phase_center_frame_pa := phase_center_frame_pa u;
     freq_array := freqs; channel_width := widths; flex_spw_id_array := flex; spw_array := spws; polarization_array := pols;
     data_array := data; flag_array := flags; nsample_array := ns;
     Nbls := Nbls u; Ntimes := Ntimes u; blt_order := blt_order u; blts_are_rectangular := blts_are_rectangular u;
     time_axis_faster_than_bls := time_axis_faster_than_bls u; Nants_telescope := Nants_telescope u |}.

(** uvdata.py:2056-2070, one pass of the inner loop: a new window for each old
    one; [col] is the column of new_spw_id_array being filled.  Which free
    number is taken is up to [pop], as for the phase center ids. *)
Definition id_step (pop : list Z -> Z) (total : nat) (flex : list Z) (pol : Z) (st : list Z * list Z * list Z) (spw : Z)
    : list Z * list Z * list Z :=
  let '(spws, fps, col) := st in
  let new_spw := pop (free_ids total spws) in
  (spws ++ [new_spw], fps ++ [pol], map (fun p => if fst p =? spw then new_spw else snd p) (combine flex col)).

(** uvdata.py:2052-2070, the polarizations after the first *)
Fixpoint id_columns (pop : list Z -> Z) (total : nat) (spw_array flex pols : list Z) (spws fps : list Z)
    : list Z * list Z * list (list Z) :=
  match pols with
  | [] => (spws, fps, [])
  | pol :: pols =>
      let '(spws, fps, col) := fold_left (id_step pop total flex pol) spw_array (spws, fps, repeat 0 (length flex)) in
      let '(spws, fps, cols) := id_columns pop total spw_array flex pols spws fps in
      (spws, fps, col :: cols)
  end.

(** [a.reshape(n0, nf * np, 1, order="F")] and back *)
Definition pol_slowest {A} (nf : nat) (a : cube A) : cube A := fun i c _ => a i (c mod nf)%nat (c / nf)%nat.
Definition pol_split {A} (nf : nat) (a : cube A) : cube A := fun i j p => a i (j + nf * p)%nat O.

(** uvdata.py:2036-2097 *)
Definition convert_to_flex_pol (pop : list Z -> Z) (o : freqobj) : result freqobj :=
  let u := fo_uvd o in
  match flex_spw_polarization_array o, polarization_array u with
  | Some _, _ => Err ValueError
  | None, [] => Err IndexError
  | None, pol0 :: pols =>
      let nf := length (freq_array u) in
      let total := (length (spw_array u) * length (polarization_array u))%nat in
      let '(spws, fps, cols) :=
        id_columns pop total (spw_array u) (flex_spw_id_array u) pols (spw_array u) (repeat pol0 (length (spw_array u))) in
      let spw_sort := argsortZ spws in
      let tile (l : list Z) := concat (repeat l (length (polarization_array u))) in
      Ok (mkFreqobj
           (set_axes (tile (freq_array u)) (tile (channel_width u)) (concat (flex_spw_id_array u :: cols))
              (take 0 spws spw_sort) [0]
              (pol_slowest nf (data_array u)) (pol_slowest nf (flag_array u)) (pol_slowest nf (nsample_array u)) u)
           (eq_coeffs o) (Some (take 0 fps spw_sort)))
  end.

(** uvdata.py:1735-1741: a set of windows with the same frequencies and widths *)
Record wset := mkWset { ws_freqs : list Z; ws_widths : list Z; ws_spws : list Z; ws_pols : list Z }.
Definition ws_first (s : wset) : Z := hd 0 (ws_spws s).

(** uvdata.py:1749-1752 *)
Definition sorted_window (u : uvd) (w : Z) : list Z * list Z :=
  let spw_inds := nonzero (Z.eqb w) (flex_spw_id_array u) in
  let spw_inds := take O spw_inds (argsortZ (take 0 (freq_array u) spw_inds)) in
  (take 0 (freq_array u) spw_inds, take 0 (channel_width u) spw_inds).

(** uvdata.py:1753-1784: put one window into the sets.  Sets differ in their
    frequencies or widths, so the search may stop at the first match. *)
Fixpoint add_window (freqs widths : list Z) (w pol : Z) (sets : list wset) : result (list wset) :=
  match sets with
  | [] => Ok [mkWset freqs widths [w] [pol]]
  | s :: sets =>
      if listZ_eqb (ws_freqs s) freqs && listZ_eqb (ws_widths s) widths
      then if isinZ pol (ws_pols s) then Err ValueError
           else Ok (mkWset (ws_freqs s) (ws_widths s) (ws_spws s ++ [w]) (ws_pols s ++ [pol]) :: sets)
      else do sets <- add_window freqs widths w pol sets; Ok (s :: sets)
  end.

(** uvdata.py:1745-1747: [flex_spw_polarization_array[spw_array == w][0]] *)
Definition pol_of (spws fp : list Z) (w : Z) : result Z :=
  match index_of Z.eqb w spws with
  | Some i => match nth_error fp i with Some p => Ok p | None => Err IndexError end
  | None => Err IndexError
  end.

(** uvdata.py:1743-1784 *)
Fixpoint window_sets (u : uvd) (fp : list Z) (ws : list Z) (sets : list wset) : result (list wset) :=
  match ws with
  | [] => Ok sets
  | w :: ws =>
      do pol <- pol_of (spw_array u) fp w;
      let '(freqs, widths) := sorted_window u w in
      do sets <- add_window freqs widths w pol sets;
      window_sets u fp ws sets
  end.

(** first_spw_dict[w] *)
Definition first_spw (sets : list wset) (w : Z) : Z :=
  match find (fun s => isinZ w (ws_spws s)) sets with Some s => ws_first s | None => 0 end.

(** uvdata.py:1786-1804 *)
Definition same_channels (u : uvd) (w1 w2 : Z) : bool :=
  let i1 := nonzero (Z.eqb w1) (flex_spw_id_array u) in
  let i2 := nonzero (Z.eqb w2) (flex_spw_id_array u) in
  listZ_eqb (take 0 (freq_array u) i1) (take 0 (freq_array u) i2) &&
  listZ_eqb (take 0 (channel_width u) i1) (take 0 (channel_width u) i2).
Definition reorder_channels (u : uvd) (sets : list wset) : bool :=
  existsb (fun s => existsb (fun w => negb (same_channels u (ws_first s) w)) (tl (ws_spws s))) sets.

(** uvdata.py:1822-1829 and 1863-1867: the polarization of every channel
    (channels of no listed window get the first one) *)
Definition pol_array_check (o : freqobj) (fp : list Z) : list Z :=
  map (fun w => nth (match index_of Z.eqb w (spw_array (fo_uvd o)) with Some i => i | None => O end) fp 0)
    (flex_spw_id_array (fo_uvd o)).
Definition first_spw_array (sets : list wset) (u : uvd) : list Z := map (first_spw sets) (flex_spw_id_array u).

(** [a[b == v]] *)
Definition where_eq (v : Z) (b a : list Z) : list Z := take 0 a (nonzero (Z.eqb v) b).

(** uvdata.py:1829-1836 *)
Definition reorder_spws (n_pols : nat) (unique_pols pol_check firsts : list Z) : bool :=
  negb (count_breaks pol_check =? n_pols - 1)%nat ||
  existsb (fun pol => negb (listZ_eqb (where_eq pol pol_check firsts) (where_eq (hd 0 unique_pols) pol_check firsts))) (tl unique_pols).

(** uvdata.py:1846-1856 *)
Definition spw_order_of (spws unique_pols : list Z) (sets : list wset) : result (list Z) :=
  let unique_pols :=
    if forallb (fun p => p <? 0) unique_pols then take 0 unique_pols (argsortZ (map Z.abs unique_pols)) else unique_pols in
  mapM (fun ps : Z * wset =>
    match index_of Z.eqb (fst ps) (ws_pols (snd ps)) with
    | None => Err IndexError
    | Some i =>
        match index_of Z.eqb (nth i (ws_spws (snd ps)) 0) spws with
        | None => Err IndexError
        | Some k => Ok (Z.of_nat k)
        end
    end) (concat (map (fun p => map (pair p) sets) unique_pols)).

(** uvdata.py:1869-1908 *)
Definition combine_windows (n_pols n_freqs : nat) (sets : list wset) (o : freqobj) (fp : list Z) : result freqobj :=
  let u := fo_uvd o in
  let pol_check := pol_array_check o fp in
  let firsts := first_spw_array sets u in
  if negb (n_freqs * n_pols =? length (freq_array u))%nat then Err ValueError
  else
    Ok (mkFreqobj
         (set_axes (firstn n_freqs (freq_array u)) (firstn n_freqs (channel_width u)) (firstn n_freqs firsts)
            (take 0 firsts (first_positions firsts)) (take 0 pol_check (first_positions pol_check))
            (pol_split n_freqs (data_array u)) (pol_split n_freqs (flag_array u)) (pol_split n_freqs (nsample_array u)) u)
         (eq_coeffs o) None).

(** uvdata.py:1910-1933; assignments through [spw_screen], window by window *)
Definition inflate_array {A} (d : A) (u : uvd) (unique_pols : list Z) (windows : list (Z * Z)) (a : cube A) : cube A :=
  fun i c k =>
    fold_left (fun cur wp => if (nth c (flex_spw_id_array u) 0 =? fst wp) && (nth k unique_pols 0 =? snd wp) then a i c O else cur)
      windows d.
Definition inflate_pols (unique_pols : list Z) (o : freqobj) (fp : list Z) : freqobj :=
  let u := fo_uvd o in
  let windows := combine (spw_array u) fp in
  mkFreqobj (set_axes (freq_array u) (channel_width u) (flex_spw_id_array u) (spw_array u) unique_pols
               (inflate_array (0, 0) u unique_pols windows (data_array u))
               (inflate_array true u unique_pols windows (flag_array u))
               (inflate_array 0 u unique_pols windows (nsample_array u)) u)
    (eq_coeffs o) None.

(** uvdata.py:1691-1933 *)
Definition remove_flex_pol (combine_spws : bool) (o : freqobj) : result freqobj :=
  let u := fo_uvd o in
  match flex_spw_polarization_array o with
  | None => Ok o
  | Some fp =>
      let unique_pols := uniqueZ fp in
      let n_pols := length unique_pols in
      if (length (spw_array u) =? 1)%nat || (n_pols =? 1)%nat
      then Ok (mkFreqobj (set_polarization_array unique_pols u) (eq_coeffs o) None)
      else if combine_spws
      then
        let flex := flex_spw_id_array u in
        do sets <- window_sets u fp (take 0 flex (first_positions flex)) [];
        if negb (forallb (fun s => (length (ws_spws s) =? n_pols)%nat) sets)
        then Ok (inflate_pols unique_pols o fp)
        else
          let n_freqs := fold_right plus O (map (fun s => length (ws_freqs s)) sets) in
          let rc := reorder_channels u sets in
          let rs := reorder_spws n_pols unique_pols (pol_array_check o fp) (first_spw_array sets u) in
          if rc || rs
          then
            do spw_order <- (if rs then do idx <- spw_order_of (spw_array u) unique_pols sets; Ok (Some (SpwIndex idx)) else Ok None);
            do o <- reorder_freqs spw_order (if rc then Some (ChanFreq false) else None) None o;
            match flex_spw_polarization_array o with
            | None => Err TypeError
            | Some fp => combine_windows n_pols n_freqs sets o fp
            end
          else combine_windows n_pols n_freqs sets o fp
      else Ok (inflate_pols unique_pols o fp)
  end.

(** uvdata.py:1980-1997: for a window, the polarizations with unflagged data *)
Definition unflagged_pols (u : uvd) (w : Z) : list nat :=
  filter (fun k => negb (forallb (fun i => forallb (fun c => flag_array u i c k) (nonzero (Z.eqb w) (flex_spw_id_array u)))
                           (seq 0 (Nblts u)))) (seq 0 (Npols u)).

(** uvdata.py:1980-2008: the polarization of each window.  The index -1 of a
    fully flagged window means the last polarization. *)
Definition flex_pol_idx (u : uvd) : list nat :=
  let idx := map (fun w => hd_error (unflagged_pols u w)) (spw_array u) in
  let known := concat (map (fun i => match i with Some k => [Z.of_nat k] | None => [] end) idx) in
  match uniqueZ known with
  | [k] => map (fun _ => Z.to_nat k) idx
  | _ => map (fun i => match i with Some k => k | None => (Npols u - 1)%nat end) idx
  end.

(** uvdata.py:2010-2034 *)
Definition take_pols (idx : list nat) (o : freqobj) : freqobj :=
  let u := fo_uvd o in
  let pol_idx c := fold_left (fun cur wk => if nth c (flex_spw_id_array u) 0 =? fst wk then snd wk else cur) (combine (spw_array u) idx) O in
  mkFreqobj (set_axes (freq_array u) (channel_width u) (flex_spw_id_array u) (spw_array u) [0]
               (fun i c _ => data_array u i c (pol_idx c)) (fun i c _ => flag_array u i c (pol_idx c))
               (fun i c _ => nsample_array u i c (pol_idx c)) u)
    (eq_coeffs o) (Some (take 0 (polarization_array u) idx)).

(** uvdata.py:1935-2034 *)
Definition make_flex_pol (raise_error : bool) (o : freqobj) : result freqobj :=
  let u := fo_uvd o in
  match polarization_array u with
  | [pol] =>
      match flex_spw_polarization_array o with
      | None => Ok (mkFreqobj (set_polarization_array [0] u) (eq_coeffs o) (Some (map (fun _ => pol) (spw_array u))))
      | Some _ => Ok o
      end
  | _ =>
      if existsb (fun w => (1 <? length (unflagged_pols u w))%nat) (spw_array u)
      then if raise_error then Err ValueError else Ok o
      else Ok (take_pols (flex_pol_idx u) o)
  end.
