(** Calibration solutions: /repo/src/pyuvdata/uvcal/uvcal.py.  An object holds
    solutions (it is not metadata_only).  Phase centers, history, filename, the
    warnings and the calls of check are not modelled. *)
From Coq Require Import List ZArith Bool Arith String.
From Verif Require Import Lib.Py Lib.Np Lib.Cube Lib.Sorting Model.UVData Model.Reorder Model.Freq Model.Tools Model.Pol
  Model.Add.
Import ListNotations.
Notation length := List.length.
Open Scope list_scope.
Open Scope Z_scope.

(** Arrays of shape (Nants_data, Nfreqs or Nspws, Ntimes, Njones) *)
Definition arr4 (A : Type) := nat -> nat -> nat -> nat -> A.

(** uvcal.py:60-600, the attributes.  [c_gain]: cal_type is "gain" (else "delay");
    [c_compat] stands for the values of telescope, gain_convention, cal_style and
    ref_antenna_name, which are only compared.  freq_range is used only if
    wide_band; freq_array, channel_width and flex_spw_id_array only if not.
    [c_sol] is gain_array or delay_array.  Qualities are only moved: integers. *)
Record ucal := mkUcal {
  c_gain : bool;
  c_wide : bool;
  c_compat : Z;
  c_ants : list Z;
  c_spws : list Z;
  c_freq_range : list (Z * Z);
  c_freqs : list Z;
  c_widths : list Z;
  c_flex : list Z;
  c_flex_jones : option (list Z);
  c_time_array : option (list Z);
  c_time_range : option (list (Z * Z));
  c_lst_array : option (list Z);
  c_lst_range : option (list (Z * Z));
  c_ref_ant : option (list Z);
  c_int_time : list Z;
  c_jones : list Z;
  c_sol : arr4 cplx;
  c_flags : arr4 bool;
  c_qual : option (arr4 Z);
  c_tqual : option (cube Z) }.

(** The time by which a solution is known: the start of its range, or its time *)
Definition time_keys (u : ucal) : list Z :=
  match c_time_range u with
  | Some r => map fst r
  | None => match c_time_array u with Some t => t | None => [] end
  end.

Definition Nants (u : ucal) : nat := length (c_ants u).
Definition Nchans (u : ucal) : nat := if c_wide u then length (c_spws u) else length (c_freqs u).
Definition Ntimes (u : ucal) : nat := length (time_keys u).
Definition Njones (u : ucal) : nat := length (c_jones u).

(** Indexing one axis of the arrays *)
Definition on0 {A} (idx : list nat) (c : arr4 A) : arr4 A := fun a f t j => c (nth a idx O) f t j.
Definition on1 {A} (idx : list nat) (c : arr4 A) : arr4 A := fun a f t j => c a (nth f idx O) t j.
Definition on2 {A} (idx : list nat) (c : arr4 A) : arr4 A := fun a f t j => c a f (nth t idx O) j.
Definition on3 {A} (idx : list nat) (c : arr4 A) : arr4 A := fun a f t j => c a f t (nth j idx O).

(** uvcal.py:2123-2131 *)
Definition take_ants (idx : list nat) (u : ucal) : ucal :=
  {| c_gain := c_gain u; c_wide := c_wide u; c_compat := c_compat u;
     c_ants := take 0 (c_ants u) idx;
     c_spws := c_spws u; c_freq_range := c_freq_range u; c_freqs := c_freqs u; c_widths := c_widths u; c_flex := c_flex u;
     c_flex_jones := c_flex_jones u;
     c_time_array := c_time_array u; c_time_range := c_time_range u; c_lst_array := c_lst_array u; c_lst_range := c_lst_range u;
     c_ref_ant := c_ref_ant u; c_int_time := c_int_time u; c_jones := c_jones u;
     c_sol := on0 idx (c_sol u); c_flags := on0 idx (c_flags u); c_qual := option_map (on0 idx) (c_qual u);
     c_tqual := c_tqual u |}.

(** uvcal.py:2356-2376 *)
Definition take_times (idx : list nat) (u : ucal) : ucal :=
  {| c_gain := c_gain u; c_wide := c_wide u; c_compat := c_compat u; c_ants := c_ants u;
     c_spws := c_spws u; c_freq_range := c_freq_range u; c_freqs := c_freqs u; c_widths := c_widths u; c_flex := c_flex u;
     c_flex_jones := c_flex_jones u;
     c_time_array := option_map (fun l => take 0 l idx) (c_time_array u);
     c_time_range := option_map (fun l => take (0, 0) l idx) (c_time_range u);
     c_lst_array := option_map (fun l => take 0 l idx) (c_lst_array u);
     c_lst_range := option_map (fun l => take (0, 0) l idx) (c_lst_range u);
     c_ref_ant := option_map (fun l => take 0 l idx) (c_ref_ant u);
     c_int_time := take 0 (c_int_time u) idx; c_jones := c_jones u;
     c_sol := on2 idx (c_sol u); c_flags := on2 idx (c_flags u); c_qual := option_map (on2 idx) (c_qual u);
     c_tqual := option_map (take1 idx) (c_tqual u) |}.

(** uvcal.py:2447-2457 *)
Definition take_jones (idx : list nat) (u : ucal) : ucal :=
  {| c_gain := c_gain u; c_wide := c_wide u; c_compat := c_compat u; c_ants := c_ants u;
     c_spws := c_spws u; c_freq_range := c_freq_range u; c_freqs := c_freqs u; c_widths := c_widths u; c_flex := c_flex u;
     c_flex_jones := c_flex_jones u;
     c_time_array := c_time_array u; c_time_range := c_time_range u; c_lst_array := c_lst_array u; c_lst_range := c_lst_range u;
     c_ref_ant := c_ref_ant u; c_int_time := c_int_time u;
     c_jones := take 0 (c_jones u) idx;
     c_sol := on3 idx (c_sol u); c_flags := on3 idx (c_flags u); c_qual := option_map (on3 idx) (c_qual u);
     c_tqual := option_map (take2 idx) (c_tqual u) |}.

(** uvcal.py:2252-2270: the window axis of a wide_band object *)
Definition take_windows (idx : list nat) (u : ucal) : ucal :=
  {| c_gain := c_gain u; c_wide := c_wide u; c_compat := c_compat u; c_ants := c_ants u;
     c_spws := take 0 (c_spws u) idx; c_freq_range := take (0, 0) (c_freq_range u) idx;
     c_freqs := c_freqs u; c_widths := c_widths u; c_flex := c_flex u;
     c_flex_jones := option_map (fun l => take 0 l idx) (c_flex_jones u);
     c_time_array := c_time_array u; c_time_range := c_time_range u; c_lst_array := c_lst_array u; c_lst_range := c_lst_range u;
     c_ref_ant := c_ref_ant u; c_int_time := c_int_time u; c_jones := c_jones u;
     c_sol := on1 idx (c_sol u); c_flags := on1 idx (c_flags u); c_qual := option_map (on1 idx) (c_qual u);
     c_tqual := option_map (take0 idx) (c_tqual u) |}.

(** uvcal.py:2258-2287: the channel axis.  [np.nonzero(..)[0][0]] of no match
    raises IndexError. *)
Definition take_channels (idx : list nat) (u : ucal) : result ucal :=
  let flex := take 0 (c_flex u) idx in
  do (spws, fj) <-
    (if (1 <? length (c_spws u))%nat then
       let spws := take 0 flex (first_positions flex) in
       do pos <- mapM (fun w => match index_of Z.eqb w (c_spws u) with Some i => Ok i | None => Err IndexError end) spws;
       Ok (spws, option_map (fun l => take 0 l pos) (c_flex_jones u))
     else Ok (c_spws u, c_flex_jones u));
  Ok {| c_gain := c_gain u; c_wide := c_wide u; c_compat := c_compat u; c_ants := c_ants u;
        c_spws := spws; c_freq_range := c_freq_range u;
        c_freqs := take 0 (c_freqs u) idx; c_widths := take 0 (c_widths u) idx; c_flex := flex;
        c_flex_jones := fj;
        c_time_array := c_time_array u; c_time_range := c_time_range u; c_lst_array := c_lst_array u; c_lst_range := c_lst_range u;
        c_ref_ant := c_ref_ant u; c_int_time := c_int_time u; c_jones := c_jones u;
        c_sol := on1 idx (c_sol u); c_flags := on1 idx (c_flags u); c_qual := option_map (on1 idx) (c_qual u);
        c_tqual := option_map (take0 idx) (c_tqual u) |}.

(** ** The reorder methods *)

(** An order: an index array, a sort by number or by name (for times: by time
    only), [true] for a leading '-', or any other string *)
Inductive order_request := ByIndex (idx : list Z) | ByNumber (desc : bool) | ByName (desc : bool) | ByOther.

Definition flip (desc : bool) (idx : list nat) : list nat := if desc then rev idx else idx.

(** [np.argsort] of an array of strings *)
Definition argsort_str (l : list string) : list nat :=
  argsort_by (fun i j => String.leb (nth i l EmptyString) (nth j l EmptyString)) (length l).

(** An axis with [n] entries, numbers [keys] and names [names] *)
Definition axis_order (n : nat) (keys : list Z) (names : result (list string)) (req : order_request) : result (list nat) :=
  match req with
  | ByIndex idx => if is_index_array n idx then Ok (map Z.to_nat idx) else Err ValueError
  | ByNumber desc => Ok (flip desc (argsortZ keys))
  | ByName desc => do s <- names; Ok (flip desc (argsort_str s))
  | ByOther => Err ValueError
  end.

(** uvcal.py:2107-2114: the name of each antenna of ant_array, from
    telescope.antenna_numbers and telescope.antenna_names *)
Definition antenna_name (numbers : list Z) (names : list string) (ant : Z) : result string :=
  match index_of Z.eqb ant numbers with
  | Some i => match nth_error names i with Some s => Ok s | None => Err IndexError end
  | None => Err IndexError
  end.

(** uvcal.py:2056-2136 *)
Definition reorder_antennas (numbers : list Z) (names : list string) (req : order_request) (u : ucal) : result ucal :=
  do idx <- axis_order (Nants u) (c_ants u) (mapM (antenna_name numbers names) (c_ants u)) req;
  Ok (if increasing idx then u else take_ants idx u).

(** uvcal.py:2294-2381.  There is no sort by name. *)
Definition reorder_times (req : order_request) (u : ucal) : result ucal :=
  do idx <- match req, c_time_array u, c_time_range u with
            | ByNumber _, Some _, Some _ => Err ValueError
            | _, _, _ => axis_order (Ntimes u) (time_keys u) (Err ValueError) req
            end;
  Ok (if increasing idx then u else take_times idx u).

(** uvcal.py:2385-2462; [xo] is telescope.x_orientation *)
Definition reorder_jones (xo : option string) (req : order_request) (u : ucal) : result ucal :=
  do idx <- axis_order (Njones u) (c_jones u) (mapM (jnum2str xo) (c_jones u)) req;
  Ok (if increasing idx then u else take_jones idx u).

(** uvcal.py:2200-2240: the order of the windows of a wide_band object.  The mean
    frequency is compared through the sum of the ends of the range. *)
Definition window_order (req : spw_request) (u : ucal) : result (list nat) :=
  match req with
  | SpwIndex idx =>
      if is_index_array (length (c_spws u)) idx
      then mapM (fun i => match index_of Z.eqb (nth (Z.to_nat i) (c_spws u) 0) (c_spws u) with
                          | Some p => Ok p | None => Err IndexError end) idx
      else Err ValueError
  | SpwNumber desc => Ok (flip desc (argsortZ (c_spws u)))
  | SpwFreq desc => Ok (flip desc (argsortZ (map (fun r => fst r + snd r) (c_freq_range u))))
  | SpwOther => Err ValueError
  end.

(** uvcal.py:2139-2292.  Nfreqs is 1 for a wide_band object. *)
Definition reorder_freqs (spw_order : option spw_request) (channel_order : option chan_request)
    (select_spw : option (list Z)) (u : ucal) : result ucal :=
  if (length (c_spws u) =? 1)%nat && (c_wide u || (length (c_freqs u) =? 1)%nat) then Ok u
  else if c_wide u then
    do idx <- window_order (match spw_order with Some r => r | None => SpwNumber false end) u;
    Ok (take_windows idx u)
  else
    do idx <- sort_freq_helper (c_freqs u) (c_spws u) (c_flex u) spw_order channel_order select_spw;
    match idx with None => Ok u | Some idx => take_channels idx u end.

(** ** Combining two objects: UVCal.__add__, uvcal.py:2584-3402 *)

Definition is_none {A} (o : option A) : bool := match o with None => true | _ => false end.
Definition both_or_neither {A B} (a : option A) (b : option B) : bool := Bool.eqb (is_none a) (is_none b).

(** uvcal.py:2649-2709 *)
Definition combinable (u v : ucal) : bool :=
  both_or_neither (c_flex_jones u) (c_flex_jones v) && both_or_neither (c_ref_ant u) (c_ref_ant v) &&
  Bool.eqb (c_wide u) (c_wide v) &&
  both_or_neither (c_time_array u) (c_time_array v) && both_or_neither (c_time_range u) (c_time_range v) &&
  Bool.eqb (c_gain u) (c_gain v) && (c_compat u =? c_compat v).

(** uvcal.py:2725-2728 *)
Definition ranges_apart (u v : ucal) : result unit :=
  match c_time_range u, c_time_range v with
  | Some r, Some s => do o <- check_range_overlap (r ++ s); if o then Err ValueError else Ok tt
  | _, _ => Ok tt
  end.

(** uvcal.py:2738-2766: the windows or channels the two objects share *)
Definition shared_spws (u v : ucal) : list Z := filter (fun w => isinZ w (c_spws v)) (uniqueZ (c_spws u)).
Definition shared_channels (u v : ucal) : list nat * list nat :=
  let per w :=
    let this_mask := nonzero (Z.eqb w) (c_flex u) in
    let other_mask := nonzero (Z.eqb w) (c_flex v) in
    let '(ai, bi) := intersect1d Z.eqb Z.leb (take 0 (c_freqs u) this_mask) (take 0 (c_freqs v) other_mask) in
    (take O this_mask ai, take O other_mask bi) in
  (List.concat (map (fun w => fst (per w)) (shared_spws u v)), List.concat (map (fun w => snd (per w)) (shared_spws u v))).
Definition shared_freqs (u v : ucal) : list nat * list nat :=
  if c_wide u then intersect1d Z.eqb Z.leb (c_spws u) (c_spws v) else shared_channels u v.

(** uvcal.py:2804-2812: shared times must have the same reference antenna *)
Definition same_refs (u v : ucal) (ti oi : list nat) : bool :=
  match c_ref_ant u, c_ref_ant v with
  | Some r, Some s => listZ_eqb (take 0 r ti) (take 0 s oi)
  | _, _ => true
  end.

(** uvcal.py:2814-2867: shared entries are put into the order they have in [v] *)
Definition match_orders (ants times freqs jones : list nat * list nat) (u : ucal) : result ucal :=
  do u <- maybe (overlap_order (Nants u) (fst ants) (snd ants)) (fun idx => reorder_antennas [] [] (ByIndex idx)) u;
  do u <- maybe (overlap_order (Ntimes u) (fst times) (snd times)) (fun idx => reorder_times (ByIndex idx)) u;
  do u <- maybe (overlap_order (Nchans u) (fst freqs) (snd freqs))
            (fun idx => if c_wide u then reorder_freqs (Some (SpwIndex idx)) None None
                        else reorder_freqs None (Some (ChanIndex idx)) None) u;
  maybe (overlap_order (Njones u) (fst jones) (snd jones)) (fun idx => reorder_jones None (ByIndex idx)) u.

(** uvcal.py:2899-2930: positions of [v] on the channel axis that are new *)
Definition chan_labels (u : ucal) : list (Z * Z) := combine (c_flex u) (c_freqs u).
Definition new_freqs (u v : ucal) : list nat :=
  if c_wide u then new_in Z.eqb (c_spws u) (c_spws v)
  else nonzero (fun x => negb (isinZ (fst x) (shared_spws u v) && memb pair_eqb x (chan_labels u))) (chan_labels v).

(** [np.concatenate([a, b[new]])[order]] for a parameter that may be None *)
Definition ojoined {A} (d : A) (a b : option (list A)) (added order : list nat) : result (option (list A)) :=
  match added, a, b with
  | [], _, _ => Ok a
  | _, None, _ => Ok None
  | _, Some a, Some b => Ok (Some (joined d a b added order))
  | _, Some _, None => Err TypeError
  end.

(** [np.zeros] padding, and [a[np.ix_(..)] = b] *)
Definition pad4 {A} (na nf nt nj : nat) (z : A) (c : arr4 A) : arr4 A :=
  fun a f t j => if (a <? na)%nat && (f <? nf)%nat && (t <? nt)%nat && (j <? nj)%nat then c a f t j else z.
Definition place4 {A} (ai fi ti ji : list nat) (b c : arr4 A) : arr4 A :=
  fun a f t j =>
    match index_of Nat.eqb a ai, index_of Nat.eqb f fi, index_of Nat.eqb t ti, index_of Nat.eqb j ji with
    | Some a', Some f', Some t', Some j' => b a' f' t' j'
    | _, _, _, _ => c a f t j
    end.

Definition empty {A} (l : list A) : bool := match l with [] => true | _ => false end.

(** uvcal.py:2974-2988, 3062-3077, 3126-3147, 3188-3205: what goes wrong with
    total_quality_array.  The padding in time takes its length from quality_array;
    an array that is created has one row for a wide_band object. *)
Definition tqual_problem (u v : ucal) (anew fnew tnew jnew : list nat) : option exn :=
  if negb (empty anew) || (is_none (c_tqual u) && is_none (c_tqual v)) then None
  else if negb (empty tnew) && is_none (c_qual u) && is_none (c_qual v) then Some AttributeError
  else if is_none (c_tqual u) && c_wide u && negb (Nchans u =? 1)%nat
  then Some (if empty tnew && empty jnew then IndexError else ValueError)
  else None.

(** uvcal.py:2935-3345.  [u] has been through match_orders.  An assignment of an
    array of another shape raises ValueError (broadcasting is not modelled; it
    cannot arise when labels are distinct and ranges with a common start agree). *)
Definition join (anew fnew tnew jnew : list nat) (u v : ucal) : result ucal :=
  let ants := c_ants u ++ take 0 (c_ants v) anew in
  let a_order := order_if anew (length ants) (argsortZ ants) in
  let freqs := c_freqs u ++ take 0 (c_freqs v) fnew in
  let widths := c_widths u ++ take 0 (c_widths v) fnew in
  let flex := c_flex u ++ take 0 (c_flex v) fnew in
  let wspws := c_spws u ++ take 0 (c_spws v) fnew in
  let spws := if c_wide u then wspws else match fnew with [] => c_spws u | _ => isort Z.leb (take 0 flex (first_positions flex)) end in
  let f_order := order_if fnew (Nchans u + length fnew)
                   (if c_wide u then argsortZ wspws else freq_order freqs flex spws) in
  do fj <- match fnew, c_flex_jones u, c_flex_jones v with
           | [], fj, _ => Ok fj
           | _, None, _ => Ok None
           | _, Some _, None => Err TypeError
           | _, Some a, Some b =>
               if c_wide u then Ok (Some (a ++ take 0 b fnew))
               else
                 let concat_spws := spws ++ c_spws v in
                 let all := a ++ b in
                 do l <- mapM (fun w => match index_of Z.eqb w concat_spws with
                                        | Some i => match nth_error all i with Some p => Ok p | None => Err IndexError end
                                        | None => Err IndexError end) spws;
                 Ok (Some l)
           end;
  let keys := time_keys u ++ take 0 (time_keys v) tnew in
  let t_order := order_if tnew (length keys) (argsortZ keys) in
  do ta <- ojoined 0 (c_time_array u) (c_time_array v) tnew t_order;
  do tr <- ojoined (0, 0) (c_time_range u) (c_time_range v) tnew t_order;
  do la <- ojoined 0 (c_lst_array u) (c_lst_array v) tnew t_order;
  do lr <- ojoined (0, 0) (c_lst_range u) (c_lst_range v) tnew t_order;
  do ra <- ojoined 0 (c_ref_ant u) (c_ref_ant v) tnew t_order;
  let jones := c_jones u ++ take 0 (c_jones v) jnew in
  let j_order := order_if jnew (length jones) (argsortZ (map Z.abs jones)) in
  let jones_t2o := nonzero (fun p => isinZ p (c_jones v)) jones in
  let times_t2o :=
    match c_time_range u, c_time_range v with
    | Some r, Some s =>
        nonzero (fun p => isinZ (fst p) (map fst s) && isinZ (snd p) (map snd s)) (r ++ take (0, 0) s tnew)
    | _, _ => nonzero (fun t => isinZ t (time_keys v)) keys
    end in
  let freqs_t2o :=
    if c_wide u then nonzero (fun w => isinZ w (c_spws v)) wspws
    else nonzero (fun x => isinZ (fst x) spws && isinZ (fst x) (c_spws v) && memb pair_eqb x (chan_labels v)) (combine flex freqs) in
  let ants_t2o := nonzero (fun a => isinZ a (c_ants v)) ants in
  match tqual_problem u v anew fnew tnew jnew with
  | Some e => Err e
  | None =>
      if negb ((length ants_t2o =? Nants v)%nat && (length freqs_t2o =? Nchans v)%nat &&
               (length times_t2o =? Ntimes v)%nat && (length jones_t2o =? Njones v)%nat)
      then Err ValueError
      else
        let order4 {A} (c : arr4 A) := on3 (data_order j_order) (on2 (data_order t_order) (on1 (data_order f_order) (on0 (data_order a_order) c))) in
        let pad {A} (z : A) c := pad4 (Nants u) (Nchans u) (Ntimes u) (Njones u) z c in
        let put {A} (d c : arr4 A) := place4 ants_t2o freqs_t2o times_t2o jones_t2o d c in
        let qual :=
          match c_qual u, c_qual v with
          | None, None => None
          | Some q, None => Some (order4 (pad 0 q))
          | None, Some q' => Some (order4 (put q' (fun _ _ _ _ => 0)))
          | Some q, Some q' => Some (order4 (put q' (pad 0 q)))
          end in
        let tpad c := Add.pad (Nchans u) (Ntimes u) (Njones u) 0 c in
        let tput (d c : cube Z) := place freqs_t2o times_t2o jones_t2o d c in
        let order3 (c : cube Z) := take2 (data_order j_order) (take1 (data_order t_order) (take0 (data_order f_order) c)) in
        let tqual :=
          if negb (empty anew) then None
          else match c_tqual u, c_tqual v with
               | None, None => None
               | Some q, None => Some (order3 (tpad q))
               | None, Some q' => Some (order3 (tput q' (fun _ _ _ => 0)))
               | Some q, Some q' => Some (order3 (tput q' (tpad q)))
               end in
        Ok {| c_gain := c_gain u; c_wide := c_wide u; c_compat := c_compat u;
              c_ants := take 0 ants a_order;
              c_spws := if c_wide u then take 0 wspws f_order else spws;
              c_freq_range := if c_wide u then joined (0, 0) (c_freq_range u) (c_freq_range v) fnew f_order else c_freq_range u;
              c_freqs := if c_wide u then c_freqs u else take 0 freqs f_order;
              c_widths := if c_wide u then c_widths u else take 0 widths f_order;
              c_flex := if c_wide u then c_flex u else take 0 flex f_order;
              c_flex_jones := fj;
              c_time_array := ta; c_time_range := tr; c_lst_array := la; c_lst_range := lr; c_ref_ant := ra;
              c_int_time := joined 0 (c_int_time u) (c_int_time v) tnew t_order;
              c_jones := take 0 jones j_order;
              c_sol := order4 (put (c_sol v) (pad (0, 0) (c_sol u)));
              c_flags := order4 (put (c_flags v) (pad true (c_flags u)));
              c_qual := qual; c_tqual := tqual |}
  end.

(** uvcal.py:2584-3402 *)
Definition add (u v : ucal) : result ucal :=
  if negb (combinable u v) then Err ValueError
  else
    let jones := intersect1d Z.eqb Z.leb (c_jones u) (c_jones v) in
    do _ <- ranges_apart u v;
    let times := intersect1d Z.eqb Z.leb (time_keys u) (time_keys v) in
    let freqs := shared_freqs u v in
    let ants := intersect1d Z.eqb Z.leb (c_ants u) (c_ants v) in
    if negb (empty (fst jones) || empty (fst times) || empty (fst freqs) || empty (fst ants)) then Err ValueError
    else if negb (same_refs u v (fst times) (snd times)) then Err ValueError
    else
      do u' <- match_orders ants times freqs jones u;
      join (new_in Z.eqb (c_ants u') (c_ants v)) (new_freqs u' v) (new_in Z.eqb (time_keys u') (time_keys v))
        (new_in Z.eqb (c_jones u') (c_jones v)) u' v.
