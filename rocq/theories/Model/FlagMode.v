(** Flags and metrics: to_flag, to_metric, or, combine_metrics, collapse_pol and
    to_waterfall of UVFlag, /repo/src/pyuvdata/uvflag/uvflag.py:1137-1336, 1781-1903,
    2215-2372.  Numbers are those of Model/Collapse.v (exact, no NaN).  Histories
    and telescope metadata are not modelled; of the final check only the shapes of
    the data arrays are. *)
From Coq Require Import List ZArith Bool Arith QArith Qcanon String.
From Verif Require Import Lib.Py Lib.Np Lib.QSum Model.UVFlag Model.FlagSelect Model.Collapse.
Import ListNotations.
Notation length := List.length.
Open Scope list_scope.
Open Scope Z_scope.

(** The arrays of a mode: flag_array, or metric_array, weights_array and
    weights_square_array.  Switching modes drops the arrays of the other mode
    (clear_unused_attributes, uvflag.py:843-872; _set_mode_flag, 641-650). *)
Inductive mode :=
| Flags (flags : arr bool)
| Metrics (metric : arr num) (weights : arr Qc) (squares : option (arr Qc)).

Record mobj := mkM {
  o_type : flag_type;
  o_Nants : Z;
  o_ants : list Z;
  o_ant1 : list Z;
  o_ant2 : list Z;
  o_bl : list Z;
  o_time : list Z;
  o_lst : list Z;
  o_freq : list Z;
  o_pols : fpols;
  o_mode : mode }.
Definition with_mode (m : mode) (u : mobj) : mobj :=
  mkM (o_type u) (o_Nants u) (o_ants u) (o_ant1 u) (o_ant2 u) (o_bl u) (o_time u) (o_lst u) (o_freq u) (o_pols u) m.

(** uvflag.py:270-325, 676-724: the form of the arrays of each type.  That of
    weights_square_array is the same for every type. *)
Definition form (u : mobj) : list nat :=
  match o_type u with
  | TypeAntenna => [length (o_ants u); length (o_freq u); length (o_time u); pol_size (o_pols u)]
  | _ => [length (o_time u); length (o_freq u); pol_size (o_pols u)]
  end.
Definition square_form (u : mobj) : list nat := [length (uniqueZ (o_time u)); length (o_freq u); pol_size (o_pols u)].
Definition shape_eqb (a b : list nat) : bool := if list_eq_dec Nat.eq_dec a b then true else false.
Definition check_shapes (u : mobj) : bool :=
  match o_mode u with
  | Flags f => shape_eqb (shape f) (form u)
  | Metrics m w sq => shape_eqb (shape m) (form u) && shape_eqb (shape w) (form u) &&
      match sq with Some s => shape_eqb (shape s) (square_form u) | None => true end
  end.
Definition checked (run_check : bool) (u : mobj) : result mobj :=
  if run_check && negb (check_shapes u) then Err ValueError else Ok u.

(** metric_array >= threshold; [Root q] is the square root of [q] *)
Definition qleb (x y : Qc) : bool := if Qclt_le_dec y x then false else true.
Definition reaches (threshold x : num) : bool :=
  match x, threshold with
  | Inf n, Inf n' => negb n || n'
  | Inf n, _ => negb n
  | _, Inf n' => n'
  | Fin x, Fin t => qleb t x
  | Root x, Fin t => qleb t 0 || qleb (t * t) x
  | Fin x, Root t => qleb 0 x && qleb t (x * x)
  | Root x, Root t => qleb t 0 || qleb t x
  end.

(** uvflag.py:1781-1828 *)
Definition to_flag (run_check : bool) (threshold : num) (u : mobj) : result mobj :=
  match o_mode u with
  | Flags _ => Ok u
  | Metrics m _ _ => checked run_check (with_mode (Flags (mkarr (shape m) (fun ix => reaches threshold (at_ m ix)))) u)
  end.

(** uvflag.py:1866-1887, convert_wgts: the weights are multiplied in place, one
    waterfall after another *)
Definition ones {A} (a : arr A) : arr Qc := mkarr (shape a) (fun _ => 1%Qc).
Definition clear_wf (i : nat) (f : arr bool) (w : index -> Qc) : index -> Qc := fun ix =>
  match ix with
  | [t; j; p] => if (p =? i)%nat then (w ix * b2q (negb (and_rows_cols (nth 0 (shape f) 0%nat) (nth 1 (shape f) 0%nat)
                                                  (fun t j => at_ f [t; j; i]) t j)))%Qc
                 else w ix
  | _ => w ix
  end.
Definition clear_pair (i : nat) (inds : list nat) (f : arr bool) (w : index -> Qc) : index -> Qc := fun ix =>
  match ix with
  | [r; j; p] =>
      match index_of Nat.eqb r inds with
      | Some k => if (p =? i)%nat
                  then (w ix * b2q (negb (and_rows_cols (length inds) (nth 1 (shape f) 0%nat)
                                            (fun k j => at_ f [nth k inds 0%nat; j; i]) k j)))%Qc
                  else w ix
      | None => w ix
      end
  | _ => w ix
  end.
Definition clear_ant (i a : nat) (f : arr bool) (w : index -> Qc) : index -> Qc := fun ix =>
  match ix with
  | [b; j; t; p] =>
      if (b =? a)%nat && (p =? i)%nat
      then (w ix * b2q (negb (and_rows_cols (nth 1 (shape f) 0%nat) (nth 2 (shape f) 0%nat)
                                (fun j t => at_ f [a; j; t; i]) j t)))%Qc
      else w ix
  | _ => w ix
  end.
Definition as_rows (u : mobj) : bflag :=
  mkb (o_time u) (o_ant1 u) (o_ant2 u) (o_bl u) (o_freq u) (o_pols u) 0%nat (o_Nants u) 0%nat (fun _ _ _ : nat => false).
Definition flag_weights (u : mobj) (f : arr bool) : result (index -> Qc) :=
  let one := fun _ : index => 1%Qc in
  let pols := seq 0 (pol_size (o_pols u)) in
  match o_type u with
  | TypeWaterfall => Ok (fold_left (fun w i => clear_wf i f w) pols one)
  | TypeBaseline =>
      match pols with
      | [] => Ok one
      | _ =>
          do pairs <- f_antpairs (as_rows u);
          Ok (fold_left (fun w i =>
                fold_left (fun w p => clear_pair i (f_pair_rows (as_rows u) (fst p) (snd p)) f w) pairs w) pols one)
      end
  | TypeAntenna =>
      Ok (fold_left (fun w i => fold_left (fun w a => clear_ant i a f w) (seq 0 (nth 0 (shape f) 0%nat)) w) pols one)
  end.

(** uvflag.py:1830-1903 *)
Definition as_metric (f : arr bool) : arr num := mkarr (shape f) (fun ix => Fin (b2q (at_ f ix))).
Definition to_metric (run_check convert_wgts : bool) (u : mobj) : result mobj :=
  match o_mode u with
  | Metrics _ _ _ => Ok u
  | Flags f =>
      do w <- (if convert_wgts then flag_weights u f else Ok (fun _ : index => 1%Qc));
      checked run_check (with_mode (Metrics (as_metric f) (mkarr (shape f) w) None) u)
  end.

(** uvflag.py:2215-2272.  flag_array += other.flag_array: the array of the other
    object is broadcast to the shape of the first one. *)
Fixpoint fits (theirs mine : list nat) : bool :=
  match theirs, mine with
  | [], _ => true
  | d :: theirs, n :: mine => ((d =? n)%nat || (d =? 1)%nat) && fits theirs mine
  | _ :: _, [] => false
  end.
Fixpoint aligned (theirs : list nat) (ix : index) : index :=
  match theirs, ix with
  | [], _ => []
  | d :: theirs, i :: ix => bpos d i :: aligned theirs ix
  | _ :: _, [] => []
  end.
Definition or_flags (run_check : bool) (u v : mobj) : result mobj :=
  match o_mode u, o_mode v with
  | Flags f, Flags g =>
      if fits (rev (shape g)) (rev (shape f))
      then checked run_check (with_mode (Flags (mkarr (shape f)
             (fun ix => at_ f ix || at_ g (rev (aligned (rev (shape g)) (rev ix)))))) u)
      else Err ValueError
  | _, _ => Err ValueError
  end.

(** uvflag.py:2302-2372.  The method is in lower case. *)
Definition weights_back (a : arr num) : arr Qc := mkarr (shape a) (fun ix => fin (at_ a ix)).
Definition metric_of (u : mobj) : option (arr num * arr Qc) :=
  match o_mode u with Metrics m w _ => Some (m, w) | Flags _ => None end.
Definition stack {A} (d : arr A) (l : list (arr A)) : arr A :=
  mkarr (length l :: shape (nth 0 l d))
    (fun ix => match ix with k :: ix => at_ (nth k l d) ix | [] => at_ d [] end).
Fixpoint all_metrics (l : list mobj) : option (list (arr num * arr Qc)) :=
  match l with
  | [] => Some []
  | u :: l => match metric_of u, all_metrics l with Some p, Some l => Some (p :: l) | _, _ => None end
  end.
Definition combine_metrics (run_check : bool) (method : string) (u : mobj) (others : list mobj) : result mobj :=
  match o_mode u, all_metrics others with
  | Metrics m w sq, Some l =>
      if negb (forallb (fun p => shape_eqb (shape m) (shape (fst p))) l) then Err ValueError
      else
        let darray := stack m (m :: map fst l) in
        let warray := stack w (w :: map snd l) in
        do outs <- Collapse.collapse (Nums darray) method (Some (at_ warray)) (AxisInt 0) true false;
        match outs with
        | [Nums d; Nums w] => checked run_check (with_mode (Metrics d (weights_back w) sq) u)
        | _ => Err ValueError
        end
  | _, _ => Err ValueError
  end.

(** The array of the mode, and the weights collapse_pol and to_waterfall give to
    utils.collapse *)
Definition darr (m : mode) : array := match m with Flags f => Bools f | Metrics m _ _ => Nums m end.
Definition darr_shape (m : mode) : list nat := match m with Flags f => shape f | Metrics m _ _ => shape m end.
Definition weights_in (m : mode) : option (index -> Qc) := match m with Flags _ => None | Metrics _ w _ => Some (at_ w) end.

(** uvflag.py:1197-1201, 1311-1319 with _set_mode_metric (652-662): the new arrays.
    Weights are kept in metric mode only; an object that was in flag mode gets ones. *)
Definition is_bool_method (s : string) : bool := (String.eqb s "or" || String.eqb s "and")%string.
Definition astype_bool (x : num) : bool :=
  match x with Fin q => negb (Qc_eq_bool q 0) | Root q => negb (Qc_eq_bool q 0) | Inf _ => true end.
Definition settle (method : string) (m : mode) (d : arr num) (w : arr Qc) (sq : option (arr Qc)) : mode :=
  match m with
  | Flags _ => if is_bool_method method then Flags (mkarr (shape d) (fun ix => astype_bool (at_ d ix)))
               else Metrics d (ones d) None
  | Metrics _ _ _ => Metrics d w sq
  end.
Definition squares_of (m : mode) : option (arr Qc) := match m with Metrics _ _ sq => sq | Flags _ => None end.

(** uvflag.py:1137-1211.  weights_square_array is left as it is. *)
Definition pol_list (p : fpols) : list Z := match p with Pols l => l | Joined l => l end.
Definition keep_axis {A} (a : arr A) : arr A := mkarr (shape a ++ [1%nat]) (fun ix => at_ a (removelast ix)).
Definition with_pols (p : fpols) (m : mode) (u : mobj) : mobj :=
  mkM (o_type u) (o_Nants u) (o_ants u) (o_ant1 u) (o_ant2 u) (o_bl u) (o_time u) (o_lst u) (o_freq u) p m.
Definition collapse_pol (run_check : bool) (method : string) (u : mobj) : result mobj :=
  if (1 <? pol_size (o_pols u))%nat then
    do outs <- Collapse.collapse (darr (o_mode u)) method (weights_in (o_mode u)) (AxisInt (-1)) true false;
    match outs with
    | [d; Nums w] =>
        checked run_check
          (with_pols (Joined (pol_list (o_pols u)))
             (settle method (o_mode u) (keep_axis (as_nums d)) (keep_axis (weights_back w)) (squares_of (o_mode u))) u)
    | _ => Err ValueError
    end
  else Ok u.

(** uvflag.py:1213-1336.  [take_rows] is indexing by a boolean array along the first
    axis; [outs_at] gathers what the loop over the times assigns. *)
Definition take_rows {A} (rows : list nat) (a : arr A) : arr A :=
  mkarr (length rows :: tl (shape a)) (fun ix => match ix with k :: ix => at_ a (nth k rows 0%nat :: ix) | [] => at_ a [] end).
Definition take_array (rows : list nat) (a : array) : array :=
  match a with Bools a => Bools (take_rows rows a) | Nums a => Nums (take_rows rows a) end.
Definition outs_at (s : list nat) (l : list (arr num)) : arr num :=
  mkarr s (fun ix => match ix with i :: ix => match nth_error l i with Some a => at_ a ix | None => Fin 0 end | [] => Fin 0 end).
Definition swap01 {A} (a : arr A) : arr A :=
  mkarr (match shape a with x :: y :: s => y :: x :: s | s => s end)
    (fun ix => match ix with x :: y :: ix => at_ a (y :: x :: ix) | _ => at_ a ix end).
Definition three (rws : bool) (outs : list array) : result (arr num * arr num * arr num) :=
  match outs with
  | [d; Nums w] => if rws then Err ValueError else Ok (as_nums d, w, w)
  | [d; Nums w; Nums s] => if rws then Ok (as_nums d, w, s) else Err ValueError
  | _ => Err ValueError
  end.
Definition first_lsts (u : mobj) : list Z :=
  map (fun t => match rows_at (o_time u) t with r :: _ => nth r (o_lst u) 0 | [] => 0 end) (uniqueZ (o_time u)).
Definition rows_out (method : string) (rws : bool) (u : mobj) : result (list (arr num * arr num * arr num)) :=
  mapM (fun t =>
    let rows := rows_at (o_time u) t in
    do outs <- Collapse.collapse (take_array rows (darr (o_mode u))) method
      (match o_mode u with Flags _ => None | Metrics _ w _ => Some (at_ (take_rows rows w)) end) (AxisInt 0) true rws;
    three rws outs) (uniqueZ (o_time u)).
Definition as_waterfall (times lsts : list Z) (m : mode) (u : mobj) : mobj :=
  mkM TypeWaterfall (o_Nants u) [] [] [] [] times lsts (o_freq u) (o_pols u) m.
Definition to_waterfall (run_check : bool) (method : string) (keep_pol rws : bool) (u : mobj) : result mobj :=
  match o_type u, (keep_pol || (pol_size (o_pols u) =? 1)%nat) with
  | TypeWaterfall, true => Ok u
  | _, _ =>
      do u <- (if negb keep_pol && (1 <? pol_size (o_pols u))%nat then collapse_pol true method u else Ok u);
      do v <- match o_type u with
              | TypeAntenna =>
                  do outs <- Collapse.collapse (darr (o_mode u)) method (weights_in (o_mode u)) (AxisTuple [0]) true false;
                  do p <- three false outs;
                  Ok (as_waterfall (o_time u) (o_lst u)
                        (settle method (o_mode u) (swap01 (fst (fst p))) (swap01 (weights_back (snd (fst p)))) (squares_of (o_mode u))) u)
              | TypeBaseline =>
                  do l <- rows_out method rws u;
                  let s := [length (uniqueZ (o_time u)); length (o_freq u); pol_size (o_pols u)] in
                  Ok (as_waterfall (uniqueZ (o_time u)) (first_lsts u)
                        (settle method (o_mode u) (outs_at s (map (fun p => fst (fst p)) l))
                           (weights_back (outs_at s (map (fun p => snd (fst p)) l)))
                           (if rws then Some (weights_back (outs_at s (map snd l))) else squares_of (o_mode u))) u)
              | TypeWaterfall => Ok (as_waterfall (o_time u) (o_lst u) (o_mode u) u)
              end;
      checked run_check v
  end.
