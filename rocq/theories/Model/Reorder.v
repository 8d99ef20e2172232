(** Conjugating baselines and reordering the axes of a UVData object:
    /repo/src/pyuvdata/uvdata/uvdata.py *)
From Coq Require Import List ZArith Bool Arith.
From Verif Require Import Lib.Py Lib.Np Lib.Cube Lib.Sorting Spec.BltSpec
  Model.Bls Model.Pol Model.BltAxis Model.UVData.
Import ListNotations.
Open Scope Z_scope.

(** Fancy assignment [arr[idx] = vals]; a later entry wins. *)
Definition assign_at {A} (idx : list nat) (vals : list A) (arr : list A) : list A :=
  fold_left (fun a p => set_nth (fst p) (snd p) a) (combine idx vals) arr.

(** uvdata.py:3780-3806 *)
Definition set_rectangularity (force : bool) (u : uvd) : result uvd :=
  match blts_are_rectangular u, force with
  | Some _, false => Ok u
  | _, _ =>
      do (rect, time) <- determine_rectangularity (time_array u) (baseline_array u)
                           (Nbls u) (Ntimes u) (blt_order u);
      Ok (set_time_axis_faster_than_bls time (set_blts_are_rectangular (Some rect) u))
  end.

Inductive conj_convention :=
| Ant1LtAnt2 | Ant2LtAnt1 | ULt0 | UGt0 | VLt0 | VGt0 | ConjIndex (idx : list Z).

Definition nneg (v : Z * Z * Z) : Z * Z * Z := let '(x, y, z) := v in (- x, - y, - z).

(** uvdata.py:3636-3677: the test selecting a row, given its antennas and the
    coordinates to use.  [np.isclose(x, 0, atol=tol)] is |x| <= tol. *)
Definition conj_test (conv : conj_convention) (tol : Z) (a1 a2 : Z) (v : Z * Z * Z) : bool :=
  let '(x, y, z) := v in
  let zero c := Z.abs c <=? tol in
  match conv with
  | Ant1LtAnt2 => a1 >? a2
  | Ant2LtAnt1 => a2 >? a1
  | ULt0 => (x >? tol) || ((y >? tol) && zero x) || ((z >? tol) && zero x && zero y)
  | UGt0 => (x <? - tol) || ((y <? - tol) && zero x) || ((z <? - tol) && zero x && zero y)
  | VLt0 => (y >? tol) || ((x >? tol) && zero y) || ((z >? tol) && zero x && zero y)
  | VGt0 => (y <? - tol) || ((x <? - tol) && zero y) || ((z <? - tol) && zero x && zero y)
  | ConjIndex _ => false
  end.

(** uvdata.py:3602-3679: the rows to conjugate.  [coords] are the coordinates
    used for the u/v conventions: the uvw array, or per row the difference of the
    antennas' ENU positions when use_enu is set. *)
Definition conj_rows (conv : conj_convention) (tol : Z) (coords : list (Z * Z * Z)) (u : uvd)
    : result (list nat) :=
  match conv with
  | ConjIndex [] => Err ValueError
  | ConjIndex idx =>
      if existsb (fun i => (Z.of_nat (Nblts u) <=? i) || (i <? 0)) idx then Err ValueError
      else Ok (map Z.to_nat idx)
  | _ => Ok (nonzero (fun p => conj_test conv tol (fst (fst p)) (snd (fst p)) (snd p))
                     (combine (combine (ant_1_array u) (ant_2_array u)) coords))
  end.

(** uvdata.py:3623-3634: the coordinates.  [enu] gives the antennas' ENU positions
    (telescope.get_enu_antpos) when use_enu is set.  Simplification: every antenna
    has a position (otherwise the list lookup raises). *)
Definition conj_coords (enu : option (Z -> Z * Z * Z)) (u : uvd) : list (Z * Z * Z) :=
  match enu with
  | None => uvw_array u
  | Some pos =>
      map (fun p => let '(x2, y2, z2) := pos (snd p) in let '(x1, y1, z1) := pos (fst p) in
                    (x2 - x1, y2 - y1, z2 - z1))
          (combine (ant_1_array u) (ant_2_array u))
  end.

(** uvdata.py:3687-3691 *)
Definition conj_data (idx : list nat) (new_pol_inds : list nat) (npols : nat) (orig : cube cplx) : cube cplx :=
  fold_left (fun d p i j k => if isinN i idx && (k =? nth p new_pol_inds 0)%nat
                              then cconj (orig i j p) else d i j k)
            (seq 0 npols) orig.

(** uvdata.py:3681-3701.  [self.antnums_to_baseline] is called without
    attempt256; flag_array and nsample_array are not touched, and neither are
    blt_order, blts_are_rectangular and time_axis_faster_than_bls. *)
Definition conj_apply (idx : list nat) (u : uvd) : result uvd :=
  match idx with
  | [] => Ok u
  | _ =>
      do npi <- reorder_conj_pols (polarization_array u);
      let ant_1_vals := take 0 (ant_1_array u) idx in
      let ant_2_vals := take 0 (ant_2_array u) idx in
      let ant_1 := assign_at idx ant_2_vals (ant_1_array u) in
      let ant_2 := assign_at idx ant_1_vals (ant_2_array u) in
      do bl <- antnums_to_baseline (take 0 ant_1 idx) (take 0 ant_2 idx)
                 (Some (Nants_telescope u)) false false;
      let bls := assign_at idx bl (baseline_array u) in
      Ok {| time_array := time_array u;
         lst_array := lst_array u;
         ant_1_array := ant_1;
         ant_2_array := ant_2;
         baseline_array := bls;
         integration_time := integration_time u;
         uvw_array := assign_at idx (map nneg (take (0, 0, 0) (uvw_array u) idx)) (uvw_array u);
         phase_center_id_array := phase_center_id_array u;
         phase_center_app_ra := phase_center_app_ra u;
         phase_center_app_dec := phase_center_app_dec u;
         phase_center_frame_pa := phase_center_frame_pa u;
         freq_array := freq_array u;
         channel_width := channel_width u;
         flex_spw_id_array := flex_spw_id_array u;
         spw_array := spw_array u;
         polarization_array := polarization_array u;
         data_array := conj_data idx npi (Npols u) (data_array u);
         flag_array := flag_array u;
         nsample_array := nsample_array u;
         Nbls := length (uniqueZ bls);
         Ntimes := Ntimes u;
         blt_order := blt_order u;
         blts_are_rectangular := blts_are_rectangular u;
         time_axis_faster_than_bls := time_axis_faster_than_bls u;
         Nants_telescope := Nants_telescope u |}
  end.

(** uvdata.py:3574-3701 *)
Definition conjugate_bls (conv : conj_convention) (tol : Z) (coords : list (Z * Z * Z)) (u : uvd) : result uvd :=
  do idx <- conj_rows conv tol coords u; conj_apply idx u.

(** Indexing the polarization axis: uvdata.py:3765-3770 *)
Definition take_pols (idx : list nat) (u : uvd) : uvd :=
  {| time_array := time_array u;
     lst_array := lst_array u;
     ant_1_array := ant_1_array u;
     ant_2_array := ant_2_array u;
     baseline_array := baseline_array u;
     integration_time := integration_time u;
     uvw_array := uvw_array u;
     phase_center_id_array := phase_center_id_array u;
     phase_center_app_ra := phase_center_app_ra u;
     phase_center_app_dec := phase_center_app_dec u;
     phase_center_frame_pa := phase_center_frame_pa u;
     freq_array := freq_array u;
     channel_width := channel_width u;
     flex_spw_id_array := flex_spw_id_array u;
     spw_array := spw_array u;
     polarization_array := take 0 (polarization_array u) idx;
     data_array := take2 idx (data_array u);
     flag_array := take2 idx (flag_array u);
     nsample_array := take2 idx (nsample_array u);
     Nbls := Nbls u;
     Ntimes := Ntimes u;
     blt_order := blt_order u;
     blts_are_rectangular := blts_are_rectangular u;
     time_axis_faster_than_bls := time_axis_faster_than_bls u;
     Nants_telescope := Nants_telescope u |}.

Inductive pol_request := PolIndex (idx : list Z) | PolOrder (o : pol_order).

(** uvdata.py:3703-3770 (run_check=False) *)
Definition reorder_pols (req : pol_request) (u : uvd) : result uvd :=
  match req with
  | PolIndex idx =>
      if negb (length idx =? Npols u)%nat || (length idx =? 0)%nat
         || existsb (fun i => (i <? 0) || (Z.of_nat (Npols u) <=? i)) idx
      then Err ValueError
      else Ok (take_pols (map Z.to_nat idx) u)
  | PolOrder o =>
      do idx <- determine_pol_order (polarization_array u) o;
      Ok (take_pols idx u)
  end.

(** Indexing the blt axis: uvdata.py:4030-4046 *)
Definition take_blts (idx : list nat) (u : uvd) : uvd :=
  {| time_array := take 0 (time_array u) idx;
     lst_array := take 0 (lst_array u) idx;
     ant_1_array := take 0 (ant_1_array u) idx;
     ant_2_array := take 0 (ant_2_array u) idx;
     baseline_array := take 0 (baseline_array u) idx;
     integration_time := take 0 (integration_time u) idx;
     uvw_array := take (0, 0, 0) (uvw_array u) idx;
     phase_center_id_array := take 0 (phase_center_id_array u) idx;
     phase_center_app_ra := take 0 (phase_center_app_ra u) idx;
     phase_center_app_dec := take 0 (phase_center_app_dec u) idx;
     phase_center_frame_pa := take 0 (phase_center_frame_pa u) idx;
     freq_array := freq_array u;
     channel_width := channel_width u;
     flex_spw_id_array := flex_spw_id_array u;
     spw_array := spw_array u;
     polarization_array := polarization_array u;
     data_array := take0 idx (data_array u);
     flag_array := take0 idx (flag_array u);
     nsample_array := take0 idx (nsample_array u);
     Nbls := Nbls u;
     Ntimes := Ntimes u;
     blt_order := blt_order u;
     blts_are_rectangular := blts_are_rectangular u;
     time_axis_faster_than_bls := time_axis_faster_than_bls u;
     Nants_telescope := Nants_telescope u |}.

(** [np.lexsort((arr3, arr2, arr1))]: sort by arr1, then arr2, then arr3; ties
    keep their order *)
Definition lex3_leb (x y : Z * Z * Z) : bool :=
  let '(a, b, c) := x in let '(a', b', c') := y in
  (a <? a') || ((a =? a') && ((b <? b') || ((b =? b') && (c <=? c')))).
Definition lexsort3 (arr3 arr2 arr1 : list Z) : list nat :=
  argsort_by (fun i j => lex3_leb (nth i arr1 0, nth i arr2 0, nth i arr3 0)
                                  (nth j arr1 0, nth j arr2 0, nth j arr3 0)) (length arr1).

Inductive blt_request := BltIndex (idx : list Z) | BltKey (k : axis_key) | BltOther.

(** uvdata.py:3902-3939: validation and default of the minor order *)
Definition minor_of (order : axis_key) (minor : option axis_key) : result (option axis_key) :=
  let minor := match minor with Some m => if key_eqb m order then None else Some m | None => None end in
  match minor with
  | Some KBda => Err ValueError
  | Some m =>
      match order, m with
      | KBda, _ => Err ValueError
      | KBaseline, KAnt1 | KBaseline, KAnt2 => Err ValueError
      | _, _ => Ok (Some m)
      end
  | None =>
      Ok (match order with
          | KTime => Some KBaseline | KAnt1 => Some KAnt2 | KAnt2 => Some KAnt1
          | KBaseline => Some KTime | KBda => None end)
  end.

(** uvdata.py:3979-4024: the three sort keys *)
Definition sort_keys (order : axis_key) (minor : option axis_key) (u : uvd) : list Z * list Z * list Z :=
  match order with
  | KTime =>
      match minor with
      | Some KAnt1 => (time_array u, ant_1_array u, ant_2_array u)
      | Some KAnt2 => (time_array u, ant_2_array u, ant_1_array u)
      | _ => (time_array u, baseline_array u, baseline_array u)
      end
  | KAnt1 =>
      match minor with
      | Some KTime => (ant_1_array u, time_array u, ant_2_array u)
      | Some KAnt2 => (ant_1_array u, ant_2_array u, time_array u)
      | _ => (ant_1_array u, baseline_array u, time_array u)
      end
  | KAnt2 =>
      match minor with
      | Some KTime => (ant_2_array u, time_array u, ant_1_array u)
      | Some KAnt1 => (ant_2_array u, ant_1_array u, time_array u)
      | _ => (ant_2_array u, baseline_array u, time_array u)
      end
  | KBaseline => (baseline_array u, time_array u, time_array u)
  | KBda => (integration_time u, baseline_array u, time_array u)
  end.

(** uvdata.py:3962-3968 *)
Definition autos_split (autos_first : bool) (u : uvd) : list (list nat) :=
  let pairs := combine (ant_1_array u) (ant_2_array u) in
  if autos_first
  then [nonzero (fun p => fst p =? snd p) pairs; nonzero (fun p => negb (fst p =? snd p)) pairs]
  else [seq 0 (Nblts u)].

(** uvdata.py:3970-4026 *)
Definition order_index (order : axis_key) (minor : option axis_key) (autos_first : bool) (u : uvd) : list nat :=
  let '(k1, k2, k3) := sort_keys order minor u in
  concat (map (fun inds_use =>
    take 0%nat inds_use (lexsort3 (take 0 k3 inds_use) (take 0 k2 inds_use) (take 0 k1 inds_use)))
    (autos_split autos_first u)).

(** numpy integer indexing of an axis of length n *)
Definition norm_indices (n : nat) (idx : list Z) : result (list nat) :=
  mapM (fun z => match norm_index n z with Some i => Ok i | None => Err IndexError end) idx.

(** uvdata.py:3824-4048 (run_check=False) *)
Definition reorder_blts (order : blt_request) (minor : option axis_key) (autos_first : bool)
    (conj : option (conj_convention * Z * list (Z * Z * Z))) (u : uvd) : result uvd :=
  do minor <- match order with
              | BltIndex idx =>
                  if negb (length idx =? Nblts u)%nat then Err ValueError
                  else match minor with Some _ => Err ValueError | None => Ok None end
              | BltOther => Err ValueError
              | BltKey k => minor_of k minor
              end;
  do u <- match conj with
          | None => Ok u
          | Some (conv, tol, coords) => conjugate_bls conv tol coords u
          end;
  let u := set_blt_order (match order with
                          | BltKey k => Some (match minor with None => [k] | Some m => [k; m] end)
                          | _ => None end) u in
  do idx <- match order with
            | BltKey k => Ok (order_index k minor autos_first u)
            | BltIndex idx => norm_indices (Nblts u) idx
            | BltOther => Err ValueError
            end;
  set_rectangularity true (take_blts idx u).
