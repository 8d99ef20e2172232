(** Redundant groups of a UVData object and their inflation:
    /repo/src/pyuvdata/uvdata/uvdata.py:8524-8644 (get_redundancies with
    use_antpos and conjugate_bls) and 8881-8985 (inflate_by_redundancy).  The
    telescope is given by its antenna numbers and their positions in metres in
    the local east-north-up frame, as integers. *)
From Coq Require Import List ZArith Bool.
From Verif Require Import Lib.Py Lib.Np Lib.Cube Spec.BltSpec Spec.RedundancySpec.
From Verif Require Import Model.Bls Model.UVData Model.Reorder Model.Redundancy Model.Hdf5.
Import ListNotations.
Open Scope Z_scope.

(** The position of an antenna number, telescope.get_enu_antpos at the index of
    the number (uvdata.py:3626-3634).  Simplification: an antenna that the
    telescope does not list is put at the origin; the code raises ValueError. *)
Definition antpos_of (numbers : list Z) (positions : list vec3) (a : Z) : vec3 :=
  match index_of Z.eqb a numbers with
  | Some i => nth i positions (0, 0, 0)
  | None => (0, 0, 0)
  end.

(** self.conjugate_bls("u>0", uvw_tol=tol) *)
Definition conjugate_forward (numbers : list Z) (positions : list vec3) (tol : Z) (u : uvd) : result uvd :=
  conjugate_bls UGt0 tol (conj_coords (Some (antpos_of numbers positions)) u) u.

(** uvdata.py:8598-8621: self.get_redundancies(tol, use_antpos=True,
    conjugate_bls=True, use_grid_alg=grid), with the changed object *)
Definition get_redundancies_antpos (numbers : list Z) (positions : list vec3) (tol : Z) (grid : bool) (u : uvd)
    : result (list (list Z) * uvd) :=
  do (gps, _) <- get_antenna_redundancies numbers positions tol true grid;
  do u <- conjugate_forward numbers positions tol u;
  Ok (gps, u).

(** uvdata.py:8927-8936: [group_blti] as a list by group number, [None] for a
    group without an entry *)
Definition group_rows (bls : list Z) (gp : list Z) : option (list nat) :=
  match find (fun bl => isinZ bl bls) gp with
  | Some bl => Some (filter (fun i => bl =? nth i bls 0) (seq 0 (length bls)))
  | None => None
  end.

(** uvdata.py:8911-8913, the pairs [(group_index, bl)] in order *)
Definition stacked (gps : list (list Z)) : list (nat * Z) :=
  flat_map (fun p : nat * list Z => map (fun bl => (fst p, bl)) (snd p)) (combine (seq 0 (length gps)) gps).

(** [arr[c : c + len(vals)] = vals]: a slice cut short by the end of the array
    does not fit the values *)
Definition slice_assign {A} (c : nat) (vals : list A) (arr : list A) : result (list A) :=
  if (c + length vals <=? length arr)%nat
  then Ok (firstn c arr ++ vals ++ skipn (c + length vals) arr)
  else Err ValueError.

(** uvdata.py:8929-8937: Nblts_full *)
Definition full_size (gps : list (list Z)) (rows : list (option (list nat))) : nat :=
  fold_left (fun n (p : list Z * option (list nat)) =>
    match snd p with Some r => (n + length r * length (fst p))%nat | None => n end)
    (combine gps rows) 0%nat.

(** uvdata.py:8942-8951: one turn of the loop; the state is blt_map,
    full_baselines and counter *)
Definition fill_step (rows : list (option (list nat))) (st : list nat * list Z * nat) (p : nat * Z)
    : result (list nat * list Z * nat) :=
  let '(blt_map, full_baselines, counter) := st in
  match nth (fst p) rows None with
  | None => Ok st
  | Some r =>
      do blt_map <- slice_assign counter r blt_map;
      do full_baselines <- slice_assign counter (repeat (snd p) (length r)) full_baselines;
      Ok (blt_map, full_baselines, counter + length r)%nat
  end.

(** uvdata.py:8911-8951: blt_map and full_baselines *)
Definition inflate_map (gps : list (list Z)) (bls : list Z) : result (list nat * list Z) :=
  let rows := map (group_rows bls) gps in
  let n := full_size gps rows in
  do (m, b, c) <- foldM (fill_step rows) (stacked gps) (repeat 0%nat n, repeat 0 n, 0%nat);
  Ok (m, b).

(** uvdata.py:8957-8979.  Nants_data is not part of the model; Ntimes, blt_order
    and the rectangularity of the axis keep their values. *)
Definition inflate_apply (m : list nat) (full : list Z) (u : uvd) : result uvd :=
  do (a1, a2) <- baseline_to_antnums full (Nants_telescope u);
  Ok {| time_array := take 0 (time_array u) m;
        lst_array := take 0 (lst_array u) m;
        ant_1_array := a1;
        ant_2_array := a2;
        baseline_array := full;
        integration_time := take 0 (integration_time u) m;
        uvw_array := take (0, 0, 0) (uvw_array u) m;
        phase_center_id_array := take 0 (phase_center_id_array u) m;
        phase_center_app_ra := take 0 (phase_center_app_ra u) m;
        phase_center_app_dec := take 0 (phase_center_app_dec u) m;
        phase_center_frame_pa := take 0 (phase_center_frame_pa u) m;
        freq_array := freq_array u;
        channel_width := channel_width u;
        flex_spw_id_array := flex_spw_id_array u;
        spw_array := spw_array u;
        polarization_array := polarization_array u;
        data_array := take0 m (data_array u);
        flag_array := take0 m (flag_array u);
        nsample_array := take0 m (nsample_array u);
        Nbls := length (uniqueZ full);
        Ntimes := Ntimes u;
        blt_order := blt_order u;
        blts_are_rectangular := blts_are_rectangular u;
        time_axis_faster_than_bls := time_axis_faster_than_bls u;
        Nants_telescope := Nants_telescope u |}.

(** uvdata.py:8881-8985 *)
Definition inflate_by_redundancy (numbers : list Z) (positions : list vec3) (tol : Z) (grid : bool)
    (order : blt_request) (minor : option axis_key) (u : uvd) : result uvd :=
  do u <- conjugate_forward numbers positions 0 u;
  do (gps, u) <- get_redundancies_antpos numbers positions tol grid u;
  do (m, full) <- inflate_map gps (baseline_array u);
  do u <- inflate_apply m full u;
  reorder_blts order minor false None u.
