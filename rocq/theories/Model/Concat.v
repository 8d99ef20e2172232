(** fast_concat, /repo/src/pyuvdata/uvdata/uvdata.py:5886-6212.  The objects hold
    data (not metadata_only).  History, filename, Nants_data, warnings and the
    calls of check are not modelled. *)
From Coq Require Import List ZArith Bool Arith QArith.
From Verif Require Import Lib.Py Lib.Np Lib.Cube Lib.Dict Model.UVData Model.Reorder Model.Freq
  Model.PhaseCenter Model.Times Model.Param Model.Add.
Import ListNotations.
Notation length := List.length.
Open Scope Z_scope.

Inductive concat_axis := AxBlt | AxFreq | AxPol.

(** uvdata.py:5989-5999: the catalogs are merged pairwise, into the left one of
    each pair, until one is left.  All objects are changed in place; the result
    is the list of their catalogs and ids.  The recursion halves the list, so its
    length is enough fuel. *)
Fixpoint evens {A} (l : list A) : list A := match l with a :: _ :: t => a :: evens t | _ => l end.
Fixpoint odds {A} (l : list A) : list A := match l with _ :: b :: t => b :: odds t | _ => [] end.
Fixpoint weave {A} (a b : list A) : list A :=
  match a, b with x :: a, y :: b => x :: y :: weave a b | _, [] => a | [], _ => b end.
Fixpoint merge_pairs (pop : list Z -> Z) (ign : bool) (l : list pcobj) : result (list pcobj) :=
  match l with
  | a :: b :: t => do a <- consolidate pop (pc_cat b) ign a; do t <- merge_pairs pop ign t; Ok (a :: b :: t)
  | _ => Ok l
  end.
Fixpoint merge_all (fuel : nat) (pop : list Z -> Z) (ign : bool) (l : list pcobj) : result (list pcobj) :=
  match fuel, l with
  | S fuel, _ :: _ :: _ =>
      do l <- merge_pairs pop ign l;
      do e <- merge_all fuel pop ign (evens l);
      Ok (weave e (odds l))
  | _, _ => Ok l
  end.

Definition pc_of (o : addobj) : pcobj := mkpc (ad_catalog o) (ad_Nphase o) (phase_center_id_array (ad_uvd o)).
Definition with_pc (o : addobj) (s : pcobj) : addobj :=
  mkAddobj (mkFreqobj (set_phase_center_id_array (pc_ids s) (ad_uvd o)) (eq_coeffs (ad_freq o)) (flex_spw_polarization_array (ad_freq o)))
    (pc_cat s) (pc_n s) (ad_telescope o) (ad_vis_units o).

(** The tolerances of the compared parameters *)
Record concat_tols := mkCtols { ct_default : Q * Q; ct_integration : Q * Q; ct_uvw : Q * Q; ct_lst : Q * Q; ct_freq : Q * Q; ct_width : Q * Q }.

(** uvdata.py:6001-6037, 6064-6074 *)
Definition same_arr (t : Q * Q) (a b : list Z) : bool := list_eqb (closeZ t) a b.
Definition same_rows (t : concat_tols) (u v : uvd) : bool :=
  same_arr (ct_default t) (ant_1_array u) (ant_1_array v) && same_arr (ct_default t) (ant_2_array u) (ant_2_array v) &&
  same_arr (ct_integration t) (integration_time u) (integration_time v) && list_eqb (close3 (ct_uvw t)) (uvw_array u) (uvw_array v) &&
  same_arr (ct_lst t) (lst_array u) (lst_array v) && same_arr (ct_default t) (phase_center_id_array u) (phase_center_id_array v).
Definition concat_compatible (t : concat_tols) (axis : concat_axis) (a b : addobj) : bool :=
  let u := ad_uvd a in let v := ad_uvd b in
  (ad_vis_units a =? ad_vis_units b) && (ad_telescope a =? ad_telescope b) &&
  match axis with
  | AxFreq => same_arr (ct_default t) (polarization_array u) (polarization_array v) && same_rows t u v
  | AxPol => same_arr (ct_freq t) (freq_array u) (freq_array v) && same_arr (ct_width t) (channel_width u) (channel_width v) &&
             same_arr (ct_default t) (flex_spw_id_array u) (flex_spw_id_array v) && same_rows t u v
  | AxBlt => same_arr (ct_freq t) (freq_array u) (freq_array v) &&
             same_arr (ct_default t) (polarization_array u) (polarization_array v) &&
             same_arr (ct_default t) (flex_spw_id_array u) (flex_spw_id_array v)
  end.

(** [np.concatenate]: index [i] of the result is index [snd] of block [fst] *)
Fixpoint locate (sizes : list nat) (i : nat) : nat * nat :=
  match sizes with
  | [] => (O, i)
  | n :: t => if (i <? n)%nat then (O, i) else let '(b, o) := locate t (i - n)%nat in (S b, o)
  end.
Definition cat0 {A} (get : uvd -> cube A) (d : uvd) (l : list uvd) : cube A :=
  fun i j k => let '(b, o) := locate (map Nblts l) i in get (nth b l d) o j k.
Definition cat1 {A} (get : uvd -> cube A) (d : uvd) (l : list uvd) : cube A :=
  fun i j k => let '(b, o) := locate (map Nfreqs l) j in get (nth b l d) i o k.
Definition cat2 {A} (get : uvd -> cube A) (d : uvd) (l : list uvd) : cube A :=
  fun i j k => let '(b, o) := locate (map Npols l) k in get (nth b l d) i j o.
Definition cat {A} (get : uvd -> list A) (l : list uvd) : list A := concat (map get l).

(** uvdata.py:6077-6191; [l] starts with this *)
Definition join_freq (u : uvd) (l : list uvd) : uvd :=
  let flex := cat flex_spw_id_array l in
  {| time_array := time_array u; lst_array := lst_array u; ant_1_array := ant_1_array u; ant_2_array := ant_2_array u;
     baseline_array := baseline_array u; integration_time := integration_time u; uvw_array := uvw_array u;
     phase_center_id_array := phase_center_id_array u; phase_center_app_ra := phase_center_app_ra u;
     phase_center_app_dec := phase_center_app_dec u; phase_center_frame_pa := phase_center_frame_pa u;
     freq_array := cat freq_array l; channel_width := cat channel_width l; flex_spw_id_array := flex;
     spw_array := take 0 flex (first_positions flex);
     polarization_array := polarization_array u;
     data_array := cat1 data_array u l; flag_array := cat1 flag_array u l; nsample_array := cat1 nsample_array u l;
     Nbls := Nbls u; Ntimes := Ntimes u; blt_order := blt_order u; blts_are_rectangular := blts_are_rectangular u;
     time_axis_faster_than_bls := time_axis_faster_than_bls u; Nants_telescope := Nants_telescope u |}.
Definition join_pol (u : uvd) (l : list uvd) : uvd :=
  {| time_array := time_array u; lst_array := lst_array u; ant_1_array := ant_1_array u; ant_2_array := ant_2_array u;
     baseline_array := baseline_array u; integration_time := integration_time u; uvw_array := uvw_array u;
     phase_center_id_array := phase_center_id_array u; phase_center_app_ra := phase_center_app_ra u;
     phase_center_app_dec := phase_center_app_dec u; phase_center_frame_pa := phase_center_frame_pa u;
     freq_array := freq_array u; channel_width := channel_width u; flex_spw_id_array := flex_spw_id_array u;
     spw_array := spw_array u;
     polarization_array := cat polarization_array l;
     data_array := cat2 data_array u l; flag_array := cat2 flag_array u l; nsample_array := cat2 nsample_array u l;
     Nbls := Nbls u; Ntimes := Ntimes u; blt_order := blt_order u; blts_are_rectangular := blts_are_rectangular u;
     time_axis_faster_than_bls := time_axis_faster_than_bls u; Nants_telescope := Nants_telescope u |}.
Definition join_blt (u : uvd) (l : list uvd) : uvd :=
  {| time_array := cat time_array l; lst_array := cat lst_array l; ant_1_array := cat ant_1_array l; ant_2_array := cat ant_2_array l;
     baseline_array := cat baseline_array l; integration_time := cat integration_time l; uvw_array := cat uvw_array l;
     phase_center_id_array := cat phase_center_id_array l; phase_center_app_ra := cat phase_center_app_ra l;
     phase_center_app_dec := cat phase_center_app_dec l; phase_center_frame_pa := cat phase_center_frame_pa l;
     freq_array := freq_array u; channel_width := channel_width u; flex_spw_id_array := flex_spw_id_array u;
     spw_array := spw_array u;
     polarization_array := polarization_array u;
     data_array := cat0 data_array u l; flag_array := cat0 flag_array u l; nsample_array := cat0 nsample_array u l;
     Nbls := length (uniqueZ (cat baseline_array l)); Ntimes := length (uniqueZ (cat time_array l));
     blt_order := blt_order u; blts_are_rectangular := blts_are_rectangular u;
     time_axis_faster_than_bls := time_axis_faster_than_bls u; Nants_telescope := Nants_telescope u |}.

(** uvdata.py:5886-6212.  flex_spw_polarization_array and eq_coeffs stay those of this. *)
Definition fast_concat (pop : list Z -> Z) (t : concat_tols) (ignore_name : bool) (axis : concat_axis)
    (a : addobj) (others : list addobj) : result addobj :=
  let objs := a :: others in
  do cats <- merge_all (length objs) pop ignore_name (map pc_of objs);
  match map (fun p => with_pc (fst p) (snd p)) (combine objs cats) with
  | [] => Err Undefined
  | a :: others =>
      if negb (forallb (concat_compatible t axis a) others) then Err ValueError
      else
        let u := ad_uvd a in
        let l := map ad_uvd (a :: others) in
        do w <- set_rectangularity true (match axis with AxBlt => join_blt u l | AxFreq => join_freq u l | AxPol => join_pol u l end);
        Ok (mkAddobj (mkFreqobj w (eq_coeffs (ad_freq a)) (flex_spw_polarization_array (ad_freq a)))
              (ad_catalog a) (ad_Nphase a) (ad_telescope a) (ad_vis_units a))
  end.
