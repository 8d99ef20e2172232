(** What it means for records of a UVData object to move, and for an object to be
    self-consistent.  Uses only the object's attributes. *)
From Coq Require Import List ZArith Bool.
From Verif Require Import Lib.Py Lib.Cube Spec.BltSpec Spec.BlsSpec Model.UVData.
Import ListNotations.
Open Scope Z_scope.

(** Every array on the baseline-time axis has the same length. *)
Definition blt_shaped (u : uvd) : Prop :=
  let n := length (time_array u) in
  length (lst_array u) = n /\ length (ant_1_array u) = n /\ length (ant_2_array u) = n /\
  length (baseline_array u) = n /\ length (integration_time u) = n /\ length (uvw_array u) = n /\
  length (phase_center_id_array u) = n /\ length (phase_center_app_ra u) = n /\
  length (phase_center_app_dec u) = n /\ length (phase_center_frame_pa u) = n.

Definition freq_shaped (u : uvd) : Prop :=
  let n := length (freq_array u) in
  length (channel_width u) = n /\ length (flex_spw_id_array u) = n.

(** Row [i'] of [u'] is, in every array, row [i] of [u]. *)
Definition row_copied (u : uvd) (i : nat) (u' : uvd) (i' : nat) : Prop :=
  nth i' (time_array u') 0 = nth i (time_array u) 0 /\
  nth i' (lst_array u') 0 = nth i (lst_array u) 0 /\
  nth i' (ant_1_array u') 0 = nth i (ant_1_array u) 0 /\
  nth i' (ant_2_array u') 0 = nth i (ant_2_array u) 0 /\
  nth i' (baseline_array u') 0 = nth i (baseline_array u) 0 /\
  nth i' (integration_time u') 0 = nth i (integration_time u) 0 /\
  nth i' (uvw_array u') (0, 0, 0) = nth i (uvw_array u) (0, 0, 0) /\
  nth i' (phase_center_id_array u') 0 = nth i (phase_center_id_array u) 0 /\
  nth i' (phase_center_app_ra u') 0 = nth i (phase_center_app_ra u) 0 /\
  nth i' (phase_center_app_dec u') 0 = nth i (phase_center_app_dec u) 0 /\
  nth i' (phase_center_frame_pa u') 0 = nth i (phase_center_frame_pa u) 0 /\
  forall j k, data_array u' i' j k = data_array u i j k /\
              flag_array u' i' j k = flag_array u i j k /\
              nsample_array u' i' j k = nsample_array u i j k.

(** Polarization [k'] of [u'] is, in every array, polarization [k] of [u]. *)
Definition pol_copied (u : uvd) (k : nat) (u' : uvd) (k' : nat) : Prop :=
  nth k' (polarization_array u') 0 = nth k (polarization_array u) 0 /\
  forall i j, data_array u' i j k' = data_array u i j k /\
              flag_array u' i j k' = flag_array u i j k /\
              nsample_array u' i j k' = nsample_array u i j k.

(** Channel [j'] of [u'] is, in every array, channel [j] of [u]. *)
Definition chan_copied (u : uvd) (j : nat) (u' : uvd) (j' : nat) : Prop :=
  nth j' (freq_array u') 0 = nth j (freq_array u) 0 /\
  nth j' (channel_width u') 0 = nth j (channel_width u) 0 /\
  nth j' (flex_spw_id_array u') 0 = nth j (flex_spw_id_array u) 0 /\
  forall i k, data_array u' i j' k = data_array u i j k /\
              flag_array u' i j' k = flag_array u i j k /\
              nsample_array u' i j' k = nsample_array u i j k.

Definition same_freq_axis (u u' : uvd) : Prop :=
  freq_array u' = freq_array u /\ channel_width u' = channel_width u /\
  flex_spw_id_array u' = flex_spw_id_array u /\ spw_array u' = spw_array u.

(** The 1-d arrays of the blt axis are the same. *)
Definition same_blt_axis (u u' : uvd) : Prop :=
  time_array u' = time_array u /\ lst_array u' = lst_array u /\
  ant_1_array u' = ant_1_array u /\ ant_2_array u' = ant_2_array u /\
  baseline_array u' = baseline_array u /\ integration_time u' = integration_time u /\
  uvw_array u' = uvw_array u /\ phase_center_id_array u' = phase_center_id_array u /\
  phase_center_app_ra u' = phase_center_app_ra u /\ phase_center_app_dec u' = phase_center_app_dec u /\
  phase_center_frame_pa u' = phase_center_frame_pa u.

(** The value a sort key has in row [i]. *)
Definition axis_value (k : axis_key) (u : uvd) (i : nat) : Z :=
  match k with
  | KTime => nth i (time_array u) 0
  | KBaseline => nth i (baseline_array u) 0
  | KAnt1 => nth i (ant_1_array u) 0
  | KAnt2 => nth i (ant_2_array u) 0
  | KBda => nth i (integration_time u) 0
  end.

Fixpoint in_order (ks : list axis_key) (u : uvd) (i j : nat) : Prop :=
  match ks with
  | [] => True
  | k :: ks => axis_value k u i < axis_value k u j \/
               (axis_value k u i = axis_value k u j /\ in_order ks u i j)
  end.

Definition is_auto (u : uvd) (i : nat) : Prop := nth i (ant_1_array u) 0 = nth i (ant_2_array u) 0.

(** The whole axis is in the given order; with [autos_first], all
    auto-correlations come before all cross-correlations and each of the two
    groups is in order. *)
Definition axis_sorted (autos_first : bool) (ks : list axis_key) (u : uvd) : Prop :=
  forall i j, (i < j < length (time_array u))%nat ->
  if autos_first
  then (is_auto u i /\ ~ is_auto u j) \/ ((is_auto u i <-> is_auto u j) /\ in_order ks u i j)
  else in_order ks u i j.

(** Nbls and Ntimes count the distinct baselines and times (enforced by check). *)
Definition counts_ok (u : uvd) : Prop :=
  distinct_count (baseline_array u) (Nbls u) /\ distinct_count (time_array u) (Ntimes u).

(** No baseline is recorded twice at the same time. *)
Definition records_distinct (u : uvd) : Prop :=
  forall i j, (i < length (time_array u))%nat -> (j < length (time_array u))%nat ->
  nth i (time_array u) 0 = nth j (time_array u) 0 ->
  nth i (baseline_array u) 0 = nth j (baseline_array u) 0 -> i = j.

(** If the object claims to be rectangular it is, with the claimed layout. *)
Definition rect_truthful (u : uvd) : Prop :=
  blts_are_rectangular u = Some true ->
  exists ts bs, length ts = Ntimes u /\ length bs = Nbls u /\
    product_layout (time_array u) (baseline_array u) ts bs (time_axis_faster_than_bls u).
