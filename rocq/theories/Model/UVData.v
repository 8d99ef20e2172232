(** The parts of a UVData object that the modelled methods read and write:
    /repo/src/pyuvdata/uvdata/uvdata.py:39-604.  Nblts, Nfreqs and Npols are
    the lengths of the corresponding axes.  The object is assumed to hold data
    (not metadata_only).  Telescope data other than the number of antennas,
    histories and extra keywords are not part of this record. *)
From Coq Require Import List ZArith Bool.
From Verif Require Import Lib.Py Lib.Np Lib.Cube Spec.BltSpec.
Import ListNotations.
Open Scope Z_scope.

Record uvd := mkUvd {
  time_array : list Z (* Nblts; Julian dates *);
  lst_array : list Z (* Nblts *);
  ant_1_array : list Z (* Nblts *);
  ant_2_array : list Z (* Nblts *);
  baseline_array : list Z (* Nblts *);
  integration_time : list Z (* Nblts *);
  uvw_array : list (Z * Z * Z) (* Nblts *);
  phase_center_id_array : list Z (* Nblts *);
  phase_center_app_ra : list Z (* Nblts *);
  phase_center_app_dec : list Z (* Nblts *);
  phase_center_frame_pa : list Z (* Nblts *);
  freq_array : list Z (* Nfreqs *);
  channel_width : list Z (* Nfreqs *);
  flex_spw_id_array : list Z (* Nfreqs *);
  spw_array : list Z (* Nspws *);
  polarization_array : list Z (* Npols *);
  data_array : cube cplx (* Nblts, Nfreqs, Npols *);
  flag_array : cube bool (* Nblts, Nfreqs, Npols *);
  nsample_array : cube Z (* Nblts, Nfreqs, Npols *);
  Nbls : nat;
  Ntimes : nat;
  blt_order : option (list axis_key);
  blts_are_rectangular : option bool;
  time_axis_faster_than_bls : bool;
  Nants_telescope : Z }.

(** Shapes *)
Definition Nblts (u : uvd) : nat := length (time_array u).
Definition Nfreqs (u : uvd) : nat := length (freq_array u).
Definition Npols (u : uvd) : nat := length (polarization_array u).

(** Attribute assignment *)
Definition set_time_array (v : list Z) (u : uvd) : uvd :=
  mkUvd v (lst_array u) (ant_1_array u) (ant_2_array u) (baseline_array u) (integration_time u) (uvw_array u) (phase_center_id_array u) (phase_center_app_ra u) (phase_center_app_dec u) (phase_center_frame_pa u) (freq_array u) (channel_width u) (flex_spw_id_array u) (spw_array u) (polarization_array u) (data_array u) (flag_array u) (nsample_array u) (Nbls u) (Ntimes u) (blt_order u) (blts_are_rectangular u) (time_axis_faster_than_bls u) (Nants_telescope u).
Definition set_lst_array (v : list Z) (u : uvd) : uvd :=
  mkUvd (time_array u) v (ant_1_array u) (ant_2_array u) (baseline_array u) (integration_time u) (uvw_array u) (phase_center_id_array u) (phase_center_app_ra u) (phase_center_app_dec u) (phase_center_frame_pa u) (freq_array u) (channel_width u) (flex_spw_id_array u) (spw_array u) (polarization_array u) (data_array u) (flag_array u) (nsample_array u) (Nbls u) (Ntimes u) (blt_order u) (blts_are_rectangular u) (time_axis_faster_than_bls u) (Nants_telescope u).
Definition set_ant_1_array (v : list Z) (u : uvd) : uvd :=
  mkUvd (time_array u) (lst_array u) v (ant_2_array u) (baseline_array u) (integration_time u) (uvw_array u) (phase_center_id_array u) (phase_center_app_ra u) (phase_center_app_dec u) (phase_center_frame_pa u) (freq_array u) (channel_width u) (flex_spw_id_array u) (spw_array u) (polarization_array u) (data_array u) (flag_array u) (nsample_array u) (Nbls u) (Ntimes u) (blt_order u) (blts_are_rectangular u) (time_axis_faster_than_bls u) (Nants_telescope u).
Definition set_ant_2_array (v : list Z) (u : uvd) : uvd :=
  mkUvd (time_array u) (lst_array u) (ant_1_array u) v (baseline_array u) (integration_time u) (uvw_array u) (phase_center_id_array u) (phase_center_app_ra u) (phase_center_app_dec u) (phase_center_frame_pa u) (freq_array u) (channel_width u) (flex_spw_id_array u) (spw_array u) (polarization_array u) (data_array u) (flag_array u) (nsample_array u) (Nbls u) (Ntimes u) (blt_order u) (blts_are_rectangular u) (time_axis_faster_than_bls u) (Nants_telescope u).
Definition set_baseline_array (v : list Z) (u : uvd) : uvd :=
  mkUvd (time_array u) (lst_array u) (ant_1_array u) (ant_2_array u) v (integration_time u) (uvw_array u) (phase_center_id_array u) (phase_center_app_ra u) (phase_center_app_dec u) (phase_center_frame_pa u) (freq_array u) (channel_width u) (flex_spw_id_array u) (spw_array u) (polarization_array u) (data_array u) (flag_array u) (nsample_array u) (Nbls u) (Ntimes u) (blt_order u) (blts_are_rectangular u) (time_axis_faster_than_bls u) (Nants_telescope u).
Definition set_integration_time (v : list Z) (u : uvd) : uvd :=
  mkUvd (time_array u) (lst_array u) (ant_1_array u) (ant_2_array u) (baseline_array u) v (uvw_array u) (phase_center_id_array u) (phase_center_app_ra u) (phase_center_app_dec u) (phase_center_frame_pa u) (freq_array u) (channel_width u) (flex_spw_id_array u) (spw_array u) (polarization_array u) (data_array u) (flag_array u) (nsample_array u) (Nbls u) (Ntimes u) (blt_order u) (blts_are_rectangular u) (time_axis_faster_than_bls u) (Nants_telescope u).
Definition set_uvw_array (v : list (Z * Z * Z)) (u : uvd) : uvd :=
  mkUvd (time_array u) (lst_array u) (ant_1_array u) (ant_2_array u) (baseline_array u) (integration_time u) v (phase_center_id_array u) (phase_center_app_ra u) (phase_center_app_dec u) (phase_center_frame_pa u) (freq_array u) (channel_width u) (flex_spw_id_array u) (spw_array u) (polarization_array u) (data_array u) (flag_array u) (nsample_array u) (Nbls u) (Ntimes u) (blt_order u) (blts_are_rectangular u) (time_axis_faster_than_bls u) (Nants_telescope u).
Definition set_phase_center_id_array (v : list Z) (u : uvd) : uvd :=
  mkUvd (time_array u) (lst_array u) (ant_1_array u) (ant_2_array u) (baseline_array u) (integration_time u) (uvw_array u) v (phase_center_app_ra u) (phase_center_app_dec u) (phase_center_frame_pa u) (freq_array u) (channel_width u) (flex_spw_id_array u) (spw_array u) (polarization_array u) (data_array u) (flag_array u) (nsample_array u) (Nbls u) (Ntimes u) (blt_order u) (blts_are_rectangular u) (time_axis_faster_than_bls u) (Nants_telescope u).
Definition set_phase_center_app_ra (v : list Z) (u : uvd) : uvd :=
  mkUvd (time_array u) (lst_array u) (ant_1_array u) (ant_2_array u) (baseline_array u) (integration_time u) (uvw_array u) (phase_center_id_array u) v (phase_center_app_dec u) (phase_center_frame_pa u) (freq_array u) (channel_width u) (flex_spw_id_array u) (spw_array u) (polarization_array u) (data_array u) (flag_array u) (nsample_array u) (Nbls u) (Ntimes u) (blt_order u) (blts_are_rectangular u) (time_axis_faster_than_bls u) (Nants_telescope u).
Definition set_phase_center_app_dec (v : list Z) (u : uvd) : uvd :=
  mkUvd (time_array u) (lst_array u) (ant_1_array u) (ant_2_array u) (baseline_array u) (integration_time u) (uvw_array u) (phase_center_id_array u) (phase_center_app_ra u) v (phase_center_frame_pa u) (freq_array u) (channel_width u) (flex_spw_id_array u) (spw_array u) (polarization_array u) (data_array u) (flag_array u) (nsample_array u) (Nbls u) (Ntimes u) (blt_order u) (blts_are_rectangular u) (time_axis_faster_than_bls u) (Nants_telescope u).
Definition set_phase_center_frame_pa (v : list Z) (u : uvd) : uvd :=
  mkUvd (time_array u) (lst_array u) (ant_1_array u) (ant_2_array u) (baseline_array u) (integration_time u) (uvw_array u) (phase_center_id_array u) (phase_center_app_ra u) (phase_center_app_dec u) v (freq_array u) (channel_width u) (flex_spw_id_array u) (spw_array u) (polarization_array u) (data_array u) (flag_array u) (nsample_array u) (Nbls u) (Ntimes u) (blt_order u) (blts_are_rectangular u) (time_axis_faster_than_bls u) (Nants_telescope u).
Definition set_freq_array (v : list Z) (u : uvd) : uvd :=
  mkUvd (time_array u) (lst_array u) (ant_1_array u) (ant_2_array u) (baseline_array u) (integration_time u) (uvw_array u) (phase_center_id_array u) (phase_center_app_ra u) (phase_center_app_dec u) (phase_center_frame_pa u) v (channel_width u) (flex_spw_id_array u) (spw_array u) (polarization_array u) (data_array u) (flag_array u) (nsample_array u) (Nbls u) (Ntimes u) (blt_order u) (blts_are_rectangular u) (time_axis_faster_than_bls u) (Nants_telescope u).
Definition set_channel_width (v : list Z) (u : uvd) : uvd :=
  mkUvd (time_array u) (lst_array u) (ant_1_array u) (ant_2_array u) (baseline_array u) (integration_time u) (uvw_array u) (phase_center_id_array u) (phase_center_app_ra u) (phase_center_app_dec u) (phase_center_frame_pa u) (freq_array u) v (flex_spw_id_array u) (spw_array u) (polarization_array u) (data_array u) (flag_array u) (nsample_array u) (Nbls u) (Ntimes u) (blt_order u) (blts_are_rectangular u) (time_axis_faster_than_bls u) (Nants_telescope u).
Definition set_flex_spw_id_array (v : list Z) (u : uvd) : uvd :=
  mkUvd (time_array u) (lst_array u) (ant_1_array u) (ant_2_array u) (baseline_array u) (integration_time u) (uvw_array u) (phase_center_id_array u) (phase_center_app_ra u) (phase_center_app_dec u) (phase_center_frame_pa u) (freq_array u) (channel_width u) v (spw_array u) (polarization_array u) (data_array u) (flag_array u) (nsample_array u) (Nbls u) (Ntimes u) (blt_order u) (blts_are_rectangular u) (time_axis_faster_than_bls u) (Nants_telescope u).
Definition set_spw_array (v : list Z) (u : uvd) : uvd :=
  mkUvd (time_array u) (lst_array u) (ant_1_array u) (ant_2_array u) (baseline_array u) (integration_time u) (uvw_array u) (phase_center_id_array u) (phase_center_app_ra u) (phase_center_app_dec u) (phase_center_frame_pa u) (freq_array u) (channel_width u) (flex_spw_id_array u) v (polarization_array u) (data_array u) (flag_array u) (nsample_array u) (Nbls u) (Ntimes u) (blt_order u) (blts_are_rectangular u) (time_axis_faster_than_bls u) (Nants_telescope u).
Definition set_polarization_array (v : list Z) (u : uvd) : uvd :=
  mkUvd (time_array u) (lst_array u) (ant_1_array u) (ant_2_array u) (baseline_array u) (integration_time u) (uvw_array u) (phase_center_id_array u) (phase_center_app_ra u) (phase_center_app_dec u) (phase_center_frame_pa u) (freq_array u) (channel_width u) (flex_spw_id_array u) (spw_array u) v (data_array u) (flag_array u) (nsample_array u) (Nbls u) (Ntimes u) (blt_order u) (blts_are_rectangular u) (time_axis_faster_than_bls u) (Nants_telescope u).
Definition set_data_array (v : cube cplx) (u : uvd) : uvd :=
  mkUvd (time_array u) (lst_array u) (ant_1_array u) (ant_2_array u) (baseline_array u) (integration_time u) (uvw_array u) (phase_center_id_array u) (phase_center_app_ra u) (phase_center_app_dec u) (phase_center_frame_pa u) (freq_array u) (channel_width u) (flex_spw_id_array u) (spw_array u) (polarization_array u) v (flag_array u) (nsample_array u) (Nbls u) (Ntimes u) (blt_order u) (blts_are_rectangular u) (time_axis_faster_than_bls u) (Nants_telescope u).
Definition set_flag_array (v : cube bool) (u : uvd) : uvd :=
  mkUvd (time_array u) (lst_array u) (ant_1_array u) (ant_2_array u) (baseline_array u) (integration_time u) (uvw_array u) (phase_center_id_array u) (phase_center_app_ra u) (phase_center_app_dec u) (phase_center_frame_pa u) (freq_array u) (channel_width u) (flex_spw_id_array u) (spw_array u) (polarization_array u) (data_array u) v (nsample_array u) (Nbls u) (Ntimes u) (blt_order u) (blts_are_rectangular u) (time_axis_faster_than_bls u) (Nants_telescope u).
Definition set_nsample_array (v : cube Z) (u : uvd) : uvd :=
  mkUvd (time_array u) (lst_array u) (ant_1_array u) (ant_2_array u) (baseline_array u) (integration_time u) (uvw_array u) (phase_center_id_array u) (phase_center_app_ra u) (phase_center_app_dec u) (phase_center_frame_pa u) (freq_array u) (channel_width u) (flex_spw_id_array u) (spw_array u) (polarization_array u) (data_array u) (flag_array u) v (Nbls u) (Ntimes u) (blt_order u) (blts_are_rectangular u) (time_axis_faster_than_bls u) (Nants_telescope u).
Definition set_Nbls (v : nat) (u : uvd) : uvd :=
  mkUvd (time_array u) (lst_array u) (ant_1_array u) (ant_2_array u) (baseline_array u) (integration_time u) (uvw_array u) (phase_center_id_array u) (phase_center_app_ra u) (phase_center_app_dec u) (phase_center_frame_pa u) (freq_array u) (channel_width u) (flex_spw_id_array u) (spw_array u) (polarization_array u) (data_array u) (flag_array u) (nsample_array u) v (Ntimes u) (blt_order u) (blts_are_rectangular u) (time_axis_faster_than_bls u) (Nants_telescope u).
Definition set_Ntimes (v : nat) (u : uvd) : uvd :=
  mkUvd (time_array u) (lst_array u) (ant_1_array u) (ant_2_array u) (baseline_array u) (integration_time u) (uvw_array u) (phase_center_id_array u) (phase_center_app_ra u) (phase_center_app_dec u) (phase_center_frame_pa u) (freq_array u) (channel_width u) (flex_spw_id_array u) (spw_array u) (polarization_array u) (data_array u) (flag_array u) (nsample_array u) (Nbls u) v (blt_order u) (blts_are_rectangular u) (time_axis_faster_than_bls u) (Nants_telescope u).
Definition set_blt_order (v : option (list axis_key)) (u : uvd) : uvd :=
  mkUvd (time_array u) (lst_array u) (ant_1_array u) (ant_2_array u) (baseline_array u) (integration_time u) (uvw_array u) (phase_center_id_array u) (phase_center_app_ra u) (phase_center_app_dec u) (phase_center_frame_pa u) (freq_array u) (channel_width u) (flex_spw_id_array u) (spw_array u) (polarization_array u) (data_array u) (flag_array u) (nsample_array u) (Nbls u) (Ntimes u) v (blts_are_rectangular u) (time_axis_faster_than_bls u) (Nants_telescope u).
Definition set_blts_are_rectangular (v : option bool) (u : uvd) : uvd :=
  mkUvd (time_array u) (lst_array u) (ant_1_array u) (ant_2_array u) (baseline_array u) (integration_time u) (uvw_array u) (phase_center_id_array u) (phase_center_app_ra u) (phase_center_app_dec u) (phase_center_frame_pa u) (freq_array u) (channel_width u) (flex_spw_id_array u) (spw_array u) (polarization_array u) (data_array u) (flag_array u) (nsample_array u) (Nbls u) (Ntimes u) (blt_order u) v (time_axis_faster_than_bls u) (Nants_telescope u).
Definition set_time_axis_faster_than_bls (v : bool) (u : uvd) : uvd :=
  mkUvd (time_array u) (lst_array u) (ant_1_array u) (ant_2_array u) (baseline_array u) (integration_time u) (uvw_array u) (phase_center_id_array u) (phase_center_app_ra u) (phase_center_app_dec u) (phase_center_frame_pa u) (freq_array u) (channel_width u) (flex_spw_id_array u) (spw_array u) (polarization_array u) (data_array u) (flag_array u) (nsample_array u) (Nbls u) (Ntimes u) (blt_order u) (blts_are_rectangular u) v (Nants_telescope u).
Definition set_Nants_telescope (v : Z) (u : uvd) : uvd :=
  mkUvd (time_array u) (lst_array u) (ant_1_array u) (ant_2_array u) (baseline_array u) (integration_time u) (uvw_array u) (phase_center_id_array u) (phase_center_app_ra u) (phase_center_app_dec u) (phase_center_frame_pa u) (freq_array u) (channel_width u) (flex_spw_id_array u) (spw_array u) (polarization_array u) (data_array u) (flag_array u) (nsample_array u) (Nbls u) (Ntimes u) (blt_order u) (blts_are_rectangular u) (time_axis_faster_than_bls u) v.
