(** C59: applying calibration solutions. *)
From Coq Require Import List ZArith QArith Qcanon Bool Arith String.
From Verif Require Import Lib.Py Lib.Cube Model.UVData Model.FreqAvg Model.Calibrate Spec.AccessSpec Spec.FlagSpec Spec.CalibrateSpec.
From Verif Require Import Proofs.CalibrateProofs Proofs.CalibrateTop Proofs.CalibrateTotal Proofs.CalibrateCases.
Import ListNotations.
Open Scope Z_scope.
Open Scope list_scope.

(** Every sample is calibrated with the solutions of its two antennas and feeds, its
    time and its frequency; without both solutions it is flagged and not calibrated. *)
Theorem C59_samples : forall ttol ftol o v c v', 0 <= ttol -> 0 <= ftol -> well_formed v c -> aligned ttol ftol v c ->
  uvcalibrate ttol ftol o v c = (v', Ok tt) ->
  forall i j p, (i < List.length (time_array (v_u v)))%nat -> (j < List.length (freq_array (v_u v)))%nat ->
    (p < List.length (polarization_array (v_u v)))%nat -> sample_result ttol ftol o v v' c i j p.
Proof. exact calibrate_samples. Qed.
Print Assumptions C59_samples.
(** Row 1 is of antennas 2 and 0; the solution of antenna 2 is flagged in channel 1. *)
Example C59_samples_nonvacuous : well_formed good gains /\ aligned 0 0 good gains /\
  outcome (uvcalibrate 0 0 usual good gains) = None /\
  row_shown good 1 0 = [(2, 0, false); (2, 1, false); (2, 2, false)]%Q /\
  row_shown (fst (uvcalibrate 0 0 usual good gains)) 1 0 = [(8, -4 # 1, false); (2, 1, true); (36, 12, false)]%Q.
Proof.
  split; [exact good_well_formed|]. split; [exact good_aligned|]. split; [vm_compute; reflexivity|]. split; vm_compute; reflexivity.
Qed.

(** Compatible objects are calibrated without an exception. *)
Theorem C59_total : forall ttol ftol o v c, 0 <= ttol -> 0 <= ftol -> well_formed v c -> aligned ttol ftol v c ->
  compatible ttol ftol o v c -> exists v', uvcalibrate ttol ftol o v c = (v', Ok tt).
Proof. exact calibrate_total. Qed.
Print Assumptions C59_total.
Example C59_total_nonvacuous : compatible 0 0 usual good gains.
Proof. exact good_compatible. Qed.

(** Undoing a calibration succeeds and gives back every visibility. *)
Theorem C59_undo : forall ttol ftol o v c v1, consistent (v_u v) -> NoDup (polarization_array (v_u v)) ->
  Forall (fun p => -8 <= p <= -1) (polarization_array (v_u v)) -> undo o = false ->
  prop_flags o = true \/ (forall a f t j, k_gain c a f t j <> (0, 0)%Qc) ->
  uvcalibrate ttol ftol o v c = (v1, Ok tt) ->
  exists v2, uvcalibrate ttol ftol (undoing o) v1 c = (v2, Ok tt) /\
    (forall i j p, (i < List.length (time_array (v_u v)))%nat -> (j < List.length (freq_array (v_u v)))%nat ->
       (p < List.length (polarization_array (v_u v)))%nat ->
       v_vis v2 i j p = v_vis v i j p /\ flag_array (v_u v2) i j p = flag_array (v_u v1) i j p) /\
    v_u v2 = set_flag_array (flag_array (v_u v2)) (v_u v) /\ v_units v2 = "uncalib"%string /\ v_conv v2 = None.
Proof. exact calibrate_undo. Qed.
Print Assumptions C59_undo.
Example C59_undo_nonvacuous : consistent (v_u good) /\
  row_shown (fst (uvcalibrate 0 0 (undoing usual) (fst (uvcalibrate 0 0 usual good gains)) gains)) 1 0 = [(2, 0, false); (2, 1, true); (2, 2, false)]%Q.
Proof. split; [exact (proj1 good_well_formed)|vm_compute; reflexivity]. Qed.

(** Whatever the outcome, no flag is removed. *)
Theorem C59_flags_grow : forall ttol ftol o v c v' r, uvcalibrate ttol ftol o v c = (v', r) ->
  forall i j p, flag_array (v_u v) i j p = true -> flag_array (v_u v') i j p = true.
Proof. exact calibrate_mono. Qed.
Print Assumptions C59_flags_grow.
Example C59_flags_grow_nonvacuous :
  map snd (row_shown (fst (uvcalibrate 0 0 usual (fst (uvcalibrate 0 0 usual good gains)) relative)) 1 0) = [false; true; false].
Proof. vm_compute. reflexivity. Qed.

(** Rows of a baseline that are not in time order get the solutions of other times. *)
Theorem C59_time_order_refuted : exists v c v', well_formed v c /\ compatible 0 0 usual v c /\
  clear_times 0 (k_freqs c) /\ clear_times 0 (freq_array (v_u v)) /\
  uvcalibrate 0 0 usual v c = (v', Ok tt) /\ ~ sample_result 0 0 usual v v' c 0 0 0.
Proof. exact time_order. Qed.
Print Assumptions C59_time_order_refuted.

(** Frequencies in another order than those of the data get the solutions of other channels. *)
Theorem C59_freq_order_refuted : exists v c v', well_formed v c /\ compatible 0 0 usual v c /\
  (forall a b, pair_rows (v_u v) a b <> [] -> pair_times (v_u v) a b = [1; 2]) /\ k_times c = KTimes [1; 2] /\
  uvcalibrate 0 0 usual v c = (v', Ok tt) /\ ~ sample_result 0 0 usual v v' c 0 0 0.
Proof. exact freq_order. Qed.
Print Assumptions C59_freq_order_refuted.

(** A baseline without some of the times stops the calibration half way. *)
Theorem C59_half_calibrated_refuted : exists v c v', well_formed v c /\ compatible 0 0 usual v c /\
  clear_times 0 (k_freqs c) /\ clear_times 0 (freq_array (v_u v)) /\
  uvcalibrate 0 0 usual v c = (v', Err ValueError) /\
  v_vis v' 0%nat 0%nat 0%nat <> v_vis v 0%nat 0%nat 0%nat /\ v_units v' = v_units v.
Proof. exact half_done. Qed.
Print Assumptions C59_half_calibrated_refuted.

(** Small gains are taken for zero. *)
Theorem C59_small_gains_refuted : exists v c v', well_formed v c /\ aligned 0 0 v c /\ compatible 0 0 usual v c /\
  (forall a f t j, k_gain c a f t j <> (0, 0)%Qc /\ k_flag c a f t j = false) /\
  uvcalibrate 0 0 usual v c = (v', Ok tt) /\
  flag_array (v_u v) 0%nat 0%nat 0%nat = false /\ flag_array (v_u v') 0%nat 0%nat 0%nat = true /\
  v_vis v' 0%nat 0%nat 0%nat = v_vis v 0%nat 0%nat 0%nat.
Proof. exact faint_flagged. Qed.
Print Assumptions C59_small_gains_refuted.

(** Undoing a calibration does not restore the unit. *)
Theorem C59_unit_refuted : exists v c v1 v2, well_formed v c /\ aligned 0 0 v c /\
  uvcalibrate 0 0 usual v c = (v1, Ok tt) /\ uvcalibrate 0 0 (undoing usual) v1 c = (v2, Ok tt) /\
  v_units v1 = "Jy"%string /\ v_units v = "Jy"%string /\ v_units v2 = "uncalib"%string.
Proof. exact unit_lost. Qed.
Print Assumptions C59_unit_refuted.

(** Undoing without repeating the conventions succeeds but is off by a factor of two. *)
Theorem C59_conventions_refuted : exists v c v1 v2, well_formed v c /\ aligned 0 0 v c /\
  uvcalibrate 0 0 told v c = (v1, Ok tt) /\ uvcalibrate 0 0 (undoing usual) v1 c = (v2, Ok tt) /\
  v_vis v 0%nat 0%nat 0%nat = (1, 0)%Qc /\ v_vis v2 0%nat 0%nat 0%nat = (Q2Qc 2, 0)%Qc.
Proof. exact convention_forgotten. Qed.
Print Assumptions C59_conventions_refuted.
