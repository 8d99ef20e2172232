(** C73 and C74: what phasing does to visibilities and baseline coordinates. *)
From Coq Require Import List ZArith Reals Bool String.
From Verif Require Import Lib.Py Lib.Cube Model.PhaseCenter Model.Coordinates Model.Rotation Model.Phase
  Spec.PhaseSpec Spec.CoordinatesSpec Spec.PhasingSpec
  Proofs.PhasingProofs Proofs.PhasingOps Proofs.PhasingTop Proofs.PhasingUvw Proofs.PhasingCases.
From Verif Require Proofs.PhaseCases.
Import ListNotations.
Open Scope list_scope.
Open Scope R_scope.
Notation length := List.length.

(** * C73: visibilities *)
(** phase keeps what was measured, for all rows, and everything about rows outside the
    mask. *)
Theorem C73_phase : forall sky junk pop name p ant mask cleanup s s', picks pop -> whole s -> name_fits s name p ->
  phase sky junk pop name p false ant mask cleanup s = Ok s' ->
  (forall i j k v, (i < o_Nblts s)%nat -> measured s' i j k v <-> measured s i j k v) /\
  (forall i, (i < o_Nblts s)%nat -> ~ in_mask s mask i -> same_row s s' i) /\
  (forall i, in_mask s mask i -> (is_type "unprojected" p = true /\ unprojected s' i) \/ (is_type "unprojected" p = false /\ projected s' i)).
Proof.
  intros sky junk pop name p ant mask cleanup s s' Hp Hw Hf H. split; [|split].
  - exact (phase_keeps _ _ _ _ _ _ _ _ _ _ Hp Hw Hf H).
  - exact (phase_others _ _ _ _ _ _ _ _ _ _ Hp Hw Hf H).
  - intros i Hi. exact (phase_types _ _ _ _ _ _ _ _ _ _ i Hp Hw Hf H Hi).
Qed.
Print Assumptions C73_phase.
Example C73_phase_case : whole mixed /\ exists s', phase below no_junk PhaseCases.first_of "b" to_b false true (Some [false; true]) true mixed = Ok s' /\
  name_fits mixed "b" to_b /\ vis_of mixed 1 0 0 = Some (1, 0) /\ vis_of s' 1 0 0 = Some (-1, 0) /\ measured s' 1 0 0 (1, 0).
Proof.
  split; [exact mixed_whole|]. destruct phase_case as (s' & H1 & H2 & _ & _ & H3 & H4 & _). exists s'. split; [exact H1|]. split; [exact H2|].
  split; [reflexivity|]. split; assumption.
Qed.

(** unproject_phase makes the selected rows unprojected and keeps what was measured for
    them; so do the uvw methods for objects that are all projected or all unprojected, and
    for the projected rows of others. *)
Theorem C73_unproject : forall junk pop ant mask name s s', picks pop -> whole s ->
  unproject_phase junk pop ant mask name s = Ok s' ->
  forall i, (i < o_Nblts s)%nat -> in_mask s mask i \/ unprojected s i ->
    unprojected s' i /\ forall j k v, measured s' i j k v <-> measured s i j k v.
Proof.
  intros junk pop ant mask name s s' Hp Hw H i Hi Hm. split; [apply (unproject_rows _ _ _ _ _ _ _ i Hp Hw Hi H); exact Hm|].
  intros j k v. exact (unproject_keeps _ _ _ _ _ _ _ Hp Hw H i j k v Hi Hm).
Qed.
Print Assumptions C73_unproject.
Example C73_unproject_case : whole mixed /\ unprojected mixed 1 /\ projected mixed 0 /\
  exists s', unproject_phase no_junk PhaseCases.first_of true (Some [false; true]) "zen" mixed = Ok s'.
Proof.
  split; [exact mixed_whole|]. split; [exact mixed_1|]. split; [exact mixed_0|]. destruct unproject_other as (s' & H & _). exists s'. exact H.
Qed.

Theorem C73_set_uvws : forall junk s s', whole s -> set_uvws_from_antenna_positions junk true s = Ok s' ->
  forall i j k v, (i < o_Nblts s)%nat -> projected s i \/ (forall q, (q < o_Nblts s)%nat -> unprojected s q) ->
  measured s' i j k v <-> measured s i j k v.
Proof. exact set_uvws_keeps. Qed.
Print Assumptions C73_set_uvws.

Theorem C73_positions : forall junk new s s', whole s -> update_antenna_positions junk new false true s = Ok s' ->
  forall i j k v, (i < o_Nblts s)%nat -> projected s i \/ (forall q, (q < o_Nblts s)%nat -> unprojected s q) ->
  measured s' i j k v <-> measured s i j k v.
Proof. intros junk new s s' Hw H. exact (proj2 (proj2 (positions_keeps junk new s s' Hw H))). Qed.
Print Assumptions C73_positions.
Example C73_set_uvws_case : whole mixed /\ projected mixed 0 /\ exists s', set_uvws_from_antenna_positions no_junk true mixed = Ok s'.
Proof. split; [exact mixed_whole|]. split; [exact mixed_0|]. destruct set_uvws_unprojected as (s' & H & _). exists s'. exact H. Qed.

(** So after any sequence of these operations unproject_phase gives back what was
    measured, and phasing to a new name gives what phasing directly would have given. *)
Theorem C73_round_trip : forall junk pop ant name s s1 s2, whole s -> picks pop -> phasing_history s s1 ->
  unproject_phase junk pop ant None name s1 = Ok s2 ->
  forall i j k v, (i < o_Nblts s)%nat -> unprojected s2 i /\ (measured s i j k v <-> vis_of s2 i j k = Some v).
Proof. exact round_trip. Qed.
Print Assumptions C73_round_trip.

Theorem C73_direct : forall sky junk1 junk2 pop1 pop2 name p mask c1 c2 s s1 t t1, picks pop1 -> picks pop2 -> whole s ->
  phasing_history s s1 -> o_pos s1 = o_pos s ->
  (forall k e, stored (o_pc s) k e -> e_name e <> name) -> (forall k e, stored (o_pc s1) k e -> e_name e <> name) ->
  phase sky junk1 pop1 name p false true mask c1 s = Ok t -> phase sky junk2 pop2 name p false true mask c2 s1 = Ok t1 ->
  forall i, in_mask s mask i ->
    (forall j k, vis_of t1 i j k = vis_of t i j k) /\ nth i (o_uvw t1) origin = nth i (o_uvw t) origin /\
    nth i (o_ra t1) 0 = nth i (o_ra t) 0 /\ nth i (o_dec t1) 0 = nth i (o_dec t) 0 /\ nth i (o_pa t1) 0 = nth i (o_pa t) 0.
Proof. exact phase_direct. Qed.
Print Assumptions C73_direct.
Example C73_direct_case : whole mixed /\ exists s1 t t1, phasing_history mixed s1 /\ unprojected mixed 1 /\ projected s1 1 /\ o_pos s1 = o_pos mixed /\
  (forall k e, stored (o_pc mixed) k e -> e_name e <> "c"%string) /\ (forall k e, stored (o_pc s1) k e -> e_name e <> "c"%string) /\
  phase below no_junk PhaseCases.first_of "c" to_b false true (Some [false; true]) true mixed = Ok t /\
  phase below no_junk PhaseCases.first_of "c" to_b false true (Some [false; true]) true s1 = Ok t1 /\
  pc_ids (o_pc t) = [0%Z; 2%Z] /\ pc_ids (o_pc t1) = [0%Z; 1%Z].
Proof.
  split; [exact mixed_whole|]. destruct two_ways as (s1 & t & t1 & H1 & H2 & H3). exists s1, t, t1. split; [exact H1|]. split; [exact mixed_1|]. split; [exact H2|exact H3].
Qed.

(** unproject_phase with a mask replaces the uvws of all rows: the stated w of projected
    rows outside the mask no longer fits their visibilities. *)
Theorem C73_unproject_mask_refuted : exists junk pop s s' v, picks pop /\ whole s /\
  unproject_phase junk pop true (Some [false; true]) "zen" s = Ok s' /\ ~ in_mask s (Some [false; true]) 0 /\
  projected s 0 /\ projected s' 0 /\ measured s 0 0 0 v /\ ~ measured s' 0 0 0 v.
Proof.
  destruct unproject_other as (s' & H & _ & H1 & _ & _ & _ & H2). exists no_junk, PhaseCases.first_of, mixed, s', (1, 0).
  split; [exact PhaseCases.first_picks|]. split; [exact mixed_whole|]. split; [exact H|]. split; [intros [_ X]; discriminate X|].
  split; [exact mixed_0|]. split; [exact H1|]. split; [apply mixed_measured; auto|exact H2].
Qed.
Print Assumptions C73_unproject_mask_refuted.

(** set_uvws_from_antenna_positions turns the visibilities of unprojected rows if other rows
    are projected. *)
Theorem C73_set_uvws_refuted : exists junk s s' v, whole s /\ set_uvws_from_antenna_positions junk true s = Ok s' /\ o_uvw s' = o_uvw s /\
  unprojected s 1 /\ measured s 1 0 0 v /\ ~ measured s' 1 0 0 v.
Proof.
  destruct set_uvws_unprojected as (s' & H & H1 & _ & _ & H2). exists no_junk, mixed, s', (1, 0). split; [exact mixed_whole|].
  split; [exact H|]. split; [exact H1|]. split; [exact mixed_1|]. split; [apply mixed_measured; auto|exact H2].
Qed.
Print Assumptions C73_set_uvws_refuted.

(** update_antenna_positions with delta_antpos=True does not turn the visibilities of
    projected rows, and turns those of unprojected ones. *)
Theorem C73_delta_refuted : exists junk new s s' v, whole s /\ update_antenna_positions junk new true true s = Ok s' /\
  (projected s 0 /\ measured s 0 0 0 v /\ ~ measured s' 0 0 0 v /\ vis_of s' 0 0 0 = vis_of s 0 0 0) /\
  (unprojected s 1 /\ measured s 1 0 0 v /\ ~ measured s' 1 0 0 v).
Proof.
  destruct delta_both as (s' & H & _ & _ & _ & H1 & _ & H2 & H3). exists no_junk, moved, mixed, s', (1, 0). split; [exact mixed_whole|].
  split; [exact H|]. split.
  - split; [exact mixed_0|]. split; [apply mixed_measured; auto|]. split; [exact H2|rewrite H1; reflexivity].
  - split; [exact mixed_1|]. split; [apply mixed_measured; auto|exact H3].
Qed.
Print Assumptions C73_delta_refuted.

(** phase with lookup_name=True to an unprojected entry, without stating the type, turns the
    visibilities although the rows become unprojected. *)
Theorem C73_lookup_refuted : exists sky junk pop name p s s' v, picks pop /\ whole s /\
  phase sky junk pop name p true true None true s = Ok s' /\ unprojected s' 0 /\ measured s 0 0 0 v /\ ~ measured s' 0 0 0 v.
Proof.
  destruct lookup_unprojected as (s' & H & H1 & _ & H2). exists below, no_junk, PhaseCases.first_of, "zen"%string, any_place, mixed, s', (1, 0).
  split; [exact PhaseCases.first_picks|]. split; [exact mixed_whole|]. split; [exact H|]. split; [exact H1|]. split; [apply mixed_measured; auto|exact H2].
Qed.
Print Assumptions C73_lookup_refuted.

(** * C74: coordinates *)
(** After phase the selected rows have the apparent place of the position at their time,
    the position angle of the frame there, and the coordinates of their baseline towards
    that place. *)
Theorem C74_place : forall sky junk pop name p ant mask cleanup s s', whole s -> lst_of_time s ->
  (forall k e, stored (o_pc s) k e -> e_name e <> name) -> is_type "unprojected" p = false -> c_frame p <> Some "altaz"%string ->
  phase sky junk pop name p false ant mask cleanup s = Ok s' ->
  forall i, in_mask s mask i ->
    (nth i (o_ra s') 0, nth i (o_dec s') 0) = app_of sky (position_of p) (nth i (o_time s) 0) (nth i (o_lst s) 0) /\
    nth i (o_pa s') 0 = pa_of sky (c_frame p) (c_epoch p) (nth i (o_time s) 0) (nth i (o_ra s') 0) (nth i (o_dec s') 0).
Proof. exact phase_apparent. Qed.
Print Assumptions C74_place.

Theorem C74_antennas : forall sky junk pop name p mask cleanup s s', picks pop -> whole s -> name_fits s name p -> antennas_ok s ->
  phase sky junk pop name p false true mask cleanup s = Ok s' -> angles_agree (in_mask s mask) s' ->
  forall i b, in_mask s mask i -> baseline_of s i b -> placed s' i b.
Proof. exact phase_uvw_ants. Qed.
Print Assumptions C74_antennas.

Theorem C74_rotate : forall sky junk pop name p mask cleanup s s', picks pop -> whole s -> name_fits s name p ->
  phase sky junk pop name p false false mask cleanup s = Ok s' ->
  forall i b, (i < o_Nblts s)%nat -> placed s i b -> placed s' i b.
Proof. exact phase_uvw_rotate. Qed.
Print Assumptions C74_rotate.

(** Coordinates that are right stay right through any sequence of phase, unproject_phase
    (without mask), set_uvws_from_antenna_positions and update_antenna_positions. *)
Theorem C74_history : forall s s', coords_history s s' -> whole s -> antennas_ok s -> lst_of_time s -> coords_right s ->
  whole s' /\ antennas_ok s' /\ lst_of_time s' /\ coords_right s'.
Proof. exact coords_history_right. Qed.
Print Assumptions C74_history.
Example C74_case : whole mixed /\ antennas_ok mixed /\ lst_of_time mixed /\ coords_right mixed /\
  exists s1 s2, coords_history mixed s1 /\ o_ra s1 = [PI / 2; PI] /\ nth 1 (o_uvw s1) origin = (0, 0, - (1 / 2)) /\
    coords_history mixed s2 /\ o_uvw s2 = [(-1, 0, 1 / 2); (1 / 2, 0, 1)].
Proof.
  split; [exact mixed_whole|]. split; [exact mixed_antennas|]. split; [exact mixed_lsts|]. split; [exact mixed_right|].
  destruct phase_case as (s1 & H1 & H2 & _ & H3 & _ & _ & H4 & H5). destruct delta_both as (s2 & G1 & _ & _ & G2 & _). exists s1, s2.
  split; [|split; [exact H4|split; [exact H3|split; [|exact G2]]]].
  - eapply Ch_step; [eapply Co_phase; [exact PhaseCases.first_picks|exact H2|exact H1|discriminate|intros _; exact H5]|apply Ch_none].
  - eapply Ch_step; [eapply Co_positions; [exact mixed_angles|exact G1]|apply Ch_none].
Qed.

(** unproject_phase with a mask: the coordinates of projected rows outside the mask become
    those of the zenith. *)
Theorem C74_unproject_mask_refuted : exists junk pop s s' b, picks pop /\ whole s /\ antennas_ok s /\ coords_right s /\
  unproject_phase junk pop true (Some [false; true]) "zen" s = Ok s' /\ baseline_of s' 0 b /\ ~ placed s' 0 b.
Proof.
  destruct unproject_other_placed as (s' & b & H & Hb & _ & Hn). exists no_junk, PhaseCases.first_of, mixed, s', b.
  split; [exact PhaseCases.first_picks|]. split; [exact mixed_whole|]. split; [exact mixed_antennas|]. split; [exact mixed_right|]. split; [exact H|]. split; assumption.
Qed.
Print Assumptions C74_unproject_mask_refuted.

(** phase with use_ant_pos=False fails for a mask that selects part of the rows. *)
Theorem C74_rotate_mask_refuted : exists sky junk pop name p mask s, picks pop /\ whole s /\ coords_right s /\
  phase sky junk pop name p false false mask true s = Err ValueError /\
  exists s', phase sky junk pop name p false true mask true s = Ok s'.
Proof.
  exists below, no_junk, PhaseCases.first_of, "b"%string, to_b, (Some [false; true]), mixed. split; [exact PhaseCases.first_picks|]. split; [exact mixed_whole|].
  split; [exact mixed_right|]. split; [exact rotate_mask|]. destruct phase_case as (s' & H & _). exists s'. exact H.
Qed.
Print Assumptions C74_rotate_mask_refuted.

(** phase with lookup_name=True takes the position angle in the frame given as argument, not
    in that of the entry found. *)
Theorem C74_lookup_frame_refuted : exists sky junk pop name p s s' e, picks pop /\ whole s /\
  phase sky junk pop name p true true None true s = Ok s' /\ points (o_pc s') 0 e /\
  nth 0 (o_pa s') 0 <> pa_of sky (c_frame (e_coords e)) (c_epoch (e_coords e)) (nth 0 (o_time s') 0) (nth 0 (o_ra s') 0) (nth 0 (o_dec s') 0).
Proof.
  destruct lookup_frame as (s' & e & H & H1 & _ & _ & H2 & H3). exists sky2, no_junk, PhaseCases.first_of, "a"%string, some_place, mixed, s', e.
  split; [exact PhaseCases.first_picks|]. split; [exact mixed_whole|]. split; [exact H|]. split; [exact H1|]. rewrite H2, H3. exact R1_neq_R0.
Qed.
Print Assumptions C74_lookup_frame_refuted.
