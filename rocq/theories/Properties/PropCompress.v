(** C72: compress_by_redundancy. *)
From Coq Require Import List ZArith QArith Qcanon Bool Arith Sorted.
From Verif Require Import Lib.Py Lib.Cube Lib.QSum Model.FreqAvg Model.Compress Spec.CompressSpec Proofs.CompressTop Proofs.CompressCases.
Import ListNotations.
Open Scope Z_scope.
Open Scope list_scope.

(** Averaging succeeds.  Its rows are those of the first baseline of each group, in
    their order.  Such a row is the average of the rows of the group at its time,
    provided that times are clearly the same or not and it is the only row of its
    baseline at this time. *)
Theorem C72_average : forall tol gps conjs v, 0 < tol -> sound gps v ->
  exists w rows, compress_average tol gps conjs v = Ok w /\
    StronglySorted lt rows /\ (forall r, In r rows <-> (r < length (c_bl v))%nat /\ exists g, In g gps /\ bl_at v r = hd 0 g) /\
    length (c_bl w) = length rows /\ length (c_time w) = length rows /\
    forall o g j p, (o < length rows)%nat -> In g gps -> hd 0 g = bl_at v (nth o rows 0%nat) ->
      no_chains tol g v -> only_row tol v (nth o rows 0%nat) -> averaged tol conjs g v w (nth o rows 0%nat) o j p.
Proof. exact average_all. Qed.
Print Assumptions C72_average.

(** If the visibilities that count agree, but for the direction of the baseline, the
    average is that visibility. *)
Theorem C72_redundant : forall tol conjs g v w r o j p c, averaged tol conjs g v w r o j p ->
  (forall i, In i (counts v (joined tol g v r) j p) -> facing conjs v i j p = c) ->
  total_ns v (counts v (joined tol g v r) j p) j p <> Q2Qc 0 -> facing conjs w o j p = c.
Proof. exact average_same. Qed.
Print Assumptions C72_redundant.

Example C72_case : 0 < 2 /\ sound regular_gps regular /\ no_chains 2 [10; 20] regular /\ only_row 2 regular 1 /\
  outcome (compress_average 2 regular_gps [20] regular) 0 0 0 = Some ((5 # 3)%Q, (1 # 3)%Q, inject_Z 3, false).
Proof. split; [reflexivity|]. split; [exact regular_sound|]. split; [exact regular_no_chains|]. split; [exact regular_only|exact regular_out]. Qed.

(** Keeping only the first baseline of each group *)
Theorem C72_select : forall gps v, length (c_time v) = length (c_bl v) ->
  exists rows, StronglySorted lt rows /\ (forall r, In r rows <-> (r < length (c_bl v))%nat /\ exists g, In g gps /\ bl_at v r = hd 0 g) /\
    let w := compress_select gps v in
    length (c_bl w) = length rows /\ length (c_time w) = length rows /\
    forall o j p, (o < length rows)%nat -> let r := nth o rows 0%nat in
      bl_at w o = bl_at v r /\ time_at w o = time_at v r /\ c_data w o j p = c_data v r j p /\ c_flag w o j p = c_flag v r j p /\ c_ns w o j p = c_ns v r j p.
Proof. exact select_all. Qed.
Print Assumptions C72_select.

Example C72_select_case : c_bl (compress_select regular_gps regular) = [10; 10; 30] /\ c_time (compress_select regular_gps regular) = [0; 10; 0].
Proof. split; reflexivity. Qed.

(** Visibilities of reversed baselines are conjugated, but XY is not exchanged with
    YX: data that agree give a wrong average. *)
Theorem C72_cross_pols_refuted : exists tol gps conjs v w (swap : nat -> nat) (u : nat -> nat -> cqc),
  0 < tol /\ sound gps v /\ no_chains tol (hd [] gps) v /\ only_row tol v 0 /\ compress_average tol gps conjs v = Ok w /\
  (forall p, (p < c_np v)%nat -> (swap p < c_np v)%nat /\ swap (swap p) = p) /\
  (forall i j p, (i < length (c_bl v))%nat -> (j < c_nf v)%nat -> (p < c_np v)%nat ->
     c_flag v i j p = false /\ c_data v i j p = if existsb (Z.eqb (bl_at v i)) conjs then cconj (u j (swap p)) else u j p) /\
  In (bl_at v 0) (hd [] gps) /\ c_data w 0%nat 0%nat 0%nat <> u 0%nat 0%nat.
Proof. exact cross_pols. Qed.
Print Assumptions C72_cross_pols_refuted.

(** A visibility flagged in all rows is not averaged if something else in the rows is
    not flagged. *)
Theorem C72_flagged_refuted : exists tol gps conjs v w r o,
  0 < tol /\ sound gps v /\ no_chains tol (hd [] gps) v /\ only_row tol v r /\ compress_average tol gps conjs v = Ok w /\ bl_at w o = bl_at v r /\
  let l := joined tol (hd [] gps) v r in
  (forall i, In i l -> c_flag v i 0%nat 0%nat = true /\ c_ns v i 0%nat 0%nat = one /\ c_data v i 0%nat 0%nat = (q 5, q 0)) /\ length l = 2%nat /\
  c_flag w o 0%nat 0%nat = true /\ c_ns w o 0%nat 0%nat = q 0 /\ c_data w o 0%nat 0%nat = (q 0, q 0).
Proof. exact flagged_lost. Qed.
Print Assumptions C72_flagged_refuted.

(** Rows for which no average is found come out as zeros that are not flagged, even if
    the input is all flagged. *)
Theorem C72_unflagged_refuted : exists tol gps conjs v v' w w',
  0 < tol /\ sound gps v /\ sound gps v' /\
  only_row tol v 0 /\ ~ no_chains tol (hd [] gps) v /\ no_chains tol (hd [] gps) v' /\ ~ only_row tol v' 0 /\
  compress_average tol gps conjs v = Ok w /\ compress_average tol gps conjs v' = Ok w' /\
  (forall i, c_flag v i 0%nat 0%nat = true /\ c_flag v' i 0%nat 0%nat = true) /\
  c_flag w 0%nat 0%nat 0%nat = false /\ c_ns w 0%nat 0%nat 0%nat = q 0 /\ c_data w 0%nat 0%nat 0%nat = (q 0, q 0) /\
  c_flag w' 0%nat 0%nat 0%nat = false /\ c_ns w' 0%nat 0%nat 0%nat = q 0 /\ c_data w' 0%nat 0%nat 0%nat = (q 0, q 0).
Proof. exact unflagged_zeros. Qed.
Print Assumptions C72_unflagged_refuted.
