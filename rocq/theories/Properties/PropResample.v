(** C42-C45 and C71: resampling in time. *)
From Coq Require Import List ZArith QArith Qcanon Bool Arith Lia Permutation.
From Verif Require Import Lib.Py Lib.Np Lib.QSum Model.Resample Spec.ResampleSpec.
From Verif Require Import Proofs.ResampleBase Proofs.UpsampleProofs Proofs.DownsampleProofs Proofs.DownsampleTop Proofs.DownsampleTotal Proofs.ResampleCases.
Import ListNotations.
Open Scope Qc_scope.

(** Baseline 1 has two 10 s integrations, baseline 2 one of 25 s. *)
Definition ex_up : tobj := mkTobj [cell 1 0 10; cell 2 1 25; cell 1 2 10] 2 1.
(** Three integrations of 5 s, and a baseline of two of 20 s. *)
Definition ex_down : tobj := mkTobj [cell 1 2 5; cell 1 1 5; cell 2 0 20; cell 1 0 5; cell 2 1 20] 2 1.

(** ** C42 *)
(** The result is made of the rows that are short enough and, for each row that
    is too long, of pieces that tile it. *)
Theorem C42_tiles : forall m summing leb o o',
  0 < m -> upsample_in_time m summing leb o = Ok o' -> (exists r, In r (o_rows o) /\ is_long m r) ->
  exists ps : trow -> list trow,
    (forall r, In r (o_rows o) -> is_long m r -> tiles summing m r (ps r)) /\
    exists long, Permutation (o_rows o') (filter (fun r => qle (t_int r) m) (o_rows o) ++ flat_map ps long) /\
      (forall r, In r long <-> In r (o_rows o) /\ is_long m r) /\ long = filter (too_long m) (o_rows o).
Proof. exact upsample_spec. Qed.
Print Assumptions C42_tiles.
Example C42_tiles_nonvacuous : is_long (Q2Qc 10) (cell 2 1 25) /\
  view (upsample_in_time (Q2Qc 10) false by_time ex_up) =
    Some [(1%Z, 0, 10); (2%Z, 10367 # 10368, 25 # 3); (2%Z, 1, 25 # 3); (2%Z, 10369 # 10368, 25 # 3); (1%Z, 2, 10)]%Q.
Proof. split; [reflexivity|vm_compute; reflexivity]. Qed.

(** Upsampling succeeds unless the target is too small or a row is within 1 ms above it. *)
Theorem C42_total : forall m summing leb o,
  0 < m -> nbls_ok o ->
  (exists r, In r (o_rows o) /\ Q2Qc (1 # 100) * t_int r <= m) ->
  (forall r, In r (o_rows o) -> is_long m r \/ t_int r <= m) ->
  exists o', upsample_in_time m summing leb o = Ok o'.
Proof. exact upsample_total. Qed.
Print Assumptions C42_total.
Example C42_total_nonvacuous : nbls_ok ex_up /\ (forall r, In r (o_rows ex_up) -> is_long (Q2Qc 10) r \/ t_int r <= Q2Qc 10).
Proof.
  split; [apply cells_nbls; reflexivity|]. intros r [<-|[<-|[<-|[]]]]; [right|left|right]; vm_compute; congruence.
Qed.

(** The pieces may be longer than the maximum. *)
Theorem C42_too_long_refuted : exists m o o' p,
  0 < m /\ upsample_in_time m false by_time o = Ok o' /\ In p (o_rows o') /\ m + milli < t_int p.
Proof. exact piece_too_long. Qed.
Print Assumptions C42_too_long_refuted.

(** ** C43 *)
(** Rows not longer than the maximum are all kept, unchanged. *)
Theorem C43_kept : forall m summing leb o o',
  0 < m -> upsample_in_time m summing leb o = Ok o' ->
  exists others, Permutation (o_rows o') (filter (fun r => qle (t_int r) m) (o_rows o) ++ others) /\
    forall p, In p others -> exists r, In r (o_rows o) /\ m < t_int r /\ t_bl p = t_bl r.
Proof. exact upsample_kept. Qed.
Print Assumptions C43_kept.
Example C43_kept_nonvacuous : map shown (filter (fun r => qle (t_int r) (Q2Qc 10)) (o_rows ex_up)) = [(1%Z, 0, 10); (1%Z, 2, 10)]%Q.
Proof. vm_compute. reflexivity. Qed.

(** Without a row that is too long nothing changes. *)
Theorem C43_nothing_to_do : forall m summing leb o o',
  upsample_in_time m summing leb o = Ok o' -> (forall r, In r (o_rows o) -> ~ is_long m r) -> o' = o.
Proof. exact upsample_nothing. Qed.
Print Assumptions C43_nothing_to_do.
Example C43_nothing_to_do_nonvacuous : upsample_in_time (Q2Qc 25) false by_time ex_up = Ok ex_up.
Proof. apply (f_equal (@Ok tobj)). reflexivity. Qed.

(** A row within 1 ms above the maximum is lost as soon as another row is split. *)
Theorem C43_just_above_refuted : exists m o o' r,
  0 < m /\ nbls_ok o /\ upsample_in_time m false by_time o = Ok o' /\
  In r (o_rows o) /\ ~ is_long m r /\
  ~ (exists p, In p (o_rows o') /\ t_bl p = t_bl r /\ begins p <= t_time r /\ t_time r <= ends p).
Proof. exact just_above_lost. Qed.
Print Assumptions C43_just_above_refuted.

(** ** C44 *)
(** Baselines with an integration that is too short are cut into windows that
    reach the target; the other baselines are unchanged. *)
Theorem C44_min_time : forall m keep summing leb o o',
  downsample_in_time (Some m) None keep summing leb o = Ok o' ->
  forall bl,
    ((exists r, In r (o_rows o) /\ t_bl r = bl /\ is_short m r) ->
       downsampled (reaches m) keep summing (o_nphase o) (on_baseline bl (o_rows o)) (on_baseline bl (o_rows o'))) /\
    ((forall r, In r (o_rows o) -> t_bl r = bl -> ~ is_short m r) ->
       Permutation (on_baseline bl (o_rows o')) (on_baseline bl (o_rows o))).
Proof. exact downsample_min_spec. Qed.
Print Assumptions C44_min_time.
Example C44_min_time_nonvacuous : is_short (Q2Qc 10) (cell 1 2 5) /\
  view (downsample_in_time (Some (Q2Qc 10)) None true false by_time ex_down) =
    Some [(2%Z, 0, 20); (1%Z, 1 # 2, 10); (2%Z, 1, 20); (1%Z, 2, 5)]%Q /\
  view (downsample_in_time (Some (Q2Qc 10)) None false false by_time ex_down) =
    Some [(2%Z, 0, 20); (1%Z, 1 # 2, 10); (2%Z, 1, 20)]%Q.
Proof. split; [reflexivity|]. split; vm_compute; reflexivity. Qed.

(** With n_times_to_avg the windows have n integrations. *)
Theorem C44_n_times : forall n keep summing leb o o',
  downsample_in_time None (Some n) keep summing leb o = Ok o' ->
  forall bl, (exists r, In r (o_rows o) /\ t_bl r = bl) ->
    downsampled (numbers n) keep summing (o_nphase o) (on_baseline bl (o_rows o)) (on_baseline bl (o_rows o')).
Proof. exact downsample_n_spec. Qed.
Print Assumptions C44_n_times.
Example C44_n_times_nonvacuous :
  view (downsample_in_time None (Some 2%Z) true false by_time ex_down) =
    Some [(1%Z, 1 # 2, 10); (2%Z, 1 # 2, 40); (1%Z, 2, 5)]%Q /\
  view (downsample_in_time None (Some 2%Z) false false by_time ex_down) =
    Some [(1%Z, 1 # 2, 10); (2%Z, 1 # 2, 40)]%Q.
Proof. split; vm_compute; reflexivity. Qed.

(** Integration time is conserved when ragged windows are kept. *)
Theorem C44_conserved : forall m n summing leb o o',
  downsample_in_time m n true summing leb o = Ok o' ->
  forall bl, total_time (on_baseline bl (o_rows o')) = total_time (on_baseline bl (o_rows o)).
Proof. exact downsample_conserved. Qed.
Print Assumptions C44_conserved.
Example C44_conserved_nonvacuous : exists o', downsample_in_time (Some (Q2Qc 10)) None true false by_time ex_down = Ok o' /\
  total_time (on_baseline 1 (o_rows o')) = Q2Qc 15.
Proof.
  exists (got (downsample_in_time (Some (Q2Qc 10)) None true false by_time ex_down)).
  split; [apply fine_got; vm_compute; reflexivity|]. apply Qc_is_canon. apply Qeq_bool_iff. vm_compute. reflexivity.
Qed.

(** Without a row that is too short nothing changes. *)
Theorem C44_nothing_to_do : forall m keep summing leb o o',
  downsample_in_time (Some m) None keep summing leb o = Ok o' -> (forall r, In r (o_rows o) -> ~ is_short m r) -> o' = o.
Proof. exact downsample_min_nothing. Qed.
Print Assumptions C44_nothing_to_do.
Example C44_nothing_to_do_nonvacuous : forall r, In r (o_rows ex_up) -> ~ is_short (Q2Qc 10) r.
Proof. intros r [<-|[<-|[<-|[]]]] H; vm_compute in H; discriminate H. Qed.

(** The two passes agree on the number of windows of a target time. *)
Theorem C44_assertion_holds : forall m keep summing leb o,
  downsample_in_time (Some m) None keep summing leb o <> Err AssertionError.
Proof. exact downsample_min_assertion. Qed.
Print Assumptions C44_assertion_holds.

(** When downsampling succeeds. *)
Theorem C44_min_time_total : forall m keep summing leb o,
  nbls_ok o -> several_times o ->
  (exists r, In r (o_rows o) /\ m <= Q2Qc 100 * t_int r) ->
  (forall r, In r (o_rows o) -> is_short m r -> (1 < length (on_baseline (t_bl r) (o_rows o)))%nat) ->
  ((1 < o_nphase o)%nat -> forall x y, In x (o_rows o) -> In y (o_rows o) -> t_bl x = t_bl y -> t_id x = t_id y) ->
  (keep = true \/ forall r, In r (o_rows o) -> is_short m r -> reaches m (on_baseline (t_bl r) (o_rows o))) ->
  exists o', downsample_in_time (Some m) None keep summing leb o = Ok o'.
Proof. exact downsample_min_total. Qed.
Print Assumptions C44_min_time_total.
Theorem C44_n_times_total : forall (n : nat) keep summing leb o,
  (0 < n)%nat -> (Z.of_nat n < 100000000)%Z -> nbls_ok o -> several_times o ->
  (forall r, In r (o_rows o) -> (1 < length (on_baseline (t_bl r) (o_rows o)))%nat /\
     (1001 * Z.of_nat (length (on_baseline (t_bl r) (o_rows o))) < 100000000)%Z) ->
  ((1 < o_nphase o)%nat -> forall x y, In x (o_rows o) -> In y (o_rows o) -> t_bl x = t_bl y -> t_id x = t_id y) ->
  (keep = true \/ forall r, In r (o_rows o) -> numbers (Z.of_nat n) (on_baseline (t_bl r) (o_rows o))) ->
  exists o', downsample_in_time None (Some (Z.of_nat n)) keep summing leb o = Ok o'.
Proof. exact downsample_n_total. Qed.
Print Assumptions C44_n_times_total.
Example C44_totals_nonvacuous : nbls_ok ex_down /\ several_times ex_down /\ o_nphase ex_down = 1%nat /\
  (forall r, In r (o_rows ex_down) -> (1 < length (on_baseline (t_bl r) (o_rows ex_down)))%nat /\
     (1001 * Z.of_nat (length (on_baseline (t_bl r) (o_rows ex_down))) < 100000000)%Z).
Proof.
  split; [apply cells_nbls; reflexivity|].
  split; [exists (cell 1 1 5), (cell 1 0 5); cbn; repeat split; auto; discriminate|]. split; [reflexivity|].
  intros r [<-|[<-|[<-|[<-|[<-|[]]]]]]; vm_compute; split; try reflexivity; repeat constructor.
Qed.

(** A baseline with one integration to downsample: IndexError. *)
Theorem C44_single_integration_refuted : exists o, nbls_ok o /\ several_times o /\ positive_times o /\
  downsample_in_time (Some (Q2Qc 10)) None true false by_time o = Err IndexError /\
  downsample_in_time None (Some 2%Z) true false by_time o = Err IndexError.
Proof. exact lone_integration. Qed.
Print Assumptions C44_single_integration_refuted.

(** 100001 integrations cannot be averaged in pairs. *)
Theorem C44_many_integrations_refuted : forall bl summing leb o,
  (forall r, In r (o_rows o) -> t_bl r = bl) -> Z.of_nat (length (o_rows o)) = 100001%Z ->
  (o_nphase o <= 1)%nat -> several_times o ->
  downsample_in_time None (Some 2%Z) true summing leb o = Err IndexError.
Proof. exact hundred_thousand. Qed.
Print Assumptions C44_many_integrations_refuted.
Example C44_many_integrations_nonvacuous : (forall r, In r (o_rows long_track) -> t_bl r = 1%Z) /\
  Z.of_nat (length (o_rows long_track)) = 100001%Z /\ several_times long_track.
Proof. exact long_track_ok. Qed.

(** Dropping ragged windows may drop a baseline, and then fails. *)
Theorem C44_dropped_baseline_refuted : exists o, nbls_ok o /\ several_times o /\ positive_times o /\
  downsample_in_time (Some (Q2Qc 12)) None false false by_time o = Err ValueError.
Proof. exact baseline_lost. Qed.
Print Assumptions C44_dropped_baseline_refuted.

(** ** C45 *)
(** Every new row is the average of the rows of its window (C44_min_time and
    C44_n_times give the windows), and lies within it in time. *)
Theorem C45_time_within : forall summing w r,
  averages summing w r -> (forall x, In x w -> 0 < t_int x) ->
  exists a b, In a w /\ In b w /\ t_time a <= t_time r /\ t_time r <= t_time b.
Proof. exact within_window. Qed.
Print Assumptions C45_time_within.

Theorem C45_averages : forall m n keep summing leb o o' p,
  downsample_in_time m n keep summing leb o = Ok o' -> In p (o_rows o') ->
  In p (o_rows o) \/
  exists w, w <> [] /\ (forall x, In x w -> In x (o_rows o)) /\ averages summing w p.
Proof. exact downsample_averages. Qed.
Print Assumptions C45_averages.

(** One window of three rows with weights 1*5, 2*10 and 3*5; the second is flagged in channel 1. *)
Definition ex_window : list trow :=
  [mkTrow 1 0 0 (Q2Qc 5) (fun _ _ => (Q2Qc 1, 0)) (fun _ _ => false) (fun _ _ => 1);
   mkTrow 1 0 (Q2Qc 1) (Q2Qc 10) (fun _ _ => (Q2Qc 3, 0)) (fun j _ => (j =? 1)%nat) (fun _ _ => Q2Qc 2);
   mkTrow 1 0 (Q2Qc 2) (Q2Qc 5) (fun _ _ => (Q2Qc 5, 0)) (fun _ _ => false) (fun _ _ => Q2Qc 3)].
Example C45_nonvacuous : averages false ex_window (average_rows false 1 ex_window (total_time ex_window)) /\
  match downsample_in_time (Some (Q2Qc 20)) None true false by_time (mkTobj ex_window 1 1) with
  | Ok o' => map (fun r => (this (t_time r), this (t_int r), this (fst (t_data r 0 0)), this (fst (t_data r 1 0)), this (t_ns r 1 0))) (o_rows o')
             = [(1, 20, 7 # 2, 4, 1)]%Q
  | Err _ => False end.
Proof.
  split; [apply average_spec; [discriminate|intros x [<-|[<-|[<-|[]]]]; reflexivity]|]. vm_compute. reflexivity.
Qed.

(** ** C71 *)
(** Nothing is done when all integrations are within a factor of two of the target. *)
Theorem C71_unchanged : forall target only_down only_up keep summing leb o,
  0 < target -> o_rows o <> [] ->
  (forall r, In r (o_rows o) -> 0 < t_int r /\ target < Q2Qc 2 * t_int r /\ t_int r < Q2Qc 2 * target) ->
  resample_in_time target only_down only_up keep summing leb o = Ok o.
Proof. exact resample_unchanged. Qed.
Print Assumptions C71_unchanged.
Example C71_unchanged_nonvacuous : forall r, In r (o_rows ex_down) -> 0 < t_int r /\ Q2Qc (99 # 10) < Q2Qc 2 * t_int r.
Proof. intros r [<-|[<-|[<-|[<-|[<-|[]]]]]]; split; reflexivity. Qed.

(** When an integration is at least twice the target, none longer than it is left. *)
Theorem C71_short_enough : forall target only_up keep summing leb o o',
  0 < target -> resample_in_time target false only_up keep summing leb o = Ok o' ->
  (exists r, In r (o_rows o) /\ Q2Qc 2 * target <= t_int r) ->
  forall p, In p (o_rows o') -> t_int p <= target * Q2Qc (100001001 # 100000000) + milli.
Proof. exact resample_short_enough. Qed.
Print Assumptions C71_short_enough.
Example C71_short_enough_nonvacuous :
  view (resample_in_time (Q2Qc 10) false false true false by_time ex_down) =
    Some [(2%Z, - 1 # 17280, 10); (2%Z, 1 # 17280, 10); (1%Z, 1 # 2, 10); (2%Z, 17279 # 17280, 10); (2%Z, 17281 # 17280, 10); (1%Z, 2, 5)]%Q.
Proof. vm_compute. reflexivity. Qed.

(** With only_upsample nothing is averaged: the result is the object itself or what
    upsample_in_time gives ... *)
Theorem C71_only_upsample : forall target keep summing leb o o',
  resample_in_time target false true keep summing leb o = Ok o' ->
  ((forall r, In r (o_rows o) -> t_int r < Q2Qc 2 * target) /\ 0 < target -> o' = o) /\
  (o' = o \/ upsample_in_time target summing leb o = Ok o').
Proof. exact resample_only_up. Qed.
Print Assumptions C71_only_upsample.
Example C71_only_upsample_nonvacuous :
  view (resample_in_time (Q2Qc 10) false true true false by_time ex_down) =
    Some [(2%Z, - 1 # 17280, 10); (1%Z, 0, 5); (2%Z, 1 # 17280, 10); (2%Z, 17279 # 17280, 10); (1%Z, 1, 5); (2%Z, 17281 # 17280, 10); (1%Z, 2, 5)]%Q.
Proof. vm_compute. reflexivity. Qed.

(** ... with only_downsample nothing is split ... *)
Theorem C71_only_downsample : forall target keep summing leb o o',
  resample_in_time target true false keep summing leb o = Ok o' ->
  ((forall r, In r (o_rows o) -> 0 < t_int r /\ target < Q2Qc 2 * t_int r) -> o' = o) /\
  (o' = o \/ downsample_in_time (Some target) None keep summing leb o = Ok o').
Proof. exact resample_only_down. Qed.
Print Assumptions C71_only_downsample.
Example C71_only_downsample_nonvacuous :
  view (resample_in_time (Q2Qc 10) true false true false by_time ex_down) =
    Some [(2%Z, 0, 20); (1%Z, 1 # 2, 10); (2%Z, 1, 20); (1%Z, 2, 5)]%Q.
Proof. vm_compute. reflexivity. Qed.

(** ... and with both nothing is done. *)
Theorem C71_neither : forall target keep summing leb o o',
  resample_in_time target true true keep summing leb o = Ok o' -> o' = o.
Proof. exact resample_neither. Qed.
Print Assumptions C71_neither.
Example C71_neither_nonvacuous : resample_in_time (Q2Qc 10) true true true false by_time ex_down = Ok ex_down.
Proof. vm_compute. reflexivity. Qed.

(** Resampling may lose most of a baseline's data ... *)
Theorem C71_loses_data_refuted : exists target o o', nbls_ok o /\ several_times o /\ positive_times o /\ 0 < target /\
  resample_in_time target false false true false by_time o = Ok o' /\
  total_time (on_baseline 1 (o_rows o)) = Q2Qc (150005 # 10000) /\ total_time (on_baseline 1 (o_rows o')) = Q2Qc 5.
Proof. exact resample_loses. Qed.
Print Assumptions C71_loses_data_refuted.

(** ... and may make integrations of twice the target out of shorter ones. *)
Theorem C71_lengthens_refuted : exists target o o' p, nbls_ok o /\ several_times o /\ positive_times o /\ 0 < target /\
  (forall r, In r (o_rows o) -> t_int r < Q2Qc 2 * target) /\
  resample_in_time target false false true false by_time o = Ok o' /\ In p (o_rows o') /\ Q2Qc 2 * target <= t_int p.
Proof. exact resample_lengthens. Qed.
Print Assumptions C71_lengthens_refuted.
