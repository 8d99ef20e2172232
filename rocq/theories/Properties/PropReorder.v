(** Properties C16 and C19: reordering the polarization and baseline-time axes. *)
From Coq Require Import List ZArith Bool Sorted Permutation Lia.
From Verif Require Import Lib.Py Lib.Np Lib.Cube Spec.BltSpec Spec.UVDataSpec Spec.PolSpec
  Model.Pol Model.UVData Model.Reorder Proofs.ReorderProofs Proofs.Samples.
Import ListNotations.
Open Scope Z_scope.

(** C16: with a named order the polarizations are rearranged, nothing is lost,
    every array moves along, and the result is in the requested order. *)
Theorem C16_reorder_pols_sorts_and_keeps_records :
  forall order u u', reorder_pols (PolOrder order) u = Ok u' ->
  exists sigma, Permutation sigma (seq 0 (Npols u)) /\ Npols u' = Npols u /\
   (forall k, (k < Npols u)%nat -> pol_copied u (nth k sigma 0%nat) u' k) /\
   same_blt_axis u u' /\ same_freq_axis u u' /\
   match order with
   | AIPS => StronglySorted (fun a b => Z.abs a <= Z.abs b) (polarization_array u')
   | CASA => Forall legal_pol (polarization_array u) ->
             StronglySorted (fun a b => casa_rank a <= casa_rank b) (polarization_array u')
   | OtherOrder => False
   end.
Proof. exact reorder_pols_named. Qed.
Print Assumptions C16_reorder_pols_sorts_and_keeps_records.

Theorem C16_reorder_pols_succeeds :
  forall order u, order <> OtherOrder -> Forall legal_pol (polarization_array u) ->
  exists u', reorder_pols (PolOrder order) u = Ok u'.
Proof. exact reorder_pols_succeeds. Qed.
Print Assumptions C16_reorder_pols_succeeds.

Example C16_case : exists u',
  reorder_pols (PolOrder CASA) (sample [(1, 0, 1)] [-5; -6; -7; -8] 1 1 None None false) = Ok u' /\
  polarization_array u' = [-5; -7; -8; -6] /\ data_array u' 0%nat 1%nat 1%nat = (12, 1).
Proof. eexists. split; [reflexivity|]. split; reflexivity. Qed.

(** With an index list the named polarizations are taken in that order. *)
Theorem C16_reorder_pols_by_index :
  forall idx u u', reorder_pols (PolIndex idx) u = Ok u' ->
  length idx = Npols u /\ Npols u' = Npols u /\
  Forall (fun i => 0 <= i < Z.of_nat (Npols u)) idx /\
  (forall k, (k < Npols u)%nat -> pol_copied u (Z.to_nat (nth k idx 0)) u' k) /\
  same_blt_axis u u' /\ same_freq_axis u u'.
Proof. exact reorder_pols_index. Qed.
Print Assumptions C16_reorder_pols_by_index.

(** C19: a named order rearranges whole records and sorts them. *)
Theorem C19_reorder_blts_permutes_and_sorts :
  forall key minor autos_first u u', blt_shaped u ->
  reorder_blts (BltKey key) minor autos_first None u = Ok u' ->
  exists keys sigma,
  blt_order u' = Some keys /\ hd_error keys = Some key /\
  (forall m, minor = Some m -> m <> key -> keys = [key; m]) /\
  Permutation sigma (seq 0 (Nblts u)) /\ Nblts u' = Nblts u /\ blt_shaped u' /\
  (forall i, (i < Nblts u)%nat -> row_copied u (nth i sigma 0%nat) u' i) /\
  polarization_array u' = polarization_array u /\ same_freq_axis u u' /\
  axis_sorted autos_first keys u'.
Proof. exact reorder_named_keys. Qed.
Print Assumptions C19_reorder_blts_permutes_and_sorts.

Definition shuffled : uvd :=
  sample [(2, 1, 1); (1, 0, 1); (2, 0, 1); (1, 1, 1)] [-5; -7] 2 2 None None false.
Example C19_case : blt_shaped shuffled /\ counts_ok shuffled /\ exists u',
  reorder_blts (BltKey KTime) (Some KAnt1) false None shuffled = Ok u' /\
  time_array u' = [1; 1; 2; 2] /\ ant_1_array u' = [0; 1; 0; 1] /\ data_array u' 0%nat 0%nat 1%nat = (101, 2) /\
  blts_are_rectangular u' = Some true.
Proof.
  split; [apply sample_shaped|]. split; [split; apply distinct_count_unique; reflexivity|].
  eexists. split; [reflexivity|]. repeat split.
Qed.

Theorem C19_reorder_blts_succeeds :
  forall key minor autos_first u, blt_shaped u -> time_array u <> [] ->
  (minor = None \/ exists m, minor = Some m /\ m <> KBda /\ key <> KBda /\
                             (key = KBaseline -> m <> KAnt1 /\ m <> KAnt2)) ->
  exists u', reorder_blts (BltKey key) minor autos_first None u = Ok u'.
Proof. exact reorder_total. Qed.
Print Assumptions C19_reorder_blts_succeeds.

(** Reordering twice changes nothing the second time. *)
Theorem C19_reorder_blts_idempotent :
  forall key minor autos_first u u1 u2, blt_shaped u ->
  reorder_blts (BltKey key) minor autos_first None u = Ok u1 ->
  reorder_blts (BltKey key) minor autos_first None u1 = Ok u2 ->
  same_blt_axis u1 u2 /\ (forall i, (i < Nblts u)%nat -> row_copied u1 i u2 i) /\
  polarization_array u2 = polarization_array u1 /\ same_freq_axis u1 u2 /\ blt_order u2 = blt_order u1.
Proof. exact reorder_twice. Qed.
Print Assumptions C19_reorder_blts_idempotent.

(** The rectangularity flags recomputed by reorder_blts are truthful. *)
Theorem C19_rectangularity_after_reorder :
  forall key minor u u', blt_shaped u -> counts_ok u -> records_distinct u ->
  reorder_blts (BltKey key) minor false None u = Ok u' ->
  counts_ok u' /\ records_distinct u' /\ rect_truthful u'.
Proof. exact reorder_rect. Qed.
Print Assumptions C19_rectangularity_after_reorder.

(** With conj_convention the rows are first conjugated, then reordered. *)
Theorem C19_conjugation_comes_first :
  forall key minor autos_first conv tol coords u u',
  reorder_blts (BltKey key) minor autos_first (Some (conv, tol, coords)) u = Ok u' ->
  exists v, conjugate_bls conv tol coords u = Ok v /\ reorder_blts (BltKey key) minor autos_first None v = Ok u'.
Proof. exact (fun k m a cv t co u u' => reorder_conj_first k m a (cv, t, co) u u'). Qed.
Print Assumptions C19_conjugation_comes_first.

(** An index list takes whole records, negative positions counting from the end. *)
Theorem C19_reorder_blts_by_index :
  forall idx autos_first u u', blt_shaped u -> reorder_blts (BltIndex idx) None autos_first None u = Ok u' ->
  length idx = Nblts u /\ Nblts u' = Nblts u /\ blt_order u' = None /\ blt_shaped u' /\
  Forall (fun z => - Z.of_nat (Nblts u) <= z < Z.of_nat (Nblts u)) idx /\
  (forall i, (i < Nblts u)%nat -> row_copied u (Z.to_nat ((nth i idx 0) mod Z.of_nat (Nblts u))) u' i) /\
  polarization_array u' = polarization_array u /\ same_freq_axis u u'.
Proof. exact reorder_index. Qed.
Print Assumptions C19_reorder_blts_by_index.

(** But it is not checked to be a permutation: records can be lost. *)
Theorem C19_index_list_may_lose_records_refuted :
  exists u u' v v', blt_shaped u /\
  reorder_blts (BltIndex [0; 0]) None false None u = Ok u' /\ (forall i, (i < Nblts u')%nat -> ~ row_copied u 1 u' i) /\
  reorder_pols (PolIndex [1; 1]) v = Ok v' /\ (forall k, (k < Npols v')%nat -> ~ pol_copied v 0 v' k).
Proof. exact reorder_index_refuted. Qed.
Print Assumptions C19_index_list_may_lose_records_refuted.

(** With autos_first the recorded blt_order is not the order of the axis and the
    object can wrongly claim to be rectangular. *)
Theorem C19_autos_first_breaks_rectangularity_refuted :
  exists u u', blt_shaped u /\ counts_ok u /\ records_distinct u /\
  reorder_blts (BltKey KTime) None true None u = Ok u' /\
  ~ axis_sorted false [KTime; KBaseline] u' /\ blt_order u' = Some [KTime; KBaseline] /\ ~ rect_truthful u'.
Proof. exact reorder_autos_rect_refuted. Qed.
Print Assumptions C19_autos_first_breaks_rectangularity_refuted.
