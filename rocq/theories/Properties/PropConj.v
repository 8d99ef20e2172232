(** Properties C24, C25 and C62: conjugating baselines. *)
From Coq Require Import List ZArith Bool Permutation Lia.
From Verif Require Import Lib.Py Lib.Cube Lib.Slice Spec.BlsSpec Spec.BltSpec Spec.PolSpec Spec.ToolsSpec Spec.UVDataSpec Spec.AccessSpec Spec.ConjSpec
  Model.Tools Model.UVData Model.Reorder Model.Access
  Proofs.ReorderProofs Proofs.Samples Proofs.AccessProofs Proofs.AccessRead Proofs.ConjSame Proofs.ConjQuery Proofs.ConjCases.
Import ListNotations.
Open Scope Z_scope.

(** C24: exactly the rows asked for are turned round; all other rows and all
    other arrays are unchanged; counts and default baseline numbers stay right. *)
Theorem C24_turns_exactly_the_asked_rows :
  forall conv tol enu u u',
  blt_shaped u -> Forall legal_pol (polarization_array u) -> NoDup (polarization_array u) ->
  conjugate_bls conv tol (conj_coords enu u) u = Ok u' ->
  blt_shaped u' /\ same_stamps u u' /\ same_freq_axis u u' /\ polarization_array u' = polarization_array u /\
  flag_array u' = flag_array u /\ nsample_array u' = nsample_array u /\
  (counts_ok u -> counts_ok u') /\ (default_coded u -> default_coded u') /\
  exists P, ((exists i, (i < length (time_array u))%nat /\ asked conv tol enu u i) -> conj_positions u P) /\
  forall i, (i < length (time_array u))%nat ->
    (asked conv tol enu u i -> row_turned P u u' i) /\ (~ asked conv tol enu u i -> row_copied u i u' i).
Proof. exact conjugate_rows. Qed.
Print Assumptions C24_turns_exactly_the_asked_rows.

Example C24_case : blt_shaped square /\ default_coded square /\ asked ULt0 0 None square 0 /\ ~ asked ULt0 0 None square 1 /\
  exists u', conjugate_bls ULt0 0 (conj_coords None square) square = Ok u' /\
   ant_1_array u' = [1; 2; 1; 2] /\ ant_2_array u' = [0; 0; 0; 0] /\ data_array u' 2%nat 1%nat 3%nat = (212, -3) /\
   nth 0 (uvw_array u') (0, 0, 0) = (-1, -5, -1).
Proof.
  split; [apply square_consistent|]. split; [apply sample_default; repeat constructor; simpl; lia|].
  split; [apply lp_here; cbn; lia|]. split; [intros H; inversion H as [|? ? A B]; subst; cbn in *; lia|].
  eexists. split; [reflexivity|]. repeat split.
Qed.

Theorem C24_succeeds :
  forall conv tol enu u, blt_shaped u -> Forall legal_pol (polarization_array u) ->
  (forall p, In p (polarization_array u) -> In (swapped p) (polarization_array u)) -> default_coded u ->
  (forall idx, conv = ConjIndex idx -> idx <> [] /\ Forall (fun z => 0 <= z < Z.of_nat (length (time_array u))) idx) ->
  exists u', conjugate_bls conv tol (conj_coords enu u) u = Ok u'.
Proof. exact conjugate_succeeds. Qed.
Print Assumptions C24_succeeds.

Theorem C24_rejects_missing_conjugate_polarization :
  forall conv tol enu u, blt_shaped u -> Forall legal_pol (polarization_array u) ->
  (exists p, In p (polarization_array u) /\ ~ In (swapped p) (polarization_array u)) ->
  (exists i, (i < length (time_array u))%nat /\ asked conv tol enu u i) ->
  conjugate_bls conv tol (conj_coords enu u) u = Err ValueError.
Proof. exact conjugate_needs_both. Qed.
Print Assumptions C24_rejects_missing_conjugate_polarization.

Example C24_rejects_case : In (-7) (polarization_array both_ways) /\ ~ In (swapped (-7)) (polarization_array both_ways) /\
  asked Ant1LtAnt2 0 None both_ways 0.
Proof. split; [simpl; auto|]. split; [simpl; intros [H|[H|[]]]; discriminate|cbn; lia]. Qed.

(** Afterwards every row satisfies the convention and a second call does nothing. *)
Theorem C24_convention_holds_afterwards :
  forall conv tol enu u u',
  blt_shaped u -> Forall legal_pol (polarization_array u) -> NoDup (polarization_array u) ->
  ~ is_index conv -> (by_antenna conv \/ 0 <= tol) ->
  conjugate_bls conv tol (conj_coords enu u) u = Ok u' ->
  (forall i, (i < length (time_array u))%nat -> ~ asked conv tol enu u' i) /\
  conjugate_bls conv tol (conj_coords enu u') u' = Ok u'.
Proof. exact conjugate_done. Qed.
Print Assumptions C24_convention_holds_afterwards.

(** An index list applied twice gives the original rows back. *)
Theorem C24_index_list_is_an_involution :
  forall idx tol enu u u1 u2,
  blt_shaped u -> Forall legal_pol (polarization_array u) -> NoDup (polarization_array u) -> default_coded u ->
  conjugate_bls (ConjIndex idx) tol (conj_coords enu u) u = Ok u1 ->
  conjugate_bls (ConjIndex idx) tol (conj_coords enu u1) u1 = Ok u2 ->
  same_freq_axis u u2 /\ polarization_array u2 = polarization_array u /\
  (counts_ok u -> Nbls u2 = Nbls u /\ Ntimes u2 = Ntimes u) /\
  forall i, (i < length (time_array u))%nat -> row_copied u i u2 i.
Proof. exact conjugate_twice. Qed.
Print Assumptions C24_index_list_is_an_involution.

Example C24_involution_case : exists u1 u2,
  conjugate_bls (ConjIndex [3; 1; 3]) 0 (conj_coords None square) square = Ok u1 /\ ant_1_array u1 = [0; 0; 0; 0] /\
  conjugate_bls (ConjIndex [3; 1; 3]) 0 (conj_coords None u1) u1 = Ok u2.
Proof. do 2 eexists. split; [reflexivity|]. split; [reflexivity|]. reflexivity. Qed.

(** Every pair and polarization reads the same before and after, up to the order
    of the rows (the times move with the data). *)
Theorem C24_visibilities_unchanged :
  forall conv tol enu o o' a b p, reachable o -> consistent (o_u o) -> consistent (o_u o') ->
  Forall legal_pol (polarization_array (o_u o)) -> NoDup (polarization_array (o_u o)) ->
  obj_conjugate conv tol (conj_coords enu (o_u o)) o = (o', Ok tt) -> legal_pol p -> a <> b ->
  let k := KPairN a b p in
  same_answers (snd (get_times k o)) (snd (get_times k o')) (snd (get_data k o)) (snd (get_data k o')).
Proof. exact conj_visibilities. Qed.
Print Assumptions C24_visibilities_unchanged.

Example C24_visibilities_case : exists o', obj_conjugate Ant1LtAnt2 0 (conj_coords None flagged_xy) (fresh flagged_xy None) = (o', Ok tt) /\
  consistent flagged_xy /\ consistent (o_u o') /\ ant_1_array (o_u o') <> ant_1_array flagged_xy.
Proof.
  eexists. split; [reflexivity|]. split; [exact flagged_xy_consistent|]. split; [exact square_turned_consistent|]. discriminate.
Qed.

(** Finding: baseline numbers written in the 256 scheme get mixed with the
    default scheme, and the list of antenna pairs is then wrong. *)
Theorem C24_mixed_numbering_refuted :
  exists u u', consistent u /\ conjugate_bls Ant1LtAnt2 0 (conj_coords None u) u = Ok u' /\
  ~ bl_coded u' /\ exists l a b, get_antpairs u' = Ok l /\ In (a, b) l /\ pair_rows u' a b = [].
Proof. exact schemes_mixed. Qed.
Print Assumptions C24_mixed_numbering_refuted.

(** C25: flags and sample counts stay with their visibility for polarizations
    that conjugation does not exchange. *)
Theorem C25_flags_follow_unswapped_polarizations :
  forall conv tol enu o o' a b p, reachable o -> consistent (o_u o) -> consistent (o_u o') ->
  Forall legal_pol (polarization_array (o_u o)) -> NoDup (polarization_array (o_u o)) ->
  obj_conjugate conv tol (conj_coords enu (o_u o)) o = (o', Ok tt) -> legal_pol p -> swapped p = p -> a <> b ->
  let k := KPairN a b p in
  same_answers (snd (get_times k o)) (snd (get_times k o')) (snd (get_flags k o)) (snd (get_flags k o')).
Proof. exact (fun cv t e o o' a b p => conj_flags flag_array cv t e o o' a b p (fun u u' E _ => E)). Qed.
Print Assumptions C25_flags_follow_unswapped_polarizations.

Theorem C25_nsamples_follow_unswapped_polarizations :
  forall conv tol enu o o' a b p, reachable o -> consistent (o_u o) -> consistent (o_u o') ->
  Forall legal_pol (polarization_array (o_u o)) -> NoDup (polarization_array (o_u o)) ->
  obj_conjugate conv tol (conj_coords enu (o_u o)) o = (o', Ok tt) -> legal_pol p -> swapped p = p -> a <> b ->
  let k := KPairN a b p in
  same_answers (snd (get_times k o)) (snd (get_times k o')) (snd (get_nsamples k o)) (snd (get_nsamples k o')).
Proof. exact (fun cv t e o o' a b p => conj_flags nsample_array cv t e o o' a b p (fun u u' _ E => E)). Qed.
Print Assumptions C25_nsamples_follow_unswapped_polarizations.

(** Finding: for a cross polarization they do not.  Here (2, 0, xy) is wholly
    flagged before the call and wholly unflagged after it. *)
Theorem C25_cross_polarization_flags_refuted :
  exists conv o o' r r', reachable o /\ consistent (o_u o) /\ consistent (o_u o') /\
  obj_conjugate conv 0 (conj_coords None (o_u o)) o = (o', Ok tt) /\
  snd (get_flags (KPairN 2 0 (-7)) o) = Ok r /\ snd (get_flags (KPairN 2 0 (-7)) o') = Ok r' /\
  (forall row f, In row r -> In f (concat row) -> f = true) /\ (forall row f, In row r' -> In f (concat row) -> f = false) /\
  r <> [] /\ r' <> [].
Proof. exact flags_left_behind. Qed.
Print Assumptions C25_cross_polarization_flags_refuted.

(** C62: the rectangularity flag stays truthful when whole baselines are turned
    that do not run into one recorded in the other direction. *)
Theorem C62_conjugate_keeps_rectangularity_truthful :
  forall conv tol enu u u', blt_shaped u -> Forall legal_pol (polarization_array u) -> NoDup (polarization_array u) ->
  default_coded u -> rect_truthful u -> turns_cleanly (asked conv tol enu u) u ->
  conjugate_bls conv tol (conj_coords enu u) u = Ok u' -> rect_truthful u'.
Proof. exact conj_rectangular. Qed.
Print Assumptions C62_conjugate_keeps_rectangularity_truthful.

Theorem C62_antenna_order_keeps_rectangularity_truthful :
  forall conv tol enu u u', conv = Ant1LtAnt2 \/ conv = Ant2LtAnt1 ->
  blt_shaped u -> Forall legal_pol (polarization_array u) -> NoDup (polarization_array u) ->
  default_coded u -> rect_truthful u ->
  (forall i j, (i < length (time_array u))%nat -> (j < length (time_array u))%nat ->
     nth i (ant_1_array u) 0 = nth j (ant_2_array u) 0 -> nth i (ant_2_array u) 0 = nth j (ant_1_array u) 0 ->
     nth i (ant_1_array u) 0 = nth i (ant_2_array u) 0) ->
  conjugate_bls conv tol (conj_coords enu u) u = Ok u' -> rect_truthful u'.
Proof. exact conj_rect_ant. Qed.
Print Assumptions C62_antenna_order_keeps_rectangularity_truthful.

Example C62_case : rect_truthful flagged_xy /\ blts_are_rectangular flagged_xy = Some true /\
  turns_cleanly (asked Ant1LtAnt2 0 None flagged_xy) flagged_xy /\ blts_are_rectangular square_turned = Some true.
Proof.
  split; [apply flagged_xy_consistent|]. split; [reflexivity|]. split; [apply square_clean; left; reflexivity|reflexivity].
Qed.

(** Reordering either axis, and recomputing the flag, keep it truthful. *)
Theorem C62_reorder_pols_keeps_it :
  forall req u u', reorder_pols req u = Ok u' -> rect_truthful u -> rect_truthful u'.
Proof. exact reorder_pols_rect. Qed.
Print Assumptions C62_reorder_pols_keeps_it.

Theorem C62_reorder_blts_keeps_it :
  forall key minor u u', blt_shaped u -> counts_ok u -> records_distinct u ->
  reorder_blts (BltKey key) minor false None u = Ok u' -> rect_truthful u'.
Proof. exact reorder_key_rect. Qed.
Print Assumptions C62_reorder_blts_keeps_it.

Theorem C62_set_rectangularity_makes_it_true :
  forall u u', blt_shaped u -> counts_ok u -> declared_order_true (time_array u) (baseline_array u) (blt_order u) ->
  set_rectangularity true u = Ok u' -> rect_truthful u'.
Proof. exact set_rect_ok. Qed.
Print Assumptions C62_set_rectangularity_makes_it_true.

(** Finding: if a pair is recorded in both directions, the flag survives
    conjugate_bls although the axis is no longer rectangular, and antpair2ind
    then returns wrong rows. *)
Theorem C62_stale_after_conjugation_refuted :
  exists conv o o', reachable o /\ consistent (o_u o) /\ counts_ok (o_u o) /\
  obj_conjugate conv 0 (conj_coords None (o_u o)) o = (o', Ok tt) /\ counts_ok (o_u o') /\
  ~ rect_truthful (o_u o') /\
  pair_rows (o_u o') 0 1 = [0; 2; 3; 5]%nat /\
  exists ix, snd (antpair2ind 0 1 true o') = Ok (Some ix) /\ positions 6 ix = Ok [0; 2; 4].
Proof. exact rect_stale. Qed.
Print Assumptions C62_stale_after_conjugation_refuted.
