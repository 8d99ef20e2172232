(** C35, C36, C37: what select keeps. *)
From Coq Require Import List ZArith Bool QArith String Lia Sorted.
From Verif Require Import Lib.Py Lib.Np Lib.Cube Model.Tools Model.Pol Model.UVData Model.Freq Model.PhaseCenter Model.Times Model.Select
  Spec.BltSpec Spec.BlsSpec Spec.UVDataSpec Spec.FreqSpec Spec.TimesSpec Spec.AccessSpec Spec.SelectSpec
  Proofs.TimesProofs Proofs.SelectRows Proofs.SelectProofs Proofs.SelectTotal Proofs.SelectCases.
Import ListNotations.
Notation length := List.length.
Open Scope Z_scope.
Open Scope list_scope.

(** C35: the result consists of exactly the baseline-times satisfying all
    criteria, the channels whose frequency is listed and the polarizations that
    are listed, all in their old order and unchanged. *)
Theorem C35_select_keeps_exactly : forall two_pi tols lst_tols cr keep_all o o',
  sel_ok o -> select two_pi tols lst_tols cr keep_all o = Ok o' -> flex_spw_polarization_array (so_freq o) = None ->
  let u := so_uvd o in
  exists ri rj rk,
    positions_of (Nblts u) (row_wanted two_pi tols lst_tols cr o) ri /\
    positions_of (Nfreqs u) (freq_wanted cr u) rj /\
    positions_of (Npols u) (fun k => pol_wanted cr o (nth k (polarization_array u) 0)) rk /\
    parts_picked ri rj rk o o' /\ picked 0 rk (polarization_array u) (polarization_array (so_uvd o')) /\
    flex_spw_polarization_array (so_freq o') = None.
Proof. exact select_keeps. Qed.
Print Assumptions C35_select_keeps_exactly.

(** With a flexible polarization axis a channel is kept iff its frequency is
    listed and its window's polarization is; if one polarization is left the
    axis becomes an ordinary one. *)
Theorem C35_flex_pol : forall two_pi tols lst_tols cr keep_all o o',
  sel_ok o -> select two_pi tols lst_tols cr keep_all o = Ok o' ->
  let u := so_uvd o in
  forall fp, flex_spw_polarization_array (so_freq o) = Some fp -> polarization_array u = [0] ->
  (restricts_pols cr -> exists p, pol_asked cr o p) -> ~ pol_asked cr o 0 ->
  exists ri rj rw fp',
    positions_of (Nblts u) (row_wanted two_pi tols lst_tols cr o) ri /\
    positions_of (Nfreqs u) (chan_wanted cr o fp) rj /\
    parts_picked ri rj [O] o o' /\ windows_left u (so_uvd o') rw /\ picked 0 rw fp fp' /\
    ((exists p, fp' <> [] /\ (forall x, In x fp' -> x = p) /\
        polarization_array (so_uvd o') = [p] /\ flex_spw_polarization_array (so_freq o') = None) \/
     ((forall p, fp' <> [] -> exists x, In x fp' /\ x <> p) /\
        polarization_array (so_uvd o') = [0] /\ flex_spw_polarization_array (so_freq o') = Some fp')).
Proof. exact select_keeps_flex. Qed.
Print Assumptions C35_flex_pol.

(** Without keep_all_metadata a selection on the baseline-time axis leaves the
    antennas that still have data; otherwise all are left. *)
Theorem C35_antennas : forall two_pi tols lst_tols cr keep_all o o',
  sel_ok o -> select two_pi tols lst_tols cr keep_all o = Ok o' ->
  (keep_all = false /\ restricts_rows cr -> antennas_picked o o') /\
  (keep_all = true \/ ~ restricts_rows cr -> so_antenna_numbers o' = so_antenna_numbers o /\ so_antenna_names o' = so_antenna_names o /\
     Nants_telescope (so_uvd o') = Nants_telescope (so_uvd o)).
Proof. exact select_antennas. Qed.
Print Assumptions C35_antennas.

(** A selection succeeds if everything it names is there and some baseline-time
    satisfies all criteria; *)
Theorem C35_select_succeeds : forall cr o, sel_ok o ->
  forall two_pi tols lst_tols keep_all, flex_spw_polarization_array (so_freq o) = None ->
  rows_request_ok two_pi tols lst_tols cr o -> freqs_request_ok cr (so_uvd o) -> pols_request_ok cr o ->
  (restricts_rows cr -> exists i, (i < Nblts (so_uvd o))%nat /\ row_wanted two_pi tols lst_tols cr o i) ->
  exists o', select two_pi tols lst_tols cr keep_all o = Ok o'.
Proof. exact select_succeeds. Qed.
Print Assumptions C35_select_succeeds.

(** if none does, it is an error. *)
Theorem C35_no_row_is_an_error : forall cr o, sel_ok o ->
  forall two_pi tols lst_tols keep_all,
  restricts_rows cr -> (forall i, (i < Nblts (so_uvd o))%nat -> ~ row_wanted two_pi tols lst_tols cr o i) ->
  exists e, select two_pi tols lst_tols cr keep_all o = Err e.
Proof. exact select_empty. Qed.
Print Assumptions C35_no_row_is_an_error.

(** Antennas 0 and 2 and time 2, window 5, polarization yy. *)
Definition one_of_each : criteria :=
  mkCriteria (Some [0; 2]) None None (Some [100; 200]) None (mkTimeRequest (Some [2]) None None None) (Some [PolStr "yy"%string]) None None None.
Example C35_case : let o := sel_obj three [100; 200; 300; 400] [-5; -6] None in
  sel_ok o /\ exists o', select 628 (0, 0)%Q (0, 0)%Q one_of_each false o = Ok o' /\
  let u := so_uvd o' in
  time_array u = [2] /\ ant_1_array u = [0] /\ ant_2_array u = [2] /\ freq_array u = [100; 200] /\ spw_array u = [5] /\ polarization_array u = [-6] /\
  data_array u 0%nat 1%nat 0%nat = (411, 1) /\ so_antenna_names o' = ["a"; "c"]%string.
Proof.
  split.
  - apply sel_obj_ok; [reflexivity | repeat constructor; simpl; intuition discriminate | | discriminate | discriminate].
    intros a b I. simpl in I. destruct I as [E | [E | [E | []]]]; injection E as <- <-; lia.
  - eexists. split; [vm_compute; reflexivity|]. vm_compute. repeat split.
Qed.

Example C35_flex_case : let o := sel_obj three [100; 200; 300; 400] [0] (Some [-5; -6]) in
  sel_ok o /\ exists o', select 628 (0, 0)%Q (0, 0)%Q one_of_each true o = Ok o' /\
  let u := so_uvd o' in freq_array u = [100; 200] /\ polarization_array u = [-6] /\ flex_spw_polarization_array (so_freq o') = None.
Proof.
  split.
  - apply sel_obj_ok; [reflexivity | repeat constructor; simpl; intuition discriminate | | discriminate |].
    + intros a b I. simpl in I. destruct I as [E | [E | [E | []]]]; injection E as <- <-; lia.
    + intros f E. injection E as <-. reflexivity.
  - eexists. split; [vm_compute; reflexivity|]. vm_compute. repeat split.
Qed.

Example C35_success_case : let o := sel_obj three [100; 200; 300; 400] [-5; -6] None in
  rows_request_ok 628 (0, 0)%Q (0, 0)%Q one_of_each o /\ freqs_request_ok one_of_each (so_uvd o) /\ pols_request_ok one_of_each o.
Proof.
  cbv zeta. split; [|split].
  - repeat split; cbn [one_of_each cr_phase_center_ids cr_catalog_names cr_antenna_nums cr_antenna_names cr_blt_inds cr_bls cr_time]; auto; try discriminate.
    + intros l n E I. injection E as <-. simpl in I. simpl. destruct I as [<- | [<- | []]]; auto 10.
    + right. apply times_total. eexists. vm_compute. reflexivity.
  - repeat split; cbn [one_of_each cr_frequencies cr_freq_chans]; try discriminate.
    + intros l f E I. injection E as <-. simpl in *. tauto.
    + right; left. exists 0%nat, 1%nat. split; [unfold Nfreqs; simpl; lia|]. unfold freq_wanted. cbn.
      split; [right; left; eexists; split; [reflexivity|]; simpl; auto|]. split; [right; left; eexists; split; [reflexivity|]; simpl; auto|].
      split; [intros x L; lia | reflexivity].
  - repeat split; cbn [one_of_each cr_polarizations cr_bls]; try discriminate.
    + intros (l & a & b & s & E & _). discriminate.
    + intros l n E I. injection E as <-. simpl in I. destruct I as [E | []]. discriminate.
    + intros l s E I. injection E as <-. simpl in I. destruct I as [E | []]. injection E as <-. exists (-6). split; [reflexivity | simpl; auto].
Qed.

(** Finding: without keep_all_metadata the equalization coefficients keep a row
    for every antenna of the old telescope. *)
Theorem C35_eq_coeffs_refuted : exists cr o o', sel_ok o /\ eq_coeffs (so_freq o) <> None /\ so_eq_rows o = length (so_antenna_numbers o) /\
  select 628 (0, 0)%Q (0, 0)%Q cr false o = Ok o' /\ eq_coeffs (so_freq o') <> None /\ so_eq_rows o' <> length (so_antenna_numbers o').
Proof.
  exists one_of_each, (sel_obj three [100; 200; 300; 400] [-5; -6] None). eexists. split; [apply C35_case|]. split; [discriminate|]. split; [reflexivity|].
  split; [vm_compute; reflexivity|]. vm_compute. split; discriminate.
Qed.
Print Assumptions C35_eq_coeffs_refuted.

(** Finding: two frequencies of different windows cannot be selected together,
    although both are there. *)
Definition two_freqs : criteria :=
  mkCriteria None None None (Some [200; 300]) None (mkTimeRequest None None None None) None None None None.
Theorem C35_one_channel_per_window_refuted : exists cr o, sel_ok o /\
  (forall f, cr_frequencies cr = Some f -> f <> [] /\ forall x, In x f -> In x (freq_array (so_uvd o))) /\
  cr = two_freqs /\ select 628 (0, 0)%Q (0, 0)%Q cr true o = Err ValueError.
Proof.
  exists two_freqs, (sel_obj three [100; 200; 300; 400] [-5; -6] None). split; [apply C35_case|]. split; [|split; reflexivity].
  intros f E. injection E as <-. split; [discriminate|]. simpl. tauto.
Qed.
Print Assumptions C35_one_channel_per_window_refuted.

(** Finding: a polarization in one of the baselines silently replaces the
    polarizations argument if another baseline has none. *)
Definition mixed : criteria :=
  mkCriteria None None (Some (BlTuples [(0, 1, Some "xx"%string); (0, 2, None)])) None None (mkTimeRequest None None None None)
    (Some [PolNum (-6)]) None None None.
Theorem C35_mixed_tuples_refuted : exists cr o o', sel_ok o /\ cr_polarizations cr = Some [PolNum (-6)] /\
  select 628 (0, 0)%Q (0, 0)%Q cr true o = Ok o' /\ polarization_array (so_uvd o') = [-5].
Proof.
  exists mixed, (sel_obj three [100; 200; 300; 400] [-5; -6] None). eexists. split; [apply C35_case|]. split; [reflexivity|].
  split; [vm_compute; reflexivity|]. vm_compute. reflexivity.
Qed.
Print Assumptions C35_mixed_tuples_refuted.

(** C36: if each pair of antennas is stored in one direction only, baselines may
    be written either way round. *)
Theorem C36_baselines_either_way : forall o, sel_ok o -> one_orientation (so_uvd o) ->
  forall two_pi tols lst_tols cr keep_all l l', Forall2 same_baseline l l' ->
  select two_pi tols lst_tols (with_bls cr (BlTuples l)) keep_all o = select two_pi tols lst_tols (with_bls cr (BlTuples l')) keep_all o.
Proof. exact select_turned. Qed.
Print Assumptions C36_baselines_either_way.

Example C36_case : let o := sel_obj three [100; 200; 300; 400] [-5; -6] None in
  sel_ok o /\ one_orientation (so_uvd o) /\ Forall2 same_baseline [(0, 1, None); (1, 2, Some "xy"%string)] [(1, 0, None); (2, 1, Some "yx"%string)] /\
  exists o', select 628 (0, 0)%Q (0, 0)%Q (with_bls everything (BlTuples [(1, 0, None); (1, 2, None)])) true o = Ok o' /\ ant_2_array (so_uvd o') = [1; 2; 1; 2].
Proof.
  split; [apply C35_case|]. split; [|split].
  - intros a b N (i & L & A & B) (j & L' & A' & B'). unfold ant1, ant2 in *. vm_compute in L, L'. cbn [so_uvd sel_obj so_freq fo_uvd] in *.
    do 6 (destruct i as [|i]; [do 6 (destruct j as [|j]; [simpl in *; lia|]); lia|]); lia.
  - repeat constructor. discriminate.
  - eexists. split; vm_compute; reflexivity.
Qed.

(** If both directions are stored, (a, b) and (b, a) select different records. *)
Theorem C36_both_directions_refuted : exists o o1 o2 a b, sel_ok o /\
  select 628 (0, 0)%Q (0, 0)%Q (with_bls everything (BlTuples [(a, b, None)])) true o = Ok o1 /\
  select 628 (0, 0)%Q (0, 0)%Q (with_bls everything (BlTuples [(b, a, None)])) true o = Ok o2 /\
  baseline_array (so_uvd o1) <> baseline_array (so_uvd o2).
Proof.
  exists (sel_obj [(0, 1); (1, 0)] [100; 200; 300; 400] [-5; -6] None). do 2 eexists. exists 0, 1. split; [|split; [vm_compute; reflexivity|split; [vm_compute; reflexivity|vm_compute; discriminate]]].
  apply sel_obj_ok; [reflexivity | repeat constructor; simpl; intuition discriminate | | discriminate | discriminate].
  intros a b I. simpl in I. destruct I as [E | [E | []]]; injection E as <- <-; lia.
Qed.
Print Assumptions C36_both_directions_refuted.

(** C37: with distinct frequencies, freq_chans keeps exactly the channels listed
    (a negative number counts from the end). *)
Theorem C37_channels_exact : forall two_pi tols lst_tols cr keep_all o o' L, sel_ok o -> flex_spw_polarization_array (so_freq o) = None ->
  select two_pi tols lst_tols cr keep_all o = Ok o' -> NoDup (freq_array (so_uvd o)) ->
  cr_frequencies cr = None -> cr_freq_chans cr = Some L ->
  exists ri rj rk, positions_of (Nfreqs (so_uvd o)) (fun j => exists c, In c L /\ denotes (Nfreqs (so_uvd o)) c j) rj /\ parts_picked ri rj rk o o'.
Proof. exact select_chans. Qed.
Print Assumptions C37_channels_exact.

Definition chans (l : list Z) : criteria :=
  mkCriteria None None None None (Some l) (mkTimeRequest None None None None) None None None None.
Example C37_case : let o := sel_obj three [100; 200; 300; 400] [-5; -6] None in
  sel_ok o /\ exists o', select 628 (0, 0)%Q (0, 0)%Q (chans [-1; 2]) true o = Ok o' /\ freq_array (so_uvd o') = [300; 400].
Proof. split; [apply C35_case|]. eexists. split; vm_compute; reflexivity. Qed.

(** With a frequency repeated in another window more channels are kept. *)
Theorem C37_repeated_frequency_refuted : exists o o', sel_ok o /\ select 628 (0, 0)%Q (0, 0)%Q (chans [0]) true o = Ok o' /\
  flex_spw_id_array (so_uvd o') = [5; 7].
Proof.
  exists (sel_obj three [100; 200; 100; 300] [-5; -6] None). eexists. split; [|split; vm_compute; reflexivity].
  apply sel_obj_ok; [reflexivity | repeat constructor; simpl; intuition discriminate | | discriminate | discriminate].
  intros a b I. simpl in I. destruct I as [E | [E | [E | []]]]; injection E as <- <-; lia.
Qed.
Print Assumptions C37_repeated_frequency_refuted.

(** C62: select keeps the rectangularity flag truthful. *)
Theorem C62_select_keeps_it : forall two_pi tols lst_tols cr keep_all o o', sel_ok o -> select two_pi tols lst_tols cr keep_all o = Ok o' ->
  rect_truthful (so_uvd o) -> declared_order_true (time_array (so_uvd o)) (baseline_array (so_uvd o)) (blt_order (so_uvd o)) ->
  rect_truthful (so_uvd o').
Proof. exact select_rect. Qed.
Print Assumptions C62_select_keeps_it.

Example C62_select_case : let o := sel_obj three [100; 200; 300; 400] [-5; -6] None in
  rect_truthful (so_uvd o) /\ blts_are_rectangular (so_uvd o) = Some true /\
  declared_order_true (time_array (so_uvd o)) (baseline_array (so_uvd o)) (blt_order (so_uvd o)) /\
  exists o', select 628 (0, 0)%Q (0, 0)%Q one_of_each true o = Ok o' /\ blts_are_rectangular (so_uvd o') = Some true.
Proof.
  split; [|split; [reflexivity|split; [split; discriminate|]]].
  - intros _. exists [1; 2], [67585 - 2048; 67586 - 2048; 67586]. split; [reflexivity|]. split; [reflexivity|]. vm_compute. repeat split; repeat constructor; simpl; intuition discriminate.
  - eexists. split; vm_compute; reflexivity.
Qed.
