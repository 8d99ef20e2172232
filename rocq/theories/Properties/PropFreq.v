(** Properties C31 and C32: the frequency axis. *)
From Coq Require Import List ZArith Bool Sorted Permutation Lia.
From Verif Require Import Lib.Py Lib.Np Spec.UVDataSpec Spec.FreqSpec Model.UVData Model.Freq Proofs.FreqProofs Proofs.FreqReorder.
Import ListNotations.
Open Scope Z_scope.

(** C31: the check accepts exactly the axes on which each window's channels are
    together and the windows are those of spw_array. *)
Theorem C31_contiguity_check_is_exact :
  forall spw_array flex_spw_id_array,
  flex_spw_id_array <> [] -> spw_array <> [] -> NoDup spw_array ->
  (check_flex_spw_contiguous spw_array flex_spw_id_array = Ok tt <->
   contiguous flex_spw_id_array /\ (forall w, In w flex_spw_id_array <-> In w spw_array)).
Proof. exact contiguity_exact. Qed.
Print Assumptions C31_contiguity_check_is_exact.

(** Interspersed channels raise ValueError, mismatched windows AssertionError. *)
Theorem C31_contiguity_check_errors :
  forall spw_array flex_spw_id_array,
  flex_spw_id_array <> [] -> spw_array <> [] -> NoDup spw_array ->
  (check_flex_spw_contiguous spw_array flex_spw_id_array = Err ValueError <->
   ~ contiguous flex_spw_id_array /\ (forall w, In w flex_spw_id_array <-> In w spw_array)) /\
  (check_flex_spw_contiguous spw_array flex_spw_id_array = Err AssertionError <->
   ~ (forall w, In w flex_spw_id_array <-> In w spw_array)).
Proof. exact contiguity_errors. Qed.
Print Assumptions C31_contiguity_check_errors.

Example C31_case :
  check_flex_spw_contiguous [3; 1] [1; 1; 3; 3; 3] = Ok tt /\
  check_flex_spw_contiguous [3; 1] [1; 3; 1; 3; 3] = Err ValueError /\
  check_flex_spw_contiguous [3; 1] [1; 3; 3; 4; 4] = Err AssertionError.
Proof. repeat split. Qed.

(** A window number listed twice in spw_array lets interspersed channels through. *)
Theorem C31_repeated_window_refuted :
  exists spw_array flex_spw_id_array,
  check_flex_spw_contiguous spw_array flex_spw_id_array = Ok tt /\
  (forall w, In w flex_spw_id_array <-> In w spw_array) /\ ~ contiguous flex_spw_id_array.
Proof. exact repeated_window_numbers. Qed.
Print Assumptions C31_repeated_window_refuted.

(** C32: whatever the arguments, reorder_freqs moves whole channels (frequency,
    width, window, data, flags, nsamples and equalization coefficients) by a
    permutation, changes nothing else, leaves a valid object and keeps each
    window's polarization. *)
Theorem C32_reorder_freqs_moves_whole_channels :
  forall spw_order channel_order select_spw o o',
  obj_ok o -> reorder_freqs spw_order channel_order select_spw o = Ok o' ->
  exists sigma, freqs_rearranged sigma o o' /\ obj_ok o' /\
  (forall w p, window_pol o' w p <-> window_pol o w p) /\
  (flex_spw_polarization_array o = None <-> flex_spw_polarization_array o' = None) /\
  (o' = o \/ appearance_order (flex_spw_id_array (fo_uvd o')) (spw_array (fo_uvd o'))).
Proof. exact rf_moves. Qed.
Print Assumptions C32_reorder_freqs_moves_whole_channels.

Definition two_windows : freqobj := fsample [5; 2] [5; 5; 2; 2; 2] [40; 30; 12; 10; 11] (Some [-5; -6]).
Example C32_case : obj_ok two_windows /\ exists o',
  reorder_freqs (Some (SpwNumber false)) (Some (ChanFreq true)) None two_windows = Ok o' /\
  flex_spw_id_array (fo_uvd o') = [2; 2; 2; 5; 5] /\ freq_array (fo_uvd o') = [12; 11; 10; 40; 30] /\
  spw_array (fo_uvd o') = [2; 5] /\ flex_spw_polarization_array o' = Some [-6; -5] /\
  data_array (fo_uvd o') 0%nat 1%nat 0%nat = (4, 1).
Proof.
  split.
  - split; [|intros fp E; injection E as <-; reflexivity]. split; [split; reflexivity|].
    split; [repeat constructor; simpl; lia|]. intros w. simpl. tauto.
  - eexists. split; [vm_compute; reflexivity|]. repeat split.
Qed.

(** Windows end up in blocks, in the requested order. *)
Theorem C32_windows_grouped_as_requested :
  forall request channel_order o o',
  obj_ok o -> reorder_freqs (Some request) channel_order None o = Ok o' ->
  (forall idx, channel_order <> Some (ChanIndex idx)) ->
  exists worder, Permutation worder (spw_array (fo_uvd o)) /\ windows_as_requested request (fo_uvd o) worder /\
  grouped (flex_spw_id_array (fo_uvd o)) (flex_spw_id_array (fo_uvd o')) worder.
Proof. exact (fun r co o o' Hok H Hn => rf_grouped _ _ _ _ _ Hok H r eq_refl eq_refl Hn). Qed.
Print Assumptions C32_windows_grouped_as_requested.

(** The channels of the selected windows (all of them without select_spw) end up
    in frequency order. *)
Theorem C32_channels_sorted :
  forall spw_order desc select_spw o o',
  obj_ok o -> reorder_freqs spw_order (Some (ChanFreq desc)) select_spw o = Ok o' ->
  channels_sorted desc (selected select_spw) (fo_uvd o').
Proof. exact (fun so d ss o o' Hok H => rf_sorted _ _ _ _ _ Hok H d eq_refl). Qed.
Print Assumptions C32_channels_sorted.

(** With select_spw, or without spw_order, every position keeps its window and
    the channels of the windows not selected stay where they are. *)
Theorem C32_other_windows_stay :
  forall spw_order channel_order select_spw o o',
  obj_ok o -> reorder_freqs spw_order channel_order select_spw o = Ok o' ->
  spw_order = None \/ select_spw <> None -> (forall idx, channel_order <> Some (ChanIndex idx)) ->
  flex_spw_id_array (fo_uvd o') = flex_spw_id_array (fo_uvd o) /\
  forall p, (p < Nfreqs (fo_uvd o))%nat ->
  (channel_order = None \/ ~ selected select_spw (nth p (flex_spw_id_array (fo_uvd o)) 0)) ->
  chan_copied (fo_uvd o) p (fo_uvd o') p.
Proof. exact rf_stay. Qed.
Print Assumptions C32_other_windows_stay.

Example C32_select_case : exists o',
  reorder_freqs (Some (SpwNumber false)) (Some (ChanFreq false)) (Some [2]) two_windows = Ok o' /\
  freq_array (fo_uvd o') = [40; 30; 10; 11; 12].
Proof. eexists. split; [vm_compute; reflexivity|reflexivity]. Qed.

(** Without channel_order the channels of a window keep their relative order. *)
Theorem C32_order_kept_within_windows :
  forall spw_order select_spw o o',
  obj_ok o -> reorder_freqs spw_order None select_spw o = Ok o' ->
  exists sigma, freqs_rearranged sigma o o' /\
  forall i j, (i < j < Nfreqs (fo_uvd o))%nat ->
  nth i (flex_spw_id_array (fo_uvd o')) 0 = nth j (flex_spw_id_array (fo_uvd o')) 0 ->
  (nth i sigma 0 < nth j sigma 0)%nat.
Proof. exact (fun so ss o o' Hok H => rf_keep _ _ _ _ _ Hok H eq_refl). Qed.
Print Assumptions C32_order_kept_within_windows.

(** An index array for channel_order is checked to be a permutation and obeyed. *)
Theorem C32_index_array_obeyed :
  forall spw_order idx select_spw o o',
  obj_ok o -> reorder_freqs spw_order (Some (ChanIndex idx)) select_spw o = Ok o' ->
  Permutation (map Z.to_nat idx) (seq 0 (Nfreqs (fo_uvd o))) /\
  Forall (fun i => 0 <= i < Z.of_nat (Nfreqs (fo_uvd o))) idx /\
  forall j, (j < Nfreqs (fo_uvd o))%nat -> chan_copied (fo_uvd o) (Z.to_nat (nth j idx 0)) (fo_uvd o') j.
Proof. exact (fun so idx ss o o' Hok H => rf_index _ _ _ _ _ Hok H idx eq_refl). Qed.
Print Assumptions C32_index_array_obeyed.

(** No legal request is refused. *)
Theorem C32_reorder_freqs_succeeds :
  forall spw_order channel_order select_spw o,
  obj_ok o -> spw_array (fo_uvd o) <> [] ->
  spw_order <> Some SpwOther -> channel_order <> Some ChanOther ->
  (forall idx, spw_order = Some (SpwIndex idx) -> Permutation idx (map Z.of_nat (seq 0 (length (spw_array (fo_uvd o)))))) ->
  (forall idx, channel_order = Some (ChanIndex idx) -> Permutation idx (map Z.of_nat (seq 0 (Nfreqs (fo_uvd o))))) ->
  exists o', reorder_freqs spw_order channel_order select_spw o = Ok o'.
Proof. exact rf_total. Qed.
Print Assumptions C32_reorder_freqs_succeeds.

(** When the channels are already in the requested order nothing at all is done,
    so spw_array can be left in another order than the one asked for. *)
Theorem C32_window_list_left_unsorted_refuted :
  exists o o', obj_ok o /\ reorder_freqs (Some (SpwNumber false)) None None o = Ok o' /\
  ~ StronglySorted Z.lt (spw_array (fo_uvd o')).
Proof. exact spw_array_left_behind. Qed.
Print Assumptions C32_window_list_left_unsorted_refuted.
