(** C39: combining two objects. *)
From Coq Require Import List ZArith Bool Arith QArith Lia String.
From Verif Require Import Lib.Py Lib.Np Lib.Cube Lib.Dict Model.UVData Model.Freq Model.PhaseCenter Model.Add
  Spec.UVDataSpec Spec.FreqSpec Spec.PhaseSpec Spec.AddSpec
  Proofs.PhaseCases Proofs.AddSum Proofs.AddTotal Proofs.AddCases.
Import ListNotations.
Notation length := List.length.
Open Scope Z_scope.

(** C39: in a + b every axis has the labels of a and of b, each once.  At a label
    b has the sample is that of b; at a label only a has it is that of a; at the
    others it is zero and flagged.  Provided that on every axis of b the labels
    shared with a precede the new ones. *)
Theorem C39_add_loses_and_moves_nothing : forall pop str_le t same_cat ignore_name a b r,
  addable a -> addable b ->
  let u := ad_uvd a in let v := ad_uvd b in let w := ad_uvd r in
  shared_first (Nblts u) (Nblts v) (row_label u) (row_label v) ->
  shared_first (Nfreqs u) (Nfreqs v) (chan_label u) (chan_label v) ->
  shared_first (Npols u) (Npols v) (pol_label u) (pol_label v) ->
  add pop str_le t same_cat ignore_name a b = Ok r ->
  (axis_union (Nblts u) (Nblts v) (Nblts w) (row_label u) (row_label v) (row_label w) /\
   axis_union (Nfreqs u) (Nfreqs v) (Nfreqs w) (chan_label u) (chan_label v) (chan_label w) /\
   axis_union (Npols u) (Npols v) (Npols w) (pol_label u) (pol_label v) (pol_label w)) /\
  (forall x y p c, sample w x y p c <->
     sample v x y p c \/
     (~ has_sample v x y p /\ sample u x y p c) \/
     (~ has_sample v x y p /\ ~ has_sample u x y p /\ has_sample w x y p /\ c = no_data)) /\
  addable r.
Proof.
  exact (fun pop str_le t same_cat ign a b r Ha Hb FB FF FP Hadd =>
    conj (sum_axes pop str_le t same_cat ign a b r Ha Hb FB FF FP Hadd)
      (conj (sum_samples pop str_le t same_cat ign a b r Ha Hb FB FF FP Hadd)
         (sum_addable pop str_le t same_cat ign a b r Ha Hb FB FF FP Hadd))).
Qed.
Print Assumptions C39_add_loses_and_moves_nothing.

(** Whatever the order, what is overwritten is zero and flagged; *)
Theorem C39_only_invalid_data_overwritten : forall pop str_le t same_cat ignore_name a b,
  addable a -> addable b -> forall r x y p c,
  add pop str_le t same_cat ignore_name a b = Ok r ->
  sample (ad_uvd a) x y p c -> has_sample (ad_uvd b) x y p -> fst c = ((0, 0), true).
Proof. exact sum_overwrites_blanks. Qed.
Print Assumptions C39_only_invalid_data_overwritten.

(** objects with valid data at a common label are refused. *)
Theorem C39_overlapping_data_refused : forall pop str_le t same_cat ignore_name a b,
  addable a -> addable b -> forall x y p c,
  sample (ad_uvd a) x y p c -> has_sample (ad_uvd b) x y p -> fst c <> ((0, 0), true) ->
  add pop str_le t same_cat ignore_name a b = Err ValueError.
Proof. exact sum_refused. Qed.
Print Assumptions C39_overlapping_data_refused.

(** Each baseline-time has the metadata of a's baseline-time with its label, or of
    b's if a has none; likewise each channel; every window's polarization is the
    one it had. *)
Theorem C39_add_metadata : forall pop str_le t same_cat ignore_name a b r,
  addable a -> addable b ->
  let u := ad_uvd a in let v := ad_uvd b in let w := ad_uvd r in
  shared_first (Nblts u) (Nblts v) (row_label u) (row_label v) ->
  shared_first (Nfreqs u) (Nfreqs v) (chan_label u) (chan_label v) ->
  shared_first (Npols u) (Npols v) (pol_label u) (pol_label v) ->
  add pop str_le t same_cat ignore_name a b = Ok r ->
  (forall i, (i < Nblts w)%nat ->
     (exists i0, (i0 < Nblts u)%nat /\ row_meta u i0 w i) \/
     (~ on_axis (Nblts u) (row_label u) (row_label w i) /\ exists i0, (i0 < Nblts v)%nat /\ row_meta v i0 w i)) /\
  (forall j, (j < Nfreqs w)%nat ->
     (exists j0, (j0 < Nfreqs u)%nat /\ chan_label u j0 = chan_label w j /\ nth j (channel_width w) 0 = nth j0 (channel_width u) 0) \/
     (~ on_axis (Nfreqs u) (chan_label u) (chan_label w j) /\
      exists j0, (j0 < Nfreqs v)%nat /\ chan_label v j0 = chan_label w j /\ nth j (channel_width w) 0 = nth j0 (channel_width v) 0)) /\
  (forall s p, window_pol (ad_freq r) s p -> window_pol (ad_freq a) s p \/ window_pol (ad_freq b) s p).
Proof.
  exact (fun pop str_le t same_cat ign a b r Ha Hb FB FF FP Hadd =>
    conj (sum_rows pop str_le t same_cat ign a b r Ha Hb FB FF FP Hadd)
      (conj (sum_chans pop str_le t same_cat ign a b r Ha Hb FB FF FP Hadd)
         (fun s p => sum_windows pop str_le t same_cat ign a b Ha Hb r s p Hadd))).
Qed.
Print Assumptions C39_add_metadata.

(** Each baseline-time still refers to the phase center it referred to. *)
Theorem C39_add_phase_centers : forall pop str_le t same_cat ignore_name a b r,
  addable a -> addable b ->
  let u := ad_uvd a in let v := ad_uvd b in let w := ad_uvd r in
  shared_first (Nblts u) (Nblts v) (row_label u) (row_label v) ->
  shared_first (Nfreqs u) (Nfreqs v) (chan_label u) (chan_label v) ->
  shared_first (Npols u) (Npols v) (pol_label u) (pol_label v) ->
  add pop str_le t same_cat ignore_name a b = Ok r ->
  picks pop -> pc_consistent (centers a) -> pc_consistent (centers b) ->
  distinguishable ignore_name (centers a) (ad_catalog b) ->
  pc_consistent (centers r) /\
  forall i, (i < Nblts w)%nat ->
    (exists i0 e e', (i0 < Nblts u)%nat /\ row_label u i0 = row_label w i /\
       points (centers a) i0 e /\ points (centers r) i e' /\ alike ignore_name e e') \/
    (~ on_axis (Nblts u) (row_label u) (row_label w i) /\
     exists i0 e e', (i0 < Nblts v)%nat /\ row_label v i0 = row_label w i /\
       points (centers b) i0 e /\ points (centers r) i e' /\ matches ignore_name e e').
Proof. exact sum_centers. Qed.
Print Assumptions C39_add_phase_centers.

(** Objects that agree where they overlap can be combined. *)
Theorem C39_add_succeeds : forall pop str_le t same_cat ignore_name a b,
  addable a -> addable b -> (0 < Nblts (ad_uvd a))%nat ->
  agree same_cat a b -> overwritable a b -> tolerances_ok t ->
  picks pop -> pc_consistent (centers a) -> catalog_ok (ad_catalog b) ->
  distinguishable ignore_name (centers a) (ad_catalog b) ->
  exists r, add pop str_le t same_cat ignore_name a b = Ok r.
Proof. exact add_total. Qed.
Print Assumptions C39_add_succeeds.

(** Two objects without a common baseline-time, sharing two channels in another
    order and one polarization; the second brings new channels, a new window, a
    new polarization and a phase center under an id the first uses. *)
Example C39_case : let a := first_obs in let b := second_obs in
  addable a /\ addable b /\ comes_first a b /\
  agree never_same a b /\ overwritable a b /\ tolerances_ok exact_tols /\ picks last_of /\
  pc_consistent (centers a) /\ pc_consistent (centers b) /\ distinguishable false (centers a) (ad_catalog b) /\
  exists r, add last_of str_order exact_tols never_same false a b = Ok r /\
  let w := ad_uvd r in
  time_array w = [1; 1; 2; 3] /\ baseline_array w = [10; 20; 10; 20] /\
  combine (flex_spw_id_array w) (freq_array w) = [(0, 100); (0, 200); (0, 300); (2, 400); (5, 100)] /\
  polarization_array w = [-5; -6; -7] /\ spw_array w = [0; 5; 2] /\
  map (fun j => data_array w 3%nat j 1%nat) (seq 0 5) = [(0, 0); (2010, 1); (2020, 1); (2030, 1); (2000, 1)].
Proof.
  cbv zeta.
  refine (conj first_addable (conj second_addable (conj obs_in_order (conj obs_agree (conj obs_overwritable (conj exact_ok (conj last_picks
    (conj first_consistent (conj second_consistent (conj obs_distinguishable _)))))))))).
  exists (the_sum first_obs second_obs). split; [vm_compute; reflexivity|]. vm_compute. repeat split; reflexivity.
Qed.

Example C39_refused_case : addable first_obs /\
  sample (ad_uvd first_obs) (1, 10) (0, 200) (-6) ((1011, 1), false, 1000) /\ has_sample (ad_uvd first_obs) (1, 10) (0, 200) (-6).
Proof.
  split; [exact first_addable|]. split; [sample_at 0%nat 1%nat 1%nat|].
  split; [exists 0%nat; split; [vm_compute; lia|reflexivity]|]. split; [exists 1%nat; split; [vm_compute; lia|reflexivity]|].
  exists 1%nat; split; [vm_compute; lia|reflexivity].
Qed.

(** Without the order proviso samples end up under other labels: if b has the
    channels 50, 100 and a has 100, what b measured at 50 is recorded at 100. *)
Theorem C39_new_channel_before_a_shared_one_refuted : exists pop str_le t same_cat a b r x y y' p c,
  addable a /\ addable b /\ picks pop /\ tolerances_ok t /\ add pop str_le t same_cat false a b = Ok r /\
  sample (ad_uvd b) x y p c /\ ~ sample (ad_uvd r) x y p c /\ y' <> y /\ sample (ad_uvd r) x y' p c.
Proof.
  destruct misplaced as (r & E & H1 & H2 & H3).
  exists last_of, str_order, exact_tols, never_same, first_obs, bad_obs, r, (2, 10), (0, 50), (0, 100), (-5), ((2000, 1), false, 2000).
  refine (conj first_addable (conj bad_addable (conj last_picks (conj exact_ok (conj E (conj H1 (conj H2 (conj _ H3)))))))).
  discriminate.
Qed.
Print Assumptions C39_new_channel_before_a_shared_one_refuted.

(** C62 for a + b *)
Theorem C62_add : forall pop str_le t same_cat ignore_name a b,
  addable a -> addable b -> forall r, (0 < Nblts (ad_uvd b))%nat ->
  add pop str_le t same_cat ignore_name a b = Ok r -> rect_truthful (ad_uvd r).
Proof. exact sum_rect. Qed.
Print Assumptions C62_add.

(** Two baselines at time 1, then again at time 2 *)
Example C62_add_case : let a := obs 1000 [(1, 10); (1, 20)] [(0, 100)] [0] [-5] [0; 1] cat_a in
  let b := obs 2000 [(2, 20); (2, 10)] [(0, 100)] [0] [-5] [0; 1] cat_a in
  addable a /\ addable b /\ exists r, add last_of str_order exact_tols never_same false a b = Ok r /\
  blts_are_rectangular (ad_uvd r) = Some true /\ time_array (ad_uvd r) = [1; 1; 2; 2] /\ baseline_array (ad_uvd r) = [10; 20; 10; 20].
Proof.
  cbv zeta. split; [apply obs_addable; [reflexivity|nodupZ|windows|reflexivity..]|].
  split; [apply obs_addable; [reflexivity|nodupZ|windows|reflexivity..]|].
  eexists. split; [vm_compute; reflexivity|]. repeat split; reflexivity.
Qed.
