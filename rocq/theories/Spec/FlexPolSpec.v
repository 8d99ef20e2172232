(** What the flexible polarization conversions are supposed to do. *)
From Coq Require Import List ZArith Bool Sorted Permutation.
From Verif Require Import Spec.UVDataSpec Spec.FreqSpec Model.UVData Model.Freq.
Import ListNotations.
Open Scope Z_scope.

(** Frequencies are not repeated within a window. *)
Definition distinct_channels (u : uvd) : Prop :=
  forall i j, (i < j < length (freq_array u))%nat -> nth i (flex_spw_id_array u) 0 = nth j (flex_spw_id_array u) 0 ->
  nth i (freq_array u) 0 <> nth j (freq_array u) 0.

(** Sample (channel [j], polarization [k]) of [u'] is sample ([c], [p]) of [u], for all blts. *)
Definition sample_copied (u : uvd) (c p : nat) (u' : uvd) (j k : nat) : Prop :=
  nth j (freq_array u') 0 = nth c (freq_array u) 0 /\
  nth j (channel_width u') 0 = nth c (channel_width u) 0 /\
  forall i, data_array u' i j k = data_array u i c p /\ flag_array u' i j k = flag_array u i c p /\
            nsample_array u' i j k = nsample_array u i c p.

(** Everything off the frequency and polarization axes is untouched. *)
Definition off_freq_pol_same (u u' : uvd) : Prop :=
  same_blt_axis u u' /\ Nbls u' = Nbls u /\ Ntimes u' = Ntimes u /\ blt_order u' = blt_order u /\
  blts_are_rectangular u' = blts_are_rectangular u /\
  time_axis_faster_than_bls u' = time_axis_faster_than_bls u /\ Nants_telescope u' = Nants_telescope u.

(** [o'] holds the samples of the flex-pol object [o] on an ordinary
    polarization axis: the sample on channel [c] of [o] is found at [place c],
    under the polarization of its window. *)
Definition samples_placed (place : nat -> nat * nat) (o o' : freqobj) : Prop :=
  let u := fo_uvd o in let u' := fo_uvd o' in
  forall c, (c < Nfreqs u)%nat ->
  let (j, k) := place c in
  (j < Nfreqs u')%nat /\ (k < Npols u')%nat /\
  sample_copied u c 0 u' j k /\ window_pol o (nth c (flex_spw_id_array u) 0) (nth k (polarization_array u') 0).

(** Different samples go to different places. *)
Definition places_distinct (place : nat -> nat * nat) (o : freqobj) : Prop :=
  forall c c', (c < Nfreqs (fo_uvd o))%nat -> (c' < Nfreqs (fo_uvd o))%nat -> place c = place c' -> c = c'.

(** Windows go to windows; those with the same polarization are kept apart. *)
Definition windows_mapped (place : nat -> nat * nat) (o o' : freqobj) : Prop :=
  exists f, (forall c, (c < Nfreqs (fo_uvd o))%nat ->
               nth (fst (place c)) (flex_spw_id_array (fo_uvd o')) 0 = f (nth c (flex_spw_id_array (fo_uvd o)) 0)) /\
  forall w w' p, window_pol o w p -> window_pol o w' p -> f w = f w' -> w = w'.

(** A place of the result that no sample goes to is flagged and empty. *)
Definition rest_flagged (place : nat -> nat * nat) (o o' : freqobj) : Prop :=
  forall j k, (j < Nfreqs (fo_uvd o'))%nat -> (k < Npols (fo_uvd o'))%nat ->
  (exists c, (c < Nfreqs (fo_uvd o))%nat /\ place c = (j, k)) \/
  (forall i, flag_array (fo_uvd o') i j k = true /\ data_array (fo_uvd o') i j k = (0, 0) /\ nsample_array (fo_uvd o') i j k = 0).

(** All of it. *)
Definition flex_pol_removed (o o' : freqobj) : Prop :=
  flex_spw_polarization_array o' = None /\ obj_ok o' /\ NoDup (polarization_array (fo_uvd o')) /\
  off_freq_pol_same (fo_uvd o) (fo_uvd o') /\
  exists place, samples_placed place o o' /\ places_distinct place o /\ windows_mapped place o o' /\ rest_flagged place o o'.

(** A flex-pol object: one polarization per window, a polarization axis of length 1,
    at least one channel. *)
Definition flex_pol_ok (o : freqobj) : Prop :=
  obj_ok o /\ flex_spw_polarization_array o <> None /\ Npols (fo_uvd o) = 1%nat /\ (0 < Nfreqs (fo_uvd o))%nat.

(** The frequencies and widths of a window, in order of frequency. *)
Definition window_key (u : uvd) (w : Z) (key : list (Z * Z)) : Prop :=
  StronglySorted (fun a b => fst a <= fst b) key /\
  Permutation key (combine (window_freqs w (flex_spw_id_array u) (freq_array u))
                           (window_freqs w (flex_spw_id_array u) (channel_width u))).

(** The windows differ in their frequencies or widths. *)
Definition windows_differ (u : uvd) : Prop :=
  forall w w' key, In w (spw_array u) -> In w' (spw_array u) -> window_key u w key -> window_key u w' key -> w = w'.

(** [u'] is [u] up to the order of spw_array. *)
Definition same_but_window_order (u u' : uvd) : Prop :=
  off_freq_pol_same u u' /\ freq_array u' = freq_array u /\ channel_width u' = channel_width u /\
  flex_spw_id_array u' = flex_spw_id_array u /\ Permutation (spw_array u') (spw_array u) /\
  polarization_array u' = polarization_array u /\
  forall i j k, (i < Nblts u)%nat -> (j < Nfreqs u)%nat -> (k < Npols u)%nat ->
    data_array u' i j k = data_array u i j k /\ flag_array u' i j k = flag_array u i j k /\
    nsample_array u' i j k = nsample_array u i j k.

(** No two windows have the same channels and the same polarization. *)
Definition windows_separate (o : freqobj) : Prop :=
  forall w w' p key, window_pol o w p -> window_pol o w' p ->
  window_key (fo_uvd o) w key -> window_key (fo_uvd o) w' key -> w = w'.

(** [o'] is [o] with the polarizations moved to the frequency axis, polarization
    changing slowest: sample (j, k) is found on channel j + Nfreqs k, in a window
    with its polarization.  Channels share a window if they did and have the
    same polarization; the first polarization keeps the window numbers. *)
Definition flex_pol_made (o o' : freqobj) : Prop :=
  let u := fo_uvd o in let u' := fo_uvd o' in let nf := Nfreqs u in
  flex_pol_ok o' /\ off_freq_pol_same u u' /\ Nfreqs u' = (nf * Npols u)%nat /\
  (forall j k, (j < nf)%nat -> (k < Npols u)%nat ->
     sample_copied u j k u' (j + nf * k) 0 /\
     window_pol o' (nth (j + nf * k) (flex_spw_id_array u') 0) (nth k (polarization_array u) 0)) /\
  (forall j k j' k', (j < nf)%nat -> (k < Npols u)%nat -> (j' < nf)%nat -> (k' < Npols u)%nat ->
     (nth (j + nf * k) (flex_spw_id_array u') 0 = nth (j' + nf * k') (flex_spw_id_array u') 0 <->
      k = k' /\ nth j (flex_spw_id_array u) 0 = nth j' (flex_spw_id_array u) 0)) /\
  (forall j, (j < nf)%nat -> nth j (flex_spw_id_array u') 0 = nth j (flex_spw_id_array u) 0).

(** Window [w] has unflagged data in polarization number [k]. *)
Definition window_unflagged (u : uvd) (w : Z) (k : nat) : Prop :=
  exists i j, (i < Nblts u)%nat /\ (j < Nfreqs u)%nat /\ nth j (flex_spw_id_array u) 0 = w /\ flag_array u i j k = false.

(** Each window has unflagged data in one polarization at most. *)
Definition one_pol_each (u : uvd) : Prop :=
  forall w k k', (k < Npols u)%nat -> (k' < Npols u)%nat -> window_unflagged u w k -> window_unflagged u w k' -> k = k'.

(** [o'] is the flex-pol object with the unflagged polarization of each window of [o]. *)
Definition flagged_pols_dropped (o o' : freqobj) : Prop :=
  let u := fo_uvd o in let u' := fo_uvd o' in
  flex_pol_ok o' /\ off_freq_pol_same u u' /\
  freq_array u' = freq_array u /\ channel_width u' = channel_width u /\
  flex_spw_id_array u' = flex_spw_id_array u /\ spw_array u' = spw_array u /\
  (forall j, (j < Nfreqs u)%nat -> exists k, (k < Npols u)%nat /\
     sample_copied u j k u' j 0 /\ window_pol o' (nth j (flex_spw_id_array u) 0) (nth k (polarization_array u) 0) /\
     forall i k', (i < Nblts u)%nat -> (k' < Npols u)%nat -> flag_array u i j k' = false -> k' = k).
