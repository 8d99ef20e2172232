(** C34: polarizations on the frequency axis, and back. *)
From Coq Require Import List ZArith Bool Arith Lia Sorted Permutation.
From Verif Require Import Lib.Py Lib.Np Lib.Cube Model.UVData Model.Freq Model.FlexPol Spec.UVDataSpec Spec.FreqSpec Spec.PhaseSpec Spec.FlexPolSpec
  Proofs.FlexPolTop Proofs.FlexPolConvert Proofs.FlexPolBack Proofs.FlexPolMake.
Import ListNotations.
Notation length := List.length.
Open Scope Z_scope.

Definition cube_of (freqs flex spws pols : list Z) (flags : cube bool) (fp : option (list Z)) : freqobj :=
  mkFreqobj {| time_array := [1]; lst_array := [1]; ant_1_array := [0]; ant_2_array := [1]; baseline_array := [67585];
     integration_time := [10]; uvw_array := [(1, 2, 3)]; phase_center_id_array := [0];
     phase_center_app_ra := [1]; phase_center_app_dec := [1]; phase_center_frame_pa := [1];
     freq_array := freqs; channel_width := map (fun f => f + 1) freqs; flex_spw_id_array := flex; spw_array := spws;
     polarization_array := pols; data_array := fun i j k => (Z.of_nat j, Z.of_nat k); flag_array := flags;
     nsample_array := fun i j k => Z.of_nat (j + 10 * k); Nbls := 1; Ntimes := 1; blt_order := None;
     blts_are_rectangular := None; time_axis_faster_than_bls := false; Nants_telescope := 2 |}
    None fp.

(** Windows 4 and 1 are the same channels in XX and YY, in different orders; so are 2 and 3. *)
Definition ex_flex : freqobj :=
  cube_of [10; 20; 30; 20; 10; 30] [4; 4; 2; 1; 1; 3] [1; 2; 3; 4] [0] (fun i j k => Nat.eqb j 1) (Some [-6; -5; -6; -5]).

Ltac axis_ok := split; [split; [split; reflexivity | split; [repeat constructor; simpl; intuition lia | intros w; simpl; intuition congruence]]
                       | intros fp E; injection E as <-; reflexivity].
Ltac channels := let i := fresh "i" in let j := fresh "j" in intros i j [H1 H2]; simpl in H2;
  do 7 (destruct j as [|j]; [do 7 (destruct i as [|i]; [simpl; lia|]); exfalso; lia|]); exfalso; lia.

(** Removing flex-pol keeps each sample, under the polarization of its window;
    what is left over is flagged.  Nothing else changes. *)
Theorem C34_remove_keeps_samples : forall combine_spws o o',
  flex_pol_ok o -> distinct_channels (fo_uvd o) ->
  remove_flex_pol combine_spws o = Ok o' -> flex_pol_removed o o'.
Proof. exact removed. Qed.
Print Assumptions C34_remove_keeps_samples.

(** It succeeds unless two windows with the same polarization and channels are to be combined. *)
Theorem C34_remove_succeeds : forall combine_spws o,
  flex_pol_ok o -> distinct_channels (fo_uvd o) -> (combine_spws = true -> windows_separate o) ->
  exists o', remove_flex_pol combine_spws o = Ok o'.
Proof. exact remove_total. Qed.
Print Assumptions C34_remove_succeeds.
Example C34_remove_nonvacuous : flex_pol_ok ex_flex /\ distinct_channels (fo_uvd ex_flex) /\
  match remove_flex_pol true ex_flex with
  | Ok o' => freq_array (fo_uvd o') = [10; 20; 30] /\ polarization_array (fo_uvd o') = [-5; -6] /\
             map (fun c => data_array (fo_uvd o') 0%nat c 1%nat) [0; 1; 2]%nat = [(4, 0); (3, 0); (5, 0)]
  | Err _ => False end /\
  match remove_flex_pol false ex_flex with
  | Ok o' => freq_array (fo_uvd o') = [10; 20; 30; 20; 10; 30] /\ polarization_array (fo_uvd o') = [-6; -5] /\
             map (fun c => flag_array (fo_uvd o') 0%nat c 0%nat) [0; 1; 2; 3; 4; 5]%nat = [true; true; true; false; false; false]
  | Err _ => False end.
Proof.
  split; [|split; [|split; vm_compute; repeat split]].
  - split; [axis_ok|]. split; [discriminate|]. split; [reflexivity | vm_compute; lia].
  - channels.
Qed.
Example C34_windows_separate_case : windows_separate ex_flex.
Proof.
  intros w w' p key (fp & k & E & Hk & Ew & Ep) (fp' & k' & E' & Hk' & Ew' & Ep') [_ K] [_ K']. injection E as <-. injection E' as <-.
  pose proof (Permutation_length (Permutation_trans (Permutation_sym K) K')) as L. clear K K'. simpl in Hk, Hk'.
  destruct k as [|[|[|[|]]]]; try lia; destruct k' as [|[|[|[|]]]]; try lia; simpl in Ew, Ew', Ep, Ep'; subst; try congruence; vm_compute in L; discriminate.
Qed.

(** Moving the polarizations to the frequency axis keeps each sample. *)
Theorem C34_convert_keeps_samples : forall pop o,
  picks pop -> freq_axis_ok (fo_uvd o) -> flex_spw_polarization_array o = None ->
  polarization_array (fo_uvd o) <> [] -> (0 < Nfreqs (fo_uvd o))%nat ->
  exists o', convert_to_flex_pol pop o = Ok o' /\ flex_pol_made o o'.
Proof. exact made. Qed.
Print Assumptions C34_convert_keeps_samples.

(** The conversion there and back changes nothing but the order of spw_array,
    as long as the windows differ in their frequencies or widths. *)
Theorem C34_convert_and_back : forall pop o,
  picks pop -> freq_axis_ok (fo_uvd o) -> flex_spw_polarization_array o = None ->
  polarization_array (fo_uvd o) <> [] -> NoDup (polarization_array (fo_uvd o)) -> (0 < Nfreqs (fo_uvd o))%nat ->
  windows_differ (fo_uvd o) ->
  exists o1 o2, convert_to_flex_pol pop o = Ok o1 /\ remove_flex_pol true o1 = Ok o2 /\
    flex_spw_polarization_array o2 = None /\ eq_coeffs o2 = eq_coeffs o /\ same_but_window_order (fo_uvd o) (fo_uvd o2).
Proof. exact there_and_back. Qed.
Print Assumptions C34_convert_and_back.

(** Two windows of different sizes, three polarizations. *)
Definition ex_plain : freqobj := cube_of [10; 20; 30] [7; 7; 2] [7; 2] [-5; -6; -7] (fun i j k => Nat.eqb j k) None.
Definition first_free (l : list Z) : Z := hd 0 l.
Example C34_convert_nonvacuous : picks first_free /\ freq_axis_ok (fo_uvd ex_plain) /\ windows_differ (fo_uvd ex_plain) /\
  match convert_to_flex_pol first_free ex_plain with
  | Ok o1 => flex_spw_id_array (fo_uvd o1) = [7; 7; 2; 0; 0; 1; 3; 3; 4] /\ spw_array (fo_uvd o1) = [0; 1; 2; 3; 4; 7] /\
             flex_spw_polarization_array o1 = Some [-6; -6; -5; -7; -7; -5]
  | Err _ => False end.
Proof.
  split; [intros [|x l] H; [congruence | left; reflexivity]|]. split; [|split].
  - split; [split; reflexivity | split; [repeat constructor; simpl; intuition lia | intros w; simpl; intuition congruence]].
  - intros w w' key H H' [_ K] [_ K']. pose proof (Permutation_length (Permutation_trans (Permutation_sym K) K')) as L. clear K K'.
    simpl in H, H'. destruct H as [<-|[<-|[]]], H' as [<-|[<-|[]]]; try reflexivity; vm_compute in L; discriminate.
  - vm_compute. repeat split.
Qed.

(** Windows with the same channels cannot be converted back. *)
Theorem C34_equal_windows_refuted : exists o o1, freq_axis_ok (fo_uvd o) /\ NoDup (polarization_array (fo_uvd o)) /\
  convert_to_flex_pol first_free o = Ok o1 /\ remove_flex_pol true o1 = Err ValueError.
Proof.
  exists (cube_of [10; 20; 10; 20] [1; 1; 2; 2] [1; 2] [-5; -6] (fun i j k => false) None). eexists. split; [|split; [|split; [reflexivity|]]].
  - split; [split; reflexivity | split; [repeat constructor; simpl; intuition lia | intros w; simpl; intuition congruence]].
  - repeat constructor; simpl; intuition lia.
  - vm_compute. reflexivity.
Qed.
Print Assumptions C34_equal_windows_refuted.

(** Dropping the flagged polarizations of each window keeps the unflagged samples. *)
Theorem C34_make_keeps_unflagged : forall raise_error o,
  freq_axis_ok (fo_uvd o) -> flex_spw_polarization_array o = None -> (0 < Npols (fo_uvd o))%nat -> (0 < Nfreqs (fo_uvd o))%nat ->
  one_pol_each (fo_uvd o) \/ Npols (fo_uvd o) = 1%nat ->
  exists o', make_flex_pol raise_error o = Ok o' /\ flagged_pols_dropped o o'.
Proof. exact made_flex. Qed.
Print Assumptions C34_make_keeps_unflagged.

(** It refuses when data would be lost. *)
Theorem C34_make_refuses : forall raise_error o,
  freq_axis_ok (fo_uvd o) -> Npols (fo_uvd o) <> 1%nat -> ~ one_pol_each (fo_uvd o) ->
  make_flex_pol raise_error o = if raise_error then Err ValueError else Ok o.
Proof. exact not_made. Qed.
Print Assumptions C34_make_refuses.

Definition ex_half : freqobj :=
  cube_of [10; 20; 30] [7; 7; 2] [7; 2] [-5; -6] (fun i j k => if (j <? 2)%nat then Nat.eqb k 0 else Nat.eqb k 1) None.
Example C34_make_nonvacuous : freq_axis_ok (fo_uvd ex_half) /\ one_pol_each (fo_uvd ex_half) /\
  match make_flex_pol true ex_half with
  | Ok o' => flex_spw_polarization_array o' = Some [-6; -5] /\ map (fun c => data_array (fo_uvd o') 0%nat c 0%nat) [0; 1; 2]%nat = [(0, 1); (1, 1); (2, 0)]
  | Err _ => False end /\
  ~ one_pol_each (fo_uvd ex_plain).
Proof.
  split; [|split; [|split]].
  - split; [split; reflexivity | split; [repeat constructor; simpl; intuition lia | intros w; simpl; intuition congruence]].
  - intros w k k' Hk Hk' (i & j & _ & Hj & Ew & E) (i' & j' & _ & Hj' & Ew' & E'). cbn in *.
    destruct k as [|[|]]; try lia; destruct k' as [|[|]]; try lia;
      destruct j as [|[|[|]]]; try lia; destruct j' as [|[|[|]]]; try lia; simpl in *; congruence.
  - vm_compute. repeat split.
  - intros H. assert (C : 0%nat = 1%nat); [|discriminate]. apply (H 7); [vm_compute; lia | vm_compute; lia | |].
    + exists 0%nat, 1%nat. repeat split; vm_compute; lia.
    + exists 0%nat, 0%nat. repeat split; vm_compute; lia.
Qed.
