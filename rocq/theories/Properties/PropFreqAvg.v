(** C33: averaging in frequency. *)
From Coq Require Import List ZArith QArith Qcanon Bool Arith Lia.
From Verif Require Import Lib.Py Lib.QSum Model.FreqAvg Spec.FreqAvgSpec Proofs.FreqAvgProofs Proofs.FreqAvgTop.
Import ListNotations.

Definition q (a : Z) : Qc := Q2Qc (inject_Z a).

(** Five channels of one window; channels 2 and 3 are flagged. *)
Definition ex_one : favg :=
  {| fa_nblts := 1; fa_npols := 1; fa_freq := map q [10; 20; 30; 40; 50]%Z; fa_width := map q [10; 10; 10; 10; 10]%Z;
     fa_flex := [7; 7; 7; 7; 7]%Z; fa_spws := [7]%Z;
     fa_data := fun _ j _ => (q (Z.of_nat j), q 1); fa_flag := fun _ j _ => (j =? 2) || (j =? 3);
     fa_ns := fun _ j _ => q (1 + Z.of_nat j); fa_eq := Some (fun a j => q (Z.of_nat (a + j))) |}.

(** One window: the averaging always succeeds and does what it should. *)
Theorem C33_one_window_averaged : forall n summing propagate_flags respect_spws keep_ragged o,
  n <> O -> length (fa_spws o) = 1%nat ->
  exists o', frequency_average n summing propagate_flags respect_spws keep_ragged o = Ok o' /\
  frequency_averaged n summing propagate_flags keep_ragged (fa_flex o) (fa_spws o) o o'.
Proof. exact one_window_averaged. Qed.
Print Assumptions C33_one_window_averaged.
Example C33_one_window_averaged_nonvacuous : length (fa_spws ex_one) = 1%nat /\
  match frequency_average 2 false false true true ex_one with
  | Ok o' => map this (fa_freq o') = [15; 35; 50]%Q /\ map (fun c => fa_flag o' 0 c 0) [0; 1; 2] = [false; true; false] /\
             map (fun c => this (fst (fa_data o' 0 c 0))) [0; 1; 2] = [2 # 3; 18 # 7; 4]%Q /\
             map (fun c => this (fa_ns o' 0 c 0)) [0; 1; 2] = [3 # 2; 7 # 2; 5]%Q
  | Err _ => False end.
Proof. split; [reflexivity|]. vm_compute. repeat split. Qed.

(** Several windows averaged as if they were one. *)
Theorem C33_merged_windows_averaged : forall n summing propagate_flags keep_ragged o,
  n <> O -> (1 < length (fa_spws o))%nat ->
  exists o', frequency_average n summing propagate_flags false keep_ragged o = Ok o' /\
  frequency_averaged n summing propagate_flags keep_ragged (repeat 0%Z (length (fa_freq o))) [0%Z] o o'.
Proof. exact merged_windows_averaged. Qed.
Print Assumptions C33_merged_windows_averaged.

(** Two windows of 3 and 2 channels; only the first has flags. *)
Definition ex_two : favg :=
  {| fa_nblts := 1; fa_npols := 1; fa_freq := map q [10; 20; 30; 40; 50]%Z; fa_width := map q [10; 10; 10; 10; 10]%Z;
     fa_flex := [7; 7; 7; 4; 4]%Z; fa_spws := [7; 4]%Z;
     fa_data := fun _ j _ => (q (Z.of_nat j), q 1); fa_flag := fun _ j _ => (j =? 2);
     fa_ns := fun _ j _ => q (1 + Z.of_nat j); fa_eq := None |}.
Example C33_merged_windows_averaged_nonvacuous : (1 < length (fa_spws ex_two))%nat /\
  match frequency_average 2 false true false false ex_two with
  | Ok o' => map this (fa_freq o') = [15; 35]%Q /\ fa_flex o' = [0; 0]%Z /\ map (fun c => fa_flag o' 0 c 0) [0; 1] = [false; true]
  | Err _ => False end.
Proof. split; [vm_compute; lia|]. vm_compute. repeat split. Qed.

(** Several windows kept apart: right as long as the windows after the first have no flags. *)
Theorem C33_windows_averaged : forall n summing propagate_flags keep_ragged o,
  n <> O -> favg_ok o -> flags_in_first_window o ->
  exists o', frequency_average n summing propagate_flags true keep_ragged o = Ok o' /\
  frequency_averaged n summing propagate_flags keep_ragged (fa_flex o) (fa_spws o) o o'.
Proof. exact windows_averaged. Qed.
Print Assumptions C33_windows_averaged.
Example C33_windows_averaged_nonvacuous : favg_ok ex_two /\ flags_in_first_window ex_two /\
  match frequency_average 2 true false true true ex_two with
  | Ok o' => map this (fa_freq o') = [15; 30; 45]%Q /\ fa_flex o' = [7; 7; 4]%Z /\
             map (fun c => this (fst (fa_data o' 0 c 0))) [0; 1; 2] = [1; 2; 7]%Q
  | Err _ => False end.
Proof.
  split; [|split; [|vm_compute; repeat split]].
  - split; [reflexivity|]. split; [reflexivity|]. split; [repeat constructor; simpl; intuition discriminate|].
    simpl. intuition.
  - intros i j k _ Hj _ F. simpl in *. apply Nat.eqb_eq in F. subst j. reflexivity.
Qed.

(** With other windows flagged the right inputs are not found: averaging one
    channel at a time, which should change nothing, erases a flagged sample ... *)
Theorem C33_other_windows_flagged_refuted : exists o o',
  favg_ok o /\ frequency_average 1 false false true true o = Ok o' /\
  fa_freq o' = fa_freq o /\ fa_data o' 0%nat 1%nat 0%nat <> fa_data o 0%nat 1%nat 0%nat /\
  fa_data o' 0%nat 1%nat 0%nat = (q 0, q 0).
Proof. exact other_windows_flagged. Qed.
Print Assumptions C33_other_windows_flagged_refuted.

(** ... or fails. *)
Theorem C33_other_windows_flagged_fails_refuted : exists o,
  favg_ok o /\ frequency_average 1 false false true true o = Err IndexError.
Proof. exact other_windows_fail. Qed.
Print Assumptions C33_other_windows_flagged_fails_refuted.

(** Total channel width is conserved when nothing is dropped, for any windows and flags. *)
Theorem C33_total_width_conserved : forall n summing propagate_flags respect_spws o o',
  favg_ok o -> frequency_average n summing propagate_flags respect_spws true o = Ok o' ->
  qsum (fa_width o') = qsum (fa_width o).
Proof. exact width_conserved. Qed.
Print Assumptions C33_total_width_conserved.
Example C33_total_width_conserved_nonvacuous :
  match frequency_average 2 false false true true ex_two with
  | Ok o' => map this (fa_width o') = [20; 10; 20]%Q | Err _ => False end.
Proof. vm_compute. reflexivity. Qed.

(** Dropping the ragged end can leave a listed window without any channel. *)
Theorem C33_window_without_channels_refuted : exists n o o' w,
  favg_ok o /\ (forall v, In v (fa_spws o) -> In v (fa_flex o)) /\
  frequency_average n false false true false o = Ok o' /\ In w (fa_spws o') /\ ~ In w (fa_flex o').
Proof. exact window_without_channels. Qed.
Print Assumptions C33_window_without_channels_refuted.
