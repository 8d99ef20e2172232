(** C40: fast_concat. *)
From Coq Require Import List ZArith Bool Arith QArith Lia String Sorted.
From Verif Require Import Lib.Py Lib.Np Lib.Cube Lib.Dict Model.UVData Model.Freq Model.PhaseCenter Model.Add Model.Concat
  Spec.UVDataSpec Spec.BltSpec Spec.FreqSpec Spec.PhaseSpec Spec.AddSpec Spec.ConcatSpec
  Proofs.PhaseCases Proofs.AddCases Proofs.ConcatProofs Proofs.ConcatTop Proofs.ConcatCases.
Import ListNotations.
Notation length := List.length.
Open Scope Z_scope.

(** Along the baseline-time axis: the records of the objects follow each other,
    with their metadata and samples; the other axes are those of the first. *)
Theorem C40_concat_along_blts : forall pop t ignore_name a others r,
  (forall o, In o (a :: others) -> blt_shaped (ad_uvd o)) ->
  fast_concat pop t ignore_name AxBlt a others = Ok r ->
  let l := map ad_uvd (a :: others) in let w := ad_uvd r in
  Nblts w = total Nblts l /\ blt_shaped w /\ counts_ok w /\
  (forall b v i, nth_error l b = Some v -> (i < Nblts v)%nat ->
     row_meta v i w (start Nblts l b + i) /\ forall j k, cell w (start Nblts l b + i) j k = cell v i j k) /\
  same_freq_axis (ad_uvd a) w /\ polarization_array w = polarization_array (ad_uvd a).
Proof. exact concat_blts. Qed.
Print Assumptions C40_concat_along_blts.

(** Along the frequency axis *)
Theorem C40_concat_along_freqs : forall pop t ignore_name a others r,
  (forall o, In o (a :: others) -> blt_shaped (ad_uvd o)) -> (forall o, In o (a :: others) -> freq_shaped (ad_uvd o)) ->
  fast_concat pop t ignore_name AxFreq a others = Ok r ->
  let l := map ad_uvd (a :: others) in let w := ad_uvd r in
  Nfreqs w = total Nfreqs l /\ freq_shaped w /\
  (forall b v j, nth_error l b = Some v -> (j < Nfreqs v)%nat -> chan_copied v j w (start Nfreqs l b + j)) /\
  appearance_order (flex_spw_id_array w) (spw_array w) /\
  rows_kept (ad_uvd a) w /\ blt_shaped w /\ polarization_array w = polarization_array (ad_uvd a).
Proof. exact concat_freqs. Qed.
Print Assumptions C40_concat_along_freqs.

(** Along the polarization axis *)
Theorem C40_concat_along_pols : forall pop t ignore_name a others r,
  (forall o, In o (a :: others) -> blt_shaped (ad_uvd o)) ->
  fast_concat pop t ignore_name AxPol a others = Ok r ->
  let l := map ad_uvd (a :: others) in let w := ad_uvd r in
  Npols w = total Npols l /\
  (forall b v k, nth_error l b = Some v -> (k < Npols v)%nat -> pol_copied v k w (start Npols l b + k)) /\
  rows_kept (ad_uvd a) w /\ blt_shaped w /\ same_freq_axis (ad_uvd a) w.
Proof. exact concat_pols. Qed.
Print Assumptions C40_concat_along_pols.

(** An object that does not agree with the first on the other axes is refused. *)
Theorem C40_misfits_refused : forall pop t ignore_name axis a others b,
  In b others -> ~ fits t axis a b -> exists e, fast_concat pop t ignore_name axis a others = Err e.
Proof. exact concat_refused. Qed.
Print Assumptions C40_misfits_refused.

(** Objects that agree, and have the same catalog, are concatenated; *)
Theorem C40_fitting_objects_accepted : forall pop t ignore_name axis a others,
  picks pop ->
  (forall o, In o (a :: others) -> pc_consistent (centers o) /\ same_catalog (ad_catalog o) (ad_catalog a)) ->
  clear_catalog ignore_name (ad_catalog a) ->
  blt_shaped (ad_uvd a) -> (forall o, In o others -> blt_shaped (ad_uvd o)) -> (0 < Nblts (ad_uvd a))%nat -> ctols_ok t ->
  (forall b, In b others -> fits t axis a b /\ (axis = AxBlt \/ phase_center_id_array (ad_uvd b) = phase_center_id_array (ad_uvd a))) ->
  exists r, fast_concat pop t ignore_name axis a others = Ok r.
Proof. exact concat_succeeds. Qed.
Print Assumptions C40_fitting_objects_accepted.

(** ids and catalog are then unchanged. *)
Theorem C40_same_catalogs : forall pop t ignore_name axis a others,
  picks pop ->
  (forall o, In o (a :: others) -> pc_consistent (centers o) /\ same_catalog (ad_catalog o) (ad_catalog a)) ->
  clear_catalog ignore_name (ad_catalog a) -> forall r,
  (forall o, In o (a :: others) -> blt_shaped (ad_uvd o)) ->
  fast_concat pop t ignore_name axis a others = Ok r ->
  pc_consistent (centers r) /\ same_catalog (ad_catalog r) (ad_catalog a) /\
  match axis with
  | AxBlt => let l := map ad_uvd (a :: others) in
      forall b v i, nth_error l b = Some v -> (i < Nblts v)%nat ->
        nth (start Nblts l b + i) (phase_center_id_array (ad_uvd r)) 0 = nth i (phase_center_id_array v) 0
  | _ => phase_center_id_array (ad_uvd r) = phase_center_id_array (ad_uvd a)
  end.
Proof. exact concat_same_ids. Qed.
Print Assumptions C40_same_catalogs.

(** Two objects may have any catalogs: each baseline-time still refers to the
    phase center it referred to. *)
Theorem C40_two_catalogs : forall pop t ignore_name axis a b r, picks pop ->
  blt_shaped (ad_uvd a) -> pc_consistent (centers a) -> pc_consistent (centers b) -> distinguishable ignore_name (centers a) (ad_catalog b) ->
  fast_concat pop t ignore_name axis a [b] = Ok r ->
  pc_consistent (centers r) /\
  (forall i e, points (centers a) i e -> exists e', points (centers r) i e' /\ alike ignore_name e e') /\
  (axis = AxBlt -> forall i e, points (centers b) i e ->
     exists e', points (centers r) (Nblts (ad_uvd a) + i) e' /\ matches ignore_name e e').
Proof. exact concat_two. Qed.
Print Assumptions C40_two_catalogs.

(** Three nights; channels of another band in new and in old windows; another
    polarization; a night with another catalog. *)
Example C40_case :
  picks last_of /\ ctols_ok exact_ctols /\ clear_catalog false (ad_catalog night_1) /\
  (forall o, In o [night_1; night_2; night_3; upper_band; cross_hand] ->
     blt_shaped (ad_uvd o) /\ freq_shaped (ad_uvd o) /\ pc_consistent (centers o) /\ same_catalog (ad_catalog o) (ad_catalog night_1)) /\
  (forall b, In b [night_2; night_3] -> fits exact_ctols AxBlt night_1 b) /\
  fits exact_ctols AxFreq night_1 upper_band /\ fits exact_ctols AxPol night_1 cross_hand /\
  (exists r, fast_concat last_of exact_ctols false AxBlt night_1 [night_2; night_3] = Ok r /\
     time_array (ad_uvd r) = [1; 1; 2; 3; 3] /\ phase_center_id_array (ad_uvd r) = [0; 1; 1; 1; 0] /\ data_array (ad_uvd r) 4%nat 1%nat 1%nat = (3111, 1)) /\
  (exists r, fast_concat last_of exact_ctols false AxFreq night_1 [upper_band] = Ok r /\
     flex_spw_id_array (ad_uvd r) = [0; 5; 7; 0; 5] /\ spw_array (ad_uvd r) = [0; 5; 7] /\ data_array (ad_uvd r) 1%nat 4%nat 1%nat = (1121, 1)) /\
  (exists r, fast_concat last_of exact_ctols false AxPol night_1 [cross_hand] = Ok r /\
     polarization_array (ad_uvd r) = [-5; -6; -7] /\ data_array (ad_uvd r) 1%nat 1%nat 2%nat = (1110, 1)).
Proof.
  refine (conj last_picks (conj exact_ctols_ok (conj cat_a_clear (conj nights_ok (conj nights_fit (conj _ (conj _ (conj _ (conj _ _))))))))).
  - apply fits_decide. vm_compute. reflexivity.
  - apply fits_decide. vm_compute. reflexivity.
  - eexists. split; [apply joined_up_ok; vm_compute; reflexivity|]. repeat split; vm_compute; reflexivity.
  - eexists. split; [apply joined_up_ok; vm_compute; reflexivity|]. repeat split; vm_compute; reflexivity.
  - eexists. split; [apply joined_up_ok; vm_compute; reflexivity|]. repeat split; vm_compute; reflexivity.
Qed.
Example C40_two_catalogs_case :
  pc_consistent (centers night_4) /\ distinguishable false (centers night_1) (ad_catalog night_4) /\
  exists r, fast_concat last_of exact_ctols false AxBlt night_1 [night_4] = Ok r /\
    phase_center_id_array (ad_uvd r) = [2; 0; 0; 1] /\ map (fun p => (fst p, e_name (snd p))) (ad_catalog r) = [(2, "a"); (0, "b"); (1, "zen")]%string.
Proof.
  split; [apply night_4_ok|]. split; [apply night_4_ok|]. eexists. split; [apply joined_up_ok; vm_compute; reflexivity|]. repeat split; vm_compute; reflexivity.
Qed.
Example C40_misfit_case : ~ fits exact_ctols AxBlt night_1 upper_band.
Proof. intros (_ & _ & H & _). inversion H as [|? ? ? ? _ H1]; subst. inversion H1 as [|? ? ? ? _ H2]; subst. inversion H2. Qed.

(** With three objects a baseline-time of the second may end up at the phase
    center of the third. *)
Theorem C40_three_catalogs_refuted : exists pop t a b c r e e',
  picks pop /\ pc_consistent (centers a) /\ pc_consistent (centers b) /\ pc_consistent (centers c) /\
  fits t AxBlt a b /\ fits t AxBlt a c /\ clear_catalog false (ad_catalog a ++ ad_catalog b ++ ad_catalog c) /\
  fast_concat pop t false AxBlt a [b; c] = Ok r /\
  points (centers b) 0 e /\ points (centers r) (Nblts (ad_uvd a) + 0) e' /\ e_name e' <> e_name e /\ ~ same_place (e_coords e) (e_coords e').
Proof.
  exists last_of, exact_ctols, (target 1 "a" 1), (target 2 "b" 2), (target 3 "c" 3). eexists. exists (entry "b" (star 2 0)), (entry "c" (star 3 0)).
  refine (conj last_picks (conj _ (conj _ (conj _ (conj _ (conj _ (conj _ (conj _ (conj _ (conj _ (conj _ _))))))))))).
  1-3: consist.
  1-2: apply fits_decide; vm_compute; reflexivity.
  - intros k1 e1 k2 e2 H1 H2 _. simpl in H1, H2. intuition congruence.
  - apply joined_up_ok. vm_compute. reflexivity.
  - exists 0. split; [reflexivity|left; reflexivity].
  - exists 0. split; [vm_compute; reflexivity|]. apply (dget_In Z.eqb Z.eqb_eq). vm_compute. reflexivity.
  - discriminate.
  - intros (_ & H & _). cbn in H. unfold near in H. vm_compute in H. apply H. reflexivity.
Qed.
Print Assumptions C40_three_catalogs_refuted.

(** The polarizations of the windows are those of the first object, by position:
    a channel of the second, and even one of the first, may end up in a window of
    another polarization. *)
Theorem C40_window_polarizations_refuted : exists pop t a b r,
  picks pop /\ obj_ok (ad_freq a) /\ obj_ok (ad_freq b) /\ fits t AxFreq a b /\ fast_concat pop t false AxFreq a [b] = Ok r /\
  (exists w p q, nth 0 (flex_spw_id_array (ad_uvd b)) 0 = w /\ window_pol (ad_freq b) w p /\ window_pol (ad_freq r) w q /\ q <> p) /\
  (exists w p q, nth 0 (flex_spw_id_array (ad_uvd a)) 0 = w /\ window_pol (ad_freq a) w p /\ window_pol (ad_freq r) w q /\ q <> p).
Proof.
  exists last_of, exact_ctols, (flexpol (obs 1 [(1, 10)] [(0, 100); (1, 200)] [1; 0] [0] [0] cat_a) [-5; -6]),
    (flexpol (obs 1 [(1, 10)] [(0, 300); (1, 400)] [0; 1] [0] [0] cat_a) [-7; -8]). eexists.
  refine (conj last_picks (conj _ (conj _ (conj _ (conj _ (conj _ _)))))).
  1-2: split; [split; [split; reflexivity|split; [nodupZ|windows]]|]; cbn; intros fp E; injection E as <-; reflexivity.
  - apply fits_decide. vm_compute. reflexivity.
  - apply joined_up_ok. vm_compute. reflexivity.
  - exists 0, (-7), (-5). split; [reflexivity|]. split; [exists [-7; -8], 0%nat; cbn; auto|]. split; [exists [-5; -6], 0%nat; split; [vm_compute; reflexivity|]; split; [apply Nat.ltb_lt; vm_compute; reflexivity|]; split; vm_compute; reflexivity|discriminate].
  - exists 0, (-6), (-5). split; [reflexivity|]. split; [exists [-5; -6], 1%nat; cbn; auto|]. split; [exists [-5; -6], 0%nat; split; [vm_compute; reflexivity|]; split; [apply Nat.ltb_lt; vm_compute; reflexivity|]; split; vm_compute; reflexivity|discriminate].
Qed.
Print Assumptions C40_window_polarizations_refuted.

(** C62 for fast_concat: the flag describes the result if the declared order of
    the baseline-times does. *)
Theorem C62_fast_concat_rect : forall pop t ignore_name axis a others r,
  (forall o, In o (a :: others) -> blt_shaped (ad_uvd o)) -> counts_ok (ad_uvd a) ->
  fast_concat pop t ignore_name axis a others = Ok r ->
  declared_order_true (time_array (ad_uvd r)) (baseline_array (ad_uvd r)) (blt_order (ad_uvd a)) ->
  rect_truthful (ad_uvd r).
Proof. exact concat_rect. Qed.
Print Assumptions C62_fast_concat_rect.

Definition ordered_1 := declared (obs 1 [(1, 10); (1, 20)] [(0, 100)] [0] [-5] [0; 1] cat_a) (Some [KTime; KBaseline]) 2 1.
Definition ordered_2 := declared (obs 2 [(2, 10); (2, 20)] [(0, 100)] [0] [-5] [0; 1] cat_a) (Some [KTime; KBaseline]) 2 1.
Definition ordered_3 := declared (obs 2 [(2, 20); (2, 10)] [(0, 100)] [0] [-5] [0; 1] cat_a) None 2 1.

Example C62_fast_concat_case : (forall o, In o [ordered_1; ordered_2] -> blt_shaped (ad_uvd o)) /\ counts_ok (ad_uvd ordered_1) /\
  exists r, fast_concat last_of exact_ctols false AxBlt ordered_1 [ordered_2] = Ok r /\
  declared_order_true (time_array (ad_uvd r)) (baseline_array (ad_uvd r)) (blt_order (ad_uvd ordered_1)) /\
  blts_are_rectangular (ad_uvd r) = Some true.
Proof.
  split; [each; repeat split|]. split.
  - split; cbn; [exists [10; 20]|exists [1]]; (split; [nodupZ|]); (split; [intros x; simpl; tauto|reflexivity]).
  - eexists. split; [apply joined_up_ok; vm_compute; reflexivity|]. split; [|vm_compute; reflexivity]. split; [discriminate|]. intros _.
    change (time_array _) with [1; 1; 2; 2]. change (baseline_array _) with [10; 20; 10; 20]. cbn [combine]. split.
    + repeat constructor; simpl; intuition congruence.
    + repeat constructor; cbn; lia.
Qed.

(** The order declared by the first object is kept though the records of the
    second do not follow it; the flag then claims a layout that is not there. *)
Theorem C62_fast_concat_refuted : exists pop t a b r,
  picks pop /\ blt_shaped (ad_uvd a) /\ blt_shaped (ad_uvd b) /\ counts_ok (ad_uvd a) /\ counts_ok (ad_uvd b) /\
  declared_order_true (time_array (ad_uvd a)) (baseline_array (ad_uvd a)) (blt_order (ad_uvd a)) /\
  fast_concat pop t false AxBlt a [b] = Ok r /\ ~ rect_truthful (ad_uvd r).
Proof.
  exists last_of, exact_ctols, ordered_1, ordered_3. eexists.
  refine (conj last_picks (conj _ (conj _ (conj _ (conj _ (conj _ (conj _ _))))))).
  1-2: repeat split.
  1: split; cbn; [exists [10; 20]|exists [1]]; (split; [nodupZ|]); (split; [intros x; simpl; tauto|reflexivity]).
  1: split; cbn; [exists [10; 20]|exists [2]]; (split; [nodupZ|]); (split; [intros x; simpl; tauto|reflexivity]).
  - split; [discriminate|]. intros _. cbn. split; [repeat constructor; simpl; intuition congruence|repeat constructor; cbn; lia].
  - apply joined_up_ok. vm_compute. reflexivity.
  - set (r := joined_up AxBlt ordered_1 [ordered_3]). unfold rect_truthful.
    replace (blts_are_rectangular (ad_uvd r)) with (Some true) by (vm_compute; reflexivity).
    replace (Ntimes (ad_uvd r)) with 2%nat by (vm_compute; reflexivity). replace (Nbls (ad_uvd r)) with 2%nat by (vm_compute; reflexivity).
    replace (time_array (ad_uvd r)) with [1; 1; 2; 2] by (vm_compute; reflexivity).
    replace (baseline_array (ad_uvd r)) with [10; 20; 20; 10] by (vm_compute; reflexivity).
    replace (time_axis_faster_than_bls (ad_uvd r)) with false by (vm_compute; reflexivity).
    intros H. destruct (H eq_refl) as (ts & bs & L1 & L2 & _ & _ & _ & P).
    destruct ts as [|t0 [|t1 [|]]], bs as [|b0 [|b1 [|]]]; try discriminate. cbn in P. injection P as <- <- E _. discriminate E.
Qed.
Print Assumptions C62_fast_concat_refuted.
