(** Concrete sums *)
From Coq Require Import List ZArith Bool Arith QArith Lia String.
From Verif Require Import Lib.Py Lib.Np Lib.Cube Lib.Dict Spec.UVDataSpec Spec.BltSpec Spec.FreqSpec Spec.PhaseSpec Spec.AddSpec
  Model.UVData Model.Reorder Model.Freq Model.PhaseCenter Model.Add Proofs.PhaseProofs Proofs.PhaseOps Proofs.PhaseCases.
Import ListNotations.
Notation length := List.length.
Open Scope Z_scope.

Definition str_order (x y : Z * Z) : bool := (fst x <? fst y) || ((fst x =? fst y) && (snd x <=? snd y)).
Definition exact_tols : tolerances := mkTols (0, 0)%Q (0, 0)%Q (0, 0)%Q (0, 0)%Q (0, 0)%Q (0, 0)%Q (0, 0)%Q (0, 0)%Q.
Definition never_same (_ _ : catalog) : bool := false.

(** rows (time, baseline), channels (window, frequency), windows, polarizations;
    [base] sets the values apart *)
Definition obs (base : Z) (rows chans : list (Z * Z)) (spws pols : list Z) (ids : list Z) (cat : catalog) : addobj :=
  mkAddobj (mkFreqobj
    {| time_array := map fst rows; lst_array := map fst rows; ant_1_array := map snd rows; ant_2_array := map snd rows;
       baseline_array := map snd rows; integration_time := map (fun _ => base) rows;
       uvw_array := map (fun r => (fst r, snd r, base)) rows; phase_center_id_array := ids;
       phase_center_app_ra := map fst rows; phase_center_app_dec := map fst rows; phase_center_frame_pa := map fst rows;
       freq_array := map snd chans; channel_width := map (fun _ => 5) chans; flex_spw_id_array := map fst chans; spw_array := spws;
       polarization_array := pols;
       data_array := fun i j k => (base + 100 * Z.of_nat i + 10 * Z.of_nat j + Z.of_nat k, 1);
       flag_array := fun i j k => false; nsample_array := fun i j k => base;
       Nbls := 1; Ntimes := 1; blt_order := None; blts_are_rectangular := None; time_axis_faster_than_bls := false; Nants_telescope := 2 |}
    None None) cat (length cat) 7 3.

Definition cat_a : catalog := [(0, entry "a" (star 1 0)); (1, entry "b" (star 2 (1 # 2)))].
Definition cat_b : catalog := [(0, entry "b" (star 2 (1 # 2))); (1, entry "zen" zenith)].

Definition first_obs : addobj := obs 1000 [(1, 10); (1, 20)] [(0, 100); (0, 200); (5, 100)] [0; 5] [-5; -6] [0; 1] cat_a.
(** two of the channels and one polarization are shared, the channels in another order *)
Definition second_obs : addobj := obs 2000 [(3, 20); (2, 10)] [(5, 100); (0, 200); (0, 300); (2, 400)] [5; 0; 2] [-6; -7] [1; 0] cat_b.
(** a new channel before a shared one *)
Definition bad_obs : addobj := obs 2000 [(2, 10)] [(0, 50); (0, 100)] [0] [-5; -6] [0] cat_b.

Ltac axis_cases := repeat match goal with
  | H : (?i < S ?n)%nat |- _ => is_var i; destruct i as [|i]; [clear H|apply Nat.succ_lt_mono in H]
  | H : (_ < 0)%nat |- _ => inversion H
  end.

Lemma decide_distinct {L} (eqb : L -> L -> bool) (Heq : forall x y, eqb x y = true <-> x = y) n (f : nat -> L) :
  forallb (fun i => forallb (fun j => (i =? j)%nat || negb (eqb (f i) (f j))) (seq 0 n)) (seq 0 n) = true -> distinct n f.
Proof.
  intros H i j Hi Hj E. rewrite forallb_forall in H. assert (Ii : In i (seq 0 n)) by (apply in_seq; lia).
  assert (Ij : In j (seq 0 n)) by (apply in_seq; lia). specialize (H i Ii). rewrite forallb_forall in H. specialize (H j Ij).
  apply orb_true_iff in H as [H|H]; [apply Nat.eqb_eq, H|]. apply negb_true_iff in H. rewrite (proj2 (Heq _ _) E) in H. discriminate.
Qed.
Definition on_axisb {L} (eqb : L -> L -> bool) (n : nat) (f : nat -> L) (x : L) : bool := existsb (fun i => eqb (f i) x) (seq 0 n).
Lemma on_axisb_spec {L} (eqb : L -> L -> bool) (Heq : forall x y, eqb x y = true <-> x = y) n (f : nat -> L) x :
  on_axisb eqb n f x = true <-> on_axis n f x.
Proof.
  unfold on_axisb. rewrite existsb_exists. split.
  - intros (i & Hi & E). apply in_seq in Hi. exists i. apply Heq in E. split; [lia|exact E].
  - intros (i & Hi & E). exists i. split; [apply in_seq; lia|apply Heq, E].
Qed.
Lemma decide_shared {L} (eqb : L -> L -> bool) (Heq : forall x y, eqb x y = true <-> x = y) na nb (fa fb : nat -> L) :
  forallb (fun j => forallb (fun i => negb (on_axisb eqb na fa (fb j)) || on_axisb eqb na fa (fb i)) (seq 0 j)) (seq 0 nb) = true ->
  shared_first na nb fa fb.
Proof.
  intros H i j Hij Hj. rewrite forallb_forall in H. specialize (H j ltac:(apply in_seq; lia)). rewrite forallb_forall in H.
  specialize (H i ltac:(apply in_seq; lia)). apply (on_axisb_spec eqb Heq). apply (on_axisb_spec eqb Heq) in Hj. rewrite Hj in H. exact H.
Qed.
Lemma pair_eq x y : pair_eqb x y = true <-> x = y.
Proof.
  unfold pair_eqb. destruct x, y. cbn [fst snd]. rewrite andb_true_iff, !Z.eqb_eq. split; [intros [-> ->]; reflexivity|intros E; injection E; auto].
Qed.

Lemma obs_addable base rows chans spws pols ids cat : length ids = length rows -> NoDup spws ->
  (forall w, In w (map fst chans) <-> In w spws) ->
  forallb (fun i => forallb (fun j => (i =? j)%nat || negb (pair_eqb (nth i rows (0, 0)) (nth j rows (0, 0)))) (seq 0 (length rows))) (seq 0 (length rows)) = true ->
  forallb (fun i => forallb (fun j => (i =? j)%nat || negb (pair_eqb (nth i chans (0, 0)) (nth j chans (0, 0)))) (seq 0 (length chans))) (seq 0 (length chans)) = true ->
  forallb (fun i => forallb (fun j => (i =? j)%nat || negb (nth i pols 0 =? nth j pols 0)) (seq 0 (length pols))) (seq 0 (length pols)) = true ->
  addable (obs base rows chans spws pols ids cat).
Proof.
  intros Li Ns Hw D1 D2 D3. split; [|split; [|split; [|split]]].
  - unfold blt_shaped, obs, ad_uvd. cbn. rewrite !map_length. repeat split. exact Li.
  - split; [split; [|split]|].
    + unfold freq_shaped. cbn. rewrite !map_length. split; reflexivity.
    + exact Ns.
    + exact Hw.
    + cbn. intros fp E. discriminate.
  - unfold Nblts. cbn. rewrite map_length.
    intros i j Hi Hj E. apply (decide_distinct pair_eqb pair_eq (length rows) (fun i => nth i rows (0, 0)) D1 i j Hi Hj).
    unfold row_label in E. cbn in E. change 0 with (fst (0, 0)) in E at 1 3. change 0 with (snd (0, 0)) in E at 3 6.
    rewrite !map_nth in E. rewrite <- !surjective_pairing in E. exact E.
  - unfold Nfreqs. cbn. rewrite map_length.
    intros i j Hi Hj E. apply (decide_distinct pair_eqb pair_eq (length chans) (fun i => nth i chans (0, 0)) D2 i j Hi Hj).
    unfold chan_label in E. cbn in E. change 0 with (fst (0, 0)) in E at 1 3. change 0 with (snd (0, 0)) in E at 3 6.
    rewrite !map_nth in E. rewrite <- !surjective_pairing in E. exact E.
  - apply (decide_distinct Z.eqb Z.eqb_eq). exact D3.
Qed.

Ltac windows := let w := fresh in intros w; simpl; intuition.
Lemma first_addable : addable first_obs.
Proof. apply obs_addable; [reflexivity|nodupZ|windows|reflexivity..]. Qed.
Lemma second_addable : addable second_obs.
Proof. apply obs_addable; [reflexivity|nodupZ|windows|reflexivity..]. Qed.
Lemma bad_addable : addable bad_obs.
Proof. apply obs_addable; [reflexivity|nodupZ|windows|reflexivity..]. Qed.

Definition comes_first (a b : addobj) : Prop :=
  shared_first (Nblts (ad_uvd a)) (Nblts (ad_uvd b)) (row_label (ad_uvd a)) (row_label (ad_uvd b)) /\
  shared_first (Nfreqs (ad_uvd a)) (Nfreqs (ad_uvd b)) (chan_label (ad_uvd a)) (chan_label (ad_uvd b)) /\
  shared_first (Npols (ad_uvd a)) (Npols (ad_uvd b)) (pol_label (ad_uvd a)) (pol_label (ad_uvd b)).
Lemma obs_in_order : comes_first first_obs second_obs.
Proof.
  split; [|split].
  - apply (decide_shared pair_eqb pair_eq). reflexivity.
  - apply (decide_shared pair_eqb pair_eq). reflexivity.
  - apply (decide_shared Z.eqb Z.eqb_eq). reflexivity.
Qed.

Lemma first_consistent : pc_consistent (centers first_obs).
Proof.
  apply consistent_keys. split; [split; [nodupZ|]|split; [reflexivity|]].
  - cbn [pc_cat centers first_obs obs ad_catalog cat_a]. storables.
  - intros k Hk. simpl in *. intuition.
Qed.
Lemma second_consistent : pc_consistent (centers second_obs).
Proof.
  apply consistent_keys. split; [split; [nodupZ|]|split; [reflexivity|]].
  - cbn [pc_cat centers second_obs obs ad_catalog cat_b]. storables.
  - intros k Hk. simpl in *. intuition.
Qed.
Lemma obs_distinguishable : distinguishable false (centers first_obs) (ad_catalog second_obs).
Proof.
  intros k1 r1 k2 r2 e H1 H2 _ [_ M1] [_ M2]. specialize (M1 eq_refl). specialize (M2 eq_refl). rewrite <- M1 in M2.
  simpl in H1, H2. destruct H1 as [H1|[H1|[]]], H2 as [H2|[H2|[]]]; injection H1 as <- <-; injection H2 as <- <-; auto; discriminate.
Qed.
Lemma exact_ok : tolerances_ok exact_tols.
Proof. repeat split; cbn; apply Qle_refl. Qed.

(** The objects share no row. *)
Lemma obs_rows_apart i i' : (i < Nblts (ad_uvd first_obs))%nat -> (i' < Nblts (ad_uvd second_obs))%nat ->
  row_label (ad_uvd first_obs) i <> row_label (ad_uvd second_obs) i'.
Proof.
  intros Hi Hi'. change (i < 2)%nat in Hi. change (i' < 2)%nat in Hi'. axis_cases; intros E; vm_compute in E; discriminate E.
Qed.
Lemma obs_agree : agree never_same first_obs second_obs.
Proof.
  split; [reflexivity|]. split; [reflexivity|]. split.
  - intros i i' Hi Hi' E. exfalso. exact (obs_rows_apart i i' Hi Hi' E).
  - split; [|split].
    + intros j j' Hj Hj' _. change (j < 3)%nat in Hj. change (j' < 4)%nat in Hj'. axis_cases; reflexivity.
    + cbn. split; reflexivity.
    + intros w p q H. exfalso. unfold window_pol in H. destruct H as (fp & k & E & _). discriminate E.
Qed.
Lemma obs_overwritable : overwritable first_obs second_obs.
Proof.
  intros x y p c (i & j & k & Hi & _ & _ & E & _) (( i' & Hi' & E') & _). exfalso. apply (obs_rows_apart i i' Hi Hi').
  congruence.
Qed.

Definition the_sum (a b : addobj) : addobj :=
  match add last_of str_order exact_tols never_same false a b with Ok r => r | Err _ => a end.

Ltac sample_at i j k := exists i, j, k; repeat split; try (vm_compute; lia); vm_compute; reflexivity.

(** Window 0, frequency 50: its visibility is put under frequency 100 *)
Lemma misplaced : exists r, add last_of str_order exact_tols never_same false first_obs bad_obs = Ok r /\
  (let c := ((2000, 1), false, 2000) in
   sample (ad_uvd bad_obs) (2, 10) (0, 50) (-5) c /\ ~ sample (ad_uvd r) (2, 10) (0, 50) (-5) c /\
   sample (ad_uvd r) (2, 10) (0, 100) (-5) c).
Proof.
  exists (the_sum first_obs bad_obs). split; [vm_compute; reflexivity|]. cbv zeta. split; [|split].
  - sample_at 0%nat 0%nat 0%nat.
  - intros (i & j & k & Hi & Hj & Hk & E1 & E2 & E3 & E4).
    assert (Hi' : (i < 3)%nat) by (vm_compute in Hi; exact Hi). assert (Hj' : (j < 4)%nat) by (vm_compute in Hj; exact Hj).
    assert (Hk' : (k < 2)%nat) by (vm_compute in Hk; exact Hk). clear Hi Hj Hk.
    axis_cases; try (vm_compute in E1; discriminate E1); try (vm_compute in E2; discriminate E2); try (vm_compute in E3; discriminate E3);
    vm_compute in E4; discriminate E4.
  - sample_at 2%nat 1%nat 0%nat.
Qed.
