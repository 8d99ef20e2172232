(** remove_flex_pol keeps every sample. *)
From Coq Require Import List ZArith Bool Arith Lia Sorted Permutation.
From Verif Require Import Lib.Py Lib.Np Lib.Cube Lib.Sorting Spec.UVDataSpec Spec.FreqSpec Spec.FlexPolSpec
  Model.UVData Model.Freq Model.PhaseCenter Model.FlexPol Proofs.AccessProofs Proofs.FreqProofs Proofs.FreqReorder
  Proofs.FlexPolSets Proofs.FlexPolLayout.
Import ListNotations.
Notation length := List.length.
Open Scope Z_scope.

(** ** The channels of a window after reordering *)
Section Windows.
Variables (o o1 : freqobj) (sigma : list nat).
Hypothesis Hok : obj_ok o.
Hypothesis HR : freqs_rearranged sigma o o1.
Let u := fo_uvd o.
Let u1 := fo_uvd o1.
Let N := length (freq_array u).

Definition moved w := map (fun j => nth j sigma 0%nat) (nonzero (Z.eqb w) (flex_spw_id_array u1)).

Lemma moved_facts w : (forall j, In j (nonzero (Z.eqb w) (flex_spw_id_array u1)) -> (j < N)%nat) /\
  take 0 (freq_array u1) (nonzero (Z.eqb w) (flex_spw_id_array u1)) = take 0 (freq_array u) (moved w) /\
  take 0 (channel_width u1) (nonzero (Z.eqb w) (flex_spw_id_array u1)) = take 0 (channel_width u) (moved w) /\
  Permutation (moved w) (nonzero (Z.eqb w) (flex_spw_id_array u)).
Proof.
  destruct HR as (P & L1 & (Lw1 & Lx1) & HC & _ & _). fold u u1 N in P, L1, Lw1, Lx1, HC.
  destruct Hok as [((Lw & Lx) & _ & _) _]. fold u in Lw, Lx.
  destruct (perm_seq_facts _ _ P) as (Ls & Ns & Bs & Is).
  assert (B : forall j, In j (nonzero (Z.eqb w) (flex_spw_id_array u1)) -> (j < N)%nat).
  { intros j Hj. apply nonzero_lt in Hj. lia. }
  split; [exact B|]. split; [|split].
  - unfold take, moved. rewrite map_map. apply map_ext_in. intros j Hj. apply (HC j (B j Hj)).
  - unfold take, moved. rewrite map_map. apply map_ext_in. intros j Hj. apply (HC j (B j Hj)).
  - apply NoDup_Permutation; [|apply nonzero_NoDup|].
    + unfold moved. pose proof (nonzero_NoDup (Z.eqb w) (flex_spw_id_array u1)) as ND.
      revert ND B. generalize (nonzero (Z.eqb w) (flex_spw_id_array u1)). induction l as [|j l IH]; intros ND B; simpl; [constructor|].
      apply NoDup_cons_iff in ND. destruct ND as [Nj ND]. constructor; [|apply IH; [exact ND|intros; apply B; right; assumption]].
      intros C. apply in_map_iff in C. destruct C as (k & E & Hk). apply Nj.
      assert (k = j) by (apply (proj1 (NoDup_nth sigma 0%nat) Ns); try (rewrite Ls; apply B); [right; exact Hk|left; reflexivity|exact E]).
      congruence.
    + intros c. unfold moved. rewrite in_map_iff. split.
      * intros (j & <- & Hj). pose proof (B j Hj) as Bj. apply (nonzero_spec 0) in Hj. destruct Hj as [_ E].
        destruct (HC j Bj) as (_ & _ & C & _). apply (nonzero_spec 0). split; [rewrite Lx; apply Bs; exact Bj|]. rewrite <- C. exact E.
      * intros Hc. pose proof (nonzero_lt _ _ _ Hc) as Bc. apply (nonzero_spec 0) in Hc. destruct Hc as [_ E]. rewrite Lx in Bc. fold N in Bc.
        assert (Hin : In c sigma) by (apply Is; exact Bc). destruct (In_nth _ _ 0%nat Hin) as (j & Hj & Ej).
        exists j. split; [exact Ej|]. apply (nonzero_spec 0). split; [lia|]. destruct (HC j ltac:(lia)) as (_ & _ & C & _). rewrite C, Ej. exact E.
Qed.

(** Kept in order: the same lists. *)
Lemma windows_kept w :
  (forall i j, (i < j < N)%nat -> nth i (flex_spw_id_array u1) 0 = nth j (flex_spw_id_array u1) 0 -> (nth i sigma 0 < nth j sigma 0)%nat) ->
  take 0 (freq_array u1) (nonzero (Z.eqb w) (flex_spw_id_array u1)) = take 0 (freq_array u) (nonzero (Z.eqb w) (flex_spw_id_array u)) /\
  take 0 (channel_width u1) (nonzero (Z.eqb w) (flex_spw_id_array u1)) = take 0 (channel_width u) (nonzero (Z.eqb w) (flex_spw_id_array u)).
Proof.
  intros K. destruct (moved_facts w) as (B & E1 & E2 & P). rewrite E1, E2.
  assert (E : moved w = nonzero (Z.eqb w) (flex_spw_id_array u)).
  { apply (sorted_unique lt); [intros; lia|intros; lia| |apply nonzero_sorted|].
    - unfold moved. apply (proj1 (StronglySorted_map _ _ _)). apply (proj2 (StronglySorted_nth _ 0%nat _)). intros i j Hij Hj.
      pose proof (proj1 (StronglySorted_nth _ 0%nat _) (nonzero_sorted (Z.eqb w) (flex_spw_id_array u1)) i j Hij Hj) as L.
      assert (I1 : In (nth i (nonzero (Z.eqb w) (flex_spw_id_array u1)) 0%nat) (nonzero (Z.eqb w) (flex_spw_id_array u1))) by (apply nth_In; lia).
      assert (I2 : In (nth j (nonzero (Z.eqb w) (flex_spw_id_array u1)) 0%nat) (nonzero (Z.eqb w) (flex_spw_id_array u1))) by (apply nth_In; lia).
      apply K; [split; [exact L | apply B, I2]|].
      apply (nonzero_spec 0) in I1, I2. destruct I1 as [_ I1], I2 as [_ I2]. apply Z.eqb_eq in I1, I2. congruence.
    - intros c. split; apply Permutation_in; [|symmetry]; exact P. }
  rewrite E. auto.
Qed.

Lemma pairs_sorted_unique (f : nat -> Z) l l' : Permutation l l' ->
  StronglySorted (fun a b => f a <= f b) l -> StronglySorted (fun a b => f a <= f b) l' ->
  NoDup (map f l) -> l = l'.
Proof.
  intros P S S' ND.
  assert (St : forall m, NoDup (map f m) -> StronglySorted (fun a b => f a <= f b) m -> StronglySorted (fun a b => f a < f b) m).
  { induction m as [|a m IH]; intros Nm Sm; [constructor|]. simpl in Nm. apply NoDup_cons_iff in Nm. destruct Nm as [Na Nm].
    inversion Sm as [|? ? S1 F1]; subst. constructor; [apply IH; assumption|]. rewrite Forall_forall in *. intros b Hb.
    specialize (F1 b Hb). assert (f a <> f b) by (intros C; apply Na; rewrite C; apply in_map, Hb). lia. }
  apply (sorted_unique (fun a b => f a < f b)); [intros; lia|intros; lia|apply St; assumption|apply St; [|assumption]|].
  - apply (Permutation_NoDup (Permutation_map f P)). exact ND.
  - intros x. split; apply Permutation_in; [|symmetry]; exact P.
Qed.

(** Sorted: the lists that identify the set. *)
Lemma windows_sorted w : distinct_channels u -> channels_sorted false (selected None) u1 ->
  (take 0 (freq_array u1) (nonzero (Z.eqb w) (flex_spw_id_array u1)), take 0 (channel_width u1) (nonzero (Z.eqb w) (flex_spw_id_array u1)))
  = sorted_window u w.
Proof.
  intros D S. destruct (moved_facts w) as (B & E1 & E2 & P). rewrite E1, E2. unfold sorted_window.
  set (inds := nonzero (Z.eqb w) (flex_spw_id_array u)) in *.
  set (si := take 0%nat inds (argsortZ (take 0 (freq_array u) inds))).
  assert (Psi : Permutation si inds).
  { unfold si. apply take_perm. rewrite <- (take_length 0 (freq_array u) inds). apply argsortZ_perm. }
  assert (E : moved w = si).
  { apply (pairs_sorted_unique (fun j => nth j (freq_array u) 0)).
    - transitivity inds; [exact P | symmetry; exact Psi].
    - unfold moved. apply (proj1 (StronglySorted_map _ _ _)). apply (proj2 (StronglySorted_nth _ 0%nat _)). intros i j Hij Hj.
      pose proof (proj1 (StronglySorted_nth _ 0%nat _) (nonzero_sorted (Z.eqb w) (flex_spw_id_array u1)) i j Hij Hj) as L.
      assert (I1 : In (nth i (nonzero (Z.eqb w) (flex_spw_id_array u1)) 0%nat) (nonzero (Z.eqb w) (flex_spw_id_array u1))) by (apply nth_In; lia).
      assert (I2 : In (nth j (nonzero (Z.eqb w) (flex_spw_id_array u1)) 0%nat) (nonzero (Z.eqb w) (flex_spw_id_array u1))) by (apply nth_In; lia).
      pose proof (B _ I1) as B1. pose proof (B _ I2) as B2.
      destruct HR as (_ & L1 & _ & HC & _). fold u u1 N in L1, HC.
      destruct (HC _ B1) as (C1 & _), (HC _ B2) as (C2 & _). rewrite <- C1, <- C2.
      apply (S (nth i (nonzero (Z.eqb w) (flex_spw_id_array u1)) 0%nat) (nth j (nonzero (Z.eqb w) (flex_spw_id_array u1)) 0%nat)); [lia| |exact Logic.I].
      apply (nonzero_spec 0) in I1, I2. destruct I1 as [_ I1], I2 as [_ I2]. apply Z.eqb_eq in I1, I2. congruence.
    - pose proof (argsortZ_sorted (take 0 (freq_array u) inds)) as AS. unfold si.
      rewrite take_take in AS by (intros k Hk; pose proof (argsort_by_In) as _; apply (Permutation_in _ (argsortZ_perm _)), in_seq in Hk; rewrite take_length in Hk; lia).
      apply (proj2 (StronglySorted_map Z.le (fun j => nth j (freq_array u) 0) _)). exact AS.
    - apply (Permutation_NoDup (Permutation_map _ (Permutation_sym P))).
      apply (proj2 (NoDup_nth _ 0)). intros i j Hi Hj. rewrite map_length in Hi, Hj.
      rewrite !(nth_map _ inds _ 0%nat 0) by assumption. intros Eq.
      destruct (Nat.lt_trichotomy i j) as [C|[C|C]]; [exfalso|exact C|exfalso].
      + apply (D (nth i inds 0%nat) (nth j inds 0%nat)); [split; [apply (proj1 (StronglySorted_nth _ 0%nat _) (nonzero_sorted _ _)); assumption|]| |exact Eq].
        * assert (I2 : In (nth j inds 0%nat) inds) by (apply nth_In; exact Hj). apply nonzero_lt in I2. destruct Hok as [((_ & Lx) & _) _]. fold u in Lx. lia.
        * assert (I1 : In (nth i inds 0%nat) inds) by (apply nth_In; exact Hi). assert (I2 : In (nth j inds 0%nat) inds) by (apply nth_In; exact Hj).
          apply (nonzero_spec 0) in I1, I2. destruct I1 as [_ I1], I2 as [_ I2]. apply Z.eqb_eq in I1, I2. congruence.
      + apply (D (nth j inds 0%nat) (nth i inds 0%nat)); [split; [apply (proj1 (StronglySorted_nth _ 0%nat _) (nonzero_sorted _ _)); assumption|]| |symmetry; exact Eq].
        * assert (I2 : In (nth i inds 0%nat) inds) by (apply nth_In; exact Hi). apply nonzero_lt in I2. destruct Hok as [((_ & Lx) & _) _]. fold u in Lx. lia.
        * assert (I1 : In (nth i inds 0%nat) inds) by (apply nth_In; exact Hi). assert (I2 : In (nth j inds 0%nat) inds) by (apply nth_In; exact Hj).
          apply (nonzero_spec 0) in I1, I2. destruct I1 as [_ I1], I2 as [_ I2]. apply Z.eqb_eq in I1, I2. congruence. }
  rewrite E. reflexivity.
Qed.
End Windows.

(** ** The simple cases *)
Lemma fp_mem o fp : obj_ok o -> flex_spw_polarization_array o = Some fp ->
  forall p, In p fp <-> exists w, In w (spw_array (fo_uvd o)) /\ p = polf (spw_array (fo_uvd o)) fp w.
Proof.
  intros Hok Ef p. pose proof Hok as [_ L]. specialize (L fp Ef). split.
  - intros H. apply In_nth_error in H. destruct H as (k & Hk). assert (k < length fp)%nat by (apply nth_error_Some; congruence).
    exists (nth k (spw_array (fo_uvd o)) 0). apply (window_pol_polf o fp); try assumption. exists fp, k. repeat split; try assumption. lia.
  - intros (w & Hw & ->). assert (H : window_pol o w (polf (spw_array (fo_uvd o)) fp w)) by (apply (window_pol_polf o fp); auto).
    destruct H as (fp' & k & E & _ & _ & Hk). rewrite Ef in E. injection E as <-. apply nth_error_In in Hk. exact Hk.
Qed.

Lemma window_pol_chan o fp c : obj_ok o -> flex_spw_polarization_array o = Some fp -> (c < length (freq_array (fo_uvd o)))%nat ->
  window_pol o (nth c (flex_spw_id_array (fo_uvd o)) 0) (polf (spw_array (fo_uvd o)) fp (nth c (flex_spw_id_array (fo_uvd o)) 0)) /\
  In (nth c (flex_spw_id_array (fo_uvd o)) 0) (spw_array (fo_uvd o)).
Proof.
  intros Hok Ef Hc. pose proof Hok as [((_ & Lx) & _ & Hm) _].
  assert (In (nth c (flex_spw_id_array (fo_uvd o)) 0) (spw_array (fo_uvd o))) by (apply Hm, nth_In; lia).
  split; [apply (window_pol_polf o fp); auto | assumption].
Qed.

Lemma removed_one o fp : flex_pol_ok o -> flex_spw_polarization_array o = Some fp ->
  length (spw_array (fo_uvd o)) = 1%nat \/ length (uniqueZ fp) = 1%nat ->
  flex_pol_removed o (mkFreqobj (set_polarization_array (uniqueZ fp) (fo_uvd o)) (eq_coeffs o) None).
Proof.
  intros (Hok & _ & Np) Ef H. pose proof Hok as [Hax L]. specialize (L fp Ef).
  assert (L1 : length (uniqueZ fp) = 1%nat).
  { destruct H as [H|H]; [|exact H]. destruct fp as [|p [|]]; simpl in L; try lia. reflexivity. }
  unfold flex_pol_removed. cbn [fo_uvd flex_spw_polarization_array]. split; [reflexivity|].
  split; [split; [exact Hax | intros ? C; discriminate C]|]. split; [apply uniqueZ_NoDup|]. split; [repeat split|].
  exists (fun c => (c, O)). split; [|split; [|split]].
  - intros c Hc. destruct (window_pol_chan o fp c Hok Ef Hc) as [W Hin].
    split; [exact Hc|]. split; [unfold Npols; cbn [fo_uvd set_polarization_array polarization_array]; rewrite L1; lia|].
    split; [repeat split|]. cbn [fo_uvd set_polarization_array polarization_array].
    assert (E : polf (spw_array (fo_uvd o)) fp (nth c (flex_spw_id_array (fo_uvd o)) 0) = nth 0 (uniqueZ fp) 0).
    { assert (I : In (polf (spw_array (fo_uvd o)) fp (nth c (flex_spw_id_array (fo_uvd o)) 0)) (uniqueZ fp)).
      { apply uniqueZ_In. apply (fp_mem o fp Hok Ef). eauto. }
      destruct (uniqueZ fp) as [|p [|]]; simpl in L1; try lia. destruct I as [I|[]]. simpl. congruence. }
    rewrite <- E. exact W.
  - intros c c' _ _ E. congruence.
  - exists (fun w => w). cbn [fst]. split; [reflexivity|]. intros; assumption.
  - intros j k Hj Hk. left. exists j. split; [exact Hj|]. unfold Npols in Hk. cbn [fo_uvd set_polarization_array polarization_array] in Hk.
    rewrite L1 in Hk. f_equal. lia.
Qed.

Lemma inflate_fold {A} (d v : A) (f p : Z) windows : NoDup (map fst windows) ->
  fold_left (fun cur wp => if (f =? fst wp) && (p =? snd wp) then v else cur) windows d =
  if existsb (fun wp => (f =? fst wp) && (p =? snd wp)) windows then v else d.
Proof.
  intros _. revert d. induction windows as [|x l IH]; intros d; simpl; [reflexivity|]. rewrite IH.
  destruct ((f =? fst x) && (p =? snd x)); [|reflexivity]. simpl. destruct (existsb _ l); reflexivity.
Qed.

Lemma inflate_value {A} (d : A) o fp a i c k : obj_ok o -> flex_spw_polarization_array o = Some fp -> (c < length (freq_array (fo_uvd o)))%nat ->
  inflate_array d (fo_uvd o) (uniqueZ fp) (combine (spw_array (fo_uvd o)) fp) a i c k =
  if nth k (uniqueZ fp) 0 =? polf (spw_array (fo_uvd o)) fp (nth c (flex_spw_id_array (fo_uvd o)) 0) then a i c 0%nat else d.
Proof.
  intros Hok Ef Hc. pose proof Hok as [((Lw & Lx) & N & Hm) L]. specialize (L fp Ef). unfold inflate_array.
  assert (M : map fst (combine (spw_array (fo_uvd o)) fp) = spw_array (fo_uvd o)).
  { clear -L. revert fp L. induction (spw_array (fo_uvd o)) as [|w l IH]; intros [|p fp] L; simpl in *; try lia; try reflexivity. f_equal. apply IH. lia. }
  rewrite inflate_fold by (rewrite M; exact N). set (w := nth c (flex_spw_id_array (fo_uvd o)) 0).
  assert (E : existsb (fun wp => (w =? fst wp) && (nth k (uniqueZ fp) 0 =? snd wp)) (combine (spw_array (fo_uvd o)) fp)
              = (nth k (uniqueZ fp) 0 =? polf (spw_array (fo_uvd o)) fp w)); [|rewrite E; reflexivity].
  destruct (window_pol_chan o fp c Hok Ef Hc) as [W Hin]. fold w in W, Hin.
  apply eq_true_iff_eq. rewrite existsb_exists, Z.eqb_eq. split.
  - intros ((v, p) & Hv & E). simpl in E. apply andb_prop in E. destruct E as [E1 E2]. apply Z.eqb_eq in E1, E2. subst v.
    rewrite E2. apply In_nth_error in Hv. destruct Hv as (q & Hq).
    assert (W' : window_pol o w p).
    { exists fp, q. assert (Q : (q < length (combine (spw_array (fo_uvd o)) fp))%nat) by (apply nth_error_Some; congruence).
      rewrite combine_length in Q. apply nth_error_nth with (d := (0, 0)) in Hq. rewrite combine_nth in Hq by lia. injection Hq as H1 H2.
      split; [exact Ef|]. split; [lia|]. split; [exact H1|]. rewrite (nth_error_nth' fp 0) by lia. congruence. }
    apply (window_pol_polf o fp) in W'; try assumption. apply W'.
  - intros E. destruct W as (fp' & q & Ef' & Hq & Ew & Ep). rewrite Ef in Ef'. injection Ef' as <-.
    exists (w, nth k (uniqueZ fp) 0). simpl. rewrite !Z.eqb_refl. split; [|reflexivity].
    rewrite E. apply nth_error_nth with (d := 0) in Ep. rewrite <- Ep. rewrite <- Ew at 1. rewrite <- combine_nth by lia. apply nth_In.
    rewrite combine_length. lia.
Qed.

Lemma removed_inflate o fp : flex_pol_ok o -> flex_spw_polarization_array o = Some fp ->
  flex_pol_removed o (inflate_pols (uniqueZ fp) o fp).
Proof.
  intros (Hok & _ & Np) Ef. pose proof Hok as [Hax L]. specialize (L fp Ef).
  unfold flex_pol_removed, inflate_pols, set_axes. cbn [fo_uvd flex_spw_polarization_array polarization_array]. split; [reflexivity|].
  split; [split; [exact Hax | intros ? C; discriminate C]|]. split; [apply uniqueZ_NoDup|]. split; [repeat split|].
  set (pf := polf (spw_array (fo_uvd o)) fp).
  set (pos := fun p => match index_of Z.eqb p (uniqueZ fp) with Some k => k | None => O end).
  assert (Hpos : forall c, (c < length (freq_array (fo_uvd o)))%nat ->
    let p := pf (nth c (flex_spw_id_array (fo_uvd o)) 0) in (pos p < length (uniqueZ fp))%nat /\ nth (pos p) (uniqueZ fp) 0 = p).
  { intros c Hc p. destruct (window_pol_chan o fp c Hok Ef Hc) as [W Hin].
    assert (I : In p (uniqueZ fp)) by (apply uniqueZ_In, (fp_mem o fp Hok Ef); eauto).
    unfold pos. destruct (index_of Z.eqb p (uniqueZ fp)) as [k|] eqn:E.
    - apply (index_of_Some Z.eqb Z.eqb_eq 0) in E. tauto.
    - apply (index_of_None Z.eqb Z.eqb_eq) in E. contradiction. }
  exists (fun c => (c, pos (pf (nth c (flex_spw_id_array (fo_uvd o)) 0)))). split; [|split; [|split]].
  - intros c Hc. unfold Nfreqs in Hc. destruct (window_pol_chan o fp c Hok Ef Hc) as [W Hin]. destruct (Hpos c Hc) as [P1 P2].
    unfold Npols, Nfreqs. cbn [fo_uvd freq_array polarization_array]. split; [exact Hc|]. split; [exact P1|]. split.
    + split; [reflexivity|]. split; [reflexivity|]. intros i. cbn [data_array flag_array nsample_array].
      rewrite !(inflate_value _ o fp) by assumption. fold pf. rewrite P2, Z.eqb_refl. auto.
    + rewrite P2. exact W.
  - intros c c' _ _ E. congruence.
  - exists (fun w => w). cbn [fst]. split; [reflexivity|]. intros; assumption.
  - intros j k Hj Hk. unfold Npols, Nfreqs in Hj, Hk. cbn [fo_uvd freq_array polarization_array] in Hj, Hk.
    destruct (Hpos j Hj) as [P1 P2]. destruct (Z.eqb_spec (nth k (uniqueZ fp) 0) (pf (nth j (flex_spw_id_array (fo_uvd o)) 0))) as [E|E].
    + left. exists j. split; [exact Hj|]. f_equal. apply (proj1 (NoDup_nth _ 0) (uniqueZ_NoDup fp)); try assumption. congruence.
    + right. intros i. cbn [fo_uvd data_array flag_array nsample_array]. rewrite !(inflate_value _ o fp) by assumption. fold pf.
      destruct (Z.eqb_spec (nth k (uniqueZ fp) 0) (pf (nth j (flex_spw_id_array (fo_uvd o)) 0))); [contradiction|]. auto.
Qed.
