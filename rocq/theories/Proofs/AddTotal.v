(** When __add__ succeeds. *)
From Coq Require Import List ZArith Bool Arith QArith Lia Lqa Permutation Sorted.
From Verif Require Import Lib.Py Lib.Np Lib.Cube Lib.Sorting Lib.Dict Spec.UVDataSpec Spec.BltSpec Spec.FreqSpec Spec.PhaseSpec Spec.AddSpec Model.Hdf5 Model.Tools
  Model.UVData Model.Reorder Model.Freq Model.PhaseCenter Model.Times Model.Add
  Proofs.Hdf5Proofs Proofs.FreqProofs Proofs.FreqReorder Proofs.ReorderProofs Proofs.SelectTotal Proofs.PhaseProofs Proofs.PhaseConsolidate
  Proofs.AddAxis Proofs.AddMove Proofs.AddJoin Proofs.AddProofs Proofs.AddSum.
Import ListNotations.
Notation length := List.length.
Open Scope Z_scope.

Lemma closeZ_refl tols x : nonneg tols -> closeZ tols x x = true.
Proof.
  intros [H1 H2]. unfold closeZ, isclose. apply Qle_bool_iff.
  assert (E : (qabs (inject_Z x - inject_Z x) == 0)%Q).
  { unfold qabs. destruct (Qle_bool 0 (inject_Z x - inject_Z x)); ring. }
  rewrite E. assert (P : (0 <= qabs (inject_Z x))%Q).
  { unfold qabs. destruct (Qle_bool 0 (inject_Z x)) eqn:Q; [apply Qle_bool_iff; exact Q|].
    destruct (Qlt_le_dec (inject_Z x) 0) as [L|L]; [lra|]. apply Qle_bool_iff in L. congruence. }
  pose proof (Qmult_le_0_compat _ _ H1 P). lra.
Qed.

Lemma close_at_refl tols a b ai bi : nonneg tols ->
  (forall p, In p (combine ai bi) -> nth (snd p) b 0 = nth (fst p) a 0) -> close_at tols a b ai bi = true.
Proof.
  intros Ht H. unfold close_at. apply forallb_forall. intros p Hp. rewrite (H p Hp). apply closeZ_refl, Ht.
Qed.

Lemma paired_combine {L} (d : L) la lb ti oi p : paired d la lb ti oi -> In p (combine ti oi) ->
  (fst p < length la)%nat /\ (snd p < length lb)%nat /\ nth (fst p) la d = nth (snd p) lb d.
Proof.
  intros (both & _ & _ & L1 & L2 & H) Hp. destruct (In_nth _ _ (0, 0)%nat Hp) as (q & Hq & <-).
  rewrite combine_length in Hq. rewrite combine_nth by lia. cbn [fst snd]. destruct (H q) as (A & B & C & D); [lia|].
  split; [exact A|]. split; [exact C|]. congruence.
Qed.

Lemma order_some n ti oi s : overlap_order n ti oi = Some s -> exists i, In i ti \/ In i oi.
Proof.
  unfold overlap_order. destruct (listN_eqb (argsortN ti) (argsortN oi)) eqn:E; [discriminate|]. intros _.
  destruct ti as [|i ti]; [|exists i; left; left; reflexivity]. destruct oi as [|i oi]; [discriminate E|exists i; right; left; reflexivity].
Qed.

Section Total.
Variables (pop : list Z -> Z) (str_le : Z * Z -> Z * Z -> bool) (t : tolerances) (same_cat : catalog -> catalog -> bool) (ign : bool).
Variables (a b : addobj).
Hypothesis Ha : addable a.
Hypothesis Hb : addable b.
Let u := ad_uvd a.
Let v := ad_uvd b.
Let rows := intersect1d pair_eqb str_le (blt_labels u) (blt_labels v).
Let chans := intersect_channels u v.
Let pols := intersect1d Z.eqb Z.leb (polarization_array u) (polarization_array v).
Hypothesis Hne : (0 < Nblts u)%nat.

Lemma match_total o : blt_shaped (fo_uvd o) -> obj_ok o -> Nblts (fo_uvd o) = Nblts u -> Nfreqs (fo_uvd o) = Nfreqs u -> Npols (fo_uvd o) = Npols u ->
  exists o', match_orders rows chans pols o = Ok o'.
Proof.
  intros Sh Ok1 EB EF EP. destruct (a_lists a Ha) as (N1 & N2 & N3). fold u in N1, N2, N3.
  pose proof (rows_paired str_le a b) as PB. pose proof (chans_paired' a b Ha Hb) as PF. pose proof (pols_paired a b) as PP.
  fold u v in PB, PF, PP. fold rows in PB. fold chans in PF. fold pols in PP.
  pose proof Ha as (Sa & Oa & _). fold u in Sa.
  assert (Pb : Permutation (order_of (Nblts u) (fst rows) (snd rows)) (seq 0 (Nblts u))).
  { rewrite <- (blt_labels_len u Sa). apply (sigma_perm (0, 0) pair_eqb pair_eqb_spec _ _ N1 _ _ PB). }
  assert (Pf : Permutation (order_of (Nfreqs u) (fst chans) (snd chans)) (seq 0 (Nfreqs u))).
  { rewrite <- (chan_labels_len u) by apply Oa. apply (sigma_perm (0, 0) pair_eqb pair_eqb_spec _ _ N2 _ _ PF). }
  assert (Pp : Permutation (order_of (Npols u) (fst pols) (snd pols)) (seq 0 (Npols u))).
  { apply (sigma_perm 0 Z.eqb Z.eqb_eq _ _ N3 _ _ PP). }
  unfold match_orders.
  assert (H1 : exists o1, maybe (overlap_order (Nblts (fo_uvd o)) (fst rows) (snd rows))
            (fun idx => on_uvd (reorder_blts (BltIndex idx) None false None)) o = Ok o1 /\ moved (order_of (Nblts u) (fst rows) (snd rows)) (seq 0 (Nfreqs u)) (seq 0 (Npols u)) o o1).
  { pose proof (moved_id o Sh Ok1) as M0. rewrite EB, EF, EP in M0. rewrite EB. unfold order_of in *.
    destruct (overlap_order (Nblts u) (fst rows) (snd rows)) as [s|]; cbn [maybe]; [|exists o; split; [reflexivity|exact M0]].
    destruct (perm_seq_facts _ _ Pb) as (Ls & _ & Bs & _).
    assert (E : exists u2, reorder_blts (BltIndex (map Z.of_nat s)) None false None (fo_uvd o) = Ok u2).
    { unfold reorder_blts. rewrite map_length, Ls, EB, Nat.eqb_refl. cbn [negb bind].
      set (w := set_blt_order None (fo_uvd o)). change (Nblts w) with (Nblts (fo_uvd o)). rewrite EB.
      assert (E : norm_indices (Nblts u) (map Z.of_nat s) = Ok s).
      { clear -Bs Ls. assert (F : Forall (fun i => (i < Nblts u)%nat) s).
        { apply Forall_forall. intros x Hx. destruct (In_nth _ _ 0%nat Hx) as (q & Hq & <-). apply Bs. lia. }
        clear Bs Ls. unfold norm_indices. induction F as [|x s Hx F IH]; [reflexivity|]. cbn [map mapM]. unfold norm_index at 1.
        replace ((0 <=? Z.of_nat x) && (Z.of_nat x <? Z.of_nat (Nblts u))) with true by (symmetry; lia).
        rewrite Nat2Z.id. cbn [bind]. rewrite IH. reflexivity. }
      rewrite E. cbn [bind]. apply set_rect_total; cbn; rewrite ?take_length; [reflexivity|].
      destruct s; [cbn in Ls; lia|discriminate]. }
    destruct E as (u2 & E). exists (mkFreqobj u2 (eq_coeffs o) (flex_spw_polarization_array o)).
    assert (E' : on_uvd (reorder_blts (BltIndex (map Z.of_nat s)) None false None) o = Ok (mkFreqobj u2 (eq_coeffs o) (flex_spw_polarization_array o)))
      by (unfold on_uvd; rewrite E; reflexivity).
    split; [exact E'|]. eapply step_blts; [exact M0|rewrite EB; reflexivity|rewrite EB; exact Pb|exact E']. }
  destruct H1 as (o1 & -> & M1). cbn [bind].
  assert (H2 : exists o2, maybe (overlap_order (Nfreqs (fo_uvd o1)) (fst chans) (snd chans))
            (fun idx => reorder_freqs None (Some (ChanIndex idx)) None) o1 = Ok o2 /\ Npols (fo_uvd o2) = Npols u).
  { rewrite (mv_nf _ _ _ _ _ M1), EF. unfold order_of in Pf.
    destruct (overlap_order (Nfreqs u) (fst chans) (snd chans)) as [s|] eqn:Es; cbn [maybe];
      [|exists o1; split; [reflexivity|rewrite (mv_np _ _ _ _ _ M1); exact EP]].
    assert (Hsp : spw_array (fo_uvd o1) <> []).
    { intros Hn. destruct (mv_ok _ _ _ _ _ M1) as ((Fs & _ & Ws) & _).
      assert (Nfreqs (fo_uvd o1) = 0%nat).
      { destruct Fs as [_ Fs]. unfold Nfreqs. rewrite <- Fs. destruct (flex_spw_id_array (fo_uvd o1)) as [|x l] eqn:El; [reflexivity|].
        exfalso. assert (Hx : In x (spw_array (fo_uvd o1))) by (apply Ws; rewrite ?El; left; reflexivity). rewrite Hn in Hx. destruct Hx. }
      rewrite (mv_nf _ _ _ _ _ M1), EF in H.
      assert (Hz : length (chan_labels u) = 0%nat) by (rewrite chan_labels_len by apply Oa; exact H).
      destruct PF as (both & _ & I & L1 & L2 & _). apply length_zero_iff_nil in Hz. rewrite Hz in I.
      destruct both as [|x both]; [|destruct (proj1 (I x) (or_introl eq_refl)) as [[] _]].
      apply length_zero_iff_nil in L1, L2. rewrite L1, L2 in Es. discriminate. }
    destruct (rf_total None (Some (ChanIndex (map Z.of_nat s))) None o1 (mv_ok _ _ _ _ _ M1) Hsp ltac:(discriminate) ltac:(discriminate) ltac:(intros; discriminate)) as (o2 & E).
    { intros idx E. injection E as <-. rewrite (mv_nf _ _ _ _ _ M1), EF. apply Permutation_map, Pf. }
    exists o2. split; [exact E|].
    assert (M2 : moved (order_of (Nblts u) (fst rows) (snd rows)) s (seq 0 (Npols u)) o o2)
      by (eapply step_freqs; [exact M1|rewrite EF; reflexivity|rewrite EF; exact Pf|exact E]).
    rewrite (mv_np _ _ _ _ _ M2). exact EP. }
  destruct H2 as (o2 & -> & E2). cbn [bind]. rewrite E2. unfold order_of in Pp.
  destruct (overlap_order (Npols u) (fst pols) (snd pols)) as [s|] eqn:Es; cbn [maybe]; [|eexists; reflexivity].
  destruct (perm_seq_facts _ _ Pp) as (Ls & _ & Bs & _).
  assert (Hn0 : (0 < Npols u)%nat).
  { destruct (order_some _ _ _ _ Es) as (i & Hi). destruct PP as (both & _ & I & L1 & L2 & _).
    destruct both as [|x both].
    - apply length_zero_iff_nil in L1, L2. rewrite L1, L2 in Hi. destruct Hi as [[]|[]].
    - destruct (proj1 (I x) (or_introl eq_refl)) as [Hx _]. unfold Npols. destruct (polarization_array u); [destruct Hx|simpl; lia]. }
  unfold on_uvd, reorder_pols. rewrite map_length, Ls, E2, Nat.eqb_refl. cbn [negb orb].
  replace (Npols u =? 0)%nat with false by (symmetry; apply Nat.eqb_neq; lia). cbn [orb].
  replace (existsb _ _) with false; [eexists; reflexivity|]. symmetry. apply not_true_is_false. intros Hc.
  apply existsb_exists in Hc as (z & Hz & Hc). apply in_map_iff in Hz as (x & <- & Hx).
  destruct (In_nth _ _ 0%nat Hx) as (q & Hq & Eq). specialize (Bs q ltac:(lia)). lia.
Qed.

Hypothesis Hag : agree same_cat a b.
Hypothesis Hov : overwritable a b.
Hypothesis Htol : tolerances_ok t.

Lemma compat_ok : compatible t same_cat a b (fst rows) (snd rows) (fst chans) (snd chans) = true.
Proof.
  destruct Hag as (T1 & T2 & HR & HC & _). fold u v in HR, HC. destruct Htol as (Q1 & Q2 & Q3 & Q4 & Q5 & Q6 & Q7 & Q8).
  pose proof Ha as (Sa & Oa & _). pose proof Hb as (Sb & Ob & _). fold u in Sa. fold v in Sb.
  unfold compatible. fold u v. rewrite T1, T2, !Z.eqb_refl. cbn [andb].
  pose proof (rows_paired str_le a b) as PB. fold u v in PB. fold rows in PB.
  pose proof (chans_paired' a b Ha Hb) as PF. fold u v in PF. fold chans in PF.
  assert (R : forall p, In p (combine (fst rows) (snd rows)) ->
    row_meta u (fst p) v (snd p) /\ nth (snd p) (phase_center_id_array v) 0 = nth (fst p) (phase_center_id_array u) 0).
  { intros p Hp. destruct (paired_combine _ _ _ _ _ p PB Hp) as (L1 & L2 & E).
    rewrite blt_labels_len in L1, L2 by assumption. rewrite !blt_labels_nth in E by assumption.
    destruct (HR _ _ L1 L2 E) as (A & B & _). auto. }
  apply andb_true_iff. split; apply orb_true_iff.
  - destruct (existsb (fun x => memb pair_eqb x (blt_labels u)) (blt_labels v)) eqn:E; [right|left; reflexivity].
    apply existsb_exists in E as (x & Hx & Hm). apply (memb_In pair_eqb pair_eqb_spec) in Hm.
    destruct (In_nth _ _ (0, 0) Hx) as (i' & Hi' & E'). destruct (In_nth _ _ (0, 0) Hm) as (i & Hi & Ei).
    rewrite blt_labels_len in Hi, Hi' by assumption. rewrite blt_labels_nth in Ei, E' by assumption.
    destruct (HR i i' Hi Hi') as (_ & _ & Ec & En); [congruence|]. rewrite Ec, En, Nat.eqb_refl.
    rewrite !andb_true_iff. repeat split; try (apply close_at_refl; [assumption|]; intros p Hp; destruct (R p Hp) as (Rm & Rid); [apply Rm|..] || idtac).
    all: try (apply close_at_refl; [assumption|]; intros p Hp; destruct (R p Hp) as ((M1 & M2 & M3 & M4 & M5 & M6 & M7 & M8 & M9 & M10) & Rid); assumption).
    apply forallb_forall. intros p Hp. destruct (R p Hp) as ((M1 & M2 & M3 & M4 & M5 & M6 & M7 & M8 & M9 & M10) & Rid). rewrite M7.
    unfold close3. destruct (nth (fst p) (uvw_array u) (0, 0, 0)) as [[x1 x2] x3]. rewrite !closeZ_refl by assumption. reflexivity.
  - right. apply close_at_refl; [assumption|]. intros p Hp. destruct (paired_combine _ _ _ _ _ p PF Hp) as (L1 & L2 & E).
    rewrite chan_labels_len in L1 by apply Oa. rewrite chan_labels_len in L2 by apply Ob.
    rewrite chan_labels_nth in E by apply Oa. rewrite chan_labels_nth in E by apply Ob. apply (HC _ _ L1 L2 E).
Qed.

Lemma combine_In_window o f x y : flex_spw_polarization_array o = Some f -> In (x, y) (combine (spw_array (fo_uvd o)) f) -> window_pol o x y.
Proof.
  intros E Hi. destruct (In_nth_error _ _ Hi) as (k & Hk). exists f, k. split; [exact E|].
  assert (Hl : (k < length (combine (spw_array (fo_uvd o)) f))%nat) by (apply nth_error_Some; congruence).
  rewrite combine_length in Hl. split; [lia|].
  revert k Hk Hl. generalize (spw_array (fo_uvd o)). clear. intros l. revert f. induction l as [|z l IH]; intros [|y' f] [|k] H Hl; simpl in *; try lia; try discriminate.
  - injection H as -> ->. auto.
  - apply IH; [exact H|lia].
Qed.

Lemma combine_keys {A B} (l : list A) (m : list B) : length l = length m -> map fst (combine l m) = l.
Proof. revert m. induction l as [|x l IH]; intros [|y m] E; simpl in *; try discriminate; [reflexivity|]. f_equal. apply IH. lia. Qed.

Lemma flexpol_ok : exists fp, merge_flexpol a b = Ok fp /\
  forall d w, fp = Some d -> In w (spw_array u) \/ In w (spw_array v) -> exists p, dget Z.eqb w d = Ok p.
Proof.
  destruct Hag as (_ & _ & _ & _ & HN & HW). pose proof Ha as (_ & (_ & Fa) & _). pose proof Hb as (_ & (_ & Fb) & _).
  unfold merge_flexpol. destruct (flex_spw_polarization_array (ad_freq a)) as [fa|] eqn:Ea; destruct (flex_spw_polarization_array (ad_freq b)) as [fb|] eqn:Eb.
  - specialize (Fa fa eq_refl). specialize (Fb fb eq_refl). fold (ad_uvd a) in Fa. fold (ad_uvd b) in Fb. fold u in Fa. fold v in Fb. fold u v.
    replace (forallb _ _) with true.
    + eexists. split; [reflexivity|]. intros d w E Hw. injection E as <-. apply (dmem_dget Z.eqb).
      apply (dmem_In Z.eqb Z.eqb_eq). unfold dkeys. rewrite map_app, in_app_iff.
      destruct (in_dec Z.eq_dec w (spw_array u)) as [Hu|Hu]; [left; rewrite combine_keys by auto; exact Hu|right].
      destruct Hw as [Hw|Hw]; [contradiction|]. rewrite <- (combine_keys (spw_array v) fb) in Hw by auto.
      apply in_map_iff in Hw as ((w' & p) & <- & Hp). apply in_map_iff. exists (w', p). split; [reflexivity|].
      apply filter_In. split; [exact Hp|]. apply negb_true_iff. apply not_true_is_false. intros Hc.
      apply (dmem_In Z.eqb Z.eqb_eq) in Hc. unfold dkeys in Hc. rewrite combine_keys in Hc by auto. contradiction.
    + symmetry. apply forallb_forall. intros (w & q) Hp. cbn [fst snd].
      destruct (dget Z.eqb w (combine (spw_array u) fa)) as [p|] eqn:E; [|reflexivity].
      apply (dget_In Z.eqb Z.eqb_eq) in E. apply Z.eqb_eq. symmetry.
      apply (HW w); [apply (combine_In_window _ fa); assumption|apply (combine_In_window _ fb); assumption].
  - exfalso. pose proof (proj2 HN eq_refl). congruence.
  - exfalso. pose proof (proj1 HN eq_refl). congruence.
  - exists None. split; [reflexivity|]. intros d w E. discriminate.
Qed.

Lemma overlap_ok : overlap_check u (fst rows) (fst chans) (fst pols) = Ok tt.
Proof.
  apply (overlap_spec a). fold u. intros i j k H1 H2 H3.
  assert (Hi : (i < Nblts u)%nat /\ (j < Nfreqs u)%nat /\ (k < Npols u)%nat).
  { destruct (a_lists a Ha) as (N1 & N2 & N3). pose proof Ha as (Sa & Oa & _).
    apply (paired_ti (0, 0) pair_eqb pair_eqb_spec _ _ _ _ N1 (rows_paired str_le a b)) in H1.
    apply (paired_ti (0, 0) pair_eqb pair_eqb_spec _ _ _ _ N2 (chans_paired' a b Ha Hb)) in H2.
    apply (paired_ti 0 Z.eqb Z.eqb_eq _ _ _ _ N3 (pols_paired a b)) in H3.
    rewrite blt_labels_len in H1 by exact Sa. rewrite chan_labels_len in H2 by apply Oa. split; [apply H1|split; [apply H2|apply H3]]. }
  destruct Hi as (Hi & Hj & Hk).
  assert (Hs : has_sample v (row_label u i) (chan_label u j) (pol_label u k)).
  { apply (shared_cells str_le a b Ha Hb i j k Hi Hj Hk). auto. }
  assert (Hc : fst (cell u i j k) = ((0, 0), true)).
  { apply (Hov (row_label u i) (chan_label u j) (pol_label u k)); [|exact Hs]. exists i, j, k. auto 10. }
  unfold cell in Hc. cbn [fst] in Hc. injection Hc as E1 E2. auto.
Qed.

Lemma add_total : picks pop -> pc_consistent (centers a) -> catalog_ok (ad_catalog b) -> distinguishable ign (centers a) (ad_catalog b) ->
  exists r, add pop str_le t same_cat ign a b = Ok r.
Proof.
  intros Hp Ca Cb Hd. unfold add. fold u v rows chans pols. rewrite overlap_ok. cbn [bind].
  destruct flexpol_ok as (fp & -> & Hfp). cbn [bind]. rewrite compat_ok. cbn [negb].
  destruct (consolidate_effect pop (ad_catalog b) ign (centers a) Hp Ca Cb Hd) as (s & Hs & _).
  unfold merge_catalogs. fold u. fold (centers a) in Hs. unfold centers in Hs at 1. fold u in Hs. rewrite Hs. cbn [bind].
  assert (Ls : length (pc_ids s) = Nblts u).
  { rewrite (consolidate_ids _ _ _ _ _ Hs). cbn [pc_ids]. destruct Ha as ((_ & _ & _ & _ & _ & _ & E & _) & _). exact E. }
  destruct (renumbered_ok a Ha (pc_ids s) Ls) as (Sh & Ok'). fold u in Sh, Ok'.
  set (a' := mkFreqobj (set_phase_center_id_array (pc_ids s) u) (eq_coeffs (ad_freq a)) (flex_spw_polarization_array (ad_freq a))) in *.
  destruct (match_total a' Sh Ok' eq_refl eq_refl eq_refl) as (o & Ho). rewrite Ho. cbn [bind].
  destruct (a_lists a Ha) as (N1 & N2 & N3). destruct (b_lists b Hb) as (M1 & M2 & M3). fold u in N1, N2, N3. fold v in M1, M2, M3.
  pose proof (rows_paired str_le a b) as PB. fold u v in PB. fold rows in PB.
  pose proof (chans_paired' a b Ha Hb) as PF. fold u v in PF. fold chans in PF.
  pose proof (pols_paired a b) as PP. fold u v in PP. fold pols in PP.
  assert (HM : moved (order_of (Nblts u) (fst rows) (snd rows)) (order_of (Nfreqs u) (fst chans) (snd chans))
                 (order_of (Npols u) (fst pols) (snd pols)) a' o).
  { apply (match_orders_moved rows chans pols a' o Sh Ok'); [| | |exact Ho].
    - apply (sb_perm a' (ad_freq b) rows Sh N1 PB).
    - apply (sf_perm a' (ad_freq b) chans Ok' N2 PF).
    - apply (sp_perm a' (ad_freq b) pols N3 PP). }
  pose proof (chan_labels_moved a' (ad_freq b) o rows chans pols Ok' N2 PF HM) as Ech.
  pose proof (pols_moved a' (ad_freq b) o rows chans pols N3 PP HM) as Epl.
  pose proof Hb as (Sb & Ob & _). fold v in Sb. pose proof Ha as (Sa & Oa & _). fold u in Sa.
  destruct (mv_ok _ _ _ _ _ HM) as ((Fu' & Nsp & Wsp) & Ofp). set (u' := fo_uvd o) in *.
  destruct Ob as ((Fv & NspV & WspV) & OfpV). fold (ad_uvd b) in Fv, NspV, WspV. fold v in Fv, NspV, WspV.
  unfold join. fold u'. change (fo_uvd (ad_freq b)) with v. cbv zeta.
  set (nf := new_channels u v). set (nb := new_in pair_eqb (blt_labels u) (blt_labels v)). set (np := new_in Z.eqb (polarization_array u) (polarization_array v)).
  set (flex := flex_spw_id_array u' ++ take 0 (flex_spw_id_array v) nf).
  set (spws := match nf with [] => spw_array u' | _ => take 0 flex (first_positions flex) end).
  assert (Isp : forall x, In x flex <-> In x spws).
  { unfold spws. destruct nf as [|n0 nf0] eqn:En.
    - intros x. unfold flex. change (take 0 (flex_spw_id_array v) []) with (@nil Z). rewrite app_nil_r. apply Wsp.
    - pose proof (first_positions_spec flex) as Hap. intros x. symmetry. apply Hap. }
  assert (Enf : nf = new_in pair_eqb (chan_labels u) (chan_labels v)) by (apply new_channels_eq; [apply Oa|repeat split; assumption || apply Fv || apply WspV]).
  assert (Hfx : forall x, In x flex -> In x (spw_array u) \/ In x (spw_array v)).
  { intros x Hx. apply in_app_or in Hx as [Hx|Hx].
    - left. destruct (In_nth _ _ 0 Hx) as (j & Hj & <-). destruct Fu' as [_ Fl]. rewrite Fl in Hj.
      change (length (freq_array u')) with (Nfreqs u') in Hj. unfold u' in Hj. rewrite (mv_nf _ _ _ _ _ HM) in Hj.
      destruct (mv_chan _ _ _ _ _ HM j Hj) as [E _]. unfold chan_label in E. injection E as E _. fold u' in E. rewrite E. apply Oa. apply nth_In.
      pose proof (perm_seq_facts _ _ (sf_perm a' (ad_freq b) chans Ok' N2 PF)) as (_ & _ & Bs & _). specialize (Bs j Hj).
      destruct Oa as (((_ & Ol) & _) & _). cbn in Bs |- *. unfold u in Bs |- *. unfold ad_uvd in *. rewrite Ol. exact Bs.
    - right. unfold take in Hx. apply in_map_iff in Hx as (j & <- & Hj). rewrite Enf in Hj.
      apply (new_spec (0, 0) pair_eqb pair_eqb_spec) in Hj as [Hj _]. rewrite chan_labels_len in Hj by exact Fv.
      apply WspV, nth_In. destruct Fv as [_ Fl]. rewrite Fl. exact Hj. }
  assert (Hfp' : exists q, match nf, fp with
           | [], _ => Ok (flex_spw_polarization_array o)
           | _, None => Ok None
           | _, Some d => do l <- mapM (fun w => dget Z.eqb w d) spws; Ok (Some l)
           end = Ok q).
  { destruct nf as [|n0 nf0]; [eexists; reflexivity|]. destruct fp as [d|]; [|eexists; reflexivity].
    destruct (mapM_total (fun w => dget Z.eqb w d) spws) as (l & ->); [|eexists; reflexivity].
    intros x Hx. apply (Hfp d x eq_refl). apply Hfx, Isp, Hx. }
  destruct Hfp' as (q & ->). cbn [bind].
  assert (E1 : length (nonzero (fun x => memb pair_eqb x (blt_labels v)) (blt_labels u ++ take (0, 0) (blt_labels v) nb)) = Nblts v).
  { rewrite <- (blt_labels_len v Sb). apply (t2o_length (0, 0) pair_eqb pair_eqb_spec _ _ N1 M1 _ _ PB). }
  assert (E2 : length (nonzero (fun x => isinZ (fst x) spws && isinZ (fst x) (spw_array v) && memb pair_eqb x (chan_labels v))
            (combine flex (freq_array u' ++ take 0 (freq_array v) nf))) = Nfreqs v).
  { rewrite <- (chan_labels_len v Fv). rewrite <- (t2o_length (0, 0) pair_eqb pair_eqb_spec _ _ N2 M2 _ _ PF).
    rewrite <- (t2o_padded (0, 0) pair_eqb pair_eqb_spec _ _ N2 _ _ PF). unfold padded, new. rewrite <- Enf.
    rewrite (chan_labels_len u) by apply Oa. f_equal.
    replace (combine flex (freq_array u' ++ take 0 (freq_array v) nf)) with (take (0, 0) (chan_labels u) (order_of (Nfreqs u) (fst chans) (snd chans)) ++ take (0, 0) (chan_labels v) nf).
    - apply nonzero_ext_in. intros (x & f) Hx. cbn [fst].
      destruct (memb pair_eqb (x, f) (chan_labels v)) eqn:E; [|apply andb_false_r].
      apply (memb_In pair_eqb pair_eqb_spec) in E. rewrite andb_true_r. apply andb_true_iff.
      assert (Hv : In x (spw_array v)) by (apply WspV; apply (in_combine_l _ _ _ _ E)).
      split; apply isinZ_spec; [|exact Hv]. apply Isp. unfold flex.
      apply in_app_or in Hx as [Hx|Hx]; apply in_or_app.
      + left. change (In (x, f) (take (0, 0) (chan_labels (fo_uvd a')) (order_of (Nfreqs (fo_uvd a')) (fst chans) (snd chans)))) in Hx.
        rewrite <- Ech in Hx. apply (in_combine_l _ _ _ _ Hx).
      + right. unfold take in Hx |- *. apply in_map_iff in Hx as (j & Ej & Hj). apply in_map_iff. exists j. split; [|exact Hj].
        rewrite chan_labels_nth in Ej by exact Fv. injection Ej as E' _. exact E'.
    - unfold flex. rewrite combine_app by apply Fu'. f_equal; [symmetry; exact Ech|]. symmetry. apply combine_take, Fv. }
  assert (E3 : length (nonzero (fun p => isinZ p (polarization_array v)) (polarization_array u' ++ take 0 (polarization_array v) np)) = Npols v).
  { rewrite Epl. change (Npols v) with (length (polarization_array v)). rewrite <- (t2o_length 0 Z.eqb Z.eqb_eq _ _ N3 M3 _ _ PP).
    rewrite <- (t2o_padded 0 Z.eqb Z.eqb_eq _ _ N3 _ _ PP). reflexivity. }
  rewrite E1, E2, E3, !Nat.eqb_refl. cbn [andb negb].
  match goal with |- context [set_rectangularity true ?w] => destruct (set_rect_total true w) as (w' & Hw) end.
  - cbn [time_array baseline_array]. unfold joined. rewrite !take_length. reflexivity.
  - cbn [time_array]. unfold joined. intros Hc. apply (f_equal (@length Z)) in Hc. rewrite take_length in Hc. cbn [length] in Hc.
    match type of Hc with length ?l = _ => assert (P : Permutation l (seq 0 (length (blt_labels u ++ take (0, 0) (blt_labels v) nb)))) end.
    { apply order_if_perm, argsort_by_perm. }
    rewrite (Permutation_length P), seq_length, app_length, (blt_labels_len u Sa) in Hc. lia.
  - rewrite Hw. cbn [bind]. eexists. reflexivity.
Qed.
End Total.
