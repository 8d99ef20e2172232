(** _make_flex_pol. *)
From Coq Require Import List ZArith Bool Arith Lia Sorted Permutation.
From Verif Require Import Lib.Py Lib.Np Lib.Cube Lib.Sorting Spec.UVDataSpec Spec.FreqSpec Spec.FlexPolSpec
  Model.UVData Model.Freq Model.PhaseCenter Model.FlexPol Proofs.AccessProofs Proofs.FreqProofs Proofs.FreqReorder Proofs.FlexPolSets.
Import ListNotations.
Notation length := List.length.
Open Scope Z_scope.

Lemma unflagged_spec u w k : freq_axis_ok u -> In k (unflagged_pols u w) <-> (k < Npols u)%nat /\ window_unflagged u w k.
Proof.
  intros ((Lw & Lx) & _). unfold unflagged_pols. rewrite filter_In, in_seq, negb_true_iff. split.
  - intros [H E]. split; [lia|].
    assert (G : exists i, In i (seq 0 (Nblts u)) /\ forallb (fun c => flag_array u i c k) (nonzero (Z.eqb w) (flex_spw_id_array u)) = false).
    { revert E. generalize (seq 0 (Nblts u)). induction l as [|i l IH]; simpl; [discriminate|]. intros E. apply andb_false_iff in E. destruct E as [E|E]; [eauto|].
      destruct (IH E) as (x & A & B). eauto. }
    destruct G as (i & Hi & E2). apply in_seq in Hi.
    assert (G : exists c, In c (nonzero (Z.eqb w) (flex_spw_id_array u)) /\ flag_array u i c k = false).
    { revert E2. generalize (nonzero (Z.eqb w) (flex_spw_id_array u)). induction l as [|c l IH]; simpl; [discriminate|]. intros E2.
      apply andb_false_iff in E2. destruct E2 as [E2|E2]; [eauto|]. destruct (IH E2) as (x & A & B). eauto. }
    destruct G as (c & Hc & E3). apply (nonzero_spec 0) in Hc. destruct Hc as [Hc Ew]. apply Z.eqb_eq in Ew.
    exists i, c. unfold Nfreqs. repeat split; try assumption; try lia.
  - intros (H & i & j & Hi & Hj & Ew & E). split; [lia|]. destruct (forallb _ _) eqn:F; [|reflexivity]. exfalso.
    rewrite forallb_forall in F. specialize (F i ltac:(apply in_seq; lia)). rewrite forallb_forall in F.
    rewrite F in E; [discriminate|]. apply (nonzero_spec 0). unfold Nfreqs in Hj. split; [lia|]. apply Z.eqb_eq. congruence.
Qed.

Lemma unflagged_NoDup u w : NoDup (unflagged_pols u w).
Proof. apply NoDup_filter, seq_NoDup. Qed.

Lemma one_pol_check u : freq_axis_ok u ->
  existsb (fun w => (1 <? length (unflagged_pols u w))%nat) (spw_array u) = false <-> one_pol_each u.
Proof.
  intros Hax. split.
  - intros H w k k' Hk Hk' U U'. assert (Hw : In w (spw_array u)).
    { destruct Hax as ((_ & Lx) & _ & M). destruct U as (i & j & _ & Hj & <- & _). apply M, nth_In. unfold Nfreqs in Hj. lia. }
    assert (I1 : In k (unflagged_pols u w)) by (apply unflagged_spec; auto).
    assert (I2 : In k' (unflagged_pols u w)) by (apply unflagged_spec; auto).
    destruct (Nat.ltb_spec 1 (length (unflagged_pols u w))) as [G|G].
    + exfalso. assert (E : existsb (fun w => (1 <? length (unflagged_pols u w))%nat) (spw_array u) = true); [|congruence].
      apply existsb_exists. exists w. split; [exact Hw | apply Nat.ltb_lt, G].
    + destruct (unflagged_pols u w) as [|x [|]]; simpl in G; try lia; [destruct I1|]. destruct I1 as [<-|[]], I2 as [<-|[]]. reflexivity.
  - intros H. destruct (existsb _ _) eqn:E; [exfalso|reflexivity]. apply existsb_exists in E. destruct E as (w & Hw & E). apply Nat.ltb_lt in E.
    pose proof (unflagged_NoDup u w) as N. destruct (unflagged_pols u w) as [|x [|y l]] eqn:EU; simpl in E; try lia.
    assert (x = y).
    { assert (Hx : In x (unflagged_pols u w)) by (rewrite EU; left; reflexivity). assert (Hy : In y (unflagged_pols u w)) by (rewrite EU; right; left; reflexivity).
      apply (unflagged_spec u w x Hax) in Hx. apply (unflagged_spec u w y Hax) in Hy. apply (H w); tauto. }
    subst y. apply NoDup_cons_iff in N. destruct N as [N _]. apply N. left; reflexivity.
Qed.

Lemma pick_window (spws : list Z) (ks : list nat) w i : NoDup spws -> length ks = length spws -> (i < length spws)%nat -> nth i spws 0 = w ->
  forall d, fold_left (fun cur wk => if w =? fst wk then snd wk else cur) (combine spws ks) d = nth i ks 0%nat.
Proof.
  revert ks i. induction spws as [|v spws IH]; intros [|k ks] i N L Hi E d; simpl in L, Hi; try lia. apply NoDup_cons_iff in N. destruct N as [Nv N].
  cbn [combine fold_left fst snd]. destruct i as [|i].
  - cbn [nth] in E |- *. subst v. rewrite Z.eqb_refl. clear -Nv. revert ks. induction spws as [|x spws IH]; intros [|q ks]; try reflexivity.
    cbn [combine fold_left fst snd]. destruct (Z.eqb_spec w x) as [->|]; [exfalso; apply Nv; left; reflexivity|]. apply IH. intros C. apply Nv. right. exact C.
  - cbn [nth] in E |- *. apply IH; try assumption; lia.
Qed.

Lemma made_flex raise_error o : freq_axis_ok (fo_uvd o) -> flex_spw_polarization_array o = None ->
  (0 < Npols (fo_uvd o))%nat -> (0 < Nfreqs (fo_uvd o))%nat -> one_pol_each (fo_uvd o) \/ Npols (fo_uvd o) = 1%nat ->
  exists o', make_flex_pol raise_error o = Ok o' /\ flagged_pols_dropped o o'.
Proof.
  intros Hax Ef Hnp Hnf HO. pose proof Hax as ((Lw & Lx) & Nsp & M). set (u := fo_uvd o) in *. unfold make_flex_pol. fold u.
  assert (Pos : forall j, (j < Nfreqs u)%nat -> exists q, (q < length (spw_array u))%nat /\ nth q (spw_array u) 0 = nth j (flex_spw_id_array u) 0).
  { intros j Hj. assert (H : In (nth j (flex_spw_id_array u) 0) (spw_array u)) by (apply M, nth_In; unfold Nfreqs in Hj; lia).
    destruct (In_nth _ _ 0 H) as (q & Hq & E). eauto. }
  destruct (Nat.eq_dec (Npols u) 1) as [N1|N1].
  - unfold Npols in N1, Hnp. destruct (polarization_array u) as [|pol [|]] eqn:EP; simpl in N1; try lia. rewrite Ef.
    eexists. split; [reflexivity|]. unfold flagged_pols_dropped, flex_pol_ok, obj_ok, freq_axis_ok, freq_shaped, off_freq_pol_same, same_blt_axis, Nfreqs, Npols, Nblts, sample_copied, window_pol.
    cbn [fo_uvd flex_spw_polarization_array set_polarization_array freq_array channel_width flex_spw_id_array spw_array polarization_array data_array flag_array nsample_array
         time_array lst_array ant_1_array ant_2_array baseline_array integration_time uvw_array phase_center_id_array phase_center_app_ra
         phase_center_app_dec phase_center_frame_pa Nbls Ntimes blt_order blts_are_rectangular time_axis_faster_than_bls Nants_telescope]. fold u.
    split; [split; [split; [exact Hax|]|]|].
    + intros fp E. injection E as <-. rewrite map_length. reflexivity.
    + repeat split; try discriminate; exact Hnf.
    + split; [repeat split|]. repeat (split; [reflexivity|]). intros j Hj. exists 0%nat. rewrite EP. split; [simpl; lia|].
      split; [repeat split|]. split.
      * destruct (Pos j Hj) as (q & Hq & E). exists (map (fun _ => pol) (spw_array u)), q. split; [reflexivity|]. split; [exact Hq|]. split; [exact E|].
        rewrite nth_error_map. rewrite (nth_error_nth' _ 0) by exact Hq. reflexivity.
      * intros i k' _ Hk' _. simpl in Hk'. lia.
  - destruct HO as [HO|HO]; [|contradiction]. pose proof HO as HO2. apply (one_pol_check u Hax) in HO2.
    set (pols := polarization_array u) in *.
    assert (Step : (forall q, (q < length (spw_array u))%nat -> (nth q (flex_pol_idx u) 0 < Npols u)%nat /\
         forall k, (k < Npols u)%nat -> window_unflagged u (nth q (spw_array u) 0) k -> nth q (flex_pol_idx u) 0%nat = k) /\ length (flex_pol_idx u) = length (spw_array u)).
    { set (idx0 := map (fun w => hd_error (unflagged_pols u w)) (spw_array u)).
      set (known := concat (map (fun i => match i with Some k => [Z.of_nat k] | None => [] end) idx0)).
      set (last := (Npols u - 1)%nat).
      set (idx := flex_pol_idx u).
      assert (Kn : forall q k, (q < length (spw_array u))%nat -> nth q idx0 None = Some k -> In (Z.of_nat k) (uniqueZ known)).
      { intros q k Hq E. apply uniqueZ_In. unfold known. apply in_concat. exists [Z.of_nat k]. split; [|left; reflexivity].
        apply in_map_iff. exists (Some k). split; [reflexivity|]. rewrite <- E. apply nth_In. unfold idx0. rewrite map_length. exact Hq. }
      assert (K2 : forall z, In z (uniqueZ known) -> (Z.to_nat z < Npols u)%nat).
      { intros z Hz. apply (proj1 (uniqueZ_In _ _)) in Hz. unfold known in Hz. apply in_concat in Hz. destruct Hz as (x & Hx & Hz). apply in_map_iff in Hx. destruct Hx as (i & <- & Hi).
        destruct i as [k|]; [|destruct Hz]. destruct Hz as [<-|[]]. rewrite Nat2Z.id. unfold idx0 in Hi. apply in_map_iff in Hi. destruct Hi as (w & E & _).
        assert (In k (unflagged_pols u w)) by (destruct (unflagged_pols u w); [discriminate|injection E as ->; left; reflexivity]).
        apply (unflagged_spec u w k Hax) in H. apply H. }
      assert (H0 : forall q k, (q < length (spw_array u))%nat -> (k < Npols u)%nat -> window_unflagged u (nth q (spw_array u) 0) k -> nth q idx0 None = Some k).
      { intros q k Hq Hk U. unfold idx0. rewrite (nth_map _ (spw_array u) q 0 None Hq).
        assert (Hin : In k (unflagged_pols u (nth q (spw_array u) 0))) by (apply unflagged_spec; auto).
        destruct (unflagged_pols u (nth q (spw_array u) 0)) as [|x l] eqn:EU; [destruct Hin|]. cbn [hd_error]. f_equal.
        assert (Hx : In x (unflagged_pols u (nth q (spw_array u) 0))) by (rewrite EU; left; reflexivity). apply (unflagged_spec u _ x Hax) in Hx.
        destruct Hx as [Hx1 Hx2]. apply (HO (nth q (spw_array u) 0)); assumption. }
      assert (L0 : length idx0 = length (spw_array u)) by (unfold idx0; apply map_length).
      assert (LI : length idx = length (spw_array u)) by (unfold idx, flex_pol_idx; fold idx0; fold known; destruct (uniqueZ known) as [|z [|]]; rewrite map_length; exact L0).
      split; [|exact LI].
      - intros q Hq. assert (HD : forall l, (l = uniqueZ known -> match l with [_] => False | _ => True end -> idx = map (fun i => match i with Some k => k | None => last end) idx0)).
        { intros l -> Hl. unfold idx, flex_pol_idx. fold idx0. fold known. destruct (uniqueZ known) as [|z [|]]; [reflexivity | destruct Hl | reflexivity]. }
        assert (Cases : (exists z, uniqueZ known = [z] /\ idx = map (fun _ => Z.to_nat z) idx0) \/ idx = map (fun i => match i with Some k => k | None => last end) idx0).
        { destruct (uniqueZ known) as [|z [|y l]] eqn:EK; [right; apply (HD []); auto | left; exists z; split; [reflexivity|unfold idx, flex_pol_idx; fold idx0; fold known; rewrite EK; reflexivity] | right; apply (HD (z :: y :: l)); auto]. }
        clear HD. destruct Cases as [(z & EK & ->)| ->].
        + rewrite (nth_map _ idx0 q None 0%nat) by lia. split.
          * apply K2. rewrite EK. left; reflexivity.
          * intros k Hk U. specialize (Kn q k Hq (H0 q k Hq Hk U)). rewrite EK in Kn. destruct Kn as [->|[]]. apply Nat2Z.id.
        + rewrite (nth_map _ idx0 q None 0%nat) by lia. split.
          * destruct (nth q idx0 None) as [k|] eqn:E; [|unfold last; lia].
            specialize (K2 (Z.of_nat k) (Kn q k Hq E)). rewrite Nat2Z.id in K2. exact K2.
          * intros k Hk U. rewrite (H0 q k Hq Hk U). reflexivity. }
    destruct Step as [HI LI]. set (idx := flex_pol_idx u) in *.
    exists (take_pols idx o). split.
    { rewrite HO2. unfold Npols in N1, Hnp. fold pols in N1, Hnp. destruct pols as [|p [|p2 ps]]; simpl in N1, Hnp; try lia. reflexivity. }
    unfold flagged_pols_dropped, flex_pol_ok, obj_ok, freq_axis_ok, freq_shaped, off_freq_pol_same, same_blt_axis, Nfreqs, Npols, Nblts, sample_copied, window_pol.
    unfold take_pols.
    cbn [fo_uvd flex_spw_polarization_array set_axes freq_array channel_width flex_spw_id_array spw_array polarization_array data_array flag_array nsample_array
         time_array lst_array ant_1_array ant_2_array baseline_array integration_time uvw_array phase_center_id_array phase_center_app_ra
         phase_center_app_dec phase_center_frame_pa Nbls Ntimes blt_order blts_are_rectangular time_axis_faster_than_bls Nants_telescope]. fold u pols.
    split; [split; [split; [exact Hax|]|]|].
    + intros fp E. injection E as <-. rewrite take_length. exact LI.
    + repeat split; try discriminate; exact Hnf.
    + split; [repeat split|]. repeat (split; [reflexivity|]). intros j Hj. destruct (Pos j Hj) as (q & Hq & E). exists (nth q idx 0%nat).
      destruct (HI q Hq) as [B U]. split; [exact B|].
      assert (EI : fold_left (fun cur wk => if nth j (flex_spw_id_array u) 0 =? fst wk then snd wk else cur) (combine (spw_array u) idx) 0%nat = nth q idx 0%nat)
        by (apply pick_window; assumption).
      split; [rewrite EI; repeat split|]. split.
      * exists (take 0 pols idx), q. split; [reflexivity|]. split; [exact Hq|]. split; [exact E|].
        rewrite (nth_error_nth' _ 0) by (rewrite take_length; lia). f_equal. apply nth_take. lia.
      * intros i k' Hi Hk' F. symmetry. apply U; [exact Hk'|]. exists i, j. rewrite E. auto.
Qed.

Lemma not_made raise_error o : freq_axis_ok (fo_uvd o) -> Npols (fo_uvd o) <> 1%nat -> ~ one_pol_each (fo_uvd o) ->
  make_flex_pol raise_error o = if raise_error then Err ValueError else Ok o.
Proof.
  intros Hax N1 HO. unfold make_flex_pol. unfold Npols in N1.
  assert (E : existsb (fun w => (1 <? length (unflagged_pols (fo_uvd o) w))%nat) (spw_array (fo_uvd o)) = true).
  { destruct (existsb _ _) eqn:E; [reflexivity|]. apply (one_pol_check _ Hax) in E. contradiction. }
  rewrite E. destruct (polarization_array (fo_uvd o)) as [|p [|]]; simpl in N1; try lia; destruct raise_error; reflexivity.
Qed.
