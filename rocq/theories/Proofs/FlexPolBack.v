(** convert_to_flex_pol followed by remove_flex_pol. *)
From Coq Require Import List ZArith Bool Arith Lia Sorted Permutation.
From Verif Require Import Lib.Py Lib.Np Lib.Cube Lib.Sorting Spec.UVDataSpec Spec.FreqSpec Spec.PhaseSpec Spec.FlexPolSpec
  Model.UVData Model.Freq Model.PhaseCenter Model.FlexPol Proofs.AccessProofs Proofs.PhaseProofs Proofs.FreqProofs Proofs.FreqReorder
  Proofs.FlexPolSets Proofs.FlexPolLayout Proofs.FlexPolProofs Proofs.FlexPolCombine Proofs.FlexPolTop.
Import ListNotations.
Notation length := List.length.
Open Scope Z_scope.

Section Back.
Variables (o o1 : freqobj) (fp : list Z).
Let u := fo_uvd o.
Let u1 := fo_uvd o1.
Let nf := length (freq_array u).
Let flex := flex_spw_id_array u.
Let flex1 := flex_spw_id_array u1.
Let pols := polarization_array u.
Let np := length pols.
Hypothesis Hax : freq_axis_ok u.
Hypothesis Hm : flex_pol_made o o1.
Hypothesis Hnd : NoDup pols.
Hypothesis Hne : pols <> [].
Hypothesis Hnf : (0 < nf)%nat.
Hypothesis HD : windows_differ u.
Hypothesis Ef : flex_spw_polarization_array o1 = Some fp.

Let pf := polf (spw_array u1) fp.
(** the window a window of [o1] was copied from *)
Let ff w := nth (match index_of Z.eqb w flex1 with Some i => (i mod nf)%nat | None => O end) flex 0.

Lemma back_ok : obj_ok o1.
Proof. apply Hm. Qed.

Lemma back_lengths : length (freq_array u1) = (nf * np)%nat /\ length (channel_width u1) = (nf * np)%nat /\ length flex1 = (nf * np)%nat /\ length flex = nf.
Proof.
  destruct Hm as ((((( Lw & Lx) & _) & _) & _) & _ & LN & _). unfold Nfreqs, Npols in LN. fold u u1 nf pols np flex1 in Lw, Lx, LN.
  destruct Hax as ((_ & L) & _). fold flex nf in L. repeat split; lia.
Qed.

Lemma np_pos : (0 < np)%nat.
Proof. unfold np. destruct pols; [congruence | simpl; lia]. Qed.

Lemma back_div c : (c < nf * np)%nat -> (c / nf < np)%nat /\ (c mod nf < nf)%nat /\ c = (c mod nf + nf * (c / nf))%nat.
Proof.
  intros H. split; [apply Nat.div_lt_upper_bound; lia|]. split; [apply Nat.mod_upper_bound; lia|]. pose proof (Nat.div_mod c nf ltac:(lia)). lia.
Qed.

Lemma back_pf c : (c < nf * np)%nat -> pf (nth c flex1 0) = nth (c / nf) pols 0.
Proof.
  intros H. destruct (back_div c H) as (A & B & C). destruct Hm as (_ & _ & _ & HS & _).
  destruct (HS (c mod nf)%nat (c / nf)%nat B A) as [_ W]. change (Nfreqs (fo_uvd o)) with nf in W. rewrite <- C in W.
  apply (window_pol_polf o1 fp _ _ back_ok Ef) in W. symmetry. apply W.
Qed.

Lemma back_same c c' : (c < nf * np)%nat -> (c' < nf * np)%nat ->
  nth c flex1 0 = nth c' flex1 0 <-> (c / nf = c' / nf)%nat /\ nth (c mod nf) flex 0 = nth (c' mod nf) flex 0.
Proof.
  intros H H'. destruct (back_div c H) as (A & B & C). destruct (back_div c' H') as (A' & B' & C').
  destruct Hm as (_ & _ & _ & _ & HS & _). specialize (HS (c mod nf)%nat (c / nf)%nat (c' mod nf)%nat (c' / nf)%nat B A B' A').
  change (Nfreqs (fo_uvd o)) with nf in HS. rewrite <- C, <- C' in HS. exact HS.
Qed.

Lemma back_ff c : (c < nf * np)%nat -> ff (nth c flex1 0) = nth (c mod nf) flex 0.
Proof.
  intros H. destruct back_lengths as (_ & _ & L & _). unfold ff. destruct (index_of Z.eqb (nth c flex1 0) flex1) as [i|] eqn:E.
  - apply (index_of_Some Z.eqb Z.eqb_eq 0) in E. destruct E as (A & B & _). apply back_same in B; try lia.
  - apply (index_of_None Z.eqb Z.eqb_eq) in E. exfalso. apply E. apply nth_In. lia.
Qed.

Lemma back_first j : (j < nf)%nat -> nth j flex1 0 = nth j flex 0.
Proof. intros H. apply Hm. exact H. Qed.

Lemma list_eq_nth (a b : list Z) : length a = length b -> (forall i, (i < length a)%nat -> nth i a 0 = nth i b 0) -> a = b.
Proof. intros L H. apply (nth_ext a b 0 0 L H). Qed.

Lemma back_pol_layout : map pf flex1 = concat (map (fun p => repeat p nf) pols).
Proof.
  destruct back_lengths as (_ & _ & L & _). apply list_eq_nth.
  - rewrite map_length, (concat_len _ _ nf) by (intros; apply repeat_length). fold np. lia.
  - intros i Hi. rewrite map_length in Hi. rewrite (nth_map pf _ _ 0 0) by lia. rewrite nth_concat_repeat by (fold np; lia). apply back_pf. lia.
Qed.

Lemma back_fst_layout : map ff flex1 = concat (map (fun _ => flex) pols).
Proof.
  destruct back_lengths as (_ & _ & L & L2). apply list_eq_nth.
  - rewrite map_length, (concat_len _ _ nf) by (intros; exact L2). fold np. lia.
  - intros i Hi. rewrite map_length in Hi. rewrite (nth_map ff _ _ 0 0) by lia. rewrite nth_concat_same by (fold np; lia). rewrite L2. apply back_ff. lia.
Qed.

Lemma back_inj w w' : In w flex1 -> In w' flex1 -> pf w = pf w' -> ff w = ff w' -> w = w'.
Proof.
  destruct back_lengths as (_ & _ & L & _). intros H H' E1 E2. destruct (In_nth _ _ 0 H) as (c & Hc & <-), (In_nth _ _ 0 H') as (c' & Hc' & <-).
  rewrite L in Hc, Hc'. rewrite !back_pf in E1 by assumption. rewrite !back_ff in E2 by assumption. apply back_same; try assumption. split; [|exact E2].
  destruct (back_div c Hc) as (A & _), (back_div c' Hc') as (A' & _). apply (proj1 (NoDup_nth pols 0) Hnd); assumption.
Qed.

Lemma back_positions w : In w flex1 -> exists p, (p < np)%nat /\
  nonzero (Z.eqb w) flex1 = map (fun i => (i + nf * p)%nat) (nonzero (Z.eqb (ff w)) flex).
Proof.
  destruct back_lengths as (_ & _ & L & L2). intros H. destruct (In_nth _ _ 0 H) as (c & Hc & <-). rewrite L in Hc.
  destruct (back_div c Hc) as (A & B & C). exists (c / nf)%nat. split; [exact A|]. rewrite (back_ff c Hc). rewrite C at 1.
  pose proof (lay_positions flex1 pf ff pols flex) as Q. rewrite L2 in Q. apply Q; try assumption.
  - exact back_pol_layout.
  - exact back_fst_layout.
  - exact back_inj.
Qed.

Lemma back_window w : In w flex1 ->
  take 0 (freq_array u1) (nonzero (Z.eqb w) flex1) = take 0 (freq_array u) (nonzero (Z.eqb (ff w)) flex) /\
  take 0 (channel_width u1) (nonzero (Z.eqb w) flex1) = take 0 (channel_width u) (nonzero (Z.eqb (ff w)) flex) /\
  sorted_window u1 w = sorted_window u (ff w).
Proof.
  intros H. destruct (back_positions w H) as (p & Hp & E). destruct back_lengths as (_ & _ & _ & L2). destruct Hm as (_ & _ & _ & HS & _).
  assert (SH : forall is', (forall i, In i is' -> (i < nf)%nat) ->
    take 0 (freq_array u1) (map (fun i => (i + nf * p)%nat) is') = take 0 (freq_array u) is' /\
    take 0 (channel_width u1) (map (fun i => (i + nf * p)%nat) is') = take 0 (channel_width u) is').
  { intros is' B. unfold take. rewrite !map_map. split; apply map_ext_in; intros i Hi; destruct (HS i p (B i Hi) Hp) as [(S1 & S2 & _) _]; assumption. }
  assert (B : forall i, In i (nonzero (Z.eqb (ff w)) flex) -> (i < nf)%nat) by (intros i Hi; apply nonzero_lt in Hi; lia).
  destruct (SH _ B) as [E1 E2]. rewrite E. split; [exact E1|]. split; [exact E2|].
  unfold sorted_window. fold flex1 flex. rewrite E, E1. set (is' := nonzero (Z.eqb (ff w)) flex) in *. set (ag := argsortZ (take 0 (freq_array u) is')).
  assert (Bag : forall k, In k ag -> (k < length is')%nat).
  { intros k Hk. apply (Permutation_in _ (argsortZ_perm _)), in_seq in Hk. rewrite take_length in Hk. lia. }
  assert (ET : take 0%nat (map (fun i => (i + nf * p)%nat) is') ag = map (fun i => (i + nf * p)%nat) (take 0%nat is' ag)).
  { apply take_map. exact Bag. }
  rewrite ET. destruct (SH (take 0%nat is' ag)) as [F1 F2].
  - intros i Hi. apply in_map_iff in Hi. destruct Hi as (k & <- & Hk). apply B, nth_In, Bag, Hk.
  - rewrite F1, F2. reflexivity.
Qed.

Lemma ff_in w : In w flex1 -> In (ff w) flex.
Proof.
  destruct back_lengths as (_ & _ & L & L2). intros H. destruct (In_nth _ _ 0 H) as (c & Hc & <-). rewrite L in Hc.
  destruct (back_div c Hc) as (A & B & C). rewrite back_ff by exact Hc. apply nth_In. lia.
Qed.

Lemma differ w w' : In w flex -> In w' flex -> sorted_window u w = sorted_window u w' -> w = w'.
Proof.
  intros H H' E. destruct Hax as (Sh & _ & M). apply M in H, H'.
  apply (HD w w' (combine (fst (sorted_window u w)) (snd (sorted_window u w)))); try assumption; [|rewrite E]; apply sorted_window_key, Sh.
Qed.

Lemma key_ff w w' : In w flex1 -> In w' flex1 -> sorted_window u1 w = sorted_window u1 w' -> ff w = ff w'.
Proof.
  intros H H' E. apply differ; try (apply ff_in; assumption). destruct (back_window w H) as (_ & _ & <-), (back_window w' H') as (_ & _ & <-). exact E.
Qed.

Lemma upols_perm : Permutation (uniqueZ fp) pols.
Proof.
  destruct back_lengths as (_ & _ & L & L2). pose proof np_pos as NP.
  apply NoDup_Permutation; [apply uniqueZ_NoDup | exact Hnd |]. intros p. rewrite uniqueZ_In, (fp_mem o1 fp back_ok Ef). fold u1 pf.
  pose proof back_ok as [(_ & _ & M) _]. fold u1 flex1 in M. split.
  - intros (w & Hw & ->). apply M in Hw. destruct (In_nth _ _ 0 Hw) as (c & Hc & <-). rewrite L in Hc. rewrite back_pf by exact Hc. apply nth_In, back_div, Hc.
  - intros H. destruct (In_nth _ _ 0 H) as (k & Hk & <-). exists (nth (0 + nf * k) flex1 0). split; [apply M, nth_In; fold np in Hk; nia|].
    rewrite back_pf by (fold np in Hk; nia). destruct (divmod_at nf 0 k Hnf) as [-> _]. reflexivity.
Qed.

Section Sets.
Variable sets : list wset.
Let ws := take 0 flex1 (first_positions flex1).
Hypothesis I : sets_inv (sorted_window u1) pf ws sets.

Lemma back_full s : In s sets -> length (ws_spws s) = length (uniqueZ fp).
Proof.
  intros Hs. destruct back_lengths as (_ & _ & L & L2). pose proof (first_positions_spec flex1) as AO. fold ws in AO. pose proof (proj1 AO) as Mw.
  rewrite (Permutation_length upols_perm), <- (map_length pf (ws_spws s)). fold pols.
  apply Permutation_length, NoDup_Permutation; [rewrite <- (si_pols _ _ _ _ I s Hs); apply (si_nodup _ _ _ _ I s Hs) | exact Hnd |].
  intros p. rewrite in_map_iff. split.
  - intros (w & <- & Hw). apply (in_set _ _ _ _ I s w Hs) in Hw. destruct Hw as [Hw _]. apply Mw in Hw.
    destruct (In_nth _ _ 0 Hw) as (c & Hc & <-). rewrite L in Hc. rewrite back_pf by exact Hc. apply nth_In, back_div, Hc.
  - intros Hp. destruct (In_nth _ _ 0 Hp) as (k & Hk & <-). fold np in Hk.
    pose proof (first_in _ _ _ _ I s Hs) as H1. destruct (in_set _ _ _ _ I s _ Hs H1) as [H2 K]. apply Mw in H2.
    destruct (In_nth _ _ 0 H2) as (c & Hc & Ec). rewrite L in Hc. destruct (back_div c Hc) as (A & B & C).
    set (c' := (c mod nf + nf * k)%nat). assert (Hc' : (c' < nf * np)%nat) by (unfold c'; nia).
    destruct (divmod_at nf (c mod nf) k B) as [D M]. fold c' in D, M.
    exists (nth c' flex1 0). split; [rewrite back_pf, D by exact Hc'; reflexivity|].
    assert (Hin : In (nth c' flex1 0) flex1) by (apply nth_In; lia).
    assert (HK : sorted_window u1 (nth c' flex1 0) = ws_key s).
    { rewrite K, <- Ec. destruct (back_window _ Hin) as (_ & _ & ->). rewrite <- Ec in H2. destruct (back_window _ H2) as (_ & _ & ->).
      rewrite !back_ff by assumption. rewrite M. reflexivity. }
    destruct (set_of _ _ _ _ I (nth c' flex1 0)) as (t & Ht & Kt & It); [apply Mw, Hin|].
    assert (s = t) by (apply (set_unique _ _ _ _ I); try assumption; congruence). subst t. exact It.
Qed.

Lemma sorted_filter {A} (R : A -> A -> Prop) f l : StronglySorted R l -> StronglySorted R (filter f l).
Proof.
  induction 1 as [|a l S IH F]; simpl; [constructor|]. destruct (f a); [|exact IH]. constructor; [exact IH|].
  rewrite Forall_forall in *. intros x Hx. apply filter_In in Hx. apply F, Hx.
Qed.

Lemma back_firsts w : In w flex1 -> first_spw sets w = ff w.
Proof.
  intros Hw. destruct back_lengths as (_ & _ & L & L2). pose proof (first_positions_spec flex1) as AO. fold ws in AO. pose proof (proj1 AO) as Mw.
  destruct (set_of _ _ _ _ I w) as (s & Hs & Ks & Is); [apply Mw, Hw|].
  rewrite (first_spw_set _ _ _ _ I s w Hs Is).
  (* the copy that was not renumbered *)
  destruct (In_nth _ _ 0 Hw) as (c & Hc & Ec). rewrite L in Hc. destruct (back_div c Hc) as (A & B & C).
  set (w0 := nth (c mod nf) flex1 0). pose proof np_pos as NP. assert (Hc0 : (c mod nf < nf * np)%nat) by nia.
  assert (H0 : In w0 flex1) by (apply nth_In; lia).
  assert (F0 : ff w0 = ff w).
  { unfold w0. rewrite <- Ec, !back_ff by assumption. rewrite Nat.mod_mod by lia. reflexivity. }
  assert (W0 : w0 = ff w) by (rewrite <- Ec, back_ff by exact Hc; apply back_first, B).
  assert (I0 : In w0 (ws_spws s)).
  { destruct (set_of _ _ _ _ I w0) as (t & Ht & Kt & It); [apply Mw, H0|].
    assert (s = t); [|subst t; exact It]. apply (set_unique _ _ _ _ I); try assumption. rewrite Ks, Kt.
    destruct (back_window w Hw) as (_ & _ & ->), (back_window w0 H0) as (_ & _ & ->). congruence. }
  rewrite <- W0. pose proof (si_spws _ _ _ _ I s Hs) as ES.
  pose proof (sorted_filter _ (fun w => keyeqb (ws_key s) (sorted_window u1 w)) _ (proj2 AO)) as SS. rewrite <- ES in SS.
  pose proof (first_in _ _ _ _ I s Hs) as HF. unfold ws_first in *. destruct (ws_spws s) as [|h t] eqn:EH; [destruct I0|]. cbn [hd] in *.
  destruct I0 as [E|I0]; [exact E|]. inversion SS as [|? ? _ F]; subst. rewrite Forall_forall in F. destruct (F w0 I0) as (i & Ei & Hi).
  assert (Hlt : (i < c mod nf)%nat).
  { destruct (Nat.lt_ge_cases i (c mod nf)) as [|G]; [assumption|]. exfalso. apply (Hi (c mod nf)%nat G). unfold w0. apply nth_error_nth'. lia. }
  assert (Eh : h = nth i flex1 0) by (symmetry; apply nth_error_nth; exact Ei).
  assert (Hh : In h flex1) by (apply nth_error_In in Ei; exact Ei).
  destruct (in_set _ _ _ _ I s h Hs) as [_ Kh]; [rewrite EH; left; reflexivity|].
  assert (Fh : ff h = ff w0) by (rewrite F0; apply key_ff; [exact Hh|exact Hw|congruence]).
  apply back_inj; try assumption. unfold w0. rewrite Eh, !back_pf by nia. f_equal. rewrite !Nat.div_small by lia. reflexivity.
Qed.

Lemma back_no_sort : reorder_channels u1 sets = false.
Proof.
  pose proof (first_positions_spec flex1) as AO. fold ws in AO. pose proof (proj1 AO) as Mw.
  destruct (reorder_channels u1 sets) eqn:E; [exfalso|reflexivity]. apply existsb_exists in E. destruct E as (s & Hs & E).
  apply existsb_exists in E. destruct E as (w & Hw & E). apply negb_true_iff in E.
  assert (Hw2 : In w (ws_spws s)) by (destruct (ws_spws s); [destruct Hw | right; exact Hw]).
  pose proof (first_in _ _ _ _ I s Hs) as HF. destruct (in_set _ _ _ _ I s _ Hs HF) as [A1 K1]. destruct (in_set _ _ _ _ I s _ Hs Hw2) as [A2 K2].
  apply Mw in A1, A2. assert (EF : ff (ws_first s) = ff w) by (apply key_ff; try assumption; congruence).
  destruct (back_window _ A1) as (B1 & B2 & _), (back_window _ A2) as (B3 & B4 & _).
  unfold same_channels in E. fold flex1 in E. rewrite B1, B2, B3, B4, EF in E.
  rewrite !(proj2 (listZ_eqb_eq _ _) eq_refl) in E. discriminate.
Qed.

Lemma back_firsts_array : first_spw_array sets u1 = concat (map (fun _ => flex) pols).
Proof. rewrite <- back_fst_layout. unfold first_spw_array. fold flex1. apply map_ext_in. exact back_firsts. Qed.

Lemma back_no_move : reorder_spws (length (uniqueZ fp)) (uniqueZ fp) (pol_array_check o1 fp) (first_spw_array sets u1) = false.
Proof.
  destruct back_lengths as (_ & _ & L & L2). pose proof np_pos as NP.
  unfold reorder_spws. change (pol_array_check o1 fp) with (map pf flex1). rewrite back_firsts_array.
  assert (Hn : map pf flex1 <> []) by (destruct flex1; [simpl in L; nia | discriminate]).
  assert (WE : forall p, In p (uniqueZ fp) -> where_eq p (map pf flex1) (concat (map (fun _ => flex) pols)) = flex).
  { intros p Hp. rewrite back_pol_layout. apply (where_eq_blocks (fun _ => nf) pols flex p Hnd); [apply (Permutation_in _ upols_perm), Hp | intros; symmetry; exact L2]. }
  apply orb_false_iff. split.
  - apply negb_false_iff, Nat.eqb_eq. destruct (breaks_unique (map pf flex1) Hn) as [_ B].
    assert (C : contiguous (map pf flex1)).
    { intros i j k Hij Hk E. rewrite map_length in Hk. rewrite !(nth_map pf flex1 _ 0 0) in * by lia. rewrite !back_pf in * by lia.
      assert (Dk : (i / nf = k / nf)%nat).
      { apply (proj1 (NoDup_nth pols 0) Hnd); try exact E; apply Nat.div_lt_upper_bound; fold np; lia. }
      f_equal. pose proof (Nat.div_le_mono i j nf ltac:(lia) ltac:(lia)). pose proof (Nat.div_le_mono j k nf ltac:(lia) ltac:(lia)). lia. }
    apply B in C. assert (LU : length (uniqueZ (map pf flex1)) = length (uniqueZ fp)).
    { apply Permutation_length, NoDup_Permutation; try apply uniqueZ_NoDup. intros p. rewrite !uniqueZ_In, in_map_iff, (fp_mem o1 fp back_ok Ef). fold u1 pf.
      pose proof back_ok as [(_ & _ & M) _]. fold u1 flex1 in M. split; intros (w & A1 & A2); exists w; [split; [apply M, A2 | congruence] | split; [congruence | apply M, A1]]. }
    lia.
  - destruct (existsb _ (tl (uniqueZ fp))) eqn:E; [exfalso|reflexivity]. apply existsb_exists in E. destruct E as (p & Hp & E). apply negb_true_iff in E.
    destruct (uniqueZ fp) as [|q qs] eqn:EU; [destruct Hp|]. cbn [hd tl] in *. rewrite !WE in E by (try (left; reflexivity); right; exact Hp).
    rewrite (proj2 (listZ_eqb_eq _ _) eq_refl) in E. discriminate.
Qed.
End Sets.

Lemma firstn_tile f1 f : length f = nf -> length f1 = (nf * np)%nat -> (forall j, (j < nf)%nat -> nth (j + nf * 0) f1 0 = nth j f 0) -> firstn nf f1 = f.
Proof.
  intros L L1 H. pose proof np_pos as NP. apply list_eq_nth; [rewrite firstn_length; nia|]. intros i Hi. rewrite firstn_length in Hi.
  rewrite firstn_nth by lia. rewrite <- H by lia. f_equal. lia.
Qed.

Lemma converted_back : exists o2, remove_flex_pol true o1 = Ok o2 /\ flex_spw_polarization_array o2 = None /\
  eq_coeffs o2 = eq_coeffs o1 /\ same_but_window_order u (fo_uvd o2).
Proof.
  destruct back_lengths as (Lf & Lw & Lx & L2). pose proof np_pos as NP. pose proof Hax as ((Lw0 & _) & Nsp & M0). fold nf in Lw0. fold flex in M0.
  pose proof back_ok as [((_ & _) & Nsp1 & M1) L]. fold u1 flex1 in Nsp1, M1. specialize (L fp Ef). fold u1 in L.
  destruct Hm as (_ & Off & _ & HS & _ & HF). fold u u1 in Off. unfold Nfreqs, Npols in HS, HF. fold u u1 nf flex flex1 pols np in HS, HF.
  pose proof (Permutation_length upols_perm) as LU. fold np in LU.
  assert (HS0 : forall j k, (j < nf)%nat -> (k < np)%nat -> sample_copied u j k u1 (j + nf * k) 0) by (intros j k Hj Hk; apply (HS j k Hj Hk)).
  unfold remove_flex_pol. rewrite Ef. fold u1. destruct (_ || _) eqn:E1.
  - (* one polarization *)
    assert (N1 : np = 1%nat).
    { apply orb_prop in E1. destruct E1 as [E1|E1]; apply Nat.eqb_eq in E1; [|lia]. rewrite <- LU. destruct fp as [|p [|]]; simpl in L; try lia. reflexivity. }
    assert (EP : uniqueZ fp = pols).
    { pose proof upols_perm as P. unfold np in N1. destruct pols as [|p [|]]; simpl in N1; try lia. apply Permutation_sym, Permutation_length_1_inv in P. exact P. }
    eexists. split; [reflexivity|]. cbn [flex_spw_polarization_array eq_coeffs fo_uvd]. split; [reflexivity|]. split; [reflexivity|].
    rewrite EP. unfold same_but_window_order, off_freq_pol_same, same_blt_axis in *. unfold Nblts, Nfreqs, Npols.
    cbn [set_polarization_array freq_array channel_width flex_spw_id_array spw_array polarization_array data_array flag_array nsample_array
         time_array lst_array ant_1_array ant_2_array baseline_array integration_time uvw_array phase_center_id_array phase_center_app_ra
         phase_center_app_dec phase_center_frame_pa Nbls Ntimes blt_order blts_are_rectangular time_axis_faster_than_bls Nants_telescope].
    fold nf pols np flex.
    assert (EFx : flex1 = flex) by (apply list_eq_nth; [lia|]; intros i Hi; apply HF; lia).
    split; [exact Off|]. split; [|split; [|split; [exact EFx|split; [|split; [reflexivity|]]]]].
    + apply list_eq_nth; [fold nf; lia|]. intros i Hi. destruct (HS0 i 0%nat ltac:(lia) ltac:(lia)) as (A & _). rewrite Nat.mul_0_r, Nat.add_0_r in A. exact A.
    + apply list_eq_nth; [lia|]. intros i Hi. destruct (HS0 i 0%nat ltac:(lia) ltac:(lia)) as (_ & A & _). rewrite Nat.mul_0_r, Nat.add_0_r in A. exact A.
    + apply NoDup_Permutation; try assumption. intros w. rewrite <- M1, <- M0, EFx. reflexivity.
    + intros i j k _ Hj Hk. replace k with 0%nat by lia. destruct (HS0 j 0%nat Hj ltac:(lia)) as (_ & _ & A). specialize (A i). rewrite Nat.mul_0_r, Nat.add_0_r in A. exact A.
  - pose proof (first_positions_spec flex1) as AO. set (ws := take 0 flex1 (first_positions flex1)) in AO. pose proof (proj1 AO) as Mw.
    fold flex1. fold ws. destruct (window_sets_total u1 fp ws [] []) as (sets & EW); try assumption.
    + intros w Hw. apply M1, Mw, Hw.
    + apply (appearance_NoDup _ _ AO).
    + intros w w' Hw Hw' EK EP. cbn [app] in Hw, Hw'. apply Mw in Hw, Hw'. apply back_inj; try assumption. apply key_ff; assumption.
    + apply sets_inv_nil.
    + rewrite EW. cbn [bind]. pose proof (sets_of u1 fp o1 sets eq_refl back_ok Ef EW) as I. fold flex1 in I. fold pf in I.
      assert (EA : forallb (fun s => (length (ws_spws s) =? length (uniqueZ fp))%nat) sets = true).
      { apply forallb_forall. intros s Hs. apply Nat.eqb_eq. apply (back_full sets I s Hs). }
      rewrite EA. cbn [negb]. rewrite (back_no_sort sets I), (back_no_move sets I). cbn [orb].
      assert (NFq : fold_right Nat.add 0%nat (map (fun s => length (ws_freqs s)) sets) = nf).
      { assert (CC : length flex1 = (length (uniqueZ fp) * total (map (fun s => length (ws_freqs s)) sets))%nat).
        { apply (channel_count o1 fp sets I). exact (back_full sets I). }
        unfold total in CC. rewrite LU, Lx in CC. nia. }
      rewrite NFq, LU. unfold combine_windows. fold u1. change (pol_array_check o1 fp) with (map pf flex1).
      rewrite back_pol_layout, (back_firsts_array sets I). destruct (Nat.eqb_spec (nf * np) (length (freq_array u1))) as [|C]; [|lia]. cbn [negb].
      eexists. split; [reflexivity|]. cbn [flex_spw_polarization_array eq_coeffs fo_uvd]. split; [reflexivity|]. split; [reflexivity|].
      unfold same_but_window_order, off_freq_pol_same, same_blt_axis in *. unfold Nblts, Nfreqs, Npols.
      cbn [set_axes freq_array channel_width flex_spw_id_array spw_array polarization_array data_array flag_array nsample_array
         time_array lst_array ant_1_array ant_2_array baseline_array integration_time uvw_array phase_center_id_array phase_center_app_ra
         phase_center_app_dec phase_center_frame_pa Nbls Ntimes blt_order blts_are_rectangular time_axis_faster_than_bls Nants_telescope].
      fold nf pols np flex.
      split; [exact Off|]. split; [|split; [|split; [|split; [|split]]]].
      * apply firstn_tile; [reflexivity | exact Lf |]. intros j Hj. apply (HS0 j 0%nat Hj NP).
      * apply firstn_tile; [exact Lw0 | exact Lw |]. intros j Hj. apply (HS0 j 0%nat Hj NP).
      * destruct pols as [|p po] eqn:EP; [congruence|]. cbn [map concat]. rewrite <- L2. rewrite firstn_app, Nat.sub_diag, firstn_all, firstn_O. apply app_nil_r.
      * pose proof (first_positions_spec (concat (map (fun _ => flex) pols))) as AO2. apply NoDup_Permutation; [apply (appearance_NoDup _ _ AO2) | exact Nsp |].
        intros w. rewrite (proj1 AO2 w), <- M0. split.
        -- intros H. apply in_concat in H. destruct H as (x & Hx & H). apply in_map_iff in Hx. destruct Hx as (q & <- & _). exact H.
        -- intros H. apply in_concat. exists flex. split; [|exact H]. destruct pols; [congruence | left; reflexivity].
      * apply (appearance_unique (concat (map (fun p => repeat p nf) pols))); [apply first_positions_spec | apply blocks_appearance; assumption].
      * intros i j k _ Hj Hk. unfold pol_split. destruct (HS0 j k Hj Hk) as (_ & _ & A). apply A.
Qed.
End Back.

From Verif Require Import Proofs.FlexPolConvert.

Lemma convert_eq_coeffs pop o o' : convert_to_flex_pol pop o = Ok o' -> eq_coeffs o' = eq_coeffs o.
Proof.
  unfold convert_to_flex_pol. destruct (flex_spw_polarization_array o); [discriminate|]. destruct (polarization_array _); [discriminate|].
  destruct (id_columns _ _ _ _ _ _ _) as [[a b] c]. intros H. injection H as <-. reflexivity.
Qed.

Lemma there_and_back pop o : picks pop -> freq_axis_ok (fo_uvd o) -> flex_spw_polarization_array o = None ->
  polarization_array (fo_uvd o) <> [] -> NoDup (polarization_array (fo_uvd o)) -> (0 < Nfreqs (fo_uvd o))%nat -> windows_differ (fo_uvd o) ->
  exists o1 o2, convert_to_flex_pol pop o = Ok o1 /\ remove_flex_pol true o1 = Ok o2 /\
    flex_spw_polarization_array o2 = None /\ eq_coeffs o2 = eq_coeffs o /\ same_but_window_order (fo_uvd o) (fo_uvd o2).
Proof.
  intros P Hax Ef Np ND Hnf HD. destruct (made pop o P Hax Ef Np Hnf) as (o1 & E1 & HM).
  destruct (flex_spw_polarization_array o1) as [fp|] eqn:Ef1; [|exfalso; apply (proj1 (proj2 (proj1 HM))); exact Ef1].
  destruct (converted_back o o1 fp Hax HM ND Np Hnf HD Ef1) as (o2 & E2 & F2 & C2 & S2).
  exists o1, o2. rewrite C2, (convert_eq_coeffs _ _ _ E1). auto.
Qed.
