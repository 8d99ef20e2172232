(** remove_flex_pol: the two outcomes put together, and when it succeeds. *)
From Coq Require Import List ZArith Bool Arith Lia Sorted Permutation.
From Verif Require Import Lib.Py Lib.Np Lib.Cube Lib.Sorting Spec.UVDataSpec Spec.FreqSpec Spec.FlexPolSpec
  Model.UVData Model.Freq Model.PhaseCenter Model.FlexPol Proofs.AccessProofs Proofs.FreqProofs Proofs.FreqReorder
  Proofs.FlexPolSets Proofs.FlexPolLayout Proofs.FlexPolProofs Proofs.FlexPolCombine.
Import ListNotations.
Notation length := List.length.
Open Scope Z_scope.

Lemma sets_of u fp o sets : u = fo_uvd o -> obj_ok o -> flex_spw_polarization_array o = Some fp ->
  let ws := take 0 (flex_spw_id_array u) (first_positions (flex_spw_id_array u)) in
  window_sets u fp ws [] = Ok sets -> sets_inv (sorted_window u) (polf (spw_array u) fp) ws sets.
Proof.
  intros -> Hok Ef ws H. pose proof Hok as [(_ & _ & M) L]. specialize (L fp Ef).
  pose proof (first_positions_spec (flex_spw_id_array (fo_uvd o))) as A.
  apply (window_sets_inv (fo_uvd o) fp ws [] [] sets); try assumption.
  - intros w Hw. apply M, (proj1 A), Hw.
  - apply (appearance_NoDup _ _ A).
  - apply sets_inv_nil.
Qed.

Lemma removed combine_spws o o' : flex_pol_ok o -> distinct_channels (fo_uvd o) ->
  remove_flex_pol combine_spws o = Ok o' -> flex_pol_removed o o'.
Proof.
  intros Hf D H. pose proof Hf as (Hok & Hs & Np & Ne). unfold remove_flex_pol in H.
  destruct (flex_spw_polarization_array o) as [fp|] eqn:Ef; [|congruence].
  destruct (_ || _) eqn:E1.
  { injection H as <-. apply removed_one; try assumption. apply orb_prop in E1. destruct E1 as [E1|E1]; apply Nat.eqb_eq in E1; auto. }
  destruct combine_spws; [|injection H as <-; apply removed_inflate; assumption].
  apply bind_Ok in H. destruct H as (sets & HS & H).
  pose proof (sets_of _ fp o sets eq_refl Hok Ef HS) as I.
  destruct (negb _) eqn:E2; [injection H as <-; apply removed_inflate; assumption|].
  apply negb_false_iff in E2. rewrite forallb_forall in E2.
  assert (Full : forall s, In s sets -> length (ws_spws s) = length (uniqueZ fp)) by (intros s Hs'; apply Nat.eqb_eq, E2, Hs').
  set (rc := reorder_channels _ _) in H. set (rs := reorder_spws _ _ _ _) in H.
  destruct (rc || rs) eqn:E3.
  - apply bind_Ok in H. destruct H as (so & HSO & H). apply bind_Ok in H. destruct H as (o1 & HR & H).
    destruct (flex_spw_polarization_array o1) as [fp1|] eqn:Ef1; [|discriminate].
    destruct (combined_removed o fp sets Hok Ne Ef I Full so (if rc then Some (ChanFreq false) else None) o1 fp1) as (o2 & EC & R); try assumption.
    + fold rs. destruct rs.
      * apply bind_Ok in HSO. destruct HSO as (idx & HI & HSO). injection HSO as <-. eauto.
      * injection HSO as <-. reflexivity.
    + reflexivity.
    + unfold total in EC. rewrite EC in H. injection H as <-. exact R.
  - apply orb_false_iff in E3. destruct E3 as [E3 E4].
    destruct (combined_removed o fp sets Hok Ne Ef I Full None None o fp) as (o2 & EC & R); try assumption.
    + fold rs. rewrite E4. reflexivity.
    + fold rc. rewrite E3. reflexivity.
    + apply rf_nothing.
    + unfold total in EC. rewrite EC in H. injection H as <-. exact R.
Qed.

Lemma combine_take {A B} (da : A) (db : B) la lb idx : length la = length lb -> (forall i, In i idx -> (i < length la)%nat) ->
  combine (take da la idx) (take db lb idx) = take (da, db) (combine la lb) idx.
Proof.
  intros L H. unfold take. induction idx as [|i idx IH]; [reflexivity|]. cbn [map combine]. rewrite IH by (intros; apply H; right; assumption).
  f_equal. rewrite combine_nth by exact L. reflexivity.
Qed.

Lemma sorted_window_key u w : freq_shaped u -> window_key u w (combine (fst (sorted_window u w)) (snd (sorted_window u w))).
Proof.
  intros (Lw & Lx). unfold sorted_window. cbn [fst snd]. set (inds := nonzero (Z.eqb w) (flex_spw_id_array u)).
  set (si := take 0%nat inds (argsortZ (take 0 (freq_array u) inds))).
  assert (Psi : Permutation si inds).
  { unfold si. apply take_perm. rewrite <- (take_length 0 (freq_array u) inds). apply argsortZ_perm. }
  assert (B : forall i, In i inds -> (i < length (freq_array u))%nat) by (intros i Hi; apply nonzero_lt in Hi; lia).
  split.
  - assert (E : forall idx, StronglySorted Z.le (take 0 (freq_array u) idx) ->
      StronglySorted (fun a b : Z * Z => fst a <= fst b) (combine (take 0 (freq_array u) idx) (take 0 (channel_width u) idx))).
    { induction idx as [|i idx IH]; intros S; cbn [take map combine]; [constructor|].
      inversion S as [|? ? S1 F1]; subst. constructor; [apply IH; exact S1|]. rewrite Forall_forall in *. intros (a, b) Hab.
      cbn [fst]. apply F1. apply in_combine_l in Hab. exact Hab. }
    apply E. pose proof (argsortZ_sorted (take 0 (freq_array u) inds)) as AS.
    rewrite take_take in AS by (intros k Hk; apply (Permutation_in _ (argsortZ_perm _)), in_seq in Hk; rewrite take_length in Hk; lia).
    exact AS.
  - rewrite <- !take_window_freqs by congruence. fold inds.
    rewrite !combine_take by (try congruence; intros i Hi; try (apply (Permutation_in _ Psi) in Hi); apply B, Hi).
    unfold take. apply Permutation_map. exact Psi.
Qed.

Section Total.
Variables (o : freqobj) (fp : list Z) (sets : list wset).
Let u := fo_uvd o.
Let flex := flex_spw_id_array u.
Let ws := take 0 flex (first_positions flex).
Let pf := polf (spw_array u) fp.
Hypothesis Hok : obj_ok o.
Hypothesis Ef : flex_spw_polarization_array o = Some fp.
Hypothesis I : sets_inv (sorted_window u) pf ws sets.
Hypothesis Full : forall s, In s sets -> length (ws_spws s) = length (uniqueZ fp).

Lemma spw_order_total : exists idx, spw_order_of (spw_array u) (uniqueZ fp) sets = Ok idx /\
  Permutation idx (map Z.of_nat (seq 0 (length (spw_array u)))).
Proof.
  pose proof Hok as [((_ & Lx) & Nsp & M) L]. fold u flex in Lx, Nsp, M. specialize (L fp Ef). fold u in L.
  destruct (ws_facts o) as [Nw Mw]. fold u flex ws in Nw, Mw.
  unfold spw_order_of. set (porder := if forallb _ (uniqueZ fp) then _ else _).
  assert (PP : Permutation porder (uniqueZ fp)).
  { unfold porder. destruct (forallb _ _); [|reflexivity]. apply take_perm.
    rewrite <- (map_length Z.abs (uniqueZ fp)). apply argsortZ_perm. }
  assert (Np : NoDup porder) by (apply (Permutation_NoDup (Permutation_sym PP)), uniqueZ_NoDup).
  clearbody porder.
  set (pos := fun w => match index_of Z.eqb w (spw_array u) with Some k => k | None => O end).
  assert (HP : forall w, In w (spw_array u) -> index_of Z.eqb w (spw_array u) = Some (pos w) /\ (pos w < length (spw_array u))%nat /\ nth (pos w) (spw_array u) 0 = w).
  { intros w Hw. unfold pos. destruct (index_of Z.eqb w (spw_array u)) as [k|] eqn:E.
    - apply (index_of_Some Z.eqb Z.eqb_eq 0) in E. tauto.
    - apply (index_of_None Z.eqb Z.eqb_eq) in E. contradiction. }
  assert (UP : forall w, In w ws -> In (pf w) (uniqueZ fp)).
  { intros w Hw. apply (pf_upols o fp Hok Ef). apply Mw, Hw. }
  assert (Sel : forall p s, In p porder -> In s sets -> exists i, index_of Z.eqb p (ws_pols s) = Some i /\
            In (nth i (ws_spws s) 0) (ws_spws s) /\ pf (nth i (ws_spws s) 0) = p).
  { intros p s Hp Hs. destruct (window_in_set _ _ _ _ I (uniqueZ fp) s p) as (w & Hw & E); try assumption.
    - apply uniqueZ_NoDup.
    - apply Full, Hs.
    - apply (Permutation_in _ PP), Hp.
    - pose proof (si_pols _ _ _ _ I s Hs) as EP. destruct (index_of Z.eqb p (ws_pols s)) as [i|] eqn:EI.
      + exists i. split; [reflexivity|]. apply (index_of_Some Z.eqb Z.eqb_eq 0) in EI. destruct EI as (A & B & _). rewrite EP in A, B.
        rewrite map_length in A. rewrite (nth_map pf _ _ 0 0 A) in B. split; [apply nth_In, A | exact B].
      + exfalso. apply (index_of_None Z.eqb Z.eqb_eq) in EI. apply EI. rewrite EP. apply in_map_iff. eauto. }
  set (wsel := fun ps : Z * wset => nth (match index_of Z.eqb (fst ps) (ws_pols (snd ps)) with Some i => i | None => O end) (ws_spws (snd ps)) 0).
  assert (SelW : forall p s, In p porder -> In s sets -> In (wsel (p, s)) (ws_spws s) /\ pf (wsel (p, s)) = p).
  { intros p s Hp Hs. destruct (Sel p s Hp Hs) as (i & E & A & B). unfold wsel. cbn [fst snd]. rewrite E. auto. }
  assert (SW : forall s w, In s sets -> In w (ws_spws s) -> In w ws /\ In w (spw_array u)).
  { intros s w Hs Hw. destruct (in_set _ _ _ _ I s w Hs Hw) as [A _]. split; [exact A|]. apply M, Mw, A. }
  set (pairs := concat (map (fun p => map (pair p) sets) porder)).
  assert (Hpairs : forall p s, In (p, s) pairs <-> In p porder /\ In s sets).
  { intros p s. unfold pairs. rewrite in_concat. split.
    - intros (x & Hx & H). apply in_map_iff in Hx. destruct Hx as (q & <- & Hq). apply in_map_iff in H. destruct H as (t & E & Ht). injection E as -> ->. auto.
    - intros [Hp Hs]. exists (map (pair p) sets). split; [apply in_map_iff; eauto | apply in_map, Hs]. }
  exists (map (fun ps => Z.of_nat (pos (wsel ps))) pairs). split.
  - assert (HM : forall ps, In ps pairs -> match index_of Z.eqb (fst ps) (ws_pols (snd ps)) with
      | None => Err IndexError
      | Some i => match index_of Z.eqb (nth i (ws_spws (snd ps)) 0) (spw_array u) with
                  | None => Err IndexError | Some k => Ok (Z.of_nat k) end end = Ok (Z.of_nat (pos (wsel ps)))).
    { intros (p, s) H. apply Hpairs in H. destruct H as [Hp Hs]. destruct (Sel p s Hp Hs) as (i & E & A & B). unfold wsel. cbn [fst snd]. rewrite E.
      destruct (HP _ (proj2 (SW s _ Hs A))) as [-> _]. reflexivity. }
    revert HM. generalize pairs. clear. induction pairs as [|ps l IH]; intros HM; [reflexivity|]. cbn [mapM map].
    rewrite (HM ps) by (left; reflexivity). cbn [bind]. rewrite IH by (intros; apply HM; right; assumption). reflexivity.
  - assert (Inj : forall ps qs, In ps pairs -> In qs pairs -> pos (wsel ps) = pos (wsel qs) -> ps = qs).
    { intros (p, s) (q, t) H H' E. apply Hpairs in H, H'. destruct H as [Hp Hs], H' as [Hq Ht].
      destruct (SelW p s Hp Hs) as [A B], (SelW q t Hq Ht) as [A' B'].
      destruct (HP _ (proj2 (SW s _ Hs A))) as (_ & _ & E1). destruct (HP _ (proj2 (SW t _ Ht A'))) as (_ & _ & E2).
      assert (EW : wsel (p, s) = wsel (q, t)) by congruence. f_equal; [congruence|].
      apply (set_unique _ _ _ _ I); try assumption. destruct (in_set _ _ _ _ I s _ Hs A) as [_ K]. destruct (in_set _ _ _ _ I t _ Ht A') as [_ K']. congruence. }
    assert (NDp : NoDup pairs).
    { assert (Ns : NoDup sets) by (apply (NoDup_map_inv ws_key), (si_keys _ _ _ _ I)).
      unfold pairs. clear -Np Ns. induction porder as [|p l IH]; [constructor|]. apply NoDup_cons_iff in Np. destruct Np as [N1 N2].
      cbn [map concat]. induction sets as [|s t IHt]; [cbn [map app]; apply IH, N2|]. apply NoDup_cons_iff in Ns. destruct Ns as [N3 N4].
      assert (G : forall k, NoDup k -> NoDup (map (pair p) k ++ concat (map (fun p0 => map (pair p0) (s :: t)) l))).
      { induction k as [|x k IHk]; intros Nk; [cbn [map app]; apply IH; assumption|]. apply NoDup_cons_iff in Nk. destruct Nk as [N5 N6].
        cbn [map app]. constructor; [|apply IHk, N6]. rewrite in_app_iff. intros [C|C].
        - apply in_map_iff in C. destruct C as (y & E & Hy). injection E as ->. contradiction.
        - apply in_concat in C. destruct C as (z & Hz & C). apply in_map_iff in Hz. destruct Hz as (q & <- & Hq).
          change (In (p, x) (map (pair q) (s :: t))) in C. apply in_map_iff in C. destruct C as (y & E & _). injection E as -> _. contradiction. }
      apply G. constructor; assumption. }
    apply NoDup_Permutation.
    + revert NDp Inj. generalize pairs. clear. induction pairs as [|ps l IH]; intros N Inj; [constructor|]. apply NoDup_cons_iff in N. destruct N as [N1 N2].
      cbn [map]. constructor; [|apply IH; [exact N2 | intros; apply Inj; try (right; assumption); assumption]].
      intros C. apply in_map_iff in C. destruct C as (qs & E & Hq). apply Nat2Z.inj in E. apply Inj in E; [subst; contradiction | right; exact Hq | left; reflexivity].
    + apply FinFun.Injective_map_NoDup; [intros a b; apply Nat2Z.inj | apply seq_NoDup].
    + intros z. rewrite !in_map_iff. split.
      * intros ((p, s) & <- & H). apply Hpairs in H. destruct H as [Hp Hs]. destruct (SelW p s Hp Hs) as [A B].
        destruct (HP _ (proj2 (SW s _ Hs A))) as (_ & LT & _). exists (pos (wsel (p, s))). split; [reflexivity | apply in_seq; lia].
      * intros (k & <- & Hk). apply in_seq in Hk. set (w := nth k (spw_array u) 0).
        assert (Hw : In w (spw_array u)) by (apply nth_In; lia). assert (Hws : In w ws) by (apply Mw, M, Hw).
        destruct (set_of _ _ _ _ I w Hws) as (s & Hs & Ks & Is). assert (Hp : In (pf w) porder) by (apply (Permutation_in _ (Permutation_sym PP)), UP, Hws).
        exists (pf w, s). split; [|apply Hpairs; auto]. destruct (SelW _ s Hp Hs) as [A B]. destruct (in_set _ _ _ _ I s _ Hs A) as [A1 K].
        assert (E : wsel (pf w, s) = w) by (apply (key_pol_inj _ _ _ _ I); try assumption; congruence).
        rewrite E. destruct (HP w Hw) as (_ & LT & E1). f_equal. apply (proj1 (NoDup_nth _ 0) Nsp); try lia.
Qed.
End Total.

Lemma remove_total combine_spws o : flex_pol_ok o -> distinct_channels (fo_uvd o) ->
  (combine_spws = true -> windows_separate o) -> exists o', remove_flex_pol combine_spws o = Ok o'.
Proof.
  intros Hf D HS. pose proof Hf as (Hok & Hs & Np & Ne). unfold remove_flex_pol.
  destruct (flex_spw_polarization_array o) as [fp|] eqn:Ef; [|eauto].
  destruct (_ || _) eqn:E1; [eauto|]. destruct combine_spws; [|eauto]. specialize (HS eq_refl).
  pose proof Hok as [((Lw & Lx) & Nsp & M) L]. specialize (L fp Ef).
  destruct (ws_facts o) as [Nw Mw]. set (ws := take 0 _ _) in *.
  destruct (window_sets_total (fo_uvd o) fp ws [] []) as (sets & EW); try assumption.
  - intros w Hw. apply M, Mw, Hw.
  - intros w w' Hw Hw' EK EP. cbn [app] in Hw, Hw'. apply Mw, M in Hw. apply Mw, M in Hw'.
    apply (HS w w' (polf (spw_array (fo_uvd o)) fp w) (combine (fst (sorted_window (fo_uvd o) w)) (snd (sorted_window (fo_uvd o) w)))).
    + apply (window_pol_polf o fp); auto.
    + apply (window_pol_polf o fp); auto.
    + apply sorted_window_key. split; assumption.
    + rewrite EK. apply sorted_window_key. split; assumption.
  - apply sets_inv_nil.
  - rewrite EW. cbn [bind]. pose proof (sets_of _ fp o sets eq_refl Hok Ef EW) as I.
    destruct (negb _) eqn:E2; [eauto|]. apply negb_false_iff in E2. rewrite forallb_forall in E2.
    assert (Full : forall s, In s sets -> length (ws_spws s) = length (uniqueZ fp)) by (intros s Hs'; apply Nat.eqb_eq, E2, Hs').
    set (rc := reorder_channels _ _). set (rs := reorder_spws _ _ _ _).
    destruct (spw_order_total o fp sets Hok Ef I Full) as (idx & EI & PI).
    destruct (rc || rs) eqn:E3.
    + set (so := if rs then Some (SpwIndex idx) else None). set (co := if rc then Some (ChanFreq false) else None).
      assert (E4 : (if rs then do i <- spw_order_of (spw_array (fo_uvd o)) (uniqueZ fp) sets; Ok (Some (SpwIndex i)) else Ok None) = Ok so).
      { unfold so. destruct rs; [rewrite EI|]; reflexivity. }
      rewrite E4. cbn [bind]. fold co.
      destruct (rf_total so co None o Hok) as (o1 & ER).
      * intros C. unfold Nfreqs in Ne. destruct (flex_spw_id_array (fo_uvd o)) as [|w l] eqn:EF; [simpl in Lx; lia|].
        assert (In w (spw_array (fo_uvd o))) by (apply M; left; reflexivity). rewrite C in H. destruct H.
      * unfold so. destruct rs; discriminate.
      * unfold co. destruct rc; discriminate.
      * intros i E. unfold so in E. destruct rs; [injection E as <-; exact PI | discriminate].
      * intros i E. unfold co in E. destruct rc; discriminate.
      * rewrite ER. cbn [bind]. destruct (rf_moves so co None o o1 Hok ER) as (sigma & R & Hok1 & HW & HN & _).
        destruct (flex_spw_polarization_array o1) as [fp1|] eqn:Ef1; [|exfalso; rewrite Ef in HN; destruct HN as [_ HN]; specialize (HN eq_refl); discriminate].
        destruct (combined_removed o fp sets Hok Ne Ef I Full so co o1 fp1) as (o2 & EC & _); try assumption.
        -- fold rs. unfold so. destruct rs; [eauto | reflexivity].
        -- reflexivity.
        -- eauto.
    + apply orb_false_iff in E3. destruct E3 as [E3 E4].
      destruct (combined_removed o fp sets Hok Ne Ef I Full None None o fp) as (o2 & EC & _); try assumption.
      * fold rs. rewrite E4. reflexivity.
      * fold rc. rewrite E3. reflexivity.
      * apply rf_nothing.
      * eauto.
Qed.
