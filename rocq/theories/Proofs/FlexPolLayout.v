(** An axis on which polarization varies slowest can be reshaped. *)
From Coq Require Import List ZArith Bool Arith Lia Sorted Permutation.
From Verif Require Import Lib.Py Lib.Np Lib.Cube Lib.Sorting Spec.UVDataSpec Spec.FreqSpec Spec.FlexPolSpec
  Model.UVData Model.Freq Model.PhaseCenter Model.FlexPol Proofs.AccessProofs Proofs.FreqProofs Proofs.FreqReorder Proofs.FlexPolSets.
Import ListNotations.
Notation length := List.length.
Open Scope Z_scope.

Lemma divmod_at nf j p : (j < nf)%nat -> ((j + nf * p) / nf = p)%nat /\ ((j + nf * p) mod nf = j)%nat.
Proof.
  intros H. assert (nf <> 0)%nat by lia. split.
  - rewrite Nat.mul_comm, Nat.div_add by lia. rewrite Nat.div_small by lia. reflexivity.
  - rewrite Nat.mul_comm, Nat.mod_add by lia. apply Nat.mod_small. lia.
Qed.

Section Layout.
Variables (flex : list Z) (pf ff : Z -> Z) (porder F : list Z).
Let nf := length F.
Hypothesis Hnf : (0 < nf)%nat.
Hypothesis Hpol : map pf flex = concat (map (fun p => repeat p nf) porder).
Hypothesis Hfst : map ff flex = concat (map (fun _ => F) porder).
Hypothesis HN : NoDup porder.
Hypothesis Hinj : forall w w', In w flex -> In w' flex -> pf w = pf w' -> ff w = ff w' -> w = w'.

Lemma lay_length : length flex = (length porder * nf)%nat.
Proof. rewrite <- (map_length pf flex), Hpol. apply concat_len. intros. apply repeat_length. Qed.

Lemma lay_pol c : (c < length flex)%nat -> pf (nth c flex 0) = nth (c / nf) porder 0.
Proof.
  intros Hc. rewrite <- (nth_map pf flex c 0 0 Hc), Hpol. apply nth_concat_repeat. rewrite <- lay_length. exact Hc.
Qed.

Lemma lay_fst c : (c < length flex)%nat -> ff (nth c flex 0) = nth (c mod nf) F 0.
Proof.
  intros Hc. rewrite <- (nth_map ff flex c 0 0 Hc), Hfst. apply nth_concat_same. fold nf. rewrite <- lay_length. exact Hc.
Qed.

Lemma lay_div c : (c < length flex)%nat -> (c / nf < length porder)%nat /\ (c mod nf < nf)%nat /\ c = (c mod nf + nf * (c / nf))%nat.
Proof.
  intros Hc. rewrite lay_length in Hc. split; [apply Nat.div_lt_upper_bound; lia|].
  split; [apply Nat.mod_upper_bound; lia|]. pose proof (Nat.div_mod c nf ltac:(lia)). lia.
Qed.

Lemma lay_positions p j : (p < length porder)%nat -> (j < nf)%nat ->
  nonzero (Z.eqb (nth (j + nf * p) flex 0)) flex = map (fun i => (i + nf * p)%nat) (nonzero (Z.eqb (nth j F 0)) F).
Proof.
  intros Hp Hj. symmetry. assert (Hc : (j + nf * p < length flex)%nat) by (rewrite lay_length; nia).
  destruct (divmod_at nf j p Hj) as [D M].
  apply (nonzero_unique 0).
  - apply (proj1 (StronglySorted_map _ _ _)). eapply StronglySorted_impl; [|apply nonzero_sorted]. intros; lia.
  - intros i. rewrite in_map_iff. split.
    + intros (k & <- & Hk). apply (nonzero_spec 0) in Hk. destruct Hk as [Hk E]. apply Z.eqb_eq in E. fold nf in Hk.
      assert (Hi : (k + nf * p < length flex)%nat) by (rewrite lay_length; nia). split; [exact Hi|]. apply Z.eqb_eq.
      destruct (divmod_at nf k p Hk) as [D' M']. apply Hinj; try (apply nth_In; assumption).
      * rewrite !lay_pol, D, D' by assumption. reflexivity.
      * rewrite !lay_fst, M, M' by assumption. exact E.
    + intros [Hi E]. apply Z.eqb_eq in E. destruct (lay_div i Hi) as (A & B & C).
      assert (Ep : (i / nf = p)%nat).
      { apply (proj1 (NoDup_nth porder 0) HN); try assumption. rewrite <- lay_pol by exact Hi. rewrite <- E, lay_pol, D by exact Hc. reflexivity. }
      exists (i mod nf)%nat. split; [lia|]. apply (nonzero_spec 0). split; [exact B|]. apply Z.eqb_eq.
      rewrite <- lay_fst by exact Hi. rewrite <- E, lay_fst, M by exact Hc. reflexivity.
Qed.

Lemma lay_values (vals : list Z) :
  (forall w w', In w flex -> In w' flex -> ff w = ff w' ->
     take 0 vals (nonzero (Z.eqb w) flex) = take 0 vals (nonzero (Z.eqb w') flex)) ->
  forall c, (c < length flex)%nat -> nth c vals 0 = nth (c mod nf) vals 0.
Proof.
  intros S c Hc. destruct (lay_div c Hc) as (A & B & C). set (j := (c mod nf)%nat) in *. set (p := (c / nf)%nat) in *.
  assert (P0 : (0 < length porder)%nat) by lia.
  assert (Hc0 : (j + nf * 0 < length flex)%nat) by (rewrite lay_length; nia).
  assert (Hcp : (j + nf * p < length flex)%nat) by (rewrite <- C; exact Hc).
  destruct (divmod_at nf j p B) as [D M]. destruct (divmod_at nf j 0 B) as [D0 M0].
  pose proof (S (nth (j + nf * p) flex 0) (nth (j + nf * 0) flex 0)) as E.
  rewrite !lay_positions in E by assumption. unfold take in E. rewrite !map_map in E.
  assert (E' : map (fun x => nth (x + nf * p) vals 0) (nonzero (Z.eqb (nth j F 0)) F) = map (fun x => nth (x + nf * 0) vals 0) (nonzero (Z.eqb (nth j F 0)) F)).
  { apply E; try (apply nth_In; assumption). rewrite !lay_fst, M, M0 by assumption. reflexivity. }
  clear E. assert (Hin : In j (nonzero (Z.eqb (nth j F 0)) F)) by (apply (nonzero_spec 0); split; [exact B | apply Z.eqb_refl]).
  rewrite C. replace j with (j + nf * 0)%nat at 2 by lia.
  revert E' Hin. generalize (nonzero (Z.eqb (nth j F 0)) F). clear. induction l as [|x l IH]; simpl; [intros _ []|]. intros E [<-|H]; [congruence|].
  injection E as _ E. auto.
Qed.
End Layout.

Lemma appearance_unique l s s' : appearance_order l s -> appearance_order l s' -> s = s'.
Proof.
  intros [M S] [M' S'].
  set (R := fun a b : Z => exists i, nth_error l i = Some a /\ forall j, (j <= i)%nat -> nth_error l j <> Some b) in *.
  apply (sorted_unique R); try assumption.
  - intros x (i & E & H). apply (H i (le_n i)). exact E.
  - intros x y z (i & E & H) (j & E' & H'). exists i. split; [exact E|]. intros k Hk. apply H'.
    destruct (Nat.le_gt_cases k j) as [|C]; [assumption|]. exfalso. apply (H j); [lia | exact E'].
  - intros x. rewrite M, M'. reflexivity.
Qed.

(** The order of the blocks is the order of appearance. *)
Lemma blocks_appearance porder nf : NoDup porder -> (0 < nf)%nat ->
  appearance_order (concat (map (fun p => repeat p nf) porder)) porder.
Proof.
  intros N Hnf. split.
  - intros w. split.
    + intros H. apply in_concat. exists (repeat w nf). split; [apply in_map_iff; eauto|]. destruct nf; [lia|]. left; reflexivity.
    + intros H. apply in_concat in H. destruct H as (x & Hx & H). apply in_map_iff in Hx. destruct Hx as (p & <- & Hp).
      apply repeat_spec in H. congruence.
  - apply (proj2 (StronglySorted_nth _ 0 _)). intros i j Hij Hj.
    assert (L : length (concat (map (fun p => repeat p nf) porder)) = (length porder * nf)%nat) by (apply concat_len; intros; apply repeat_length).
    assert (E : forall k, (k < length porder * nf)%nat -> nth_error (concat (map (fun p => repeat p nf) porder)) k = Some (nth (k / nf) porder 0)).
    { intros k Hk. rewrite (nth_error_nth' _ 0) by (rewrite L; exact Hk). f_equal. apply nth_concat_repeat. exact Hk. }
    exists (i * nf)%nat. split.
    + rewrite E by nia. rewrite Nat.div_mul by lia. reflexivity.
    + intros k Hk. rewrite E by nia. intros C. injection C as C.
      assert (k / nf <= i)%nat by (apply Nat.div_le_upper_bound; lia).
      apply (proj1 (NoDup_nth porder 0) N) in C; lia.
Qed.

(** The polarization of a window. *)
Lemma window_pol_polf o fp w p : obj_ok o -> flex_spw_polarization_array o = Some fp ->
  (window_pol o w p <-> In w (spw_array (fo_uvd o)) /\ p = polf (spw_array (fo_uvd o)) fp w).
Proof.
  intros [(_ & N & _) L] Ef. specialize (L fp Ef). unfold polf. split.
  - intros (fp' & k & Ef' & Hk & Ew & Ep). rewrite Ef in Ef'. injection Ef' as <-.
    assert (Hin : In w (spw_array (fo_uvd o))) by (rewrite <- Ew; apply nth_In, Hk). split; [exact Hin|].
    destruct (index_of Z.eqb w (spw_array (fo_uvd o))) as [i|] eqn:E.
    + apply (index_of_Some Z.eqb Z.eqb_eq 0) in E. destruct E as (Hi & Ei & _).
      assert (i = k) by (apply (proj1 (NoDup_nth _ 0) N); try assumption; congruence). subst i.
      symmetry. apply nth_error_nth. exact Ep.
    + apply (index_of_None Z.eqb Z.eqb_eq) in E. contradiction.
  - intros [Hin ->]. destruct (index_of Z.eqb w (spw_array (fo_uvd o))) as [i|] eqn:E.
    + apply (index_of_Some Z.eqb Z.eqb_eq 0) in E. destruct E as (Hi & Ei & _).
      exists fp, i. split; [exact Ef|]. split; [exact Hi|]. split; [exact Ei|]. apply nth_error_nth'. lia.
    + apply (index_of_None Z.eqb Z.eqb_eq) in E. contradiction.
Qed.

Lemma firstn_nth {A} n (l : list A) i d : (i < n)%nat -> nth i (firstn n l) d = nth i l d.
Proof.
  revert n i. induction l as [|a l IH]; intros n i H; [rewrite firstn_nil; reflexivity|].
  destruct n as [|n]; [lia|]. destruct i as [|i]; [reflexivity|]. simpl. apply IH. lia.
Qed.

(** The reshape. *)
Lemma combine_windows_ok o fp sets porder F :
  obj_ok o -> flex_spw_polarization_array o = Some fp -> porder <> [] -> NoDup porder -> (0 < length F)%nat ->
  let u := fo_uvd o in let flex := flex_spw_id_array u in
  pol_array_check o fp = concat (map (fun p => repeat p (length F)) porder) ->
  first_spw_array sets u = concat (map (fun _ => F) porder) ->
  (forall w w', In w flex -> In w' flex -> polf (spw_array u) fp w = polf (spw_array u) fp w' -> first_spw sets w = first_spw sets w' -> w = w') ->
  (forall w w', In w flex -> In w' flex -> first_spw sets w = first_spw sets w' ->
     take 0 (freq_array u) (nonzero (Z.eqb w) flex) = take 0 (freq_array u) (nonzero (Z.eqb w') flex) /\
     take 0 (channel_width u) (nonzero (Z.eqb w) flex) = take 0 (channel_width u) (nonzero (Z.eqb w') flex)) ->
  exists o', combine_windows (length porder) (length F) sets o fp = Ok o' /\ flex_pol_removed o o' /\
    polarization_array (fo_uvd o') = porder /\ flex_spw_id_array (fo_uvd o') = F /\
    freq_array (fo_uvd o') = firstn (length F) (freq_array u) /\ channel_width (fo_uvd o') = firstn (length F) (channel_width u).
Proof.
  intros Hok Ef Hpo HN HF u flex Hpol Hfst Hinj Hsame. pose proof Hok as [((Lw & Lx) & Nsp & Hm) Lfp]. fold u flex in Lw, Lx, Nsp, Hm.
  specialize (Lfp fp Ef). fold u in Lfp. set (nf := length F) in *. set (pf := polf (spw_array u) fp) in *.
  assert (Hp' : map pf flex = concat (map (fun p => repeat p nf) porder)) by exact Hpol.
  assert (Hf' : map (first_spw sets) flex = concat (map (fun _ => F) porder)) by exact Hfst.
  pose proof (lay_length flex pf porder F Hp') as LL. fold nf in LL.
  assert (P0 : (0 < length porder)%nat) by (destruct porder; [congruence|simpl; lia]).
  unfold combine_windows. fold u. rewrite Hpol, Hfst.
  destruct (Nat.eqb_spec (nf * length porder) (length (freq_array u))) as [E|E]; [|exfalso; rewrite Lx in LL; unfold u in *; lia].
  cbn [negb]. eexists. split; [reflexivity|].
  assert (FF : firstn nf (concat (map (fun _ => F) porder)) = F).
  { destruct porder as [|p po]; [congruence|]. simpl. unfold nf. rewrite firstn_app, Nat.sub_diag, firstn_all, firstn_O. apply app_nil_r. }
  assert (AP : take 0 (concat (map (fun p => repeat p nf) porder)) (first_positions (concat (map (fun p => repeat p nf) porder))) = porder).
  { eapply appearance_unique; [apply first_positions_spec | apply blocks_appearance; assumption]. }
  split; [|cbn [fo_uvd set_axes polarization_array flex_spw_id_array freq_array channel_width]; auto].
  assert (LE : (nf <= length (freq_array u))%nat) by (rewrite <- E; nia).
  assert (LFn : length (firstn nf (freq_array u)) = nf) by (rewrite firstn_length; lia).
  assert (LWn : length (firstn nf (channel_width u)) = nf) by (rewrite firstn_length; lia).
  assert (Dv : forall c, (c < length (freq_array u))%nat -> (c / nf < length porder)%nat /\ (c mod nf < nf)%nat /\ c = (c mod nf + nf * (c / nf))%nat).
  { intros c Hc. apply (lay_div flex pf (first_spw sets) porder F); try assumption. lia. }
  assert (WP : forall w p, window_pol o w p <-> In w (spw_array u) /\ p = pf w) by (intros w p; apply window_pol_polf; assumption).
  unfold flex_pol_removed, set_axes. cbn [fo_uvd flex_spw_polarization_array polarization_array].
  split; [reflexivity|]. split; [|split; [|split]].
  - split; [|intros ? C; discriminate C]. unfold freq_axis_ok, freq_shaped.
    cbn [fo_uvd freq_array channel_width flex_spw_id_array spw_array]. rewrite FF, LFn, LWn. split; [split; reflexivity|].
    pose proof (first_positions_spec (concat (map (fun _ => F) porder))) as AO. split; [apply (appearance_NoDup _ _ AO)|].
    intros w. rewrite (proj1 AO w). split.
    + intros H. destruct porder as [|p po]; [congruence|]. simpl. apply in_app_iff. left. exact H.
    + intros H. apply in_concat in H. destruct H as (x & Hx & H). apply in_map_iff in Hx. destruct Hx as (q & <- & _). exact H.
  - rewrite AP. exact HN.
  - repeat split.
  - exists (fun c => ((c mod nf)%nat, (c / nf)%nat)). split; [|split; [|split]].
    + intros c Hc. unfold Nfreqs, Npols in *. cbn [fo_uvd freq_array polarization_array channel_width data_array flag_array nsample_array].
      fold u in Hc |- *. destruct (Dv c Hc) as (A & B & C). rewrite LFn, AP. split; [exact B|]. split; [exact A|]. split.
      * split; [|split].
        -- cbn [freq_array]. rewrite firstn_nth by exact B. symmetry. apply (lay_values flex pf (first_spw sets) porder F); try assumption; try lia.
           intros w w' H1 H2 H3. apply (Hsame w w' H1 H2 H3).
        -- cbn [channel_width]. rewrite firstn_nth by exact B. symmetry. apply (lay_values flex pf (first_spw sets) porder F); try assumption; try lia.
           intros w w' H1 H2 H3. apply (Hsame w w' H1 H2 H3).
        -- intros i. cbn [data_array flag_array nsample_array]. unfold pol_split. rewrite <- C. auto.
      * apply WP. split; [apply Hm; apply nth_In; lia|]. symmetry. apply (lay_pol flex pf porder F); try assumption. lia.
    + intros c c' Hc Hc' E2. destruct (Dv c Hc) as (A & B & C), (Dv c' Hc') as (A' & B' & C'). injection E2 as E3 E4. rewrite C, C', E3, E4. reflexivity.
    + exists (first_spw sets). cbn [fst fo_uvd flex_spw_id_array]. split.
      * intros c Hc. unfold Nfreqs in Hc. fold u flex in Hc |- *. rewrite FF. symmetry. apply (lay_fst flex pf (first_spw sets) porder F); try assumption. lia.
      * intros w w' p H1 H2 E2. apply WP in H1, H2. destruct H1 as [H1 ->], H2 as [H2 E3]. apply Hinj; try assumption; apply Hm; assumption.
    + intros j k Hj Hk. unfold Nfreqs, Npols in *. cbn [fo_uvd freq_array polarization_array] in Hj, Hk. fold u in Hj. rewrite LFn in Hj. rewrite AP in Hk.
      left. exists (j + nf * k)%nat. destruct (divmod_at nf j k Hj) as [D M]. split; [fold u; nia|]. rewrite D, M. reflexivity.
Qed.

(** Rearranging the channels first changes nothing about the outcome. *)
Lemma removed_after_reorder o o1 o2 sigma : obj_ok o -> freqs_rearranged sigma o o1 ->
  (forall w p, window_pol o1 w p <-> window_pol o w p) -> flex_pol_removed o1 o2 -> flex_pol_removed o o2.
Proof.
  intros Hok (P & L1 & _ & HC & _ & HO) HW (R1 & R2 & R3 & R4 & place & S & D & M & X).
  destruct (perm_seq_facts _ _ P) as (Ls & Ns & Bs & Is).
  split; [exact R1|]. split; [exact R2|]. split; [exact R3|]. split.
  { destruct HO as (B & _ & O). destruct R4 as (B' & O'). unfold off_freq_pol_same, same_blt_axis in *.
    repeat match goal with H : _ /\ _ |- _ => destruct H end. repeat split; congruence. }
  set (u := fo_uvd o) in *. set (u1 := fo_uvd o1) in *. set (N := length (freq_array u)) in *.
  assert (Pos : forall c, (c < N)%nat -> exists q, index_of Nat.eqb c sigma = Some q /\ (q < N)%nat /\ nth q sigma 0%nat = c).
  { intros c Hc. destruct (index_of Nat.eqb c sigma) as [q|] eqn:E.
    - apply (index_of_Some Nat.eqb Nat.eqb_eq 0%nat) in E. destruct E as (A & B & _). exists q. split; [reflexivity|]. split; [lia|exact B].
    - apply (index_of_None Nat.eqb Nat.eqb_eq) in E. exfalso. apply E. apply Is. exact Hc. }
  set (pos := fun c => match index_of Nat.eqb c sigma with Some q => q | None => O end).
  assert (HP : forall c, (c < N)%nat -> (pos c < N)%nat /\ nth (pos c) sigma 0%nat = c).
  { intros c Hc. unfold pos. destruct (Pos c Hc) as (q & -> & A & B). auto. }
  exists (fun c => place (pos c)). split; [|split; [|split]].
  - intros c Hc. change (Nfreqs (fo_uvd o)) with N in Hc. destruct (HP c Hc) as [A B]. specialize (S (pos c)). cbn zeta in S.
    destruct (place (pos c)) as [j k]. destruct S as (S1 & S2 & (S3 & S4 & S5) & S6); [unfold Nfreqs; fold u1; lia|].
    specialize (HC (pos c) A). rewrite B in HC. destruct HC as (C1 & C2 & C3 & C4). fold u1 in S3, S4, S5, S6.
    unfold sample_copied. fold u.
    split; [exact S1|]. split; [exact S2|]. split.
    + split; [congruence|]. split; [congruence|]. intros i. destruct (S5 i) as (T1 & T2 & T3), (C4 i 0%nat) as (V1 & V2 & V3). repeat split; congruence.
    + apply HW. rewrite <- C3. exact S6.
  - intros c c' Hc Hc' E. change (Nfreqs (fo_uvd o)) with N in Hc, Hc'. destruct (HP c Hc) as [A B], (HP c' Hc') as [A' B'].
    rewrite <- B, <- B'. f_equal. apply D; try (unfold Nfreqs; fold u1; lia). exact E.
  - destruct M as (f & M1 & M2). exists f. split.
    + intros c Hc. change (Nfreqs (fo_uvd o)) with N in Hc. destruct (HP c Hc) as [A B]. rewrite M1 by (unfold Nfreqs; fold u1; lia).
      specialize (HC (pos c) A). rewrite B in HC. destruct HC as (_ & _ & C3 & _). fold u1 u. rewrite C3. reflexivity.
    + intros w w' p H1 H2. apply M2 with (p := p); apply HW; assumption.
  - intros j k Hj Hk. destruct (X j k Hj Hk) as [(q & Hq & E)|H]; [|right; exact H]. left.
    unfold Nfreqs in Hq. fold u1 in Hq. rewrite L1 in Hq. exists (nth q sigma 0%nat). split; [apply Bs; exact Hq|].
    destruct (HP (nth q sigma 0%nat) (Bs q Hq)) as [A B]. assert (pos (nth q sigma 0%nat) = q).
    { apply (proj1 (NoDup_nth sigma 0%nat) Ns); try lia. }
    congruence.
Qed.
