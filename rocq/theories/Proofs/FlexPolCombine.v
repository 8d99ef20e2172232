(** remove_flex_pol with the windows combined. *)
From Coq Require Import List ZArith Bool Arith Lia Sorted Permutation.
From Verif Require Import Lib.Py Lib.Np Lib.Cube Lib.Sorting Spec.UVDataSpec Spec.FreqSpec Spec.FlexPolSpec
  Model.UVData Model.Freq Model.PhaseCenter Model.FlexPol Proofs.AccessProofs Proofs.FreqProofs Proofs.FreqReorder
  Proofs.FlexPolSets Proofs.FlexPolLayout Proofs.FlexPolProofs.
Import ListNotations.
Notation length := List.length.
Open Scope Z_scope.

Definition total (l : list nat) : nat := fold_right plus O l.

Lemma total_app a b : total (a ++ b) = (total a + total b)%nat.
Proof. induction a as [|x a IH]; simpl; [reflexivity|]. unfold total in *. lia. Qed.

Lemma total_perm a b : Permutation a b -> total a = total b.
Proof. induction 1; simpl; unfold total in *; lia. Qed.

Lemma total_const {A} (l : list A) (f : A -> nat) c : (forall x, In x l -> f x = c) -> total (map f l) = (length l * c)%nat.
Proof. induction l as [|x l IH]; intros H; simpl; [reflexivity|]. rewrite (H x) by (left; reflexivity). rewrite IH by (intros; apply H; right; assumption). reflexivity. Qed.

Lemma total_concat {A B} (f : B -> nat) (g : A -> list B) l : total (map f (concat (map g l))) = total (map (fun x => total (map f (g x))) l).
Proof. induction l as [|x l IH]; simpl; [reflexivity|]. rewrite map_app, total_app, IH. reflexivity. Qed.

Lemma total_scale {A} (f : A -> nat) n l : total (map (fun x => (n * f x)%nat) l) = (n * total (map f l))%nat.
Proof. induction l as [|x l IH]; simpl; [lia|]. rewrite IH. lia. Qed.

Lemma count_total flex ws : NoDup ws -> (forall w, In w flex -> In w ws) -> length flex = total (map (count_occ Z.eq_dec flex) ws).
Proof.
  intros N. induction flex as [|x l IH]; intros H.
  - simpl. symmetry. rewrite (total_const ws _ O) by reflexivity. lia.
  - simpl length. rewrite IH by (intros; apply H; right; assumption). clear IH.
    assert (Hx : In x ws) by (apply H; left; reflexivity). clear H.
    induction ws as [|w ws IH]; [destruct Hx|]. apply NoDup_cons_iff in N. destruct N as [Nw N].
    cbn [map]. change (total (?a :: ?l)) with (a + total l)%nat. cbn [count_occ].
    destruct (Z.eq_dec x w) as [->|C].
    + assert (E : map (fun y => count_occ Z.eq_dec (w :: l) y) ws = map (count_occ Z.eq_dec l) ws).
      { apply map_ext_in. intros y Hy. cbn [count_occ]. destruct (Z.eq_dec w y) as [->|]; [contradiction|reflexivity]. }
      cbn [count_occ] in E. rewrite E. lia.
    + destruct Hx as [->|Hx]; [congruence|]. specialize (IH N Hx). cbn [count_occ] in IH. lia.
Qed.

Lemma nonzero_count w l : length (nonzero (Z.eqb w) l) = count_occ Z.eq_dec l w.
Proof.
  pose proof (take_nonzero_filter 0 (Z.eqb w) l) as E. rewrite filter_eqb_repeat in E.
  apply (f_equal (@length Z)) in E. rewrite take_length, repeat_length in E. exact E.
Qed.

Lemma sorted_window_length u w : length (fst (sorted_window u w)) = count_occ Z.eq_dec (flex_spw_id_array u) w.
Proof.
  unfold sorted_window. cbn [fst]. rewrite !take_length, (Permutation_length (argsortZ_perm _)), seq_length, take_length.
  apply nonzero_count.
Qed.

Lemma concat_map_repeat {A B} (p : B) (f : A -> nat) l : concat (map (fun x => repeat p (f x)) l) = repeat p (total (map f l)).
Proof. induction l as [|x l IH]; simpl; [reflexivity|]. rewrite IH, <- repeat_app. reflexivity. Qed.

Lemma map_repeat {A B} (f : A -> B) x n : map f (repeat x n) = repeat (f x) n.
Proof. induction n as [|n IH]; simpl; congruence. Qed.

(** [F] blocks for each polarization *)
Definition laid_out (pf ff : Z -> Z) (flex porder F : list Z) : Prop :=
  map pf flex = concat (map (fun p => repeat p (length F)) porder) /\ map ff flex = concat (map (fun _ => F) porder).

Section Combine.
Variables (o : freqobj) (fp : list Z) (sets : list wset).
Let u := fo_uvd o.
Let flex := flex_spw_id_array u.
Let ws := take 0 flex (first_positions flex).
Let pf := polf (spw_array u) fp.
Let n_pols := length (uniqueZ fp).
Let n_freqs := total (map (fun s => length (ws_freqs s)) sets).
Hypothesis Hok : obj_ok o.
Hypothesis Hne : (0 < length (freq_array u))%nat.
Hypothesis Ef : flex_spw_polarization_array o = Some fp.
Hypothesis I : sets_inv (sorted_window u) pf ws sets.
Hypothesis Full : forall s, In s sets -> length (ws_spws s) = n_pols.

Lemma ws_facts : NoDup ws /\ forall w, In w ws <-> In w flex.
Proof. pose proof (first_positions_spec flex) as A. split; [apply (appearance_NoDup _ _ A) | apply (proj1 A)]. Qed.

Lemma pf_upols w : In w flex -> In (pf w) (uniqueZ fp).
Proof.
  intros H. apply uniqueZ_In, (fp_mem o fp Hok Ef). exists w. split; [|reflexivity]. destruct Hok as [(_ & _ & M) _]. apply M. exact H.
Qed.

Lemma upols_pf p : In p (uniqueZ fp) -> exists w, In w flex /\ pf w = p.
Proof.
  intros H. apply (proj1 (uniqueZ_In _ _)) in H. apply (fp_mem o fp Hok Ef) in H. destruct H as (w & Hw & E). exists w. split; [|symmetry; exact E].
  destruct Hok as [(_ & _ & M) _]. apply M. exact Hw.
Qed.

Lemma flex_ne : flex <> [].
Proof. destruct Hok as [((_ & L) & _) _]. fold u flex in L. intros C. rewrite C in L. simpl in L. lia. Qed.

Lemma n_pols_pos : (0 < n_pols)%nat.
Proof.
  unfold n_pols. pose proof flex_ne as Nf. destruct flex as [|w l] eqn:E; [congruence|].
  assert (H : In (pf w) (uniqueZ fp)) by (apply pf_upols; rewrite E; left; reflexivity).
  destruct (uniqueZ fp); [destruct H | simpl; lia].
Qed.

Lemma set_count s w : In s sets -> In w (ws_spws s) -> count_occ Z.eq_dec flex w = length (ws_freqs s).
Proof.
  intros Hs Hw. destruct (in_set _ _ _ _ I s w Hs Hw) as [_ E]. unfold flex. rewrite <- sorted_window_length, <- E. reflexivity.
Qed.

Lemma channel_count : length flex = (n_pols * n_freqs)%nat.
Proof.
  destruct ws_facts as [Nw Mw]. rewrite (count_total flex ws Nw) by (intros; apply Mw; assumption).
  rewrite <- (total_perm _ _ (Permutation_map (count_occ Z.eq_dec flex) (all_windows_perm _ _ _ _ I Nw))).
  rewrite total_concat. unfold n_freqs. rewrite <- total_scale. f_equal. apply map_ext_in. intros s Hs.
  rewrite (total_const _ _ (length (ws_freqs s))); [rewrite (Full s Hs); reflexivity|]. intros w Hw. apply (set_count s w Hs Hw).
Qed.

(** The windows are already in place. *)
Lemma laid_out_already :
  reorder_spws n_pols (uniqueZ fp) (map pf flex) (map (first_spw sets) flex) = false ->
  exists porder F, porder <> [] /\ NoDup porder /\ length porder = n_pols /\ length F = n_freqs /\
    laid_out pf (first_spw sets) flex porder F.
Proof.
  unfold reorder_spws. intros H. apply orb_false_iff in H. destruct H as [H1 H2].
  apply negb_false_iff, Nat.eqb_eq in H1. set (pfl := map pf flex) in *. set (firsts := map (first_spw sets) flex) in *.
  pose proof n_pols_pos as NP. pose proof flex_ne as Nf.
  assert (Npfl : pfl <> []) by (unfold pfl; destruct flex; [congruence|discriminate]).
  assert (Mem : forall p, In p pfl <-> In p (uniqueZ fp)).
  { intros p. unfold pfl. rewrite in_map_iff. split.
    - intros (w & <- & Hw). apply pf_upols, Hw.
    - intros Hp. destruct (upols_pf p Hp) as (w & Hw & E). eauto. }
  assert (C : contiguous pfl).
  { apply (breaks_unique pfl Npfl). rewrite H1.
    replace (length (uniqueZ pfl)) with n_pols; [lia|]. unfold n_pols. apply Permutation_length, NoDup_Permutation; try apply uniqueZ_NoDup.
    intros p. rewrite (uniqueZ_In p pfl). symmetry. apply Mem. }
  destruct (contiguous_blocks pfl C) as (porder & Np & Mp & Ep).
  set (F := where_eq (hd 0 (uniqueZ fp)) pfl firsts).
  assert (WE : forall p, In p porder -> where_eq p pfl firsts = F).
  { intros p Hp. apply Mp, Mem in Hp. unfold F. destruct (uniqueZ fp) as [|q qs] eqn:EU; [destruct Hp|]. cbn [hd tl] in *.
    destruct Hp as [->|Hp]; [reflexivity|].
    destruct (listZ_eqb (where_eq p pfl firsts) (where_eq q pfl firsts)) eqn:E; [apply listZ_eqb_eq; exact E|].
    exfalso. assert (T : existsb (fun pol => negb (listZ_eqb (where_eq pol pfl firsts) (where_eq q pfl firsts))) qs = true).
    { apply existsb_exists. exists p. rewrite E. auto. }
    congruence. }
  destruct (equal_blocks (count_occ Z.eq_dec pfl) porder firsts F Np) as [E1 E2].
  - rewrite <- Ep. unfold firsts, pfl. rewrite !map_length. reflexivity.
  - intros p Hp. rewrite <- Ep. apply WE, Hp.
  - assert (LP : length porder = n_pols).
    { unfold n_pols. apply Permutation_length, NoDup_Permutation; [exact Np | apply uniqueZ_NoDup |]. intros p. rewrite Mp. apply Mem. }
    assert (E3 : pfl = concat (map (fun p => repeat p (length F)) porder)).
    { rewrite Ep at 1. f_equal. apply map_ext_in. intros p Hp. rewrite (E2 p Hp). reflexivity. }
    exists porder, F. split; [|split; [exact Np|split; [exact LP|split]]].
    + intros E. rewrite E in LP. simpl in LP. lia.
    + pose proof channel_count as CC. assert (L : length pfl = (n_pols * length F)%nat).
      { rewrite E3, <- LP. apply concat_len. intros. apply repeat_length. }
      unfold pfl in L. rewrite map_length in L. nia.
    + split; [exact E3 | exact E1].
Qed.

(** The windows are put in order of polarization. *)
Lemma laid_out_grouped idx flex1 worder :
  spw_order_of (spw_array u) (uniqueZ fp) sets = Ok idx ->
  worder = map (fun i => nth (Z.to_nat i) (spw_array u) 0) idx -> grouped flex flex1 worder ->
  exists porder F, porder <> [] /\ NoDup porder /\ length porder = n_pols /\ length F = n_freqs /\
    laid_out pf (first_spw sets) flex1 porder F.
Proof.
  intros HI HWo HG. destruct ws_facts as [Nw Mw]. pose proof n_pols_pos as NP.
  unfold spw_order_of in HI. set (porder := if forallb _ (uniqueZ fp) then _ else _) in HI.
  assert (PP : Permutation porder (uniqueZ fp)).
  { unfold porder. destruct (forallb _ _); [|reflexivity]. apply take_perm.
    rewrite <- (map_length Z.abs (uniqueZ fp)). apply argsortZ_perm. }
  assert (Np : NoDup porder) by (apply (Permutation_NoDup (Permutation_sym PP)), uniqueZ_NoDup).
  assert (LP : length porder = n_pols) by (apply Permutation_length, PP).
  exists porder, (concat (map (fun s => repeat (ws_first s) (length (ws_freqs s))) sets)).
  split; [intros E; rewrite E in LP; simpl in LP; lia|]. split; [exact Np|]. split; [exact LP|].
  assert (LF : length (concat (map (fun s => repeat (ws_first s) (length (ws_freqs s))) sets)) = n_freqs).
  { unfold n_freqs. clear. induction sets as [|s l IH]; simpl; [reflexivity|]. rewrite app_length, repeat_length, IH. reflexivity. }
  split; [exact LF|].
  set (wsel := fun ps : Z * wset => nth (match index_of Z.eqb (fst ps) (ws_pols (snd ps)) with Some i => i | None => O end) (ws_spws (snd ps)) 0).
  assert (HS : forall p s, In s sets -> index_of Z.eqb p (ws_pols s) <> None -> In (wsel (p, s)) (ws_spws s) /\ pf (wsel (p, s)) = p).
  { intros p s Hs H. unfold wsel. cbn [fst snd]. destruct (index_of Z.eqb p (ws_pols s)) as [i|] eqn:E; [|congruence].
    apply (index_of_Some Z.eqb Z.eqb_eq 0) in E. destruct E as (A & B & _). rewrite (si_pols _ _ _ _ I s Hs) in A, B.
    rewrite map_length in A. rewrite (nth_map pf _ _ 0 0 A) in B. split; [apply nth_In, A | exact B]. }
  set (pairs := concat (map (fun p => map (pair p) sets) porder)) in HI.
  assert (HW2 : worder = map wsel pairs /\ forall ps, In ps pairs -> index_of Z.eqb (fst ps) (ws_pols (snd ps)) <> None).
  { rewrite HWo. clear HG HWo. apply mapM_Ok_Forall2 in HI. clear -HI. induction HI as [|ps i ps' is' H HF IH]; [split; [reflexivity|intros ? []]|].
    destruct IH as [IH1 IH2]. destruct (index_of Z.eqb (fst ps) (ws_pols (snd ps))) as [k|] eqn:E; [|discriminate].
    destruct (index_of Z.eqb (nth k (ws_spws (snd ps)) 0) (spw_array u)) as [q|] eqn:E2; [|discriminate]. injection H as <-.
    split; [|intros x [<-|Hx]; [congruence | apply IH2, Hx]]. cbn [map]. rewrite IH1. f_equal.
    apply (index_of_Some Z.eqb Z.eqb_eq 0) in E2. rewrite Nat2Z.id. unfold wsel. rewrite E. apply E2. }
  destruct HW2 as [EW HI2].
  assert (Sel : forall p s, In p porder -> In s sets -> In (wsel (p, s)) (ws_spws s) /\ pf (wsel (p, s)) = p).
  { intros p s Hp Hs. apply HS; [exact Hs|]. apply (HI2 (p, s)). apply in_concat. exists (map (pair p) sets).
    split; [apply in_map_iff; eauto | apply in_map, Hs]. }
  assert (EF : flex1 = concat (map (fun p => concat (map (fun s => repeat (wsel (p, s)) (length (ws_freqs s))) sets)) porder)).
  { rewrite HG, EW. unfold pairs. clear HI HI2 EW HG HWo PP Np LP.
    induction porder as [|p l IH]; [reflexivity|]. cbn [map concat]. rewrite !map_app, concat_app, IH by (intros; apply Sel; [right|]; assumption). f_equal.
    rewrite !map_map. f_equal. apply map_ext_in. intros s Hs. f_equal. apply set_count; [exact Hs|]. apply (Sel p s); [left; reflexivity | exact Hs]. }
  split.
  - rewrite EF, LF, concat_map, map_map. f_equal. apply map_ext_in. intros p Hp. rewrite concat_map, map_map.
    unfold n_freqs. rewrite <- concat_map_repeat. f_equal. apply map_ext_in. intros s Hs. rewrite map_repeat. f_equal. apply (Sel p s Hp Hs).
  - rewrite EF, concat_map, map_map. f_equal. apply map_ext_in. intros p Hp. rewrite concat_map, map_map. f_equal.
    apply map_ext_in. intros s Hs. rewrite map_repeat. f_equal. apply (first_spw_set _ _ _ _ I); [exact Hs | apply (Sel p s Hp Hs)].
Qed.

Lemma flex1_mem o1 sigma : freqs_rearranged sigma o o1 -> forall w, In w (flex_spw_id_array (fo_uvd o1)) -> In w flex.
Proof.
  intros (P & L1 & (_ & Lx1) & HC & _) w Hw. destruct (In_nth _ _ 0 Hw) as (j & Hj & <-).
  destruct (perm_seq_facts _ _ P) as (_ & _ & Bs & _). destruct Hok as [((_ & Lx) & _) _].
  destruct (HC j ltac:(lia)) as (_ & _ & -> & _). apply nth_In. fold u flex in Lx |- *. rewrite Lx. apply Bs. lia.
Qed.

(** Once the windows are laid out they can be combined. *)
Lemma combine_laid_out o1 fp1 sigma porder F :
  obj_ok o1 -> freqs_rearranged sigma o o1 -> (forall w p, window_pol o1 w p <-> window_pol o w p) ->
  flex_spw_polarization_array o1 = Some fp1 ->
  porder <> [] -> NoDup porder -> length porder = n_pols -> length F = n_freqs ->
  let u1 := fo_uvd o1 in let flex1 := flex_spw_id_array u1 in
  laid_out pf (first_spw sets) flex1 porder F ->
  (forall w w', In w ws -> In w' ws -> sorted_window u w = sorted_window u w' ->
     take 0 (freq_array u1) (nonzero (Z.eqb w) flex1) = take 0 (freq_array u1) (nonzero (Z.eqb w') flex1) /\
     take 0 (channel_width u1) (nonzero (Z.eqb w) flex1) = take 0 (channel_width u1) (nonzero (Z.eqb w') flex1)) ->
  exists o', combine_windows n_pols n_freqs sets o1 fp1 = Ok o' /\ flex_pol_removed o o'.
Proof.
  intros Hok1 HR HW Ef1 Hpo Np LP LF u1 flex1 [HL1 HL2] HS. destruct ws_facts as [Nw Mw].
  pose proof channel_count as CC. pose proof (flex1_mem o1 sigma HR) as M1.
  assert (Hw1 : forall w, In w flex1 -> In w ws) by (intros w Hw; apply Mw, M1, Hw).
  assert (PF : forall w, In w flex1 -> polf (spw_array u1) fp1 w = pf w).
  { intros w Hw. assert (W : window_pol o1 w (polf (spw_array u1) fp1 w)).
    { apply (window_pol_polf o1 fp1); try assumption. split; [|reflexivity]. destruct Hok1 as [(_ & _ & M) _]. apply M, Hw. }
    apply HW, (window_pol_polf o fp) in W; try assumption. apply W. }
  destruct (combine_windows_ok o1 fp1 sets porder F) as (o' & E & R & _); try assumption.
  - destruct Hok as [((_ & Lx) & _) _]. fold u flex in Lx. nia.
  - fold u1 flex1. transitivity (map pf flex1); [|exact HL1]. unfold pol_array_check. fold u1 flex1. apply map_ext_in. exact PF.
  - intros w w' H H' E1 E2. fold u1 flex1 in H, H', E1. rewrite !PF in E1 by assumption.
    apply (key_pol_inj _ _ _ _ I w w'); try (apply Hw1; assumption); try assumption.
    apply (first_spw_key _ _ _ _ I); try (apply Hw1; assumption). exact E2.
  - intros w w' H H' E. fold u1 flex1 in H, H' |- *. apply HS; try (apply Hw1; assumption).
    apply (first_spw_key _ _ _ _ I); try (apply Hw1; assumption). exact E.
  - exists o'. rewrite <- LP, <- LF. split; [exact E|]. apply (removed_after_reorder o o1 o' sigma); assumption.
Qed.

(** No need to sort the channels: the channels of equivalent windows are listed in the same order. *)
Lemma same_without_sort : reorder_channels u sets = false -> forall w w', In w ws -> In w' ws -> sorted_window u w = sorted_window u w' ->
  take 0 (freq_array u) (nonzero (Z.eqb w) flex) = take 0 (freq_array u) (nonzero (Z.eqb w') flex) /\
  take 0 (channel_width u) (nonzero (Z.eqb w) flex) = take 0 (channel_width u) (nonzero (Z.eqb w') flex).
Proof.
  intros H. destruct ws_facts as [Nw Mw].
  assert (G : forall s w, In s sets -> In w (ws_spws s) ->
    take 0 (freq_array u) (nonzero (Z.eqb (ws_first s)) flex) = take 0 (freq_array u) (nonzero (Z.eqb w) flex) /\
    take 0 (channel_width u) (nonzero (Z.eqb (ws_first s)) flex) = take 0 (channel_width u) (nonzero (Z.eqb w) flex)).
  { intros s w Hs Hw. unfold ws_first. destruct (ws_spws s) as [|v l] eqn:E; [destruct Hw|]. cbn [hd].
    destruct Hw as [->|Hw]; [auto|]. destruct (same_channels u (ws_first s) w) eqn:S.
    - unfold same_channels, ws_first in S. rewrite E in S. cbn [hd] in S. apply andb_prop in S. destruct S as [S1 S2].
      apply listZ_eqb_eq in S1, S2. auto.
    - exfalso. assert (T : reorder_channels u sets = true); [|congruence].
      apply existsb_exists. exists s. split; [exact Hs|]. apply existsb_exists. exists w. rewrite E, S. auto. }
  intros w w' Hw Hw' E. destruct (set_of _ _ _ _ I w Hw) as (s & Hs & Ks & Is). destruct (set_of _ _ _ _ I w' Hw') as (t & Ht & Kt & It).
  assert (s = t) by (apply (set_unique _ _ _ _ I); try assumption; congruence). subst t.
  destruct (G s w Hs Is), (G s w' Hs It). split; congruence.
Qed.

(** The whole of it. *)
Lemma combined_removed so co o1 fp1 :
  let rc := reorder_channels u sets in
  let rs := reorder_spws n_pols (uniqueZ fp) (pol_array_check o fp) (first_spw_array sets u) in
  distinct_channels u ->
  (if rs then exists idx, spw_order_of (spw_array u) (uniqueZ fp) sets = Ok idx /\ so = Some (SpwIndex idx) else so = None) ->
  co = (if rc then Some (ChanFreq false) else None) ->
  reorder_freqs so co None o = Ok o1 -> flex_spw_polarization_array o1 = Some fp1 ->
  exists o', combine_windows n_pols n_freqs sets o1 fp1 = Ok o' /\ flex_pol_removed o o'.
Proof.
  intros rc rs D HSO HCO HR Ef1. destruct ws_facts as [Nw Mw].
  destruct (rf_moves so co None o o1 Hok HR) as (sigma & R & Hok1 & HW & _ & _).
  assert (NI : forall idx, co <> Some (ChanIndex idx)) by (intros idx; rewrite HCO; destruct rc; discriminate).
  assert (HL : exists porder F, porder <> [] /\ NoDup porder /\ length porder = n_pols /\ length F = n_freqs /\
    laid_out pf (first_spw sets) (flex_spw_id_array (fo_uvd o1)) porder F).
  { destruct rs eqn:ERS.
    - destruct HSO as (idx & HI & HS). destruct (rf_grouped so co None o o1 Hok HR _ HS eq_refl NI) as (worder & _ & HWo & HG).
      apply (laid_out_grouped idx _ worder); assumption.
    - destruct (rf_stay so co None o o1 Hok HR (or_introl HSO) NI) as [EF _]. rewrite EF. apply laid_out_already. exact ERS. }
  destruct HL as (porder & F & H1 & H2 & H3 & H4 & H5).
  assert (HS : forall w w', In w ws -> In w' ws -> sorted_window u w = sorted_window u w' ->
     take 0 (freq_array (fo_uvd o1)) (nonzero (Z.eqb w) (flex_spw_id_array (fo_uvd o1))) = take 0 (freq_array (fo_uvd o1)) (nonzero (Z.eqb w') (flex_spw_id_array (fo_uvd o1))) /\
     take 0 (channel_width (fo_uvd o1)) (nonzero (Z.eqb w) (flex_spw_id_array (fo_uvd o1))) = take 0 (channel_width (fo_uvd o1)) (nonzero (Z.eqb w') (flex_spw_id_array (fo_uvd o1)))).
  { intros w w' Hw Hw' E. destruct rc eqn:ERC.
    - pose proof (rf_sorted so co None o o1 Hok HR false HCO) as S.
      pose proof (windows_sorted o o1 sigma Hok R w D S) as A. pose proof (windows_sorted o o1 sigma Hok R w' D S) as B.
      fold u in A, B. rewrite E, <- B in A. injection A as A1 A2. auto.
    - destruct (rf_keep so co None o o1 Hok HR HCO) as (sigma' & R' & K).
      destruct (windows_kept o o1 sigma' Hok R' w K) as [A1 A2]. destruct (windows_kept o o1 sigma' Hok R' w' K) as [B1 B2].
      destruct (same_without_sort ERC w w' Hw Hw' E) as [C1 C2]. fold u flex in A1, A2, B1, B2. split; congruence. }
  apply (combine_laid_out o1 fp1 sigma porder F); assumption.
Qed.
End Combine.
