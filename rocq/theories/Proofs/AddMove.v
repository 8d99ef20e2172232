(** The first part of __add__: labels, catalogs, and putting the shared labels
    into the same order. *)
From Coq Require Import List ZArith Bool Arith Lia Permutation Sorted.
From Verif Require Import Lib.Py Lib.Np Lib.Cube Lib.Sorting Lib.Dict Spec.UVDataSpec Spec.FreqSpec Spec.PhaseSpec Spec.AddSpec Model.Hdf5
  Model.UVData Model.Reorder Model.Freq Model.PhaseCenter Model.Add
  Proofs.Hdf5Proofs Proofs.FreqProofs Proofs.FreqReorder Proofs.ReorderProofs Proofs.PhaseConsolidate Proofs.AddAxis.
Import ListNotations.
Notation length := List.length.
Open Scope Z_scope.

(** ** Labels as lists *)
Lemma blt_labels_len u : blt_shaped u -> length (blt_labels u) = Nblts u.
Proof. intros (_ & _ & _ & H & _). unfold blt_labels. rewrite combine_length, H. unfold Nblts. lia. Qed.
Lemma blt_labels_nth u i : blt_shaped u -> nth i (blt_labels u) (0, 0) = row_label u i.
Proof. intros (_ & _ & _ & H & _). unfold blt_labels. apply combine_nth. symmetry. exact H. Qed.
Lemma chan_labels_len u : freq_shaped u -> length (chan_labels u) = Nfreqs u.
Proof. intros (_ & H). unfold chan_labels. rewrite combine_length, H. unfold Nfreqs. lia. Qed.
Lemma chan_labels_nth u j : freq_shaped u -> nth j (chan_labels u) (0, 0) = chan_label u j.
Proof. intros (_ & H). unfold chan_labels. apply combine_nth. exact H. Qed.

Lemma distinct_NoDup {L} (d : L) l (f : nat -> L) n : length l = n -> (forall i, nth i l d = f i) -> (distinct n f <-> NoDup l).
Proof.
  intros El E. rewrite (NoDup_nth l d). unfold distinct. rewrite El. split; intros H i j Hi Hj.
  - rewrite !E. apply H; assumption.
  - rewrite <- !E. apply H; assumption.
Qed.
Lemma on_axis_In {L} (d : L) l (f : nat -> L) n x : length l = n -> (forall i, nth i l d = f i) -> (on_axis n f x <-> In x l).
Proof.
  intros El E. unfold on_axis. split.
  - intros (i & Hi & <-). rewrite <- E. apply nth_In. lia.
  - intros H. destruct (In_nth _ _ d H) as (i & Hi & Ex). exists i. rewrite <- E. split; [lia|exact Ex].
Qed.

(** ** The shared channels *)
(** A form of [paired] that is easy to concatenate *)
Definition paired_at {L} (d : L) (la lb both : list L) (ti oi : list nat) : Prop :=
  map (fun i => nth i la d) ti = both /\ map (fun i => nth i lb d) oi = both /\
  Forall (fun i => (i < length la)%nat) ti /\ Forall (fun i => (i < length lb)%nat) oi.

Lemma paired_at_paired {L} (d : L) la lb both ti oi : paired_at d la lb both ti oi -> NoDup both ->
  (forall x, In x both <-> In x la /\ In x lb) -> paired d la lb ti oi.
Proof.
  intros (H1 & H2 & F1 & F2) N I. exists both. split; [exact N|]. split; [exact I|].
  assert (L1 : length ti = length both) by (rewrite <- H1, map_length; reflexivity).
  assert (L2 : length oi = length both) by (rewrite <- H2, map_length; reflexivity).
  split; [exact L1|]. split; [exact L2|]. intros q Hq. rewrite Forall_forall in F1, F2.
  assert (q1 : (q < length ti)%nat) by lia. assert (q2 : (q < length oi)%nat) by lia.
  split; [apply F1, nth_In; lia|]. split.
  - rewrite <- H1. rewrite (nth_map _ ti q 0%nat d) by lia. reflexivity.
  - split; [apply F2, nth_In; lia|]. rewrite <- H2. rewrite (nth_map _ oi q 0%nat d) by lia. reflexivity.
Qed.
Lemma paired_paired_at {L} (d : L) la lb ti oi : paired d la lb ti oi ->
  exists both, paired_at d la lb both ti oi /\ NoDup both /\ (forall x, In x both <-> In x la /\ In x lb).
Proof.
  intros (both & N & I & L1 & L2 & H). exists both. split; [|split; [exact N|exact I]].
  split; [|split; [|split]].
  - apply (nth_ext _ _ d d); [rewrite map_length; exact L1|]. intros q Hq. rewrite map_length in Hq.
    rewrite (nth_map _ ti q 0%nat d) by exact Hq. apply H. lia.
  - apply (nth_ext _ _ d d); [rewrite map_length; exact L2|]. intros q Hq. rewrite map_length in Hq.
    rewrite (nth_map _ oi q 0%nat d) by exact Hq. apply H. lia.
  - apply Forall_forall. intros i Hi. destruct (In_nth _ _ 0%nat Hi) as (q & Hq & <-). apply H. lia.
  - apply Forall_forall. intros i Hi. destruct (In_nth _ _ 0%nat Hi) as (q & Hq & <-). apply H. lia.
Qed.

Section Window.
Variables (u v : uvd) (w : Z).
Hypothesis Su : freq_shaped u.
Hypothesis Sv : freq_shaped v.
Let ma := nonzero (Z.eqb w) (flex_spw_id_array u).
Let mb := nonzero (Z.eqb w) (flex_spw_id_array v).

Lemma window_label x (z : uvd) i : freq_shaped z -> In i (nonzero (Z.eqb w) (flex_spw_id_array z)) ->
  nth i (freq_array z) 0 = x -> nth i (chan_labels z) (0, 0) = (w, x) /\ (i < length (chan_labels z))%nat.
Proof.
  intros Sz Hi E. apply (nonzero_spec 0) in Hi as [Hl Hw]. rewrite chan_labels_nth by exact Sz.
  rewrite chan_labels_len by exact Sz. unfold chan_label. apply Z.eqb_eq in Hw. rewrite <- Hw, E.
  split; [reflexivity|]. destruct Sz as [_ Hz]. unfold Nfreqs. lia.
Qed.

Lemma window_side (z z' : uvd) m ai both : freq_shaped z -> m = nonzero (Z.eqb w) (flex_spw_id_array z) ->
  map (fun i => nth i (take 0 (freq_array z) m) 0) ai = both ->
  Forall (fun i => (i < length (take 0%Z (freq_array z) m))%nat) ai ->
  map (fun i => nth i (chan_labels z) (0, 0)) (take O m ai) = map (pair w) both /\
  Forall (fun i => (i < length (chan_labels z))%nat) (take O m ai).
Proof.
  intros Sz -> E F. rewrite Forall_forall in F. split.
  - rewrite <- E, map_map. unfold take at 1. rewrite map_map. apply map_ext_in. intros a Ha. specialize (F a Ha).
    rewrite take_length in F.
    apply (window_label _ z); [exact Sz|apply nth_In, F|]. rewrite nth_take by exact F. reflexivity.
  - apply Forall_forall. intros i Hi. unfold take in Hi. apply in_map_iff in Hi as (a & <- & Ha). specialize (F a Ha).
    rewrite take_length in F. apply (window_label (nth (nth a (nonzero (Z.eqb w) (flex_spw_id_array z)) 0%nat) (freq_array z) 0) z);
      [exact Sz|apply nth_In, F|reflexivity].
Qed.

Lemma window_freqs_In (z : uvd) f : freq_shaped z ->
  In f (take 0 (freq_array z) (nonzero (Z.eqb w) (flex_spw_id_array z))) <-> In (w, f) (chan_labels z).
Proof.
  intros Sz. unfold take. rewrite in_map_iff. split.
  - intros (i & E & Hi). destruct (window_label f z i Sz Hi E) as [<- Hl]. apply nth_In, Hl.
  - intros H. destruct (In_nth _ _ (0, 0) H) as (i & Hi & E). rewrite chan_labels_nth in E by exact Sz.
    rewrite chan_labels_len in Hi by exact Sz. unfold chan_label in E. injection E as E1 E2. exists i. split; [exact E2|].
    apply (nonzero_spec 0). destruct Sz as [_ Hz]. unfold Nfreqs in Hi. split; [lia|]. apply Z.eqb_eq. auto.
Qed.

Lemma window_paired : exists both,
  paired_at (0, 0) (chan_labels u) (chan_labels v) (map (pair w) both)
    (take O ma (fst (intersect1d Z.eqb Z.leb (take 0 (freq_array u) ma) (take 0 (freq_array v) mb))))
    (take O mb (snd (intersect1d Z.eqb Z.leb (take 0 (freq_array u) ma) (take 0 (freq_array v) mb)))) /\
  NoDup both /\ (forall f, In f both <-> In (w, f) (chan_labels u) /\ In (w, f) (chan_labels v)).
Proof.
  destruct (paired_paired_at 0 _ _ _ _ (intersect_paired 0 Z.eqb Z.eqb_eq Z.leb (take 0 (freq_array u) ma) (take 0 (freq_array v) mb)))
    as (both & (H1 & H2 & F1 & F2) & N & I).
  exists both. destruct (window_side u v ma _ both Su eq_refl H1 F1) as [A1 A2].
  destruct (window_side v u mb _ both Sv eq_refl H2 F2) as [B1 B2].
  split; [split; [exact A1|split; [exact B1|split; [exact A2|exact B2]]]|]. split; [exact N|].
  intros f. rewrite I. unfold ma, mb. rewrite !window_freqs_In by assumption. tauto.
Qed.
End Window.

Lemma both_spw_spec u v w : In w (both_spw u v) <-> In w (spw_array u) /\ In w (spw_array v).
Proof. unfold both_spw. rewrite filter_In, uniqueZ_In, isinZ_spec. tauto. Qed.

Lemma chans_paired u v : freq_axis_ok u -> freq_axis_ok v ->
  paired (0, 0) (chan_labels u) (chan_labels v) (fst (intersect_channels u v)) (snd (intersect_channels u v)).
Proof.
  intros (Su & _ & Mu) (Sv & _ & Mv).
  assert (G : forall ws, NoDup ws -> exists both,
    paired_at (0, 0) (chan_labels u) (chan_labels v) both
      (concat (map (fun w => take O (nonzero (Z.eqb w) (flex_spw_id_array u))
         (fst (intersect1d Z.eqb Z.leb (take 0 (freq_array u) (nonzero (Z.eqb w) (flex_spw_id_array u))) (take 0 (freq_array v) (nonzero (Z.eqb w) (flex_spw_id_array v)))))) ws))
      (concat (map (fun w => take O (nonzero (Z.eqb w) (flex_spw_id_array v))
         (snd (intersect1d Z.eqb Z.leb (take 0 (freq_array u) (nonzero (Z.eqb w) (flex_spw_id_array u))) (take 0 (freq_array v) (nonzero (Z.eqb w) (flex_spw_id_array v)))))) ws)) /\
    NoDup both /\ (forall x, In x both <-> In (fst x) ws /\ In x (chan_labels u) /\ In x (chan_labels v))).
  { induction ws as [|w ws IH]; intros N.
    - exists []. split; [repeat split; constructor|]. split; [constructor|]. simpl. tauto.
    - inversion N as [|? ? Nw N']; subst. destruct (IH N') as (b2 & (H1 & H2 & F1 & F2) & N2 & I2).
      destruct (window_paired u v w Su Sv) as (b1 & (G1 & G2 & E1 & E2) & N1 & I1).
      exists (map (pair w) b1 ++ b2). cbn [map concat]. split; [|split].
      + split; [rewrite map_app, G1, H1; reflexivity|]. split; [rewrite map_app, G2, H2; reflexivity|].
        split; apply Forall_app; auto.
      + apply NoDup_app_intro; [|exact N2|].
        * apply FinFun.Injective_map_NoDup; [intros a b E; injection E; auto|exact N1].
        * intros x Hx Hc. apply in_map_iff in Hx as (f & <- & _). apply I2 in Hc. simpl in Hc. tauto.
      + intros (a & f). rewrite in_app_iff, I2, in_map_iff. simpl. split.
        * intros [(f' & E & Hf)|H]; [injection E as <- <-; apply I1 in Hf; tauto|tauto].
        * intros [[<-|H] Hx]; [left; exists f; split; [reflexivity|apply I1; exact Hx]|right; tauto]. }
  destruct (G (both_spw u v)) as (both & HP & N & I).
  { unfold both_spw. apply NoDup_filter, uniqueZ_NoDup. }
  apply (paired_at_paired _ _ _ both).
  - unfold intersect_channels. cbn [fst snd].
    match goal with |- paired_at _ _ _ _ ?a ?b => match type of HP with paired_at _ _ _ _ ?a' ?b' =>
      replace a with a'; [replace b with b'; [exact HP|]|] end end;
      f_equal; apply map_ext; intros w; destruct (intersect1d _ _ _ _); reflexivity.
  - exact N.
  - intros x. rewrite I. rewrite both_spw_spec. split; [tauto|]. intros [Hu Hv]. split; [|tauto].
    unfold chan_labels in Hu, Hv. destruct x as (a & f). simpl. split; [apply Mu|apply Mv]; eapply in_combine_l; eassumption.
Qed.

Lemma nonzero_ext_in {A} (f g : A -> bool) l : (forall x, In x l -> f x = g x) -> nonzero f l = nonzero g l.
Proof.
  intros H. apply where_from_ext; [reflexivity|]. intros i x y Hx Hy. rewrite Hx in Hy. injection Hy as <-.
  apply H. apply nth_error_In in Hx. exact Hx.
Qed.

Lemma new_channels_eq u v : freq_axis_ok u -> freq_axis_ok v ->
  new_channels u v = new_in pair_eqb (chan_labels u) (chan_labels v).
Proof.
  intros (Su & _ & Mu) (Sv & _ & Mv). unfold new_channels, new_in. apply nonzero_ext_in. intros (a & f) Hx.
  destruct (memb pair_eqb (a, f) (chan_labels u)) eqn:E; [|rewrite andb_false_r; reflexivity].
  apply (memb_In pair_eqb pair_eqb_spec) in E. rewrite andb_true_r. f_equal. apply isinZ_spec, both_spw_spec.
  unfold chan_labels in E, Hx. simpl. split; [apply Mu|apply Mv]; eapply in_combine_l; eassumption.
Qed.

(** ** Catalogs *)
Lemma foldM_ids {K} (f : pcobj -> K -> result pcobj) l : (forall s k s', f s k = Ok s' -> length (pc_ids s') = length (pc_ids s)) ->
  forall s s', foldM f l s = Ok s' -> length (pc_ids s') = length (pc_ids s).
Proof.
  intros H. induction l as [|k l IH]; intros s s' E; [injection E as <-; reflexivity|].
  rewrite foldM_cons in E. apply bind_Ok in E as (s1 & E1 & E2). rewrite (IH _ _ E2). apply (H _ _ _ E1).
Qed.
Lemma update_ids pop k n r s s' : update_phase_center_id pop k n r s = Ok s' -> length (pc_ids s') = length (pc_ids s).
Proof.
  unfold update_phase_center_id. intros H. apply bind_Ok in H as (x & _ & H). apply bind_Ok in H as (e & _ & H).
  injection H as <-. simpl. apply map_length.
Qed.
Lemma add_ids pop nm info p f id s s' k : add_phase_center pop nm info p f id s = Ok (s', k) -> pc_ids s' = pc_ids s.
Proof.
  unfold add_phase_center. intros H. apply bind_Ok in H as (e & _ & H). apply bind_Ok in H as (i & _ & H).
  destruct (look_loop _ _ _ _ _) as [[m|] md]; [destruct (md =? 0)|]; injection H as <- _; reflexivity.
Qed.
Lemma consolidate_ids pop ref ign s s' : consolidate pop ref ign s = Ok s' -> length (pc_ids s') = length (pc_ids s).
Proof.
  unfold consolidate. intros H. apply bind_Ok in H as (s1 & H1 & H2).
  assert (E1 : length (pc_ids s1) = length (pc_ids s)).
  { revert H1. apply foldM_ids. intros a k a'. apply update_ids. }
  rewrite <- E1. revert H2. apply foldM_ids. intros a (k & e) a' H. unfold consolidate_one in H.
  destruct (look_loop _ _ _ _ _) as [[m|] md]; [destruct (md =? 0)|]; apply bind_Ok in H as (x & Hx & H).
  - injection H as <-. simpl. apply (update_ids _ _ _ _ _ _ Hx).
  - destruct x as [x k']. injection H as <-. rewrite (add_ids _ _ _ _ _ _ _ _ _ Hx). reflexivity.
  - destruct x as [x k']. injection H as <-. rewrite (add_ids _ _ _ _ _ _ _ _ _ Hx). reflexivity.
Qed.

(** ** Reordering *)
(** [o'] is [o] with its three axes rearranged. *)
Record moved (sb sf sp : list nat) (o o' : freqobj) : Prop := {
  mv_nb : Nblts (fo_uvd o') = Nblts (fo_uvd o);
  mv_nf : Nfreqs (fo_uvd o') = Nfreqs (fo_uvd o);
  mv_np : Npols (fo_uvd o') = Npols (fo_uvd o);
  mv_shape : blt_shaped (fo_uvd o');
  mv_ok : obj_ok o';
  mv_row : forall i, (i < Nblts (fo_uvd o))%nat -> row_meta (fo_uvd o) (nth i sb 0%nat) (fo_uvd o') i /\
             nth i (phase_center_id_array (fo_uvd o')) 0 = nth (nth i sb 0%nat) (phase_center_id_array (fo_uvd o)) 0;
  mv_chan : forall j, (j < Nfreqs (fo_uvd o))%nat -> chan_label (fo_uvd o') j = chan_label (fo_uvd o) (nth j sf 0%nat) /\
             nth j (channel_width (fo_uvd o')) 0 = nth (nth j sf 0%nat) (channel_width (fo_uvd o)) 0;
  mv_pol : forall k, (k < Npols (fo_uvd o))%nat -> pol_label (fo_uvd o') k = pol_label (fo_uvd o) (nth k sp 0%nat);
  mv_cell : forall i j k, (i < Nblts (fo_uvd o))%nat -> (j < Nfreqs (fo_uvd o))%nat -> (k < Npols (fo_uvd o))%nat ->
             cell (fo_uvd o') i j k = cell (fo_uvd o) (nth i sb 0%nat) (nth j sf 0%nat) (nth k sp 0%nat);
  mv_win : forall w p, window_pol o' w p <-> window_pol o w p;
  mv_fp : flex_spw_polarization_array o' = None <-> flex_spw_polarization_array o = None }.

Lemma row_copied_meta u i u' i' : row_copied u i u' i' -> row_meta u i u' i' /\
  nth i' (phase_center_id_array u') 0 = nth i (phase_center_id_array u) 0 /\ forall j k, cell u' i' j k = cell u i j k.
Proof.
  intros (H1 & H2 & H3 & H4 & H5 & H6 & H7 & H8 & H9 & H10 & H11 & H12). split; [repeat split; assumption|].
  split; [exact H8|]. intros j k. unfold cell. destruct (H12 j k) as (-> & -> & ->). reflexivity.
Qed.

Lemma row_meta_refl u i : row_meta u i u i.
Proof. repeat split. Qed.
Lemma row_meta_trans u i u' i' u'' i'' : row_meta u i u' i' -> row_meta u' i' u'' i'' -> row_meta u i u'' i''.
Proof. unfold row_meta. intros H H'. decompose [and] H. decompose [and] H'. repeat split; congruence. Qed.
Lemma same_axis_meta u u' i : same_blt_axis u u' -> row_meta u i u' i /\ phase_center_id_array u' = phase_center_id_array u.
Proof.
  intros (H1 & H2 & H3 & H4 & H5 & H6 & H7 & H8 & H9 & H10 & H11). unfold row_meta.
  rewrite H1, H2, H3, H4, H5, H6, H7, H8, H9, H10, H11. repeat split.
Qed.
Lemma same_axis_shape u u' : same_blt_axis u u' -> blt_shaped u -> blt_shaped u' /\ Nblts u' = Nblts u.
Proof.
  intros (H1 & H2 & H3 & H4 & H5 & H6 & H7 & H8 & H9 & H10 & H11). unfold blt_shaped, Nblts.
  rewrite H1, H2, H3, H4, H5, H6, H7, H8, H9, H10, H11. auto.
Qed.
Lemma same_freq_label u u' j : same_freq_axis u u' -> chan_label u' j = chan_label u j /\ Nfreqs u' = Nfreqs u /\
  channel_width u' = channel_width u.
Proof. intros (H1 & H2 & H3 & H4). unfold chan_label, Nfreqs. rewrite H1, H2, H3. auto. Qed.

Lemma moved_id o : blt_shaped (fo_uvd o) -> obj_ok o ->
  moved (seq 0 (Nblts (fo_uvd o))) (seq 0 (Nfreqs (fo_uvd o))) (seq 0 (Npols (fo_uvd o))) o o.
Proof.
  intros Hs Hok. constructor; try assumption; try reflexivity; try tauto.
  - intros i Hi. rewrite seq_nth by exact Hi. split; [apply row_meta_refl|reflexivity].
  - intros j Hj. rewrite seq_nth by exact Hj. split; reflexivity.
  - intros k Hk. rewrite seq_nth by exact Hk. reflexivity.
  - intros i j k Hi Hj Hk. rewrite !seq_nth by assumption. reflexivity.
Qed.

Lemma obj_ok_same o u : obj_ok o -> same_freq_axis (fo_uvd o) u ->
  obj_ok (mkFreqobj u (eq_coeffs o) (flex_spw_polarization_array o)).
Proof.
  intros ((S & N & M) & F) (H1 & H2 & H3 & H4). split.
  - split; [|split; cbn [fo_uvd]; rewrite ?H3, ?H4; assumption]. destruct S as [S1 S2]. split; cbn [fo_uvd]; rewrite ?H1, ?H2, ?H3; assumption.
  - cbn [fo_uvd flex_spw_polarization_array]. rewrite H4. exact F.
Qed.
Lemma window_pol_same o u w p : spw_array u = spw_array (fo_uvd o) ->
  (window_pol (mkFreqobj u (eq_coeffs o) (flex_spw_polarization_array o)) w p <-> window_pol o w p).
Proof. intros E. unfold window_pol. cbn [fo_uvd flex_spw_polarization_array]. rewrite E. tauto. Qed.

Section Steps.
Variables (sb sf sp : list nat) (o o1 o2 : freqobj).
Hypothesis HM : moved sb sf sp o o1.

Lemma nth_ofnat l i : nth i (map Z.of_nat l) 0 = Z.of_nat (nth i l 0%nat).
Proof. change 0 with (Z.of_nat 0). apply map_nth. Qed.

Lemma step_blts s : sb = seq 0 (Nblts (fo_uvd o)) -> Permutation s (seq 0 (Nblts (fo_uvd o))) ->
  on_uvd (reorder_blts (BltIndex (map Z.of_nat s)) None false None) o1 = Ok o2 -> moved s sf sp o o2.
Proof.
  intros Eb P H. destruct (perm_seq_facts _ _ P) as (Ls & _ & Bs & _).
  unfold on_uvd in H. apply bind_Ok in H as (u2 & H & E). injection E as <-.
  pose proof (mv_shape _ _ _ _ _ HM) as Sh.
  destruct (reorder_index _ _ _ _ Sh H) as (L & Nb & _ & Sh2 & _ & HR & HP & HF).
  assert (HR' : forall i, (i < Nblts (fo_uvd o))%nat -> row_copied (fo_uvd o1) (nth i s 0%nat) u2 i).
  { intros i Hi. pose proof (HR i) as G. rewrite (mv_nb _ _ _ _ _ HM) in G. specialize (G Hi).
    rewrite nth_ofnat, Z.mod_small, Nat2Z.id in G by (specialize (Bs i Hi); lia). exact G. }
  constructor; cbn [fo_uvd].
  - rewrite Nb. apply HM.
  - destruct (same_freq_label _ _ 0%nat HF) as (_ & -> & _). apply HM.
  - unfold Npols. rewrite HP. apply HM.
  - exact Sh2.
  - apply obj_ok_same; [apply HM|exact HF].
  - intros i Hi. specialize (HR' i Hi). apply row_copied_meta in HR' as (A & B & _). specialize (Bs i Hi).
    destruct (mv_row _ _ _ _ _ HM (nth i s 0%nat) Bs) as (C & D). rewrite Eb, seq_nth in C, D by exact Bs. cbn in C, D.
    split; [eapply row_meta_trans; eassumption|congruence].
  - intros j Hj. destruct (same_freq_label _ _ j HF) as (-> & _ & ->). apply (mv_chan _ _ _ _ _ HM j Hj).
  - intros k Hk. unfold pol_label. rewrite HP. apply (mv_pol _ _ _ _ _ HM k Hk).
  - intros i j k Hi Hj Hk. specialize (HR' i Hi). apply row_copied_meta in HR' as (_ & _ & ->). specialize (Bs i Hi).
    rewrite (mv_cell _ _ _ _ _ HM _ _ _ Bs Hj Hk), Eb, seq_nth by exact Bs. reflexivity.
  - intros w p. rewrite window_pol_same by apply HF. apply HM.
  - apply HM.
Qed.

Lemma step_freqs s : sf = seq 0 (Nfreqs (fo_uvd o)) -> Permutation s (seq 0 (Nfreqs (fo_uvd o))) ->
  reorder_freqs None (Some (ChanIndex (map Z.of_nat s))) None o1 = Ok o2 -> moved sb s sp o o2.
Proof.
  intros Ef P H. destruct (perm_seq_facts _ _ P) as (Ls & _ & Bs & _).
  pose proof (mv_ok _ _ _ _ _ HM) as Hok.
  destruct (rf_index _ _ _ _ _ Hok H (map Z.of_nat s) eq_refl) as (_ & _ & HC).
  destruct (reorder_freqs_spec _ _ _ _ _ Hok H) as (sg & HR & Hok2 & _ & _ & _ & _ & HW & HN).
  destruct HR as (_ & L2 & _ & _ & _ & HO). destruct HO as (HB & HP & _).
  assert (HC' : forall j, (j < Nfreqs (fo_uvd o))%nat -> chan_copied (fo_uvd o1) (nth j s 0%nat) (fo_uvd o2) j).
  { intros j Hj. pose proof (HC j) as G. rewrite (mv_nf _ _ _ _ _ HM) in G. specialize (G Hj).
    rewrite nth_ofnat, Nat2Z.id in G. exact G. }
  destruct (same_axis_shape _ _ HB (mv_shape _ _ _ _ _ HM)) as (Sh2 & Nb).
  constructor.
  - rewrite Nb. apply HM.
  - unfold Nfreqs in *. rewrite L2. apply HM.
  - unfold Npols. rewrite HP. apply HM.
  - exact Sh2.
  - exact Hok2.
  - intros i Hi. destruct (same_axis_meta _ _ i HB) as (A & E). rewrite E.
    destruct (mv_row _ _ _ _ _ HM i Hi) as (C & D). split; [eapply row_meta_trans; eassumption|exact D].
  - intros j Hj. destruct (HC' j Hj) as (A & B & C & _). specialize (Bs j Hj).
    destruct (mv_chan _ _ _ _ _ HM _ Bs) as (E & F). rewrite Ef, seq_nth in E, F by exact Bs. cbn in E, F.
    split; [|congruence]. rewrite <- E. unfold chan_label. congruence.
  - intros k Hk. unfold pol_label. rewrite HP. apply (mv_pol _ _ _ _ _ HM k Hk).
  - intros i j k Hi Hj Hk. destruct (HC' j Hj) as (_ & _ & _ & D). specialize (Bs j Hj).
    replace (cell (fo_uvd o2) i j k) with (cell (fo_uvd o1) i (nth j s 0%nat) k).
    + rewrite (mv_cell _ _ _ _ _ HM _ _ _ Hi Bs Hk), Ef, seq_nth by exact Bs. reflexivity.
    + unfold cell. destruct (D i k) as (-> & -> & ->). reflexivity.
  - intros w p. rewrite HW. apply HM.
  - rewrite <- HN. apply HM.
Qed.

Lemma step_pols s : sp = seq 0 (Npols (fo_uvd o)) -> Permutation s (seq 0 (Npols (fo_uvd o))) ->
  on_uvd (reorder_pols (PolIndex (map Z.of_nat s))) o1 = Ok o2 -> moved sb sf s o o2.
Proof.
  intros Ep P H. destruct (perm_seq_facts _ _ P) as (Ls & _ & Bs & _).
  unfold on_uvd in H. apply bind_Ok in H as (u2 & H & E). injection E as <-.
  destruct (reorder_pols_index _ _ _ H) as (_ & Np & _ & HP & HB & HF).
  assert (HP' : forall k, (k < Npols (fo_uvd o))%nat -> pol_copied (fo_uvd o1) (nth k s 0%nat) u2 k).
  { intros k Hk. pose proof (HP k) as G. rewrite (mv_np _ _ _ _ _ HM) in G. specialize (G Hk).
    rewrite nth_ofnat, Nat2Z.id in G. exact G. }
  destruct (same_axis_shape _ _ HB (mv_shape _ _ _ _ _ HM)) as (Sh2 & Nb).
  constructor; cbn [fo_uvd].
  - rewrite Nb. apply HM.
  - destruct (same_freq_label _ _ 0%nat HF) as (_ & -> & _). apply HM.
  - rewrite Np. apply HM.
  - exact Sh2.
  - apply obj_ok_same; [apply HM|exact HF].
  - intros i Hi. destruct (same_axis_meta _ _ i HB) as (A & E). rewrite E.
    destruct (mv_row _ _ _ _ _ HM i Hi) as (C & D). split; [eapply row_meta_trans; eassumption|exact D].
  - intros j Hj. destruct (same_freq_label _ _ j HF) as (-> & _ & ->). apply (mv_chan _ _ _ _ _ HM j Hj).
  - intros k Hk. destruct (HP' k Hk) as (A & _). specialize (Bs k Hk). unfold pol_label. rewrite A.
    pose proof (mv_pol _ _ _ _ _ HM _ Bs) as E. rewrite Ep, seq_nth in E by exact Bs. exact E.
  - intros i j k Hi Hj Hk. destruct (HP' k Hk) as (_ & D). specialize (Bs k Hk).
    replace (cell u2 i j k) with (cell (fo_uvd o1) i j (nth k s 0%nat)).
    + rewrite (mv_cell _ _ _ _ _ HM _ _ _ Hi Hj Bs), Ep, seq_nth by exact Bs. reflexivity.
    + unfold cell. destruct (D i j) as (-> & -> & ->). reflexivity.
  - intros w p. rewrite window_pol_same by apply HF. apply HM.
  - apply HM.
Qed.
End Steps.

Lemma match_orders_moved rows chans pols o o' : blt_shaped (fo_uvd o) -> obj_ok o ->
  Permutation (order_of (Nblts (fo_uvd o)) (fst rows) (snd rows)) (seq 0 (Nblts (fo_uvd o))) ->
  Permutation (order_of (Nfreqs (fo_uvd o)) (fst chans) (snd chans)) (seq 0 (Nfreqs (fo_uvd o))) ->
  Permutation (order_of (Npols (fo_uvd o)) (fst pols) (snd pols)) (seq 0 (Npols (fo_uvd o))) ->
  match_orders rows chans pols o = Ok o' ->
  moved (order_of (Nblts (fo_uvd o)) (fst rows) (snd rows)) (order_of (Nfreqs (fo_uvd o)) (fst chans) (snd chans))
    (order_of (Npols (fo_uvd o)) (fst pols) (snd pols)) o o'.
Proof.
  intros Sh Hok Pb Pf Pp H. unfold match_orders in H. apply bind_Ok in H as (o1 & H1 & H). apply bind_Ok in H as (o2 & H2 & H3).
  pose proof (moved_id o Sh Hok) as M0.
  assert (M1 : moved (order_of (Nblts (fo_uvd o)) (fst rows) (snd rows)) (seq 0 (Nfreqs (fo_uvd o))) (seq 0 (Npols (fo_uvd o))) o o1).
  { unfold order_of in *. destruct (overlap_order (Nblts (fo_uvd o)) (fst rows) (snd rows)) as [s|]; cbn [maybe] in H1;
      [|injection H1 as <-; exact M0]. eapply step_blts; [exact M0|reflexivity|exact Pb|exact H1]. }
  assert (M2 : moved (order_of (Nblts (fo_uvd o)) (fst rows) (snd rows)) (order_of (Nfreqs (fo_uvd o)) (fst chans) (snd chans))
                 (seq 0 (Npols (fo_uvd o))) o o2).
  { rewrite (mv_nf _ _ _ _ _ M1) in H2. unfold order_of in Pf |- * at 2.
    destruct (overlap_order (Nfreqs (fo_uvd o)) (fst chans) (snd chans)) as [s|]; cbn [maybe] in H2;
      [|injection H2 as <-; exact M1]. eapply step_freqs; [exact M1|reflexivity|exact Pf|exact H2]. }
  rewrite (mv_np _ _ _ _ _ M2) in H3. unfold order_of in Pp |- * at 3.
  destruct (overlap_order (Npols (fo_uvd o)) (fst pols) (snd pols)) as [s|]; cbn [maybe] in H3;
    [|injection H3 as <-; exact M2]. eapply step_pols; [exact M2|reflexivity|exact Pp|exact H3].
Qed.
