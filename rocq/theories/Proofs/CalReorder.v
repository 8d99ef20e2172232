(** The reorder methods of calibration solutions. *)
From Coq Require Import List ZArith Bool Arith Lia Permutation Sorted String Ascii NArith.
From Verif Require Import Lib.Py Lib.Np Lib.Cube Lib.Sorting Spec.UVDataSpec Spec.FreqSpec Spec.AddSpec Spec.CalSpec
  Model.UVData Model.Reorder Model.Freq Model.Pol Model.Add Model.UVCal
  Proofs.FreqProofs Proofs.FreqReorder Proofs.ReorderProofs Proofs.AddAxis Proofs.AddMove Proofs.AddJoin Proofs.CalArrange Proofs.CalMove.
Import ListNotations.
Notation length := List.length.
Open Scope list_scope.
Open Scope Z_scope.
Notation Ntimes := UVCal.Ntimes.
Notation reorder_freqs := UVCal.reorder_freqs.

(** ** The order of strings *)
Lemma string_compare_le s : forall t, String.leb s t = true <->
  match s, t with
  | EmptyString, _ => True
  | String _ _, EmptyString => False
  | String a s', String b t' => (N_of_ascii a < N_of_ascii b)%N \/ (a = b /\ String.leb s' t' = true)
  end.
Proof.
  intros t. unfold String.leb. destruct s as [|a s], t as [|b t]; simpl; try tauto; try (split; [discriminate|contradiction]).
  unfold Ascii.compare. destruct (N.compare_spec (N_of_ascii a) (N_of_ascii b)) as [E|E|E].
  - assert (a = b) as -> by (rewrite <- (ascii_N_embedding a), <- (ascii_N_embedding b), E; reflexivity).
    split; [intros H; right; split; [reflexivity|exact H]|]. intros [H|[_ H]]; [lia|exact H].
  - split; auto.
  - split; [discriminate|]. intros [H|[-> _]]; lia.
Qed.
Lemma string_leb_trans s t u : String.leb s t = true -> String.leb t u = true -> String.leb s u = true.
Proof.
  revert t u. induction s as [|a s IH]; intros t u H1 H2; apply string_compare_le; [exact I|].
  apply string_compare_le in H1. destruct t as [|b t]; [contradiction|].
  apply string_compare_le in H2. destruct u as [|c u]; [contradiction|].
  destruct H1 as [H1|[-> H1]], H2 as [H2|[-> H2]]; [left; lia|left; lia|left; lia|right]. split; [reflexivity|]. eapply IH; eassumption.
Qed.

Lemma argsort_str_sorted l : StronglySorted (fun s t => String.leb s t = true) (take EmptyString l (argsort_str l)).
Proof.
  unfold take. apply (proj1 (StronglySorted_map _ _ _)). unfold argsort_str, argsort_by.
  eapply StronglySorted_impl; [|apply isort_sorted].
  - intros x y _ _ H. exact H.
  - intros x y. apply String.leb_total.
  - intros x y z. apply string_leb_trans.
Qed.

(** ** The order of an axis *)
Lemma in_order_flip {A} (lt : A -> A -> Prop) desc l : StronglySorted lt l -> in_order lt desc (if desc then rev l else l).
Proof. intros H. unfold in_order. destruct desc; [apply StronglySorted_rev; exact H|exact H]. Qed.

Lemma flip_perm desc idx n : Permutation idx (seq 0 n) -> Permutation (flip desc idx) (seq 0 n).
Proof. intros P. unfold flip. destruct desc; [rewrite <- Permutation_rev|]; exact P. Qed.
Lemma take_flip {A} (d : A) l desc idx : take d l (flip desc idx) = if desc then rev (take d l idx) else take d l idx.
Proof. unfold flip. destruct desc; [apply take_rev|reflexivity]. Qed.

Lemma index_obeyed n idx l : is_index_array n idx = true -> length l = n ->
  Permutation idx (map Z.of_nat (seq 0 (length l))) /\ take 0 l (map Z.to_nat idx) = map (fun i => nth (Z.to_nat i) l 0) idx.
Proof.
  intros H E. apply is_index_array_spec in H as (P & F). split; [|unfold take; apply map_map].
  rewrite E. rewrite <- (Permutation_map Z.of_nat P), map_map. rewrite Forall_forall in F.
  rewrite (map_ext_in _ (fun i => i)); [rewrite map_id; reflexivity|]. intros i Hi. apply F in Hi. lia.
Qed.

Lemma axis_order_spec name req l names idx : NoDup l -> names = mapM name l ->
  axis_order (length l) l names req = Ok idx -> Permutation idx (seq 0 (length l)) /\ order_obeyed name req l (take 0 l idx).
Proof.
  intros N En H. destruct req as [ix|desc|desc|]; cbn [axis_order order_obeyed] in *.
  - destruct (is_index_array (length l) ix) eqn:E; [|discriminate]. injection H as <-. split; [apply is_index_array_spec, E|].
    apply (index_obeyed _ _ _ E eq_refl).
  - injection H as <-. split; [apply flip_perm, argsortZ_perm|]. rewrite take_flip. apply in_order_flip.
    apply sorted_strict; [apply take_NoDup; [exact N|apply argsortZ_perm]|apply argsortZ_sorted].
  - apply bind_Ok in H as (s & Es & H). injection H as <-. rewrite En in Es. pose proof (mapM_Ok_length _ _ _ Es) as Ls.
    assert (P : Permutation (argsort_str s) (seq 0 (length l))) by (rewrite <- Ls; apply argsort_by_perm).
    assert (Hn : forall i, (i < length l)%nat -> name (nth i l 0) = Ok (nth i s EmptyString)).
    { intros i Hi. apply (mapM_Ok_nth name l s 0 EmptyString Es i Hi). }
    split; [apply flip_perm, P|]. split.
    + rewrite take_flip. apply in_order_flip. unfold take. apply (proj1 (StronglySorted_map _ _ _)).
      eapply StronglySorted_impl; [|apply (proj2 (StronglySorted_map (fun a b => String.leb a b = true) (fun i => nth i s EmptyString) _)), argsort_str_sorted].
      cbv beta. intros x y Hx Hy Hl. apply (perm_seq_facts _ _ P) in Hx, Hy. do 2 eexists. split; [apply Hn, Hx|]. split; [apply Hn, Hy|exact Hl].
    + apply Forall_forall. intros x Hx. unfold take in Hx. apply in_map_iff in Hx as (i & <- & Hi).
      apply (perm_seq_facts _ _ (flip_perm desc _ _ P)) in Hi. eexists. apply Hn, Hi.
  - discriminate.
Qed.

Lemma axis_order_total name req l : req <> ByOther -> (forall idx, req = ByIndex idx -> Permutation idx (map Z.of_nat (seq 0 (length l)))) ->
  (forall desc, req = ByName desc -> Forall (fun x => exists s, name x = Ok s) l) ->
  exists idx, axis_order (length l) l (mapM name l) req = Ok idx.
Proof.
  intros Ho Hi Hn. destruct req as [ix|desc|desc|]; cbn [axis_order].
  - rewrite is_index_array_complete by (apply Hi; reflexivity). eauto.
  - eauto.
  - destruct (SelectTotal.mapM_total name l) as (s & ->); [|cbn [bind]; eauto]. specialize (Hn desc eq_refl). rewrite Forall_forall in Hn. exact Hn.
  - congruence.
Qed.

Lemma index_refused n idx : ~ Permutation idx (map Z.of_nat (seq 0 n)) -> is_index_array n idx = false.
Proof.
  intros H. destruct (is_index_array n idx) eqn:E; [|reflexivity]. exfalso. apply H.
  assert (L : length (map Z.of_nat (seq 0 n)) = n) by (rewrite map_length; apply seq_length).
  destruct (index_obeyed n idx _ E L) as (P & _). rewrite L in P. exact P.
Qed.

(** ** Antennas, times, Jones terms *)
Ltac keep_other := unfold same_ants, same_times, same_chans, same_jones; cbn [take_ants take_times take_jones take_windows c_ants c_spws c_freq_range c_freqs c_widths c_flex
    c_flex_jones c_time_array c_time_range c_lst_array c_lst_range c_ref_ant c_int_time c_jones]; tauto.

Lemma reorder_antennas_arranged numbers names req u r : cal_ok u -> reorder_antennas numbers names req u = Ok r ->
  exists idx, arranged idx (seq 0 (Nchans u)) (seq 0 (Ntimes u)) (seq 0 (Njones u)) u r /\
    same_times u r /\ same_chans u r /\ same_jones u r /\ order_obeyed (antenna_name numbers names) req (c_ants u) (c_ants r).
Proof.
  intros Hu H. unfold reorder_antennas in H. apply bind_Ok in H as (idx & Hi & H). injection H as <-.
  assert (N : NoDup (c_ants u)) by (apply cal_ok_lists in Hu; tauto).
  destruct (axis_order_spec _ _ _ _ _ N eq_refl Hi) as (P & O). exists idx. destruct (increasing idx) eqn:E.
  - pose proof (increasing_perm idx _ E P) as E'. subst idx. rewrite take_seq in O. split; [apply arranged_id, Hu|].
    split; [keep_other|]. split; [keep_other|]. split; [keep_other|]. exact O.
  - split; [apply take_ants_arranged; [exact Hu|exact P]|]. split; [keep_other|]. split; [keep_other|]. split; [keep_other|]. exact O.
Qed.

Lemma reorder_jones_arranged xo req u r : cal_ok u -> reorder_jones xo req u = Ok r ->
  exists idx, arranged (seq 0 (Nants u)) (seq 0 (Nchans u)) (seq 0 (Ntimes u)) idx u r /\
    same_times u r /\ same_chans u r /\ same_ants u r /\ order_obeyed (jnum2str xo) req (c_jones u) (c_jones r).
Proof.
  intros Hu H. unfold reorder_jones in H. apply bind_Ok in H as (idx & Hi & H). injection H as <-.
  assert (N : NoDup (c_jones u)) by (apply cal_ok_lists in Hu; tauto).
  destruct (axis_order_spec _ _ _ _ _ N eq_refl Hi) as (P & O). exists idx. destruct (increasing idx) eqn:E.
  - pose proof (increasing_perm idx _ E P) as E'. subst idx. rewrite take_seq in O. split; [apply arranged_id, Hu|].
    split; [keep_other|]. split; [keep_other|]. split; [keep_other|]. exact O.
  - split; [apply take_jones_arranged; [exact Hu|exact P]|]. split; [keep_other|]. split; [keep_other|]. split; [keep_other|]. exact O.
Qed.

Lemma reorder_times_arranged req u r : cal_ok u -> reorder_times req u = Ok r ->
  exists idx, arranged (seq 0 (Nants u)) (seq 0 (Nchans u)) idx (seq 0 (Njones u)) u r /\
    same_ants u r /\ same_chans u r /\ same_jones u r /\ (forall desc, req <> ByName desc) /\
    order_obeyed (fun _ => Err ValueError) req (time_keys u) (time_keys r).
Proof.
  intros Hu H. unfold reorder_times in H. apply bind_Ok in H as (idx & Hi & H). injection H as <-.
  assert (N : NoDup (time_keys u)) by (apply cal_ok_lists in Hu; tauto).
  assert (Hn : forall desc, req <> ByName desc).
  { intros desc ->. destruct (c_time_array u), (c_time_range u); discriminate. }
  assert (Hi' : axis_order (length (time_keys u)) (time_keys u) (mapM (fun _ => Err ValueError) (time_keys u)) req = Ok idx).
  { destruct req; [|destruct (c_time_array u), (c_time_range u); try discriminate; exact Hi|destruct (Hn desc eq_refl)|].
    - exact Hi.
    - discriminate. }
  destruct (axis_order_spec (fun _ => Err ValueError) _ _ _ _ N eq_refl Hi') as (P & O). exists idx. destruct (increasing idx) eqn:E.
  - pose proof (increasing_perm idx _ E P) as E'. subst idx. rewrite take_seq in O. split; [apply arranged_id, Hu|].
    split; [keep_other|]. split; [keep_other|]. split; [keep_other|]. split; [exact Hn|]. exact O.
  - split; [apply take_times_arranged; [exact Hu|exact P]|]. split; [keep_other|]. split; [keep_other|]. split; [keep_other|]. split; [exact Hn|].
    rewrite keys_take_times by exact P. exact O.
Qed.

(** ** Frequencies *)
(** The channel axis as that of a UVData object *)
Definition freq_view (u : ucal) : freqobj :=
  mkFreqobj {| time_array := []; lst_array := []; ant_1_array := []; ant_2_array := []; baseline_array := [];
     integration_time := []; uvw_array := []; phase_center_id_array := [];
     phase_center_app_ra := []; phase_center_app_dec := []; phase_center_frame_pa := [];
     freq_array := c_freqs u; channel_width := c_widths u; flex_spw_id_array := c_flex u; spw_array := c_spws u;
     polarization_array := []; data_array := fun _ _ _ => (0, 0); flag_array := fun _ _ _ => true;
     nsample_array := fun _ _ _ => 0; Nbls := 0; UVData.Ntimes := 0; blt_order := None;
     blts_are_rectangular := None; time_axis_faster_than_bls := false; Nants_telescope := 2 |} None (c_flex_jones u).

Lemma view_ok u : cal_ok u -> c_wide u = false -> obj_ok (freq_view u).
Proof.
  intros (_ & Hf & N & Hl & _) W. rewrite W in Hf. destruct Hf as (Hw & Hx & Hm). split; [|exact Hl].
  split; [split; [exact Hw|exact Hx]|]. split; [exact N|exact Hm].
Qed.

Lemma view_requested req u worder : c_wide u = false ->
  windows_as_requested req (fo_uvd (freq_view u)) worder -> windows_obeyed req u worder.
Proof.
  intros W. destruct req as [idx|[]|[]|]; cbn [windows_as_requested windows_obeyed freq_view fo_uvd flex_spw_id_array freq_array spw_array]; unfold in_order; try rewrite W; try tauto.
  intros H. eapply StronglySorted_impl; [|exact H]. cbv beta. intros x y _ _ G m n Hm Hn. apply G; assumption.
Qed.

Lemma map_of_to idx n : Forall (fun i => 0 <= i < n) idx -> map Z.of_nat (map Z.to_nat idx) = idx.
Proof.
  intros F. rewrite map_map. rewrite Forall_forall in F. rewrite (map_ext_in _ (fun i => i)); [apply map_id|].
  intros i Hi. apply F in Hi. lia.
Qed.

Lemma sort_obeyed so co ss u r ix : cal_ok u -> c_wide u = false ->
  sort_result (fo_uvd (freq_view u)) so co ss ix -> c_flex r = take 0 (c_flex u) ix -> c_freqs r = take 0 (c_freqs u) ix ->
  channels_obeyed so co ss u r ix.
Proof.
  intros Hu W S Ex Ef. pose proof Hu as (_ & Hf & _). rewrite W in Hf. destruct Hf as (_ & Hx & _).
  destruct (perm_seq_facts _ _ (sr_perm _ _ _ _ _ S)) as (L & _ & B & _). unfold Nfreqs in L, B. cbn [freq_view fo_uvd freq_array] in L, B.
  unfold channels_obeyed. split; [apply (sr_perm _ _ _ _ _ S)|]. split; [exact Ex|]. split; [exact Ef|]. split; [|split].
  - intros idx Ec. destruct (sr_index _ _ _ _ _ S idx Ec) as (-> & F). eapply map_of_to, F.
  - intros Hci. split.
    + intros req Es E0. destruct (sr_group _ _ _ _ _ S req Es E0 Hci) as (wo & P & Hr & G). exists wo. split; [exact P|].
      split; [apply view_requested; assumption|]. rewrite Ex. exact G.
    + intros Hs. destruct (sr_stay _ _ _ _ _ S Hs Hci) as (E1 & E2). split; [rewrite Ex; exact E1|]. rewrite L. exact E2.
  - rewrite L. intros i j Hij. rewrite Ex, Ef. rewrite !nth_take by lia. intros E. destruct co as [[idx|desc|]|]; try exact I.
    + intros Hsel. apply (sr_sort _ _ _ _ _ S desc eq_refl i j Hij E Hsel).
    + apply (sr_keep _ _ _ _ _ S eq_refl i j Hij E).
Qed.

Lemma single_axis so co ss u : cal_ok u -> c_wide u = false -> co = None -> so = None \/ ss <> None ->
  channels_obeyed so co ss u u (seq 0 (length (c_freqs u))).
Proof.
  intros Hu W -> Hs. pose proof Hu as (_ & Hf & _). rewrite W in Hf. destruct Hf as (_ & Hx & _).
  unfold channels_obeyed. split; [reflexivity|]. split; [rewrite <- Hx; symmetry; apply (take_seq 0)|]. split; [symmetry; apply (take_seq 0)|].
  split; [discriminate|]. split; [|intros i j Hij _; rewrite seq_length in Hij; rewrite !seq_nth by lia; lia].
  intros _. split; [intros req -> ->; destruct Hs; congruence|]. intros _. split; [reflexivity|]. rewrite seq_length. intros p Hp _. apply seq_nth, Hp.
Qed.

Lemma window_order_spec req u idx : cal_ok u -> c_wide u = true -> window_order req u = Ok idx ->
  Permutation idx (seq 0 (length (c_spws u))) /\ windows_obeyed req u (take 0 (c_spws u) idx).
Proof.
  intros Hu W H. pose proof Hu as (_ & Hf & N & _). rewrite W in Hf.
  destruct req as [ix|desc|desc|]; cbn [window_order windows_obeyed] in *.
  - destruct (is_index_array _ _) eqn:E; [|discriminate]. pose proof (is_index_array_spec _ _ E) as (P & F).
    assert (idx = map Z.to_nat ix) as ->.
    { apply (nth_ext _ _ O O); [rewrite map_length; apply (mapM_Ok_length _ _ _ H)|]. intros k Hk. rewrite (mapM_Ok_length _ _ _ H) in Hk.
      pose proof (mapM_Ok_nth _ _ _ 0 O H k Hk) as Ek. cbv beta in Ek. rewrite (nth_map Z.to_nat ix k 0 O) by exact Hk.
      rewrite Forall_forall in F. assert (F' := F _ (nth_In ix 0 Hk)).
      destruct (index_of Z.eqb _ _) as [p|] eqn:Ei; [|discriminate]. injection Ek as Ek. rewrite <- Ek. apply (index_of_Some Z.eqb Z.eqb_eq 0) in Ei as (E1 & E2 & _).
      apply (proj1 (NoDup_nth (c_spws u) 0) N); [exact E1|lia|exact E2]. }
    split; [exact P|]. unfold take. apply map_map.
  - injection H as <-. split; [apply flip_perm, argsortZ_perm|]. rewrite take_flip. apply in_order_flip.
    apply sorted_strict; [apply take_NoDup; [exact N|apply argsortZ_perm]|apply argsortZ_sorted].
  - rewrite W. injection H as <-. set (mid := map (fun r => fst r + snd r) (c_freq_range u)).
    assert (Lm : length mid = length (c_spws u)) by (unfold mid; rewrite map_length; exact Hf).
    assert (P : Permutation (argsortZ mid) (seq 0 (length (c_spws u)))) by (rewrite <- Lm; apply argsortZ_perm).
    split; [apply flip_perm, P|]. rewrite take_flip. apply in_order_flip.
    unfold take. apply (proj1 (StronglySorted_map _ _ _)).
    eapply StronglySorted_impl; [|apply (proj2 (StronglySorted_map Z.le (fun i => nth i mid 0) _)), argsortZ_sorted].
    cbv beta. intros x y Hx Hy Hl lo hi lo' hi' (f & Hf1 & Hf2 & Hf3) (g & Hg1 & Hg2 & Hg3).
    apply (perm_seq_facts _ _ P) in Hx, Hy. unfold Nchans, chan_at, chan_info in *. rewrite W in *.
    injection Hf2 as Hf2. injection Hg2 as Hg2.
    apply (proj1 (NoDup_nth (c_spws u) 0) N) in Hf2; [|assumption|assumption].
    apply (proj1 (NoDup_nth (c_spws u) 0) N) in Hg2; [|assumption|assumption]. subst f g.
    unfold mid in Hl. rewrite !(nth_map _ (c_freq_range u) _ (0, 0) 0) in Hl by lia. rewrite Hf3, Hg3 in Hl. exact Hl.
  - discriminate.
Qed.

Lemma reorder_freqs_arranged so co ss u r : cal_ok u -> reorder_freqs so co ss u = Ok r ->
  exists idx, arranged (seq 0 (Nants u)) idx (seq 0 (Ntimes u)) (seq 0 (Njones u)) u r /\
    same_ants u r /\ same_times u r /\ same_jones u r /\
    (Nchans u <> 1%nat -> c_wide u = true -> windows_obeyed (match so with Some req => req | None => SpwNumber false end) u (c_spws r)) /\
    (c_wide u = false -> length (c_spws u) = 1%nat /\ length (c_freqs u) = 1%nat /\ r = u \/
      channels_obeyed so co ss u r idx /\ (r = u \/ length (c_spws u) = 1%nat \/ appearance_order (c_flex r) (c_spws r))) /\
    (c_wide u = true -> c_spws r = take 0 (c_spws u) idx) /\
    (c_wide u = false -> c_flex r = take 0 (c_flex u) idx /\ c_freqs r = take 0 (c_freqs u) idx).
Proof.
  intros Hu H. unfold reorder_freqs in H.
  assert (Id : c_wide u = true -> take 0 (c_spws u) (seq 0 (Nchans u)) = c_spws u) by (intros W; unfold Nchans; rewrite W; apply take_seq).
  assert (Id2 : c_wide u = false -> take 0 (c_flex u) (seq 0 (Nchans u)) = c_flex u /\ take 0 (c_freqs u) (seq 0 (Nchans u)) = c_freqs u).
  { intros W. unfold Nchans. rewrite W. split; [|apply take_seq]. destruct Hu as (_ & Hf & _). rewrite W in Hf. destruct Hf as (_ & <- & _). apply take_seq. }
  destruct ((length (c_spws u) =? 1)%nat && (c_wide u || (length (c_freqs u) =? 1)%nat)) eqn:E.
  - injection H as <-. apply andb_true_iff in E as (E1 & E2). apply Nat.eqb_eq in E1. exists (seq 0 (Nchans u)).
    split; [apply arranged_id, Hu|]. split; [keep_other|]. split; [keep_other|]. split; [keep_other|]. split; [|split; [|split]].
    + intros Hn W. exfalso. apply Hn. unfold Nchans. rewrite W. exact E1.
    + intros W. left. rewrite W in E2. apply Nat.eqb_eq in E2. auto.
    + intros W. symmetry. apply Id, W.
    + intros W. destruct (Id2 W) as (-> & ->). auto.
  - destruct (c_wide u) eqn:W.
    + apply bind_Ok in H as (idx & Hi & H). injection H as <-. destruct (window_order_spec _ _ _ Hu W Hi) as (P & O).
      exists idx. split; [apply take_windows_arranged; assumption|]. split; [keep_other|]. split; [keep_other|]. split; [keep_other|].
      split; [intros _ _; exact O|]. split; [discriminate|]. split; [reflexivity|discriminate].
    + apply bind_Ok in H as (o & Ho & H).
      apply (sort_helper_spec (fo_uvd (freq_view u))) in Ho; [|apply view_ok; assumption].
      destruct o as [ix|].
      * destruct (take_channels_arranged ix u Hu W (sr_perm _ _ _ _ _ Ho)) as (r' & Er & A & A1 & A2 & A3 & A4 & A5 & A6).
        rewrite Er in H. injection H as <-. exists ix. split; [exact A|]. do 3 (split; [assumption|]). split; [discriminate|]. split; [|split; [discriminate|]].
        -- intros _. right. split; [apply sort_obeyed; assumption|]. right.
           destruct (Nat.eq_dec (length (c_spws u)) 1) as [|Hne]; [left; assumption|right].
           unfold take_channels in Er. destruct (1 <? length (c_spws u))%nat eqn:El.
           ++ apply bind_Ok in Er as ((sp & fj) & Es & Er). injection Er as <-. cbn [c_flex c_spws]. cbv zeta in Es.
              apply bind_Ok in Es as (pos & _ & Es). injection Es as <- _. apply first_positions_spec.
           ++ apply Nat.ltb_ge in El. assert (Ln : c_spws u = []) by (destruct (c_spws u) as [|? [|? ?]]; [reflexivity|simpl in Hne; lia|simpl in El; lia]).
              destruct A6 as [A6|A6]; [|exact A6]. rewrite A6, Ln. destruct Hu as (_ & Hf & _). rewrite W in Hf. destruct Hf as (_ & Hx & Hm).
              assert (Lx : c_flex u = []) by (destruct (c_flex u) as [|z l] eqn:Ez; [reflexivity|]; exfalso; rewrite Ln in Hm; apply (proj1 (Hm z)); left; reflexivity).
              rewrite A4, Lx. split; [|constructor]. intros w. split; [contradiction|]. intros Hw. apply in_map_iff in Hw as (i & Ei & Hi).
              apply (perm_seq_facts _ _ (sr_perm _ _ _ _ _ Ho)) in Hi. unfold Nfreqs in Hi. cbn [freq_view fo_uvd freq_array] in Hi. rewrite <- Hx, Lx in Hi. simpl in Hi. lia.
        -- intros _. split; assumption.
      * injection H as <-. exists (seq 0 (Nchans u)). split; [apply arranged_id, Hu|]. split; [keep_other|]. split; [keep_other|]. split; [keep_other|].
        split; [discriminate|]. split; [|split; [discriminate|]].
        -- intros _. right. split; [|left; reflexivity]. unfold Nchans. rewrite W. destruct Ho as [Ho|(E1 & E2)].
           ++ apply sort_obeyed; [exact Hu|exact W|exact Ho| |]; symmetry; [destruct (Id2 eq_refl) as (Q & _)|destruct (Id2 eq_refl) as (_ & Q)];
                unfold Nchans in Q; rewrite W in Q; exact Q.
           ++ apply single_axis; assumption.
        -- intros _. destruct (Id2 eq_refl) as (-> & ->). auto.
Qed.

Lemma reorder_freqs_total so co ss u : cal_ok u -> c_spws u <> [] ->
  so <> Some SpwOther -> co <> Some ChanOther ->
  (forall idx, so = Some (SpwIndex idx) -> Permutation idx (map Z.of_nat (seq 0 (length (c_spws u))))) ->
  (forall idx, co = Some (ChanIndex idx) -> Permutation idx (map Z.of_nat (seq 0 (length (c_freqs u))))) ->
  exists r, reorder_freqs so co ss u = Ok r.
Proof.
  intros Hu Hne Hso Hco Hsi Hci. unfold reorder_freqs.
  destruct ((length (c_spws u) =? 1)%nat && (c_wide u || (length (c_freqs u) =? 1)%nat)); [eauto|].
  destruct (c_wide u) eqn:W.
  - assert (G : forall req, req <> SpwOther -> (forall idx, req = SpwIndex idx -> Permutation idx (map Z.of_nat (seq 0 (length (c_spws u))))) ->
      exists idx, window_order req u = Ok idx).
    { intros req Ho Hi. destruct req as [ix|desc|desc|]; cbn [window_order]; [|eauto|eauto|congruence].
      rewrite is_index_array_complete by (apply Hi; reflexivity). apply SelectTotal.mapM_total. intros i Hin.
      specialize (Hi ix eq_refl). apply (Permutation_in _ Hi), in_map_iff in Hin as (k & <- & Hk). apply in_seq in Hk. rewrite Nat2Z.id.
      destruct (index_of Z.eqb (nth k (c_spws u) 0) (c_spws u)) eqn:Ei; [eauto|]. apply (index_of_None Z.eqb Z.eqb_eq) in Ei.
      exfalso. apply Ei, nth_In. lia. }
    destruct so as [req|].
    + destruct (G req) as (idx & ->); [congruence|intros idx ->; apply Hsi; reflexivity|]. cbn [bind]. eauto.
    + cbn [window_order bind]. eauto.
  - destruct (rf_total so co ss (freq_view u) (view_ok u Hu W) Hne Hso Hco Hsi Hci) as (o' & Ho).
    unfold Freq.reorder_freqs in Ho. apply bind_Ok in Ho as (o & Ho & _). cbn [freq_view fo_uvd freq_array spw_array flex_spw_id_array] in Ho.
    rewrite Ho. cbn [bind]. destruct o as [ix|]; [|eauto].
    apply (sort_helper_spec (fo_uvd (freq_view u))) in Ho; [|apply view_ok; assumption].
    destruct (take_channels_arranged ix u Hu W (sr_perm _ _ _ _ _ Ho)) as (r' & Er & _). eauto.
Qed.
