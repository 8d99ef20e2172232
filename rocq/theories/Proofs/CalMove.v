(** The reorder methods of calibration solutions rearrange. *)
From Coq Require Import List ZArith Bool Arith Lia Permutation Sorted String.
From Verif Require Import Lib.Py Lib.Np Lib.Cube Lib.Sorting Spec.UVDataSpec Spec.FreqSpec Spec.AddSpec Spec.CalSpec
  Model.UVData Model.Reorder Model.Freq Model.Pol Model.Add Model.UVCal
  Proofs.FreqProofs Proofs.FreqReorder Proofs.ReorderProofs Proofs.AddAxis Proofs.AddMove Proofs.AddJoin Proofs.CalArrange Proofs.SelectTotal.
Import ListNotations.
Notation length := List.length.
Open Scope list_scope.
Open Scope Z_scope.
Notation Ntimes := UVCal.Ntimes.

(** ** Distinct labels, as lists *)
Lemma ants_distinct u : distinct (Nants u) (ant_at u) <-> NoDup (c_ants u).
Proof. apply (distinct_list 0); reflexivity. Qed.
Lemma times_distinct u : distinct (Ntimes u) (time_at u) <-> NoDup (time_keys u).
Proof. apply (distinct_list 0); reflexivity. Qed.
Lemma jones_distinct u : distinct (Njones u) (jones_at u) <-> NoDup (c_jones u).
Proof. apply (distinct_list 0); reflexivity. Qed.

Definition cal_shaped (u : ucal) : Prop :=
  (length (c_int_time u) = Ntimes u /\
   (forall l, c_time_array u = Some l -> length l = Ntimes u) /\ (forall l, c_lst_array u = Some l -> length l = Ntimes u) /\
   (forall l, c_lst_range u = Some l -> length l = Ntimes u) /\ (forall l, c_ref_ant u = Some l -> length l = Ntimes u)) /\
  (if c_wide u then length (c_freq_range u) = length (c_spws u)
   else length (c_widths u) = length (c_freqs u) /\ length (c_flex u) = length (c_freqs u) /\
        forall w, In w (c_flex u) <-> In w (c_spws u)) /\
  NoDup (c_spws u) /\ (forall l, c_flex_jones u = Some l -> length l = length (c_spws u)).

Lemma chans_nth' u f : cal_shaped u -> chan_at u f = nth f (chans u) (0, 0).
Proof.
  intros (_ & H & _). unfold chans, chan_at. destruct (c_wide u).
  - symmetry. apply (map_nth (fun w => (w, 0))).
  - rewrite combine_nth by lia. reflexivity.
Qed.
Lemma chans_length' u : cal_shaped u -> length (chans u) = Nchans u.
Proof.
  intros (_ & H & _). unfold chans, Nchans. destruct (c_wide u); [apply map_length|]. rewrite combine_length. lia.
Qed.
Lemma cal_ok_lists u : cal_ok u <-> cal_shaped u /\ NoDup (c_ants u) /\ NoDup (chans u) /\ NoDup (time_keys u) /\ NoDup (c_jones u).
Proof.
  unfold cal_ok. rewrite ants_distinct, times_distinct, jones_distinct. unfold cal_shaped. split.
  - intros H. pose proof H as (A & B & C & D & E & F & G & I). split; [tauto|]. split; [exact E|]. split; [|tauto].
    apply (distinct_list (0, 0) (chans u) (chan_at u) (Nchans u)); [|intros; apply chans_nth'|exact F].
    + apply chans_length'. unfold cal_shaped. tauto.
    + unfold cal_shaped. tauto.
  - intros ((A & B & C & D) & E & F & G & I). do 5 (split; [assumption|]). split; [|tauto].
    apply (distinct_list (0, 0) (chans u) (chan_at u) (Nchans u)); [|intros; apply chans_nth'|exact F].
    + apply chans_length'. unfold cal_shaped. tauto.
    + unfold cal_shaped. tauto.
Qed.

Lemma take_NoDup {A} (d : A) l s : NoDup l -> Permutation s (seq 0 (length l)) -> NoDup (take d l s).
Proof. intros N P. apply (Permutation_NoDup (Permutation_sym (take_perm d l s P))), N. Qed.

(** ** Each axis *)
Ltac other_axes u H :=
  try reflexivity; try assumption; try (symmetry; apply otake_seq; assumption); try (symmetry; apply otake_seq, range_len);
  try (symmetry; apply take_seq);
  try (match goal with |- _ = take _ (chans u) (seq 0 (Nchans u)) => rewrite <- (chans_length u H); symmetry; apply take_seq end);
  try (match goal with |- _ = take _ (infos u) (seq 0 (Nchans u)) => rewrite <- (infos_length u H); symmetry; apply take_seq end);
  try (match goal with |- forall a f t j, _ -> _ -> _ -> _ -> _ => intros; unfold on0, on1, on2, on3; rewrite !seq_nth by assumption; reflexivity end).

Lemma take_ants_arranged idx u : cal_ok u -> Permutation idx (seq 0 (Nants u)) ->
  arranged idx (seq 0 (Nchans u)) (seq 0 (Ntimes u)) (seq 0 (Njones u)) u (take_ants idx u).
Proof.
  intros H P. pose proof H as ((L1 & L2 & L3 & L4 & L5) & _).
  constructor; cbn [take_ants c_gain c_wide c_compat c_ants c_spws c_freq_range c_freqs c_widths c_flex c_flex_jones c_time_array c_time_range
    c_lst_array c_lst_range c_ref_ant c_int_time c_jones c_sol c_flags c_qual c_tqual]; other_axes u H.
  - rewrite <- L1. symmetry. apply take_seq.
  - destruct (c_qual u) as [q|]; [|exact I]. cbn [option_map]. intros. unfold on0. rewrite !seq_nth by assumption. reflexivity.
  - destruct (c_tqual u) as [q|]; [|exact I]. intros. rewrite !seq_nth by assumption. reflexivity.
  - apply cal_ok_lists in H as (A & B & C & D & E). apply cal_ok_lists. split; [exact A|]. split; [|tauto].
    apply take_NoDup; assumption.
Qed.

Lemma take_jones_arranged idx u : cal_ok u -> Permutation idx (seq 0 (Njones u)) ->
  arranged (seq 0 (Nants u)) (seq 0 (Nchans u)) (seq 0 (Ntimes u)) idx u (take_jones idx u).
Proof.
  intros H P. pose proof H as ((L1 & L2 & L3 & L4 & L5) & _).
  constructor; cbn [take_jones c_gain c_wide c_compat c_ants c_spws c_freq_range c_freqs c_widths c_flex c_flex_jones c_time_array c_time_range
    c_lst_array c_lst_range c_ref_ant c_int_time c_jones c_sol c_flags c_qual c_tqual]; other_axes u H.
  - rewrite <- L1. symmetry. apply take_seq.
  - destruct (c_qual u) as [q|]; [|exact I]. cbn [option_map]. intros. unfold on3. rewrite !seq_nth by assumption. reflexivity.
  - destruct (c_tqual u) as [q|]; [|exact I]. cbn [option_map]. intros. unfold take2. rewrite !seq_nth by assumption. reflexivity.
  - apply cal_ok_lists in H as (A & B & C & D & E). apply cal_ok_lists. split; [exact A|]. do 3 (split; [assumption|]).
    apply take_NoDup; assumption.
Qed.

Lemma keys_take_times idx u : Permutation idx (seq 0 (Ntimes u)) -> time_keys (take_times idx u) = take 0 (time_keys u) idx.
Proof.
  intros P. destruct (perm_seq_facts _ _ P) as (L & _ & _ & I). unfold Ntimes, time_keys in *. cbn [take_times c_time_range c_time_array].
  destruct (c_time_range u) as [l|]; cbn [option_map].
  - symmetry. apply take_map. intros k Hk. apply I in Hk. rewrite map_length in Hk. exact Hk.
  - destruct (c_time_array u) as [l|]; cbn [option_map]; [reflexivity|]. destruct idx; [reflexivity|discriminate].
Qed.

Lemma take_times_arranged idx u : cal_ok u -> Permutation idx (seq 0 (Ntimes u)) ->
  arranged (seq 0 (Nants u)) (seq 0 (Nchans u)) idx (seq 0 (Njones u)) u (take_times idx u).
Proof.
  intros H P. pose proof (keys_take_times idx u P) as K.
  assert (Kn : Ntimes (take_times idx u) = length idx) by (unfold Ntimes; rewrite K; apply take_length).
  constructor; cbn [take_times c_gain c_wide c_compat c_ants c_spws c_freq_range c_freqs c_widths c_flex c_flex_jones c_time_array c_time_range
    c_lst_array c_lst_range c_ref_ant c_int_time c_jones c_sol c_flags c_qual c_tqual]; other_axes u H.
  - destruct (c_qual u) as [q|]; [|exact I]. cbn [option_map]. intros. unfold on2. rewrite !seq_nth by assumption. reflexivity.
  - destruct (c_tqual u) as [q|]; [|exact I]. cbn [option_map]. intros. unfold take1. rewrite !seq_nth by assumption. reflexivity.
  - apply cal_ok_lists in H as (A & B & C & D & E). apply cal_ok_lists. destruct A as (_ & A). split; [split; [|exact A]|].
    + rewrite Kn. cbn [take_times c_time_array c_lst_array c_lst_range c_ref_ant c_int_time].
      split; [apply take_length|].
      assert (G : forall {T} (d : T) o (l : list T), option_map (fun l => take d l idx) o = Some l -> length l = length idx).
      { intros T d [l'|] l; [|discriminate]. cbn [option_map]. intros [= <-]. apply take_length. }
      do 3 (split; [intros l; apply G|]). intros l; apply G.
    + split; [exact B|]. split; [exact C|]. split; [|exact E]. rewrite K. apply take_NoDup; assumption.
Qed.

Lemma window_jones_take u w p idx r : cal_ok u -> Permutation idx (seq 0 (length (c_spws u))) ->
  c_spws r = take 0 (c_spws u) idx -> c_flex_jones r = option_map (fun l => take 0 l idx) (c_flex_jones u) ->
  (window_jones r w p <-> window_jones u w p).
Proof.
  intros H P Es Ej. destruct (perm_seq_facts _ _ P) as (L & _ & B & _). apply cal_ok_lists in H as ((_ & _ & _ & Hl) & _).
  unfold window_jones. rewrite Es, Ej, take_length. split.
  - intros (fj & k & E & Hk & Ew & En). destruct (c_flex_jones u) as [l|]; [|discriminate]. cbn [option_map] in E. injection E as <-.
    rewrite L in Hk. specialize (Hl l eq_refl). exists l, (nth k idx O). split; [reflexivity|]. specialize (B k Hk). split; [exact B|].
    rewrite nth_take in Ew by lia. split; [exact Ew|]. apply nth_error_nth with (d := 0) in En. rewrite nth_take in En by lia.
    rewrite <- En. apply nth_error_nth'. lia.
  - intros (fj & k & E & Hk & Ew & En). rewrite E. cbn [option_map]. destruct (perm_inverse _ _ k P Hk) as (k' & Hk' & <-).
    exists (take 0 fj idx), k'. split; [reflexivity|]. split; [lia|]. rewrite nth_take by lia. split; [exact Ew|].
    apply nth_error_nth with (d := 0) in En. rewrite <- En. rewrite (nth_error_nth' _ 0) by (rewrite take_length; lia). rewrite nth_take by lia. reflexivity.
Qed.

Lemma take_windows_arranged idx u : cal_ok u -> c_wide u = true -> Permutation idx (seq 0 (length (c_spws u))) ->
  arranged (seq 0 (Nants u)) idx (seq 0 (Ntimes u)) (seq 0 (Njones u)) u (take_windows idx u).
Proof.
  intros H W P. pose proof H as ((L1 & L2 & L3 & L4 & L5) & Hf & _). rewrite W in Hf.
  assert (P' : Permutation idx (seq 0 (Nchans u))) by (unfold Nchans; rewrite W; exact P).
  assert (Ec : chans (take_windows idx u) = take (0, 0) (chans u) idx).
  { unfold chans. cbn [take_windows c_wide c_spws]. rewrite W. symmetry. apply take_map. intros k Hk. apply (perm_seq_facts _ _ P) in Hk. exact Hk. }
  constructor; cbn [take_windows c_gain c_wide c_compat c_ants c_spws c_freq_range c_freqs c_widths c_flex c_flex_jones c_time_array c_time_range
    c_lst_array c_lst_range c_ref_ant c_int_time c_jones c_sol c_flags c_qual c_tqual]; other_axes u H.
  - unfold infos. cbn [take_windows c_wide c_freq_range]. rewrite W. reflexivity.
  - rewrite <- L1. symmetry. apply take_seq.
  - destruct (c_flex_jones u); cbn [option_map]; split; congruence.
  - intros w p. apply (window_jones_take u w p idx); [exact H|exact P|reflexivity|reflexivity].
  - destruct (c_qual u) as [q|]; [|exact I]. cbn [option_map]. intros. unfold on1. rewrite !seq_nth by assumption. reflexivity.
  - destruct (c_tqual u) as [q|]; [|exact I]. cbn [option_map]. intros. unfold take0. rewrite !seq_nth by assumption. reflexivity.
  - apply cal_ok_lists in H as (A & B & C & D & E). apply cal_ok_lists.
    split; [|split; [exact B|split; [|tauto]]].
    + destruct A as (A & _ & N & Al). unfold cal_shaped. cbn [take_windows c_wide c_spws c_freq_range c_flex_jones c_int_time c_time_array c_lst_array c_lst_range c_ref_ant].
      rewrite W. rewrite !take_length. split; [exact A|]. split; [reflexivity|]. split; [apply take_NoDup; assumption|].
      intros l El. destruct (c_flex_jones u); [|discriminate]. injection El as <-. apply take_length.
    + rewrite Ec. apply take_NoDup; [exact C|]. rewrite (chans_length u ltac:(apply cal_ok_lists; tauto)). exact P'.
Qed.

Lemma take_channels_arranged idx u : cal_ok u -> c_wide u = false -> Permutation idx (seq 0 (length (c_freqs u))) ->
  exists r, take_channels idx u = Ok r /\ arranged (seq 0 (Nants u)) idx (seq 0 (Ntimes u)) (seq 0 (Njones u)) u r /\
    same_ants u r /\ same_times u r /\ same_jones u r /\
    c_flex r = take 0 (c_flex u) idx /\ c_freqs r = take 0 (c_freqs u) idx /\ (c_spws r = c_spws u \/ appearance_order (c_flex r) (c_spws r)).
Proof.
  intros H W P. pose proof H as ((L1 & L2 & L3 & L4 & L5) & Hf & N & Hl & _). rewrite W in Hf. destruct Hf as (Hw & Hx & Hm).
  assert (P' : Permutation idx (seq 0 (Nchans u))) by (unfold Nchans; rewrite W; exact P).
  unfold take_channels. set (flex := take 0 (c_flex u) idx).
  assert (Pf : Permutation flex (c_flex u)) by (apply take_perm; rewrite Hx; exact P).
  assert (G : exists spws fj, (if (1 <? length (c_spws u))%nat then
       let spws := take 0 flex (first_positions flex) in
       do pos <- mapM (fun w => match index_of Z.eqb w (c_spws u) with Some i => Ok i | None => Err IndexError end) spws;
       Ok (spws, option_map (fun l => take 0 l pos) (c_flex_jones u))
     else Ok (c_spws u, c_flex_jones u)) = Ok (spws, fj) /\
     exists pos, Permutation pos (seq 0 (length (c_spws u))) /\ spws = take 0 (c_spws u) pos /\ fj = option_map (fun l => take 0 l pos) (c_flex_jones u) /\
       (spws = c_spws u \/ appearance_order flex spws)).
  { destruct (1 <? length (c_spws u))%nat eqn:E1.
    - pose proof (first_positions_spec flex) as HA. set (ns := take 0 flex (first_positions flex)) in *. cbv zeta.
      assert (Hns : forall w, In w ns <-> In w (c_spws u)).
      { intros w. destruct HA as [HA _]. rewrite HA, <- Hm. split; apply Permutation_in; [|symmetry]; exact Pf. }
      assert (PN : Permutation ns (c_spws u)) by (apply NoDup_Permutation; [apply (appearance_NoDup _ _ HA)|exact N|exact Hns]).
      destruct (mapM_total (fun w => match index_of Z.eqb w (c_spws u) with Some i => Ok i | None => Err IndexError end) ns) as (pos & Ep).
      { intros w Hw'. apply Hns in Hw'. destruct (index_of Z.eqb w (c_spws u)) as [i|] eqn:Ei; [eauto|].
        apply (index_of_None Z.eqb Z.eqb_eq) in Ei. contradiction. }
      rewrite Ep. cbn [bind]. do 2 eexists. split; [reflexivity|]. exists pos.
      pose proof (mapM_Ok_length _ _ _ Ep) as Lp. pose proof (Permutation_length PN) as LN.
      assert (En : forall k, (k < length ns)%nat -> (nth k pos 0 < length (c_spws u))%nat /\ nth (nth k pos O) (c_spws u) 0 = nth k ns 0).
      { intros k Hk. pose proof (mapM_Ok_nth _ _ _ 0 0%nat Ep k Hk) as E. cbv beta in E.
        destruct (index_of Z.eqb (nth k ns 0) (c_spws u)) as [i|] eqn:Ei; [|discriminate]. injection E as <-.
        apply (index_of_Some Z.eqb Z.eqb_eq 0) in Ei. tauto. }
      assert (Et : ns = take 0 (c_spws u) pos).
      { apply (nth_ext _ _ 0 0); [rewrite take_length; congruence|]. intros k Hk. rewrite nth_take by lia. symmetry. apply En, Hk. }
      split; [|split; [exact Et|split; [reflexivity|right; exact HA]]].
      apply perm_seq_of; [congruence| |intros k Hk; apply En; lia].
      apply (NoDup_nth pos O). intros i j Hi Hj E. apply (proj1 (NoDup_nth ns 0) (appearance_NoDup _ _ HA)); [lia|lia|].
      rewrite <- (proj2 (En i ltac:(lia))), <- (proj2 (En j ltac:(lia))), E. reflexivity.
    - do 2 eexists. split; [reflexivity|]. exists (seq 0 (length (c_spws u))). split; [reflexivity|]. split; [symmetry; apply take_seq|].
      split; [|left; reflexivity]. symmetry. apply (otake_seq 0). exact Hl. }
  destruct G as (spws & fj & E0 & pos & Pp & Es & Ej & Ha). cbv zeta in E0 |- *. rewrite E0. clear E0. cbn [bind]. eexists. split; [reflexivity|].
  split; [|unfold same_ants, same_times, same_jones; cbn [c_ants c_time_array c_time_range c_lst_array c_lst_range c_ref_ant c_int_time c_jones c_flex c_freqs c_spws]; tauto].
  match goal with |- arranged _ _ _ _ _ ?x => set (r := x) end.
  assert (Ec : chans r = take (0, 0) (chans u) idx).
  { unfold chans, r. cbn [c_wide c_flex c_freqs]. rewrite W. apply combine_take. exact Hx. }
  constructor; try (unfold r at 1); cbn [c_gain c_wide c_compat c_ants c_spws c_freq_range c_freqs c_widths c_flex c_flex_jones c_time_array c_time_range
    c_lst_array c_lst_range c_ref_ant c_int_time c_jones c_sol c_flags c_qual c_tqual]; other_axes u H.
  - unfold infos, r. cbn [c_wide c_widths]. rewrite W. symmetry. apply take_map. intros k Hk. apply (perm_seq_facts _ _ P) in Hk. lia.
  - rewrite <- L1. symmetry. apply take_seq.
  - rewrite Ej. destruct (c_flex_jones u); cbn [option_map]; split; congruence.
  - intros w p. apply (window_jones_take u w p pos); [exact H|exact Pp|exact Es|exact Ej].
  - destruct (c_qual u) as [q|]; [|exact I]. cbn [option_map c_qual r]. intros. unfold on1. rewrite !seq_nth by assumption. reflexivity.
  - destruct (c_tqual u) as [q|]; [|exact I]. cbn [option_map c_tqual r]. intros. unfold take0. rewrite !seq_nth by assumption. reflexivity.
  - apply cal_ok_lists in H as (A & B & C & D & E). apply cal_ok_lists.
    split; [|split; [exact B|split; [|tauto]]].
    + destruct A as (A & _ & _ & Al). unfold cal_shaped, r. cbn [c_wide c_spws c_freq_range c_flex_jones c_int_time c_time_array c_lst_array c_lst_range c_ref_ant c_freqs c_widths c_flex].
      rewrite W. unfold flex. rewrite !take_length. split; [exact A|]. split.
      * split; [reflexivity|]. split; [reflexivity|]. intros w. rewrite Es. transitivity (In w (c_flex u)); [split; apply Permutation_in; [|symmetry]; exact Pf|].
        rewrite Hm. split; apply Permutation_in; [symmetry|]; apply take_perm, Pp.
      * split; [rewrite Es; apply take_NoDup; assumption|]. intros l El. rewrite Ej in El. rewrite Es, take_length.
        destruct (c_flex_jones u); [|discriminate]. injection El as <-. apply take_length.
    + change (NoDup (chans r)). rewrite Ec. apply take_NoDup; [exact C|]. rewrite (chans_length u ltac:(apply cal_ok_lists; tauto)). exact P'.
Qed.
