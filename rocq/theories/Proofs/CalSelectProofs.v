(** Selecting calibration solutions. *)
From Coq Require Import List ZArith Bool Arith QArith Lia Permutation Sorted String.
From Verif Require Import Lib.Py Lib.Np Lib.Cube Lib.Sorting Spec.TimesSpec Spec.FreqSpec Spec.AddSpec Spec.SelectSpec Spec.CalSpec Spec.CalSelectSpec
  Model.UVData Model.Reorder Model.Tools Model.Pol Model.Times Model.Select Model.UVCal Model.CalSelect
  Proofs.TimesProofs Proofs.PhaseSplit Proofs.AddAxis Proofs.AddJoin Proofs.SelectProofs Proofs.SelectTotal Proofs.CalArrange Proofs.CalMove Proofs.CalSum.
Import ListNotations.
Notation length := List.length.
Open Scope list_scope.
Open Scope Z_scope.
Notation Ntimes := UVCal.Ntimes.

(** * Picking axis by axis *)
Lemma picked_id {A} (d : A) l : picked d (seq 0 (length l)) l l.
Proof. apply picked_all. reflexivity. Qed.
Lemma opicked_id {A} (d : A) o n : (forall l, o = Some l -> length l = n) -> opicked d (seq 0 n) o o.
Proof. destruct o as [l|]; intros H; [|exact I]. cbn. rewrite <- (H l eq_refl). apply picked_id. Qed.

Lemma picked_step {A} (d : A) n idx (l l' : list A) : picked d (seq 0 n) l l' -> (forall i, In i idx -> (i < n)%nat) ->
  picked d idx l (take d l' idx).
Proof.
  unfold picked, take. intros -> B. apply map_ext_in. intros i I. specialize (B i I).
  rewrite (nth_map (fun i => nth i l d) (seq 0 n) i O d) by (rewrite seq_length; exact B). rewrite seq_nth by exact B. reflexivity.
Qed.
Lemma opicked_step {A} (d : A) n idx (o o' : option (list A)) : opicked d (seq 0 n) o o' -> (forall i, In i idx -> (i < n)%nat) ->
  opicked d idx o (option_map (fun l => take d l idx) o').
Proof. destruct o as [l|], o' as [l'|]; cbn; try tauto. apply picked_step. Qed.
Lemma nth_in_idx idx n k : (forall i, In i idx -> (i < n)%nat) -> (k < length idx)%nat -> nth (nth k idx O) (seq 0 n) O = nth k idx O /\ (nth k idx O < length (seq 0 n))%nat.
Proof. intros B L. pose proof (B _ (nth_In idx O L)) as X. rewrite seq_length. split; [apply seq_nth, X | exact X]. Qed.

Definition all_windows (u r : ucal) : Prop := c_spws r = c_spws u /\ c_flex_jones r = c_flex_jones u.

Lemma picked_whole u : cal_ok u -> cal_picked (seq 0 (Nants u)) (seq 0 (Nchans u)) (seq 0 (Ntimes u)) (seq 0 (Njones u)) u u.
Proof.
  intros OK. pose proof OK as ((L1 & L2 & L3 & L4 & L5) & LC & ND & LF & _). constructor.
  - auto.
  - apply picked_id.
  - unfold Nchans. destruct (c_wide u).
    + split; [apply picked_id | rewrite <- LC; apply picked_id].
    + destruct LC as (LW & LX & _). split; [apply picked_id|]. split; [rewrite <- LW | rewrite <- LX]; apply picked_id.
  - repeat split; try (apply opicked_id; assumption).
    + apply opicked_id. apply range_len.
    + rewrite <- L1. apply picked_id.
  - apply picked_id.
  - intros a f t j La Lf Lt Lj. rewrite seq_length in *. rewrite !seq_nth by assumption. reflexivity.
  - destruct (c_tqual u); [|exact I]. intros f t j Lf Lt Lj. rewrite seq_length in *. rewrite !seq_nth by assumption. reflexivity.
  - exists (seq 0 (length (c_spws u))). split; [|split; [apply picked_id | apply opicked_id; exact LF]].
    apply positions_all. intros k Lk. unfold Nchans, chan_at. destruct (c_wide u).
    + exists k. split; [apply in_seq; lia | reflexivity].
    + destruct LC as (LW & LX & EQ). pose proof (nth_In (c_spws u) 0 Lk) as I. apply EQ in I.
      apply (In_nth _ _ 0) in I as (f & Lf & E). exists f. split; [apply in_seq; lia | exact E].
Qed.

Lemma ants_step sf st sj u r idx : cal_picked (seq 0 (Nants u)) sf st sj u r -> (forall i, In i idx -> (i < Nants u)%nat) ->
  cal_picked idx sf st sj u (take_ants idx r).
Proof.
  intros [K A C T J E Q W] B. constructor; try assumption.
  - apply (picked_step _ (Nants u)); assumption.
  - intros a f t j La Lf Lt Lj. destruct (nth_in_idx idx _ a B La) as (X & Y).
    specialize (E (nth a idx O) f t j Y Lf Lt Lj). rewrite X in E. rewrite <- E. unfold entry. cbn. destruct (c_qual r); reflexivity.
Qed.
Lemma times_step sa sf sj u r idx : cal_picked sa sf (seq 0 (Ntimes u)) sj u r -> (forall i, In i idx -> (i < Ntimes u)%nat) ->
  cal_picked sa sf idx sj u (take_times idx r).
Proof.
  intros [K A C T J E Q W] B. destruct T as (T1 & T2 & T3 & T4 & T5 & T6). constructor; try assumption.
  - repeat split; cbn; [apply (opicked_step 0) with (n := Ntimes u) | apply (opicked_step (0, 0)) with (n := Ntimes u) |
      apply (opicked_step 0) with (n := Ntimes u) | apply (opicked_step (0, 0)) with (n := Ntimes u) |
      apply (opicked_step 0) with (n := Ntimes u) | apply (picked_step 0) with (n := Ntimes u)]; assumption.
  - intros a f t j La Lf Lt Lj. destruct (nth_in_idx idx _ t B Lt) as (X & Y).
    specialize (E a f (nth t idx O) j La Lf Y Lj). rewrite X in E. rewrite <- E. unfold entry. cbn. destruct (c_qual r); reflexivity.
  - cbn. destruct (c_tqual u) as [q|], (c_tqual r) as [q'|]; cbn; try tauto.
    intros f t j Lf Lt Lj. destruct (nth_in_idx idx _ t B Lt) as (X & Y).
    specialize (Q f (nth t idx O) j Lf Y Lj). rewrite X in Q. exact Q.
Qed.
Lemma jones_step sa sf st u r idx : cal_picked sa sf st (seq 0 (Njones u)) u r -> (forall i, In i idx -> (i < Njones u)%nat) ->
  cal_picked sa sf st idx u (take_jones idx r).
Proof.
  intros [K A C T J E Q W] B. constructor; try assumption.
  - apply (picked_step _ (Njones u)); assumption.
  - intros a f t j La Lf Lt Lj. destruct (nth_in_idx idx _ j B Lj) as (X & Y).
    specialize (E a f t (nth j idx O) La Lf Lt Y). rewrite X in E. rewrite <- E. unfold entry. cbn. destruct (c_qual r); reflexivity.
  - cbn. destruct (c_tqual u) as [q|], (c_tqual r) as [q'|]; cbn; try tauto.
    intros f t j Lf Lt Lj. destruct (nth_in_idx idx _ j B Lj) as (X & Y).
    specialize (Q f t (nth j idx O) Lf Lt Y). rewrite X in Q. exact Q.
Qed.

Lemma wide_step sa st sj u r idx : cal_ok u -> c_wide u = true -> cal_picked sa (seq 0 (Nchans u)) st sj u r -> all_windows u r ->
  StronglySorted lt idx -> (forall i, In i idx -> (i < Nchans u)%nat) ->
  cal_picked sa idx st sj u (take_windows idx r).
Proof.
  intros OK WD [K A C T J E Q W] (AW & AF) SI B. pose proof OK as (_ & LC & ND & LF & _). rewrite WD in LC.
  assert (NC : Nchans u = length (c_spws u)) by (unfold Nchans; rewrite WD; reflexivity).
  constructor; try assumption.
  - rewrite WD in *. destruct C as (C1 & C2). split; cbn; [apply (picked_step 0 (Nchans u)) | apply (picked_step (0, 0) (Nchans u))]; assumption.
  - intros a f t j La Lf Lt Lj. destruct (nth_in_idx idx _ f B Lf) as (X & Y).
    specialize (E a (nth f idx O) t j La Y Lt Lj). rewrite X in E. rewrite <- E. unfold entry. cbn. destruct (c_qual r); reflexivity.
  - cbn. destruct (c_tqual u) as [q|], (c_tqual r) as [q'|]; cbn; try tauto.
    intros f t j Lf Lt Lj. destruct (nth_in_idx idx _ f B Lf) as (X & Y).
    specialize (Q (nth f idx O) t j Y Lt Lj). rewrite X in Q. exact Q.
  - exists idx. split; [split; [exact SI|]|split].
    + intros k. unfold chan_at. rewrite WD. cbn [fst]. split.
      * intros Ik. split; [rewrite <- NC; apply B, Ik | exists k; auto].
      * intros (Lk & f & If & Ef). assert (k = f) as ->; [|exact If]. symmetry.
        apply (proj1 (NoDup_nth (c_spws u) 0) ND); [rewrite <- NC; apply B, If | exact Lk | exact Ef].
    + cbn. rewrite AW. apply (picked_step 0 (Nchans u)); [|exact B]. rewrite NC. apply picked_id.
    + cbn. rewrite AF. apply (opicked_step 0 (Nchans u)); [|exact B]. rewrite NC. apply opicked_id, LF.
Qed.

Lemma take_sorted l idx : StronglySorted lt l -> StronglySorted lt idx -> (forall i, In i idx -> (i < length l)%nat) -> StronglySorted lt (take O l idx).
Proof.
  intros SL. induction 1 as [|x idx Sx IH F]; intros B; [constructor|]. cbn. constructor.
  - apply IH. intros i I. apply B. right; exact I.
  - apply Forall_forall. intros y Iy. unfold take in Iy. apply in_map_iff in Iy as (i & <- & Ii).
    rewrite Forall_forall in F. specialize (F i Ii). apply (proj1 (StronglySorted_nth lt O l) SL); [exact F|]. apply B. right; exact Ii.
Qed.

Lemma chans_step sa st sj u r idx (wins : option (list nat)) : cal_ok u -> c_wide u = false -> cal_picked sa (seq 0 (Nchans u)) st sj u r ->
  all_windows u r -> (forall i, In i idx -> (i < Nchans u)%nat) ->
  (forall w, wins = Some w -> StronglySorted lt w /\ (forall k, In k w -> (k < length (c_spws u))%nat) /\
     forall f, In f idx -> exists k, In k w /\ nth k (c_spws u) 0 = nth f (c_flex u) 0) ->
  cal_picked sa idx st sj u (keep_channels idx (match wins with Some w => drop_windows w r | None => r end)).
Proof.
  intros OK WD [K A C T J E Q W] (AW & AF) B HW. pose proof OK as (_ & LC & ND & LF & _). rewrite WD in LC. destruct LC as (LW & LX & EQ).
  assert (NC : Nchans u = length (c_freqs u)) by (unfold Nchans; rewrite WD; reflexivity).
  set (r1 := match wins with Some w => drop_windows w r | None => r end).
  set (w := match wins with Some w => w | None => seq 0 (length (c_spws u)) end).
  assert (SW : StronglySorted lt w /\ (forall k, In k w -> (k < length (c_spws u))%nat) /\
               forall f, In f idx -> exists k, In k w /\ nth k (c_spws u) 0 = nth f (c_flex u) 0).
  { unfold w. destruct wins as [w0|]; [apply HW; reflexivity|]. split; [apply seq_sorted|]. split; [intros k I; apply in_seq in I; lia|].
    intros f If. specialize (B f If). assert (I : In (nth f (c_flex u) 0) (c_flex u)) by (apply nth_In; lia). apply EQ in I.
    apply (In_nth _ _ 0) in I as (k & Lk & Ek). exists k. split; [apply in_seq; lia | exact Ek]. }
  destruct SW as (SW & BW & CW).
  assert (R1 : c_spws r1 = take 0 (c_spws u) w /\ c_flex_jones r1 = otake 0 (c_flex_jones u) w).
  { unfold r1, w. destruct wins as [w0|]; cbn; [rewrite AW, AF; split; reflexivity|]. rewrite AW, AF. split; [symmetry; apply take_seq | symmetry; apply otake_seq, LF]. }
  destruct R1 as (R1 & R2).
  assert (RR : c_gain r1 = c_gain r /\ c_wide r1 = c_wide r /\ c_compat r1 = c_compat r /\ c_ants r1 = c_ants r /\ c_freqs r1 = c_freqs r /\
               c_widths r1 = c_widths r /\ c_flex r1 = c_flex r /\ c_time_array r1 = c_time_array r /\ c_time_range r1 = c_time_range r /\
               c_lst_array r1 = c_lst_array r /\ c_lst_range r1 = c_lst_range r /\ c_ref_ant r1 = c_ref_ant r /\ c_int_time r1 = c_int_time r /\
               c_jones r1 = c_jones r /\ c_sol r1 = c_sol r /\ c_flags r1 = c_flags r /\ c_qual r1 = c_qual r /\ c_tqual r1 = c_tqual r).
  { unfold r1. destruct wins; repeat split; reflexivity. }
  clearbody r1. destruct RR as (Q1 & Q2 & Q3 & Q4 & Q5 & Q6 & Q7 & Q8 & Q9 & Q10 & Q11 & Q12 & Q13 & Q14 & Q15 & Q16 & Q17 & Q18).
  assert (FL : c_flex r = c_flex u).
  { rewrite WD in C. destruct C as (_ & _ & C3). unfold picked in C3. rewrite C3, NC, <- LX. apply take_seq. }
  constructor.
  - cbn. rewrite Q1, Q2, Q3. exact K.
  - cbn. rewrite Q4. exact A.
  - rewrite WD in *. cbn. rewrite Q5, Q6, Q7. destruct C as (C1 & C2 & C3).
    split; [|split]; (apply (picked_step 0 (Nchans u)); assumption).
  - cbn. rewrite Q8, Q9, Q10, Q11, Q12, Q13. exact T.
  - cbn. rewrite Q14. exact J.
  - intros a f t j La Lf Lt Lj. destruct (nth_in_idx idx _ f B Lf) as (X & Y).
    specialize (E a (nth f idx O) t j La Y Lt Lj). rewrite X in E. rewrite <- E. unfold entry. cbn. rewrite Q15, Q16, Q17. destruct (c_qual r); reflexivity.
  - cbn. rewrite Q18. destruct (c_tqual u) as [q|], (c_tqual r) as [q'|]; cbn; try tauto.
    intros f t j Lf Lt Lj. destruct (nth_in_idx idx _ f B Lf) as (X & Y).
    specialize (Q (nth f idx O) t j Y Lt Lj). rewrite X in Q. exact Q.
  - cbn. rewrite Q7, FL, R1, R2.
    set (m := nonzero _ (take 0 (c_spws u) w)).
    assert (BM : forall i, In i m -> (i < length w)%nat).
    { intros i I. apply (nonzero_spec 0) in I as (L & _). rewrite take_length in L. exact L. }
    exists (take O w m). split; [split|split].
    + apply take_sorted; [exact SW | apply nonzero_sorted | exact BM].
    + intros k. unfold chan_at. rewrite WD. cbn [fst]. split.
      * intros I. unfold take in I. apply in_map_iff in I as (i & <- & Ii). pose proof (BM i Ii) as Li. split; [apply BW, nth_In, Li|].
        apply (nonzero_spec 0) in Ii as (_ & Ii). apply isinZ_spec in Ii. rewrite nth_take in Ii by exact Li.
        unfold take in Ii. apply in_map_iff in Ii as (f & Ef & If). exists f. auto.
      * intros (Lk & f & If & Ef). destruct (CW f If) as (k' & Ik' & Ek').
        assert (k' = k) as ->. { apply (proj1 (NoDup_nth (c_spws u) 0) ND); [apply BW, Ik' | exact Lk | congruence]. }
        apply (In_nth _ _ O) in Ik' as (i & Li & <-). unfold take. apply in_map_iff. exists i. split; [reflexivity|].
        apply (nonzero_spec 0). rewrite take_length. split; [exact Li|]. apply isinZ_spec. rewrite nth_take by exact Li.
        unfold take. apply in_map_iff. exists f. auto.
    + unfold picked. rewrite take_take by exact BM. reflexivity.
    + rewrite <- R2. destruct (c_flex_jones u) as [fj|]; cbn in R2; rewrite R2; cbn; [|exact I]. unfold picked. rewrite take_take by exact BM. reflexivity.
Qed.

(** * What is picked from a valid object is a valid object *)
Lemma picked_length {A} (d : A) idx l l' : picked d idx l l' -> length l' = length idx.
Proof. intros ->. apply map_length. Qed.
Lemma picked_nth {A} (d d' : A) idx l l' k : picked d idx l l' -> (k < length idx)%nat -> nth k l' d' = nth (nth k idx O) l d.
Proof. intros -> L. rewrite (nth_map _ _ _ O d') by exact L. reflexivity. Qed.
Lemma sorted_nodup l : StronglySorted lt l -> NoDup l.
Proof.
  induction 1 as [|x l S IH F]; constructor; [|exact IH]. intros I. rewrite Forall_forall in F. specialize (F x I). lia.
Qed.
Lemma opicked_inv {A} (d : A) idx o o' l' : opicked d idx o o' -> o' = Some l' -> exists l, o = Some l /\ picked d idx l l'.
Proof. intros H ->. destruct o as [l|]; [|destruct H]. exists l. auto. Qed.

Section Valid.
Variables (sa sf st sj : list nat) (u r : ucal).
Hypothesis OK : cal_ok u.
Hypothesis P : cal_picked sa sf st sj u r.
Hypothesis BA : StronglySorted lt sa /\ forall i, In i sa -> (i < Nants u)%nat.
Hypothesis BF : StronglySorted lt sf /\ forall i, In i sf -> (i < Nchans u)%nat.
Hypothesis BT : StronglySorted lt st /\ forall i, In i st -> (i < Ntimes u)%nat.
Hypothesis BJ : StronglySorted lt sj /\ forall i, In i sj -> (i < Njones u)%nat.

Lemma keys_picked : picked 0 st (time_keys u) (time_keys r).
Proof.
  destruct P as [_ _ _ (T1 & T2 & _) _ _ _ _]. unfold time_keys. destruct BT as (_ & BT').
  destruct (c_time_range u) as [tr|] eqn:ER, (c_time_range r) as [tr'|]; try (exfalso; exact T2).
  - cbn in T2. unfold picked in *. rewrite T2, map_map. apply map_ext_in. intros i I. specialize (BT' i I).
    rewrite (nth_map fst tr i (0, 0) 0); [reflexivity|]. unfold Ntimes, time_keys in BT'. rewrite ER, map_length in BT'. exact BT'.
  - destruct (c_time_array u) as [ta|] eqn:EA, (c_time_array r) as [ta'|]; try (exfalso; exact T1); [exact T1|].
    destruct st as [|i s]; [reflexivity|]. specialize (BT' i (or_introl eq_refl)). unfold Ntimes, time_keys in BT'. rewrite ER, EA in BT'. cbn in BT'. lia.
Qed.
Lemma picked_Nants : Nants r = length sa.
Proof. apply (picked_length _ _ _ _ (cp_ants _ _ _ _ _ _ P)). Qed.
Lemma picked_Njones : Njones r = length sj.
Proof. apply (picked_length _ _ _ _ (cp_jones _ _ _ _ _ _ P)). Qed.
Lemma picked_Ntimes : Ntimes r = length st.
Proof. apply (picked_length _ _ _ _ keys_picked). Qed.
Lemma picked_Nchans : Nchans r = length sf.
Proof.
  pose proof (cp_chans _ _ _ _ _ _ P) as C. destruct (cp_kind _ _ _ _ _ _ P) as (_ & W & _). unfold Nchans. rewrite W.
  destruct (c_wide u); destruct C as (C & _); apply (picked_length _ _ _ _ C).
Qed.
Lemma picked_ant a : (a < length sa)%nat -> ant_at r a = ant_at u (nth a sa O).
Proof. apply picked_nth, (cp_ants _ _ _ _ _ _ P). Qed.
Lemma picked_jones j : (j < length sj)%nat -> jones_at r j = jones_at u (nth j sj O).
Proof. apply picked_nth, (cp_jones _ _ _ _ _ _ P). Qed.
Lemma picked_time t : (t < length st)%nat -> time_at r t = time_at u (nth t st O).
Proof. apply picked_nth, keys_picked. Qed.
Lemma picked_chan f : (f < length sf)%nat -> chan_at r f = chan_at u (nth f sf O).
Proof.
  intros L. pose proof (cp_chans _ _ _ _ _ _ P) as C. destruct (cp_kind _ _ _ _ _ _ P) as (_ & W & _). unfold chan_at. rewrite W.
  destruct (c_wide u).
  - destruct C as (C & _). rewrite (picked_nth _ 0 _ _ _ _ C L). reflexivity.
  - destruct C as (C1 & _ & C3). rewrite (picked_nth _ 0 _ _ _ _ C1 L), (picked_nth _ 0 _ _ _ _ C3 L). reflexivity.
Qed.

Lemma distinct_picked {L} (n n' : nat) idx (f g : nat -> L) : distinct n f -> StronglySorted lt idx /\ (forall i, In i idx -> (i < n)%nat) ->
  n' = length idx -> (forall k, (k < length idx)%nat -> g k = f (nth k idx O)) -> distinct n' g.
Proof.
  clear. intros D (S & B) -> E i j Li Lj H. rewrite !E in H by assumption.
  apply (proj1 (NoDup_nth idx O) (sorted_nodup _ S)); [exact Li | exact Lj|]. apply D; try (apply B, nth_In); assumption.
Qed.

Theorem picked_ok : cal_ok r.
Proof.
  pose proof OK as ((L1 & L2 & L3 & L4 & L5) & LC & ND & LF & DA & DF & DT & DJ).
  destruct (cp_windows _ _ _ _ _ _ P) as (rw & (SW & MW) & W1 & W2).
  destruct (cp_times _ _ _ _ _ _ P) as (T1 & T2 & T3 & T4 & T5 & T6).
  destruct (cp_kind _ _ _ _ _ _ P) as (_ & WD & _). pose proof (cp_chans _ _ _ _ _ _ P) as C.
  unfold cal_ok. rewrite picked_Ntimes, picked_Nants, picked_Njones, picked_Nchans, WD.
  split; [|split; [|split; [|split; [|split; [|split; [|split]]]]]].
  - repeat split; try (intros l E; eapply opicked_inv in E as (l0 & _ & E); [|eassumption]; apply (picked_length _ _ _ _ E)).
    apply (picked_length _ _ _ _ T6).
  - destruct (c_wide u) eqn:W.
    + destruct C as (C1 & C2). rewrite (picked_length _ _ _ _ C1), (picked_length _ _ _ _ C2). reflexivity.
    + destruct C as (C1 & C2 & C3). rewrite (picked_length _ _ _ _ C1), (picked_length _ _ _ _ C2), (picked_length _ _ _ _ C3).
      split; [reflexivity|]. split; [reflexivity|]. destruct LC as (_ & LX & EQ).
      assert (NC : Nchans u = length (c_freqs u)) by (unfold Nchans; rewrite W; reflexivity).
      unfold picked in C3, W1. rewrite C3, W1. intros w. rewrite !in_map_iff. unfold chan_at in MW. rewrite W in MW. cbn [fst] in MW. split.
      * intros (f & <- & If). pose proof (proj2 BF f If) as Lf. assert (I : In (nth f (c_flex u) 0) (c_flex u)) by (apply nth_In; lia).
        apply EQ, (In_nth _ _ 0) in I as (k & Lk & Ek). exists k. split; [exact Ek|]. apply MW. split; [exact Lk|]. exists f. auto.
      * intros (k & <- & Ik). apply MW in Ik as (_ & f & If & E). exists f. auto.
  - rewrite W1. apply NoDup_nth with (d := 0). rewrite map_length. intros i j Li Lj E.
    rewrite !(nth_map _ _ _ O 0) in E by assumption.
    apply (proj1 (NoDup_nth rw O) (sorted_nodup _ SW)); [exact Li | exact Lj|].
    apply (proj1 (NoDup_nth (c_spws u) 0) ND); try exact E; apply MW, nth_In; assumption.
  - intros l E. eapply opicked_inv in E as (l0 & _ & E); [|eassumption]. rewrite (picked_length _ _ _ _ E), (picked_length _ _ _ _ W1). reflexivity.
  - apply (distinct_picked (Nants u) _ sa (ant_at u)); auto using picked_ant.
  - apply (distinct_picked (Nchans u) _ sf (chan_at u)); auto using picked_chan.
  - apply (distinct_picked (Ntimes u) _ st (time_at u)); auto using picked_time.
  - apply (distinct_picked (Njones u) _ sj (jones_at u)); auto using picked_jones.
Qed.

Lemma pos_of (idx : list nat) i : In i idx -> exists k, (k < length idx)%nat /\ nth k idx O = i.
Proof. clear. intros I. apply (In_nth _ _ O) in I. exact I. Qed.

(** The solutions are those of [u] for the labels kept. *)
Theorem picked_solutions x y z p c : solution r x y z p c <-> solution u x y z p c /\ has_solution r x y z p.
Proof.
  pose proof OK as (_ & _ & _ & _ & DA & DF & DT & DJ). split.
  - intros (a & f & t & j & La & Lf & Lt & Lj & Ea & Ef & Et & Ej & E). split.
    + rewrite picked_Nants in La. rewrite picked_Nchans in Lf. rewrite picked_Ntimes in Lt. rewrite picked_Njones in Lj.
      exists (nth a sa O), (nth f sf O), (nth t st O), (nth j sj O).
      split; [apply BA, nth_In, La|]. split; [apply BF, nth_In, Lf|]. split; [apply BT, nth_In, Lt|]. split; [apply BJ, nth_In, Lj|].
      rewrite <- picked_ant, <- picked_chan, <- picked_time, <- picked_jones, <- (cp_entries _ _ _ _ _ _ P) by assumption. auto.
    + split; [|split; [|split]]; eexists; eauto.
  - intros ((a & f & t & j & La & Lf & Lt & Lj & Ea & Ef & Et & Ej & E) & (a' & La' & Ea') & (f' & Lf' & Ef') & (t' & Lt' & Et') & (j' & Lj' & Ej')).
    exists a', f', t', j'. repeat (split; [assumption|]).
    rewrite picked_Nants in La'. rewrite picked_Nchans in Lf'. rewrite picked_Ntimes in Lt'. rewrite picked_Njones in Lj'.
    rewrite (cp_entries _ _ _ _ _ _ P) by assumption. rewrite <- E.
    rewrite picked_ant in Ea' by assumption. rewrite picked_chan in Ef' by assumption. rewrite picked_time in Et' by assumption. rewrite picked_jones in Ej' by assumption.
    f_equal; [apply DA | apply DF | apply DT | apply DJ]; try congruence; try assumption; try (apply BA, nth_In; assumption);
      try (apply BF, nth_In; assumption); try (apply BT, nth_In; assumption); try (apply BJ, nth_In; assumption).
Qed.
End Valid.
