(** Rearranging the axes of calibration solutions. *)
From Coq Require Import List ZArith Bool Arith Lia Permutation Sorted String.
From Verif Require Import Lib.Py Lib.Np Lib.Cube Lib.Sorting Spec.UVDataSpec Spec.FreqSpec Spec.AddSpec Spec.CalSpec
  Model.UVData Model.Reorder Model.Freq Model.Pol Model.Add Model.UVCal
  Proofs.FreqProofs Proofs.FreqReorder Proofs.ReorderProofs Proofs.AddAxis Proofs.AddMove Proofs.AddJoin.
Import ListNotations.
Notation length := List.length.
Open Scope list_scope.
Open Scope Z_scope.
Notation Ntimes := UVCal.Ntimes.
Notation chan_labels := UVCal.chan_labels.
Notation reorder_freqs := UVCal.reorder_freqs.
Notation freq_range := c_freq_range.

Definition chans (u : ucal) : list (Z * Z) := if c_wide u then map (fun w => (w, 0)) (c_spws u) else combine (c_flex u) (c_freqs u).
Definition infos (u : ucal) : list (Z * Z) := if c_wide u then c_freq_range u else map (fun w => (w, 0)) (c_widths u).
Definition otake {A} (d : A) (o : option (list A)) (idx : list nat) : option (list A) := option_map (fun l => take d l idx) o.

Lemma chans_length u : cal_ok u -> length (chans u) = Nchans u.
Proof.
  intros (_ & H & _). unfold chans, Nchans. destruct (c_wide u); [apply map_length|]. rewrite combine_length. lia.
Qed.
Lemma chans_nth u f : cal_ok u -> chan_at u f = nth f (chans u) (0, 0).
Proof.
  intros (_ & H & _). unfold chans, chan_at. destruct (c_wide u).
  - symmetry. apply (map_nth (fun w => (w, 0))).
  - rewrite combine_nth by lia. reflexivity.
Qed.
Lemma infos_length u : cal_ok u -> length (infos u) = Nchans u.
Proof.
  intros (_ & H & _). unfold infos, Nchans. destruct (c_wide u); [exact H|]. rewrite map_length. lia.
Qed.
Lemma infos_nth u f : chan_info u f = nth f (infos u) (0, 0).
Proof.
  unfold infos, chan_info. destruct (c_wide u); [reflexivity|]. symmetry. apply (map_nth (fun w => (w, 0))).
Qed.

Record arranged (sa sf st sj : list nat) (u r : ucal) : Prop := {
  ar_pa : Permutation sa (seq 0 (Nants u));
  ar_pf : Permutation sf (seq 0 (Nchans u));
  ar_pt : Permutation st (seq 0 (Ntimes u));
  ar_pj : Permutation sj (seq 0 (Njones u));
  ar_ant : c_ants r = take 0 (c_ants u) sa;
  ar_chan : chans r = take (0, 0) (chans u) sf;
  ar_info : infos r = take (0, 0) (infos u) sf;
  ar_ta : c_time_array r = otake 0 (c_time_array u) st;
  ar_tr : c_time_range r = otake (0, 0) (c_time_range u) st;
  ar_la : c_lst_array r = otake 0 (c_lst_array u) st;
  ar_lr : c_lst_range r = otake (0, 0) (c_lst_range u) st;
  ar_ra : c_ref_ant r = otake 0 (c_ref_ant u) st;
  ar_it : c_int_time r = take 0 (c_int_time u) st;
  ar_jones : c_jones r = take 0 (c_jones u) sj;
  ar_gain : c_gain r = c_gain u;
  ar_wide : c_wide r = c_wide u;
  ar_compat : c_compat r = c_compat u;
  ar_fj : c_flex_jones r = None <-> c_flex_jones u = None;
  ar_win : forall w p, window_jones r w p <-> window_jones u w p;
  ar_sol : forall a f t j, (a < Nants u)%nat -> (f < Nchans u)%nat -> (t < Ntimes u)%nat -> (j < Njones u)%nat ->
    c_sol r a f t j = c_sol u (nth a sa O) (nth f sf O) (nth t st O) (nth j sj O);
  ar_flag : forall a f t j, (a < Nants u)%nat -> (f < Nchans u)%nat -> (t < Ntimes u)%nat -> (j < Njones u)%nat ->
    c_flags r a f t j = c_flags u (nth a sa O) (nth f sf O) (nth t st O) (nth j sj O);
  ar_qual : match c_qual u, c_qual r with
            | None, None => True
            | Some q, Some q' => forall a f t j, (a < Nants u)%nat -> (f < Nchans u)%nat -> (t < Ntimes u)%nat -> (j < Njones u)%nat ->
                q' a f t j = q (nth a sa O) (nth f sf O) (nth t st O) (nth j sj O)
            | _, _ => False end;
  ar_tq : match c_tqual u, c_tqual r with
          | None, None => True
          | Some q, Some q' => forall f t j, (f < Nchans u)%nat -> (t < Ntimes u)%nat -> (j < Njones u)%nat ->
              q' f t j = q (nth f sf O) (nth t st O) (nth j sj O)
          | _, _ => False end;
  ar_ok : cal_ok r }.

Lemma take_seq {A} (d : A) l : take d l (seq 0 (length l)) = l.
Proof.
  apply (nth_ext _ _ d d); [rewrite take_length; apply seq_length|]. intros i Hi. rewrite take_length, seq_length in Hi.
  rewrite nth_take by (rewrite seq_length; exact Hi). rewrite seq_nth by exact Hi. reflexivity.
Qed.
Lemma otake_seq {A} (d : A) o n : (forall l, o = Some l -> length l = n) -> otake d o (seq 0 n) = o.
Proof. intros H. destruct o as [l|]; [|reflexivity]. unfold otake. cbn [option_map]. rewrite <- (H l eq_refl), take_seq. reflexivity. Qed.

Lemma range_len u l : c_time_range u = Some l -> length l = Ntimes u.
Proof. intros E. unfold Ntimes, time_keys. rewrite E, map_length. reflexivity. Qed.

Lemma arranged_id u : cal_ok u -> arranged (seq 0 (Nants u)) (seq 0 (Nchans u)) (seq 0 (Ntimes u)) (seq 0 (Njones u)) u u.
Proof.
  intros H. pose proof H as ((L1 & L2 & L3 & L4 & L5) & _).
  constructor; try reflexivity; try assumption; try (symmetry; apply otake_seq; assumption).
  - symmetry. apply take_seq.
  - rewrite <- (chans_length u H). symmetry. apply take_seq.
  - rewrite <- (infos_length u H). symmetry. apply take_seq.
  - symmetry. apply otake_seq, range_len.
  - rewrite <- L1. symmetry. apply take_seq.
  - symmetry. apply take_seq.
  - intros. rewrite !seq_nth by assumption. reflexivity.
  - intros. rewrite !seq_nth by assumption. reflexivity.
  - destruct (c_qual u); [|exact I]. intros. rewrite !seq_nth by assumption. reflexivity.
  - destruct (c_tqual u); [|exact I]. intros. rewrite !seq_nth by assumption. reflexivity.
Qed.

Lemma take_take {A} (d : A) l s s' : (forall i, In i s' -> (i < length s)%nat) -> take d (take d l s) s' = take d l (take O s s').
Proof.
  intros H. unfold take at 1 3. unfold take at 2. rewrite map_map. apply map_ext_in. intros i Hi. apply nth_take. apply H, Hi.
Qed.
Lemma otake_take {A} (d : A) o s s' : (forall i, In i s' -> (i < length s)%nat) -> otake d (otake d o s) s' = otake d o (take O s s').
Proof. intros H. destruct o; [|reflexivity]. unfold otake. cbn [option_map]. rewrite take_take by exact H. reflexivity. Qed.

Lemma ar_na sa sf st sj u r : arranged sa sf st sj u r -> Nants r = Nants u.
Proof. intros H. unfold Nants. rewrite (ar_ant _ _ _ _ _ _ H), take_length. apply (perm_seq_facts _ _ (ar_pa _ _ _ _ _ _ H)). Qed.
Lemma ar_nj sa sf st sj u r : arranged sa sf st sj u r -> Njones r = Njones u.
Proof. intros H. unfold Njones. rewrite (ar_jones _ _ _ _ _ _ H), take_length. apply (perm_seq_facts _ _ (ar_pj _ _ _ _ _ _ H)). Qed.
Lemma ar_nf sa sf st sj u r : arranged sa sf st sj u r -> Nchans r = Nchans u.
Proof.
  intros H. rewrite <- (chans_length r (ar_ok _ _ _ _ _ _ H)), (ar_chan _ _ _ _ _ _ H), take_length.
  apply (perm_seq_facts _ _ (ar_pf _ _ _ _ _ _ H)).
Qed.
Lemma ar_keys sa sf st sj u r : arranged sa sf st sj u r -> time_keys r = take 0 (time_keys u) st.
Proof.
  intros H. destruct (perm_seq_facts _ _ (ar_pt _ _ _ _ _ _ H)) as (L & _ & _ & I). unfold time_keys.
  rewrite (ar_tr _ _ _ _ _ _ H), (ar_ta _ _ _ _ _ _ H). unfold otake, Ntimes, time_keys in *.
  destruct (c_time_range u) as [l|]; cbn [option_map].
  - symmetry. apply take_map. intros k Hk. apply I in Hk. rewrite map_length in Hk. exact Hk.
  - destruct (c_time_array u) as [l|]; cbn [option_map]; [reflexivity|]. destruct st; [reflexivity|discriminate].
Qed.
Lemma ar_nt sa sf st sj u r : arranged sa sf st sj u r -> Ntimes r = Ntimes u.
Proof.
  intros H. unfold Ntimes at 1. rewrite (ar_keys _ _ _ _ _ _ H), take_length. apply (perm_seq_facts _ _ (ar_pt _ _ _ _ _ _ H)).
Qed.

Lemma compose_perm s s' n : Permutation s (seq 0 n) -> Permutation s' (seq 0 n) ->
  Permutation (take O s s') (seq 0 n) /\ (forall i, In i s' -> (i < length s)%nat) /\
  (forall i, (i < n)%nat -> (nth i s' O < n)%nat) /\ (forall i, (i < n)%nat -> nth i (take O s s') O = nth (nth i s' O) s O).
Proof.
  intros P P'. destruct (perm_seq_facts _ _ P) as (L & _ & B & _). destruct (perm_seq_facts _ _ P') as (L' & _ & B' & I').
  split; [|split; [|split]].
  - transitivity s; [|exact P]. apply take_perm. rewrite L. exact P'.
  - intros i Hi. rewrite L. apply I', Hi.
  - exact B'.
  - intros i Hi. apply nth_take. lia.
Qed.

Lemma arranged_trans sa sf st sj sa' sf' st' sj' u v w : arranged sa sf st sj u v -> arranged sa' sf' st' sj' v w ->
  arranged (take O sa sa') (take O sf sf') (take O st st') (take O sj sj') u w.
Proof.
  intros H H'. pose proof (ar_na _ _ _ _ _ _ H) as Na. pose proof (ar_nf _ _ _ _ _ _ H) as Nf.
  pose proof (ar_nt _ _ _ _ _ _ H) as Nt. pose proof (ar_nj _ _ _ _ _ _ H) as Nj.
  destruct H' as [Pa' Pf' Pt' Pj' A1' A2' A3' A4' A5' A6' A7' A8' A9' A10' A11' A12' A13' A14' A15' A16' A17' A18' A19' A20'].
  destruct H as [Pa Pf Pt Pj A1 A2 A3 A4 A5 A6 A7 A8 A9 A10 A11 A12 A13 A14 A15 A16 A17 A18 A19 A20].
  rewrite Na in *. rewrite Nf in *. rewrite Nt in *. rewrite Nj in *.
  destruct (compose_perm _ _ _ Pa Pa') as (Qa & Ia & Ba & Ea). destruct (compose_perm _ _ _ Pf Pf') as (Qf & If & Bf & Ef).
  destruct (compose_perm _ _ _ Pt Pt') as (Qt & It & Bt & Et). destruct (compose_perm _ _ _ Pj Pj') as (Qj & Ij & Bj & Ej).
  constructor; try assumption.
  - rewrite A1', A1. apply take_take, Ia.
  - rewrite A2', A2. apply take_take, If.
  - rewrite A3', A3. apply take_take, If.
  - rewrite A4', A4. apply otake_take, It.
  - rewrite A5', A5. apply otake_take, It.
  - rewrite A6', A6. apply otake_take, It.
  - rewrite A7', A7. apply otake_take, It.
  - rewrite A8', A8. apply otake_take, It.
  - rewrite A9', A9. apply take_take, It.
  - rewrite A10', A10. apply take_take, Ij.
  - congruence.
  - congruence.
  - congruence.
  - tauto.
  - intros x y. rewrite A15'. apply A15.
  - intros a f t j Ha Hf Ht Hj. rewrite A16', A16 by auto. rewrite Ea, Ef, Et, Ej by assumption. reflexivity.
  - intros a f t j Ha Hf Ht Hj. rewrite A17', A17 by auto. rewrite Ea, Ef, Et, Ej by assumption. reflexivity.
  - destruct (c_qual u) as [q1|], (c_qual v) as [q2|], (c_qual w) as [q3|]; try contradiction; [|exact I].
    intros a f t j Ha Hf Ht Hj. rewrite A18', A18 by auto. rewrite Ea, Ef, Et, Ej by assumption. reflexivity.
  - destruct (c_tqual u) as [q1|], (c_tqual v) as [q2|], (c_tqual w) as [q3|]; try contradiction; [|exact I].
    intros f t j Hf Ht Hj. rewrite A19', A19 by auto. rewrite Ef, Et, Ej by assumption. reflexivity.
Qed.

(** ** An arranged object records the same things *)
Lemma perm_inverse s n i : Permutation s (seq 0 n) -> (i < n)%nat -> exists k, (k < n)%nat /\ nth k s O = i.
Proof.
  intros P Hi. destruct (perm_seq_facts _ _ P) as (L & _ & _ & I). apply I in Hi. destruct (In_nth _ _ O Hi) as (k & Hk & E).
  exists k. split; [lia|exact E].
Qed.

Section Content.
Variables (sa sf st sj : list nat) (u r : ucal).
Hypothesis Hu : cal_ok u.
Hypothesis H : arranged sa sf st sj u r.

Lemma ant_moved a : (a < Nants u)%nat -> ant_at r a = ant_at u (nth a sa O) /\ (nth a sa O < Nants u)%nat.
Proof.
  intros Ha. destruct (perm_seq_facts _ _ (ar_pa _ _ _ _ _ _ H)) as (L & _ & B & _). unfold ant_at. rewrite (ar_ant _ _ _ _ _ _ H).
  split; [apply nth_take; lia|apply B, Ha].
Qed.
Lemma jones_moved j : (j < Njones u)%nat -> jones_at r j = jones_at u (nth j sj O) /\ (nth j sj O < Njones u)%nat.
Proof.
  intros Ha. destruct (perm_seq_facts _ _ (ar_pj _ _ _ _ _ _ H)) as (L & _ & B & _). unfold jones_at. rewrite (ar_jones _ _ _ _ _ _ H).
  split; [apply nth_take; lia|apply B, Ha].
Qed.
Lemma chan_moved f : (f < Nchans u)%nat -> chan_at r f = chan_at u (nth f sf O) /\ chan_info r f = chan_info u (nth f sf O) /\ (nth f sf O < Nchans u)%nat.
Proof.
  intros Ha. destruct (perm_seq_facts _ _ (ar_pf _ _ _ _ _ _ H)) as (L & _ & B & _).
  rewrite !chans_nth, !infos_nth by (exact Hu || apply (ar_ok _ _ _ _ _ _ H)). rewrite (ar_chan _ _ _ _ _ _ H), (ar_info _ _ _ _ _ _ H).
  split; [apply nth_take; lia|]. split; [apply nth_take; lia|apply B, Ha].
Qed.
Lemma otake_nth {A} (d : A) o s i : (i < length s)%nat ->
  option_map (fun l => nth i l d) (otake d o s) = option_map (fun l => nth (nth i s O) l d) o.
Proof. intros Hi. destruct o; [|reflexivity]. unfold otake. cbn [option_map]. rewrite nth_take by exact Hi. reflexivity. Qed.
Lemma time_moved t : (t < Ntimes u)%nat -> time_at r t = time_at u (nth t st O) /\ time_info r t = time_info u (nth t st O) /\ (nth t st O < Ntimes u)%nat.
Proof.
  intros Ha. destruct (perm_seq_facts _ _ (ar_pt _ _ _ _ _ _ H)) as (L & _ & B & _). rewrite <- L in Ha.
  split; [unfold time_at; rewrite (ar_keys _ _ _ _ _ _ H); apply nth_take; lia|]. split; [|apply B; lia].
  unfold time_info. rewrite (ar_ta _ _ _ _ _ _ H), (ar_tr _ _ _ _ _ _ H), (ar_la _ _ _ _ _ _ H), (ar_lr _ _ _ _ _ _ H),
    (ar_ra _ _ _ _ _ _ H), (ar_it _ _ _ _ _ _ H). rewrite !otake_nth, nth_take by exact Ha. reflexivity.
Qed.
Lemma entry_moved a f t j : (a < Nants u)%nat -> (f < Nchans u)%nat -> (t < Ntimes u)%nat -> (j < Njones u)%nat ->
  entry r a f t j = entry u (nth a sa O) (nth f sf O) (nth t st O) (nth j sj O).
Proof.
  intros Ha Hf Ht Hj. unfold entry. rewrite (ar_sol _ _ _ _ _ _ H), (ar_flag _ _ _ _ _ _ H) by assumption. f_equal.
  pose proof (ar_qual _ _ _ _ _ _ H) as Q. destruct (c_qual u) as [q1|], (c_qual r) as [q2|]; try contradiction; [|reflexivity]. cbn [option_map].
  f_equal. apply Q; assumption.
Qed.

Lemma arranged_content : same_content u r.
Proof.
  pose proof (ar_na _ _ _ _ _ _ H) as Na. pose proof (ar_nf _ _ _ _ _ _ H) as Nf.
  pose proof (ar_nt _ _ _ _ _ _ H) as Nt. pose proof (ar_nj _ _ _ _ _ _ H) as Nj.
  unfold same_content. split; [apply (ar_gain _ _ _ _ _ _ H)|]. split; [apply (ar_wide _ _ _ _ _ _ H)|]. split; [apply (ar_compat _ _ _ _ _ _ H)|].
  assert (G : forall (s : list nat) n {L} (lr lu : nat -> L) x, Permutation s (seq 0 n) -> (forall i, (i < n)%nat -> lr i = lu (nth i s O) /\ (nth i s O < n)%nat) ->
    (on_axis n lr x <-> on_axis n lu x)).
  { intros s n L lr lu x P E. split.
    - intros (i & Hi & <-). destruct (E i Hi) as (Ei & Hb). exists (nth i s O). auto.
    - intros (i & Hi & <-). destruct (perm_inverse s n i P Hi) as (k & Hk & Ek). exists k. split; [exact Hk|]. destruct (E k Hk) as (-> & _). rewrite Ek. reflexivity. }
  split.
  { unfold has_ant, has_chan, has_time, has_jones. rewrite Na, Nf, Nt, Nj. split; [|split; [|split]]; intros x.
    - apply (G sa _ _ _ _ _ (ar_pa _ _ _ _ _ _ H)); intros i Hi; apply ant_moved, Hi.
    - apply (G sf _ _ _ _ _ (ar_pf _ _ _ _ _ _ H)); intros i Hi; destruct (chan_moved i Hi) as (Q1 & Q2 & Q3); split; assumption.
    - apply (G st _ _ _ _ _ (ar_pt _ _ _ _ _ _ H)); intros i Hi; destruct (time_moved i Hi) as (Q1 & Q2 & Q3); split; assumption.
    - apply (G sj _ _ _ _ _ (ar_pj _ _ _ _ _ _ H)); intros i Hi; apply jones_moved, Hi. }
  split; [|split; [|split; [|split]]].
  - intros x y z p c. unfold solution. rewrite Na, Nf, Nt, Nj. split.
    + intros (a & f & t & j & Ha & Hf & Ht & Hj & <- & <- & <- & <- & <-).
      destruct (ant_moved a Ha) as (Ea & Ba). destruct (chan_moved f Hf) as (Ef & _ & Bf). destruct (time_moved t Ht) as (Et & _ & Bt).
      destruct (jones_moved j Hj) as (Ej & Bj). rewrite entry_moved by assumption. rewrite Ea, Ef, Et, Ej.
      do 4 eexists. repeat split; try reflexivity; assumption.
    + intros (a & f & t & j & Ha & Hf & Ht & Hj & <- & <- & <- & <- & <-).
      destruct (perm_inverse _ _ a (ar_pa _ _ _ _ _ _ H) Ha) as (a' & Ha' & <-). destruct (perm_inverse _ _ f (ar_pf _ _ _ _ _ _ H) Hf) as (f' & Hf' & <-).
      destruct (perm_inverse _ _ t (ar_pt _ _ _ _ _ _ H) Ht) as (t' & Ht' & <-). destruct (perm_inverse _ _ j (ar_pj _ _ _ _ _ _ H) Hj) as (j' & Hj' & <-).
      exists a', f', t', j'. rewrite entry_moved by assumption.
      destruct (ant_moved a' Ha') as (-> & _). destruct (chan_moved f' Hf') as (-> & _). destruct (time_moved t' Ht') as (-> & _).
      destruct (jones_moved j' Hj') as (-> & _). repeat split; assumption.
  - intros y z p q. unfold total_quality. rewrite Nf, Nt, Nj. pose proof (ar_tq _ _ _ _ _ _ H) as Q. split.
    + intros (tq & f & t & j & E & Hf & Ht & Hj & <- & <- & <- & <-). rewrite E in Q. destruct (c_tqual u) as [tu|]; [|contradiction].
      destruct (chan_moved f Hf) as (Ef & _ & Bf). destruct (time_moved t Ht) as (Et & _ & Bt).
      destruct (jones_moved j Hj) as (Ej & Bj). rewrite Q by assumption. rewrite Ef, Et, Ej. exists tu. do 3 eexists. repeat split; try reflexivity; assumption.
    + intros (tq & f & t & j & E & Hf & Ht & Hj & <- & <- & <- & <-). rewrite E in Q. destruct (c_tqual r) as [tr|]; [|contradiction].
      destruct (perm_inverse _ _ f (ar_pf _ _ _ _ _ _ H) Hf) as (f' & Hf' & <-).
      destruct (perm_inverse _ _ t (ar_pt _ _ _ _ _ _ H) Ht) as (t' & Ht' & <-). destruct (perm_inverse _ _ j (ar_pj _ _ _ _ _ _ H) Hj) as (j' & Hj' & <-).
      exists tr, f', t', j'. rewrite Q by assumption.
      destruct (chan_moved f' Hf') as (-> & _). destruct (time_moved t' Ht') as (-> & _).
      destruct (jones_moved j' Hj') as (-> & _). repeat split; assumption.
  - intros z m. unfold about_time. rewrite Nt. split.
    + intros (t & Ht & <- & <-). destruct (time_moved t Ht) as (-> & -> & Bt). eauto.
    + intros (t & Ht & <- & <-). destruct (perm_inverse _ _ t (ar_pt _ _ _ _ _ _ H) Ht) as (t' & Ht' & <-). destruct (time_moved t' Ht') as (E1 & E2 & Bt). exists t'. auto.
  - intros z m. unfold about_chan. rewrite Nf. split.
    + intros (t & Ht & <- & <-). destruct (chan_moved t Ht) as (-> & -> & Bt). eauto.
    + intros (t & Ht & <- & <-). destruct (perm_inverse _ _ t (ar_pf _ _ _ _ _ _ H) Ht) as (t' & Ht' & <-). destruct (chan_moved t' Ht') as (E1 & E2 & Bt). exists t'. auto.
  - apply (ar_win _ _ _ _ _ _ H).
Qed.
End Content.
