(** C82: windows for the Jones terms. *)
From Coq Require Import List ZArith QArith Bool Arith Lia Permutation Sorted.
From Verif Require Import Lib.Py Lib.Np Lib.Cube Lib.Sorting Spec.AddSpec Spec.CalSpec Spec.FlexJonesSpec
  Model.Times Model.UVCal Model.FlexJones Proofs.CalArrange Proofs.CalMove Proofs.FlexJonesBase Proofs.FlexJonesRemove Proofs.FlexJonesMatch.
Import ListNotations.
Notation length := List.length.
Open Scope list_scope.
Open Scope Z_scope.
Notation Ntimes := UVCal.Ntimes.

Definition pos (w : Z) (l : list Z) : nat := match index_of Z.eqb w l with Some i => i | None => O end.
Lemma pos_nth l i : NoDup l -> (i < length l)%nat -> pos (nth i l 0) l = i.
Proof.
  intros N. revert i. induction N as [|x l N1 N2 IH]; intros i L; [cbn in L; lia|]. unfold pos in *. destruct i as [|i].
  - cbn [nth index_of]. now rewrite Z.eqb_refl.
  - cbn [nth index_of length] in *. destruct (Z.eqb_spec (nth i l 0) x) as [E|_].
    + exfalso. apply N1. rewrite <- E. apply nth_In. lia.
    + specialize (IH i ltac:(lia)). destruct (index_of Z.eqb (nth i l 0) l) as [k|] eqn:EK; cbn [option_map]; [now rewrite IH|].
      apply (index_of_None Z.eqb Z.eqb_eq) in EK. elim EK. apply nth_In. lia.
Qed.
Lemma pos_In w l : In w l -> (pos w l < length l)%nat /\ nth (pos w l) l 0 = w.
Proof.
  intros H. unfold pos. destruct (index_of Z.eqb w l) as [i|] eqn:E.
  - apply (index_of_Some Z.eqb Z.eqb_eq 0) in E. destruct E as (L & E & _). auto.
  - apply (index_of_None Z.eqb Z.eqb_eq) in E. contradiction.
Qed.
Lemma block k k' f f' n : (f < n)%nat -> (f' < n)%nat -> (k * n + f = k' * n + f')%nat -> k = k' /\ f = f'.
Proof.
  intros L L' E. destruct (Nat.lt_trichotomy k k') as [K|[->|K]]; [nia|split; [reflexivity|lia]|nia].
Qed.

(** The layout of the result: channel [k * Nchans + f] is channel [f] for Jones term [k],
    in window [wk k w] if it was in window [w]. *)
Definition wk (u v : ucal) (k : nat) (w : Z) : Z := nth (k * length (c_spws u) + pos w (c_spws u)) (c_spws v) 0.
Record laid (u v : ucal) : Prop := {
  la_off : off_axes_same u v;
  la_tq : c_tqual v = c_tqual u /\ (c_tqual u = None \/ Njones u = 1%nat);
  la_len : length (c_spws v) = (Njones u * length (c_spws u))%nat;
  la_dup : NoDup (c_spws v);
  la_first : firstn (length (c_spws u)) (c_spws v) = c_spws u;
  la_chans : Nchans v = (Njones u * Nchans u)%nat;
  la_shape : if c_wide v then length (c_freq_range v) = length (c_spws v)
             else length (c_widths v) = length (c_freqs v) /\ length (c_flex v) = length (c_freqs v);
  la_at : forall k f, (k < Njones u)%nat -> (f < Nchans u)%nat ->
    chan_at v (k * Nchans u + f) = (wk u v k (fst (chan_at u f)), snd (chan_at u f)) /\
    chan_info v (k * Nchans u + f) = chan_info u f;
  la_entry : forall k f a t, (k < Njones u)%nat -> (f < Nchans u)%nat -> entry v a (k * Nchans u + f) t 0 = entry u a f t k;
  la_fj : c_flex_jones v = Some (flat_map (fun p => repeat p (length (c_spws u))) (c_jones u));
  la_jones : c_jones v = [0] }.

Section Laid.
Variables u v : ucal.
Hypothesis Hu : cal_ok u.
Hypothesis HS : c_spws u <> [].
Hypothesis HJ : (0 < Njones u)%nat.
Hypothesis L : laid u v.
Let N := length (c_spws u).
Let nf := Nchans u.
Let J := Njones u.

Lemma N_pos : (0 < N)%nat.
Proof. unfold N. destruct (c_spws u); [contradiction|cbn; lia]. Qed.
Lemma nf_pos : (0 < nf)%nat.
Proof.
  unfold nf. rewrite <- (windex_length u Hu). destruct (c_spws u) as [|w l] eqn:E; [contradiction|].
  assert (I : In w (windex u)) by (apply (in_windex u w Hu); rewrite E; left; reflexivity). destruct (windex u); [destruct I|cbn; lia].
Qed.
Lemma wk_In k w : (k < J)%nat -> In w (c_spws u) -> In (wk u v k w) (c_spws v).
Proof.
  intros Hk Hw. apply nth_In. rewrite (la_len u v L). fold N J. pose proof (proj1 (pos_In w (c_spws u) Hw)) as P. fold N in P. nia.
Qed.
Lemma wk_inj k k' w w' : (k < J)%nat -> (k' < J)%nat -> In w (c_spws u) -> In w' (c_spws u) -> wk u v k w = wk u v k' w' -> k = k' /\ w = w'.
Proof.
  intros Hk Hk' Hw Hw' E. unfold wk in E. fold N in E.
  pose proof (pos_In w (c_spws u) Hw) as [P1 P2]. pose proof (pos_In w' (c_spws u) Hw') as [P1' P2']. fold N in P1, P1'.
  apply (proj1 (NoDup_nth _ 0) (la_dup u v L)) in E; [|rewrite (la_len u v L); fold N J; nia|rewrite (la_len u v L); fold N J; nia].
  destruct (block _ _ _ _ N P1 P1' E) as [-> E2]. split; [reflexivity|]. rewrite E2 in P2. congruence.
Qed.
Lemma wk_onto x : In x (c_spws v) -> exists k w, (k < J)%nat /\ In w (c_spws u) /\ x = wk u v k w.
Proof.
  intros H. destruct (In_nth _ _ 0 H) as (i & Li & E). rewrite (la_len u v L) in Li. fold N J in Li. pose proof N_pos as NP.
  pose proof (Nat.div_mod i N ltac:(lia)) as D. pose proof (Nat.mod_upper_bound i N ltac:(lia)) as B.
  exists (i / N)%nat, (nth (i mod N) (c_spws u) 0). split; [apply Nat.div_lt_upper_bound; lia|]. split; [apply nth_In; exact B|].
  unfold wk. rewrite pos_nth by (exact B || destruct Hu as (_ & _ & X & _); exact X). fold N. rewrite <- E. f_equal. lia.
Qed.
Lemma wk_0 w : In w (c_spws u) -> wk u v 0 w = w.
Proof.
  intros Hw. unfold wk. cbn [Nat.mul Nat.add]. pose proof (pos_In w (c_spws u) Hw) as [P1 P2].
  rewrite <- (firstn_skipn (length (c_spws u)) (c_spws v)), (la_first u v L), app_nth1 by exact P1. exact P2.
Qed.
Lemma split_chan c : (c < Nchans v)%nat -> exists k f, (k < J)%nat /\ (f < nf)%nat /\ c = (k * nf + f)%nat.
Proof.
  intros Hc. rewrite (la_chans u v L) in Hc. fold nf J in Hc. pose proof nf_pos as P. exists (c / nf)%nat, (c mod nf)%nat.
  split; [apply Nat.div_lt_upper_bound; lia|]. split; [apply Nat.mod_upper_bound; lia|]. rewrite (Nat.div_mod c nf) at 1 by lia. lia.
Qed.
Lemma join_chan k f : (k < J)%nat -> (f < nf)%nat -> (k * nf + f < Nchans v)%nat.
Proof. intros Hk Hf. rewrite (la_chans u v L). fold nf J. nia. Qed.
Lemma chan_In f : (f < nf)%nat -> In (fst (chan_at u f)) (c_spws u).
Proof. intros Hf. apply (in_windex u _ Hu). rewrite windex_nth. apply nth_In. rewrite (windex_length u Hu). exact Hf. Qed.

Lemma laid_jones x p : window_jones v x p <-> exists k w, (k < J)%nat /\ In w (c_spws u) /\ x = wk u v k w /\ jones_at u k = p.
Proof.
  pose proof N_pos as NP.
  assert (NE : forall k i, (k < J)%nat -> (i < N)%nat -> nth_error (flat_map (fun p => repeat p N) (c_jones u)) (k * N + i) = Some (jones_at u k)).
  { intros k i Hk Hi. unfold jones_at, J, Njones in *. clear -Hk Hi. revert k Hk. induction (c_jones u) as [|q l IH]; intros k Hk; [cbn in Hk; lia|].
    cbn [flat_map]. destruct k as [|k].
    - cbn [Nat.mul Nat.add nth]. rewrite nth_error_app1 by (rewrite repeat_length; exact Hi). apply nth_error_repeat, Hi.
    - rewrite nth_error_app2 by (rewrite repeat_length; lia). rewrite repeat_length. cbn [length] in Hk. cbn [nth].
      rewrite <- (IH k) by lia. f_equal. lia. }
  unfold window_jones. split.
  - intros (l & i & El & Li & E1 & E2). rewrite (la_fj u v L) in El. injection El as <-. fold N in E2. rewrite (la_len u v L) in Li. fold N J in Li.
    pose proof (Nat.div_mod i N ltac:(lia)) as D. pose proof (Nat.mod_upper_bound i N ltac:(lia)) as B.
    assert (Hk : (i / N < J)%nat) by (apply Nat.div_lt_upper_bound; lia).
    exists (i / N)%nat, (nth (i mod N) (c_spws u) 0). split; [exact Hk|]. split; [apply nth_In; exact B|].
    rewrite D, (Nat.mul_comm N), (NE _ _ Hk B) in E2. split; [|congruence].
    unfold wk. rewrite pos_nth by (exact B || destruct Hu as (_ & _ & X & _); exact X). fold N. rewrite <- E1. f_equal. lia.
  - intros (k & w & Hk & Hw & -> & <-). pose proof (pos_In w (c_spws u) Hw) as [P1 P2]. fold N in P1.
    exists (flat_map (fun p => repeat p N) (c_jones u)), (k * N + pos w (c_spws u))%nat. split; [exact (la_fj u v L)|].
    split; [rewrite (la_len u v L); fold N J; nia|]. split; [reflexivity|]. apply NE; assumption.
Qed.

Lemma laid_ok : cal_ok v.
Proof.
  pose proof Hu as (A & B & C & D & Da & Db & Dc & Dd). pose proof (la_off u v L) as (O1 & O2 & O3 & O4 & (T1 & T2 & T3 & T4 & T5 & T6) & O6).
  assert (TK : time_keys v = time_keys u) by (unfold time_keys; now rewrite T1, T2).
  assert (NT : Ntimes v = Ntimes u) by (unfold Ntimes; now rewrite TK).
  split; [|split; [|split; [exact (la_dup u v L)|split; [|split; [|split; [|split]]]]]].
  - rewrite NT, T1, T3, T4, T5, T6. exact A.
  - pose proof (la_shape u v L) as SH. destruct (c_wide v) eqn:W; [exact SH|]. split; [apply SH|]. split; [apply SH|]. intros w.
    assert (NC : Nchans v = length (c_flex v)) by (unfold Nchans; rewrite W; lia).
    assert (CF : forall c, fst (chan_at v c) = nth c (c_flex v) 0) by (intros c; unfold chan_at; rewrite W; reflexivity).
    split.
    + intros H. destruct (In_nth _ _ 0 H) as (c & Lc & E). rewrite <- NC in Lc. destruct (split_chan c Lc) as (k & f & Hk & Hf & ->).
      destruct (la_at u v L k f Hk Hf) as [E1 _]. fold nf in E1. rewrite <- CF, E1 in E. cbn [fst] in E. rewrite <- E. apply wk_In; [exact Hk|apply chan_In, Hf].
    + intros H. destruct (wk_onto w H) as (k & w0 & Hk & Hw & ->).
      pose proof Hw as Hi. apply (in_windex u w0 Hu) in Hi. destruct (In_nth _ _ 0 Hi) as (f & Lf & E). rewrite (windex_length u Hu) in Lf.
      destruct (la_at u v L k f Hk Lf) as [E1 _]. rewrite <- windex_nth in E. rewrite <- E. pose proof (CF (k * Nchans u + f)%nat) as CFk. rewrite E1 in CFk. cbn [fst] in CFk.
      rewrite CFk. apply nth_In. rewrite <- NC. apply join_chan; assumption.
  - intros l E. rewrite (la_fj u v L) in E. injection E as <-. rewrite (la_len u v L). unfold Njones. clear. induction (c_jones u) as [|p l IH]; [reflexivity|].
    cbn [flat_map length]. rewrite app_length, repeat_length, IH. lia.
  - unfold Nants, ant_at. rewrite O4. exact Da.
  - intros c c' Hc Hc' E. destruct (split_chan c Hc) as (k & f & Hk & Hf & ->). destruct (split_chan c' Hc') as (k' & f' & Hk' & Hf' & ->).
    destruct (la_at u v L k f Hk Hf) as [E1 _]. destruct (la_at u v L k' f' Hk' Hf') as [E1' _]. fold nf in E1, E1'. rewrite E1, E1' in E. injection E as E2 E3.
    apply wk_inj in E2; [|exact Hk|exact Hk'|apply chan_In, Hf|apply chan_In, Hf']. destruct E2 as [-> E2]. f_equal.
    apply Db; [exact Hf|exact Hf'|]. rewrite (surjective_pairing (chan_at u f)), (surjective_pairing (chan_at u f')). congruence.
  - rewrite NT. unfold time_at. rewrite TK. exact Dc.
  - unfold Njones, jones_at. rewrite (la_jones u v L). intros i j Hi Hj _. cbn in Hi, Hj. lia.
Qed.

Definition win_of (w p : Z) : Z := wk u v (pos p (c_jones u)) w.
Lemma has_jones_pos p : has_jones u p -> (pos p (c_jones u) < J)%nat /\ jones_at u (pos p (c_jones u)) = p.
Proof. intros (j & Lj & <-). apply pos_In, nth_In, Lj. Qed.
Lemma jones_pos k : (k < J)%nat -> pos (jones_at u k) (c_jones u) = k.
Proof. intros Hk. apply pos_nth; [|exact Hk]. pose proof Hu as H. apply cal_ok_lists in H. apply H. Qed.
Lemma chan_wk k w y c : (k < J)%nat -> In w (c_spws u) -> ((c < Nchans v)%nat /\ chan_at v c = (wk u v k w, y)) <->
  exists f, (f < nf)%nat /\ c = (k * nf + f)%nat /\ chan_at u f = (w, y).
Proof.
  intros Hk Hw. split.
  - intros [Hc E]. destruct (split_chan c Hc) as (k' & f & Hk' & Hf & ->). destruct (la_at u v L k' f Hk' Hf) as [E1 _]. fold nf in E1. rewrite E1 in E.
    injection E as E2 E3. apply wk_inj in E2; [|exact Hk'|exact Hk|apply chan_In, Hf|exact Hw]. destruct E2 as [-> E2]. exists f. split; [exact Hf|]. split; [reflexivity|].
    rewrite (surjective_pairing (chan_at u f)). congruence.
  - intros (f & Hf & -> & E). split; [apply join_chan; assumption|]. destruct (la_at u v L k f Hk Hf) as [E1 _]. fold nf in E1. rewrite E1, E. reflexivity.
Qed.

Lemma laid_made : flex_jones_made u v win_of.
Proof.
  pose proof (la_off u v L) as OFF. pose proof OFF as (O1 & O2 & O3 & O4 & (T1 & T2 & T3 & T4 & T5 & T6) & O6).
  split; [|split; [exact OFF|split; [|split; [|split; [|split; [|split]]]]]].
  - split; [exact laid_ok|]. split; [|split; [rewrite (la_fj u v L); discriminate|exact (la_jones u v L)]].
    intros E. pose proof (la_len u v L) as LL. rewrite E in LL. cbn [length] in LL. pose proof N_pos as NP. unfold N in NP. nia.
  - intros w w' p p' Hw Hw' Hp Hp' E. apply has_jones_pos in Hp, Hp'. destruct Hp as [P1 P2], Hp' as [P1' P2'].
    apply wk_inj in E; try assumption. destruct E as [E ->]. split; [reflexivity|]. rewrite E in P2. congruence.
  - intros w Hw. unfold win_of. rewrite jones_pos by exact HJ. apply wk_0, Hw.
  - intros x p. rewrite laid_jones. split.
    + intros (k & w & Hk & Hw & -> & <-). split; [exists k; auto|]. exists w. split; [exact Hw|]. unfold win_of. rewrite jones_pos by exact Hk. reflexivity.
    + intros (Hp & w & Hw & ->). apply has_jones_pos in Hp. destruct Hp as [P1 P2]. exists (pos p (c_jones u)), w. auto.
  - intros w p y i Hw Hp. apply has_jones_pos in Hp. destruct Hp as [P1 P2]. unfold about_chan, win_of. set (k := pos p (c_jones u)) in *. split.
    + intros (c & Hc & E1 & E2). destruct (proj1 (chan_wk k w y c P1 Hw) (conj Hc E1)) as (f & Hf & -> & E). exists f. split; [exact Hf|]. split; [exact E|].
      destruct (la_at u v L k f P1 Hf) as [_ E3]. fold nf in E3. congruence.
    + intros (f & Hf & E1 & E2). destruct (proj2 (chan_wk k w y (k * nf + f)%nat P1 Hw)) as [A B]; [exists f; auto|]. exists (k * nf + f)%nat. split; [exact A|]. split; [exact B|].
      destruct (la_at u v L k f P1 Hf) as [_ E3]. fold nf in E3. congruence.
  - intros x w y z p e Hw Hp. apply has_jones_pos in Hp. destruct Hp as [P1 P2]. unfold solution, win_of. set (k := pos p (c_jones u)) in *.
    assert (EA : forall a, ant_at v a = ant_at u a) by (intros a; unfold ant_at; now rewrite O4).
    assert (NA : Nants v = Nants u) by (unfold Nants; now rewrite O4).
    assert (TK : time_keys v = time_keys u) by (unfold time_keys; now rewrite T1, T2).
    assert (ET : forall t, time_at v t = time_at u t) by (intros t; unfold time_at; now rewrite TK).
    assert (NT : Ntimes v = Ntimes u) by (unfold Ntimes; now rewrite TK).
    assert (NJ : Njones v = 1%nat) by (unfold Njones; rewrite (la_jones u v L); reflexivity).
    rewrite NA, NT, NJ. split.
    + intros (a & c & t & j & Ha & Hc & Ht & Hj & E1 & E2 & E3 & E4 & E5). destruct (proj1 (chan_wk k w y c P1 Hw) (conj Hc E2)) as (f & Hf & -> & E).
      exists a, f, t, k. rewrite EA in E1. rewrite ET in E3. do 8 (split; [assumption|]). rewrite <- E5. replace j with O by lia. symmetry. apply (la_entry u v L); assumption.
    + intros (a & f & t & j & Ha & Hf & Ht & Hj & E1 & E2 & E3 & E4 & E5). destruct (proj2 (chan_wk k w y (k * nf + f)%nat P1 Hw)) as [A B]; [exists f; auto|].
      assert (EK : k = j) by (unfold k; rewrite <- E4; apply jones_pos, Hj).
      exists a, (k * nf + f)%nat, t, O. rewrite EA, ET. do 3 (split; [assumption|]). split; [lia|]. do 3 (split; [assumption|]).
      split; [unfold jones_at; rewrite (la_jones u v L); reflexivity|]. rewrite <- E5, <- EK. apply (la_entry u v L); assumption.
  - intros w y z p q Hw Hp. apply has_jones_pos in Hp. destruct Hp as [P1 P2]. unfold total_quality, win_of. set (k := pos p (c_jones u)) in *.
    destruct (la_tq u v L) as [TQ TJ]. destruct TJ as [TN|TJ]; [rewrite TQ, TN; split; intros (tq & _ & _ & _ & X & _); discriminate X|].
    assert (K0 : k = O) by (unfold J in P1; lia).
    assert (TK : time_keys v = time_keys u) by (unfold time_keys; now rewrite T1, T2).
    assert (ET : forall t, time_at v t = time_at u t) by (intros t; unfold time_at; now rewrite TK).
    assert (NT : Ntimes v = Ntimes u) by (unfold Ntimes; now rewrite TK).
    assert (NJ : Njones v = 1%nat) by (unfold Njones; rewrite (la_jones u v L); reflexivity).
    rewrite NT, NJ, TQ. split.
    + intros (tq & c & t & j & E0 & Hc & Ht & Hj & E2 & E3 & E4 & E5). destruct (proj1 (chan_wk k w y c P1 Hw) (conj Hc E2)) as (f & Hf & -> & E).
      rewrite K0 in E5. cbn [Nat.mul Nat.add] in E5. exists tq, f, t, j. rewrite ET in E3. do 3 (split; [assumption|]). split; [lia|]. do 2 (split; [assumption|]).
      split; [|exact E5]. rewrite <- P2. f_equal. lia.
    + intros (tq & f & t & j & E0 & Hf & Ht & Hj & E2 & E3 & E4 & E5). destruct (proj2 (chan_wk k w y (k * nf + f)%nat P1 Hw)) as [A B]; [exists f; auto|].
      rewrite K0 in A, B |- *. cbn [Nat.mul Nat.add] in A, B. exists tq, f, t, O. rewrite ET. do 3 (split; [assumption|]). split; [lia|]. do 2 (split; [assumption|]).
      split; [unfold jones_at; rewrite (la_jones u v L); reflexivity|]. rewrite <- E5. f_equal. lia.
Qed.

Lemma laid_chans k w : (k < J)%nat -> In w (c_spws u) -> chans_of v (wk u v k w) = map (fun f => (k * nf + f)%nat) (chans_of u w).
Proof.
  intros Hk Hw. apply (sorted_unique lt); try (intros; lia).
  - apply nonzero_sorted.
  - assert (SS : forall l, StronglySorted lt l -> StronglySorted lt (map (fun f => (k * nf + f)%nat) l)).
    { induction 1 as [|x l H IH F]; [constructor|]. cbn [map]. constructor; [exact IH|]. apply Forall_forall. intros y Hy. apply in_map_iff in Hy.
      destruct Hy as (z & <- & Hz). rewrite Forall_forall in F. specialize (F z Hz). lia. }
    apply SS, nonzero_sorted.
  - intros c. rewrite (chans_of_In v _ _ laid_ok), in_map_iff. rewrite <- windex_nth. split.
    + intros [Hc E]. destruct (proj1 (chan_wk k w (snd (chan_at v c)) c Hk Hw)) as (f & Hf & Ec & E1).
      { split; [exact Hc|]. rewrite <- E. apply surjective_pairing. }
      exists f. split; [auto|]. apply (chans_of_In u _ _ Hu). rewrite <- windex_nth, E1. auto.
    + intros (f & <- & Hf). apply (chans_of_In u _ _ Hu) in Hf. destruct Hf as [Hf E]. rewrite <- windex_nth in E.
      destruct (proj2 (chan_wk k w (snd (chan_at u f)) (k * nf + f)%nat Hk Hw)) as [A B].
      { exists f. split; [exact Hf|]. split; [reflexivity|]. rewrite <- E. apply surjective_pairing. }
      split; [exact A|]. rewrite B. reflexivity.
Qed.
End Laid.
