(** C82: there and back. *)
From Coq Require Import List ZArith QArith Bool Arith Lia Permutation Sorted.
From Verif Require Import Lib.Py Lib.Np Lib.Cube Lib.Sorting Spec.AddSpec Spec.CalSpec Spec.FlexJonesSpec
  Model.Times Model.UVCal Model.FlexJones Proofs.CalArrange Proofs.CalMove Proofs.FlexJonesBase Proofs.FlexJonesRemove Proofs.FlexJonesMatch
  Proofs.FlexJonesConvert Proofs.FlexJonesMake.
Import ListNotations.
Notation length := List.length.
Open Scope list_scope.
Open Scope Z_scope.
Notation Ntimes := UVCal.Ntimes.

Lemma forallb_combine_intro (p : Z -> Z -> bool) a b : length a = length b ->
  forallb (fun x => p (fst x) (snd x)) (combine a b) = false -> exists k, (k < length a)%nat /\ p (nth k a 0) (nth k b 0) = false.
Proof.
  revert b. induction a as [|x a IH]; intros [|y b] L H; try discriminate. cbn [combine forallb fst snd] in H. apply andb_false_iff in H. destruct H as [H|H].
  - exists O. split; [cbn; lia|exact H].
  - destruct (IH b) as (k & Lk & E); [now injection L|exact H|]. exists (S k). split; [cbn; lia|exact E].
Qed.

(** the test made by find_window *)
Definition test (ftol ctol : Q * Q) (k k' : list Z * list Z) : result bool :=
  do f <- allclose ftol (fst k) (fst k'); if f : bool then allclose ctol (snd k) (snd k') else Ok false.
Lemma find_window_test ftol ctol key w k known b : test ftol ctol key k = Ok b ->
  find_window ftol ctol key ((w, k) :: known) = if b then Ok (Some w) else find_window ftol ctol key known.
Proof.
  unfold test. destruct k as [fs ws]. cbn [find_window fst snd]. destruct (allclose ftol (fst key) fs) as [f|e]; cbn [bind]; [|discriminate].
  intros ->. cbn [bind]. reflexivity.
Qed.

Lemma test_spec ftol ctol u w v : cal_ok u -> In w (c_spws u) -> In v (c_spws u) -> length (chans_of u w) = length (chans_of u v) ->
  exists b, test ftol (if c_wide u then (0, 0)%Q else ctol) (window_key u w) (window_key u v) = Ok b /\ (b = true -> windows_close ftol ctol u w v).
Proof.
  intros Hu Hw Hv EL. unfold test, window_key, windows_close, near. destruct (c_wide u) eqn:W.
  - destruct (wide_chan u w Hu W Hw) as (i & Ei & _). destruct (wide_chan u v Hu W Hv) as (j & Ej & _).
    assert (K : forall k f f', kth u w k f -> kth u v k f' -> f = i /\ f' = j).
    { intros k f f' K K'. apply (kth_chans u w k f Hu) in K. apply (kth_chans u v k f' Hu) in K'. rewrite Ei in K. rewrite Ej in K'. apply nth_error_In in K, K'.
      destruct K as [<-|[]], K' as [<-|[]]. auto. }
    rewrite Ei, Ej. cbn [fst snd flat_map app length].
    destruct (nth i (c_freq_range u) (0, 0)) as [lo hi] eqn:E1. destruct (nth j (c_freq_range u) (0, 0)) as [lo' hi'] eqn:E2.
    unfold allclose. cbn [app length Nat.eqb bind combine forallb fst snd].
    destruct (closeZ ftol lo lo' && (closeZ ftol hi hi' && true)) eqn:C.
    + eexists. split; [reflexivity|]. intros _ k f f' K1 K2. destruct (K k f f' K1 K2) as [-> ->]. unfold chan_info. rewrite W, E1, E2. cbn [fst snd].
      apply andb_prop in C. destruct C as [C1 C2]. apply andb_prop in C2. destruct C2 as [C2 _]. auto.
    + eexists. split; [reflexivity|]. discriminate.
  - cbn [fst snd]. unfold allclose. rewrite !take_length, EL, Nat.eqb_refl. cbn [bind].
    destruct (forallb _ (combine (take 0 (c_freqs u) _) _)) eqn:C1; [|eexists; split; [reflexivity|discriminate]].
    eexists. split; [reflexivity|]. intros C2 k f f' K1 K2. apply (kth_chans u w k f Hu) in K1. apply (kth_chans u v k f' Hu) in K2.
    assert (Hk : (k < length (chans_of u w))%nat) by (apply nth_error_Some; congruence).
    apply (forallb_combine _ _ _ k) in C1; [|rewrite !take_length; exact EL|rewrite take_length; exact Hk].
    apply (forallb_combine _ _ _ k) in C2; [|rewrite !take_length; exact EL|rewrite take_length; exact Hk].
    rewrite !nth_take in C1, C2 by lia. rewrite (nth_error_nth _ _ O K1), (nth_error_nth _ _ O K2) in C1, C2. unfold chan_at, chan_info. rewrite W. cbn [fst snd]. auto.
Qed.
Lemma allclose_refl tols l : sane tols -> allclose tols l l = Ok true.
Proof.
  intros H. unfold allclose. rewrite Nat.eqb_refl. f_equal. induction l as [|x l IH]; [reflexivity|]. cbn [combine forallb fst snd]. now rewrite (close_refl tols x H), IH.
Qed.
Lemma test_refl ftol ctol k : sane ftol -> sane ctol -> test ftol ctol k k = Ok true.
Proof. intros H1 H2. unfold test. rewrite (allclose_refl ftol _ H1). cbn [bind]. apply allclose_refl, H2. Qed.

Section Back.
Variables (ftol ctol : Q * Q) (u v : ucal).
Hypothesis Hu : cal_ok u.
Hypothesis HS : c_spws u <> [].
Hypothesis HJ : (0 < Njones u)%nat.
Hypothesis L : laid u v.
Hypothesis Sf : sane ftol.
Hypothesis Sc : sane ctol.
Let N := length (c_spws u).
Let nf := Nchans u.
Let J := Njones u.

Lemma laid_wide : c_wide v = c_wide u.
Proof. destruct (la_off u v L) as (_ & W & _). exact W. Qed.
Lemma kth_laid k w i f : (k < J)%nat -> In w (c_spws u) -> kth v (wk u v k w) i f <-> exists f0, kth u w i f0 /\ f = (k * nf + f0)%nat.
Proof.
  intros Hk Hw. rewrite (kth_chans v _ _ _ (laid_ok u v Hu HS HJ L)), (laid_chans u v Hu HS HJ L k w Hk Hw). rewrite nth_error_map. fold nf. split.
  - intros H. destruct (nth_error (chans_of u w) i) as [f0|] eqn:E; [|discriminate]. injection H as <-. exists f0. split; [|reflexivity]. apply (kth_chans u w i f0 Hu), E.
  - intros (f0 & K & ->). apply (kth_chans u w i f0 Hu) in K. rewrite K. reflexivity.
Qed.
Lemma kth_bound (x : ucal) w i f : kth x w i f -> (f < Nchans x)%nat /\ fst (chan_at x f) = w.
Proof. clear. intros H. apply nth_error_In, filter_In in H. destruct H as [H E]. apply in_seq in H. apply Z.eqb_eq in E. split; [lia|exact E]. Qed.
Lemma kth_exists (x : ucal) f : (f < Nchans x)%nat -> exists i, kth x (fst (chan_at x f)) i f.
Proof.
  clear. intros H. unfold kth. set (l := filter _ _). assert (I : In f l) by (apply filter_In; split; [apply in_seq; lia|apply Z.eqb_refl]).
  apply In_nth_error in I. exact I.
Qed.

Lemma key_laid k w : (k < J)%nat -> In w (c_spws u) -> window_key v (wk u v k w) = window_key u w.
Proof.
  intros Hk Hw. unfold window_key. rewrite laid_wide, (laid_chans u v Hu HS HJ L k w Hk Hw).
  assert (IN : forall f, In f (chans_of u w) -> (f < nf)%nat) by (intros f H; apply (chans_of_In u w f Hu) in H; apply H).
  assert (AT : forall f, In f (chans_of u w) -> chan_at v (k * nf + f) = (wk u v k (fst (chan_at u f)), snd (chan_at u f)) /\ chan_info v (k * nf + f) = chan_info u f).
  { intros f H. apply (la_at u v L); [exact Hk|apply IN, H]. }
  unfold chan_at, chan_info in AT. rewrite laid_wide in AT. fold nf. destruct (c_wide u) eqn:W; cbn [fst snd] in AT.
  - clear -AT. induction (chans_of u w) as [|f l IH]; [reflexivity|]. cbn [map flat_map]. rewrite (proj2 (AT f (or_introl eq_refl))).
    specialize (IH (fun g Hg => AT g (or_intror Hg))). injection IH as -> ->. reflexivity.
  - unfold take. rewrite !map_map. f_equal; apply map_ext_in; intros f Hf; destruct (AT f Hf) as [A B]; congruence.
Qed.

Hypothesis HE : equal_windows u.
Hypothesis HD : forall w w', In w (c_spws u) -> In w' (c_spws u) -> windows_close ftol ctol u w w' -> w = w'.
Hypothesis TQ : c_tqual u = None.
Hypothesis FJ : c_flex_jones u = None.
Let ct := if c_wide v then (0, 0)%Q else ctol.

Lemma ct_sane : sane ct.
Proof. unfold ct. destruct (c_wide v); [|exact Sc]. split; cbn; unfold Qle; cbn; lia. Qed.
Lemma counts_equal w w' : In w (c_spws u) -> In w' (c_spws u) -> length (chans_of u w) = length (chans_of u w').
Proof.
  intros Hw Hw'. assert (A : forall x y, In x (c_spws u) -> In y (c_spws u) -> (length (chans_of u x) <= length (chans_of u y))%nat).
  { intros x y Hx Hy. destruct (le_lt_dec (length (chans_of u x)) (length (chans_of u y))) as [E|E]; [exact E|]. exfalso.
    pose proof (HE x y (length (chans_of u y)) Hx Hy (proj2 (kth_some u x _ Hu) E)) as K. apply (kth_some u y _ Hu) in K. lia. }
  pose proof (A w w' Hw Hw'). pose proof (A w' w Hw' Hw). lia.
Qed.
Lemma test_own w w' : In w (c_spws u) -> In w' (c_spws u) -> test ftol ct (window_key u w) (window_key u w') = Ok (w =? w').
Proof.
  intros Hw Hw'. destruct (Z.eqb_spec w w') as [->|NE]; [apply test_refl; [exact Sf|apply ct_sane]|].
  unfold ct. rewrite laid_wide. destruct (test_spec ftol ctol u w w' Hu Hw Hw' (counts_equal w w' Hw Hw')) as ([|] & E & C); [|exact E].
  elim NE. apply HD; auto.
Qed.
Let known (l : list Z) := map (fun w => (w, window_key u w)) l.
Lemma find_own w l : In w (c_spws u) -> (forall x, In x l -> In x (c_spws u)) ->
  find_window ftol ct (window_key u w) (known l) = Ok (if isinZ w l then Some w else None).
Proof.
  intros Hw. induction l as [|x l IH]; intros H; [reflexivity|]. cbn [known map]. fold (known l).
  rewrite (find_window_test _ _ _ _ _ _ _ (test_own w x Hw (H x (or_introl eq_refl)))). rewrite IH by (intros y Hy; apply H; right; exact Hy).
  unfold isinZ. cbn [memb existsb] in *. destruct (Z.eqb_spec w x) as [->|NE]; reflexivity.
Qed.

(** the first block *)
Lemma match_first p l pre rest : NoDup (pre ++ l) -> (forall x, In x (pre ++ l) -> In x (c_spws u)) ->
  match_windows ftol ct v (map (fun w => (w, p)) l ++ rest) (known pre) =
  (do r <- match_windows ftol ct v rest (known (pre ++ l)); Ok (map (fun w => (w, w, p)) l ++ r)).
Proof.
  revert pre. induction l as [|w l IH]; intros pre ND H.
  - rewrite app_nil_r. cbn [map app]. destruct (match_windows ftol ct v rest (known pre)); reflexivity.
  - cbn [map app match_windows]. assert (Hw : In w (c_spws u)) by (apply H, in_or_app; right; left; reflexivity).
    assert (KW : window_key v w = window_key u w) by (rewrite <- (key_laid 0 w HJ Hw); f_equal; symmetry; apply (wk_0 u v L w Hw)).
    rewrite KW, find_own by (try exact Hw; intros x Hx; apply H, in_or_app; left; exact Hx).
    assert (NI : isinZ w pre = false).
    { apply isinZ_false. intros C. apply NoDup_remove_2 in ND. apply ND, in_or_app. left. exact C. }
    rewrite NI. cbn [bind]. replace (known pre ++ [(w, window_key u w)]) with (known (pre ++ [w])) by (unfold known; rewrite map_app; reflexivity).
    replace (pre ++ w :: l) with ((pre ++ [w]) ++ l) in * by (rewrite <- app_assoc; reflexivity).
    rewrite (IH _ ND H). destruct (match_windows ftol ct v rest (known ((pre ++ [w]) ++ l))); reflexivity.
Qed.
(** a later block *)
Lemma match_later k l rest : (k < J)%nat -> (forall x, In x l -> In x (c_spws u)) ->
  match_windows ftol ct v (map (fun w => (wk u v k w, jones_at u k)) l ++ rest) (known (c_spws u)) =
  (do r <- match_windows ftol ct v rest (known (c_spws u)); Ok (map (fun w => (wk u v k w, w, jones_at u k)) l ++ r)).
Proof.
  intros Hk. induction l as [|w l IH]; intros H.
  - cbn [map app]. destruct (match_windows ftol ct v rest (known (c_spws u))); reflexivity.
  - cbn [map app match_windows]. assert (Hw : In w (c_spws u)) by (apply H; left; reflexivity).
    rewrite (key_laid k w Hk Hw), find_own by auto. rewrite (proj2 (isinZ_spec w (c_spws u)) Hw). cbn [bind].
    rewrite IH by (intros x Hx; apply H; right; exact Hx). destruct (match_windows ftol ct v rest (known (c_spws u))); reflexivity.
Qed.
Let row (k : nat) := map (fun w => (wk u v k w, w, jones_at u k)) (c_spws u).
Let seen := flat_map row (seq 0 J).
Lemma row_pairs k : map (fun x => (fst (fst x), snd x)) (row k) = map (fun w => (wk u v k w, jones_at u k)) (c_spws u).
Proof. unfold row. rewrite map_map. reflexivity. Qed.

Lemma pairs_laid fj : c_flex_jones v = Some fj -> combine (c_spws v) fj = flat_map (fun k => map (fun w => (wk u v k w, jones_at u k)) (c_spws u)) (seq 0 J).
Proof.
  intros HF. rewrite (la_fj u v L) in HF. injection HF as <-. fold N.
  set (g := fun k => map (fun w => (wk u v k w, jones_at u k)) (c_spws u)).
  assert (GL : forall r, In r (map g (seq 0 J)) -> length r = N) by (intros r H; apply in_map_iff in H; destruct H as (k & <- & _); unfold g; apply map_length).
  assert (RL : forall r, In r (map (fun p => repeat p N) (c_jones u)) -> length r = N) by (intros r H; apply in_map_iff in H; destruct H as (k & <- & _); apply repeat_length).
  assert (LF : length (flat_map (fun p => repeat p N) (c_jones u)) = (J * N)%nat) by (rewrite rows_flat, (concat_rows _ N RL), map_length; reflexivity).
  rewrite (flat_map_concat_map g). apply (nth_ext _ _ (0, 0) (0, 0)).
  - rewrite combine_length, (la_len u v L), LF, (concat_rows _ N GL), map_length, seq_length. fold N J. lia.
  - intros c Hc. rewrite combine_length, (la_len u v L), LF in Hc. fold N J in Hc. rewrite Nat.min_id in Hc.
    pose proof (N_pos u HS) as NP. fold N in NP.
    pose proof (Nat.div_mod c N ltac:(lia)) as D. pose proof (Nat.mod_upper_bound c N ltac:(lia)) as B. set (k := (c / N)%nat) in *. set (i := (c mod N)%nat) in *.
    assert (Hk : (k < J)%nat) by (unfold k; apply Nat.div_lt_upper_bound; lia).
    rewrite combine_nth by (rewrite (la_len u v L), LF; reflexivity).
    rewrite D, (Nat.mul_comm N), (nth_rows _ _ N k i GL) by (try exact B; rewrite map_length, seq_length; exact Hk).
    rewrite (nth_indep _ [] (g O)) by (rewrite map_length, seq_length; exact Hk). rewrite map_nth, seq_nth by exact Hk. cbn [Nat.add].
    unfold g. rewrite (nth_indep _ (0, 0) (wk u v k 0, jones_at u k)) by (rewrite map_length; exact B). rewrite (map_nth (fun w => (wk u v k w, jones_at u k))).
    f_equal.
    + unfold wk. fold N. rewrite pos_nth by (exact B || (destruct Hu as (_ & _ & X & _); exact X)). reflexivity.
    + rewrite rows_flat, (nth_rows _ _ N k i RL) by (try exact B; rewrite map_length; exact Hk).
      rewrite (nth_indep _ [] (repeat 0 N)) by (rewrite map_length; exact Hk). rewrite (map_nth (fun p => repeat p N)). unfold jones_at.
      assert (I : In (nth i (repeat (nth k (c_jones u) 0) N) 0) (repeat (nth k (c_jones u) 0) N)) by (apply nth_In; rewrite repeat_length; exact B).
      apply repeat_spec in I. exact I.
Qed.

Lemma match_all fj : c_flex_jones v = Some fj -> match_windows ftol ct v (combine (c_spws v) fj) [] = Ok seen.
Proof.
  intros HF. rewrite (pairs_laid fj HF). unfold seen.
  assert (J0 : exists n, J = S n) by (destruct J as [|n] eqn:E; [unfold J in E; lia|eauto]). destruct J0 as [n EJ]. rewrite EJ. cbn [seq flat_map].
  assert (ND : NoDup (c_spws u)) by (destruct Hu as (_ & _ & X & _); exact X).
  replace (map (fun w => (wk u v 0 w, jones_at u 0)) (c_spws u)) with (map (fun w => (w, jones_at u 0)) (c_spws u))
    by (apply map_ext_in; intros w Hw; now rewrite (wk_0 u v L w Hw)).
  rewrite (match_first (jones_at u 0) (c_spws u) [] _ ND (fun x H => H)). cbn [app].
  replace (row 0) with (map (fun w => (w, w, jones_at u 0)) (c_spws u))
    by (unfold row; apply map_ext_in; intros w Hw; now rewrite (wk_0 u v L w Hw)).
  assert (T : forall ks, (forall k, In k ks -> (k < J)%nat) -> match_windows ftol ct v (flat_map (fun k => map (fun w => (wk u v k w, jones_at u k)) (c_spws u)) ks) (known (c_spws u)) = Ok (flat_map row ks)).
  { induction ks as [|k ks IH]; intros H; [reflexivity|]. cbn [flat_map]. rewrite match_later by (auto; apply H; left; reflexivity).
    rewrite IH by (intros x Hx; apply H; right; exact Hx). reflexivity. }
  rewrite T by (intros k Hk; apply in_seq in Hk; lia). reflexivity.
Qed.

Lemma seen_In w x p : In (w, x, p) seen <-> exists k, (k < J)%nat /\ In x (c_spws u) /\ w = wk u v k x /\ p = jones_at u k.
Proof.
  unfold seen, row. rewrite in_flat_map. split.
  - intros (k & Hk & H). apply in_seq in Hk. apply in_map_iff in H. destruct H as (y & E & Hy). injection E as <- <- <-. exists k. split; [lia|auto].
  - intros (k & Hk & Hx & -> & ->). exists k. split; [apply in_seq; lia|]. apply in_map_iff. exists x. auto.
Qed.
Lemma tally_seen x : In x (c_spws u) -> tally seen x = c_jones u.
Proof.
  intros Hx. unfold tally, seen.
  assert (R : forall k, map snd (filter (fun y => snd (fst y) =? x) (row k)) = [jones_at u k]).
  { intros k. unfold row. assert (ND : NoDup (c_spws u)) by (destruct Hu as (_ & _ & X & _); exact X). revert ND Hx. clear. generalize (c_spws u) as l.
    assert (E0 : forall l, ~ In x l -> filter (fun y => snd (fst y) =? x) (map (fun w => (wk u v k w, w, jones_at u k)) l) = []).
    { induction l as [|y l IH]; intros H; [reflexivity|]. cbn [map filter fst snd]. destruct (Z.eqb_spec y x) as [->|_]; [elim H; left; reflexivity|].
      apply IH. intros C. apply H. right. exact C. }
    induction l as [|y l IH]; intros ND Hx; [destruct Hx|]. inversion ND as [|? ? N1 N2]; subst. cbn [map filter fst snd]. destruct (Z.eqb_spec y x) as [->|NE].
    - rewrite (E0 l N1). reflexivity.
    - destruct Hx as [->|Hx]; [contradiction|]. apply IH; assumption. }
  assert (G : forall ks, map snd (filter (fun y => snd (fst y) =? x) (flat_map row ks)) = map (jones_at u) ks).
  { induction ks as [|k ks IH]; [reflexivity|]. cbn [flat_map]. rewrite filter_app, map_app, R, IH. reflexivity. }
  rewrite G. unfold J, Njones, jones_at. apply (nth_ext _ _ 0 0); [now rewrite map_length, seq_length|].
  intros k Hk. rewrite map_length, seq_length in Hk. rewrite (nth_indep _ 0 (nth 0 (c_jones u) 0)) by (rewrite map_length, seq_length; exact Hk).
  rewrite (map_nth (fun j => nth j (c_jones u) 0)), seq_nth by exact Hk. reflexivity.
Qed.
Lemma unique_length l : NoDup l -> length (uniqueZ l) = length l.
Proof. clear. intros H. apply Permutation_length, NoDup_Permutation; [apply uniqueZ_NoDup|exact H|]. intros x. apply uniqueZ_In. Qed.
Lemma fj_In fj p : c_flex_jones v = Some fj -> In p fj <-> In p (c_jones u).
Proof.
  intros HF. rewrite (la_fj u v L) in HF. injection HF as <-. rewrite in_flat_map. fold N. split.
  - intros (q & Hq & H). apply repeat_spec in H. congruence.
  - intros H. exists p. split; [exact H|]. pose proof (N_pos u HS) as NP. fold N in NP. destruct N; [lia|]. left. reflexivity.
Qed.
Lemma njones_fj fj : c_flex_jones v = Some fj -> length (rev (uniqueZ fj)) = J.
Proof.
  intros HF. rewrite rev_length. unfold J, Njones. apply Permutation_length, NoDup_Permutation; [apply uniqueZ_NoDup| |].
  - pose proof Hu as H. apply cal_ok_lists in H. apply H.
  - intros p. rewrite uniqueZ_In. apply fj_In, HF.
Qed.
Lemma matched_all nj kept : (forall x, In x kept -> In x (c_spws u)) -> nj = J -> all_matched nj seen kept = Ok true.
Proof.
  intros H ->. induction kept as [|x kept IH]; [reflexivity|]. cbn [all_matched]. rewrite tally_seen by (apply H; left; reflexivity).
  rewrite unique_length by (pose proof Hu as HU; apply cal_ok_lists in HU; apply HU). change (length (c_jones u)) with J. rewrite !Nat.eqb_refl. cbn [negb].
  apply IH. intros y Hy. apply H. right. exact Hy.
Qed.

Lemma came_back : exists r m, remove_flex_jones ftol ctol true v = Ok r /\ flex_jones_removed ftol ctol v r m /\
  forall k w, (k < J)%nat -> In w (c_spws u) -> m (wk u v k w) = w.
Proof.
  pose proof (la_fj u v L) as HF. set (fj := flat_map (fun p => repeat p (length (c_spws u))) (c_jones u)) in *. clearbody fj.
  assert (FO : flex_ok v) by apply (laid_made u v Hu HS HJ L).
  unfold remove_flex_jones. rewrite HF.
  destruct ((length (rev (uniqueZ fj)) =? 1)%nat && ((length (c_spws v) =? 1)%nat || negb true)) eqn:C.
  - eexists. exists (fun w => w). split; [reflexivity|]. apply andb_prop in C. destruct C as [C _]. apply Nat.eqb_eq in C. split.
    + apply (removed_single ftol ctol v fj HF FO Sf Sc C).
    + intros k w Hk Hw. rewrite (njones_fj fj HF) in C. replace k with O by lia. apply (wk_0 u v L w Hw).
  - fold ct. rewrite (match_all fj HF). cbn [bind]. rewrite matched_all; [|intros x Hx; apply kept_In in Hx; destruct Hx as [p Hx]; apply seen_In in Hx; destruct Hx as (k & _ & Hx & _); exact Hx|apply njones_fj, HF].
    cbn [bind].
    assert (M1 : map (fun x => (fst (fst x), snd x)) seen = combine (c_spws v) fj).
    { rewrite (pairs_laid fj HF). unfold seen. induction (seq 0 J) as [|k ks IH]; [reflexivity|]. cbn [flat_map]. rewrite map_app, row_pairs, IH. reflexivity. }
    assert (M2 : forall w x p, In (w, x, p) seen -> exists p', In (x, x, p') seen).
    { intros w x p H. apply seen_In in H. destruct H as (k & Hk & Hx & -> & ->). exists (jones_at u 0). apply seen_In. exists O.
      split; [exact HJ|]. split; [exact Hx|]. split; [symmetry; apply (wk_0 u v L x Hx)|reflexivity]. }
    assert (M3 : forall w w' x p, In (w, x, p) seen -> In (w', x, p) seen -> w = w').
    { intros w w' x p H H'. apply seen_In in H, H'. destruct H as (k & Hk & Hx & -> & ->), H' as (k' & Hk' & _ & -> & E). f_equal.
      destruct Hu as (_ & _ & _ & _ & _ & _ & _ & D). apply D; assumption. }
    assert (M4 : forall w x p, In (w, x, p) seen -> length (chans_of v w) = length (chans_of v x) /\
       forall i, (i < length (chans_of v w))%nat -> near ftol ctol v (nth i (chans_of v w) O) v (nth i (chans_of v x) O)).
    { intros w x p H. apply seen_In in H. destruct H as (k & Hk & Hx & -> & ->).
      assert (E0 : chans_of v x = map (fun f => (0 * nf + f)%nat) (chans_of u x)).
      { transitivity (chans_of v (wk u v 0 x)); [now rewrite (wk_0 u v L x Hx)|]. apply (laid_chans u v Hu HS HJ L 0 x HJ Hx). }
      rewrite E0, (laid_chans u v Hu HS HJ L k x Hk Hx). fold nf. rewrite !map_length. split; [reflexivity|]. intros i Hi.
      assert (NM : forall k0, nth i (map (fun f => (k0 * nf + f)%nat) (chans_of u x)) O = (k0 * nf + nth i (chans_of u x) O)%nat).
      { intros k0. rewrite (nth_indep _ O ((fun f => (k0 * nf + f)%nat) O)) by (rewrite map_length; exact Hi). apply (map_nth (fun f => (k0 * nf + f)%nat)). }
      rewrite (NM k), (NM O).
      set (f := nth i (chans_of u x) O). assert (Hf : (f < nf)%nat) by (apply (chans_of_In u x f Hu), nth_In, Hi).
      unfold near. destruct (la_at u v L k f Hk Hf) as [A1 A2]. destruct (la_at u v L 0 f HJ Hf) as [B1 B2]. fold nf in A1, A2, B1, B2. rewrite A1, A2, B1, B2. cbn [fst snd].
      destruct (c_wide v); split; apply close_refl; assumption. }
    destruct (removal ftol ctol v fj seen (rev (uniqueZ fj)) (laid_ok u v Hu HS HJ L) HF M1 M2 M3 M4 (jones_In fj) (jones_NoDup fj)) as (r & E & D).
    { rewrite (proj1 (la_tq u v L)). exact TQ. }
    exists r, (goal_of seen). split; [exact E|]. split; [exact D|]. intros k w Hk Hw.
    apply (goal_maps v fj seen (laid_ok u v Hu HS HJ L) HF M1 _ _ (jones_at u k)). apply seen_In. eauto.
Qed.

Lemma back_content r m : flex_jones_removed ftol ctol v r m -> (forall k w, (k < J)%nat -> In w (c_spws u) -> m (wk u v k w) = w) -> same_content u r.
Proof.
  intros D HM. pose proof (laid_made u v Hu HS HJ L) as (MF & (O1 & O2 & O3 & O4 & (T1 & T2 & T3 & T4 & T5 & T6) & O6) & MI & M0 & MJ & MC & MS & MT).
  destruct D as (RO & (Q1 & Q2 & Q3 & Q4 & (U1 & U2 & U3 & U4 & U5 & U6) & Q6) & RF & RT & RS & _ & _ & RJ & RC & RK & RN & RE & _).
  assert (W0 : forall w, In w (c_spws u) -> wk u v 0 w = w) by (intros w; apply (wk_0 u v L)).
  assert (SP : forall w, In w (c_spws r) <-> In w (c_spws u)).
  { intros w. rewrite RS. split.
    - intros (x & Hx & <-). destruct (wk_onto u v Hu HS HJ L x Hx) as (k & y & Hk & Hy & ->). rewrite (HM k y Hk Hy). exact Hy.
    - intros Hw. exists w. pose proof (wk_In u v HJ L 0 w HJ Hw) as I0. pose proof (HM 0%nat w HJ Hw) as H0. rewrite (W0 w Hw) in I0, H0. auto. }
  assert (HP : has_jones u (jones_at u 0)) by (exists O; auto).
  assert (CC : forall y i, about_chan r y i <-> about_chan u y i).
  { intros [w y] i. rewrite RC, SP. split.
    - intros [Hw A]. rewrite <- (M0 w Hw) in A. apply (MC w (jones_at u 0) y i Hw HP) in A. exact A.
    - intros A. assert (Hw : In w (c_spws u)).
      { destruct A as (f & Lf & E & _). pose proof (chan_In u Hu f Lf) as I. rewrite E in I. exact I. }
      split; [exact Hw|]. apply (MC w (jones_at u 0) y i Hw HP) in A. rewrite (M0 w Hw) in A. exact A. }
  assert (HC : forall x y, has_chan x y <-> exists i, about_chan x y i).
  { intros x y. split; [intros (f & Lf & E); eexists; exists f; eauto|intros (i & f & Lf & E & _); exists f; auto]. }
  assert (CH : forall y, has_chan r y <-> has_chan u y) by (intros y; rewrite !HC; split; intros (i & H); exists i; apply CC, H).
  assert (JN : forall p, has_jones r p <-> has_jones u p).
  { intros p. rewrite RJ. split.
    - intros (w & H). apply MJ in H. apply H.
    - intros H. exists (win_of u v (hd 0 (c_spws u)) p). apply MJ. split; [exact H|]. exists (hd 0 (c_spws u)). split; [|reflexivity]. destruct (c_spws u); [contradiction|left; reflexivity]. }
  assert (KEY : forall f' j, (f' < Nchans r)%nat -> (j < Njones r)%nat -> exists f0 K, (f0 < nf)%nat /\ (K < J)%nat /\ chan_at r f' = chan_at u f0 /\ jones_at r j = jones_at u K /\
     forall a t, entry r a f' t j = entry u a f0 t K).
  { intros f' j Hf' Hj. destruct (kth_exists r f' Hf') as [i KR]. set (w := fst (chan_at r f')) in *.
    assert (Hw : In w (c_spws u)).
    { assert (X : has_chan u (chan_at r f')) by (apply CH; exists f'; auto). destruct X as (f & Lf & E). unfold w. rewrite <- E. apply (chan_In u Hu), Lf. }
    assert (X : has_jones u (jones_at r j)) by (apply JN; exists j; auto). destruct X as (K & HK & EK).
    destruct (proj2 (RN (wk u v K w) i (wk_In u v HJ L K w HK Hw))) as [f Kf]; [exists f'; rewrite (HM K w HK Hw); exact KR|].
    pose proof Kf as Kf0. apply (kth_laid K w i f HK Hw) in Kf0. destruct Kf0 as (f0 & K0 & ->). pose proof (kth_bound _ _ _ _ K0) as [B0 _].
    exists f0, K. split; [exact B0|]. split; [exact HK|].
    assert (V0 : kth v w i f0) by (rewrite <- (W0 w Hw); apply (kth_laid 0 w i f0 HJ Hw); exists f0; auto).
    destruct (RK w i f0 f' V0 KR) as [E1 _].
    destruct (la_at u v L 0 f0 HJ B0) as [A1 _]. cbn [Nat.mul Nat.add] in A1.
    split; [|split; [symmetry; exact EK|]].
    - rewrite E1, A1. rewrite (W0 _ (chan_In u Hu f0 B0)). symmetry. apply surjective_pairing.
    - intros a t. rewrite <- (la_entry u v L K f0 a t HK B0).
      apply (RE (wk u v K w) (jones_at r j) i (K * nf + f0)%nat f' j); try assumption; [|rewrite (HM K w HK Hw); exact KR|reflexivity].
      apply (laid_jones u v Hu HS HJ L). exists K, w. auto. }
  assert (NA : Nants r = Nants u) by (unfold Nants; now rewrite Q4, O4).
  assert (AA : forall a, ant_at r a = ant_at u a) by (intros a; unfold ant_at; now rewrite Q4, O4).
  assert (TK : time_keys r = time_keys u) by (unfold time_keys; now rewrite U1, U2, T1, T2).
  assert (TT : forall t, time_at r t = time_at u t) by (intros t; unfold time_at; now rewrite TK).
  assert (NT : Ntimes r = Ntimes u) by (unfold Ntimes; now rewrite TK).
  split; [congruence|]. split; [congruence|]. split; [congruence|].
  split; [split; [|split; [exact CH|split; [|exact JN]]]|].
  { intros x. unfold has_ant, on_axis. rewrite NA. setoid_rewrite AA. reflexivity. }
  { intros x. unfold has_time, on_axis. rewrite NT. setoid_rewrite TT. reflexivity. }
  split; [|split; [|split; [|split; [exact CC|]]]].
  - intros x y z p c. unfold solution. rewrite NA, NT. setoid_rewrite AA. setoid_rewrite TT. split.
    + intros (a & f' & t & j & Ha & Hf & Ht & Hj & E1 & E2 & E3 & E4 & E5). destruct (KEY f' j Hf Hj) as (f0 & K & B1 & B2 & B3 & B4 & B5).
      exists a, f0, t, K. rewrite <- B3, <- B4, <- B5. auto 10.
    + intros (a & f & t & j & Ha & Hf & Ht & Hj & E1 & E2 & E3 & E4 & E5).
      assert (X : has_chan r y) by (apply CH; exists f; auto). destruct X as (f' & Hf' & Ef').
      assert (X : has_jones r p) by (apply JN; exists j; auto). destruct X as (j' & Hj' & Ej').
      destruct (KEY f' j' Hf' Hj') as (f0 & K & B1 & B2 & B3 & B4 & B5). destruct Hu as (_ & _ & _ & _ & _ & DC & _ & DJ).
      assert (f0 = f) by (apply DC; [exact B1|exact Hf|congruence]). assert (K = j) by (apply DJ; [exact B2|exact Hj|congruence]). subst f0 K.
      exists a, f', t, j'. rewrite B5. auto 10.
  - intros y z p q. unfold total_quality. rewrite RT, (proj1 (la_tq u v L)), TQ. split; intros (tq & _ & _ & _ & X & _); discriminate X.
  - intros z i. unfold about_time, time_info. rewrite NT, U1, U2, U3, U4, U5, U6, T1, T2, T3, T4, T5, T6. setoid_rewrite TT. reflexivity.
  - intros w p. unfold window_jones. rewrite RF, FJ. split; intros (fj & k & X & _); discriminate X.
Qed.
End Back.
