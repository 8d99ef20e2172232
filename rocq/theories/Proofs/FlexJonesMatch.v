(** C82: which windows are combined. *)
From Coq Require Import List ZArith QArith Bool Arith Lia Permutation Sorted.
From Verif Require Import Lib.Py Lib.Np Lib.Cube Lib.Sorting Spec.AddSpec Spec.CalSpec Spec.FlexJonesSpec
  Model.Tools Model.Times Model.UVCal Model.FlexJones Proofs.CalArrange Proofs.CalMove Proofs.FlexJonesBase Proofs.FlexJonesRemove.
Import ListNotations.
Notation length := List.length.
Open Scope list_scope.
Open Scope Z_scope.
Notation Ntimes := UVCal.Ntimes.

Lemma close_refl tols x : sane tols -> closeZ tols x x = true.
Proof.
  intros [H1 H2]. unfold closeZ, isclose. apply Qle_bool_iff.
  assert (A : forall q, (0 <= qabs q)%Q).
  { intros q. unfold qabs. destruct (Qle_bool 0 q) eqn:E; [apply Qle_bool_iff, E|].
    apply Qnot_lt_le. intros L. assert (Qle_bool 0 q = true); [|congruence].
    apply Qle_bool_iff. apply Qlt_le_weak in L. apply Qopp_le_compat in L. rewrite Qopp_opp in L. exact L. }
  assert (Z0 : (qabs (inject_Z x - inject_Z x) == 0)%Q).
  { unfold qabs. assert (E : (inject_Z x - inject_Z x == 0)%Q) by ring. destruct (Qle_bool _ _); rewrite E; reflexivity. }
  rewrite Z0. apply (Qle_trans _ (0 + 0)); [discriminate|]. apply Qplus_le_compat; [exact H2|]. apply Qmult_le_0_compat; [exact H1|apply A].
Qed.
Lemma near_refl ftol ctol u f : sane ftol -> sane ctol -> near ftol ctol u f u f.
Proof. intros H1 H2. unfold near. destruct (c_wide u); split; apply close_refl; assumption. Qed.

Lemma wide_chan u w : cal_ok u -> c_wide u = true -> In w (c_spws u) -> exists i, chans_of u w = [i] /\ nth i (c_spws u) 0 = w.
Proof.
  intros Hu W H. pose proof Hu as (_ & _ & N & _).
  destruct (In_nth _ _ 0 H) as (i & L & E). exists i. split; [|exact E].
  unfold chans_of, windex. rewrite W. symmetry. apply (nonzero_unique 0).
  - constructor; [constructor|constructor].
  - intros j. rewrite Z.eqb_eq. split.
    + intros [<-|[]]. auto.
    + intros [L' E']. left. apply (proj1 (NoDup_nth _ 0) N i j L L'). congruence.
Qed.

Lemma forallb_combine (p : Z -> Z -> bool) a b k : length a = length b ->
  forallb (fun x => p (fst x) (snd x)) (combine a b) = true -> (k < length a)%nat -> p (nth k a 0) (nth k b 0) = true.
Proof.
  intros L H Hk. rewrite forallb_forall in H. apply (H (nth k a 0, nth k b 0)). rewrite <- combine_nth by exact L.
  apply nth_In. rewrite combine_length. lia.
Qed.

(** Two windows that match have the same number of entries, near each other. *)
Lemma matched_near ftol ctol u w v : cal_ok u -> resolved ftol u -> In w (c_spws u) -> In v (c_spws u) ->
  allclose ftol (fst (window_key u w)) (fst (window_key u v)) = Ok true ->
  allclose (if c_wide u then (0, 0)%Q else ctol) (snd (window_key u w)) (snd (window_key u v)) = Ok true ->
  length (chans_of u w) = length (chans_of u v) /\
  forall k, (k < length (chans_of u w))%nat -> near ftol ctol u (nth k (chans_of u w) O) u (nth k (chans_of u v) O).
Proof.
  intros Hu R Hw Hv. unfold window_key, near. destruct (c_wide u) eqn:W.
  - destruct (wide_chan u w Hu W Hw) as (i & -> & _). destruct (wide_chan u v Hu W Hv) as (j & -> & _).
    cbn [fst snd flat_map app length]. unfold chan_info. rewrite W. destruct (nth i (c_freq_range u) (0, 0)) as [lo hi] eqn:E1. destruct (nth j (c_freq_range u) (0, 0)) as [lo' hi'] eqn:E2.
    cbn. intros H _. injection H as H. apply andb_prop in H. destruct H as [H1 H2]. apply andb_prop in H2. destruct H2 as [H2 _].
    split; [reflexivity|]. intros [|k] Hk; [|lia]. rewrite E1, E2. cbn [fst snd]. auto.
  - cbn [fst snd]. unfold allclose. rewrite !take_length. intros H1 H2.
    assert (EL : length (chans_of u w) = length (chans_of u v)).
    { destruct (Nat.eqb_spec (length (chans_of u w)) (length (chans_of u v))) as [E|N]; [exact E|]. exfalso.
      pose proof (chans_of_nonempty u w Hu Hw) as Lw. pose proof (chans_of_nonempty u v Hu Hv) as Lv.
      destruct (Nat.eqb_spec (length (chans_of u w)) 1) as [E1|N1].
      - injection H1 as H1. rewrite forallb_forall in H1. set (x := nth 0 (take 0 (c_freqs u) (chans_of u w)) 0) in *.
        assert (L2 : (1 < length (chans_of u v))%nat) by lia. apply (kth_some u v 1 Hu) in L2. destruct L2 as [f L2].
        apply (R W v x) in L2; [exact L2|]. left. intros k f' K. apply (kth_chans u v k f' Hu) in K. apply nth_error_In in K.
        unfold chan_at. rewrite W. cbn [snd]. apply H1. unfold take. apply in_map_iff. exists f'. auto.
      - destruct (Nat.eqb_spec (length (chans_of u v)) 1) as [E2|N2]; [|discriminate].
        injection H1 as H1. rewrite forallb_forall in H1. set (x := nth 0 (take 0 (c_freqs u) (chans_of u v)) 0) in *.
        assert (L2 : (1 < length (chans_of u w))%nat) by lia. apply (kth_some u w 1 Hu) in L2. destruct L2 as [f L2].
        apply (R W w x) in L2; [exact L2|]. right. intros k f' K. apply (kth_chans u w k f' Hu) in K. apply nth_error_In in K.
        unfold chan_at. rewrite W. cbn [snd]. apply H1. unfold take. apply in_map_iff. exists f'. auto. }
    split; [exact EL|]. rewrite EL, Nat.eqb_refl in H1, H2. injection H1 as H1. injection H2 as H2. intros k Hk.
    apply (forallb_combine _ _ _ k) in H1; [|rewrite !take_length; exact EL|rewrite take_length; exact Hk].
    apply (forallb_combine _ _ _ k) in H2; [|rewrite !take_length; exact EL|rewrite take_length; exact Hk].
    rewrite !nth_take in H1, H2 by lia. unfold chan_at, chan_info. rewrite W. cbn [fst snd]. auto.
Qed.

Section Match.
Variables (ftol ctol : Q * Q) (u : ucal).
Definition alike_keys (w v : Z) : Prop :=
  allclose ftol (fst (window_key u w)) (fst (window_key u v)) = Ok true /\ allclose ctol (snd (window_key u w)) (snd (window_key u v)) = Ok true.

Lemma find_window_spec w known m : (forall v key, In (v, key) known -> key = window_key u v) ->
  find_window ftol ctol (window_key u w) known = Ok m -> match m with Some v => (exists key, In (v, key) known) /\ alike_keys w v | None => True end.
Proof.
  induction known as [|[v [fs ws]] known IH]; intros HK H; [injection H as <-; exact I|]. cbn [find_window] in H.
  apply bind_Ok in H. destruct H as (f & H1 & H). apply bind_Ok in H. destruct H as (c & H2 & H).
  assert (IH' : find_window ftol ctol (window_key u w) known = Ok m -> match m with Some v0 => (exists key, In (v0, key) ((v, (fs, ws)) :: known)) /\ alike_keys w v0 | None => True end).
  { intros E. specialize (IH (fun v0 key X => HK v0 key (or_intror X)) E). destruct m; [|exact I]. destruct IH as [[key IH] A]. split; [exists key; right; exact IH|exact A]. }
  destruct c; [|exact (IH' H)]. injection H as <-. destruct f; [|discriminate].
  split; [exists (fs, ws); left; reflexivity|]. unfold alike_keys. rewrite <- (HK v (fs, ws) (or_introl eq_refl)). auto.
Qed.

Lemma match_spec wins known seen : (forall v key, In (v, key) known -> key = window_key u v) ->
  match_windows ftol ctol u wins known = Ok seen ->
  map (fun x => (fst (fst x), snd x)) seen = wins /\
  forall w v p, In (w, v, p) seen -> v = w \/ (((exists key, In (v, key) known) \/ (exists p', In (v, v, p') seen)) /\ alike_keys w v).
Proof.
  revert known seen. induction wins as [|[w p] wins IH]; intros known seen HK H.
  - injection H as <-. split; [reflexivity|intros ? ? ? []].
  - cbn [match_windows] in H. apply bind_Ok in H. destruct H as (m & HM & H). pose proof (find_window_spec _ _ _ HK HM) as HF. destruct m as [v|].
    + apply bind_Ok in H. destruct H as (rest & HR & H). injection H as <-. destruct (IH _ _ HK HR) as [I1 I2].
      split; [cbn [map fst snd]; now rewrite I1|]. intros w' v' p' [E|X].
      * injection E as <- <- <-. right. destruct HF as [HF1 HF2]. auto.
      * destruct (I2 _ _ _ X) as [->|[[A|[q A]] B]]; [left; reflexivity|right; auto|right]. split; [right; exists q; right; exact A|exact B].
    + apply bind_Ok in H. destruct H as (rest & HR & H). injection H as <-.
      assert (HK' : forall v key, In (v, key) (known ++ [(w, window_key u w)]) -> key = window_key u v).
      { intros v key X. apply in_app_or in X. destruct X as [X|[X|[]]]; [apply HK, X|injection X as <- <-; reflexivity]. }
      destruct (IH _ _ HK' HR) as [I1 I2]. split; [cbn [map fst snd]; now rewrite I1|]. intros w' v' p' [E|X].
      * injection E as <- <- <-. left. reflexivity.
      * destruct (I2 _ _ _ X) as [->|[[[key A]|[q A]] B]]; [left; reflexivity| |right; split; [right; exists q; right; exact A|exact B]].
        right. split; [|exact B]. apply in_app_or in A. destruct A as [A|[A|[]]]; [left; eauto|]. injection A as <- _. right. exists p. left. reflexivity.
Qed.
End Match.

Lemma all_matched_spec nj seen kept : all_matched nj seen kept = Ok true ->
  forall v, In v kept -> NoDup (tally seen v) /\ length (uniqueZ (tally seen v)) = nj.
Proof.
  induction kept as [|x kept IH]; intros H v Hv; [destruct Hv|]. cbn [all_matched] in H.
  destruct (Nat.eqb_spec (length (uniqueZ (tally seen x))) (length (tally seen x))) as [E|_]; [|discriminate]. cbn [negb] in H.
  destruct (Nat.eqb_spec (length (uniqueZ (tally seen x))) nj) as [E2|_]; [|discriminate]. cbn [negb] in H.
  destruct Hv as [<-|Hv]; [|exact (IH H v Hv)]. split; [|exact E2].
  apply (@NoDup_incl_NoDup _ (uniqueZ (tally seen x)) (tally seen x)); [apply uniqueZ_NoDup|lia|]. intros y Hy. apply uniqueZ_In, Hy.
Qed.
Lemma tally_one seen v w w' p : NoDup (tally seen v) -> In (w, v, p) seen -> In (w', v, p) seen -> w = w'.
Proof.
  unfold tally. induction seen as [|[[w0 v0] p0] l IH]; intros N H H'; [destruct H|]. cbn [filter fst snd] in N.
  destruct (Z.eqb_spec v0 v) as [->|NE].
  - cbn [map snd] in N. inversion N as [|? ? N1 N2]. subst.
    assert (K : forall w1, In (w1, v, p0) l -> False).
    { intros w1 X. apply N1. apply in_map_iff. exists (w1, v, p0). split; [reflexivity|]. apply filter_In. split; [exact X|apply Z.eqb_refl]. }
    destruct H as [H|H], H' as [H'|H'].
    + congruence.
    + injection H as -> ->. elim (K _ H').
    + injection H' as -> ->. elim (K _ H).
    + apply IH; assumption.
  - destruct H as [H|H]; [injection H as _ H _; contradiction|]. destruct H' as [H'|H']; [injection H' as _ H' _; contradiction|].
    apply IH; assumption.
Qed.
Lemma kept_In seen v : In v (kept_windows seen) <-> exists p, In (v, v, p) seen.
Proof.
  unfold kept_windows. rewrite in_map_iff. split.
  - intros ([[w v0] p] & E & H). apply filter_In in H. destruct H as [H E2]. cbn [fst snd] in *. apply Z.eqb_eq in E2. subst. eauto.
  - intros (p & H). exists (v, v, p). split; [reflexivity|]. apply filter_In. split; [exact H|apply Z.eqb_refl].
Qed.

Section Top.
Variables (ftol ctol : Q * Q) (u : ucal) (fj : list Z).
Hypothesis HF : c_flex_jones u = Some fj.
Hypothesis Hu : flex_ok u.
Hypothesis Sf : sane ftol.
Hypothesis Sc : sane ctol.

Lemma jones_In p : In p (rev (uniqueZ fj)) <-> In p fj.
Proof. rewrite <- in_rev. apply uniqueZ_In. Qed.
Lemma jones_NoDup : NoDup (rev (uniqueZ fj)).
Proof. apply NoDup_rev, uniqueZ_NoDup. Qed.
Let alone := map (fun wp => (fst wp, fst wp, snd wp)) (combine (c_spws u) fj).
Lemma alone_In w v p : In (w, v, p) alone -> v = w.
Proof. unfold alone. rewrite in_map_iff. intros ([a b] & E & _). cbn [fst snd] in E. congruence. Qed.
Lemma alone_pairs : map (fun x => (fst (fst x), snd x)) alone = combine (c_spws u) fj.
Proof. unfold alone. rewrite map_map. cbn [fst snd]. rewrite <- (map_id (combine (c_spws u) fj)) at 2. apply map_ext. intros [a b]. reflexivity. Qed.
Lemma alone_goal w : goal_of alone w = w.
Proof.
  unfold goal_of. destruct (find _ alone) as [[[a b] c]|] eqn:E; [|reflexivity]. apply find_some in E. destruct E as [I E].
  cbn [fst snd] in *. apply Z.eqb_eq in E. apply alone_In in I. congruence.
Qed.
Lemma removed_alone : c_tqual u = None ->
  exists r, set_windows alone (rev (uniqueZ fj)) u = Ok r /\ flex_jones_removed ftol ctol u r (goal_of alone).
Proof.
  intros TQ. destruct Hu as (HC & _). apply (removal ftol ctol u fj alone); try assumption.
  - apply alone_pairs.
  - intros w v p H. pose proof (alone_In _ _ _ H). subst v. eauto.
  - intros w w' v p H H'. apply alone_In in H, H'. congruence.
  - intros w v p H. apply alone_In in H. subst v. split; [reflexivity|]. intros k _. apply near_refl; assumption.
  - exact jones_In.
  - exact jones_NoDup.
Qed.
Lemma removed_matched seen : resolved ftol u ->
  match_windows ftol (if c_wide u then (0, 0)%Q else ctol) u (combine (c_spws u) fj) [] = Ok seen ->
  all_matched (length (rev (uniqueZ fj))) seen (kept_windows seen) = Ok true -> c_tqual u = None ->
  exists r, set_windows seen (rev (uniqueZ fj)) u = Ok r /\ flex_jones_removed ftol ctol u r (goal_of seen).
Proof.
  intros R HM HA TQ. destruct Hu as (HC & _).
  destruct (match_spec ftol _ u (combine (c_spws u) fj) [] seen (fun _ _ X => match X with end) HM) as [P1 P2].
  assert (Q2 : forall w v p, In (w, v, p) seen -> exists p', In (v, v, p') seen).
  { intros w v p H. destruct (P2 _ _ _ H) as [->|[[[key []]|A] _]]; eauto. }
  assert (SP : forall w v p, In (w, v, p) seen -> In w (c_spws u)).
  { intros w v p H. apply (in_map (fun x => (fst (fst x), snd x))) in H. rewrite P1 in H. apply in_combine_l in H. exact H. }
  apply (removal ftol ctol u fj seen); try assumption.
  - intros w w' v p H H'. destruct (Q2 _ _ _ H) as [p' K]. pose proof (proj2 (kept_In seen v) (ex_intro _ p' K)) as KV.
    destruct (all_matched_spec _ _ _ HA v KV) as [N _]. exact (tally_one _ _ _ _ _ N H H').
  - intros w v p H. destruct (P2 _ _ _ H) as [->|[_ [A B]]].
    + split; [reflexivity|]. intros k _. apply near_refl; assumption.
    + destruct (Q2 _ _ _ H) as [p' K]. apply matched_near; eauto.
  - exact jones_In.
  - exact jones_NoDup.
Qed.

Lemma matched_full seen r : match_windows ftol (if c_wide u then (0, 0)%Q else ctol) u (combine (c_spws u) fj) [] = Ok seen ->
  all_matched (length (rev (uniqueZ fj))) seen (kept_windows seen) = Ok true -> set_windows seen (rev (uniqueZ fj)) u = Ok r ->
  forall v p, (exists w, In w (c_spws u) /\ goal_of seen w = v) -> (exists w, window_jones u w p) -> exists w, window_jones u w p /\ goal_of seen w = v.
Proof.
  intros HM HA _ v p (x & Hx & Ev) (y & Hy). destruct Hu as (HC & _).
  destruct (match_spec ftol _ u (combine (c_spws u) fj) [] seen (fun _ _ X => match X with end) HM) as [P1 P2].
  assert (Q2 : forall w v p, In (w, v, p) seen -> exists p', In (v, v, p') seen).
  { intros w v0 p0 H. destruct (P2 _ _ _ H) as [->|[[[key []]|A] _]]; eauto. }
  apply (spw_maps u fj seen HC HF P1) in Hx. destruct Hx as (v0 & p0 & Hx). rewrite (goal_maps u fj seen HC HF P1 _ _ _ Hx) in Ev. subst v0.
  destruct (Q2 _ _ _ Hx) as [p' K]. destruct (all_matched_spec _ _ _ HA v (proj2 (kept_In seen v) (ex_intro _ p' K))) as [N E].
  assert (IF : forall q, In q (tally seen v) -> In q fj).
  { intros q Hq. unfold tally in Hq. apply in_map_iff in Hq. destruct Hq as ([[a b] c] & <- & Hq). apply filter_In in Hq. destruct Hq as [Hq _].
    apply (in_map (fun x => (fst (fst x), snd x))) in Hq. rewrite P1 in Hq. apply in_combine_r in Hq. exact Hq. }
  assert (IP : In p fj).
  { destruct Hy as (l & k & El & _ & _ & Ek). rewrite HF in El. injection El as <-. eapply nth_error_In, Ek. }
  assert (IT : In p (uniqueZ (tally seen v))).
  { apply (NoDup_length_incl (l := uniqueZ (tally seen v)) (l' := rev (uniqueZ fj))); [apply uniqueZ_NoDup|lia| |apply jones_In, IP].
    intros q Hq. apply jones_In, IF. apply (proj1 (uniqueZ_In _ _)), Hq. }
  apply (proj1 (uniqueZ_In _ _)) in IT. unfold tally in IT. apply in_map_iff in IT. destruct IT as ([[a b] c] & Ec & IT). apply filter_In in IT. destruct IT as [IT Eb]. cbn [fst snd] in Ec, Eb.
  apply Z.eqb_eq in Eb. subst b c. exists a. split; [apply (in_window u fj seen HC HF P1); eauto|]. apply (goal_maps u fj seen HC HF P1 _ _ _ IT).
Qed.

Lemma windex_In f : (f < Nchans u)%nat -> In (fst (chan_at u f)) (c_spws u).
Proof. intros L. destruct Hu as (HC & _). apply (in_windex u _ HC). rewrite windex_nth. apply nth_In. rewrite (windex_length u HC). exact L. Qed.

Lemma removed_single : length (rev (uniqueZ fj)) = 1%nat ->
  flex_jones_removed ftol ctol u (set_jones (rev (uniqueZ fj)) None u) (fun w => w).
Proof.
  intros L. destruct Hu as (HC & NE & _ & J1).
  destruct (rev (uniqueZ fj)) as [|p [|p' l]] eqn:E; try discriminate. clear L.
  assert (P : forall x, In x fj <-> x = p).
  { intros x. rewrite <- jones_In, E. cbn. intuition congruence. }
  assert (LF : length fj = length (c_spws u)) by (destruct HC as (_ & _ & _ & J & _); apply J, HF).
  assert (WJ : forall w q, window_jones u w q <-> In w (c_spws u) /\ q = p).
  { intros w q. unfold window_jones. split.
    - intros (l & k & El & Lk & E1 & E2). rewrite HF in El. injection El as <-. split; [rewrite <- E1; apply nth_In, Lk|].
      apply P. eapply nth_error_In, E2.
    - intros [Hw ->]. destruct (In_nth _ _ 0 Hw) as (k & Lk & Ek). exists fj, k. split; [exact HF|]. split; [exact Lk|]. split; [exact Ek|].
      destruct (nth_error fj k) as [x|] eqn:Ex; [|apply nth_error_None in Ex; lia]. f_equal. apply P. eapply nth_error_In, Ex. }
  set (r := set_jones [p] None u).
  assert (Nj : forall j, (j < Njones r)%nat -> j = O) by (intros j; cbn; lia).
  split; [|split; [|split; [reflexivity|split; [reflexivity|split; [|split; [|split; [|split; [|split; [|split; [|split; [|split]]]]]]]]]]].
  - apply cal_ok_lists in HC. destruct HC as ((A & B & C & D) & F & G & I & K). apply cal_ok_lists.
    split; [split; [exact A|split; [exact B|split; [exact C|intros l' X; discriminate]]]|]. do 3 (split; [assumption|]). constructor; [intros []|constructor].
  - split; [reflexivity|]. split; [reflexivity|]. split; [reflexivity|]. split; [reflexivity|]. split; [repeat split|]. reflexivity.
  - intros v. change (c_spws r) with (c_spws u). split; [intros H; exists v; auto|intros (w & H & <-); exact H].
  - auto.
  - auto.
  - intros q. unfold has_jones, on_axis. split.
    + intros (j & Lj & Ej). destruct (c_spws u) as [|w ws] eqn:ES; [contradiction|]. exists w. apply WJ. split; [left; reflexivity|].
      rewrite (Nj j Lj) in Ej. symmetry. exact Ej.
    + intros (w & H). apply WJ in H. destruct H as [_ ->]. exists O. split; [cbn; lia|reflexivity].
  - intros v y i. change (c_spws r) with (c_spws u). split; [|intros [_ H]; exact H]. intros (f & Lf & E1 & E2). split; [|exists f; auto].
    pose proof (windex_In f Lf) as WI. change (chan_at r f) with (chan_at u f) in E1. rewrite E1 in WI. exact WI.
  - intros w k f f' Kf Kf'. change (kth u w k f') in Kf'. unfold kth in Kf, Kf'. rewrite Kf in Kf'. injection Kf' as <-. auto.
  - intros w k _. reflexivity.
  - intros w q k f f' j HW Kf Kf' Lj Ej. change (kth u w k f') in Kf'. unfold kth in Kf, Kf'. rewrite Kf in Kf'. injection Kf' as <-. rewrite (Nj j Lj).
    split; [change (near ftol ctol u f u f); apply near_refl; assumption|reflexivity].
  - intros f j Lf Lj H. exfalso. apply (H (fst (chan_at u f))); [|reflexivity]. apply WJ. split; [apply windex_In, Lf|].
    rewrite (Nj j Lj). reflexivity.
Qed.

Lemma removed combine_spws r : (combine_spws = true -> resolved ftol u) -> remove_flex_jones ftol ctol combine_spws u = Ok r ->
  exists m, flex_jones_removed ftol ctol u r m /\ (combine_spws = false -> forall w, m w = w) /\
    ((forall w, m w = w) \/ forall v p, In v (c_spws r) -> has_jones r p -> exists w, window_jones u w p /\ m w = v).
Proof.
  intros R H. unfold remove_flex_jones in H. rewrite HF in H.
  destruct ((length (rev (uniqueZ fj)) =? 1)%nat && ((length (c_spws u) =? 1)%nat || negb combine_spws)) eqn:C.
  - injection H as <-. exists (fun w => w). split; [|split; auto]. apply removed_single. apply andb_prop in C. destruct C as [C _]. apply Nat.eqb_eq, C.
  - fold alone in H.
    assert (TQ : forall maps, set_windows maps (rev (uniqueZ fj)) u = Ok r -> c_tqual u = None).
    { intros maps X. unfold set_windows in X. destruct (forallb _ _); cbn [negb] in X; [|discriminate X]. destruct (c_tqual u); [discriminate X|reflexivity]. }
    destruct combine_spws.
    + apply bind_Ok in H. destruct H as (seen & HM & H). apply bind_Ok in H. destruct H as (all & HA & H). destruct all.
      * destruct (removed_matched seen (R eq_refl) HM HA (TQ _ H)) as (r' & E & D). rewrite H in E. injection E as <-. exists (goal_of seen). split; [exact D|split; [intros X; discriminate X|]]. right.
        pose proof (matched_full seen r HM HA H) as F. intros v p Hv Hp. pose proof D as (_ & _ & _ & _ & RS & _ & _ & RJ & _). apply RJ in Hp. apply RS in Hv.
        apply F; [destruct Hv as (w & Hw & E); eauto|exact Hp].
      * destruct (removed_alone (TQ _ H)) as (r' & E & D). rewrite H in E. injection E as <-. exists (goal_of alone). split; [exact D|split; [intros X; discriminate X|left; exact alone_goal]].
    + destruct (removed_alone (TQ _ H)) as (r' & E & D). rewrite H in E. injection E as <-. exists (goal_of alone). split; [exact D|]. split; [intros _; exact alone_goal|left; exact alone_goal].
Qed.
Lemma remove_total : c_tqual u = None -> exists r, remove_flex_jones ftol ctol false u = Ok r.
Proof.
  intros TQ. unfold remove_flex_jones. rewrite HF. destruct (_ && _); [eauto|]. fold alone. destruct (removed_alone TQ) as (r & E & _). eauto.
Qed.
End Top.
