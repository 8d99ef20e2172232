(** Applying flags to visibilities. *)
From Coq Require Import List ZArith Bool Arith Sorted Lia.
From Verif Require Import Lib.Py Lib.Np Lib.Sorting Lib.Cube Model.Bls Model.UVData Model.Hdf5 Model.Access Model.UVFlag
  Spec.BlsSpec Spec.UVDataSpec Spec.AccessSpec Spec.FlagSpec Proofs.BlsProofs Proofs.Hdf5Proofs Proofs.AccessProofs
  Proofs.AccessRead Proofs.ConcatCatalog Proofs.SelectTotal Proofs.FlagProofs Proofs.FlagConvert.
Import ListNotations.
Open Scope Z_scope.
Open Scope list_scope.
Notation length := List.length.

Lemma search_rows u a b : consistent u -> pair_rows u a b <> [] ->
  exists ix, antpair_search u a b true = Ok (Some ix) /\ at_index (Nblts u) ix = Ok (pair_rows u a b).
Proof.
  intros Hc Hne. destruct (antpair_search_ok u a b true Hc) as (v & E & S).
  pose proof (hits_sel _ _ _ _ S (canon_ordered u a b)) as H. destruct v as [ix|]; [|cbn in H; congruence].
  exists ix. split; [exact E|]. cbn in H. apply H.
Qed.

Lemma pair_eqb_eq p q : zpair_eqb p q = true <-> p = q.
Proof.
  unfold zpair_eqb. destruct p, q. cbn [fst snd]. rewrite andb_true_iff, !Z.eqb_eq. split; [intros [-> ->]; reflexivity|intros H; injection H; auto].
Qed.

Lemma flag_rows_In f a b i : In i (flag_rows f a b) <-> (i < length (f_time f))%nat /\ nth i (f_ant1 f) 0 = a /\ nth i (f_ant2 f) 0 = b.
Proof. unfold flag_rows. rewrite filter_In, in_seq, andb_true_iff, !Z.eqb_eq. intuition lia. Qed.
Lemma filter_seq_sorted (g : nat -> bool) n m : StronglySorted lt (filter g (seq n m)).
Proof.
  revert n. induction m as [|m IH]; intros n; simpl; [constructor|].
  destruct (g n); [|apply IH]. constructor; [apply IH|].
  apply Forall_forall. intros x Hx. apply filter_In in Hx. destruct Hx as [Hx _]. apply in_seq in Hx. lia.
Qed.
Lemma f_pair_rows_spec f a b : flag_consistent f -> f_pair_rows f a b = flag_rows f a b.
Proof.
  intros (L1 & L2 & _). unfold f_pair_rows. symmetry. apply (nonzero_unique (0, 0)); [apply filter_seq_sorted|].
  intros i. rewrite flag_rows_In, combine_length, L1, L2, Nat.min_id, pair_eqb_eq, combine_nth by congruence.
  split; [intros (? & -> & ->); auto|intros (? & E); injection E; auto].
Qed.

Lemma f_pairs_ok f : flag_consistent f -> exists l, f_antpairs f = Ok l /\ (forall a b, In (a, b) l <-> flag_rows f a b <> []).
Proof.
  intros (L1 & L2 & Lb & Hne & Hn & m & off & He & Hcod). unfold f_antpairs.
  assert (Hrow : forall b, In b (uniqueZ (f_bl f)) -> exists i, (i < length (f_time f))%nat /\ b = m * nth i (f_ant1 f) 0 + nth i (f_ant2 f) 0 + off /\
                  0 <= nth i (f_ant1 f) 0 < m /\ 0 <= nth i (f_ant2 f) 0 < m).
  { intros b Hb. apply (proj1 (uniqueZ_In _ _)) in Hb. apply In_nth with (d := 0) in Hb. destruct Hb as (i & Hi & <-). rewrite Lb in Hi.
    exists i. destruct (Hcod i Hi) as (A & B & C). auto. }
  rewrite (decode_regime m off _ _ He).
  - cbn [bind]. eexists. split; [reflexivity|].
    assert (EC : forall l, combine (map (fun b => (b - off) / m) l) (map (fun b => (b - off) mod m) l) = map (fun b => ((b - off) / m, (b - off) mod m)) l)
      by (induction l as [|x l IH]; [reflexivity|simpl; rewrite IH; reflexivity]).
    rewrite EC. intros a b. split.
    + intros Hin. apply in_map_iff in Hin. destruct Hin as (n & Ee & Hin). destruct (Hrow n Hin) as (i & Hi & -> & A & B).
      rewrite div_enc, mod_enc in Ee by exact B. injection Ee as <- <-. intros En.
      assert (In i []); [|contradiction]. rewrite <- En. apply flag_rows_In. auto.
    + intros Hr. destruct (flag_rows f a b) as [|i l] eqn:Er; [congruence|].
      assert (Hi : In i (flag_rows f a b)) by (rewrite Er; left; reflexivity). apply flag_rows_In in Hi. destruct Hi as (Hi & <- & <-).
      destruct (Hcod i Hi) as (A & B & C). apply in_map_iff. exists (nth i (f_bl f) 0). split.
      * rewrite C, div_enc, mod_enc by exact B. reflexivity.
      * apply uniqueZ_In. apply nth_In. lia.
  - intros En. destruct (f_bl f) as [|b l] eqn:Eb; [destruct (f_time f); [congruence|discriminate]|].
    assert (In b []); [|contradiction]. rewrite <- En. apply uniqueZ_In. left; reflexivity.
  - exact Hn.
  - apply Forall_forall. intros b Hb. destruct (Hrow b Hb) as (i & _ & -> & A & B). unfold in_regime. inversion He; subst; nia.
Qed.

Lemma bpos_shared n i : bpos n i = shared n i.
Proof. destruct n as [|[|n]]; reflexivity. Qed.

(** The pair of row [i] *)
Definition pair_of (u : uvd) (i : nat) : Z * Z := (nth i (ant_1_array u) 0, nth i (ant_2_array u) 0).
Definition has_rows (u : uvd) (ap : Z * Z) : Prop := pair_rows u (fst ap) (snd ap) <> [].

(** How one sample changes *)
Definition sample_changed (u : uvd) (f : bflag) (miss : bool) (i j p : nat) (old new : bool) : Prop :=
  let rows := flag_rows f (nth i (ant_1_array u) 0) (nth i (ant_2_array u) 0) in
  (rows = [] -> new = old || miss) /\
  (rows <> [] -> exists k, flag_source u f i k) /\
  (forall k, flag_source u f i k -> new = old || f_flags f k (shared (length (f_freq f)) j) (shared (f_np f) p)).

Lemma source_unique u f i k r rows frows : NoDup rows ->
  rows = pair_rows u (nth i (ant_1_array u) 0) (nth i (ant_2_array u) 0) ->
  frows = flag_rows f (nth i (ant_1_array u) 0) (nth i (ant_2_array u) 0) ->
  (r < length rows)%nat -> nth r rows 0%nat = i ->
  flag_source u f i k -> nth (bpos (length frows) r) frows 0%nat = k.
Proof.
  intros ND Er Ef Hr Hi [E|(L & r' & E1 & E2)].
  - rewrite <- Ef in E. rewrite E. reflexivity.
  - rewrite <- Er in *. rewrite <- Ef in *. assert (r' = r).
    { apply (proj1 (NoDup_nth_error rows) ND); [apply nth_error_Some; congruence|]. rewrite E1. symmetry. rewrite (nth_error_nth' rows 0%nat Hr). congruence. }
    subst r'. unfold bpos. destruct (length frows =? 1)%nat eqn:El.
    + apply Nat.eqb_eq in El. assert (r = 0%nat) by lia. subst r. apply nth_error_nth. exact E2.
    + apply nth_error_nth. exact E2.
Qed.

Lemma apply_pair_spec u f fpairs miss fl ap fl' : consistent u -> flag_consistent f ->
  (forall a b, In (a, b) fpairs <-> flag_rows f a b <> []) -> has_rows u ap ->
  apply_pair u f fpairs miss fl ap = Ok fl' ->
  forall i j p, (i < length (time_array u))%nat ->
    (pair_of u i <> ap -> fl' i j p = fl i j p) /\ (pair_of u i = ap -> sample_changed u f miss i j p (fl i j p) (fl' i j p)).
Proof.
  intros Hc Hf Hp Hr H. destruct ap as [a b]. unfold has_rows in Hr. cbn [fst snd] in Hr.
  unfold apply_pair in H. cbn [fst snd] in H. destruct (search_rows u a b Hc Hr) as (ix & E1 & E2). rewrite E1 in H. cbn [bind] in H. rewrite E2 in H. cbn [bind] in H.
  pose proof (StronglySorted_lt_NoDup _ (pair_rows_sorted u a b)) as ND.
  intros i j p Hi. unfold pair_of.
  assert (Hin : In i (pair_rows u a b) <-> (nth i (ant_1_array u) 0, nth i (ant_2_array u) 0) = (a, b)).
  { rewrite pair_rows_In. split; [intros (_ & -> & ->); reflexivity|intros E; injection E; auto]. }
  destruct (memb zpair_eqb (a, b) fpairs) eqn:Em; cbn [negb] in H.
  - apply (memb_spec _ pair_eqb_eq) in Em. apply Hp in Em. rewrite (f_pair_rows_spec f a b Hf) in H.
    destruct (bcast (length (flag_rows f a b)) (length (pair_rows u a b)) && bcast (length (f_freq f)) (Nfreqs u) && bcast (f_np f) (Npols u)) eqn:Eb; [|discriminate].
    injection H as <-. split.
    + intros Hne. rewrite index_of_notin; [reflexivity|]. intros K. apply Hne, Hin, K.
    + intros E. assert (K : In i (pair_rows u a b)) by (apply Hin; exact E). destruct (index_of_in i _ K) as (r & Er & Hr' & Hn).
      rewrite Er. injection E as Ea Eb'. unfold sample_changed. cbv zeta. rewrite Ea, Eb'. split; [congruence|]. split.
      * intros _. apply andb_true_iff in Eb. destruct Eb as [Eb _]. apply andb_true_iff in Eb. destruct Eb as [Eb _]. unfold bcast in Eb.
        apply orb_true_iff in Eb. rewrite !Nat.eqb_eq in Eb. unfold flag_source. rewrite Ea, Eb'. destruct Eb as [Eb|Eb].
        -- exists (nth r (flag_rows f a b) 0%nat). right. split; [exact Eb|]. exists r. split; [rewrite (nth_error_nth' _ 0%nat Hr'); congruence|].
           apply nth_error_nth'. lia.
        -- destruct (flag_rows f a b) as [|k [|]]; try discriminate. exists k. left; reflexivity.
      * intros k Hk. rewrite (source_unique u f i k r (pair_rows u a b) (flag_rows f a b)); try assumption; try congruence.
        rewrite !bpos_shared. reflexivity.
  - assert (Hno : flag_rows f a b = []).
    { destruct (flag_rows f a b) as [|k l] eqn:E; [reflexivity|]. assert (K : In (a, b) fpairs) by (apply Hp; rewrite E; discriminate).
      apply (memb_spec _ pair_eqb_eq) in K. congruence. }
    injection H as <-. split.
    + intros Hne. destruct miss; [|reflexivity]. destruct (isinN i (pair_rows u a b)) eqn:E; [|reflexivity]. apply isinN_spec in E. elim Hne. apply Hin. exact E.
    + intros E. assert (K : In i (pair_rows u a b)) by (apply Hin; exact E). injection E as Ea Eb. unfold sample_changed. cbv zeta. rewrite Ea, Eb, Hno. split; [|split].
      * intros _. destruct miss; [|rewrite orb_false_r; reflexivity]. rewrite (proj2 (isinN_spec i _) K), orb_true_r. reflexivity.
      * congruence.
      * intros k [Hs|(_ & r & _ & Hs)]; rewrite Ea, Eb, Hno in Hs; [discriminate|destruct r; discriminate].
Qed.

Lemma loop_spec u f fpairs miss l : consistent u -> flag_consistent f ->
  (forall a b, In (a, b) fpairs <-> flag_rows f a b <> []) -> NoDup l -> (forall ap, In ap l -> has_rows u ap) ->
  forall fl fl', foldM (apply_pair u f fpairs miss) l fl = Ok fl' ->
  forall i j p, (i < length (time_array u))%nat ->
    (~ In (pair_of u i) l -> fl' i j p = fl i j p) /\ (In (pair_of u i) l -> sample_changed u f miss i j p (fl i j p) (fl' i j p)).
Proof.
  intros Hc Hf Hp ND. induction ND as [|ap l Hnin ND IH]; intros Hr fl fl' H i j p Hi.
  - injection H as <-. split; [reflexivity|contradiction].
  - rewrite foldM_cons in H. apply bind_Ok in H as (fl1 & E1 & H).
    destruct (apply_pair_spec u f fpairs miss fl ap fl1 Hc Hf Hp (Hr ap (or_introl eq_refl)) E1 i j p Hi) as [A1 A2].
    destruct (IH (fun x K => Hr x (or_intror K)) fl1 fl' H i j p Hi) as [B1 B2].
    assert (D : pair_of u i = ap \/ pair_of u i <> ap) by (destruct (zpair_eqb (pair_of u i) ap) eqn:E; [left; apply pair_eqb_eq; exact E|right; intros K; apply pair_eqb_eq in K; congruence]).
    destruct D as [D|D].
    + split; [intros K; elim K; left; auto|]. intros _. rewrite B1 by (rewrite D; exact Hnin). apply A2; exact D.
    + split.
      * intros K. rewrite B1 by (intros K2; apply K; right; exact K2). apply A1; exact D.
      * intros [K|K]; [congruence|]. rewrite <- A1 by exact D. apply B2; exact K.
Qed.

(** ** Any successful application *)
Lemma apply_pair_mono u f fpairs miss fl ap fl' : apply_pair u f fpairs miss fl ap = Ok fl' ->
  forall i j p, fl i j p = true -> fl' i j p = true.
Proof.
  unfold apply_pair. intros H. apply bind_Ok in H as (ix & _ & H). apply bind_Ok in H as (rows & _ & H).
  destruct (negb (memb zpair_eqb ap fpairs)).
  - injection H as <-. intros i j p Ht. destruct miss; [|exact Ht]. destruct (isinN i rows); [reflexivity|exact Ht].
  - destruct (_ && _ && _); [|discriminate]. injection H as <-. intros i j p Ht. destruct (index_of Nat.eqb i rows); [|exact Ht]. rewrite Ht. reflexivity.
Qed.
Lemma apply_unfold ttol ftol un miss force u g u' : apply_uvflag ttol ftol un miss force u g = Ok u' ->
  exists b fpairs aps fl,
    (match g with
     | Baseline f => exists p, b = mkb (f_time f) (f_ant1 f) (f_ant2 f) (f_bl f) (f_freq f) p (f_Ntimes f) (f_Nants f) (f_np f) (f_flags f)
     | _ => to_baseline ttol ftol force true g u = Ok b
     end) /\
    f_antpairs b = Ok fpairs /\ get_antpairs u = Ok aps /\
    foldM (apply_pair u b fpairs miss) aps (if un then fun _ _ _ : nat => false else flag_array u) = Ok fl /\ u' = set_flag_array fl u.
Proof.
  unfold apply_uvflag. intros H. apply bind_Ok in H as (b & Eb & H).
  destruct (mismatched ttol _ _ _ _); [discriminate|]. destruct (mismatched ftol _ _ _ _); [discriminate|].
  apply bind_Ok in H as (fp & Ef & H). apply bind_Ok in H as (aps & Ea & H). apply bind_Ok in H as (fl & El & H). injection H as <-.
  exists b, fp, aps, fl. split; [|auto]. destruct g; try exact Eb. apply bind_Ok in Eb as (p & _ & Eb). injection Eb as <-. eauto.
Qed.
Lemma apply_frame ttol ftol un miss force u g u' : apply_uvflag ttol ftol un miss force u g = Ok u' -> u' = set_flag_array (flag_array u') u.
Proof. intros H. apply apply_unfold in H. destruct H as (b & fp & aps & fl & _ & _ & _ & _ & ->). reflexivity. Qed.
Lemma apply_mono ttol ftol miss force u g u' : apply_uvflag ttol ftol false miss force u g = Ok u' ->
  forall i j p, flag_array u i j p = true -> flag_array u' i j p = true.
Proof.
  intros H i j p. apply apply_unfold in H. destruct H as (b & fp & aps & fl & _ & _ & _ & H & ->). cbn [flag_array set_flag_array].
  intros Ht. revert H. apply (foldM_inv (fun c : cube bool => c i j p = true)); [|exact Ht].
  intros s x s' Hs Hx. eapply apply_pair_mono; eassumption.
Qed.

(** ** The exact effect *)
Lemma sample_changed_eq u f f' miss i j p old new : f_time f = f_time f' -> f_ant1 f = f_ant1 f' -> f_ant2 f = f_ant2 f' ->
  f_freq f = f_freq f' -> f_np f = f_np f' -> f_flags f = f_flags f' ->
  sample_changed u f miss i j p old new -> sample_changed u f' miss i j p old new.
Proof.
  intros E1 E2 E3 E4 E5 E6. unfold sample_changed, flag_source, flag_rows. rewrite E1, E2, E3, E4, E5, E6. tauto.
Qed.
Lemma apply_effect u b miss fpairs aps fl0 fl : consistent u -> flag_consistent b ->
  f_antpairs b = Ok fpairs -> get_antpairs u = Ok aps -> foldM (apply_pair u b fpairs miss) aps fl0 = Ok fl ->
  forall i j p, (i < length (time_array u))%nat -> sample_changed u b miss i j p (fl0 i j p) (fl i j p).
Proof.
  intros Hc Hf E1 E2 H i j p Hi.
  destruct (f_pairs_ok b Hf) as (l1 & F1 & P1). rewrite F1 in E1. injection E1 as <-.
  destruct (get_pairs_ok u Hc) as (l2 & F2 & N2 & P2). rewrite F2 in E2. injection E2 as <-.
  apply (loop_spec u b l1 miss l2 Hc Hf P1 N2) with (i := i) (j := j) (p := p) in H.
  - apply H. apply P2. intros E. assert (K : In i []); [|contradiction]. rewrite <- E. apply pair_rows_In. auto.
  - intros [x y] Hx. apply P2. exact Hx.
  - exact Hi.
Qed.

Lemma apply_baseline ttol ftol un miss force u f u' : consistent u -> flag_consistent f ->
  apply_uvflag ttol ftol un miss force u (Baseline f) = Ok u' ->
  forall i j p, (i < length (time_array u))%nat ->
    sample_changed u f miss i j p (negb un && flag_array u i j p) (flag_array u' i j p).
Proof.
  intros Hc Hf H i j p Hi. apply apply_unfold in H. destruct H as (b & fp & aps & fl & (pp & Eb) & E1 & E2 & H & ->).
  cbn [flag_array set_flag_array].
  assert (Hb : flag_consistent b) by (subst b; exact Hf).
  pose proof (apply_effect u b miss fp aps _ fl Hc Hb E1 E2 H i j p Hi) as G.
  assert (E : negb un && flag_array u i j p = (if un then fun _ _ _ : nat => false else flag_array u) i j p) by (destruct un; reflexivity). rewrite E.
  revert G. apply (sample_changed_eq u b f); subst b; reflexivity.
Qed.

(** Flag rows that list the same times in the same order *)
Lemma apply_same_times ttol ftol un miss force u f u' : consistent u -> flag_consistent f ->
  apply_uvflag ttol ftol un miss force u (Baseline f) = Ok u' ->
  forall i k j p, (i < length (time_array u))%nat -> (k < length (f_time f))%nat ->
    let a := nth i (ant_1_array u) 0 in let b := nth i (ant_2_array u) 0 in
    nth k (f_ant1 f) 0 = a -> nth k (f_ant2 f) 0 = b -> nth k (f_time f) 0 = nth i (time_array u) 0 ->
    map (fun r => nth r (time_array u) 0) (pair_rows u a b) = map (fun r => nth r (f_time f) 0) (flag_rows f a b) ->
    NoDup (map (fun r => nth r (f_time f) 0) (flag_rows f a b)) ->
    flag_array u' i j p = (negb un && flag_array u i j p) || f_flags f k (shared (length (f_freq f)) j) (shared (f_np f) p).
Proof.
  intros Hc Hf H i k j p Hi Hk a b Ea Eb Et Em ND. destruct (apply_baseline _ _ _ _ _ _ _ _ Hc Hf H i j p Hi) as (_ & _ & S). apply S.
  assert (Ii : In i (pair_rows u a b)) by (apply pair_rows_In; auto).
  assert (Ik : In k (flag_rows f a b)) by (apply flag_rows_In; auto).
  apply In_nth_error in Ii. destruct Ii as (r & Hr). apply In_nth_error in Ik. destruct Ik as (r' & Hr').
  right. fold a b. split; [apply (f_equal (@length _)) in Em; rewrite !map_length in Em; congruence|]. exists r. split; [exact Hr|].
  replace r with r'; [exact Hr'|].
  apply (proj1 (NoDup_nth_error _) ND).
  - rewrite map_length. apply nth_error_Some. congruence.
  - rewrite <- Em at 2. rewrite (map_nth_error _ _ _ Hr'), (map_nth_error _ _ _ Hr), Et. reflexivity.
Qed.

(** ** After a conversion the rows are those of the visibilities *)
Lemma like_consistent u f : consistent u -> rows_like f u -> flag_consistent f.
Proof.
  intros ((_ & L1 & L2 & Lb & _) & (m & off & He & Hcod) & _ & Ht & _ & Hn) (E1 & E2 & E3 & E4 & _ & _ & E7).
  unfold flag_consistent. rewrite E1, E2, E3, E4, E7. repeat (split; [assumption|]). exists m, off. auto.
Qed.
Lemma like_source u f i : rows_like f u -> (i < length (time_array u))%nat -> flag_source u f i i.
Proof.
  intros (E1 & E2 & E3 & _) Hi. unfold flag_source. cbv zeta. set (a := nth i (ant_1_array u) 0). set (b := nth i (ant_2_array u) 0).
  assert (E : flag_rows f a b = pair_rows u a b) by (unfold flag_rows, pair_rows; rewrite E1, E2, E3; reflexivity).
  right. rewrite E. split; [reflexivity|]. assert (Ii : In i (pair_rows u a b)) by (apply pair_rows_In; auto).
  apply In_nth_error in Ii. destruct Ii as (r & Hr). exists r. auto.
Qed.
Lemma apply_like u g f ttol ftol un miss force u' : consistent u -> (forall b, g <> Baseline b) ->
  to_baseline ttol ftol force true g u = Ok f -> rows_like f u -> length (f_freq f) = length (freq_array u) ->
  apply_uvflag ttol ftol un miss force u g = Ok u' ->
  forall i j p, (i < length (time_array u))%nat -> (j < length (freq_array u))%nat -> (p < length (polarization_array u))%nat ->
  flag_array u' i j p = (negb un && flag_array u i j p) || f_flags f i j p.
Proof.
  intros Hc Hg Hf Hl Hfr H i j p Hi Hj Hp. apply apply_unfold in H. destruct H as (b & fp & aps & fl & Eb & E1 & E2 & H & ->).
  assert (b = f). { destruct g; try congruence. } subst b. cbn [flag_array set_flag_array].
  destruct (apply_effect u f miss fp aps _ fl Hc (like_consistent u f Hc Hl) E1 E2 H i j p Hi) as (_ & _ & S).
  rewrite (S i (like_source u f i Hl Hi)). rewrite Hfr. replace (f_np f) with (length (polarization_array u)) by (symmetry; apply Hl).
  replace (shared (length (freq_array u)) j) with j by (destruct (length (freq_array u)) as [|[]]; simpl; lia).
  replace (shared (length (polarization_array u)) p) with p by (destruct (length (polarization_array u)) as [|[]]; simpl; lia).
  destruct un; reflexivity.
Qed.

Lemma apply_waterfall ttol ftol un miss force u w u' : consistent u -> clear_times ttol (w_time w) ->
  apply_uvflag ttol ftol un miss force u (Waterfall w) = Ok u' ->
  forall i j p, (i < length (time_array u))%nat -> (j < length (freq_array u))%nat -> (p < length (polarization_array u))%nat ->
  (forall k, same_time ttol (w_time w) (nth i (time_array u) 0) k ->
     flag_array u' i j p = (negb un && flag_array u i j p) || w_flags w k j (pol_of force (w_pol w) p)) /\
  ((forall k, ~ same_time ttol (w_time w) (nth i (time_array u) 0) k) -> flag_array u' i j p = (negb un && flag_array u i j p)).
Proof.
  intros Hc Hcl H i j p Hi Hj Hp.
  assert (exists f, to_baseline ttol ftol force true (Waterfall w) u = Ok f) as (f & Ef).
  { apply apply_unfold in H. destruct H as (b & fp & aps & fl & Eb & _). eauto. }
  destruct (to_baseline_waterfall _ _ _ _ _ _ _ Hcl Ef) as (Hl & Hfr & _ & (Hlen & _) & _ & _ & Hv).
  rewrite (apply_like u (Waterfall w) f ttol ftol un miss force u' Hc ltac:(discriminate) Ef Hl ltac:(congruence) H i j p Hi Hj Hp).
  destruct (Hv i j p Hi) as [A B]. split.
  - intros k Hk. rewrite (A k Hk). reflexivity.
  - intros Hk. rewrite (B Hk), orb_false_r. reflexivity.
Qed.

Lemma apply_antenna ttol ftol un miss force u a u' : consistent u -> NoDup (a_ants a) ->
  apply_uvflag ttol ftol un miss force u (Antenna a) = Ok u' ->
  forall i j p, (i < length (time_array u))%nat -> (j < length (freq_array u))%nat -> (p < length (polarization_array u))%nat ->
  (forall k, same_time ttol (a_time a) (nth i (time_array u) 0) k ->
     (flag_array u' i j p = true <-> (un = false /\ flag_array u i j p = true) \/
        ant_flagged a (nth i (ant_1_array u) 0) j k (pol_of force (a_pol a) p) \/
        ant_flagged a (nth i (ant_2_array u) 0) j k (pol_of force (a_pol a) p))) /\
  ((forall k, ~ same_time ttol (a_time a) (nth i (time_array u) 0) k) -> flag_array u' i j p = true).
Proof.
  intros Hc ND H i j p Hi Hj Hp.
  assert (exists f, to_baseline ttol ftol force true (Antenna a) u = Ok f) as (f & Ef).
  { apply apply_unfold in H. destruct H as (b & fp & aps & fl & Eb & _). eauto. }
  destruct (to_baseline_antenna _ _ _ _ _ _ _ Hc ND Ef) as (Hl & Hfr & _ & Hlen & Hv).
  rewrite (apply_like u (Antenna a) f ttol ftol un miss force u' Hc ltac:(discriminate) Ef Hl ltac:(congruence) H i j p Hi Hj Hp).
  destruct (Hv i j p Hi) as [A B]. split.
  - intros k Hk. rewrite orb_true_iff, andb_true_iff, negb_true_iff, (A k Hk). tauto.
  - intros Hk. rewrite (B Hk), orb_true_r. reflexivity.
Qed.

(** ** Success *)
Lemma mismatched_same tol l n m : 0 <= tol -> n = m -> mismatched tol l l n m = false.
Proof.
  intros Ht ->. unfold mismatched. destruct (m =? 1)%nat; [reflexivity|]. rewrite Nat.eqb_refl.
  apply not_true_iff_false. intros H. apply existsb_exists in H. destruct H as ((x, y) & Hin & H). cbn [fst snd] in H.
  assert (x = y). { clear - Hin. induction (uniqueZ l) as [|z t IH]; [contradiction|]. destruct Hin as [E|Hin]; [congruence|auto]. }
  apply Z.ltb_lt in H. lia.
Qed.
Lemma loop_total u f fpairs miss l : consistent u -> flag_consistent f -> 
  bcast (length (f_freq f)) (Nfreqs u) = true -> bcast (f_np f) (Npols u) = true ->
  (forall ap, In ap l -> has_rows u ap /\ (In ap fpairs -> length (flag_rows f (fst ap) (snd ap)) = length (pair_rows u (fst ap) (snd ap)) \/ length (flag_rows f (fst ap) (snd ap)) = 1%nat)) ->
  forall fl, exists fl', foldM (apply_pair u f fpairs miss) l fl = Ok fl'.
Proof.
  intros Hc Hf B1 B2. induction l as [|[a b] l IH]; intros Hr fl; [eexists; reflexivity|].
  rewrite foldM_cons. destruct (Hr (a, b) (or_introl eq_refl)) as [Hr1 Hr2]. unfold has_rows in Hr1. cbn [fst snd] in *.
  assert (exists fl1, apply_pair u f fpairs miss fl (a, b) = Ok fl1) as (fl1 & ->).
  { unfold apply_pair. cbn [fst snd]. destruct (search_rows u a b Hc Hr1) as (ix & -> & E2). cbn [bind]. rewrite E2. cbn [bind].
    destruct (memb zpair_eqb (a, b) fpairs) eqn:Em; cbn [negb]; [|eauto]. apply (memb_spec _ pair_eqb_eq) in Em.
    rewrite (f_pair_rows_spec f a b Hf), B1, B2. unfold bcast at 1.
    destruct (Hr2 Em) as [E|E]; rewrite E; [rewrite Nat.eqb_refl|rewrite Nat.eqb_refl, orb_true_r]; cbn; eauto. }
  cbn [bind]. apply IH. intros; apply Hr; right; assumption.
Qed.
Lemma apply_converted_total u g f ttol ftol un miss force : consistent u -> 0 <= ttol -> 0 <= ftol ->
  (forall b, g <> Baseline b) -> to_baseline ttol ftol force true g u = Ok f -> rows_like f u ->
  length (f_freq f) = length (freq_array u) -> f_Ntimes f = Ntimes u ->
  (mismatched ftol (f_freq f) (freq_array u) (length (f_freq f)) (Nfreqs u) = false) ->
  exists u', apply_uvflag ttol ftol un miss force u g = Ok u'.
Proof.
  intros Hc Ht Hft Hg Ef Hl Hfr Hnt Hmf. unfold apply_uvflag.
  assert (E : (match g with
          | Baseline b => do p <- apply_pols force u b; Ok (mkb (f_time b) (f_ant1 b) (f_ant2 b) (f_bl b) (f_freq b) p (f_Ntimes b) (f_Nants b) (f_np b) (f_flags b))
          | _ => to_baseline ttol ftol force true g u end) = Ok f).
  { destruct g; try exact Ef. elim (Hg b); reflexivity. }
  rewrite E. cbn [bind]. pose proof Hl as (E1 & _ & _ & _ & _ & E6 & _). rewrite E1, mismatched_same by assumption. rewrite Hmf.
  pose proof (like_consistent u f Hc Hl) as Hf.
  destruct (f_pairs_ok f Hf) as (l1 & -> & P1). destruct (get_pairs_ok u Hc) as (l2 & -> & _ & P2). cbn [bind].
  destruct (loop_total u f l1 miss l2 Hc Hf) with (fl := if un then fun _ _ _ : nat => false else flag_array u) as (fl' & ->).
  - unfold bcast, Nfreqs. rewrite Hfr, Nat.eqb_refl. reflexivity.
  - unfold bcast, Npols. rewrite E6, Nat.eqb_refl. reflexivity.
  - intros [a b] Hin. split; [apply P2; exact Hin|]. intros _. left. cbn [fst snd].
    destruct Hl as (F1 & F2 & F3 & _). unfold flag_rows, pair_rows. rewrite F1, F2, F3. reflexivity.
  - cbn [bind]. eauto.
Qed.

Lemma near_mismatched tol a b : StronglySorted Z.lt a -> StronglySorted Z.lt b -> length a = length b ->
  (forall j, (j < length a)%nat -> Z.abs (nth j a 0 - nth j b 0) <= tol) -> mismatched tol a b (length a) (length b) = false.
Proof.
  intros Sa Sb L H. unfold mismatched. destruct (length a =? 1)%nat; [reflexivity|]. rewrite L, Nat.eqb_refl.
  rewrite !sorted_uniqueZ by assumption. apply not_true_iff_false. intros K. apply existsb_exists in K. destruct K as (q & Hin & K).
  apply In_nth with (d := (0, 0)) in Hin. destruct Hin as (j & Hj & <-). rewrite combine_length in Hj. rewrite combine_nth in K by exact L.
  cbn [fst snd] in K. apply Z.ltb_lt in K. specialize (H j ltac:(lia)). lia.
Qed.

Lemma apply_waterfall_total ttol ftol un miss force u w : consistent u -> 0 <= ttol -> 0 <= ftol -> clear_times ttol (w_time w) ->
  Ntimes u = length (uniqueZ (time_array u)) -> length (w_time w) = Ntimes u ->
  StronglySorted Z.lt (freq_array u) -> StronglySorted Z.lt (w_freq w) -> length (w_freq w) = length (freq_array u) ->
  (forall j, (j < length (w_freq w))%nat -> Z.abs (nth j (w_freq w) 0 - nth j (freq_array u) 0) <= ftol) ->
  pols_fit force (w_pol w) (polarization_array u) ->
  exists u', apply_uvflag ttol ftol un miss force u (Waterfall w) = Ok u'.
Proof.
  intros Hc Ht Hft Hcl Hnt Hn Sf Sw Lf Hf Hp.
  destruct (to_baseline_waterfall_total ttol ftol force true w u Lf Hf Hp) as (f & Ef); [congruence|].
  destruct (to_baseline_waterfall _ _ _ _ _ _ _ Hcl Ef) as (Hl & Hfr & Hnt' & _).
  apply (apply_converted_total u (Waterfall w) f); try assumption; try congruence.
  rewrite Hfr. apply near_mismatched; assumption.
Qed.

Lemma apply_baseline_total ttol ftol un miss force u f l : consistent u -> flag_consistent f -> 0 <= ttol -> 0 <= ftol ->
  f_pol f = Pols l -> (forall x, In x l <-> In x (polarization_array u)) -> length l = length (polarization_array u) -> NoDup l -> f_np f = length l ->
  (f_Ntimes f = 1%nat \/ (f_Ntimes f = Ntimes u /\ uniqueZ (f_time f) = uniqueZ (time_array u))) ->
  (length (f_freq f) = 1%nat \/ f_freq f = freq_array u) ->
  (forall a b, pair_rows u a b <> [] -> flag_rows f a b <> [] -> length (flag_rows f a b) = length (pair_rows u a b) \/ length (flag_rows f a b) = 1%nat) ->
  exists u', apply_uvflag ttol ftol un miss force u (Baseline f) = Ok u'.
Proof.
  intros Hc Hf Ht Hft Ep Hset Hlp NDp Hnp Htm Hfr Hrows. unfold apply_uvflag, apply_pols. rewrite Ep.
  assert (Es : same_set (polarization_array u) l = true).
  { unfold same_set. apply andb_true_iff. rewrite !forallb_forall. split; intros x Hx; apply isinZ_spec, Hset; exact Hx. }
  rewrite Es. cbn [bind].
  destruct (mapM_total (fun x => match index_of Z.eqb x (polarization_array u) with Some i => Ok i | None => Err ValueError end) l) as (idx & Ei).
  { intros x Hx. destruct (index_of Z.eqb x (polarization_array u)) eqn:E; [eauto|]. apply (index_of_None _ Z.eqb_eq) in E. apply Hset in Hx. contradiction. }
  rewrite Ei. cbn [bind].
  assert (Eb : forallb (fun i => i <? length l)%nat idx = true).
  { apply forallb_forall. intros i Hi. apply Nat.ltb_lt. apply mapM_Ok_Forall2 in Ei. 
    assert (exists x, (match index_of Z.eqb x (polarization_array u) with Some i => Ok i | None => Err ValueError end) = Ok i) as (x & E).
    { clear - Ei Hi. induction Ei as [|a b l1 l2 H F IH]; [contradiction|]. destruct Hi as [<-|Hi]; [eauto|auto]. }
    destruct (index_of Z.eqb x (polarization_array u)) eqn:E2; [|discriminate]. injection E as ->. apply (index_of_Some _ Z.eqb_eq 0) in E2. lia. }
  rewrite Eb. cbn [bind f_time f_Ntimes f_freq].
  replace (mismatched ttol (f_time f) (time_array u) (f_Ntimes f) (Ntimes u)) with false.
  2:{ symmetry. destruct Htm as [->|[E1 E2]]; [reflexivity|]. pose proof (mismatched_same ttol (time_array u) (f_Ntimes f) (Ntimes u) Ht E1) as K.
      unfold mismatched in K |- *. rewrite E2. exact K. }
  replace (mismatched ftol (f_freq f) (freq_array u) (length (f_freq f)) (Nfreqs u)) with false.
  2:{ symmetry. destruct Hfr as [->| ->]; [reflexivity|]. apply mismatched_same; [exact Hft|reflexivity]. }
  set (b := mkb _ _ _ _ _ _ _ _ _ _). assert (Hb : flag_consistent b) by exact Hf.
  destruct (f_pairs_ok b Hb) as (l1 & -> & P1). destruct (get_pairs_ok u Hc) as (l2 & -> & _ & P2). cbn [bind].
  destruct (loop_total u b l1 miss l2 Hc Hb) with (fl := if un then fun _ _ _ : nat => false else flag_array u) as (fl' & ->).
  - unfold bcast, Nfreqs, b. cbn [f_freq]. destruct Hfr as [->| ->]; rewrite Nat.eqb_refl; [apply orb_true_r|reflexivity].
  - unfold bcast, Npols, b. cbn [f_np]. rewrite Hnp, Hlp, Nat.eqb_refl. reflexivity.
  - intros [x y] Hin. split; [apply P2; exact Hin|]. intros Hin2. cbn [fst snd]. apply (Hrows x y); [apply P2; exact Hin|apply P1; exact Hin2].
  - cbn [bind]. eauto.
Qed.
