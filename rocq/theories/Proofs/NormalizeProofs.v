From Coq Require Import List ZArith Bool Arith Lia Sorted Reals Lra String.
From Verif Require Import Lib.Py Lib.Np Lib.Dict Model.Pol Model.Normalize Spec.NormalizeSpec.
Import ListNotations.
Open Scope list_scope.
Open Scope nat_scope.
Notation length := List.length.

(** * Bisection of a sorted list *)
Definition up (l : list Z) : Prop := forall i j, i <= j -> j < length l -> (nth i l 0 <= nth j l 0)%Z.

Lemma bisect_spec l v : up l -> forall steps lo hi, lo <= hi -> hi <= length l -> hi - lo < steps ->
  (forall i, i < lo -> (nth i l 0 <= v)%Z) -> (forall i, hi <= i -> i < length l -> (v < nth i l 0)%Z) ->
  let k := bisect steps l v lo hi in
  k <= length l /\ (forall i, i < k -> (nth i l 0 <= v)%Z) /\ (forall i, k <= i -> i < length l -> (v < nth i l 0)%Z).
Proof.
  intros U. induction steps as [|n IH]; intros lo hi L1 L2 L3 A B; [lia|].
  cbn [bisect]. destruct (lo <? hi) eqn:E.
  - apply Nat.ltb_lt in E. cbv zeta.
    assert (M : lo <= lo + (hi - lo) / 2 < hi).
    { split; [lia|]. assert ((hi - lo) / 2 < hi - lo) by (apply Nat.div_lt; lia). lia. }
    set (mid := lo + (hi - lo) / 2) in *. clearbody mid.
    destruct (nth mid l 0 <=? v)%Z eqn:C.
    + apply Z.leb_le in C. apply IH; try lia.
      * intros i Hi. assert (nth i l 0 <= nth mid l 0)%Z by (apply U; lia). lia.
      * exact B.
    + apply Z.leb_gt in C. apply IH; try lia.
      * exact A.
      * intros i Hi Hi'. assert (nth mid l 0 <= nth i l 0)%Z by (apply U; lia). lia.
  - apply Nat.ltb_ge in E. repeat split; [lia|exact A|]. intros i Hi. apply B. lia.
Qed.

Lemma searchsorted_spec l v : up l ->
  let k := searchsorted_right l v in
  k <= length l /\ (forall i, i < k -> (nth i l 0 <= v)%Z) /\ (forall i, k <= i -> i < length l -> (v < nth i l 0)%Z).
Proof. intros U. apply bisect_spec; auto; lia. Qed.

(** * Groups of records *)
Lemma skipn_nth {A} (d : A) l e i : nth i (skipn e l) d = nth (e + i) l d.
Proof. revert l; induction e; intros [|a l]; cbn; auto. now destruct i. Qed.

Lemma firstn_seq e a n : e <= n -> firstn e (seq a n) = seq a e.
Proof. revert a n; induction e; intros a [|n] H; cbn; auto; try lia. rewrite IHe by lia. reflexivity. Qed.
Lemma skipn_seq e a n : e <= n -> skipn e (seq a n) = seq (a + e) (n - e).
Proof.
  revert a n; induction e; intros a [|n] H; cbn; auto; try lia.
  - rewrite Nat.add_0_r. reflexivity.
  - rewrite IHe by lia. f_equal; lia.
Qed.

Lemma groups_spec tol : (0 <= tol)%Z -> forall steps l a, length l <= steps -> up l ->
  (forall i j, i < length l -> j < length l -> (nth i l 0 < nth j l 0)%Z -> (nth i l 0 + tol < nth j l 0)%Z) ->
  let gs := time_groups steps tol (seq a (length l)) l in
  List.concat gs = seq a (length l) /\
  forall g, In g gs -> forall r, In r g -> forall s, In s g <->
    (a <= s < a + length l /\ nth (s - a) l 0%Z = nth (r - a) l 0%Z).
Proof.
  intros T. induction steps as [|n IH]; intros l a L U D.
  - destruct l; [|cbn in L; lia]. cbn. split; [reflexivity|contradiction].
  - destruct l as [|t l']; [cbn; split; [reflexivity|contradiction]|].
    remember (t :: l') as l eqn:El.
    assert (Eq : time_groups (S n) tol (seq a (length l)) l =
      let e := searchsorted_right l (t + tol) in
      firstn e (seq a (length l)) :: time_groups n tol (skipn e (seq a (length l))) (skipn e l)) by (rewrite El; reflexivity).
    rewrite Eq. clear Eq. cbv zeta.
    assert (Ht : nth 0 l 0%Z = t) by (rewrite El; reflexivity).
    assert (Hl : 0 < length l) by (rewrite El; cbn; lia).
    pose proof (searchsorted_spec l (t + tol) U) as (K1 & K2 & K3). cbv zeta in K1, K2, K3.
    set (e := searchsorted_right l (t + tol)) in *. clearbody e. clear El.
    assert (Epos : 0 < e).
    { destruct e; [|lia]. specialize (K3 0 (le_n 0) Hl). rewrite Ht in K3. lia. }
    rewrite firstn_seq, skipn_seq by lia.
    assert (Sk : length (skipn e l) = length l - e) by apply skipn_length.
    assert (Q1 : forall i, i < e -> nth i l 0%Z = t).
    { intros i Hi. specialize (K2 i Hi). assert (nth 0 l 0 <= nth i l 0)%Z by (apply U; lia).
      destruct (Z.eq_dec (nth i l 0%Z) t) as [X|X]; [exact X|].
      assert (nth 0 l 0 + tol < nth i l 0)%Z by (apply D; lia). lia. }
    assert (Q2 : forall i, e <= i -> i < length l -> (t < nth i l 0)%Z).
    { intros i Hi Hi'. specialize (K3 i Hi Hi'). lia. }
    rewrite <- Sk.
    destruct (IH (skipn e l) (a + e)) as (I1 & I2).
    { lia. }
    { intros i j. rewrite Sk, !skipn_nth. intros. apply U; lia. }
    { intros i j. rewrite Sk, !skipn_nth. intros. apply D; lia. }
    split.
    + cbn [List.concat]. rewrite I1, Sk. rewrite <- seq_app. f_equal. lia.
    + intros g [<-|Hg] r Hr s.
      * apply in_seq in Hr. rewrite in_seq. rewrite (Q1 (r - a)) by lia. split.
        -- intros Hs. split; [lia|]. apply Q1. lia.
        -- intros [Hs Hv]. destruct (Nat.lt_ge_cases (s - a) e); [lia|].
           specialize (Q2 (s - a)). lia.
      * pose proof (proj1 (I2 g Hg r Hr r) Hr) as [Rb _].
        rewrite (I2 g Hg r Hr s). rewrite Sk in *. rewrite !skipn_nth.
        replace (e + (r - (a + e))) with (r - a) by lia.
        split; intros [Hs Hv].
        -- replace (e + (s - (a + e))) with (s - a) in Hv by lia. split; [lia|exact Hv].
        -- destruct (Nat.lt_ge_cases (s - a) e) as [G|G].
           ++ rewrite (Q1 (s - a) G) in Hv. specialize (Q2 (r - a)). lia.
           ++ replace (e + (s - (a + e))) with (s - a) by lia. split; [lia|exact Hv].
Qed.

Lemma time_ordered_spec l : time_ordered l = true <-> up l.
Proof.
  induction l as [|a [|b t] IH].
  - split; [intros _ i j _ H; cbn in H; lia|reflexivity].
  - split; [|reflexivity]. intros _ i j H H'. cbn [List.length] in H'. assert (j = 0) by lia. assert (i = 0) by lia. subst. lia.
  - change (time_ordered (a :: b :: t)) with (negb (b <? a)%Z && time_ordered (b :: t)).
    rewrite andb_true_iff, negb_true_iff, Z.ltb_ge, IH. split.
    + intros [H U] i j L L'. cbn [List.length] in L'.
      destruct i as [|i], j as [|j]; try lia.
      * change (nth 0 (a :: b :: t) 0%Z) with a. change (nth (S j) (a :: b :: t) 0%Z) with (nth j (b :: t) 0%Z).
        assert (nth 0 (b :: t) 0 <= nth j (b :: t) 0)%Z by (apply U; cbn [List.length]; lia).
        cbn [nth] in *. lia.
      * change (nth (S i) (a :: b :: t) 0 <= nth (S j) (a :: b :: t) 0)%Z with (nth i (b :: t) 0 <= nth j (b :: t) 0)%Z.
        apply U; cbn [List.length]; lia.
    + intros U. split.
      * apply (U 0 1); cbn; lia.
      * intros i j L L'. apply (U (S i) (S j)); cbn [List.length] in *; lia.
Qed.

Lemma groups_of_spec tol x : in_order x -> distinct tol x ->
  List.concat (groups_of tol (v_time x)) = seq 0 (v_n x) /\
  forall g, In g (groups_of tol (v_time x)) -> forall r, In r g -> forall s, In s g <-> (s < v_n x /\ time x s = time x r).
Proof.
  intros O [T D]. unfold groups_of.
  assert (U : up (v_time x)) by exact O.
  rewrite (proj2 (time_ordered_spec _) U).
  rewrite take_seq.
  destruct (groups_spec tol T (length (v_time x)) (v_time x) 0 (le_n _) U D) as [A B].
  split; [exact A|].
  intros g Hg r Hr s. rewrite (B g Hg r Hr s). rewrite !Nat.sub_0_r. unfold v_n, time. intuition lia.
Qed.

(** * Steps that work on disjoint sets of records *)
Definition agree (s s' : state) (i : nat) : Prop :=
  forall f k, fst s i f k = fst s' i f k /\ snd s i f k = snd s' i f k.

Lemma agree_refl s i : agree s s i.
Proof. split; reflexivity. Qed.
Lemma agree_trans s1 s2 s3 i : agree s1 s2 i -> agree s2 s3 i -> agree s1 s3 i.
Proof. intros A B f k. destruct (A f k), (B f k). split; congruence. Qed.
Lemma agree_sym s1 s2 i : agree s1 s2 i -> agree s2 s1 i.
Proof. intros A f k. destruct (A f k). split; congruence. Qed.

Section Local.
  Context {G : Type} (foot : G -> list nat) (step : state -> G -> state).
  Hypothesis outside : forall s g i, ~ In i (foot g) -> agree (step s g) s i.
  Hypothesis inside : forall s s' g, (forall i, In i (foot g) -> agree s s' i) ->
    forall i, In i (foot g) -> agree (step s g) (step s' g) i.

  Lemma fold_outside gs : forall s i, ~ In i (List.concat (map foot gs)) -> agree (fold_left step gs s) s i.
  Proof using outside.
    induction gs as [|g t IH]; intros s i H; cbn; [apply agree_refl|].
    cbn in H. rewrite in_app_iff in H.
    eapply agree_trans; [apply IH; tauto|]. apply outside. tauto.
  Qed.

  Lemma fold_inside gs : forall s g i, NoDup (List.concat (map foot gs)) -> In g gs -> In i (foot g) ->
    agree (fold_left step gs s) (step s g) i.
  Proof using outside inside.
    induction gs as [|h t IH]; intros s g i N Hg Hi; [contradiction|].
    cbn in N |- *.
    assert (N2 : NoDup (List.concat (map foot t))).
    { clear - N. induction (foot h); [exact N|]. inversion N; subst. apply IHl. assumption. }
    assert (NX : forall j, In j (foot h) -> In j (List.concat (map foot t)) -> False).
    { clear - N. induction (foot h); [intros j []|]. cbn in N. inversion N as [|y m N1 N3]; subst.
      intros j [<-|Hj] Hc; [apply N1; rewrite in_app_iff; tauto|]. eapply IHl; eauto. }
    destruct Hg as [->|Hg].
    - apply fold_outside. intros Hc. eapply NX; eauto.
    - eapply agree_trans; [apply IH; eauto|].
      apply inside; [|exact Hi]. intros j Hj. apply outside.
      intros Hh. apply (NX j Hh). apply in_concat. exists (foot g). split; [apply in_map; exact Hg|exact Hj].
  Qed.
End Local.

(** * One record *)
Lemma upd_other {A} r p g (a : arr A) i f k : i <> r -> upd r p g a i f k = a i f k.
Proof. intros H. unfold upd. destruct (i =? r) eqn:E; [apply Nat.eqb_eq in E; contradiction|reflexivity]. Qed.

Lemma norm_pols_other skip ns a b r i : i <> r -> forall gs j s, agree (fst (norm_pols skip ns a b r j gs s)) s i.
Proof.
  intros H. induction gs as [|[p1 p2] t IH]; intros j s; cbn [norm_pols]; [apply agree_refl|].
  destruct (skip && (a =? b)%Z && (p1 =? p2)); [apply IH|].
  match goal with |- context [match ?e with Ok _ => _ | Err _ => _ end] => destruct e as [[v1 v2]|] end.
  - eapply agree_trans; [apply IH|]. intros f k. cbn [fst snd]. split; apply upd_other; exact H.
  - apply agree_refl.
Qed.

Lemma norm_pols_same skip ns a b r : forall gs j s s', agree s s' r ->
  agree (fst (norm_pols skip ns a b r j gs s)) (fst (norm_pols skip ns a b r j gs s')) r /\
  snd (norm_pols skip ns a b r j gs s) = snd (norm_pols skip ns a b r j gs s').
Proof.
  induction gs as [|[p1 p2] t IH]; intros j s s' A; cbn [norm_pols]; [split; [exact A|reflexivity]|].
  destruct (skip && (a =? b)%Z && (p1 =? p2)); [apply IH; exact A|].
  match goal with |- context [match ?e with Ok _ => _ | Err _ => _ end] => destruct e as [[v1 v2]|] end.
  - apply IH. intros f k. destruct (A f k) as [A1 A2]. cbn [fst snd]. unfold upd. rewrite A1, A2. split; reflexivity.
  - split; [exact A|reflexivity].
Qed.

Lemma norm_row_other skip groups ns x s r i : ~ In i [r] -> agree (norm_row skip groups ns x s r) s i.
Proof.
  intros H. assert (H' : i <> r) by (intros ->; apply H; now left).
  unfold norm_row. pose proof (norm_pols_other skip ns (ant1 x r) (ant2 x r) r i H' groups 0 s) as A.
  destruct (norm_pols _ _ _ _ _ _ _ _) as [s' []]; cbn [fst] in A; [exact A|].
  intros f k. destruct (A f k) as [A1 A2]. cbn [fst snd].
  destruct (i =? r) eqn:E; [apply Nat.eqb_eq in E; contradiction|]. split; assumption.
Qed.

Lemma norm_row_same skip groups ns x s s' r : (forall i, In i [r] -> agree s s' i) ->
  forall i, In i [r] -> agree (norm_row skip groups ns x s r) (norm_row skip groups ns x s' r) i.
Proof.
  intros H i [<-|[]]. specialize (H r (or_introl eq_refl)).
  unfold norm_row. pose proof (norm_pols_same skip ns (ant1 x r) (ant2 x r) r groups 0 s s' H) as [A B].
  destruct (norm_pols _ _ _ _ _ _ _ s) as [t []]; destruct (norm_pols _ _ _ _ _ _ _ s') as [t' []];
    cbn [fst snd] in A, B; try discriminate B; [exact A|].
  intros f k. destruct (A f k) as [A1 A2]. cbn [fst snd]. rewrite Nat.eqb_refl. split; [exact A1|reflexivity].
Qed.

Lemma rows_concat (g : list nat) : List.concat (map (fun r => [r]) g) = g.
Proof. induction g; cbn; [reflexivity|]. now rewrite IHg. Qed.

Lemma group_rows skip groups ns x g s : NoDup g ->
  (forall i, ~ In i g -> agree (fold_left (norm_row skip groups ns x) g s) s i) /\
  (forall i, In i g -> agree (fold_left (norm_row skip groups ns x) g s) (norm_row skip groups ns x s i) i).
Proof.
  intros N. split; intros i Hi.
  - apply (fold_outside (fun r => [r]) _ (norm_row_other skip groups ns x)). rewrite rows_concat. exact Hi.
  - apply (fold_inside (fun r => [r]) _ (norm_row_other skip groups ns x) (norm_row_same skip groups ns x)).
    + rewrite rows_concat. exact N.
    + exact Hi.
    + now left.
Qed.

(** * Factors of a group *)
Lemma spectra_get invert pols d w r p : In p pols ->
  exists v, dget Nat.eqb p (auto_spectra invert pols d w r) = Ok v /\
    (forall f, fst v f = auto_norm invert (d r f p) (w r f p) /\ snd v f = auto_flag (d r f p) (w r f p)).
Proof.
  unfold auto_spectra. induction pols as [|q t IH]; intros H; [contradiction|]. cbn.
  destruct (p =? q) eqn:E.
  - apply Nat.eqb_eq in E. rewrite E. eexists. split; [reflexivity|]. intros f. split; reflexivity.
  - apply IH. destruct H as [->|H]; [rewrite Nat.eqb_refl in E; discriminate|exact H].
Qed.

Definition norm_step invert pols x (d : arr (R * R)) (w : arr bool) (ns : norms) (r : nat) : norms :=
  if (ant1 x r =? ant2 x r)%Z then dset Z.eqb (ant1 x r) (auto_spectra invert pols d w r) ns else ns.

Lemma norms_none invert pols x d w a g : (forall s, In s g -> ~ (ant1 x s = a /\ ant2 x s = a)) ->
  forall ns, dget Z.eqb a (fold_left (norm_step invert pols x d w) g ns) = dget Z.eqb a ns.
Proof.
  induction g as [|r t IH]; intros H ns; cbn; [reflexivity|].
  rewrite IH by (intros s Hs; apply H; now right).
  unfold norm_step. destruct (ant1 x r =? ant2 x r)%Z eqn:E; [|reflexivity].
  apply Z.eqb_eq in E. rewrite (dget_dset _ Z.eqb_eq). destruct (a =? ant1 x r)%Z eqn:F; [|reflexivity].
  apply Z.eqb_eq in F. exfalso. apply (H r (or_introl eq_refl)). split; congruence.
Qed.

Lemma norms_some invert pols x d w a g s0 : In s0 g -> ant1 x s0 = a -> ant2 x s0 = a ->
  (forall s, In s g -> ant1 x s = a -> ant2 x s = a -> s = s0) ->
  forall ns, dget Z.eqb a (fold_left (norm_step invert pols x d w) g ns) = Ok (auto_spectra invert pols d w s0).
Proof.
  induction g as [|r t IH]; intros Hi A1 A2 H ns; [contradiction|]. cbn.
  destruct (in_dec Nat.eq_dec s0 t) as [Ht|Ht].
  - apply IH; auto. intros s Hs. apply H. now right.
  - destruct Hi as [->|Hi]; [|contradiction].
    rewrite norms_none.
    + unfold norm_step. replace (ant1 x s0 =? ant2 x s0)%Z with true by (symmetry; apply Z.eqb_eq; congruence).
      rewrite (dget_dset _ Z.eqb_eq). now rewrite A1, Z.eqb_refl.
    + intros s Hs [B1 B2]. apply Ht. rewrite <- (H s (or_intror Hs) B1 B2). exact Hs.
Qed.

(** * All polarizations of a record *)
Lemma norm_pols_keep skip ns a b r : forall gs j s f k, k < j ->
  fst (fst (norm_pols skip ns a b r j gs s)) r f k = fst s r f k /\ snd (fst (norm_pols skip ns a b r j gs s)) r f k = snd s r f k.
Proof.
  induction gs as [|[p1 p2] t IH]; intros j s f k H; cbn [norm_pols]; [split; reflexivity|].
  destruct (skip && (a =? b)%Z && (p1 =? p2)); [apply IH; lia|].
  match goal with |- context [match ?e with Ok _ => _ | Err _ => _ end] => destruct e as [[v1 v2]|] end;
    [|split; reflexivity].
  destruct (IH (S j) (upd r j (fun f0 z => rscale (fst v1 f0 * fst v2 f0) z) (fst s),
    upd r j (fun f0 w => w || (snd v1 f0 || snd v2 f0)) (snd s)) f k) as [-> ->]; [lia|].
  cbn [fst snd]. unfold upd. replace (k =? j) with false by (symmetry; apply Nat.eqb_neq; lia).
  rewrite andb_false_r. split; reflexivity.
Qed.

Lemma norm_pols_found skip ns a b r s1 s2 d w invert pols : 
  dget Z.eqb a ns = Ok (auto_spectra invert pols d w s1) ->
  dget Z.eqb b ns = Ok (auto_spectra invert pols d w s2) ->
  forall gs j s, (forall g, In g gs -> In (fst g) pols /\ In (snd g) pols) ->
  snd (norm_pols skip ns a b r j gs s) = true /\
  forall k f, k < length gs ->
    let s' := fst (norm_pols skip ns a b r j gs s) in
    let p1 := fst (nth k gs (0, 0)) in let p2 := snd (nth k gs (0, 0)) in
    if skip && (a =? b)%Z && (p1 =? p2)
    then fst s' r f (j + k) = fst s r f (j + k) /\ snd s' r f (j + k) = snd s r f (j + k)
    else fst s' r f (j + k) = rscale (auto_norm invert (d s1 f p1) (w s1 f p1) * auto_norm invert (d s2 f p2) (w s2 f p2)) (fst s r f (j + k)) /\
         snd s' r f (j + k) = snd s r f (j + k) || (auto_flag (d s1 f p1) (w s1 f p1) || auto_flag (d s2 f p2) (w s2 f p2)).
Proof.
  intros A B. induction gs as [|[q1 q2] t IH]; intros j s Hp; [split; [reflexivity|cbn; lia]|].
  assert (Hp' : forall g, In g t -> In (fst g) pols /\ In (snd g) pols) by (intros g Hg; apply Hp; now right).
  destruct (Hp (q1, q2) (or_introl eq_refl)) as [P1 P2]. cbn [fst snd] in P1, P2.
  cbn [norm_pols]. destruct (skip && (a =? b)%Z && (q1 =? q2)) eqn:E.
  - destruct (IH (S j) s Hp') as [I1 I2]. split; [exact I1|].
    intros [|k] f Hk.
    + cbn [nth fst snd]. rewrite E. rewrite Nat.add_0_r. apply norm_pols_keep. lia.
    + cbn [nth]. replace (j + S k) with (S j + k) by lia. apply I2. cbn in Hk. lia.
  - destruct (spectra_get invert pols d w s1 q1 P1) as (v1 & G1 & V1).
    destruct (spectra_get invert pols d w s2 q2 P2) as (v2 & G2 & V2).
    rewrite A. cbn [bind]. rewrite G1. cbn [bind]. rewrite B. cbn [bind]. rewrite G2. cbn [bind].
    set (s3 := (upd r j (fun f0 z => rscale (fst v1 f0 * fst v2 f0) z) (fst s),
      upd r j (fun f0 w0 => w0 || (snd v1 f0 || snd v2 f0)) (snd s)) : state).
    destruct (IH (S j) s3 Hp') as [I1 I2]. split; [exact I1|].
    intros [|k] f Hk.
    + cbn [nth fst snd]. rewrite E. rewrite Nat.add_0_r.
      destruct (norm_pols_keep skip ns a b r t (S j) s3 f j (Nat.lt_succ_diag_r j)) as [-> ->].
      unfold s3. cbn [fst snd]. unfold upd. rewrite !Nat.eqb_refl. cbn [andb].
      destruct (V1 f) as [-> ->], (V2 f) as [-> ->]. split; reflexivity.
    + cbn [nth]. replace (j + S k) with (S j + k) by lia.
      specialize (I2 k f). cbv zeta in I2 |- *.
      assert (Hk' : k < length t) by (cbn in Hk; lia). specialize (I2 Hk').
      assert (K1 : fst s3 r f (S j + k) = fst s r f (S j + k)).
      { unfold s3, upd. cbn [fst]. replace (S j + k =? j) with false by (symmetry; apply Nat.eqb_neq; lia). now rewrite andb_false_r. }
      assert (K2 : snd s3 r f (S j + k) = snd s r f (S j + k)).
      { unfold s3, upd. cbn [snd]. replace (S j + k =? j) with false by (symmetry; apply Nat.eqb_neq; lia). now rewrite andb_false_r. }
      rewrite K1, K2 in I2. exact I2.
Qed.

Lemma norm_pols_missing skip ns a b r gs j s : a <> b -> gs <> [] ->
  (dget Z.eqb a ns = Err KeyError \/
   (dget Z.eqb b ns = Err KeyError)) ->
  norm_pols skip ns a b r j gs s = (s, false).
Proof.
  intros N G H. destruct gs as [|[p1 p2] t]; [contradiction|]. cbn [norm_pols].
  replace (a =? b)%Z with false by (symmetry; apply Z.eqb_neq; exact N). rewrite andb_false_r. cbn [andb].
  destruct H as [H|H].
  - rewrite H. reflexivity.
  - destruct (dget Z.eqb a ns) as [s1|]; [|reflexivity]. cbn [bind]. destruct (dget Nat.eqb p1 s1); [|reflexivity].
    cbn [bind]. rewrite H. reflexivity.
Qed.

(** * The effect on a record, in terms of the values before *)
Definition rowspec (skip invert : bool) (x : vobj) (gs : list (nat * nat)) (s s' : state) (r : nat) : Prop :=
  forall f k, k < length gs ->
    let p1 := fst (nth k gs (0, 0)) in let p2 := snd (nth k gs (0, 0)) in
    (skip && (ant1 x r =? ant2 x r)%Z && (p1 =? p2) = true ->
       fst s' r f k = fst s r f k /\ snd s' r f k = snd s r f k) /\
    (skip && (ant1 x r =? ant2 x r)%Z && (p1 =? p2) = false -> forall s1 s2,
       auto_of x (ant1 x r) r s1 -> auto_of x (ant2 x r) r s2 ->
       fst s' r f k = rscale (auto_norm invert (fst s s1 f p1) (snd s s1 f p1) * auto_norm invert (fst s s2 f p2) (snd s s2 f p2)) (fst s r f k) /\
       snd s' r f k = snd s r f k || (auto_flag (fst s s1 f p1) (snd s s1 f p1) || auto_flag (fst s s2 f p2) (snd s s2 f p2))) /\
    ((forall s1, ~ auto_of x (ant1 x r) r s1) \/ (forall s2, ~ auto_of x (ant2 x r) r s2) ->
       fst s' r f k = fst s r f k /\ snd s' r f k = true).

Lemma auto_pols_In gs g : In g gs -> In (fst g) (auto_pols gs) /\ In (snd g) (auto_pols gs).
Proof.
  intros H. unfold auto_pols. rewrite !uniqueN_In, !in_flat_map.
  split; exists g; (split; [exact H|]); cbn; auto.
Qed.

Lemma auto_dec x a (g : list nat) :
  (exists s, In s g /\ ant1 x s = a /\ ant2 x s = a) \/ (forall s, In s g -> ~ (ant1 x s = a /\ ant2 x s = a)).
Proof.
  induction g as [|r t IH]; [right; intros s []|].
  destruct (Z.eq_dec (ant1 x r) a) as [E1|E1]; destruct (Z.eq_dec (ant2 x r) a) as [E2|E2];
    try (left; exists r; cbn; tauto);
    (destruct IH as [(s & A & B)|IH]; [left; exists s; cbn; tauto|right; intros s [<-|Hs]; [tauto|apply IH; exact Hs]]).
Qed.

Lemma group_effect skip invert gs x g s r : single_autos x -> NoDup g -> In r g ->
  (forall t, In t g <-> t < v_n x /\ time x t = time x r) ->
  rowspec skip invert x gs s (norm_group skip invert gs x s g) r.
Proof.
  intros O N Hr Hg f k Hk p1 p2.
  assert (AO : forall a t, auto_of x a r t <-> In t g /\ ant1 x t = a /\ ant2 x t = a).
  { intros a t. unfold auto_of. rewrite Hg. tauto. }
  unfold norm_group. cbv zeta.
  change (group_norms invert (auto_pols gs) x (fst s) (snd s) g) with
    (fold_left (norm_step invert (auto_pols gs) x (fst s) (snd s)) g []).
  set (ns := fold_left (norm_step invert (auto_pols gs) x (fst s) (snd s)) g []).
  assert (SOME : forall a t, auto_of x a r t -> dget Z.eqb a ns = Ok (auto_spectra invert (auto_pols gs) (fst s) (snd s) t)).
  { intros a t Ht. pose proof (proj1 (AO a t) Ht) as (I & A & B). apply norms_some; auto.
    intros u Hu A' B'. apply (O a r u t); [apply AO; auto|exact Ht]. }
  assert (NONE : forall a, (forall t, ~ auto_of x a r t) -> dget Z.eqb a ns = Err KeyError).
  { intros a Ha. unfold ns. rewrite norms_none; [reflexivity|]. intros t Ht [A B]. apply (Ha t). apply AO. auto. }
  clearbody ns.
  destruct (group_rows skip gs ns x g s N) as [_ R]. specialize (R r Hr f k).
  destruct R as [-> ->]. unfold norm_row.
  assert (FOUND : forall s1 s2, auto_of x (ant1 x r) r s1 -> auto_of x (ant2 x r) r s2 -> _) by
    (intros s1 s2 H1 H2; exact (norm_pols_found skip ns _ _ r s1 s2 _ _ invert _ (SOME _ _ H1) (SOME _ _ H2) gs 0 s (auto_pols_In gs))).
  split; [|split].
  - intros E. assert (Eab : ant1 x r = ant2 x r).
    { apply andb_true_iff in E. destruct E as [E _]. apply andb_true_iff in E. destruct E as [_ E]. apply Z.eqb_eq. exact E. }
    assert (H1 : auto_of x (ant1 x r) r r) by (apply AO; auto).
    assert (H2 : auto_of x (ant2 x r) r r) by (apply AO; auto).
    destruct (FOUND r r H1 H2) as [F1 F2]. specialize (F2 k f Hk). cbv zeta in F2.
    destruct (norm_pols _ _ _ _ _ _ _ _) as [s' ok]. cbn [snd] in F1. subst ok.
    fold p1 p2 in F2. rewrite E in F2. exact F2.
  - intros E s1 s2 H1 H2. destruct (FOUND s1 s2 H1 H2) as [F1 F2]. specialize (F2 k f Hk). cbv zeta in F2.
    destruct (norm_pols _ _ _ _ _ _ _ _) as [s' ok]. cbn [snd] in F1. subst ok.
    fold p1 p2 in F2. rewrite E in F2. exact F2.
  - intros H. assert (Nab : ant1 x r <> ant2 x r).
    { intros Eab. assert (H1 : auto_of x (ant1 x r) r r) by (apply AO; auto).
      assert (H2 : auto_of x (ant2 x r) r r) by (apply AO; auto).
      destruct H as [H|H]; [apply (H r H1)|apply (H r H2)]. }
    rewrite norm_pols_missing; auto.
    + cbn [fst snd]. rewrite Nat.eqb_refl. split; reflexivity.
    + intros ->. cbn in Hk. lia.
    + destruct H as [H|H]; [left|right]; apply NONE; exact H.
Qed.

Lemma norm_group_other skip invert gs x s g : NoDup g -> forall i, ~ In i g -> agree (norm_group skip invert gs x s g) s i.
Proof. intros N i Hi. unfold norm_group. cbv zeta. apply group_rows; assumption. Qed.

Lemma NoDup_parts {A} (l m : list A) : NoDup (l ++ m) -> NoDup l /\ NoDup m /\ (forall a, In a l -> In a m -> False).
Proof.
  induction l as [|a l IH]; cbn; intros N; [split; [constructor|split; [exact N|intros b []]]|].
  inversion N as [|b n N1 N2]; subst. destruct (IH N2) as (A1 & A2 & A3). rewrite in_app_iff in N1.
  split; [constructor; tauto|split; [exact A2|]]. intros b [<-|Hb] Hm; [tauto|]. eapply A3; eauto.
Qed.

Lemma groups_other skip invert gs x : forall ts s i, NoDup (List.concat ts) -> ~ In i (List.concat ts) ->
  agree (fold_left (norm_group skip invert gs x) ts s) s i.
Proof.
  induction ts as [|g t IH]; intros s i N H; cbn; [apply agree_refl|]. cbn in N, H. rewrite in_app_iff in H.
  destruct (NoDup_parts _ _ N) as (N1 & N2 & _).
  eapply agree_trans; [apply IH; tauto|]. apply norm_group_other; tauto.
Qed.

Lemma rowspec_agree skip invert x gs s s2 t t2 r :
  (forall i, i < v_n x -> time x i = time x r -> agree s s2 i) -> agree t t2 r -> r < v_n x ->
  rowspec skip invert x gs s t r -> rowspec skip invert x gs s2 t2 r.
Proof.
  intros A B Hr H f k Hk p1 p2. destruct (H f k Hk) as (H1 & H2 & H3). fold p1 p2 in H1, H2, H3.
  destruct (B f k) as [B1 B2]. destruct (A r Hr eq_refl f k) as [C1 C2].
  split; [|split].
  - intros E. destruct (H1 E). split; congruence.
  - intros E s1 s3 K1 K3. destruct (H2 E s1 s3 K1 K3) as [D1 D2].
    destruct K1 as (L1 & T1 & _), K3 as (L3 & T3 & _).
    destruct (A s1 L1 T1 f p1) as [X1 X2]. destruct (A s3 L3 T3 f p2) as [Y1 Y2].
    rewrite <- X1, <- X2, <- Y1, <- Y2, <- C1, <- C2, <- B1, <- B2. split; assumption.
  - intros E. destruct (H3 E). split; congruence.
Qed.

Theorem effect tol skip invert x gs s r : in_order x -> distinct tol x -> single_autos x -> r < v_n x ->
  rowspec skip invert x gs s (fold_left (norm_group skip invert gs x) (groups_of tol (v_time x)) s) r.
Proof.
  intros O D SA Hr. destruct (groups_of_spec tol x O D) as [C G].
  set (ts := groups_of tol (v_time x)) in *. clearbody ts.
  assert (Hc : In r (List.concat ts)) by (rewrite C, in_seq; lia).
  apply in_concat in Hc. destruct Hc as (g & Hg & Hrg).
  assert (NC : NoDup (List.concat ts)) by (rewrite C; apply seq_NoDup).
  pose proof (G g Hg r Hrg) as Gr. 
  destruct (in_split _ _ Hg) as (l1 & l2 & E). rewrite E in *. clear E ts G C.
  rewrite concat_app in NC. cbn in NC.
  destruct (NoDup_parts _ _ NC) as (N1 & N2 & N3). destruct (NoDup_parts _ _ N2) as (N4 & N5 & N6).
  rewrite fold_left_app. cbn [fold_left].
  set (s1 := fold_left (norm_group skip invert gs x) l1 s).
  apply (rowspec_agree skip invert x gs s1 s (norm_group skip invert gs x s1 g)).
  - intros i Hi Ti. apply groups_other; [exact N1|]. intros Hc. apply (N3 i Hc). rewrite in_app_iff. left. apply Gr. auto.
  - apply agree_sym. apply groups_other; [exact N5|]. intros Hc. exact (N6 r Hrg Hc).
  - exact Hr.
  - apply group_effect; auto.
Qed.

(** * Polarizations *)
Lemma pol_group_spec pols q : pol_group pols q =
  do i <- pol_index (fst (hands q)) pols; do j <- pol_index (snd (hands q)) pols; Ok (i, j).
Proof.
  assert (P : forall q, pol_index q pols = Err ValueError \/ exists i, pol_index q pols = Ok i).
  { intros q0. unfold pol_index. destruct (index_of Z.eqb q0 pols); eauto. }
  assert (OWN : (do i <- pol_index q pols; Ok (i, i)) = (do i <- pol_index q pols; do j <- pol_index q pols; Ok (i, j))).
  { destruct (pol_index q pols) as [i|]; cbn [bind]; reflexivity. }
  destruct (in_dec Z.eq_dec q [-1; -2; -3; -4; -5; -6; -7; -8; 1; 2; 3; 4]%Z) as [I|I].
  - cbn in I.
    repeat (destruct I as [<-|I]; [
      first [ exact OWN
            | unfold pol_group; cbn -[pol_index];
              match goal with |- context [pol_index ?a pols] => destruct (P a) as [->|[? ->]] end; cbn -[pol_index]; try reflexivity;
              match goal with |- context [pol_index ?a pols] => destruct (P a) as [->|[? ->]] end; reflexivity ] |]).
    destruct I.
  - assert (E : dget Z.eqb q POL_NUM2STR_DICT = Err KeyError).
    { cbn in I. cbn [dget POL_NUM2STR_DICT].
      repeat match goal with |- context [Z.eqb q ?c] => destruct (Z.eqb_spec q c) as [->|?]; [exfalso; apply I; tauto|] end.
      reflexivity. }
    unfold pol_group. rewrite E. cbn [bind].
    assert (Hh : hands q = (q, q)).
    { unfold hands. cbn in I.
      repeat match goal with |- context [Z.eqb q ?c] => destruct (Z.eqb_spec q c) as [->|?]; [exfalso; apply I; tauto|] end.
      reflexivity. }
    rewrite Hh. cbn [fst snd]. exact OWN.
Qed.

Lemma pol_index_Ok q pols i : NoDup pols -> (pol_index q pols = Ok i <-> i < length pols /\ nth i pols 0%Z = q).
Proof.
  intros N. unfold pol_index. destruct (index_of Z.eqb q pols) as [j|] eqn:E.
  - apply (index_of_Some _ Z.eqb_eq 0%Z) in E. destruct E as (A & B & _).
    split; [intros [= <-]; auto|]. intros [L V]. f_equal. apply (proj1 (NoDup_nth pols 0%Z) N); auto. congruence.
  - split; [discriminate|]. intros [L V]. exfalso.
    apply (index_of_None _ Z.eqb_eq) in E. apply E. rewrite <- V. apply nth_In. exact L.
Qed.

Lemma pol_index_In q pols : In q pols <-> exists i, pol_index q pols = Ok i.
Proof.
  unfold pol_index. destruct (index_of Z.eqb q pols) as [j|] eqn:E.
  - apply (index_of_Some _ Z.eqb_eq 0%Z) in E. destruct E as (A & B & _).
    split; [eauto|]. intros _. rewrite <- B. apply nth_In. exact A.
  - apply (index_of_None _ Z.eqb_eq) in E. split; [contradiction|]. intros [i H]. discriminate.
Qed.

Lemma pol_group_Ok pols q g : pol_group pols q = Ok g <->
  pol_index (fst (hands q)) pols = Ok (fst g) /\ pol_index (snd (hands q)) pols = Ok (snd g).
Proof.
  rewrite pol_group_spec. destruct g as [i j]. cbn [fst snd].
  destruct (pol_index (fst (hands q)) pols) as [a|]; cbn [bind]; [|split; [discriminate|intros [? _]; discriminate]].
  destruct (pol_index (snd (hands q)) pols) as [b|]; cbn [bind]; [|split; [discriminate|intros [_ ?]; discriminate]].
  split; [intros [= <- <-]; auto|intros [[= ->] [= ->]]; reflexivity].
Qed.

Lemma pol_groups_when pols :
  (exists gs, pol_groups pols = Ok gs) <-> (forall q, In q pols -> In (fst (hands q)) pols /\ In (snd (hands q)) pols).
Proof.
  unfold pol_groups.
  assert (W : forall l, (exists gs, mapM (pol_group pols) l = Ok gs) <-> (forall q, In q l -> In (fst (hands q)) pols /\ In (snd (hands q)) pols)).
  { induction l as [|q t IH]; [split; [intros _ q []|intros _; exists []; reflexivity]|].
    cbn [mapM]. split.
    - intros [gs H]. destruct (pol_group pols q) as [g|] eqn:E; cbn [bind] in H; [|discriminate].
      destruct (mapM (pol_group pols) t) as [ys|] eqn:F; cbn [bind] in H; [|discriminate].
      apply pol_group_Ok in E. destruct E as [E1 E2].
      intros q' [<-|Hq]; [split; apply pol_index_In; eauto|]. apply IH; eauto.
    - intros H. destruct (H q (or_introl eq_refl)) as [H1 H2].
      apply pol_index_In in H1. apply pol_index_In in H2. destruct H1 as [i H1], H2 as [j H2].
      destruct (proj2 IH) as [ys Y]; [intros q' Hq; apply H; now right|].
      exists ((i, j) :: ys). rewrite Y. rewrite (proj2 (pol_group_Ok pols q (i, j)) (conj H1 H2)). reflexivity. }
  apply W.
Qed.

Lemma pol_groups_err pols e : pol_groups pols = Err e -> e = ValueError.
Proof.
  unfold pol_groups. intros H. apply mapM_Err in H. destruct H as (q & _ & H).
  rewrite pol_group_spec in H. unfold pol_index in H.
  destruct (index_of Z.eqb (fst (hands q)) pols); cbn [bind] in H; [|congruence].
  destruct (index_of Z.eqb (snd (hands q)) pols); cbn [bind] in H; congruence.
Qed.

Lemma pol_groups_at x gs p i j : NoDup (v_pol x) -> pol_groups (v_pol x) = Ok gs -> p < length (v_pol x) ->
  holds x i (fst (hands (nth p (v_pol x) 0%Z))) -> holds x j (snd (hands (nth p (v_pol x) 0%Z))) ->
  length gs = length (v_pol x) /\ nth p gs (0, 0) = (i, j).
Proof.
  intros N H L Hi Hj. unfold pol_groups in H. split; [exact (mapM_Ok_length _ _ _ H)|].
  pose proof (mapM_Ok_nth _ _ _ 0%Z (0, 0) H p L) as E. cbv beta in E.
  apply pol_group_Ok in E. destruct E as [E1 E2]. apply (pol_index_Ok _ _ _ N) in E1, E2.
  destruct (nth p gs (0, 0)) as [a b]. cbn [fst snd] in *.
  destruct Hi as [Li Vi], Hj as [Lj Vj], E1 as [La Va], E2 as [Lb Vb].
  f_equal; apply (proj1 (NoDup_nth (v_pol x) 0%Z) N); auto; congruence.
Qed.

Lemma hands_again q : hands (fst (hands q)) = (fst (hands q), fst (hands q)) /\ hands (snd (hands q)) = (snd (hands q), snd (hands q)).
Proof.
  unfold hands at 2 3 4 6 7 8.
  destruct (Z.eqb_spec q (-3)); [split; reflexivity|]. destruct (Z.eqb_spec q (-4)); [split; reflexivity|].
  destruct (Z.eqb_spec q (-7)); [split; reflexivity|]. destruct (Z.eqb_spec q (-8)); [split; reflexivity|].
  cbn [fst snd]. unfold hands.
  rewrite (proj2 (Z.eqb_neq q (-3)) n), (proj2 (Z.eqb_neq q (-4)) n0), (proj2 (Z.eqb_neq q (-7)) n1), (proj2 (Z.eqb_neq q (-8)) n2).
  split; reflexivity.
Qed.

(** * Factors *)
Lemma positive_true a : positive a = true <-> (0 < a)%R.
Proof. unfold positive. destruct (Rlt_dec 0 a); split; auto; try discriminate; contradiction. Qed.

Lemma flag_false d w : auto_flag d w = false <-> (0 < fst d)%R /\ w = false.
Proof.
  unfold auto_flag. rewrite orb_false_iff, negb_false_iff, positive_true. tauto.
Qed.

Lemma norm_good invert d w : auto_flag d w = false ->
  auto_norm invert d w = if invert then sqrt (fst d) else (/ sqrt (fst d))%R.
Proof.
  intros H. unfold auto_norm. rewrite H. apply flag_false in H. destruct invert; [reflexivity|].
  now rewrite sqrt_inv.
Qed.

Lemma norm_bad invert d w : auto_flag d w = true -> auto_norm invert d w = 0%R.
Proof. intros H. unfold auto_norm. rewrite H. destruct invert; [reflexivity|apply sqrt_0]. Qed.

Lemma rscale_0 z : rscale 0 z = (0%R, 0%R).
Proof. unfold rscale. now rewrite !Rmult_0_r. Qed.

(** * The whole method *)
Lemma normalize_form tol skip invert x y : normalize_by_autos tol skip invert x = Ok y ->
  exists gs, pol_groups (v_pol x) = Ok gs /\ same_axes x y /\
    (v_data y, v_flag y) = fold_left (norm_group skip invert gs x) (groups_of tol (v_time x)) (v_data x, v_flag x).
Proof.
  unfold normalize_by_autos. destruct (negb _); [discriminate|].
  destruct (pol_groups (v_pol x)) as [gs|]; cbn [bind]; [|discriminate].
  intros [= <-]. exists gs. cbn. split; [reflexivity|]. split; [repeat split|].
  symmetry. apply surjective_pairing.
Qed.

Lemma normalized tol skip invert x y : in_order x -> distinct tol x -> single_autos x -> NoDup (v_pol x) ->
  normalize_by_autos tol skip invert x = Ok y ->
  same_axes x y /\
  forall r f p i j, r < v_n x -> p < length (v_pol x) ->
    holds x i (fst (hands (nth p (v_pol x) 0%Z))) -> holds x j (snd (hands (nth p (v_pol x) 0%Z))) ->
    (skip = true /\ ant1 x r = ant2 x r /\ i = j ->
       v_data y r f p = v_data x r f p /\ v_flag y r f p = v_flag x r f p) /\
    (~ (skip = true /\ ant1 x r = ant2 x r /\ i = j) ->
       forall s1 s2, auto_of x (ant1 x r) r s1 -> auto_of x (ant2 x r) r s2 ->
       (usable x s1 f i /\ usable x s2 f j ->
          v_data y r f p = times_real (v_data x r f p)
            (if invert then geo_mean x s1 i s2 j f else / geo_mean x s1 i s2 j f)%R /\
          v_flag y r f p = v_flag x r f p) /\
       (~ (usable x s1 f i /\ usable x s2 f j) -> v_data y r f p = (0%R, 0%R) /\ v_flag y r f p = true)) /\
    ((forall s, ~ auto_of x (ant1 x r) r s) \/ (forall s, ~ auto_of x (ant2 x r) r s) ->
       v_data y r f p = v_data x r f p /\ v_flag y r f p = true).
Proof.
  intros O D SA N H. destruct (normalize_form _ _ _ _ _ H) as (gs & G & AX & E). split; [exact AX|].
  intros r f p i j Hr Hp Hi Hj.
  destruct (pol_groups_at x gs p i j N G Hp Hi Hj) as [L Gp].
  pose proof (effect tol skip invert x gs (v_data x, v_flag x) r O D SA Hr f p) as EF.
  rewrite <- E, L, Gp in EF. specialize (EF Hp). cbv zeta in EF. cbn [fst snd] in EF.
  destruct EF as (E1 & E2 & E3).
  assert (B : skip && (ant1 x r =? ant2 x r)%Z && (i =? j) = true <-> skip = true /\ ant1 x r = ant2 x r /\ i = j).
  { rewrite !andb_true_iff, Z.eqb_eq, Nat.eqb_eq. tauto. }
  split; [intros C; apply E1; apply B; exact C|split; [|exact E3]].
  intros C s1 s2 A1 A2.
  assert (C' : skip && (ant1 x r =? ant2 x r)%Z && (i =? j) = false)
    by (apply not_true_is_false; intros X; apply C; apply B; exact X).
  destruct (E2 C' s1 s2 A1 A2) as [F1 F2]. clear E1 E2 E3.
  unfold usable, geo_mean. rewrite F1, F2.
  destruct (auto_flag (v_data x s1 f i) (v_flag x s1 f i)) eqn:P1;
    [|destruct (auto_flag (v_data x s2 f j) (v_flag x s2 f j)) eqn:P2].
  - rewrite (norm_bad _ _ _ P1), Rmult_0_l, rscale_0, orb_true_r. split; [|intros _; split; reflexivity].
    intros [U1 _]. apply flag_false in U1. congruence.
  - rewrite (norm_bad _ _ _ P2), Rmult_0_r, rscale_0. cbn [orb]. rewrite orb_true_r. split; [|intros _; split; reflexivity].
    intros [_ U2]. apply flag_false in U2. congruence.
  - rewrite (norm_good _ _ _ P1), (norm_good _ _ _ P2). cbn [orb]. rewrite orb_false_r.
    apply flag_false in P1, P2. split; [|intros X; exfalso; apply X; split; assumption].
    intros _. split; [|reflexivity]. destruct invert; [reflexivity|].
    unfold rscale, times_real. rewrite Rinv_mult. reflexivity.
Qed.

Lemma normalize_when tol skip invert x :
  (exists y, normalize_by_autos tol skip invert x = Ok y) <->
  (exists r, r < v_n x /\ ant1 x r = ant2 x r) /\
  (forall q, In q (v_pol x) -> In (fst (hands q)) (v_pol x) /\ In (snd (hands q)) (v_pol x)).
Proof.
  rewrite <- pol_groups_when. unfold normalize_by_autos.
  destruct (existsb (fun r => (ant1 x r =? ant2 x r)%Z) (seq 0 (v_n x))) eqn:E; cbn [negb].
  - apply existsb_exists in E. destruct E as (r & Hr & E). apply in_seq in Hr. apply Z.eqb_eq in E.
    destruct (pol_groups (v_pol x)) as [gs|]; cbn [bind]; split.
    + intros _. split; [exists r; split; [lia|exact E]|eauto].
    + eauto.
    + intros [y H]; discriminate.
    + intros [_ [gs H]]; discriminate.
  - split; [intros [y H]; discriminate|]. intros [(r & Hr & E') _].
    assert (X : existsb (fun r => (ant1 x r =? ant2 x r)%Z) (seq 0 (v_n x)) = true).
    { apply existsb_exists. exists r. split; [apply in_seq; lia|apply Z.eqb_eq; exact E']. }
    congruence.
Qed.

Lemma normalize_err tol skip invert x e : normalize_by_autos tol skip invert x = Err e -> e = ValueError.
Proof.
  unfold normalize_by_autos. destruct (negb _); [congruence|].
  destruct (pol_groups (v_pol x)) eqn:E; cbn [bind]; [discriminate|]. intros [= <-]. exact (pol_groups_err _ _ E).
Qed.

Lemma auto_search x a r : (exists s, auto_of x a r s) \/ (forall s, ~ auto_of x a r s).
Proof.
  destruct (auto_dec x a (filter (fun s => (time x s =? time x r)%Z) (seq 0 (v_n x)))) as [(s & Hs & A & B)|H].
  - left. apply filter_In in Hs. destruct Hs as [I T]. apply in_seq in I. apply Z.eqb_eq in T.
    exists s. repeat split; auto; lia.
  - right. intros s (L & T & A & B). apply (H s); [|auto]. apply filter_In. split; [apply in_seq; lia|apply Z.eqb_eq; exact T].
Qed.

Lemma In_holds x q : In q (v_pol x) -> exists i, holds x i q.
Proof. intros H. destruct (In_nth _ _ 0%Z H) as (i & L & V). exists i. split; auto. Qed.

Lemma usable_dec x s f i : usable x s f i \/ ~ usable x s f i.
Proof.
  destruct (auto_flag (v_data x s f i) (v_flag x s f i)) eqn:P.
  - right. intros U. apply flag_false in U. congruence.
  - left. apply flag_false. exact P.
Qed.

Lemma undone tol x y : in_order x -> distinct tol x -> single_autos x -> NoDup (v_pol x) ->
  normalize_by_autos tol true false x = Ok y ->
  exists z, normalize_by_autos tol true true y = Ok z /\ same_axes x z /\
  forall r f p, r < v_n x -> p < length (v_pol x) ->
    v_flag z r f p = v_flag y r f p /\ (v_flag x r f p = true -> v_flag y r f p = true) /\
    (v_flag y r f p = false -> v_data z r f p = v_data x r f p).
Proof.
  intros O D SA N H.
  destruct (normalized _ _ _ _ _ O D SA N H) as [AX V].
  pose proof (proj1 (normalize_when tol true false x) (ex_intro _ y H)) as [WA WP].
  pose proof AX as (X1 & X2 & X3 & X4).
  assert (Ea1 : forall r, ant1 y r = ant1 x r) by (intros; unfold ant1; now rewrite X1).
  assert (Ea2 : forall r, ant2 y r = ant2 x r) by (intros; unfold ant2; now rewrite X2).
  assert (Et : forall r, time y r = time x r) by (intros; unfold time; now rewrite X3).
  assert (En : v_n y = v_n x) by (unfold v_n; now rewrite X3).
  assert (Eao : forall a r s, auto_of y a r s <-> auto_of x a r s)
    by (intros; unfold auto_of; now rewrite En, !Et, Ea1, Ea2).
  assert (Eh : forall i q, holds y i q <-> holds x i q) by (intros; unfold holds; now rewrite X4).
  assert (Oy : in_order y) by (intros r s L1 L2; rewrite !Et; rewrite En in L2; apply O; auto).
  assert (Dy : distinct tol y).
  { destruct D as [T D]. split; [exact T|]. intros r s. rewrite En, !Et. apply D. }
  assert (Sy : single_autos y) by (intros a r s s'; rewrite !Eao; apply SA).
  assert (Ny : NoDup (v_pol y)) by (rewrite X4; exact N).
  destruct (proj2 (normalize_when tol true true y)) as [z Z].
  { split; [destruct WA as (r & L & E); exists r; now rewrite En, Ea1, Ea2|]. rewrite X4. exact WP. }
  exists z. split; [exact Z|].
  destruct (normalized _ _ _ _ _ Oy Dy Sy Ny Z) as [AZ VZ].
  split. { destruct AZ as (Y1 & Y2 & Y3 & Y4). repeat split; congruence. }
  intros r f p Hr Hp.
  destruct (WP (nth p (v_pol x) 0%Z) (nth_In _ _ Hp)) as [I1 I2].
  destruct (In_holds _ _ I1) as [i Hi]. destruct (In_holds _ _ I2) as [j Hj].
  specialize (V r f) as Vr. specialize (Vr p i j Hr Hp Hi Hj). destruct Vr as (V1 & V2 & V3).
  specialize (VZ r f p i j). rewrite En, X4, !Eh, Ea1, Ea2 in VZ.
  specialize (VZ Hr Hp Hi Hj). destruct VZ as (Z1 & Z2 & Z3).
  assert (SKIP : (true = true /\ ant1 x r = ant2 x r /\ i = j) \/ ~ (true = true /\ ant1 x r = ant2 x r /\ i = j)).
  { destruct (Z.eq_dec (ant1 x r) (ant2 x r)), (Nat.eq_dec i j); tauto. }
  destruct SKIP as [C|C].
  { destruct (V1 C) as [P1 P2], (Z1 C) as [Q1 Q2]. rewrite Q1, Q2, P1, P2. repeat split; auto. }
  specialize (V2 C). specialize (Z2 C).
  destruct (auto_search x (ant1 x r) r) as [[s1 A1]|A1].
  2:{ destruct (V3 (or_introl A1)) as [P1 P2]. destruct Z3 as [Q1 Q2].
      { left. intros s. rewrite Eao. apply A1. }
      rewrite Q1, Q2, P1, P2. repeat split; auto. }
  destruct (auto_search x (ant2 x r) r) as [[s2 A2]|A2].
  2:{ destruct (V3 (or_intror A2)) as [P1 P2]. destruct Z3 as [Q1 Q2].
      { right. intros s. rewrite Eao. apply A2. }
      rewrite Q1, Q2, P1, P2. repeat split; auto. }
  specialize (V2 s1 s2 A1 A2). specialize (Z2 s1 s2 (proj2 (Eao _ _ _) A1) (proj2 (Eao _ _ _) A2)).
  destruct (hands_again (nth p (v_pol x) 0%Z)) as [HH1 HH2].
  assert (AUTO : forall s q, q < length (v_pol x) -> hands (nth q (v_pol x) 0%Z) = (nth q (v_pol x) 0%Z, nth q (v_pol x) 0%Z) ->
            s < v_n x -> ant1 x s = ant2 x s -> v_data y s f q = v_data x s f q /\ v_flag y s f q = v_flag x s f q).
  { intros s q Lq Hq Ls Es. assert (B : holds x q (nth q (v_pol x) 0%Z)) by (split; auto).
    destruct (V s f q q q Ls Lq) as [W _]; [rewrite Hq; exact B|rewrite Hq; exact B|]. apply W. auto. }
  assert (D1 : v_data y s1 f i = v_data x s1 f i /\ v_flag y s1 f i = v_flag x s1 f i).
  { destruct A1 as (L & T & B1 & B2). destruct Hi as [Li Vi]. apply AUTO; auto; [|congruence]. rewrite Vi. exact HH1. }
  assert (D2 : v_data y s2 f j = v_data x s2 f j /\ v_flag y s2 f j = v_flag x s2 f j).
  { destruct A2 as (L & T & B1 & B2). destruct Hj as [Lj Vj]. apply AUTO; auto; [|congruence]. rewrite Vj. exact HH2. }
  assert (U1 : usable y s1 f i <-> usable x s1 f i) by (unfold usable; destruct D1 as [-> ->]; tauto).
  assert (U2 : usable y s2 f j <-> usable x s2 f j) by (unfold usable; destruct D2 as [-> ->]; tauto).
  assert (GM : geo_mean y s1 i s2 j f = geo_mean x s1 i s2 j f) by (unfold geo_mean; destruct D1 as [-> _], D2 as [-> _]; reflexivity).
  destruct V2 as [Va Vb], Z2 as [Za Zb]. rewrite U1, U2, GM in Za. rewrite U1, U2 in Zb.
  assert (UD : (usable x s1 f i /\ usable x s2 f j) \/ ~ (usable x s1 f i /\ usable x s2 f j)).
  { destruct (usable_dec x s1 f i), (usable_dec x s2 f j); tauto. }
  destruct UD as [U|U].
  - destruct (Va U) as [P1 P2], (Za U) as [Q1 Q2]. rewrite Q2, P2, Q1, P1. repeat split; auto.
    intros _. unfold times_real. cbn [fst snd].
    assert (G0 : geo_mean x s1 i s2 j f <> 0%R).
    { unfold geo_mean. destruct U as [[G1 _] [G2 _]]. apply Rmult_integral_contrapositive_currified; apply Rgt_not_eq; apply sqrt_lt_R0; assumption. }
    rewrite !Rmult_assoc, Rinv_l, !Rmult_1_r by exact G0. symmetry. apply surjective_pairing.
  - destruct (Vb U) as [P1 P2], (Zb U) as [Q1 Q2]. rewrite Q2, P2. repeat split; auto. discriminate.
Qed.

Lemma autos_one tol x y r f p : in_order x -> distinct tol x -> single_autos x -> NoDup (v_pol x) ->
  normalize_by_autos tol false false x = Ok y -> r < v_n x -> p < length (v_pol x) ->
  ant1 x r = ant2 x r -> hands (nth p (v_pol x) 0%Z) = (nth p (v_pol x) 0%Z, nth p (v_pol x) 0%Z) ->
  usable x r f p -> fst (v_data y r f p) = 1%R /\ (snd (v_data x r f p) = 0%R -> snd (v_data y r f p) = 0%R).
Proof.
  intros O D SA N H Hr Hp E Hh U.
  destruct (normalized _ _ _ _ _ O D SA N H) as [_ V].
  assert (B : holds x p (nth p (v_pol x) 0%Z)) by (split; auto).
  destruct (V r f p p p Hr Hp) as (_ & V2 & _); [rewrite Hh; exact B|rewrite Hh; exact B|].
  assert (A1 : auto_of x (ant1 x r) r r) by (repeat split; auto; congruence).
  assert (A2 : auto_of x (ant2 x r) r r) by (repeat split; auto; congruence).
  destruct (V2 (fun X => diff_false_true (proj1 X)) r r A1 A2) as [W _].
  destruct (W (conj U U)) as [-> _]. unfold times_real, geo_mean. cbn [fst snd].
  destruct U as [U _]. rewrite sqrt_sqrt by lra. split; [apply Rinv_r; lra|]. intros ->. apply Rmult_0_l.
Qed.
