(** What UVFlag.select keeps. *)
From Coq Require Import List ZArith Bool Arith QArith String Lia Sorted.
From Verif Require Import Lib.Py Lib.Np Lib.Cube Lib.Sorting Model.Pol Model.Select Model.UVCal Model.FlagSelect
  Spec.SelectSpec Spec.FlagSelectSpec Proofs.SelectRows Proofs.SelectProofs Proofs.SelectTotal.
Import ListNotations.
Notation length := List.length.
Open Scope list_scope.
Open Scope Z_scope.

Lemma uniqueZ_how_many l : how_many l (length (uniqueZ l)).
Proof. exists (uniqueZ l). split; [apply uniqueZ_NoDup|]. split; [intros x; apply uniqueZ_In | reflexivity]. Qed.

Lemma how_many_unique l n m : how_many l n -> how_many l m -> n = m.
Proof.
  intros (d & ND & M & <-) (d' & ND' & M' & <-). apply Nat.le_antisymm.
  - apply NoDup_incl_length; [exact ND|]. intros x I. apply M', M, I.
  - apply NoDup_incl_length; [exact ND'|]. intros x I. apply M, M', I.
Qed.
Lemma how_many_NoDup l : NoDup l -> how_many l (length l).
Proof. intros H. exists l. split; [exact H|]. split; [intros x; reflexivity | reflexivity]. Qed.

Lemma norm_index_denotes n c j : norm_index n c = Some j <-> denotes n c j.
Proof.
  unfold norm_index, denotes. split.
  - destruct (0 <=? c) eqn:E0, (c <? Z.of_nat n) eqn:E1; cbn [andb]; try (apply Z.leb_le in E0); try (apply Z.leb_gt in E0); try (apply Z.ltb_lt in E1); try (apply Z.ltb_ge in E1).
    + intros H. injection H as <-. lia.
    + destruct (_ && _) eqn:E2; [|discriminate]. intros H. injection H as <-. apply andb_true_iff in E2 as (A & B). lia.
    + destruct (_ && _) eqn:E2; [|discriminate]. intros H. injection H as <-. apply andb_true_iff in E2 as (A & B).
      try apply Z.leb_le in A; try apply Z.ltb_lt in A; try apply Z.leb_le in B; try apply Z.ltb_lt in B. lia.
    + lia.
  - intros (L & [-> | ->]).
    + replace (0 <=? Z.of_nat j) with true by (symmetry; apply Z.leb_le; lia).
      replace (Z.of_nat j <? Z.of_nat n) with true by (symmetry; apply Z.ltb_lt; lia). cbn [andb]. f_equal. lia.
    + replace (0 <=? Z.of_nat j - Z.of_nat n) with false by (symmetry; apply Z.leb_gt; lia). cbn [andb].
      destruct (_ && _) eqn:E; [f_equal; lia|]. exfalso. apply andb_false_iff in E as [E|E];
      try apply Z.leb_gt in E; try apply Z.ltb_ge in E; lia.
Qed.

Lemma final_rows_ok n inds : (exists rows, final_rows n inds = Ok rows) <->
  forall l, inds = Some l -> l <> [] /\ forall z, In z l -> 0 <= z < Z.of_nat n.
Proof.
  unfold final_rows. destruct inds as [[|x l]|].
  - split; [intros (? & H); discriminate | intros H; destruct (H [] eq_refl) as (N & _); congruence].
  - set (L := x :: l). destruct (existsb (fun i => Z.of_nat n <=? i) L) eqn:E1.
    + split; [intros (? & H); discriminate|]. intros H. exfalso. apply existsb_exists in E1 as (z & I & E). apply Z.leb_le in E.
      destruct (H L eq_refl) as (_ & B). specialize (B z I). lia.
    + destruct (existsb (fun i => i <? 0) L) eqn:E2.
      * split; [intros (? & H); discriminate|]. intros H. exfalso. apply existsb_exists in E2 as (z & I & E). apply Z.ltb_lt in E.
        destruct (H L eq_refl) as (_ & B). specialize (B z I). lia.
      * split; [intros _ | eauto]. intros l' E. injection E as <-. split; [discriminate|]. intros z I. split.
        -- destruct (z <? 0) eqn:E; [|apply Z.ltb_ge in E; exact E].
           assert (existsb (fun i => i <? 0) L = true) by (apply existsb_exists; eauto). congruence.
        -- destruct (Z.of_nat n <=? z) eqn:E; [|apply Z.leb_gt in E; exact E].
           assert (existsb (fun i => Z.of_nat n <=? i) L = true) by (apply existsb_exists; eauto). congruence.
  - split; [intros _ l E; discriminate | eauto].
Qed.

Section Rows.
Variables (cr : flag_criteria) (u : uflag).
Hypothesis OK : flag_ok u.

Lemma known_spec n : known_ant u n = true <-> In n (g_ant1 u ++ g_ant2 u).
Proof. unfold known_ant. rewrite orb_true_iff, !isinZ_spec, in_app_iff. reflexivity. Qed.

Lemma pairs_nth t : is_baseline u -> nth t (combine (g_ant1 u) (g_ant2 u)) (0, 0) = row_pair u t.
Proof. intros B. destruct (fo_baseline u OK B) as (L1 & L2 & _). rewrite combine_nth; [reflexivity | congruence]. Qed.
Lemma pairs_len : is_baseline u -> length (combine (g_ant1 u) (g_ant2 u)) = nrows u.
Proof. intros B. destruct (fo_baseline u OK B) as (L1 & L2 & _). rewrite combine_length, L1, L2. apply Nat.min_id. Qed.

Lemma ant_rows_spec nums : is_baseline u ->
  (forall rows, flag_ant_rows u nums = Ok rows ->
     (forall n, In n nums -> In n (g_ant1 u ++ g_ant2 u)) /\
     forall t, In t rows <-> (t < nrows u)%nat /\ In (fst (row_pair u t)) nums /\ In (snd (row_pair u t)) nums) /\
  ((forall n, In n nums -> In n (g_ant1 u ++ g_ant2 u)) -> exists rows, flag_ant_rows u nums = Ok rows).
Proof.
  intros B. unfold flag_ant_rows. destruct (forallb (known_ant u) nums) eqn:F; split.
  - intros rows H. injection H as <-. split.
    + intros n I. apply known_spec. rewrite forallb_forall in F. apply F, I.
    + intros t. rewrite (nonzero_spec (0, 0)), pairs_len, pairs_nth by exact B. rewrite andb_true_iff, !isinZ_spec. tauto.
  - eauto.
  - discriminate.
  - intros H. exfalso. assert (forallb (known_ant u) nums = true); [|congruence]. apply forallb_forall. intros n I. apply known_spec, H, I.
Qed.

Lemma pair_rows_spec a b t : is_baseline u -> In t (pair_rows u a b) <-> (t < nrows u)%nat /\ row_pair u t = (a, b).
Proof.
  intros B. unfold pair_rows. rewrite (nonzero_spec (0, 0)), pairs_len, pairs_nth by exact B. rewrite andb_true_iff, !Z.eqb_eq.
  unfold row_pair. cbn [fst snd]. split; [intros (L & -> & ->); auto | intros (L & E); injection E as -> ->; auto].
Qed.
Lemma pair_rows_nil a b : is_baseline u -> pair_rows u a b = [] <-> ~ has_pair u a b.
Proof.
  intros B. split.
  - intros E (t & I). apply (pair_rows_spec a b t B) in I. rewrite E in I. exact I.
  - intros N. destruct (pair_rows u a b) as [|t l] eqn:E; [reflexivity|]. exfalso. apply N. exists t. apply pair_rows_spec; [exact B|].
    rewrite E. left. reflexivity.
Qed.
Lemma has_pair_known a b : is_baseline u -> has_pair u a b -> known_ant u a = true /\ known_ant u b = true.
Proof.
  intros B (t & L & E). destruct (fo_baseline u OK B) as (L1 & L2 & _). injection E as <- <-. rewrite !known_spec, !in_app_iff.
  split; [left | right]; apply nth_In; lia.
Qed.

Definition pair_there (t : Z * Z * option string) : Prop :=
  let '(a, b, p) := t in has_pair u a b \/ (has_pair u b a /\ forall s, p = Some s -> exists s', conj_pol_str s = Ok s').

Lemma bls_rows_spec l rows pols : is_baseline u -> flag_bls_rows u l = Ok (rows, pols) ->
  (forall t, In t l -> pair_there t) /\
  (forall t, In t rows <-> (t < nrows u)%nat /\ exists a b p, In (a, b, p) l /\ row_of u t a b) /\
  (forall s, In s pols <-> exists t, In t l /\ pair_pol u t s) /\
  (pols = [] <-> forall a b s, ~ In (a, b, Some s) l).
Proof.
  intros B. revert rows pols. induction l as [|[[a b] p] l IH]; cbn [flag_bls_rows]; intros rows pols H.
  - injection H as <- <-. split; [intros t []|]. split; [|split].
    + intros i. split; [intros [] | intros (_ & a & b & p & [] & _)].
    + intros s. split; [intros [] | intros (t & [] & _)].
    + split; [intros _ a b s [] | reflexivity].
  - destruct (negb (known_ant u a)); [discriminate|]. destruct (negb (known_ant u b)); [discriminate|].
    apply bind_Ok in H as ([r1 p1] & H1 & H). apply bind_Ok in H as ([r2 p2] & H2 & H). injection H as <- <-.
    destruct (IH _ _ H2) as (IT & IR & IP & IE).
    assert (S : pair_there (a, b, p) /\ (forall i, In i r1 <-> (i < nrows u)%nat /\ row_of u i a b) /\
                (forall s, In s p1 <-> pair_pol u (a, b, p) s) /\ (p1 = [] <-> p = None)).
    { destruct (pair_rows u a b) as [|x wh1] eqn:E1.
      - pose proof (proj1 (pair_rows_nil a b B) E1) as NS. destruct (pair_rows u b a) as [|y wh2] eqn:E2; [discriminate|].
        assert (HB : has_pair u b a) by (exists y; apply pair_rows_spec; [exact B | rewrite E2; left; reflexivity]).
        assert (R : forall i, In i (y :: wh2) <-> (i < nrows u)%nat /\ row_of u i a b).
        { intros i. rewrite <- E2, (pair_rows_spec b a i B). unfold row_of. split.
          - intros (L & A). auto.
          - intros (L & [A | (A & _)]); [exfalso; apply NS; exists i; auto | auto]. }
        destruct p as [s|].
        + apply bind_Ok in H1 as (c & Hc & H1). injection H1 as <- <-.
          split; [right; split; [exact HB | intros s' E; injection E as <-; eauto]|]. split; [exact R|]. split.
          * intros s'. unfold pair_pol. split.
            -- intros [<- | []]. right. split; [exact NS|]. eauto.
            -- intros [(S & _) | (_ & s2 & E & C)]; [contradiction|]. injection E as <-. left. congruence.
          * split; discriminate.
        + injection H1 as <- <-. split; [right; split; [exact HB | discriminate]|]. split; [exact R|]. split.
          * intros s'. unfold pair_pol. split; [intros [] | intros [(_ & E) | (_ & s2 & E & _)]; discriminate].
          * split; reflexivity.
      - injection H1 as <- <-.
        assert (ST : has_pair u a b) by (exists x; apply pair_rows_spec; [exact B | rewrite E1; left; reflexivity]).
        split; [left; exact ST|]. split; [|split].
        + intros i. rewrite <- E1, (pair_rows_spec a b i B). unfold row_of. split; [tauto|].
          intros (L & [A | (_ & N)]); [tauto | contradiction].
        + intros s'. unfold pair_pol. destruct p as [s|]; simpl; split.
          * intros [<- | []]. auto.
          * intros [(_ & E) | (N & _)]; [injection E as <-; auto | contradiction].
          * intros [].
          * intros [(_ & E) | (N & _)]; [discriminate | contradiction].
        + destruct p; split; try discriminate; reflexivity. }
    destruct S as (ST & SR & SP & SE). split; [|split; [|split]].
    + intros t [<- | I]; [exact ST | apply IT, I].
    + intros i. rewrite in_app_iff, SR, IR. split.
      * intros [(L & A) | (L & a' & b' & p' & I & A)]; (split; [exact L|]); [exists a, b, p | exists a', b', p']; simpl; auto.
      * intros (L & a' & b' & p' & [E | I] & A); [injection E as <- <- <-; auto | right; split; [exact L|]; eauto].
    + intros s. rewrite in_app_iff, SP, IP. split.
      * intros [A | (t & I & A)]; [exists (a, b, p) | exists t]; simpl; auto.
      * intros (t & [<- | I] & A); [left; exact A | right; eauto].
    + split.
      * intros E. apply app_eq_nil in E as [E1 E2]. apply SE in E1. subst p. intros a' b' s [E | I]; [discriminate|].
        apply (proj1 IE E2 a' b' s I).
      * intros N. destruct p as [s|]; [exfalso; apply (N a b s); left; reflexivity|].
        rewrite (proj2 SE eq_refl). simpl. apply IE. intros a' b' s I. apply (N a' b' s). right; exact I.
Qed.

Lemma bls_rows_total l : is_baseline u -> (forall t, In t l -> pair_there t) -> exists r, flag_bls_rows u l = Ok r.
Proof.
  intros B. induction l as [|[[a b] p] l IH]; intros H; cbn [flag_bls_rows]; [eauto|].
  assert (K : known_ant u a = true /\ known_ant u b = true).
  { destruct (H (a, b, p) (or_introl eq_refl)) as [K | (K & _)]; apply has_pair_known in K; try exact B; tauto. }
  destruct K as (-> & ->). cbn [negb]. destruct IH as ([r2 p2] & E); [intros t I; apply H; right; exact I|]. rewrite E.
  destruct (pair_rows u a b) as [|x wh1] eqn:E1.
  - pose proof (proj1 (pair_rows_nil a b B) E1) as NS. destruct (H (a, b, p) (or_introl eq_refl)) as [K | (K & C)]; [contradiction|].
    destruct (pair_rows u b a) as [|y wh2] eqn:E2; [apply (pair_rows_nil b a B) in E2; contradiction|].
    destruct p as [s|]; [|cbn [bind]; eauto]. destruct (C s eq_refl) as (c & ->). cbn [bind]. eauto.
  - cbn [bind]. eauto.
Qed.

Lemma bls_spec rows pols : flag_bls cr u = Ok (rows, pols) ->
  (fc_bls cr <> None -> is_baseline u) /\
  (forall l, fc_bls cr = Some l -> fc_polarizations cr <> None -> exists a b, In (a, b, None) l) /\
  (forall l t, fc_bls cr = Some l -> In t l -> pair_there t) /\
  (rows = None <-> fc_bls cr = None) /\
  (forall l t, rows = Some l -> (In t l <-> (t < nrows u)%nat /\ forall l, fc_bls cr = Some l -> exists a b p, In (a, b, p) l /\ row_of u t a b)) /\
  (pols = None <-> ~ (pairs_have_pols cr \/ fc_polarizations cr <> None)) /\
  (forall q, (exists l, pols = Some l /\ In q l) <-> flag_pol_named cr u q).
Proof.
  unfold flag_bls. destruct (fc_bls cr) as [l|] eqn:EB.
  - destruct (g_type u) eqn:ET; try discriminate. assert (B : is_baseline u) by exact ET.
    destruct (forallb (fun t => given (snd t)) l && given (fc_polarizations cr)) eqn:EP; [discriminate|].
    intros H. apply bind_Ok in H as ([r p] & H & E). pose proof (proj1 (pair_equal_spec _ _ _ _) (f_equal (fun x => match x with Ok y => y | Err _ => (rows, pols) end) E)) as (E1 & E2). clear E.
    destruct (bls_rows_spec l r p B H) as (T & R & P & PN).
    split; [intros _; exact B|]. split.
    { intros l' E NP. injection E as <-. destruct (fc_polarizations cr) as [pl|]; [|congruence]. cbn [given] in EP. rewrite andb_true_r in EP.
      clear -EP. induction l as [|[[a b] [s|]] l IH]; cbn in EP; [discriminate| |exists a, b; left; reflexivity].
      destruct (IH EP) as (a' & b' & I). exists a', b'. right. exact I. }
    split; [intros l' t E I; injection E as <-; apply T, I|].
    split; [rewrite <- E1; split; discriminate|].
    split. { intros l' t E. rewrite <- E1 in E. injection E as <-. rewrite R. split; intros (L & X); (split; [exact L|]); [intros l' E; injection E as <-; exact X | apply X; reflexivity]. }
    assert (HP : pairs_have_pols cr <-> p <> []).
    { split.
      - intros (l' & a & b & s & E & I) N. assert (l' = l) as -> by congruence. apply (proj1 PN N a b s I).
      - intros N. destruct p as [|s p]; [congruence|]. destruct (proj1 (P s) (or_introl eq_refl)) as ([[a b] o] & I & K).
        unfold pair_pol in K. destruct K as [(_ & ->) | (_ & s' & -> & _)]; eexists l, a, b, _; (split; [exact EB | exact I]). }
    split.
    { rewrite <- E2. destruct p as [|s p].
      - split; [intros E [K|K]; [apply (proj1 HP K); reflexivity | congruence] |].
        intros N. destruct (fc_polarizations cr); [exfalso; apply N; right; discriminate | reflexivity].
      - split; [discriminate|]. intros N. exfalso. apply N. left. apply HP. discriminate. }
    intros q. unfold flag_pol_named. rewrite <- E2. destruct p as [|s p].
    + split.
      * intros X. right. split; [intros K; apply (proj1 HP K); reflexivity | exact X].
      * intros [(l' & t & s & E & I & K & _) | (_ & X)]; [|exact X]. exfalso. assert (l' = l) as -> by congruence.
        assert (In s []) by (apply P; exists t; auto). contradiction.
    + split.
      * intros (l' & E & I). injection E as <-. left. change (In q (map PolStr (s :: p))) in I. apply in_map_iff in I as (s' & <- & I). apply P in I as (t & I & K).
        exists l, t, s'. auto.
      * intros [(l' & t & s' & E & I & K & ->) | (N & _)]; [|exfalso; apply N, HP; discriminate].
        assert (l' = l) as -> by congruence. eexists. split; [reflexivity|].
        change (In (PolStr s') (map PolStr (s :: p))). apply in_map, P. exists t. auto.
  - intros H. pose proof (proj1 (pair_equal_spec _ _ _ _) (f_equal (fun x => match x with Ok y => y | Err _ => (rows, pols) end) H)) as (E1 & E2).
    assert (NP : ~ pairs_have_pols cr) by (intros (l & a & b & s & E & _); congruence).
    split; [congruence|]. split; [discriminate|]. split; [discriminate|]. split; [rewrite <- E1; tauto|]. split; [rewrite <- E1; discriminate|].
    rewrite <- E2. split.
    + split; [intros E [K|K]; [contradiction | congruence]|].
      intros N. destruct (fc_polarizations cr); [exfalso; apply N; right; discriminate | reflexivity].
    + intros q. unfold flag_pol_named. split; [auto|]. intros [(l & t & s & E & _) | (_ & X)]; [congruence | exact X].
Qed.

Lemma bls_total : (fc_bls cr <> None -> is_baseline u) ->
  (forall l, fc_bls cr = Some l -> fc_polarizations cr <> None -> exists a b, In (a, b, None) l) ->
  (forall l t, fc_bls cr = Some l -> In t l -> pair_there t) -> exists r, flag_bls cr u = Ok r.
Proof.
  intros HB HP HT. unfold flag_bls. destruct (fc_bls cr) as [l|]; [|eauto].
  pose proof (HB ltac:(discriminate)) as B. unfold is_baseline in B. rewrite B.
  destruct (forallb _ l && _) eqn:E.
  - exfalso. apply andb_true_iff in E as (F & G). destruct (fc_polarizations cr); [|discriminate].
    destruct (HP l eq_refl ltac:(discriminate)) as (a & b & I). rewrite forallb_forall in F. specialize (F _ I). discriminate.
  - destruct (bls_rows_total l B (fun t => HT l t eq_refl)) as ([r p] & ->). cbn [bind]. eauto.
Qed.

Lemma time_rows_spec times :
  (forall rows, flag_time_rows u times = Ok rows ->
     (forall x, In x times -> In x (g_time u)) /\ forall t, In t rows <-> (t < nrows u)%nat /\ In (nth t (g_time u) 0) times) /\
  ((forall x, In x times -> In x (g_time u)) -> exists rows, flag_time_rows u times = Ok rows).
Proof.
  unfold flag_time_rows. destruct (forallb _ times) eqn:F; split.
  - intros rows H. injection H as <-. split.
    + intros x I. rewrite forallb_forall in F. apply isinZ_spec, F, I.
    + intros t. rewrite (nonzero_spec 0), isinZ_spec. reflexivity.
  - eauto.
  - discriminate.
  - intros H. exfalso. assert (forallb (fun t => isinZ t (g_time u)) times = true); [|congruence].
    apply forallb_forall. intros x I. apply isinZ_spec, H, I.
Qed.
End Rows.
