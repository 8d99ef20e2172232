(** The rows kept by select. *)
From Coq Require Import List ZArith Bool Arith QArith String Lia Sorted.
From Verif Require Import Lib.Py Lib.Np Lib.Cube Model.Bls Model.Tools Model.Pol Model.UVData Model.Freq Model.PhaseCenter Model.FlexPol Model.Times Model.Select
  Spec.BltSpec Spec.BlsSpec Spec.UVDataSpec Spec.FreqSpec Spec.TimesSpec Spec.AccessSpec Spec.SelectSpec
  Proofs.BlsProofs Proofs.TimesProofs Proofs.AccessProofs.
Import ListNotations.
Notation length := List.length.
Open Scope Z_scope.
Open Scope list_scope.

Definition holds (inds : option (list Z)) (z : Z) : Prop := forall l, inds = Some l -> In z l.

Lemma holds_None z : holds None z.
Proof. intros l E. discriminate. Qed.
Lemma holds_Some l z : holds (Some l) z <-> In z l.
Proof. split; [intros H; apply H; reflexivity | intros H l' E; injection E as <-; exact H]. Qed.

Lemma inter_In a b z : In z (inter a b) <-> In z a /\ In z b.
Proof. unfold inter. rewrite filter_In, isinZ_spec. reflexivity. Qed.

Lemma join_In a b z : In z (join a b) <-> holds a z /\ In z b.
Proof.
  destruct a as [a|]; simpl.
  - rewrite inter_In, holds_Some. reflexivity.
  - split; [intros H; split; [apply holds_None | exact H] | tauto].
Qed.

Lemma where_inds_In l i : In (Z.of_nat i) (where_inds l) <-> In i l.
Proof.
  unfold where_inds. rewrite in_map_iff. split.
  - intros (j & E & H). apply Nat2Z.inj in E. subst. exact H.
  - eauto.
Qed.

Section Rows.
Variables (cr : criteria) (o : selobj).
Let u := so_uvd o.
Hypothesis OK : sel_ok o.

Local Lemma sh : blt_shaped u.
Proof. exact (proj1 OK). Qed.
Lemma len_ant1 : length (ant_1_array u) = Nblts u.
Proof. destruct sh as (_ & H & _). exact H. Qed.
Lemma len_ant2 : length (ant_2_array u) = Nblts u.
Proof. destruct sh as (_ & _ & H & _). exact H. Qed.
Lemma len_bl : length (baseline_array u) = Nblts u.
Proof. destruct sh as (_ & _ & _ & H & _). exact H. Qed.
Lemma len_pc : length (phase_center_id_array u) = Nblts u.
Proof. destruct sh as (_ & _ & _ & _ & _ & _ & H & _). exact H. Qed.
Lemma len_lst : length (lst_array u) = Nblts u.
Proof. destruct sh as (H & _). exact H. Qed.

Lemma phase_inds_spec inds inds' : phase_inds cr o inds = Ok inds' ->
  (inds' = None <-> inds = None /\ cr_phase_center_ids cr = None /\ cr_catalog_names cr = None) /\
  forall i, (i < Nblts u)%nat -> (holds inds' (Z.of_nat i) <-> holds inds (Z.of_nat i) /\
    (forall l, cr_phase_center_ids cr = Some l -> In (nth i (phase_center_id_array u) 0) l) /\
    (forall l, cr_catalog_names cr = Some l -> exists e, In (nth i (phase_center_id_array u) 0, e) (so_catalog o) /\ In (e_name e) l)).
Proof.
  unfold phase_inds. destruct (cr_phase_center_ids cr) as [ids|], (cr_catalog_names cr) as [names|]; try discriminate; intros H; injection H as <-.
  - split; [split; [discriminate | intros (_ & E & _); discriminate]|].
    intros i L. rewrite holds_Some, join_In, where_inds_In, (nonzero_spec 0), isinZ_spec. fold u. rewrite len_pc. split.
    + intros (A & _ & B). split; [exact A|]. split; [intros l E; injection E as <-; exact B | discriminate].
    + intros (A & B & _). split; [exact A|]. split; [exact L | apply B; reflexivity].
  - split; [split; [discriminate | intros (_ & _ & E); discriminate]|].
    intros i L. rewrite holds_Some, join_In, where_inds_In, (nonzero_spec 0), isinZ_spec. fold u. rewrite len_pc.
    assert (E : In (nth i (phase_center_id_array u) 0) (map fst (filter (fun e => str_in (e_name (snd e)) names) (so_catalog o))) <->
                exists e, In (nth i (phase_center_id_array u) 0, e) (so_catalog o) /\ In (e_name e) names).
    { rewrite in_map_iff. split.
      - intros ((k & e) & E & H). apply filter_In in H as [H S]. simpl in E. subst k. exists e. split; [exact H|].
        unfold str_in in S. apply existsb_exists in S as (s & I & E). apply String.eqb_eq in E. simpl in E. subst s. exact I.
      - intros (e & H & I). exists (nth i (phase_center_id_array u) 0, e). split; [reflexivity|]. apply filter_In. split; [exact H|].
        apply existsb_exists. exists (e_name e). split; [exact I | apply String.eqb_refl]. }
    rewrite E. split.
    + intros (A & _ & B). split; [exact A|]. split; [discriminate | intros l F; injection F as <-; exact B].
    + intros (A & _ & B). split; [exact A|]. split; [exact L | apply B; reflexivity].
  - split; [tauto|]. intros i L. split; [intros A; split; [exact A | split; discriminate] | tauto].
Qed.

Lemma name_num_spec s n : name_num o s = Ok n -> forall m, antenna_called o s m <-> m = n.
Proof.
  destruct OK as (_ & _ & _ & _ & _ & L & ND). unfold name_num.
  destruct (index_of String.eqb s (so_antenna_names o)) as [k|] eqn:E; [|discriminate].
  pose proof E as E0. apply (index_of_Some String.eqb String.eqb_eq EmptyString) in E as (Lk & Ek & _).
  destruct (nth_error (so_antenna_numbers o) k) as [n'|] eqn:En; [|discriminate]. intros H. injection H as ->.
  assert (Hn : nth k (so_antenna_numbers o) 0 = n) by (apply nth_error_nth; exact En).
  intros m. split.
  - intros (k' & Lk' & Ek' & Em). assert (k' = k) as -> by (apply (proj1 (NoDup_nth _ EmptyString) ND); congruence). congruence.
  - intros ->. exists k. auto.
Qed.

Lemma antenna_list_spec nums : antenna_list cr o = Ok nums ->
  (nums = None <-> cr_antenna_nums cr = None /\ cr_antenna_names cr = None) /\
  forall n, (forall l, nums = Some l -> In n l) <->
    (forall l, cr_antenna_nums cr = Some l -> In n l) /\
    (forall l, cr_antenna_names cr = Some l -> exists s, In s l /\ antenna_called o s n).
Proof.
  unfold antenna_list. destruct (cr_antenna_names cr) as [names|], (cr_antenna_nums cr) as [ns|]; try discriminate; intros H.
  - apply bind_Ok in H as (l & H & E). injection E as <-. split; [split; [discriminate | intros [_ E]; discriminate]|].
    assert (S : forall n, In n l <-> exists s, In s names /\ antenna_called o s n).
    { apply mapM_Ok_Forall2 in H. intros n. induction H as [|s m names l Hs _ IH]; simpl.
      - split; [intros [] | intros (s & [] & _)].
      - rewrite IH. split.
        + intros [<- | (s' & I & A)]; [exists s; split; [left; reflexivity | apply (name_num_spec _ _ Hs); reflexivity] | exists s'; auto].
        + intros (s' & [<- | I] & A); [left; symmetry; apply (name_num_spec _ _ Hs); exact A | right; eauto]. }
    intros n. split.
    + intros A. split; [discriminate | intros l' E; injection E as <-; apply S, A; reflexivity].
    + intros (_ & A) l' E. injection E as <-. apply S, A. reflexivity.
  - injection H as <-. split; [split; [discriminate | intros [E _]; discriminate]|]. intros n. split.
    + intros A. split; [intros l E; injection E as <-; apply A; reflexivity | discriminate].
    + intros (A & _). exact A.
  - injection H as <-. split; [tauto|]. intros n. split; [intros _; split; discriminate | intros _ l E; discriminate].
Qed.

Lemma combine_nth_ant i : nth i (combine (ant_1_array u) (ant_2_array u)) (0, 0) = (ant1 u i, ant2 u i).
Proof. rewrite combine_nth; [reflexivity | rewrite len_ant1, len_ant2; reflexivity]. Qed.
Lemma combine_len_ant : length (combine (ant_1_array u) (ant_2_array u)) = Nblts u.
Proof. rewrite combine_length, len_ant1, len_ant2. apply Nat.min_id. Qed.

Lemma antenna_rows_spec nums rows : antenna_rows u nums = Ok rows ->
  forall i, In i rows <-> (i < Nblts u)%nat /\ In (ant1 u i) nums /\ In (ant2 u i) nums.
Proof.
  unfold antenna_rows. destruct (forallb _ nums); [|discriminate]. intros H. injection H as <-. intros i.
  rewrite (nonzero_spec (0, 0)), combine_len_ant, combine_nth_ant. cbn [fst snd]. rewrite andb_true_iff, !isinZ_spec. tauto.
Qed.

Lemma rows_of_spec a b i : In i (rows_of u a b) <-> (i < Nblts u)%nat /\ ant1 u i = a /\ ant2 u i = b.
Proof. unfold rows_of. rewrite (nonzero_spec (0, 0)), combine_len_ant, combine_nth_ant. cbn [fst snd]. rewrite andb_true_iff, !Z.eqb_eq. tauto. Qed.

Lemma rows_of_nil a b : rows_of u a b = [] <-> ~ stored u a b.
Proof.
  split.
  - intros E (i & L & A & B). assert (In i (rows_of u a b)) as I by (apply rows_of_spec; auto). rewrite E in I. exact I.
  - intros N. destruct (rows_of u a b) as [|i l] eqn:E; [reflexivity|]. exfalso. apply N. exists i. apply rows_of_spec. rewrite E. left; reflexivity.
Qed.

Lemma bls_rows_spec l rows pols : bls_rows u l = Ok (rows, pols) ->
  (forall i, In i rows <-> (i < Nblts u)%nat /\ exists a b p, In (a, b, p) l /\ of_pair u i a b) /\
  (forall s, In s pols <-> exists t, In t l /\ tuple_pol u t s) /\
  (pols = [] <-> forall a b s, ~ In (a, b, Some s) l).
Proof.
  revert rows pols. induction l as [|[[a b] p] l IH]; cbn [bls_rows]; intros rows pols H.
  - injection H as <- <-. split; [|split].
    + intros i. split; [intros [] | intros (_ & a & b & p & [] & _)].
    + intros s. split; [intros [] | intros (t & [] & _)].
    + split; [intros _ a b s [] | reflexivity].
  - apply bind_Ok in H as ([r1 p1] & H1 & H). apply bind_Ok in H as ([r2 p2] & H2 & H). injection H as <- <-.
    destruct (IH _ _ H2) as (IR & IP & IE).
    assert (S : (forall i, In i r1 <-> (i < Nblts u)%nat /\ of_pair u i a b) /\ (forall s, In s p1 <-> tuple_pol u (a, b, p) s) /\
                (p1 = [] <-> p = None)).
    { destruct (rows_of u a b) as [|x wh1] eqn:E1.
      - pose proof (proj1 (rows_of_nil a b) E1) as NS. destruct (rows_of u b a) as [|y wh2] eqn:E2; [discriminate|].
        assert (R : forall i, In i (y :: wh2) <-> (i < Nblts u)%nat /\ of_pair u i a b).
        { intros i. rewrite <- E2, rows_of_spec. unfold of_pair. split.
          - intros (L & A & B). auto.
          - intros (L & [(A & B) | (A & B & _)]); [exfalso; apply NS; exists i; auto | auto]. }
        destruct p as [s|].
        + apply bind_Ok in H1 as (c & Hc & H1). injection H1 as <- <-. split; [exact R|]. split.
          * intros s'. unfold tuple_pol. split.
            -- intros [<- | []]. right. split; [exact NS|]. eauto.
            -- intros [(S & _) | (_ & s2 & E & C)]; [contradiction|]. injection E as <-. left. congruence.
          * split; discriminate.
        + injection H1 as <- <-. split; [exact R|]. split.
          * intros s'. unfold tuple_pol. split; [intros [] | intros [(_ & E) | (_ & s2 & E & _)]; discriminate].
          * split; reflexivity.
      - injection H1 as <- <-.
        assert (ST : stored u a b). { exists x. apply rows_of_spec. rewrite E1. left; reflexivity. }
        split; [|split].
        + intros i. rewrite <- E1, rows_of_spec. unfold of_pair. split; [tauto|].
          intros (L & [A | (_ & _ & N)]); [tauto | contradiction].
        + intros s'. unfold tuple_pol. destruct p as [s|]; simpl; split.
          * intros [<- | []]. auto.
          * intros [(_ & E) | (N & _)]; [injection E as <-; auto | contradiction].
          * intros [].
          * intros [(_ & E) | (N & _)]; [discriminate | contradiction].
        + destruct p; split; try discriminate; reflexivity. }
    destruct S as (SR & SP & SE). split; [|split].
    + intros i. rewrite in_app_iff, SR, IR. split.
      * intros [(L & A) | (L & a' & b' & p' & I & A)]; (split; [exact L|]); [exists a, b, p | exists a', b', p']; simpl; auto.
      * intros (L & a' & b' & p' & [E | I] & A); [injection E as <- <- <-; auto | right; split; [exact L|]; eauto].
    + intros s. rewrite in_app_iff, SP, IP. split.
      * intros [A | (t & I & A)]; [exists (a, b, p) | exists t]; simpl; auto.
      * intros (t & [<- | I] & A); [left; exact A | right; eauto].
    + split.
      * intros E. apply app_eq_nil in E as [E1 E2]. apply SE in E1. subst p. intros a' b' s [E | I]; [discriminate|].
        apply (proj1 IE E2 a' b' s I).
      * intros N. destruct p as [s|]; [exfalso; apply (N a b s); left; reflexivity|].
        rewrite (proj2 SE eq_refl). simpl. apply IE. intros a' b' s I. apply (N a' b' s). right; exact I.
Qed.

(** Baseline numbers of the object are those of their antenna pairs. *)
Lemma nums_pairs l t : (forall b, In b l -> In b (baseline_array u)) -> bls_tuples u (BlNums l) = Ok t ->
  (forall i, (i < Nblts u)%nat -> ((exists a b p, In (a, b, p) t /\ of_pair u i a b) <-> In (nth i (baseline_array u) 0) l)) /\
  (forall a b s, ~ In (a, b, Some s) t).
Proof.
  intros IN H. destruct OK as (_ & (m & off & Henc & Hcode) & _ & _ & HN & _). fold u in Hcode, HN.
  unfold bls_tuples in H. destruct (forallb _ l); [|discriminate].
  - assert (C : forall b, In b l -> exists i, (i < Nblts u)%nat /\ 0 <= ant1 u i < m /\ 0 <= ant2 u i < m /\ b = m * ant1 u i + ant2 u i + off).
    { intros b I. apply IN in I. apply (In_nth _ _ 0) in I as (i & L & <-). rewrite len_bl in L. exists i. split; [exact L|]. apply Hcode, L. }
    destruct l as [|b1 l1] eqn:El.
    { injection H as <-. split; [|intros a b s []]. intros i L. split; [intros (a & b & p & [] & _) | intros []]. }
    rewrite <- El in *. rewrite (decode_regime m off l) in H; cycle 1.
    + exact Henc.
    + rewrite El; discriminate.
    + exact HN.
    + apply Forall_forall. intros b I. destruct (C b I) as (i & L & A & B & ->). unfold in_regime.
      assert (1 <= m) by (destruct Henc; lia). nia.
    + cbn [bind] in H. injection H as <-. split.
      * intros i L. rewrite (proj2 (proj2 (Hcode i L))). fold (ant1 u i) (ant2 u i).
        destruct (Hcode i L) as (B1 & B2 & _). fold (ant1 u i) in B1. fold (ant2 u i) in B2.
        assert (ST : forall b, In b l -> exists i, (i < Nblts u)%nat /\ (b - off) / m = ant1 u i /\ (b - off) mod m = ant2 u i /\ b = m * ant1 u i + ant2 u i + off).
        { intros b I. destruct (C b I) as (j & Lj & A & B & ->). exists j. split; [exact Lj|]. split; [apply div_enc, B|]. split; [apply mod_enc, B | reflexivity]. }
        split.
        -- intros (a & b & p & I & P). apply in_map_iff in I as ((x & y) & E & I). injection E as <- <- <-. cbn [fst snd] in P.
           assert (I' : exists c, In c l /\ x = (c - off) / m /\ y = (c - off) mod m).
           { clear - I. induction l as [|c l IH]; simpl in I; [destruct I|]. destruct I as [E | I].
             - injection E as <- <-. exists c. simpl; auto.
             - destruct (IH I) as (d & Id & E). exists d. simpl; auto. }
           destruct I' as (c & Ic & -> & ->). destruct (ST c Ic) as (j & Lj & Ej & Fj & Ec). rewrite Ej, Fj in P.
           destruct P as [(P1 & P2) | (_ & _ & N)].
           ++ rewrite P1, P2, <- Ec. exact Ic.
           ++ exfalso. apply N. exists j. auto.
        -- intros I. destruct (ST _ I) as (j & Lj & Ej & Fj & Ec).
           exists (ant1 u j), (ant2 u j), None. split.
           ++ apply in_map_iff. exists (ant1 u j, ant2 u j). split; [reflexivity|]. rewrite <- Ej, <- Fj.
              clear - I. induction l as [|c l IH]; simpl in *; [destruct I|]. destruct I as [-> | I]; [left; reflexivity | right; auto].
           ++ left. destruct (Hcode j Lj) as (C1 & C2 & _). fold (ant1 u j) in C1. fold (ant2 u j) in C2.
              assert (E1 : (m * ant1 u i + ant2 u i + off - off) / m = ant1 u i) by (apply div_enc, B2).
              assert (E2 : (m * ant1 u i + ant2 u i + off - off) mod m = ant2 u i) by (apply mod_enc, B2).
              split; congruence.
      * intros a b s I. apply in_map_iff in I as (p & E & _). discriminate.
Qed.

Lemma bls_inds_spec rows pols : bls_inds cr u = Ok (rows, pols) ->
  (rows = None <-> cr_bls cr = None) /\
  (forall i, (i < Nblts u)%nat -> ((forall r, rows = Some r -> In i r) <->
     (forall l, cr_bls cr = Some (BlTuples l) -> exists a b p, In (a, b, p) l /\ of_pair u i a b) /\
     (forall l, cr_bls cr = Some (BlNums l) -> In (nth i (baseline_array u) 0) l))) /\
  (forall r i, rows = Some r -> In i r -> (i < Nblts u)%nat) /\
  (pols = None <-> ~ restricts_pols cr) /\
  (forall p, (exists asked a, pols = Some asked /\ In a asked /\ pol_number (so_x_orientation o) a = Ok p) <-> pol_asked cr o p).
Proof.
  assert (NP : forall p l, cr_polarizations cr = l -> ~ tuples_have_pols cr ->
     (forall t s lt, cr_bls cr = Some (BlTuples lt) -> In t lt -> ~ tuple_pol u t s) ->
     ((exists asked a, l = Some asked /\ In a asked /\ pol_number (so_x_orientation o) a = Ok p) <-> pol_asked cr o p)).
  { intros p l El NT NTP. unfold pol_asked. split.
    - intros (asked & a & E & I & N). right. split; [exact NT|]. exists asked. split; [congruence|].
      destruct a as [n | s]; simpl in N; [injection N as <-; auto | right; eauto].
    - intros [(lt & t & s & E & I & T & _) | (_ & l' & E & C)]; [exfalso; eapply NTP; eauto|].
      exists l'. destruct C as [I | (s & I & N)]; [exists (PolNum p) | exists (PolStr s)]; (split; [congruence|]); auto. }
  assert (NT0 : forall t s, (forall a b s', ~ In (a, b, Some s') t) -> forall x, In x t -> ~ tuple_pol u x s).
  { intros t s N [[a b] p] I T. unfold tuple_pol in T. destruct T as [(_ & ->) | (_ & s' & -> & _)]; eapply N; exact I. }
  unfold bls_inds. destruct (cr_bls cr) as [r|] eqn:Eb.
  - intros H. apply bind_Ok in H as (l & Hl & H). destruct l as [|t0 l'] eqn:El; [discriminate|]. rewrite <- El in *.
    destruct (forallb _ l && _); [discriminate|]. apply bind_Ok in H as ([rr pp] & Hr & H). injection H as <- <-.
    destruct (bls_rows_spec _ _ _ Hr) as (SR & SP & SE).
    split; [split; discriminate|].
    split. { intros i L. split.
             - intros A. specialize (A rr eq_refl). apply SR in A as (_ & A). split.
               + intros lt E. injection E as ->. simpl in Hl. injection Hl as <-. exact A.
               + intros ln E. injection E as ->.
                 assert (IN : forall b, In b ln -> In b (baseline_array u)).
                 { cbn [bls_tuples] in Hl. destruct (forallb (fun b => isinZ b (baseline_array u)) ln) eqn:F; [|discriminate].
                   intros b I. rewrite forallb_forall in F. apply isinZ_spec, F, I. }
                 apply (proj1 (nums_pairs ln l IN Hl) i L). exact A.
             - intros (A & B) r' E. injection E as <-. apply SR. split; [exact L|]. destruct r as [ln | lt].
               + assert (IN : forall b, In b ln -> In b (baseline_array u)).
                 { cbn [bls_tuples] in Hl. destruct (forallb (fun b => isinZ b (baseline_array u)) ln) eqn:F; [|discriminate].
                   intros b I. rewrite forallb_forall in F. apply isinZ_spec, F, I. }
                 apply (proj1 (nums_pairs ln l IN Hl) i L). apply B. reflexivity.
               + simpl in Hl. injection Hl as <-. apply A. reflexivity. }
    split. { intros r' i E I. injection E as <-. apply SR in I. tauto. }
    destruct r as [ln | lt].
    + assert (IN : forall b, In b ln -> In b (baseline_array u)).
      { cbn [bls_tuples] in Hl. destruct (forallb (fun b => isinZ b (baseline_array u)) ln) eqn:F; [|discriminate].
        intros b I. rewrite forallb_forall in F. apply isinZ_spec, F, I. }
      pose proof (proj2 (nums_pairs ln l IN Hl)) as NS. rewrite (proj2 SE NS).
      assert (NT : ~ tuples_have_pols cr) by (intros (x & a & b & s & E & _); congruence).
      split.
      * unfold restricts_pols. split; [intros E [T | T]; [contradiction | congruence] | intros N; destruct (cr_polarizations cr); [exfalso; apply N; right; discriminate | reflexivity]].
      * intros p. apply NP; [reflexivity | exact NT | intros t s lt' E; congruence].
    + simpl in Hl. injection Hl as ->. destruct pp as [|s0 pp'] eqn:Ep.
      * pose proof (proj1 SE eq_refl) as NS.
        assert (NT : ~ tuples_have_pols cr). { intros (x & a & b & s & E & I). rewrite Eb in E. injection E as <-. apply (NS a b s I). }
        split.
        -- unfold restricts_pols. split; [intros E [T | T]; [contradiction | congruence] | intros N; destruct (cr_polarizations cr); [exfalso; apply N; right; discriminate | reflexivity]].
        -- intros p. apply NP; [reflexivity | exact NT|]. intros t s lt' E I. injection E as <-. apply (NT0 _ s NS _ I).
      * rewrite <- Ep in *. assert (NE : pp <> []) by (rewrite Ep; discriminate). clear Ep.
        assert (HT : tuples_have_pols cr).
        { destruct pp as [|s pp'']; [congruence|]. destruct (proj1 (SP s)) as ([[a b] q] & I & T); [left; reflexivity|].
          unfold tuple_pol in T. destruct T as [(_ & ->) | (_ & s' & -> & _)]; exists l, a, b; eexists; (split; [exact Eb | exact I]). }
        split.
        -- split; [discriminate | intros N; exfalso; apply N; left; exact HT].
        -- intros p. unfold pol_asked. split.
           ++ intros (asked & a & E & I & N). injection E as <-. apply in_map_iff in I as (s & <- & I). apply SP in I as (t & I & T).
              left. exists l, t, s. auto.
           ++ intros [(lt' & t & s & E & I & T & N) | (NT & _)]; [|contradiction]. rewrite Eb in E. injection E as <-.
              exists (map PolStr pp), (PolStr s). split; [reflexivity|]. split; [apply in_map, SP; eauto | exact N].
  - intros H. injection H as <- <-. split; [tauto|]. split.
    { intros i L. split; [intros _; split; discriminate | intros _ r E; discriminate]. }
    split; [discriminate|].
    assert (NT : ~ tuples_have_pols cr) by (intros (x & a & b & s & E & _); congruence).
    split.
    + unfold restricts_pols. split; [intros E [T | T]; [contradiction | congruence] | intros N; destruct (cr_polarizations cr); [exfalso; apply N; right; discriminate | reflexivity]].
    + intros p. apply NP; [reflexivity | exact NT | intros t s lt E; congruence].
Qed.

Lemma final_rows_spec n inds rows : final_rows n inds = Ok rows ->
  (rows = None <-> inds = None) /\
  forall r, rows = Some r -> StronglySorted lt r /\ forall i, In i r <-> (i < n)%nat /\ holds inds (Z.of_nat i).
Proof.
  unfold final_rows. destruct inds as [[|x l]|]; try discriminate.
  - set (L := x :: l). destruct (existsb _ L) eqn:E1; [discriminate|]. destruct (existsb (fun i => i <? 0) L) eqn:E2; [discriminate|].
    intros H. injection H as <-. split; [split; discriminate|]. intros r E. injection E as <-.
    assert (B : forall z, In z L -> 0 <= z < Z.of_nat n).
    { intros z I. assert (F1 := E1). assert (F2 := E2). split.
      - destruct (z <? 0) eqn:E; [|apply Z.ltb_ge in E; exact E]. assert (existsb (fun i => i <? 0) L = true) by (apply existsb_exists; eauto). congruence.
      - destruct (Z.of_nat n <=? z) eqn:E; [|apply Z.leb_gt in E; exact E]. assert (existsb (fun i => Z.of_nat n <=? i) L = true) by (apply existsb_exists; eauto). congruence. }
    split.
    + pose proof (uniqueZ_sorted L) as S. assert (P : forall z, In z (uniqueZ L) -> 0 <= z) by (intros z I; apply (proj1 (uniqueZ_In _ _)) in I; apply B in I; lia).
      change (StronglySorted lt (map Z.to_nat (uniqueZ L))). revert S P. generalize (uniqueZ L). intros q S P. induction S as [|z t S IH F]; simpl; constructor.
      * apply IH. intros w I. apply P. right; exact I.
      * apply Forall_forall. intros y I. apply in_map_iff in I as (w & <- & I). rewrite Forall_forall in F. specialize (F w I).
        specialize (P z (or_introl eq_refl)). lia.
    + intros i. change (In i (map Z.to_nat (uniqueZ L)) <-> (i < n)%nat /\ holds (Some L) (Z.of_nat i)). rewrite holds_Some, in_map_iff. split.
      * intros (z & <- & I). apply (proj1 (uniqueZ_In _ _)) in I. pose proof (B z I). rewrite Z2Nat.id by lia. split; [lia | exact I].
      * intros (Li & I). exists (Z.of_nat i). split; [apply Nat2Z.id | apply uniqueZ_In, I].
  - intros H. injection H as <-. split; [tauto | discriminate].
Qed.

Theorem select_rows_spec two_pi tols lst_tols rows asked : select_rows two_pi tols lst_tols cr o = Ok (rows, asked) ->
  (rows = None <-> ~ restricts_rows cr) /\
  (forall r, rows = Some r -> positions_of (Nblts u) (row_wanted two_pi tols lst_tols cr o) r) /\
  (rows = None -> forall i, (i < Nblts u)%nat -> row_wanted two_pi tols lst_tols cr o i) /\
  (asked = None <-> ~ restricts_pols cr) /\
  (forall p, (exists l a, asked = Some l /\ In a l /\ pol_number (so_x_orientation o) a = Ok p) <-> pol_asked cr o p).
Proof.
  unfold select_rows. fold u. intros H.
  apply bind_Ok in H as (inds & Hp & H). apply bind_Ok in H as (nums & Hn & H). apply bind_Ok in H as (ants & Ha & H).
  apply bind_Ok in H as ([bls pols] & Hb & H). apply bind_Ok in H as (inds' & Ht & H). apply bind_Ok in H as (rows' & Hf & H).
  injection H as <- <-.
  destruct (phase_inds_spec _ _ Hp) as (PN & PS). destruct (antenna_list_spec _ Hn) as (AN & AS).
  destruct (bls_inds_spec _ _ Hb) as (BN & BS & BL & BP & BA). destruct (final_rows_spec _ _ _ Hf) as (FN & FS).
  (* the antenna list *)
  assert (ANS : (ants = None <-> cr_antenna_nums cr = None /\ cr_antenna_names cr = None) /\
     (forall r i, ants = Some r -> In i r -> (i < Nblts u)%nat) /\
     forall i, (i < Nblts u)%nat -> ((forall r, ants = Some r -> In i r) <->
       (forall l, cr_antenna_nums cr = Some l -> In (ant1 u i) l /\ In (ant2 u i) l) /\
       (forall l, cr_antenna_names cr = Some l -> (exists s, In s l /\ antenna_called o s (ant1 u i)) /\ (exists s, In s l /\ antenna_called o s (ant2 u i))))).
  { destruct nums as [ns|].
    - apply bind_Ok in Ha as (r & Hr & E). injection E as <-. pose proof (antenna_rows_spec _ _ Hr) as S.
      split; [split; [discriminate | intros E; apply AN in E; discriminate]|]. split; [intros r' i E I; injection E as <-; apply S in I; tauto|].
      intros i L. split.
      + intros A. specialize (A r eq_refl). apply S in A as (_ & A1 & A2).
        destruct (proj1 (AS (ant1 u i))) as (X1 & Y1); [intros l E; injection E as <-; exact A1|].
        destruct (proj1 (AS (ant2 u i))) as (X2 & Y2); [intros l E; injection E as <-; exact A2|].
        split; intros l E; split; auto.
      + intros (A & B) r' E. injection E as <-. apply S. split; [exact L|]. split.
        * apply (proj2 (AS (ant1 u i))); [|reflexivity]. split; intros l E; [apply (A l E) | apply (B l E)].
        * apply (proj2 (AS (ant2 u i))); [|reflexivity]. split; intros l E; [apply (A l E) | apply (B l E)].
    - injection Ha as <-. destruct (proj1 AN eq_refl) as (E1 & E2). split; [tauto|]. split; [discriminate|].
      intros i L. split; [intros _; split; intros l E; congruence | intros _ r E; discriminate]. }
  destruct ANS as (AN' & AL & AS').
  set (inds2 := ant_inds ants bls inds) in *.
  assert (I2 : (inds2 = None <-> inds = None /\ ants = None /\ bls = None) /\
    forall i, (i < Nblts u)%nat -> (holds inds2 (Z.of_nat i) <-> holds inds (Z.of_nat i) /\ (forall r, ants = Some r -> In i r) /\ (forall r, bls = Some r -> In i r))).
  { unfold inds2, ant_inds. destruct ants as [ra|], bls as [rb|].
    - split; [split; [discriminate | intros (_ & E & _); discriminate]|]. intros i L. rewrite holds_Some, join_In, inter_In, !where_inds_In. split.
      + intros (A & B & C). split; [exact A|]. split; intros r E; injection E as <-; assumption.
      + intros (A & B & C). auto.
    - split; [split; [discriminate | intros (_ & E & _); discriminate]|]. intros i L. rewrite holds_Some, join_In, !where_inds_In. split.
      + intros (A & B). split; [exact A|]. split; intros r E; [injection E as <-; assumption | discriminate].
      + intros (A & B & _). auto.
    - split; [split; [discriminate | intros (_ & _ & E); discriminate]|]. intros i L. rewrite holds_Some, join_In, !where_inds_In. split.
      + intros (A & B). split; [exact A|]. split; intros r E; [discriminate | injection E as <-; assumption].
      + intros (A & _ & B). auto.
    - split; [tauto|]. intros i L. split; [intros A; split; [exact A | split; discriminate] | tauto]. }
  destruct I2 as (I2N & I2S).
  assert (I3 : (inds' = None <-> inds2 = None /\ no_time_criterion (cr_time cr)) /\
    forall i, (i < Nblts u)%nat -> (holds inds' (Z.of_nat i) <-> holds inds2 (Z.of_nat i) /\
      wanted_time two_pi (cr_time cr) tols lst_tols (nth i (time_array u) 0) (nth i (lst_array u) 0))).
  { unfold time_inds in Ht. apply bind_Ok in Ht as (t & Hh & Ht). destruct t as [r|]; injection Ht as <-.
    - split.
      + split; [discriminate|]. intros (_ & N). apply (times_none two_pi _ (TimeArray (time_array u)) (TimeArray (lst_array u)) tols lst_tols) in N. congruence.
      + intros i L. rewrite holds_Some, join_In, where_inds_In. rewrite (times_exact _ _ _ _ _ _ _ len_lst Hh i). unfold Nblts in L. tauto.
    - apply times_none in Hh. split; [tauto|]. intros i L. split; [intros A; split; [exact A|] | tauto].
      destruct Hh as (A1 & A2 & A3 & A4). unfold wanted_time. rewrite A1, A2, A3, A4. repeat split; discriminate. }
  destruct I3 as (I3N & I3S).
  assert (W : forall i, (i < Nblts u)%nat -> (holds inds' (Z.of_nat i) <-> row_wanted two_pi tols lst_tols cr o i)).
  { intros i L. rewrite (I3S i L), (I2S i L), (PS i L), (AS' i L), (BS i L). unfold row_wanted, holds. fold u. tauto. }
  assert (RN : inds' = None <-> ~ restricts_rows cr).
  { rewrite I3N, I2N, PN, AN', BN. unfold restricts_rows. split.
    - intros (((E1 & E2 & E3) & (E4 & E5) & E6) & T) R. rewrite E1, E2, E3, E4, E5, E6 in R. destruct R as [R|[R|[R|[R|[R|[R|R]]]]]]; contradiction R; reflexivity || exact T.
    - intros N.
      assert (D : forall A (x : option A), ~ x <> None -> x = None) by (intros A [x|] F; [exfalso; apply F; discriminate | reflexivity]).
      assert (T : no_time_criterion (cr_time cr)).
      { unfold no_time_criterion. unfold restricts_rows, no_time_criterion in N.
        destruct (cr_time cr) as [[a|] [b|] [c|] [d|]]; simpl in *; repeat split; exfalso; apply N; do 6 right; intros (F1 & F2 & F3 & F4); discriminate. }
      split; [|exact T]. repeat split; apply D; intros F; apply N; clear - F; tauto. }
  split; [rewrite FN; exact RN|]. split.
  - intros r E. destruct (FS r E) as (S1 & S2). split; [exact S1|]. intros i. rewrite S2. split; intros (L & A); (split; [exact L|]); apply (W i L); exact A.
  - split; [|split; [exact BP | exact BA]]. intros E i L. apply (W i L). apply FN in E. rewrite E. apply holds_None.
Qed.
End Rows.
