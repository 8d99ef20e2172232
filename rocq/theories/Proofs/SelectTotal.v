(** When select succeeds, and the consequences of what it keeps. *)
From Coq Require Import List ZArith Bool Arith QArith String Lia Sorted.
From Verif Require Import Lib.Py Lib.Np Lib.Cube Lib.Sorting Model.Bls Model.Tools Model.Pol Model.UVData Model.Reorder Model.Freq Model.PhaseCenter Model.FlexPol Model.Times Model.Select
  Spec.BltSpec Spec.BlsSpec Spec.UVDataSpec Spec.FreqSpec Spec.TimesSpec Spec.AccessSpec Spec.SelectSpec
  Proofs.BlsProofs Proofs.TimesProofs Proofs.AccessProofs Proofs.ReorderProofs Proofs.PhaseSplit Proofs.SelectRows Proofs.SelectProofs.
Import ListNotations.
Notation length := List.length.
Open Scope Z_scope.
Open Scope list_scope.

Lemma mapM_total {A B} (f : A -> result B) l : (forall x, In x l -> exists y, f x = Ok y) -> exists ys, mapM f l = Ok ys.
Proof.
  induction l as [|x l IH]; intros H; [exists []; reflexivity|].
  destruct (H x (or_introl eq_refl)) as (y & Hy). destruct IH as (ys & Hys); [intros z I; apply H; right; exact I|].
  exists (y :: ys). cbn [mapM]. rewrite Hy. cbn [bind]. rewrite Hys. reflexivity.
Qed.

Section Total.
Variables (cr : criteria) (o : selobj).
Let u := so_uvd o.
Hypothesis OK : sel_ok o.

Lemma name_num_total s n : antenna_called o s n -> name_num o s = Ok n.
Proof.
  intros A. pose proof A as (k & L & E & En). unfold name_num.
  destruct (index_of String.eqb s (so_antenna_names o)) as [k'|] eqn:X.
  - apply (index_of_Some String.eqb String.eqb_eq EmptyString) in X as (L' & E' & _).
    assert (k' = k) as ->. { apply (proj1 (NoDup_nth (so_antenna_names o) EmptyString)); [apply OK | exact L' | exact L | congruence]. }
    assert (LN : length (so_antenna_names o) = length (so_antenna_numbers o)) by apply OK.
    destruct (nth_error (so_antenna_numbers o) k) as [m|] eqn:Y.
    + apply (nth_error_nth _ _ 0) in Y. congruence.
    + apply nth_error_None in Y. lia.
  - exfalso. apply (index_of_None String.eqb String.eqb_eq) in X. apply X. rewrite <- E. apply nth_In, L.
Qed.

Lemma antenna_rows_total nums : (forall n, In n nums -> In n (ant_1_array u ++ ant_2_array u)) -> exists r, antenna_rows u nums = Ok r.
Proof.
  intros H. unfold antenna_rows.
  assert (E : forallb (fun n => isinZ n (ant_1_array u) || isinZ n (ant_2_array u)) nums = true).
  { apply forallb_forall. intros n I. apply H, in_app_iff in I. apply orb_true_iff. destruct I as [I | I]; [left | right]; apply isinZ_spec, I. }
  rewrite E. eauto.
Qed.

Lemma bls_rows_total l : (forall a b p, In (a, b, p) l -> stored u a b \/ stored u b a) ->
  (forall a b s, In (a, b, Some s) l -> exists s', tuple_pol u (a, b, Some s) s') -> exists r, bls_rows u l = Ok r.
Proof.
  induction l as [|[[a b] p] l IH]; intros HS HP; [eexists; reflexivity|].
  destruct IH as ([r2 p2] & E2). { intros a' b' p' I. apply (HS a' b' p'). right; exact I. } { intros a' b' s I. apply HP. right; exact I. }
  cbn [bls_rows]. rewrite E2. destruct (rows_of u a b) as [|x w] eqn:E.
  - pose proof (proj1 (rows_of_nil o OK a b) E) as N. destruct (HS a b p (or_introl eq_refl)) as [S | S]; [contradiction|].
    destruct (rows_of u b a) as [|y w'] eqn:E'; [apply (rows_of_nil o OK) in E'; contradiction|].
    destruct p as [s|]; [|eexists; reflexivity].
    destruct (HP a b s (or_introl eq_refl)) as (s' & [(S' & _) | (_ & s2 & Es & C)]); [contradiction|]. injection Es as <-. rewrite C. eexists; reflexivity.
  - eexists; reflexivity.
Qed.

Lemma bls_tuples_total l : l <> [] -> (forall b, In b l -> In b (baseline_array u)) ->
  exists t, bls_tuples u (BlNums l) = Ok t /\ t <> [] /\ forall a b p, In (a, b, p) t -> stored u a b /\ p = None.
Proof.
  intros NE IN. destruct OK as (_ & (m & off & Henc & Hcode) & _ & _ & HN & _). fold u in Hcode, HN.
  assert (LB : length (baseline_array u) = Nblts u) by (apply (len_bl o OK)).
  assert (C : forall b, In b l -> exists i, (i < Nblts u)%nat /\ 0 <= ant1 u i < m /\ 0 <= ant2 u i < m /\ b = m * ant1 u i + ant2 u i + off).
  { intros b I. apply IN in I. apply (In_nth _ _ 0) in I as (i & L & <-). rewrite LB in L. exists i. split; [exact L|]. apply Hcode, L. }
  unfold bls_tuples. assert (F : forallb (fun b => isinZ b (baseline_array u)) l = true) by (apply forallb_forall; intros b I; apply isinZ_spec, IN, I).
  rewrite F. destruct l as [|b0 l0] eqn:El; [congruence|]. rewrite <- El in *.
  rewrite (decode_regime m off l _ Henc NE HN).
  - cbn [bind]. eexists. split; [reflexivity|]. split; [rewrite El; discriminate|].
    intros a b p I. apply in_map_iff in I as ((x & y) & E & I). injection E as <- <- <-. split; [|reflexivity]. cbn [fst snd].
    assert (I' : exists c, In c l /\ x = (c - off) / m /\ y = (c - off) mod m).
    { clear - I. induction l as [|c l IH]; simpl in I; [destruct I|]. destruct I as [E | I].
      - injection E as <- <-. exists c. simpl; auto.
      - destruct (IH I) as (d & Id & E). exists d. simpl; auto. }
    destruct I' as (c & Ic & -> & ->). destruct (C c Ic) as (i & L & A & B & ->). exists i. split; [exact L|].
    rewrite div_enc, mod_enc by assumption. auto.
  - apply Forall_forall. intros b I. destruct (C b I) as (i & L & A & B & ->). unfold in_regime. assert (1 <= m) by (destruct Henc; lia). nia.
Qed.

Lemma bls_inds_total two_pi tols lst_tols : rows_request_ok two_pi tols lst_tols cr o -> pols_request_ok cr o -> exists r, bls_inds cr u = Ok r.
Proof.
  intros (_ & _ & _ & _ & _ & RN & RT & _) (PX & _ & _ & PT). fold u in RN, RT, PT. unfold bls_inds. destruct (cr_bls cr) as [[l|l]|] eqn:Eb; [| |eauto].
  - destruct (RN l eq_refl) as (NE & IN). destruct (bls_tuples_total l NE IN) as (t & Et & Nt & St). rewrite Et. cbn [bind].
    destruct t as [|t0 t'] eqn:El; [congruence|]. rewrite <- El in *.
    assert (F : forallb (fun t => match snd t with Some _ => true | None => false end) t = false).
    { rewrite El. cbn [forallb]. destruct t0 as [[a b] p]. destruct (St a b p) as (_ & ->); [rewrite El; left; reflexivity|]. reflexivity. }
    rewrite F. cbn [andb]. destruct (bls_rows_total t) as ([r p] & E).
    + intros a b p I. left. apply (St a b p I).
    + intros a b s I. destruct (St a b _ I) as (_ & E). discriminate.
    + rewrite E. eexists; reflexivity.
  - destruct (RT l eq_refl) as (NE & IN). cbn [bls_tuples bind]. destruct l as [|t0 l'] eqn:El; [congruence|]. rewrite <- El in *.
    assert (F : forallb (fun t => match snd t with Some _ => true | None => false end) l && match cr_polarizations cr with Some _ => true | None => false end = false).
    { apply andb_false_iff. destruct (cr_polarizations cr) eqn:Ep; [|right; reflexivity]. left.
      destruct (forallb _ l) eqn:X; [|reflexivity]. exfalso. rewrite forallb_forall in X. specialize (X t0). rewrite El in X.
      destruct t0 as [[a b] [s|]]; [|specialize (X (or_introl eq_refl)); discriminate].
      assert (T : tuples_have_pols cr) by (exists l, a, b, s; rewrite Eb, El; simpl; auto). apply PX in T. congruence. }
    rewrite F. destruct (bls_rows_total l IN) as ([r p] & E).
    + intros a b s I. destruct (PT l a b s eq_refl I) as (s' & n & T & _). eauto.
    + rewrite E. eexists; reflexivity.
Qed.

Lemma select_rows_total two_pi tols lst_tols : rows_request_ok two_pi tols lst_tols cr o -> pols_request_ok cr o ->
  (restricts_rows cr -> exists i, (i < Nblts u)%nat /\ row_wanted two_pi tols lst_tols cr o i) ->
  exists r, select_rows two_pi tols lst_tols cr o = Ok r.
Proof.
  intros RR PR W. destruct (bls_inds_total _ _ _ RR PR) as ([bls pols] & Hb).
  pose proof RR as (R1 & R2 & R3 & R4 & R5 & _ & _ & R8). fold u in R3, R4, R5, R8.
  destruct (phase_inds cr o (cr_blt_inds cr)) as [inds|e] eqn:Hp.
  2:{ exfalso. unfold phase_inds in Hp. destruct R1 as [E | E]; rewrite E in Hp; [destruct (cr_catalog_names cr) | destruct (cr_phase_center_ids cr)]; discriminate. }
  assert (NN : exists nums ants, antenna_list cr o = Ok nums /\ match nums with None => Ok None | Some nums => do r <- antenna_rows u nums; Ok (Some r) end = Ok ants).
  { unfold antenna_list. destruct (cr_antenna_names cr) as [names|] eqn:En.
    - destruct R2 as [-> | E]; [|discriminate].
      assert (M : exists ns, mapM (name_num o) names = Ok ns).
      { apply mapM_total. intros s I. destruct (R5 names s eq_refl I) as (n & A & _). exists n. apply name_num_total, A. }
      destruct M as (ns & M). rewrite M. cbn [bind]. exists (Some ns).
      destruct (antenna_rows_total ns) as (r & Er).
      + intros n I. apply mapM_Ok_Forall2 in M. clear - M I R5 OK. assert (X : forall s, In s names -> exists n, name_num o s = Ok n /\ In n (ant_1_array u ++ ant_2_array u)).
        { intros s Is. destruct (R5 names s eq_refl Is) as (m & A & B). exists m. split; [apply name_num_total, A | exact B]. }
        induction M as [|s m names ns Hs _ IH]; [destruct I|]. destruct I as [<- | I].
        * destruct (X s (or_introl eq_refl)) as (k & E & B). congruence.
        * apply IH; [|exact I|].
          -- intros l s' E I'. injection E as <-. apply (R5 (s :: names) s' eq_refl). right; exact I'.
          -- intros s' I'. apply X. right; exact I'.
      + exists (Some r). rewrite Er. auto.
    - destruct (cr_antenna_nums cr) as [ns|] eqn:Em.
      + destruct (antenna_rows_total ns (fun n => R4 ns n eq_refl)) as (r & Er). exists (Some ns), (Some r). rewrite Er. auto.
      + exists None, None. auto. }
  destruct NN as (nums & ants & Hn & Ha).
  assert (TT : exists inds', time_inds two_pi tols lst_tols cr u (ant_inds ants bls inds) = Ok inds').
  { unfold time_inds. destruct R8 as [N | (N1 & N2)].
    - apply (times_none two_pi _ (TimeArray (time_array u)) (TimeArray (lst_array u)) tols lst_tols) in N. rewrite N. eexists; reflexivity.
    - destruct (proj2 (times_total two_pi (cr_time cr) (time_array u) (lst_array u) tols lst_tols) (conj N1 N2)) as (r & E).
      rewrite E. eexists; reflexivity. }
  destruct TT as (inds' & Ht).
  assert (SR : forall rows, final_rows (Nblts u) inds' = Ok rows -> select_rows two_pi tols lst_tols cr o = Ok (rows, pols)).
  { intros rows Hf. unfold select_rows. fold u. rewrite Hp. cbn [bind]. rewrite Hn. cbn [bind]. rewrite Ha. cbn [bind]. rewrite Hb. cbn [bind].
    rewrite Ht. cbn [bind]. rewrite Hf. reflexivity. }
  destruct (final_rows (Nblts u) inds') as [rows|e] eqn:Hf; [exists (rows, pols); apply SR; reflexivity|]. exfalso.
  (* everything in the list is a row *)
  assert (LA : forall r i, ants = Some r -> In i r -> (i < Nblts u)%nat).
  { intros r i E I. destruct nums as [ns|]; [|congruence]. apply bind_Ok in Ha as (r' & Hr & E'). rewrite E in E'. injection E' as ->.
    apply (antenna_rows_spec o OK _ _ Hr) in I. tauto. }
  assert (LB : forall r i, bls = Some r -> In i r -> (i < Nblts u)%nat) by (apply (bls_inds_spec cr o OK _ _ Hb)).
  assert (L1 : forall l z, inds = Some l -> In z l -> 0 <= z < Z.of_nat (Nblts u)).
  { intros l z E I. unfold phase_inds in Hp.
    assert (J : forall f, In z (join (cr_blt_inds cr) (where_inds (nonzero f (phase_center_id_array u)))) -> 0 <= z < Z.of_nat (Nblts u)).
    { intros f J. apply join_In in J as (_ & J). unfold where_inds in J. apply in_map_iff in J as (j & <- & J).
      apply (nonzero_spec 0) in J as (J & _). pose proof (len_pc o OK) as LP. fold u in LP. rewrite LP in J. lia. }
    destruct (cr_phase_center_ids cr) as [ids|], (cr_catalog_names cr) as [nm|]; try discriminate; injection Hp as <-.
    - injection E as <-. apply (J _ I).
    - injection E as <-. apply (J _ I).
    - apply (R3 l z E I). }
  assert (L2 : forall l z, ant_inds ants bls inds = Some l -> In z l -> 0 <= z < Z.of_nat (Nblts u)).
  { intros l z E I. unfold ant_inds in E. destruct ants as [ra|], bls as [rb|].
    - injection E as <-. apply join_In in I as (_ & I). apply inter_In in I as (I & _). unfold where_inds in I. apply in_map_iff in I as (j & <- & I).
      specialize (LA ra j eq_refl I). lia.
    - injection E as <-. apply join_In in I as (_ & I). unfold where_inds in I. apply in_map_iff in I as (j & <- & I). specialize (LA ra j eq_refl I). lia.
    - injection E as <-. apply join_In in I as (_ & I). unfold where_inds in I. apply in_map_iff in I as (j & <- & I). specialize (LB rb j eq_refl I). lia.
    - apply (L1 l z E I). }
  assert (L3 : forall l z, inds' = Some l -> In z l -> 0 <= z < Z.of_nat (Nblts u)).
  { intros l z E I. unfold time_inds in Ht. apply bind_Ok in Ht as (t & Hh & Ht). destruct t as [r|]; injection Ht as <-.
    - injection E as <-. apply join_In in I as (_ & I). unfold where_inds in I. apply in_map_iff in I as (j & <- & I).
      apply (times_exact _ _ _ _ _ _ _ (len_lst o OK) Hh) in I as (I & _). fold u in I. unfold Nblts. lia.
    - apply (L2 l z E I). }
  assert (NE : inds' <> Some []).
  { intros E. destruct W as (i & L & Wi).
    - (* some criterion is given *)
      destruct (phase_inds_spec cr o OK _ _ Hp) as (PN & _). destruct (antenna_list_spec cr o OK _ Hn) as (AN & _).
      destruct (bls_inds_spec cr o OK _ _ Hb) as (BN & _).
      assert (D : forall A (x : option A), x = None \/ x <> None) by (intros A [x|]; [right; discriminate | left; reflexivity]).
      unfold restricts_rows.
      destruct (D _ (cr_blt_inds cr)) as [D1|D1]; [|tauto]. destruct (D _ (cr_phase_center_ids cr)) as [D2|D2]; [|tauto].
      destruct (D _ (cr_catalog_names cr)) as [D3|D3]; [|tauto]. destruct (D _ (cr_antenna_nums cr)) as [D4|D4]; [|tauto].
      destruct (D _ (cr_antenna_names cr)) as [D5|D5]; [|tauto]. destruct (D _ (cr_bls cr)) as [D6|D6]; [|tauto].
      do 6 right. intros NT. apply (times_none two_pi _ (TimeArray (time_array u)) (TimeArray (lst_array u)) tols lst_tols) in NT.
      unfold time_inds in Ht. rewrite NT in Ht. cbn [bind] in Ht. injection Ht as Ht. rewrite (proj2 PN) in Ht by auto.
      assert (NN : nums = None) by (apply AN; auto). rewrite NN in Ha. injection Ha as <-. rewrite (proj2 BN) in Ht by auto. simpl in Ht. congruence.
    - (* the wanted row is in the list *)
      set (ok_rows := Some [i]). assert (H : holds inds' (Z.of_nat i)).
      { destruct (phase_inds_spec cr o OK _ _ Hp) as (_ & PS). destruct (antenna_list_spec cr o OK _ Hn) as (_ & AS).
        destruct (bls_inds_spec cr o OK _ _ Hb) as (_ & BS & _).
        destruct Wi as (W1 & W2 & W3 & W4 & W5 & W6 & W7 & W8). fold u in W2, W3, W4, W5, W6, W7, W8.
        assert (HP : holds inds (Z.of_nat i)) by (apply (PS i L); split; [exact W1|]; split; [exact W2 | exact W3]).
        assert (HB : forall r, bls = Some r -> In i r) by (apply (BS i L); split; [exact W6 | exact W7]).
        assert (HA : forall r, ants = Some r -> In i r).
        { intros r Er. destruct nums as [ns|]; [|congruence]. apply bind_Ok in Ha as (r' & Hr & E'). rewrite Er in E'. injection E' as ->.
          apply (antenna_rows_spec o OK _ _ Hr). split; [exact L|]. split.
          - apply (proj2 (AS (ant1 u i))); [|reflexivity]. split; intros l El; [apply (W4 l El) | apply (W5 l El)].
          - apply (proj2 (AS (ant2 u i))); [|reflexivity]. split; intros l El; [apply (W4 l El) | apply (W5 l El)]. }
        assert (H2 : holds (ant_inds ants bls inds) (Z.of_nat i)).
        { unfold ant_inds. destruct ants as [ra|], bls as [rb|].
          - apply holds_Some, join_In. split; [exact HP|]. apply inter_In. split; apply where_inds_In; auto.
          - apply holds_Some, join_In. split; [exact HP|]. apply where_inds_In; auto.
          - apply holds_Some, join_In. split; [exact HP|]. apply where_inds_In; auto.
          - exact HP. }
        unfold time_inds in Ht. apply bind_Ok in Ht as (t & Hh & Ht). destruct t as [r|]; injection Ht as <-; [|exact H2].
        apply holds_Some, join_In. split; [exact H2|]. apply where_inds_In.
        apply (times_exact _ _ _ _ _ _ _ (len_lst o OK) Hh). split; [exact L | exact W8]. }
      rewrite E in H. apply holds_Some in H. exact H. }
  unfold final_rows in Hf. destruct inds' as [[|x l]|]; [congruence| |discriminate].
  destruct (existsb (fun i => Z.of_nat (Nblts u) <=? i) (x :: l)) eqn:E1.
  { apply existsb_exists in E1 as (z & I & E1). apply (L3 _ _ eq_refl) in I. lia. }
  destruct (existsb (fun i => i <? 0) (x :: l)) eqn:E2; [|discriminate].
  apply existsb_exists in E2 as (z & I & E2). apply (L3 _ _ eq_refl) in I. lia.
Qed.

Lemma separations_some inds j j' : StronglySorted lt inds -> In j inds -> In j' inds -> (j < j')%nat ->
  (forall x, In x inds -> ~ (j < x < j')%nat) -> nth j (flex_spw_id_array u) 0 = nth j' (flex_spw_id_array u) 0 -> separations u inds <> [].
Proof.
  intros S. induction S as [|i t S IH F]; [intros []|]. intros Ij Ij' L NB E. cbn [separations].
  destruct t as [|y t'] eqn:Et; [simpl in *; lia|]. rewrite <- Et in *.
  destruct (nth y (flex_spw_id_array u) 0 - nth i (flex_spw_id_array u) 0 =? 0) eqn:X; [discriminate|].
  destruct Ij as [<- | Ij].
  - exfalso. assert (y = j') as ->; [|lia]. destruct Ij' as [-> | Ij']; [lia|].
    rewrite Forall_forall in F. assert (Iy : In y t) by (rewrite Et; left; reflexivity). pose proof (F y Iy). specialize (NB y (or_intror Iy)).
    rewrite Et in S. rewrite Et in Ij'. destruct Ij' as [-> | Ij']; [reflexivity|]. inversion S as [|? ? ? FF]. rewrite Forall_forall in FF. specialize (FF _ Ij'). lia.
  - apply IH; [exact Ij | | exact L | | exact E].
    + destruct Ij' as [<- | Ij']; [|exact Ij']. rewrite Forall_forall in F. specialize (F _ Ij). lia.
    + intros x I. apply NB. right; exact I.
Qed.

Lemma test_constant_nonempty l r a : l <> [] -> exists b, test_array_constant l r a = Ok b.
Proof. intros N. unfold test_array_constant. destruct l as [|x l]; [congruence|]. destruct (length (x :: l) =? 1)%nat; [eauto|]. cbn [qmin qmax]. eauto. Qed.

Lemma select_freqs_total : freqs_request_ok cr u -> exists f, select_freqs cr u = Ok f.
Proof.
  intros (F1 & F2 & F3).
  assert (WF : exists fs, wanted_freqs cr u = Ok fs).
  { unfold wanted_freqs. destruct (cr_freq_chans cr) as [cs|]; [|eauto].
    destruct (mapM_total (fun c => match norm_index (Nfreqs u) c with Some j => Ok j | None => Err IndexError end) cs) as (p & Ep).
    - intros c I. destruct (F2 cs c eq_refl I) as (j & D). apply norm_index_iff in D. rewrite D. eauto.
    - rewrite Ep. cbn [bind]. destruct (cr_frequencies cr); eauto. }
  destruct WF as (fs & WF). unfold select_freqs. rewrite WF. cbn [bind]. destruct fs as [fs|]; [|eauto].
  destruct (wanted_freqs_spec _ _ _ WF) as (FN & FS).
  assert (A : forallb (fun f => isinZ f (freq_array u)) fs = true).
  { apply forallb_forall. intros f I. apply isinZ_spec. unfold wanted_freqs in WF. destruct (cr_freq_chans cr) as [cs|].
    - apply bind_Ok in WF as (pos & Hp & WF).
      assert (TK : forall x, In x (take 0 (freq_array u) pos) -> In x (freq_array u)).
      { intros x Ix. unfold take in Ix. apply in_map_iff in Ix as (k & <- & Ik). apply nth_In. apply mapM_Ok_Forall2 in Hp. clear - Hp Ik.
        induction Hp as [|c j cs js Hc _ IH]; [destruct Ik|]. destruct Ik as [<- | Ik]; [|auto].
        destruct (norm_index (Nfreqs u) c) as [q|] eqn:E; [|discriminate]. injection Hc as ->. apply norm_index_iff in E. apply E. }
      destruct (cr_frequencies cr) as [l|]; injection WF as <-.
      + apply (proj1 (uniqueZ_In _ _)), in_app_iff in I as [I | I]; [apply (F1 l f eq_refl I) | apply TK, I].
      + apply TK, I.
    - injection WF as WF. apply (F1 fs f WF I). }
  rewrite A. destruct (1 <? length fs)%nat eqn:LL; [|eexists; reflexivity].
  assert (NE : separations u (nonzero (fun f => isinZ f fs) (freq_array u)) <> []).
  { destruct F3 as [F3 | [(j & j' & L & Wj & Wj' & NB & E) | [(f & E1 & E2) | (c & E1 & E2)]]].
    - apply FN in F3. discriminate.
    - assert (IN : forall x, In x (nonzero (fun f => isinZ f fs) (freq_array u)) <-> (x < Nfreqs u)%nat /\ freq_wanted cr u x).
      { intros x. rewrite (nonzero_spec 0), isinZ_spec, (FS fs eq_refl). reflexivity. }
      apply (separations_some _ j j'); [apply nonzero_sorted | | | lia | | exact E].
      + apply IN. split; [lia | exact Wj].
      + apply IN. split; [lia | exact Wj'].
      + intros x I Lx. apply IN in I as (_ & I). apply (NB x Lx I).
    - unfold wanted_freqs in WF. rewrite E1, E2 in WF. injection WF as <-. discriminate.
    - unfold wanted_freqs in WF. rewrite E1, E2 in WF. apply bind_Ok in WF as (pos & Hp & WF). injection WF as <-.
      apply mapM_Ok_length in Hp. rewrite take_length, Hp in LL. discriminate. }
  destruct (test_constant_nonempty _ 0 0 NE) as (b & Eb). rewrite Eb. eexists; reflexivity.
Qed.

Lemma pol_places_total asked : (forall a, In a asked -> exists n, pol_number (so_x_orientation o) a = Ok n /\ In n (polarization_array u)) ->
  forall fp, exists ks, pol_places (so_x_orientation o) (polarization_array u) fp asked = Ok (ks, []).
Proof.
  intros H fp. induction asked as [|a asked IH]; [eexists; reflexivity|].
  destruct IH as (ks & E); [intros b I; apply H; right; exact I|]. destruct (H a (or_introl eq_refl)) as (n & En & I).
  cbn [pol_places]. rewrite En. cbn [bind]. apply isinZ_spec in I. rewrite I. cbn [bind]. rewrite E. eexists; reflexivity.
Qed.

Theorem select_succeeds two_pi tols lst_tols keep_all : flex_spw_polarization_array (so_freq o) = None ->
  rows_request_ok two_pi tols lst_tols cr o -> freqs_request_ok cr u -> pols_request_ok cr o ->
  (restricts_rows cr -> exists i, (i < Nblts u)%nat /\ row_wanted two_pi tols lst_tols cr o i) ->
  exists o', select two_pi tols lst_tols cr keep_all o = Ok o'.
Proof.
  intros FP RR FR PR W. destruct (select_rows_total _ _ _ RR PR W) as ([rows asked] & Hr). destruct (select_freqs_total FR) as (freqs & Hf).
  assert (HP : exists pols, select_pols o asked freqs = Ok (freqs, pols)).
  { unfold select_pols. fold u. destruct asked as [l|]; [|eexists; reflexivity].
    destruct (pol_places_total l) with (fp := flex_spw_polarization_array (so_freq o)) as (ks & E).
    - intros a I. unfold select_rows in Hr. fold u in Hr.
      apply bind_Ok in Hr as (i1 & _ & Hr). apply bind_Ok in Hr as (i2 & _ & Hr). apply bind_Ok in Hr as (i3 & _ & Hr).
      apply bind_Ok in Hr as ([bls pols] & Hb & Hr). apply bind_Ok in Hr as (i4 & _ & Hr). apply bind_Ok in Hr as (i5 & _ & Hr). injection Hr as <- ->.
      assert (AR : forall l', cr_polarizations cr = Some l' -> In a l' -> exists n, pol_number (so_x_orientation o) a = Ok n /\ In n (polarization_array u)).
      { destruct PR as (_ & P1 & P2 & _). intros l' E Ia. destruct a as [n|s]; [exists n; split; [reflexivity|]; eapply P1; eauto | apply (P2 l' s E Ia)]. }
      unfold bls_inds in Hb. destruct (cr_bls cr) as [r|] eqn:Eb; [|injection Hb as _ Hb; apply (AR l Hb I)].
      apply bind_Ok in Hb as (t & Ht & Hb). destruct t as [|t0 t'] eqn:Et; [discriminate|]. rewrite <- Et in *.
      destruct (forallb _ t && _); [discriminate|]. apply bind_Ok in Hb as ([rr pp] & Hbr & Hb). injection Hb as _ Hb.
      destruct (bls_rows_spec o OK _ _ _ Hbr) as (_ & SP & _).
      destruct pp as [|s0 pp'] eqn:Ep; [apply (AR l Hb I)|]. rewrite <- Ep in *. injection Hb as <-.
      apply in_map_iff in I as (s & <- & I). apply SP in I as ([[a b] p] & It & T).
      destruct r as [ln | lt].
      + exfalso. destruct RR as (_ & _ & _ & _ & _ & RN & _). destruct (RN ln Eb) as (_ & IN).
        pose proof (proj2 (nums_pairs o OK ln t IN Ht)) as NS. unfold tuple_pol in T. destruct T as [(_ & ->) | (_ & s' & -> & _)]; eapply NS; exact It.
      + simpl in Ht. injection Ht as ->. destruct PR as (_ & _ & _ & P3). cbn [pol_number].
        unfold tuple_pol in T. destruct T as [(ST & ->) | (ST & s' & -> & C)].
        * destruct (P3 t a b s Eb It) as (s2 & n & T2 & A & B). unfold tuple_pol in T2. destruct T2 as [(_ & E) | (N & _)]; [|contradiction].
          injection E as <-. eauto.
        * destruct (P3 t a b s' Eb It) as (s2 & n & T2 & A & B). unfold tuple_pol in T2. destruct T2 as [(N & _) | (_ & s3 & E & C3)]; [contradiction|].
          injection E as <-. assert (s2 = s) as -> by congruence. eauto.
    - rewrite E. eexists; reflexivity. }
  destruct HP as (pols & Hp). unfold select. rewrite Hr. cbn [bind]. fold u. rewrite Hf. cbn [bind]. rewrite Hp. cbn [bind].
  destruct OK as (SH & _ & _ & FO & _). set (o1 := select_by_index keep_all rows freqs pols o).
  assert (F1 : flex_spw_polarization_array (so_freq o1) = None).
  { destruct (index_windows keep_all rows freqs pols o FO) as (rw & _ & X). rewrite FP in X. exact X. }
  unfold after_select. destruct rows as [r|].
  - pose proof (index_blts keep_all (Some r) freqs pols o SH) as (B1 & _ & _ & _ & B5 & _). fold o1 in B1, B5. unfold picked, or_all in B1, B5.
    destruct (select_rows_spec _ _ OK _ _ _ _ _ Hr) as (RN & RS & _).
    destruct (set_rect_total true (so_uvd o1)) as (uu & Eu).
    + rewrite B1, B5, !map_length. reflexivity.
    + rewrite B1. destruct W as (i & L & Wi).
      * assert (DD : restricts_rows cr \/ ~ restricts_rows cr).
        { unfold restricts_rows, no_time_criterion.
          assert (D : forall A (x : option A), x = None \/ x <> None) by (intros A [x|]; [right; discriminate | left; reflexivity]).
          destruct (D _ (cr_blt_inds cr)) as [D1|D1]; [|tauto]. destruct (D _ (cr_phase_center_ids cr)) as [D2|D2]; [|tauto].
          destruct (D _ (cr_catalog_names cr)) as [D3|D3]; [|tauto]. destruct (D _ (cr_antenna_nums cr)) as [D4|D4]; [|tauto].
          destruct (D _ (cr_antenna_names cr)) as [D5|D5]; [|tauto]. destruct (D _ (cr_bls cr)) as [D6|D6]; [|tauto].
          destruct (D _ (rq_times (cr_time cr))) as [E1|E1]; [|tauto]. destruct (D _ (rq_time_range (cr_time cr))) as [E2|E2]; [|tauto].
          destruct (D _ (rq_lsts (cr_time cr))) as [E3|E3]; [|tauto]. destruct (D _ (rq_lst_range (cr_time cr))) as [E4|E4]; tauto. }
        destruct DD as [DD | DD]; [exact DD|]. apply RN in DD. discriminate.
      * destruct (RS r eq_refl) as (_ & IR). assert (I : In i r) by (apply IR; auto). destruct r; [destruct I | discriminate].
    + fold (so_uvd o1). rewrite Eu. cbn [bind]. cbn [flex_spw_polarization_array]. rewrite F1. eexists; reflexivity.
  - cbn [bind]. cbn [flex_spw_polarization_array]. rewrite F1. eexists; reflexivity.
Qed.

Theorem select_empty two_pi tols lst_tols keep_all : restricts_rows cr -> (forall i, (i < Nblts u)%nat -> ~ row_wanted two_pi tols lst_tols cr o i) ->
  exists e, select two_pi tols lst_tols cr keep_all o = Err e.
Proof.
  intros R N. destruct (select two_pi tols lst_tols cr keep_all o) as [o'|e] eqn:E; [|eauto]. exfalso.
  destruct (select_open _ _ _ _ _ _ _ E) as (rows & asked & freqs & chans & pols & H1 & _).
  destruct (select_rows_spec _ _ OK _ _ _ _ _ H1) as (RN & RS & _). destruct rows as [r|]; [|apply (proj1 RN eq_refl R)].
  destruct (RS r eq_refl) as (_ & IR). destruct r as [|i r].
  - unfold select_rows in H1. apply bind_Ok in H1 as (i1 & _ & Hr). apply bind_Ok in Hr as (i2 & _ & Hr). apply bind_Ok in Hr as (i3 & _ & Hr).
    apply bind_Ok in Hr as ([bls pp] & _ & Hr). apply bind_Ok in Hr as (i4 & _ & Hr). apply bind_Ok in Hr as (i5 & Hf & Hr). injection Hr as -> _.
    unfold final_rows in Hf. destruct i4 as [[|x l]|]; try discriminate. destruct (existsb _ _); [discriminate|]. destruct (existsb _ _); [discriminate|].
    assert (map Z.to_nat (uniqueZ (x :: l)) = []) as X by congruence. apply map_eq_nil in X.
    assert (In x (uniqueZ (x :: l))) as Y by (apply uniqueZ_In; left; reflexivity). rewrite X in Y. exact Y.
  - destruct (proj1 (IR i) (or_introl eq_refl)) as (L & W). apply (N i L W).
Qed.
End Total.
