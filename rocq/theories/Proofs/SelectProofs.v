(** What select keeps. *)
From Coq Require Import List ZArith Bool Arith QArith String Lia Sorted.
From Verif Require Import Lib.Py Lib.Np Lib.Cube Lib.Sorting Model.Bls Model.Tools Model.Pol Model.UVData Model.Reorder Model.Freq Model.PhaseCenter Model.FlexPol Model.Times Model.Select
  Spec.BltSpec Spec.BlsSpec Spec.UVDataSpec Spec.FreqSpec Spec.TimesSpec Spec.AccessSpec Spec.SelectSpec
  Proofs.BlsProofs Proofs.TimesProofs Proofs.AccessProofs Proofs.ReorderProofs Proofs.PhaseSplit Proofs.SelectRows.
Import ListNotations.
Notation length := List.length.
Open Scope Z_scope.
Open Scope list_scope.

(** * The channels *)
Lemma wanted_freqs_spec cr u freqs : wanted_freqs cr u = Ok freqs ->
  (freqs = None <-> cr_frequencies cr = None /\ cr_freq_chans cr = None) /\
  forall l, freqs = Some l -> forall j, In (nth j (freq_array u) 0) l <-> freq_wanted cr u j.
Proof.
  unfold wanted_freqs, freq_wanted. destruct (cr_freq_chans cr) as [chans|].
  - intros H. apply bind_Ok in H as (pos & Hp & H).
    assert (S : forall x, In x (take 0 (freq_array u) pos) <-> exists c j', In c chans /\ denotes (Nfreqs u) c j' /\ nth j' (freq_array u) 0 = x).
    { clear H. apply mapM_Ok_Forall2 in Hp. intros x. unfold take. induction Hp as [|c j cs js Hc _ IH]; simpl.
      - split; [intros [] | intros (c & j' & [] & _)].
      - destruct (norm_index (Nfreqs u) c) as [q|] eqn:E; [|discriminate]. injection Hc as ->. apply norm_index_iff in E.
        rewrite IH. split.
        + intros [<- | (c' & j' & I & D & Ex)]; [exists c, j | exists c', j']; (split; [simpl; auto|]); split; trivial; exact E.
        + intros (c' & j' & [<- | I] & D & Ex).
          * left. subst x. f_equal. destruct D as (L & D). destruct E as (L' & E). lia.
          * right. exists c', j'. auto. }
    destruct (cr_frequencies cr) as [fs|]; injection H as <-; (split; [split; [discriminate | intros (E1 & E2); discriminate]|]); intros l E j; injection E as <-.
    + rewrite uniqueZ_In, in_app_iff, S. split.
      * intros [I | (c & j' & A)]; [right; left; eauto | right; right; exists chans, c, j'; tauto].
      * intros [(E & _) | [(l & E & I) | (l & c & j' & E & A)]]; [discriminate | injection E as <-; auto | injection E as <-; right; exists c, j'; exact A].
    + rewrite S. split.
      * intros (c & j' & A). right; right. exists chans, c, j'; tauto.
      * intros [(_ & E) | [(l & E & I) | (l & c & j' & E & A)]]; [discriminate | discriminate | injection E as <-; exists c, j'; exact A].
  - intros H. injection H as <-. split; [tauto|]. intros l E j. split.
    + intros I. right; left. eauto.
    + intros [(E' & _) | [(l' & E' & I) | (l' & c & j' & E' & _)]]; congruence.
Qed.

Lemma select_freqs_spec cr u chans : select_freqs cr u = Ok chans ->
  (chans = None <-> cr_frequencies cr = None /\ cr_freq_chans cr = None) /\
  forall l, chans = Some l -> positions_of (Nfreqs u) (freq_wanted cr u) l.
Proof.
  unfold select_freqs. intros H. apply bind_Ok in H as (freqs & Hf & H). destruct (wanted_freqs_spec _ _ _ Hf) as (FN & FS).
  destruct freqs as [fs|].
  - destruct (forallb _ fs); [|discriminate]. apply bind_Ok in H as (b & _ & H). injection H as <-. split.
    + split; [discriminate | intros E; apply FN in E; discriminate].
    + intros l E. injection E as <-. split; [apply nonzero_sorted|]. intros j. rewrite (nonzero_spec 0), isinZ_spec, (FS fs eq_refl). reflexivity.
  - injection H as <-. split; [tauto | discriminate].
Qed.

(** * The polarizations *)
Section Pols.
Variable xo : option string.
Let is_asked (asked : list pol_name) (n : Z) := exists a, In a asked /\ pol_number xo a = Ok n.
Lemma pol_places_spec pols fp asked ks ws : pol_places xo pols fp asked = Ok (ks, ws) ->
  (forall k, In k ks <-> (k < length pols)%nat /\ is_asked asked (nth k pols 0)) /\
  (forall w, In w ws <-> exists f, fp = Some f /\ (w < length f)%nat /\ ~ In (nth w f 0) pols /\ is_asked asked (nth w f 0)) /\
  (forall n, is_asked asked n -> In n pols \/ exists f, fp = Some f /\ In n f).
Proof.
  revert ks ws. induction asked as [|a asked IH]; cbn [pol_places]; intros ks ws H.
  - injection H as <- <-. unfold is_asked. split; [|split].
    + intros k. split; [intros [] | intros (_ & a & [] & _)].
    + intros k. split; [intros [] | intros (f & _ & _ & _ & a & [] & _)].
    + intros n (a & [] & _).
  - apply bind_Ok in H as (n & Hn & H). apply bind_Ok in H as ([k1 w1] & H1 & H). apply bind_Ok in H as ([k2 w2] & H2 & H). injection H as <- <-.
    destruct (IH _ _ H2) as (IK & IW & IN).
    assert (AS : forall m, is_asked (a :: asked) m <-> m = n \/ is_asked asked m).
    { intros m. unfold is_asked. split.
      - intros (b & [<- | I] & E); [left; congruence | right; eauto].
      - intros [-> | (b & I & E)]; [exists a | exists b]; simpl; auto. }
    assert (S : (forall k, In k k1 <-> (k < length pols)%nat /\ nth k pols 0 = n) /\
                (forall w, In w w1 <-> exists f, fp = Some f /\ (w < length f)%nat /\ ~ In n pols /\ nth w f 0 = n) /\
                (In n pols \/ exists f, fp = Some f /\ In n f)).
    { destruct (isinZ n pols) eqn:E.
      - injection H1 as <- <-. apply isinZ_spec in E. split; [|split; [|auto]].
        + intros k. rewrite (nonzero_spec 0), Z.eqb_eq. intuition congruence.
        + intros w. split; [intros [] | intros (f & _ & _ & N & _); contradiction].
      - assert (NI : ~ In n pols) by (intros I; apply isinZ_spec in I; congruence).
        destruct fp as [f|]; [|discriminate]. destruct (isinZ n f) eqn:Ef; [|discriminate]. injection H1 as <- <-. apply isinZ_spec in Ef.
        split; [|split; [|eauto]].
        + intros k. split; [intros []|]. intros (L & <-). exfalso. apply NI, nth_In, L.
        + intros w. rewrite (nonzero_spec 0), Z.eqb_eq. split.
          * intros (L & ->). exists f. auto.
          * intros (f' & E' & L & _ & <-). injection E' as <-. auto. }
    destruct S as (SK & SW & SN). split; [|split].
    + intros k. rewrite in_app_iff, SK, IK, AS. tauto.
    + intros w. rewrite in_app_iff, SW, IW. split.
      * intros [(f & A & B & C & D) | (f & A & B & C & D)]; exists f; (split; [exact A|]); (split; [exact B|]); rewrite AS; [rewrite D|]; auto.
      * intros (f & A & B & C & D). apply AS in D as [D | D]; [left | right]; exists f; rewrite <- ?D; auto.
    + intros m Am. apply AS in Am as [-> | Am]; [exact SN | apply IN, Am].
Qed.
End Pols.

(** * Indexing the three axes *)
Definition or_all (n : nat) (x : option (list nat)) : list nat := match x with Some l => l | None => seq 0 n end.

Lemma picked_all {A} (d : A) n l : length l = n -> picked d (seq 0 n) l l.
Proof. intros <-. unfold picked. symmetry. apply take_seq. Qed.

Lemma positions_all n (P : nat -> Prop) : (forall i, (i < n)%nat -> P i) -> positions_of n P (seq 0 n).
Proof.
  intros H. split; [apply seq_sorted|]. intros i. rewrite in_seq. split; [intros L; split; [lia|]; apply H; lia | intros (L & _); lia].
Qed.

Lemma positions_ext n (P Q : nat -> Prop) l : positions_of n P l -> (forall i, (i < n)%nat -> (P i <-> Q i)) -> positions_of n Q l.
Proof. intros (S & H) E. split; [exact S|]. intros i. rewrite H. split; intros (L & X); (split; [exact L|]); apply (E i L); exact X. Qed.

Section Index.
Variables (keep_all : bool) (rows chans pols : option (list nat)) (o : selobj).
Let u := so_uvd o.
Let ri := or_all (Nblts u) rows.
Let rj := or_all (Nfreqs u) chans.
Let rk := or_all (Npols u) pols.
Let o1 := select_by_index keep_all rows chans pols o.
Let u1 := so_uvd o1.
Hypothesis SH : blt_shaped u.
Hypothesis FO : obj_ok (so_freq o).
Hypothesis CO : counts_ok u.

Lemma index_counts : counts_ok u1.
Proof.
  assert (E : baseline_array u1 = baseline_array (so_uvd (match rows with Some idx => by_blts keep_all idx o | None => o end)) /\
              time_array u1 = time_array (so_uvd (match rows with Some idx => by_blts keep_all idx o | None => o end)) /\
              Nbls u1 = Nbls (so_uvd (match rows with Some idx => by_blts keep_all idx o | None => o end)) /\
              Ntimes u1 = Ntimes (so_uvd (match rows with Some idx => by_blts keep_all idx o | None => o end))).
  { unfold u1, o1, select_by_index. destruct chans, pols; repeat split; reflexivity. }
  destruct E as (E1 & E2 & E3 & E4). unfold counts_ok. rewrite E1, E2, E3, E4. destruct rows as [idx|].
  - unfold by_blts. destruct keep_all; split; apply distinct_count_unique; reflexivity.
  - exact CO.
Qed.

Lemma index_blts : blts_picked ri u u1.
Proof.
  destruct SH as (L1 & L2 & L3 & L4 & L5 & L6 & L7 & L8 & L9 & L10).
  assert (X : blts_picked ri u (so_uvd (match rows with Some idx => by_blts keep_all idx o | None => o end))).
  { unfold ri, or_all. destruct rows as [idx|].
    - unfold by_blts. destruct keep_all; repeat split; reflexivity.
    - repeat split; apply picked_all; unfold Nblts; assumption || reflexivity. }
  unfold u1, o1, select_by_index. destruct chans, pols; exact X.
Qed.

Lemma index_chans : chans_picked rj u u1.
Proof.
  destruct FO as (((L1 & L2) & _) & _). fold u in L1, L2.
  assert (S : same_freq_axis u (so_uvd (match rows with Some idx => by_blts keep_all idx o | None => o end))).
  { destruct rows as [idx|]; [unfold by_blts; destruct keep_all|]; repeat split; reflexivity. }
  destruct S as (S1 & S2 & S3 & _).
  unfold u1, o1, select_by_index, rj, or_all. destruct chans as [idx|].
  - set (b := match rows with Some idx => _ | None => _ end) in *. clearbody b.
    destruct pols; unfold chans_picked, picked; rewrite <- S1, <- S2, <- S3; repeat split; reflexivity.
  - set (b := match rows with Some idx => _ | None => _ end) in *. clearbody b.
    assert (X : chans_picked (seq 0 (Nfreqs u)) u (so_uvd b)).
    { unfold chans_picked. rewrite S1, S2, S3. repeat split; apply picked_all; unfold Nfreqs; assumption || reflexivity. }
    destruct pols; exact X.
Qed.

Lemma index_samples : samples_picked ri rj rk u u1.
Proof.
  intros i j k Li Lj Lk. unfold u1, o1, select_by_index, ri, rj, rk, or_all in *.
  destruct rows as [r|], chans as [c|], pols as [p|]; try (unfold by_blts; destruct keep_all);
    cbn -[nth seq]; unfold take0, take1, take2; cbn -[nth seq];
    rewrite ?seq_length in *; rewrite ?seq_nth by assumption; repeat split; reflexivity.
Qed.

Lemma index_eq : eq_picked rj (so_freq o) (so_freq o1).
Proof.
  unfold eq_picked, o1, select_by_index, rj, or_all.
  assert (E : eq_coeffs (so_freq (match rows with Some idx => by_blts keep_all idx o | None => o end)) = eq_coeffs (so_freq o)).
  { destruct rows; [unfold by_blts; destruct keep_all|]; reflexivity. }
  set (b := match rows with Some idx => _ | None => _ end) in *. clearbody b.
  destruct chans as [c|], pols; cbn [on_freq so_freq by_pols by_freqs eq_coeffs]; rewrite E; destruct (eq_coeffs (so_freq o)) as [e|]; try exact I;
    intros a j L; rewrite ?seq_length in L; rewrite ?seq_nth by exact L; reflexivity.
Qed.

Lemma index_pols : picked 0 rk (polarization_array u) (polarization_array u1).
Proof.
  unfold u1, o1, select_by_index, rk, or_all.
  assert (E : polarization_array (so_uvd (match rows with Some idx => by_blts keep_all idx o | None => o end)) = polarization_array u).
  { destruct rows; [unfold by_blts; destruct keep_all|]; reflexivity. }
  set (b := match rows with Some idx => _ | None => _ end) in *. clearbody b. unfold so_uvd in E.
  destruct chans, pols; unfold picked, so_uvd; cbn -[take nth map seq]; rewrite E; try reflexivity; symmetry; apply take_seq.
Qed.

Lemma index_windows : exists rw, windows_left u u1 rw /\
  match flex_spw_polarization_array (so_freq o) with
  | None => flex_spw_polarization_array (so_freq o1) = None
  | Some fp => exists fp', flex_spw_polarization_array (so_freq o1) = Some fp' /\ picked 0 rw fp fp'
  end.
Proof.
  destruct FO as ((_ & ND & IN) & FP). fold u in IN, ND.
  unfold u1, o1, select_by_index.
  assert (E : spw_array (so_uvd (match rows with Some idx => by_blts keep_all idx o | None => o end)) = spw_array u /\
    flex_spw_id_array (so_uvd (match rows with Some idx => by_blts keep_all idx o | None => o end)) = flex_spw_id_array u /\
    flex_spw_polarization_array (so_freq (match rows with Some idx => by_blts keep_all idx o | None => o end)) = flex_spw_polarization_array (so_freq o)).
  { destruct rows; [unfold by_blts; destruct keep_all|]; repeat split; reflexivity. }
  set (b := match rows with Some idx => _ | None => _ end) in *. clearbody b. destruct E as (E1 & E2 & E3).
  destruct chans as [c|].
  - exists (nonzero (fun w => isinZ w (take 0 (flex_spw_id_array u) c)) (spw_array u)).
    assert (X : windows_left u (so_uvd (on_freq (by_freqs c) b)) (nonzero (fun w => isinZ w (take 0 (flex_spw_id_array u) c)) (spw_array u)) /\
      match flex_spw_polarization_array (so_freq o) with
      | None => flex_spw_polarization_array (so_freq (on_freq (by_freqs c) b)) = None
      | Some fp => exists fp', flex_spw_polarization_array (so_freq (on_freq (by_freqs c) b)) = Some fp' /\
          picked 0 (nonzero (fun w => isinZ w (take 0 (flex_spw_id_array u) c)) (spw_array u)) fp fp'
      end).
    { unfold so_uvd in E1, E2. split; [split; [split|]|].
      - apply nonzero_sorted.
      - intros k. rewrite (nonzero_spec 0), isinZ_spec. unfold so_uvd. cbn -[take nth]. rewrite E2. reflexivity.
      - unfold picked, so_uvd. cbn -[take nth]. rewrite E1, E2. reflexivity.
      - rewrite <- E3. cbn -[take nth]. destruct (flex_spw_polarization_array (so_freq b)) as [fp|]; [|reflexivity].
        eexists. split; [reflexivity|]. unfold picked. rewrite E1, E2. reflexivity. }
    destruct pols; exact X.
  - exists (seq 0 (length (spw_array u))).
    assert (X : windows_left u (so_uvd b) (seq 0 (length (spw_array u))) /\
      match flex_spw_polarization_array (so_freq o) with
      | None => flex_spw_polarization_array (so_freq b) = None
      | Some fp => exists fp', flex_spw_polarization_array (so_freq b) = Some fp' /\ picked 0 (seq 0 (length (spw_array u))) fp fp'
      end).
    { split; [split|].
      - apply positions_all. intros k L. rewrite E2. apply IN, nth_In, L.
      - rewrite E1. apply picked_all. reflexivity.
      - rewrite <- E3 in FP |- *. destruct (flex_spw_polarization_array (so_freq b)) as [fp|]; [|reflexivity].
        exists fp. split; [reflexivity|]. apply picked_all. apply FP. reflexivity. }
    destruct pols; exact X.
Qed.

Lemma index_antennas : keep_all = false -> rows <> None -> antennas_picked o o1.
Proof.
  intros -> Hr. unfold o1, select_by_index. destruct rows as [idx|]; [|congruence]. clear Hr.
  unfold by_blts. set (ants := nonzero _ (so_antenna_numbers o)).
  assert (X : forall fo, ant_1_array (fo_uvd fo) = take 0 (ant_1_array u) idx -> ant_2_array (fo_uvd fo) = take 0 (ant_2_array u) idx ->
     Nants_telescope (fo_uvd fo) = Z.of_nat (length ants) -> forall n e, antennas_picked o (mkSelobj fo (so_x_orientation o) (so_catalog o)
       (take 0 (so_antenna_numbers o) ants) (take EmptyString (so_antenna_names o) ants) e n)).
  { intros fo A1 A2 N n e. exists ants. unfold so_uvd; cbn [so_freq so_antenna_numbers so_antenna_names]. split; [|split; [reflexivity|split; [reflexivity|exact N]]].
    split; [apply nonzero_sorted|]. intros k. unfold ants. rewrite (nonzero_spec 0), isinZ_spec, A1, A2. reflexivity. }
  destruct chans, pols; apply X; reflexivity.
Qed.

Lemma index_antennas_kept : keep_all = true \/ rows = None ->
  so_antenna_numbers o1 = so_antenna_numbers o /\ so_antenna_names o1 = so_antenna_names o /\ Nants_telescope u1 = Nants_telescope u.
Proof.
  unfold u1, o1, select_by_index. intros [-> | ->].
  - destruct rows, chans, pols; repeat split; reflexivity.
  - destruct chans, pols; repeat split; reflexivity.
Qed.
End Index.

(** * After the indexing *)
Lemma uniqueZ_constant l p : l <> [] -> (forall x, In x l -> x = p) -> uniqueZ l = [p].
Proof.
  intros N H. apply (sorted_unique Z.lt); try (intros; lia).
  - apply uniqueZ_sorted.
  - repeat constructor.
  - intros x. rewrite uniqueZ_In. simpl. split; [intros I; left; symmetry; apply H, I|].
    intros [<- | []]. destruct l as [|y l]; [congruence|]. rewrite <- (H y (or_introl eq_refl)). left; reflexivity.
Qed.
Lemma uniqueZ_one l : length (uniqueZ l) = 1%nat -> exists p, uniqueZ l = [p] /\ l <> [] /\ forall x, In x l -> x = p.
Proof.
  intros E. destruct (uniqueZ l) as [|p [|q t]] eqn:U; simpl in E; try lia. exists p. split; [reflexivity|]. split.
  - intros ->. discriminate.
  - intros x I. apply uniqueZ_In in I. rewrite U in I. destruct I as [<- | []]. reflexivity.
Qed.

Lemma after_select_spec rows o o' : after_select rows o = Ok o' ->
  let u := so_uvd o in let u' := so_uvd o' in
  (forall ri rj rk ob, parts_picked ri rj rk ob o -> parts_picked ri rj rk ob o') /\
  (forall ob rw, windows_left (so_uvd ob) u rw -> windows_left (so_uvd ob) u' rw) /\
  so_x_orientation o' = so_x_orientation o /\ so_catalog o' = so_catalog o /\ so_antenna_numbers o' = so_antenna_numbers o /\
  so_antenna_names o' = so_antenna_names o /\ so_eq_rows o' = so_eq_rows o /\ so_Nants_data o' = so_Nants_data o /\
  Nants_telescope u' = Nants_telescope u /\ ant_1_array u' = ant_1_array u /\ ant_2_array u' = ant_2_array u /\
  match flex_spw_polarization_array (so_freq o) with
  | None => polarization_array u' = polarization_array u /\ flex_spw_polarization_array (so_freq o') = None
  | Some fp => (exists p, fp <> [] /\ (forall x, In x fp -> x = p) /\ polarization_array u' = [p] /\ flex_spw_polarization_array (so_freq o') = None) \/
      ((forall p, fp <> [] -> exists x, In x fp /\ x <> p) /\ polarization_array u' = polarization_array u /\ flex_spw_polarization_array (so_freq o') = Some fp)
  end /\
  (rows = None -> blts_are_rectangular u' = blts_are_rectangular u /\ time_axis_faster_than_bls u' = time_axis_faster_than_bls u) /\
  (rows <> None -> exists uu, set_rectangularity true u = Ok uu /\ blts_are_rectangular u' = blts_are_rectangular uu /\
     time_axis_faster_than_bls u' = time_axis_faster_than_bls uu) /\ blt_order u' = blt_order u.
Proof.
  unfold after_select. intros H. apply bind_Ok in H as (u1 & H1 & H). apply bind_Ok in H as (fo & H2 & H). injection H as <-.
  assert (F : same_blt_axis (so_uvd o) u1 /\ same_freq_axis (so_uvd o) u1 /\ polarization_array u1 = polarization_array (so_uvd o) /\
     data_array u1 = data_array (so_uvd o) /\ flag_array u1 = flag_array (so_uvd o) /\ nsample_array u1 = nsample_array (so_uvd o) /\
     blt_order u1 = blt_order (so_uvd o) /\ Nbls u1 = Nbls (so_uvd o) /\ Ntimes u1 = Ntimes (so_uvd o) /\ Nants_telescope u1 = Nants_telescope (so_uvd o)).
  { destruct rows.
    - apply set_rect_fields in H1 as (A1 & A2 & A3 & A4 & A5 & A6 & A7 & A8 & A9 & A10 & _). repeat (split; [assumption|]). assumption.
    - injection H1 as <-. repeat split; reflexivity. }
  assert (G : exists pols, fo = mkFreqobj (set_polarization_array pols u1) (eq_coeffs (so_freq o)) (flex_spw_polarization_array fo) /\
    match flex_spw_polarization_array (so_freq o) with
    | None => pols = polarization_array u1 /\ flex_spw_polarization_array fo = None
    | Some fp => (exists p, fp <> [] /\ (forall x, In x fp -> x = p) /\ pols = [p] /\ flex_spw_polarization_array fo = None) \/
      ((forall p, fp <> [] -> exists x, In x fp /\ x <> p) /\ pols = polarization_array u1 /\ flex_spw_polarization_array fo = Some fp)
    end).
  { assert (ID : forall e f, mkFreqobj u1 e f = mkFreqobj (set_polarization_array (polarization_array u1) u1) e f) by (intros; destruct u1; reflexivity).
    cbn [flex_spw_polarization_array] in H2. destruct (flex_spw_polarization_array (so_freq o)) as [fp|].
    - destruct (length (uniqueZ fp) =? 1)%nat eqn:E.
      + apply Nat.eqb_eq, uniqueZ_one in E as (p & E & N & C). unfold remove_flex_pol in H2. cbn [flex_spw_polarization_array fo_uvd eq_coeffs] in H2.
        rewrite E in H2. cbn [List.length] in H2. rewrite Nat.eqb_refl, orb_true_r in H2. injection H2 as <-.
        exists [p]. split; [reflexivity|]. left. exists p. auto.
      + injection H2 as <-. exists (polarization_array u1). split; [apply ID|]. right. split; [|auto].
        intros p N. apply Nat.eqb_neq in E.
        destruct (existsb (fun x => negb (x =? p)) fp) eqn:X.
        * apply existsb_exists in X as (x & I & X). exists x. split; [exact I|]. apply negb_true_iff, Z.eqb_neq in X. exact X.
        * exfalso. apply E. rewrite (uniqueZ_constant fp p N); [reflexivity|]. intros x I.
          destruct (Z.eq_dec x p) as [|D]; [assumption|]. exfalso.
          assert (existsb (fun x => negb (x =? p)) fp = true) by (apply existsb_exists; exists x; split; [exact I | apply negb_true_iff, Z.eqb_neq, D]). congruence.
    - injection H2 as <-. exists (polarization_array u1). split; [apply ID|]. auto. }
  destruct G as (pols & -> & G).
  destruct F as ((A1 & A2 & A3 & A4 & A5 & A6 & A7 & A8 & A9 & A10 & A11) & (B1 & B2 & B3 & B4) & C1 & C2 & C3 & C4 & C5 & C6 & C7 & C8).
  cbn zeta. unfold so_uvd in *. cbn [on_freq so_freq fo_uvd].
  split; [|split].
  - intros ri rj rk ob (P1 & P2 & P3 & P4 & (rw & P5) & P6). unfold parts_picked, so_uvd in *. cbn [on_freq so_freq fo_uvd].
    split; [|split; [|split; [|split; [|split]]]].
    + unfold blts_picked in *. cbn. rewrite A1, A2, A3, A4, A5, A6, A7, A8, A9, A10, A11. exact P1.
    + unfold chans_picked in *. cbn. rewrite B1, B2, B3. exact P2.
    + unfold samples_picked in *. cbn -[nth]. rewrite C2, C3, C4. exact P3.
    + exact P4.
    + exists rw. unfold windows_left in *. cbn -[nth]. rewrite B3, B4. exact P5.
    + unfold counts_ok in *. cbn. rewrite A1, A5, C6, C7. exact P6.
  - intros ob rw P. unfold windows_left in *. cbn -[nth]. rewrite B3, B4. exact P.
  - repeat (split; [first [reflexivity | assumption]|]). split; [|split; [|split]].
    + destruct (flex_spw_polarization_array (so_freq o)) as [fp|].
      * destruct G as [(p & G1 & G2 & -> & G4) | (G1 & -> & G3)]; [left; exists p; auto | right; auto].
      * destruct G as (-> & G). auto.
    + intros ->. injection H1 as <-. split; reflexivity.
    + intros N. destruct rows; [|congruence]. exists u1. auto.
    + exact C5.
Qed.

(** * The theorems *)
Section Main.
Variables (two_pi : Z) (tols lst_tols : Q * Q) (cr : criteria) (keep_all : bool) (o o' : selobj).
Let u := so_uvd o.
Hypothesis OK : sel_ok o.
Hypothesis SEL : select two_pi tols lst_tols cr keep_all o = Ok o'.

Definition rows_kept := row_wanted two_pi tols lst_tols cr o.

Lemma select_open : exists rows asked freqs chans pols,
  select_rows two_pi tols lst_tols cr o = Ok (rows, asked) /\ select_freqs cr u = Ok freqs /\
  select_pols o asked freqs = Ok (chans, pols) /\ after_select rows (select_by_index keep_all rows chans pols o) = Ok o'.
Proof.
  pose proof SEL as H. unfold select in H. apply bind_Ok in H as ([rows asked] & H1 & H). apply bind_Ok in H as (freqs & H2 & H).
  apply bind_Ok in H as ([chans pols] & H3 & H4). exists rows, asked, freqs, chans, pols. auto.
Qed.

Lemma rows_positions rows asked : select_rows two_pi tols lst_tols cr o = Ok (rows, asked) ->
  positions_of (Nblts u) rows_kept (or_all (Nblts u) rows).
Proof.
  intros H. destruct (select_rows_spec _ _ OK _ _ _ _ _ H) as (_ & S & A & _). destruct rows as [r|]; simpl.
  - apply S. reflexivity.
  - apply positions_all, A. reflexivity.
Qed.

Lemma freqs_positions freqs : select_freqs cr u = Ok freqs -> positions_of (Nfreqs u) (freq_wanted cr u) (or_all (Nfreqs u) freqs).
Proof.
  intros H. destruct (select_freqs_spec _ _ _ H) as (N & S). destruct freqs as [f|]; simpl.
  - apply S. reflexivity.
  - apply positions_all. intros j _. left. apply N. reflexivity.
Qed.

(** the relation between what is asked and the number *)
Lemma parts rows asked freqs chans pols :
  select_rows two_pi tols lst_tols cr o = Ok (rows, asked) -> select_freqs cr u = Ok freqs ->
  select_pols o asked freqs = Ok (chans, pols) -> after_select rows (select_by_index keep_all rows chans pols o) = Ok o' ->
  parts_picked (or_all (Nblts u) rows) (or_all (Nfreqs u) chans) (or_all (Npols u) pols) o o'.
Proof.
  intros H1 H2 H3 H4. destruct OK as (SH & _ & CO & FO & _). apply (proj1 (after_select_spec _ _ _ H4)).
  split; [apply index_blts, SH|]. split; [apply index_chans, FO|]. split; [apply index_samples|]. split; [apply index_eq|]. split.
  - destruct (index_windows keep_all rows chans pols o FO) as (rw & W & _). exists rw. exact W.
  - apply index_counts, CO.
Qed.

(** An object with an ordinary polarization axis. *)
Theorem select_keeps : flex_spw_polarization_array (so_freq o) = None ->
  exists ri rj rk,
    positions_of (Nblts u) (row_wanted two_pi tols lst_tols cr o) ri /\
    positions_of (Nfreqs u) (freq_wanted cr u) rj /\
    positions_of (Npols u) (fun k => pol_wanted cr o (nth k (polarization_array u) 0)) rk /\
    parts_picked ri rj rk o o' /\ picked 0 rk (polarization_array u) (polarization_array (so_uvd o')) /\
    flex_spw_polarization_array (so_freq o') = None.
Proof.
  intros FP. destruct select_open as (rows & asked & freqs & chans & pols & H1 & H2 & H3 & H4).
  pose proof (parts _ _ _ _ _ H1 H2 H3 H4) as P.
  assert (FO : obj_ok (so_freq o)) by apply OK.
  assert (C : chans = freqs /\ positions_of (Npols u) (fun k => pol_wanted cr o (nth k (polarization_array u) 0)) (or_all (Npols u) pols)).
  { destruct (select_rows_spec _ _ OK _ _ _ _ _ H1) as (_ & _ & _ & AN & AS). unfold select_pols in H3. destruct asked as [l|].
    - apply bind_Ok in H3 as ([ks ws] & Hp & H3). destruct (pol_places_spec _ _ _ _ _ _ Hp) as (SK & SW & _).
      destruct ws as [|w ws]; [|exfalso; destruct (proj1 (SW w)) as (f & E & _); [left; reflexivity | congruence]].
      injection H3 as <- <-. split; [reflexivity|]. simpl. split; [apply uniqueN_sorted|].
      intros k. rewrite uniqueN_In, SK. unfold Npols, pol_wanted. fold u. split.
      + intros (L & a & I & N). split; [exact L|]. intros _. apply AS. eauto.
      + intros (L & W). split; [exact L|]. assert (R : restricts_pols cr).
        { destruct (cr_polarizations cr) as [q|] eqn:Ec; [right; congruence|]. left.
          destruct (cr_bls cr) as [[bl|bt]|] eqn:Eb.
          - exfalso. assert (Some l = None) as X; [|discriminate X]. apply AN. intros [(x & a & b & s & E & _) | N]; congruence.
          - destruct (existsb (fun t => match snd t with Some _ => true | None => false end) bt) eqn:X.
            + apply existsb_exists in X as ([[a b] [s|]] & I & X); [|discriminate]. exists bt, a, b, s. auto.
            + exfalso. assert (Some l = None) as Y; [|discriminate Y]. apply AN. intros [(x & a & b & s & E & I) | N]; [|congruence].
              rewrite Eb in E. injection E as <-.
              assert (existsb (fun t => match snd t with Some _ => true | None => false end) bt = true) by (apply existsb_exists; exists (a, b, Some s); auto).
              congruence.
          - exfalso. assert (Some l = None) as X; [|discriminate X]. apply AN. intros [(x & a & b & s & E & _) | N]; congruence. }
        specialize (W R). apply AS in W as (l' & a & E & I & N). injection E as <-. exists a. auto.
    - injection H3 as <- <-. split; [reflexivity|]. apply positions_all. intros k L R. exfalso. apply (proj1 AN eq_refl R). }
  destruct C as (-> & PP).
  exists (or_all (Nblts u) rows), (or_all (Nfreqs u) freqs), (or_all (Npols u) pols).
  split; [apply (rows_positions _ _ H1)|]. split; [apply freqs_positions, H2|]. split; [exact PP|]. split; [exact P|].
  destruct (after_select_spec _ _ _ H4) as (_ & _ & _ & _ & _ & _ & _ & _ & _ & _ & _ & PF & _).
  destruct (index_windows keep_all rows freqs pols o FO) as (rw & _ & W). rewrite FP in W. rewrite W in PF. destruct PF as (E1 & E2).
  split; [rewrite E1; apply index_pols | exact E2].
Qed.

(** An object with a flexible polarization axis. *)
Theorem select_keeps_flex fp : flex_spw_polarization_array (so_freq o) = Some fp -> polarization_array u = [0] ->
  (restricts_pols cr -> exists p, pol_asked cr o p) -> ~ pol_asked cr o 0 ->
  exists ri rj rw fp',
    positions_of (Nblts u) (row_wanted two_pi tols lst_tols cr o) ri /\
    positions_of (Nfreqs u) (chan_wanted cr o fp) rj /\
    parts_picked ri rj [O] o o' /\ windows_left u (so_uvd o') rw /\ picked 0 rw fp fp' /\
    ((exists p, fp' <> [] /\ (forall x, In x fp' -> x = p) /\
        polarization_array (so_uvd o') = [p] /\ flex_spw_polarization_array (so_freq o') = None) \/
     ((forall p, fp' <> [] -> exists x, In x fp' /\ x <> p) /\
        polarization_array (so_uvd o') = [0] /\ flex_spw_polarization_array (so_freq o') = Some fp')).
Proof.
  intros FP PA NE N0. destruct select_open as (rows & asked & freqs & chans & pols & H1 & H2 & H3 & H4).
  pose proof (parts _ _ _ _ _ H1 H2 H3 H4) as P.
  assert (FO : obj_ok (so_freq o)) by apply OK.
  assert (LF : length fp = length (spw_array u)) by (apply FO, FP).
  assert (C : pols = None /\ positions_of (Nfreqs u) (chan_wanted cr o fp) (or_all (Nfreqs u) chans)).
  { destruct (select_rows_spec _ _ OK _ _ _ _ _ H1) as (_ & _ & _ & AN & AS). unfold select_pols in H3. destruct asked as [l|].
    - apply bind_Ok in H3 as ([ks ws] & Hp & H3). destruct (pol_places_spec _ _ _ _ _ _ Hp) as (SK & SW & SN).
      fold u in SK, SW, SN, H3, Hp. rewrite FP in SW, SN. rewrite PA in SK, SW, SN.
      assert (K0 : ks = []).
      { destruct ks as [|k ks]; [reflexivity|]. exfalso. destruct (proj1 (SK k)) as (L & a & I & N); [left; reflexivity|].
        simpl in L. assert (k = O) as -> by lia. simpl in N. apply N0, AS. eauto. }
      assert (R : restricts_pols cr).
      { assert (D : restricts_pols cr \/ ~ restricts_pols cr).
        { unfold restricts_pols, tuples_have_pols. destruct (cr_polarizations cr); [left; right; discriminate|].
          destruct (cr_bls cr) as [[bl|bt]|].
          - right. intros [(x & a & b & s & E & _) | X]; congruence.
          - destruct (existsb (fun t => match snd t with Some _ => true | None => false end) bt) eqn:X.
            + apply existsb_exists in X as ([[a b] [s|]] & I & X); [|discriminate]. left; left. exists bt, a, b, s. auto.
            + right. intros [(x & a & b & s & E & I) | Y]; [|congruence]. injection E as <-.
              assert (existsb (fun t => match snd t with Some _ => true | None => false end) bt = true) by (apply existsb_exists; exists (a, b, Some s); auto).
              congruence.
          - right. intros [(x & a & b & s & E & _) | X]; congruence. }
        destruct D as [D | D]; [exact D|]. apply AN in D. discriminate. }
      assert (SW' : forall w, In w ws <-> (w < length fp)%nat /\ pol_asked cr o (nth w fp 0)).
      { intros w. rewrite SW. split.
        - intros (f & E & L & _ & a & I & N). injection E as <-. split; [exact L|]. apply AS. eauto.
        - intros (L & A). exists fp. split; [reflexivity|]. split; [exact L|]. split.
          + intros [E | []]. apply N0. rewrite E. exact A.
          + apply AS in A as (l' & a & E & I & N). injection E as <-. exists a. auto. }
      assert (NW : ws <> []).
      { destruct (NE R) as (p & A). pose proof A as A'. apply AS in A as (l' & a & E & I & N). injection E as <-.
        destruct (SN p) as [[E | []] | (f & E & If)]; [eauto | exfalso; apply N0; rewrite E; exact A' |].
        injection E as <-. apply (In_nth _ _ 0) in If as (w & L & Ew). intros X.
        assert (In w ws) as Y by (apply SW'; rewrite Ew; auto). rewrite X in Y. exact Y. }
      assert (KEPT : forall j, (j < Nfreqs u)%nat -> (isinZ (nth j (flex_spw_id_array u) 0) (take 0 (spw_array u) ws) = true <->
                 exists p, chan_pol (so_freq o) fp j p /\ pol_asked cr o p)).
      { intros j L. rewrite isinZ_spec. unfold take. rewrite in_map_iff. split.
        - intros (w & E & I). apply SW' in I as (Lw & A). exists (nth w fp 0). split; [|exact A]. exists w. split; [|auto]. fold (so_uvd o). fold u. rewrite <- LF. exact Lw.
        - intros (p & (w & Lw & E & Ep) & A). exists w. split; [exact E|]. apply SW'. rewrite LF, Ep. split; [exact Lw | exact A]. }
      destruct ws as [|w0 ws]; [congruence|]. clear NW. apply bind_Ok in H3 as (inds & Hi & H3). destruct inds as [|i0 it] eqn:Ei; [discriminate|].
      rewrite <- Ei in *. clear Ei. injection H3 as <- <-. split; [reflexivity|]. simpl.
      pose proof (freqs_positions _ H2) as FPOS.
      assert (inds = filter (fun j => isinZ (nth j (flex_spw_id_array u) 0) (take 0 (spw_array u) (w0 :: ws))) (or_all (Nfreqs u) freqs)) as ->.
      { destruct freqs as [[|f0 ft]|]; [discriminate| |]; injection Hi as <-; reflexivity. }
      destruct FPOS as (FS & FI). split; [apply filter_sorted, FS|]. intros j. rewrite filter_In, FI. unfold chan_wanted. fold u. split.
      + intros ((L & W) & Kj). split; [exact L|]. split; [exact W|]. intros _. apply (KEPT j L), Kj.
      + intros (L & W & X). split; [auto|]. apply (KEPT j L), X, R.
    - injection H3 as <- <-. split; [reflexivity|]. apply (positions_ext _ (freq_wanted cr u)); [apply freqs_positions, H2|].
      intros j L. unfold chan_wanted. fold u. split; [intros W; split; [exact W|]; intros R; exfalso; apply (proj1 AN eq_refl R) | tauto]. }
  destruct C as (-> & CP).
  destruct (after_select_spec _ _ _ H4) as (_ & WL & _ & _ & _ & _ & _ & _ & _ & _ & _ & PF & _).
  destruct (index_windows keep_all rows chans None o FO) as (rw & W & F). rewrite FP in F. destruct F as (fp' & F1 & F2). rewrite F1 in PF.
  exists (or_all (Nblts u) rows), (or_all (Nfreqs u) chans), rw, fp'.
  split; [apply (rows_positions _ _ H1)|]. split; [exact CP|]. split.
  { replace [O] with (or_all (Npols u) None); [exact P|]. simpl. unfold Npols. rewrite PA. reflexivity. }
  split; [apply WL, W|]. split; [exact F2|].
  destruct PF as [(p & A & B & C & D) | (A & B & C)]; [left; exists p; auto | right]. split; [exact A|]. split; [|exact C].
  rewrite B. pose proof (index_pols keep_all rows chans None o) as X. unfold picked in X. rewrite X. fold u.
  unfold or_all, Npols. fold u. rewrite PA. reflexivity.
Qed.

Theorem select_antennas : (keep_all = false /\ restricts_rows cr -> antennas_picked o o') /\
  (keep_all = true \/ ~ restricts_rows cr -> so_antenna_numbers o' = so_antenna_numbers o /\ so_antenna_names o' = so_antenna_names o /\
     Nants_telescope (so_uvd o') = Nants_telescope u).
Proof.
  destruct select_open as (rows & asked & freqs & chans & pols & H1 & H2 & H3 & H4).
  destruct (select_rows_spec _ _ OK _ _ _ _ _ H1) as (RN & _).
  destruct (after_select_spec _ _ _ H4) as (_ & _ & _ & _ & E1 & E2 & _ & _ & E3 & E4 & E5 & _).
  split.
  - intros (K & R). destruct (index_antennas keep_all rows chans pols o K) as (ra & A & B & C & D).
    + intros N. apply RN in N. contradiction.
    + exists ra. rewrite E1, E2, E3, E4, E5. auto.
  - intros K. rewrite E1, E2, E3. apply index_antennas_kept. destruct K as [K | K]; [left; exact K | right; apply RN, K].
Qed.

Theorem select_rect : rect_truthful u -> declared_order_true (time_array u) (baseline_array u) (blt_order u) -> rect_truthful (so_uvd o').
Proof.
  intros RT DO. destruct select_open as (rows & asked & freqs & chans & pols & H1 & H2 & H3 & H4).
  destruct (after_select_spec _ _ _ H4) as (PP & _ & _ & _ & _ & _ & _ & _ & _ & _ & _ & _ & RN & RS & BO).
  pose proof (parts _ _ _ _ _ H1 H2 H3 H4) as P. destruct OK as (SH & _ & CO & FO & _).
  set (o1 := select_by_index keep_all rows chans pols o) in *.
  pose proof (index_blts keep_all rows chans pols o SH) as IB. pose proof (index_counts keep_all rows chans pols o CO) as IC. fold o1 in IB, IC.
  destruct rows as [r|].
  - destruct RS as (uu & SR & R1 & R2); [discriminate|].
    assert (RO : positions_of (Nblts u) rows_kept r) by (apply (rows_positions (Some r) asked), H1).
    assert (EBO : blt_order (so_uvd o1) = blt_order u).
    { unfold o1, select_by_index, by_blts. destruct keep_all, chans, pols; reflexivity. }
    assert (T : rect_truthful uu).
    { apply (set_rect_truthful (so_uvd o1) uu); [| exact IC | | exact SR].
      - destruct IB as (B1 & _ & _ & _ & B5 & _). unfold picked in B1, B5. rewrite B1, B5, !map_length. reflexivity.
      - rewrite EBO. destruct IB as (B1 & _ & _ & _ & B5 & _). unfold picked, or_all in B1, B5. fold u in B1, B5. rewrite B1, B5.
        assert (LB : length (baseline_array u) = length (time_array u)) by apply SH.
        assert (CM : forall (x y : list Z) idx, combine (map (fun i => nth i x 0) idx) (map (fun i => nth i y 0) idx) =
                       map (fun i => (nth i x 0, nth i y 0)) idx).
        { intros x y idx. induction idx; simpl; [reflexivity|]. f_equal. assumption. }
        assert (GEN : forall x y : list Z, length x = Nblts u -> length y = Nblts u -> forall RR : Z * Z -> Z * Z -> Prop,
                  NoDup (combine x y) /\ StronglySorted RR (combine x y) ->
                  NoDup (map (fun i => (nth i x 0, nth i y 0)) r) /\ StronglySorted RR (map (fun i => (nth i x 0, nth i y 0)) r)).
        { intros x y Lx Ly RR (ND & SS). destruct RO as (SR' & IR).
          assert (LT : forall i, In i r -> (i < length (combine x y))%nat) by (intros i I; apply IR in I; rewrite combine_length, Lx, Ly; lia).
          assert (EQ : map (fun i => (nth i x 0, nth i y 0)) r = map (fun i => nth i (combine x y) (0, 0)) r).
          { apply map_ext_in. intros i I. rewrite combine_nth by congruence. reflexivity. }
          rewrite EQ. split.
          - rewrite NoDup_nth with (d := (0, 0)) in ND. clear - ND LT SR'. induction SR' as [|i t S IH F]; simpl; constructor.
            + intros I. apply in_map_iff in I as (j & E & I). rewrite Forall_forall in F. specialize (F j I).
              assert (j = i) by (apply ND; [apply LT; right; exact I | apply LT; left; reflexivity | exact E]). lia.
            + apply IH. intros j I. apply LT. right; exact I.
          - clear - SS LT SR'. assert (SN : forall i j, (i < j)%nat -> (j < length (combine x y))%nat -> RR (nth i (combine x y) (0, 0)) (nth j (combine x y) (0, 0))).
            { revert SS. generalize (combine x y). intros l SS. induction SS as [|a t S IH F]; simpl; intros i j Lij Lj; [lia|].
              destruct i, j; try lia.
              - rewrite Forall_forall in F. apply F, nth_In. lia.
              - apply IH; lia. }
            induction SR' as [|i t S IH F]; simpl; constructor.
            + apply IH. intros j I. apply LT. right; exact I.
            + apply Forall_forall. intros p I. apply in_map_iff in I as (j & <- & I). rewrite Forall_forall in F. apply SN; [apply F, I | apply LT; right; exact I]. }
        destruct DO as (D1 & D2). split; intros E.
        + rewrite CM. apply GEN; [exact LB | reflexivity | apply D1, E].
        + rewrite CM. apply GEN; [reflexivity | exact LB | apply D2, E]. }
    apply set_rect_fields in SR as (S1 & _ & _ & _ & _ & _ & _ & S8 & S9 & _).
    destruct S1 as (T1 & _ & _ & _ & T5 & _).
    destruct P as (Q1 & _ & _ & _ & _ & Q6). destruct Q1 as (Q1 & _ & _ & _ & Q5 & _). destruct IB as (B1 & _ & _ & _ & B5 & _). unfold picked in Q1, Q5, B1, B5.
    fold u in B1, B5.
    assert (NT : Ntimes (so_uvd o') = Ntimes uu /\ Nbls (so_uvd o') = Nbls uu).
    { destruct Q6 as (Q7 & Q8). destruct IC as (I1 & I2). apply distinct_count_unique in Q7, Q8, I1, I2.
      rewrite S8, S9, I1, I2, Q7, Q8, Q1, Q5, B1, B5. auto. }
    destruct NT as (NT & NB). intros HT. rewrite R1 in HT. destruct (T HT) as (ts & bs & X1 & X2 & X3). exists ts, bs.
    rewrite NT, NB, R2. split; [exact X1|]. split; [exact X2|].
    assert (Y1 : time_array (so_uvd o') = time_array uu) by (rewrite T1, Q1, B1; reflexivity).
    assert (Y5 : baseline_array (so_uvd o') = baseline_array uu) by (rewrite T5, Q5, B5; reflexivity).
    rewrite Y1, Y5. exact X3.
  - destruct (RN eq_refl) as (R1 & R2). clear RN RS.
    assert (EQ : blts_are_rectangular (so_uvd o1) = blts_are_rectangular u /\ time_axis_faster_than_bls (so_uvd o1) = time_axis_faster_than_bls u).
    { unfold o1, select_by_index. destruct chans, pols; split; reflexivity. }
    destruct EQ as (EQ1 & EQ2). destruct P as (Q1 & _ & _ & _ & _ & Q6). destruct Q1 as (Q1 & _ & _ & _ & Q5 & _). unfold picked, or_all in Q1, Q5. fold u in Q1, Q5.
    assert (LB : length (baseline_array u) = Nblts u) by apply SH.
    assert (T1 : time_array (so_uvd o') = time_array u) by (rewrite Q1; apply take_seq).
    assert (T5 : baseline_array (so_uvd o') = baseline_array u) by (rewrite Q5, <- LB; apply take_seq).
    assert (NT : Ntimes (so_uvd o') = Ntimes u /\ Nbls (so_uvd o') = Nbls u).
    { destruct Q6 as (Q7 & Q8). destruct CO as (I1 & I2). fold u in I1, I2. apply distinct_count_unique in Q7, Q8, I1, I2. rewrite Q7, Q8, I1, I2, T1, T5. auto. }
    destruct NT as (NT & NB). intros HT. rewrite R1, EQ1 in HT. destruct (RT HT) as (ts & bs & X1 & X2 & X3). exists ts, bs.
    rewrite NT, NB, R2, EQ2, T1, T5. auto.
Qed.
End Main.
