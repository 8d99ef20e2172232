(** uvcalibrate as a whole: each sample gets its own solutions, and undo. *)
From Coq Require Import List ZArith QArith Qcanon Bool Arith Sorted String Lia.
From Verif Require Import Lib.Py Lib.Np Lib.Sorting Lib.Dict Lib.Cube Model.Pol Model.UVData Model.Hdf5 Model.Access Model.FreqAvg
  Model.UVFlag Model.Calibrate Spec.PolSpec Spec.UVDataSpec Spec.AccessSpec Spec.FlagSpec Spec.CalibrateSpec
  Proofs.PolProofs Proofs.Hdf5Proofs Proofs.AccessProofs Proofs.AccessRead Proofs.FlagConvert Proofs.FlagApply
  Proofs.CalibrateBase Proofs.CalibrateAlign Proofs.CalibrateProofs.
Import ListNotations.
Open Scope Z_scope.
Open Scope list_scope.
Notation length := List.length.

(** ** The solutions used *)
Lemma freq_used_serves ftol v c kf j : 0 <= ftol -> clear_times ftol (k_freqs c) -> clear_times ftol (freq_array (v_u v)) -> k_freqs c <> [] ->
  match_freqs ftol v c = Ok kf -> (j < length (freq_array (v_u v)))%nat ->
  serves_freq ftol c (nth j (freq_array (v_u v)) 0) (freq_used kf j).
Proof.
  intros Ht Cl CT Hne H Hj. destruct (match_freqs_follows ftol v c kf Ht Cl CT Hne H) as [E|[L F]]; [rewrite E in Hj; simpl in Hj; lia|].
  assert (E : freq_used kf j = nth j kf 0%nat).
  { unfold freq_used, bpos. destruct (length kf =? 1)%nat eqn:E1; [|reflexivity]. apply Nat.eqb_eq in E1. replace j with 0%nat by lia. reflexivity. }
  rewrite E. destruct (F j Hj) as [A B]. split; assumption.
Qed.

Lemma times_unique u a b ttol : clear_times ttol (pair_times u a b) -> (forall t, In t (time_array u) -> In t (pair_times u a b)) ->
  uniqueZ (time_array u) = pair_times u a b.
Proof.
  intros [Hs _] H. symmetry. apply uniqueZ_char; [exact Hs|]. intros x. split; [|apply H].
  intros Hx. unfold pair_times in Hx. apply in_map_iff in Hx. destruct Hx as (i & <- & Hi). apply pair_rows_In in Hi. apply nth_In, Hi.
Qed.

Lemma time_used_serves ttol ftol o v c kt i r : 0 <= ttol -> aligned ttol ftol v c -> k_ntimes c <> 0%nat ->
  match_times ttol o v c = Ok kt ->
  nth_error (pair_rows (v_u v) (nth i (ant_1_array (v_u v)) 0) (nth i (ant_2_array (v_u v)) 0)) r = Some i ->
  serves_time ttol c (nth i (time_array (v_u v)) 0) (time_used v c kt i r).
Proof.
  intros Ht (_ & _ & Al) Hk H Hr. set (a := nth i (ant_1_array (v_u v)) 0) in *. set (b := nth i (ant_2_array (v_u v)) 0) in *.
  assert (Hi : (i < length (time_array (v_u v)))%nat) by (apply nth_error_In in Hr; apply pair_rows_In in Hr; tauto).
  unfold serves_time, time_used. unfold k_ntimes in Hk. destruct (k_times c) as [l|l] eqn:Ek.
  - destruct (Nat.eq_dec (length l) 1) as [E1|E1].
    + split; [|left; exact E1]. assert (E : kt = seq 0 (length l)).
      { unfold match_times in H. rewrite Ek, E1 in H. cbv zeta in H. cbn [Nat.ltb Nat.leb andb Nat.eqb] in H.
        destruct (allclose _ _ _); [congruence|]. destruct (time_check o); congruence. }
      rewrite E, E1. simpl. lia.
    + destruct Al as [Al|[Cl Al]]; [contradiction|].
      assert (Hne : pair_rows (v_u v) a b <> []) by (intros K; rewrite K in Hr; destruct r; discriminate).
      destruct (Al a b Hne) as [CT Hall]. assert (Nl : l <> []) by (intros ->; apply Hk; reflexivity).
      assert (NT : pair_times (v_u v) a b <> []) by (unfold pair_times; intros K; apply map_eq_nil in K; contradiction).
      destruct (match_times_follows ttol o v c kt l Ht Ek Cl E1 Nl _ NT CT (times_unique _ _ _ _ CT Hall) H) as [L F].
      assert (Hlt : (r < length (pair_times (v_u v) a b))%nat) by (unfold pair_times; rewrite map_length; apply nth_error_Some; congruence).
      assert (E : nth (bpos (length kt) r) kt 0%nat = nth r kt 0%nat).
      { unfold bpos. destruct (length kt =? 1)%nat eqn:E2; [|reflexivity]. apply Nat.eqb_eq in E2. replace r with 0%nat by lia. reflexivity. }
      rewrite E. destruct (F r Hlt) as [A B]. split; [exact A|right].
      assert (Et : nth r (pair_times (v_u v) a b) 0 = nth i (time_array (v_u v)) 0).
      { unfold pair_times in *. rewrite map_length in Hlt. rewrite (nth_map (fun i => nth i (time_array (v_u v)) 0) _ r 0%nat 0) by exact Hlt.
        rewrite (nth_error_nth _ _ 0%nat Hr). reflexivity. }
      rewrite <- Et. exact B.
  - destruct (1 <? length l)%nat eqn:E1.
    + apply Nat.ltb_lt in E1. destruct (range_of_serves l _ (match_times_ranges ttol o v c kt l Ek H i Hi E1)) as [A B]. split; [exact A|right; exact B].
    + apply Nat.ltb_ge in E1. split; [lia|left; lia].
Qed.

Lemma sol_of_spec v c a b p s x : well_formed v c -> pol_at v p s -> sol_of v c a b s = Ok x ->
  match x with
  | Some (s1, s2) => (forall s', solves v c a (feed1 v c p) s' <-> s' = s1) /\ (forall s', solves v c b (feed2 v c p) s' <-> s' = s2)
  | None => (forall s', ~ solves v c a (feed1 v c p) s') \/ (forall s', ~ solves v c b (feed2 v c p) s')
  end.
Proof.
  intros Hw Hp H. pose proof Hw as (_ & _ & HP & _). pose proof (pol_at_range v HP p s Hp) as Rp. destruct Hp as [Hp1 Hp2].
  destruct (feeds_ok (v_xo v) (k_xo c) _ s Rp Hp2) as (_ & f1 & f2 & Ef & J1 & J2).
  unfold sol_of in H. rewrite Ef in H. cbn [bind fst snd] in H. apply bind_Ok in H as (r1 & E1 & H). apply bind_Ok in H as (r2 & E2 & H).
  pose proof (solution_spec v c Hw a f1 _ r1 J1 E1) as S1. pose proof (solution_spec v c Hw b f2 _ r2 J2 E2) as S2.
  fold (feed1 v c p) in S1. fold (feed2 v c p) in S2. injection H as <-.
  destruct r1 as [s1|]; [destruct r2 as [s2|]|]; [|right; exact S2|left; exact S1].
  destruct S1 as [A1 B1], S2 as [A2 B2]. split; intros s'; (split; [auto|intros ->; assumption]).
Qed.

Lemma new_cell_calibrated o v v' c s1 s2 f t i j p b x :
  flag_array (v_u v) i j p = b -> v_vis v i j p = x ->
  flag_array (v_u v') i j p = new_flag o c s1 s2 f t b -> v_vis v' i j p = cscale (factor o v c) (new_vis o c s1 s2 f t x) ->
  sample_calibrated o v v' c s1 s2 f t i j p.
Proof.
  intros Eb Ex Eb' Ex'. unfold sample_calibrated. cbv zeta. rewrite Eb, Ex, Eb', Ex'. unfold new_flag, new_vis. cbv zeta.
  change (visibility_gain (flip_gain_conj o) (k_gain c (fst s1) f t (snd s1)) (k_gain c (fst s2) f t (snd s2))) with (pair_gain o c s1 s2 f t).
  set (g := pair_gain o c s1 s2 f t).
  assert (B : (close0 g || pair_flag c s1 s2 f t = true) <->
              (negligible g \/ k_flag c (fst s1) f t (snd s1) = true \/ k_flag c (fst s2) f t (snd s2) = true)).
  { unfold pair_flag. rewrite !orb_true_iff, close0_spec. tauto. }
  split.
  - intros Hp Hb. apply B in Hb. rewrite Hp, Hb. cbn [andb]. rewrite orb_true_r. split; [|reflexivity].
    destruct (mult_gains o c); [rewrite cmul_1_r|rewrite cquot_1_r]; reflexivity.
  - intros Hn. assert (E : prop_flags o && (close0 g || pair_flag c s1 s2 f t) = false).
    { apply not_true_iff_false. intros K. apply andb_true_iff in K. apply Hn. split; [tauto|]. apply B. tauto. }
    rewrite E, orb_false_r. split; [reflexivity|]. unfold mult_gains. destruct (xorb _ _); [reflexivity|].
    intros Hg. rewrite cmul_scale, cquot_cmul by exact Hg. reflexivity.
Qed.

Lemma calibrate_samples ttol ftol o v c v' : 0 <= ttol -> 0 <= ftol -> well_formed v c -> aligned ttol ftol v c ->
  uvcalibrate ttol ftol o v c = (v', Ok tt) ->
  forall i j p, (i < length (time_array (v_u v)))%nat -> (j < length (freq_array (v_u v)))%nat -> (p < length (polarization_array (v_u v)))%nat ->
    sample_result ttol ftol o v v' c i j p.
Proof.
  intros Tt Tf Hw Al H i j p Hi Hj Hp. pose proof Hw as (Hc & HN & HP & _ & _ & _ & _ & _ & _ & Hkf & Hkt).
  apply calibrate_unfold in H. destruct H as (cv & kt & kf & keys & st & Ep & Er & Eu & Ev & _).
  apply prepare_unfold in Ep. destruct Ep as (_ & _ & Et & Ef & Ek).
  destruct (keys_spec v Hc HN keys Ek) as (ND & Hg & Hin & Hpa). destruct (Hpa p Hp) as (s & Hs).
  destruct (run_spec v c kt kf Hc HN HP o keys ND Hg _ _ Er i j p s Hi Hs) as [_ R]. specialize (R (Hin i p s Hi Hs)). cbv zeta in R.
  destruct R as (x & r & Sx & _ & Rr & Rc). unfold cell in Rc. cbn [fst snd] in Rc.
  unfold sample_result. cbv zeta. set (a := nth i (ant_1_array (v_u v)) 0) in *. set (b := nth i (ant_2_array (v_u v)) 0) in *.
  pose proof (sol_of_spec v c a b p s x Hw Hs Sx) as S. destruct x as [[s1 s2]|]; cbn [new_cell] in Rc; injection Rc as Rf Rv.
  - destruct S as [S1 S2]. split.
    + intros [K|K]; [elim (K s1); apply S1; reflexivity|elim (K s2); apply S2; reflexivity].
    + intros s1' s2' K1 K2. apply S1 in K1. apply S2 in K2. subst s1' s2'. exists (freq_used kf j), (time_used v c kt i r).
      split; [apply (freq_used_serves ftol v c kf j Tf); try assumption; apply Al|].
      split; [apply (time_used_serves ttol ftol o v c kt i r Tt Al Hkt Et Rr)|].
      apply (new_cell_calibrated o v v' c s1 s2 _ _ i j p _ _ eq_refl eq_refl).
      * rewrite Eu. exact Rf.
      * rewrite Ev, Rv. reflexivity.
  - split.
    + intros _. rewrite Ev, Eu, Rv. split; [reflexivity|exact Rf].
    + intros s1' s2' K1 K2. destruct S as [S|S]; [elim (S _ K1)|elim (S _ K2)].
Qed.

(** ** Undoing *)
Definition undoing (o : options) : options :=
  mkOpts (prop_flags o) (flip_gain_conj o) true (time_check o) (ant_check o) (uvc_conv o) (uvd_conv o).

Lemma run_keys_ext {S K} (f g : S -> K -> result S) keys : (forall s k, f s k = g s k) -> forall s, run_keys f keys s = run_keys g keys s.
Proof. intros H. induction keys as [|k keys IH]; intros s; [reflexivity|]. cbn [run_keys]. rewrite H. destruct (g s k); [apply IH|reflexivity]. Qed.

Lemma vdata_eta v : v = mkV (v_u v) (v_vis v) (v_numbers v) (v_names v) (v_xo v) (v_units v) (v_conv v).
Proof. destruct v; reflexivity. Qed.

Lemma prepare_undo ttol ftol o v c v1 cv kt kf keys fl : undo o = false ->
  prepare ttol ftol o v c = Ok (cv, (kt, kf), keys) ->
  v_u v1 = set_flag_array fl (v_u v) -> v_numbers v1 = v_numbers v -> v_names v1 = v_names v -> v_xo v1 = v_xo v ->
  v_units v1 = match k_scale c with Some s => s | None => v_units v end ->
  v_conv v1 = match k_scale c with None => v_conv v | Some _ => data_convention o v c end ->
  exists cv', prepare ttol ftol (undoing o) v1 c = Ok (cv', (kt, kf), keys) /\ (factor o v c * factor (undoing o) v1 c = 1)%Qc.
Proof.
  intros Hu H E1 E2 E3 E4 E5 E6.
  assert (G : exists cv', get_pol_conventions (undoing o) (v_conv v1) (k_conv c) = Ok cv' /\ (factor o v c * factor (undoing o) v1 c = 1)%Qc).
  { apply prepare_unfold in H. destruct H as (_ & H & _). unfold get_pol_conventions, factor, data_convention, cal_convention in *.
    rewrite E6. unfold data_convention, cal_convention. rewrite Hu in *.
    destruct o as [pf fg ud tc ac uc dc]. cbn [undoing undo uvc_conv uvd_conv] in *. subst ud.
    destruct (v_conv v); [destruct uc as [[]|], (k_conv c) as [[]|]; discriminate|].
    destruct uc as [[]|], dc as [[]|], (k_conv c) as [[]|], (k_scale c); cbn in *; try discriminate;
      eexists; (split; [reflexivity|]); apply Qc_is_canon; reflexivity. }
  destruct G as (cv' & G1 & G2). exists cv'. split; [|exact G2].
  rewrite (vdata_eta v1), E1, E2, E3, E4.
  unfold prepare in *. cbn [v_u v_conv v_numbers v_names v_units] in *.
  change (polarization_array (set_flag_array fl (v_u v))) with (polarization_array (v_u v)).
  destruct (existsb _ _); [discriminate|]. rewrite Hu in H. cbn [andb] in H. cbn [undoing undo andb].
  assert (Es : match k_scale c with Some s => negb (String.eqb s (v_units v1)) | None => false end = false).
  { rewrite E5. destruct (k_scale c); [rewrite String.eqb_refl|]; reflexivity. }
  rewrite Es. apply bind_Ok in H as (cv0 & _ & H). fold (undoing o). rewrite G1. cbn [bind].
  change (ant_1_array (set_flag_array fl (v_u v)) ++ ant_2_array (set_flag_array fl (v_u v))) with (ant_1_array (v_u v) ++ ant_2_array (v_u v)).
  apply bind_Ok in H as (mine & -> & H). cbn [bind]. apply bind_Ok in H as (theirs & -> & H). cbn [bind].
  change (ant_check (undoing o)) with (ant_check o). destruct (_ && ant_check o); [discriminate|].
  apply bind_Ok in H as (kt0 & Ht & H). apply bind_Ok in H as (kf0 & Hf & H). apply bind_Ok in H as (u0 & Hfe & H). apply bind_Ok in H as (keys0 & Hk & H).
  injection H as _ <- <- <-.
  assert (Ht' : match_times ttol (undoing o) (mkV (set_flag_array fl (v_u v)) (v_vis v1) (v_numbers v) (v_names v) (v_xo v) (v_units v1) (v_conv v1)) c = Ok kt0) by (rewrite <- Ht; reflexivity).
  rewrite Ht'. cbn [bind].
  assert (Hf' : match_freqs ftol (mkV (set_flag_array fl (v_u v)) (v_vis v1) (v_numbers v) (v_names v) (v_xo v) (v_units v1) (v_conv v1)) c = Ok kf0) by (rewrite <- Hf; reflexivity).
  rewrite Hf'. cbn [bind].
  assert (Hfe' : check_feeds (mkV (set_flag_array fl (v_u v)) (v_vis v1) (v_numbers v) (v_names v) (v_xo v) (v_units v1) (v_conv v1)) c = Ok u0) by (rewrite <- Hfe; reflexivity).
  rewrite Hfe'. cbn [bind].
  assert (Hk' : get_antpairpols (mkV (set_flag_array fl (v_u v)) (v_vis v1) (v_numbers v) (v_names v) (v_xo v) (v_units v1) (v_conv v1)) = Ok keys0) by (rewrite <- Hk; reflexivity).
  rewrite Hk'. reflexivity.
Qed.

Lemma new_vis_back o c s1 s2 f t F x : undo o = false -> (prop_flags o = true \/ pair_gain o c s1 s2 f t <> (0, 0)%Qc) ->
  new_vis (undoing o) c s1 s2 f t (cscale F (new_vis o c s1 s2 f t x)) = cscale F x.
Proof.
  intros Hu Hg. unfold new_vis. cbv zeta. change (pair_gain (undoing o) c s1 s2 f t) with (pair_gain o c s1 s2 f t).
  cbn [undoing prop_flags]. set (g := pair_gain o c s1 s2 f t) in *.
  unfold mult_gains. cbn [undoing undo]. rewrite Hu.
  destruct (prop_flags o && (close0 g || pair_flag c s1 s2 f t)) eqn:E.
  - destruct (k_multiply c); cbn [xorb]; rewrite ?cmul_1_r, ?cquot_1_r; reflexivity.
  - assert (Hn : g <> (0, 0)%Qc).
    { destruct Hg as [Hp|Hg]; [|exact Hg]. rewrite Hp in E. cbn [andb] in E. apply orb_false_iff in E. destruct E as [E _].
      intros ->. vm_compute in E. discriminate. }
    destruct (k_multiply c); cbn [xorb].
    + rewrite cquot_scale, cmul_cquot by exact Hn. reflexivity.
    + rewrite cmul_scale, cquot_cmul by exact Hn. reflexivity.
Qed.
Lemma new_flag_again o c s1 s2 f t b : new_flag (undoing o) c s1 s2 f t (new_flag o c s1 s2 f t b) = new_flag o c s1 s2 f t b.
Proof.
  unfold new_flag. change (pair_gain (undoing o) c s1 s2 f t) with (pair_gain o c s1 s2 f t). cbn [undoing prop_flags].
  rewrite <- orb_assoc, orb_diag. reflexivity.
Qed.
Lemma gain_nonzero o c s1 s2 f t : (forall a f t j, k_gain c a f t j <> (0, 0)%Qc) -> pair_gain o c s1 s2 f t <> (0, 0)%Qc.
Proof.
  intros H. unfold pair_gain. cbv zeta. pose proof (H (fst s1) f t (snd s1)) as H1. pose proof (H (fst s2) f t (snd s2)) as H2.
  set (g1 := k_gain c (fst s1) f t (snd s1)) in *. set (g2 := k_gain c (fst s2) f t (snd s2)) in *.
  assert (N : forall x y : cqc, norm2 (cmul x y) = (norm2 x * norm2 y)%Qc) by (intros [] []; unfold norm2, cmul; cbn [fst snd]; ring).
  assert (Nc : forall x : cqc, norm2 (conjq x) = norm2 x) by (intros []; unfold norm2, conjq; cbn [fst snd]; ring).
  assert (Z0 : norm2 (0, 0)%Qc = 0%Qc) by reflexivity.
  assert (K : (norm2 g1 * norm2 g2)%Qc <> 0%Qc).
  { intros K. apply Qcmult_integral in K. destruct K as [K|K]; apply norm2_zero in K; contradiction. }
  destruct (flip_gain_conj o); intros E; apply K; [rewrite <- (Nc g1), <- N|rewrite <- (Nc g2), <- N]; rewrite E; exact Z0.
Qed.

Lemma calibrate_undo ttol ftol o v c v1 : consistent (v_u v) -> NoDup (polarization_array (v_u v)) ->
  Forall (fun p => -8 <= p <= -1) (polarization_array (v_u v)) -> undo o = false ->
  prop_flags o = true \/ (forall a f t j, k_gain c a f t j <> (0, 0)%Qc) ->
  uvcalibrate ttol ftol o v c = (v1, Ok tt) ->
  exists v2, uvcalibrate ttol ftol (undoing o) v1 c = (v2, Ok tt) /\
    (forall i j p, (i < length (time_array (v_u v)))%nat -> (j < length (freq_array (v_u v)))%nat -> (p < length (polarization_array (v_u v)))%nat ->
       v_vis v2 i j p = v_vis v i j p /\ flag_array (v_u v2) i j p = flag_array (v_u v1) i j p) /\
    v_u v2 = set_flag_array (flag_array (v_u v2)) (v_u v) /\ v_units v2 = "uncalib"%string /\ v_conv v2 = None.
Proof.
  intros Hc HN HP Hu Hg H. apply calibrate_unfold in H.
  destruct H as (cv & kt & kf & keys & st & Ep & Er & Eu & Ev & En1 & En2 & Ex & Eun & Eco). rewrite Hu in Eun, Eco.
  destruct (prepare_undo ttol ftol o v c v1 cv kt kf keys (fst st) Hu Ep Eu En1 En2 Ex Eun Eco) as (cv' & Ep' & HF).
  apply prepare_unfold in Ep as (_ & Econv & _ & _ & Ek). apply conventions_spec in Econv as (_ & _ & Vnone). specialize (Vnone Hu).
  destruct (keys_spec v Hc HN keys Ek) as (ND & Hgk & Hin & Hpa).
  assert (Ext : forall s k, cal_key (undoing o) v1 c kt kf s k = cal_key (undoing o) v c kt kf s k).
  { intros s [[a b] q]. rewrite (vdata_eta v1), Eu, En1, En2, Ex. reflexivity. }
  destruct (run_any v c kt kf o (undoing o) keys _ _ (flag_array (v_u v1), v_vis v1) Er) as (st2 & Er2).
  destruct (uvcalibrate ttol ftol (undoing o) v1 c) as [v2 r2] eqn:E2.
  assert (R2 : r2 = Ok tt).
  { unfold uvcalibrate in E2. rewrite Ep' in E2. rewrite (run_keys_ext _ _ keys Ext), Er2 in E2. destruct (k_scale c); injection E2 as _ <-; reflexivity. }
  subst r2. exists v2. split; [reflexivity|]. apply calibrate_unfold in E2.
  destruct E2 as (cv2 & kt2 & kf2 & keys2 & st2' & Ep2 & Er2' & Eu2 & Ev2 & _ & _ & _ & Eun2 & Eco2).
  rewrite Ep' in Ep2. injection Ep2 as <- <- <- <-. rewrite (run_keys_ext _ _ keys Ext), Er2 in Er2'. injection Er2' as <-.
  split; [|split; [|split]].
  - intros i j p Hi Hj Hp. destruct (Hpa p Hp) as (s & Hs).
    destruct (run_spec v c kt kf Hc HN HP o keys ND Hgk _ _ Er i j p s Hi Hs) as [_ R]. specialize (R (Hin i p s Hi Hs)). cbv zeta in R.
    destruct (run_spec v c kt kf Hc HN HP (undoing o) keys ND Hgk _ _ Er2 i j p s Hi Hs) as [_ Q]. specialize (Q (Hin i p s Hi Hs)). cbv zeta in Q.
    destruct R as (x & r & Sx & _ & Rr & Rc). destruct Q as (x' & r' & Sx' & _ & Rr' & Qc'). assert (x' = x) by congruence. subst x'.
    assert (r' = r).
    { pose proof (StronglySorted_lt_NoDup _ (pair_rows_sorted (v_u v) (nth i (ant_1_array (v_u v)) 0) (nth i (ant_2_array (v_u v)) 0))) as NDr.
      apply (proj1 (NoDup_nth_error _) NDr); [apply nth_error_Some; congruence|congruence]. }
    subst r'. unfold cell in *. cbn [fst snd] in *. rewrite Ev in Qc'. rewrite Eu in Qc'. cbn [flag_array set_flag_array] in Qc'.
    rewrite Ev2, Eu2, Eu. cbn [flag_array set_flag_array].
    destruct x as [[s1 s2]|]; cbn [new_cell fst snd] in Rc, Qc'; injection Rc as Rf Rv; injection Qc' as Qf Qv.
    + rewrite Qv, Qf, Rv, Rf. rewrite new_flag_again. split; [|reflexivity].
      rewrite new_vis_back; [|exact Hu|destruct Hg as [Hg|Hg]; [left; exact Hg|right; apply gain_nonzero, Hg]].
      rewrite cscale_cscale, Qcmult_comm, HF, cscale_1. reflexivity.
    + rewrite Qv, Qf, Rv, Rf. split; [|reflexivity]. rewrite cscale_cscale, Qcmult_comm, HF, cscale_1. reflexivity.
  - rewrite Eu2, Eu. reflexivity.
  - exact Eun2.
  - rewrite Eco2. destruct (k_scale c); [reflexivity|]. rewrite Eco, Vnone. reflexivity.
Qed.
