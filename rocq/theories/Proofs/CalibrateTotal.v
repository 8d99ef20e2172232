(** Compatible objects are calibrated without an exception. *)
From Coq Require Import List ZArith QArith Qcanon Bool Arith Sorted String Lia.
From Verif Require Import Lib.Py Lib.Np Lib.Sorting Lib.Dict Lib.Cube Model.Pol Model.UVData Model.Hdf5 Model.Access Model.FreqAvg
  Model.UVFlag Model.Calibrate Spec.PolSpec Spec.UVDataSpec Spec.AccessSpec Spec.FlagSpec Spec.CalibrateSpec
  Proofs.PolProofs Proofs.Hdf5Proofs Proofs.AccessProofs Proofs.AccessRead Proofs.SelectTotal Proofs.FlagConvert Proofs.FlagApply
  Proofs.CalibrateBase Proofs.CalibrateAlign Proofs.CalibrateProofs Proofs.CalibrateTop.
Import ListNotations.
Open Scope Z_scope.
Open Scope list_scope.
Notation length := List.length.

Lemma jones_name k j : -8 <= j <= -1 -> exists s, jnum2str (Some k) j = Ok s.
Proof.
  intros H. rewrite jnum2str_repr. apply instr_In in H. unfold instr in H. simpl in H.
  destruct (omap_of (Some k)); (repeat destruct H as [<-|H]; try contradiction);
    (eexists; vm_compute; reflexivity).
Qed.
Lemma feeds_total xo y k p : -8 <= p <= -1 -> (y = xo \/ y = use_xo xo k) ->
  (side_of k = None -> match xo with None => True | Some x => side_of x = None end) ->
  exists s f1 f2, polnum2str y p = Ok s /\ dget String.eqb s POL_TO_FEED_DICT = Ok (f1, f2) /\
    jstr2num (Some k) f1 = Ok (turned (crossed xo k) (fst (feeds p))) /\
    jstr2num (Some k) f2 = Ok (turned (crossed xo k) (snd (feeds p))).
Proof.
  intros Hp Hy Ho. setoid_rewrite (polnum2str_repr y). setoid_rewrite (jstr2num_repr (Some k)). rewrite crossed_omap. rewrite side_map in Ho.
  assert (Ey : omap_of y = omap_of xo \/ (xo = None /\ omap_of y = omap_of (Some k))).
  { destruct Hy as [->| ->]; [left; reflexivity|]. destruct xo; [left|right; split]; reflexivity. }
  apply instr_In in Hp. unfold instr in Hp. simpl in Hp. destruct xo as [x|].
  - destruct Ey as [Ey|[Ey _]]; [|discriminate]. rewrite Ey. clear Ey Hy. rewrite side_map in Ho.
    destruct (omap_of (Some k)) eqn:Ek; destruct (omap_of (Some x)) eqn:Ex;
      try (specialize (Ho eq_refl); discriminate Ho);
      (repeat destruct Hp as [<-|Hp]; [..|contradiction]); (eexists; eexists; eexists;
      split; [vm_compute; reflexivity|]; split; [vm_compute; reflexivity|]; split; vm_compute; reflexivity).
  - clear Ho Hy. assert (Em : omap_of y = ONone \/ omap_of y = omap_of (Some k)) by (destruct Ey as [Ey|[_ Ey]]; auto). clear Ey.
    change (omap_of None) with ONone. destruct (omap_of (Some k)) eqn:Ek; destruct Em as [Em|Em]; rewrite Em;
      (repeat destruct Hp as [<-|Hp]; [..|contradiction]); (eexists; eexists; eexists;
      split; [vm_compute; reflexivity|]; split; [vm_compute; reflexivity|]; split; vm_compute; reflexivity).
Qed.

Lemma nodup_unique l : length (nodup Z.eq_dec l) = length (uniqueZ l).
Proof.
  apply Nat.le_antisymm; apply NoDup_incl_length.
  - apply NoDup_nodup.
  - intros x Hx. apply nodup_In in Hx. apply uniqueZ_In. exact Hx.
  - apply uniqueZ_NoDup.
  - intros x Hx. apply nodup_In. apply (proj1 (uniqueZ_In _ _)). exact Hx.
Qed.

Lemma used_names_ok numbers names nums : NoDup numbers -> length names = length numbers -> (forall x, In x nums -> In x numbers) ->
  exists l, used_names numbers names nums = Ok l /\ (forall s, In s l <-> exists x, In x nums /\ named numbers names x s).
Proof.
  intros ND L H. unfold used_names.
  assert (F : forall n, In n (uniqueZ nums) -> exists s, (match nonzero (Z.eqb n) numbers with k :: _ => Ok (nth k names EmptyString) | [] => Err IndexError end) = Ok s /\
              named numbers names n s).
  { intros n Hn. apply (proj1 (uniqueZ_In _ _)) in Hn. apply H in Hn. apply In_nth with (d := 0) in Hn. destruct Hn as (k & Hk & E).
    destruct (nonzero (Z.eqb n) numbers) as [|k' t] eqn:En.
    - exfalso. assert (K : In k (nonzero (Z.eqb n) numbers)) by (apply (nonzero_spec 0); split; [exact Hk|]; rewrite E; apply Z.eqb_refl). rewrite En in K. contradiction.
    - assert (K : In k' (nonzero (Z.eqb n) numbers)) by (rewrite En; left; reflexivity). apply (nonzero_spec 0) in K. destruct K as [K1 K2]. apply Z.eqb_eq in K2.
      eexists. split; [reflexivity|]. exists k'. split; [rewrite (nth_error_nth' _ 0 K1); congruence|]. apply nth_error_nth'. lia. }
  destruct (mapM_total (fun n => match nonzero (Z.eqb n) numbers with k :: _ => Ok (nth k names EmptyString) | [] => Err IndexError end) (uniqueZ nums)) as (l & El).
  { intros n Hn. destruct (F n Hn) as (s & Es & _). eauto. }
  exists l. split; [exact El|]. pose proof (mapM_Ok_length _ _ _ El) as Ll.
  assert (U : forall x s s', named numbers names x s -> named numbers names x s' -> s = s').
  { intros x s s' (k & A & B) (k' & A' & B'). assert (k = k') by (apply (proj1 (NoDup_nth_error _) ND); [apply nth_error_Some; congruence|congruence]). congruence. }
  intros s. split.
  - intros Hs. apply In_nth with (d := EmptyString) in Hs. destruct Hs as (r & Hr & <-). rewrite Ll in Hr.
    assert (K : In (nth r (uniqueZ nums) 0) (uniqueZ nums)) by (apply nth_In, Hr). destruct (F _ K) as (s & Es & Hn).
    pose proof (mapM_Ok_nth _ _ _ 0 EmptyString El r Hr) as E. cbv beta in E. exists (nth r (uniqueZ nums) 0). split; [apply (proj1 (uniqueZ_In _ _)), K|]. 
    match type of Es with ?a = _ => match type of E with ?b = _ => change b with a in E end end. rewrite Es in E. injection E as <-. exact Hn.
  - intros (x & Hx & Hn). apply (proj2 (uniqueZ_In _ _)) in Hx. apply In_nth with (d := 0) in Hx. destruct Hx as (r & Hr & <-).
    assert (K : In (nth r (uniqueZ nums) 0) (uniqueZ nums)) by (apply nth_In, Hr). destruct (F _ K) as (s' & Es & Hn').
    pose proof (mapM_Ok_nth _ _ _ 0 EmptyString El r Hr) as E. cbv beta in E. rewrite (U _ _ _ Hn Hn'). replace s' with (nth r l EmptyString) by congruence. apply nth_In. lia.
Qed.

Lemma match_freqs_total ftol v c : (forall f, In f (freq_array (v_u v)) -> exists g, In g (k_freqs c) /\ Z.abs (g - f) <= ftol) ->
  exists kf, match_freqs ftol v c = Ok kf.
Proof.
  intros H. unfold match_freqs. cbv zeta. destruct (allclose _ _ _); [eauto|].
  destruct (mapM_total (first_near ftol (k_freqs c)) (freq_array (v_u v))) as (keep & ->).
  { intros f Hf. destruct (H f Hf) as (g & A & B). eapply first_near_total; eauto. }
  cbn [bind]. eauto.
Qed.

Lemma match_times_total ttol ftol o v c : 0 <= ttol -> aligned ttol ftol v c -> consistent (v_u v) -> k_ntimes c <> 0%nat ->
  Ntimes (v_u v) = length (nodup Z.eq_dec (time_array (v_u v))) ->
  (match k_times c with
   | KTimes l => (length l = 1%nat /\ time_check o = false) \/
                 (forall t, In t (time_array (v_u v)) -> exists s, In s l /\ Z.abs (s - t) <= ttol)
   | KRanges l => (length l = 1%nat /\ time_check o = false) \/
                 (forall t, In t (time_array (v_u v)) -> exists r, In r l /\ within r t)
   end) -> exists kt, match_times ttol o v c = Ok kt.
Proof.
  intros Ht (_ & _ & Al) Hc Hk HN H. rewrite nodup_unique in HN. unfold match_times, k_ntimes in *. destruct (k_times c) as [l|l]; cbv zeta.
  - destruct (Nat.eq_dec (length l) 1) as [E1|E1].
    + rewrite E1. cbn [Nat.ltb Nat.leb andb Nat.eqb]. destruct (allclose ttol (uniqueZ l) (uniqueZ (time_array (v_u v)))) eqn:Ea; [eauto|].
      destruct (time_check o) eqn:Etc; [|eauto]. exfalso. destruct H as [[_ H]|H]; [discriminate|].
      destruct l as [|x [|]]; try discriminate. assert (Eu : uniqueZ [x] = [x]) by (apply sorted_uniqueZ; repeat constructor). rewrite Eu in Ea.
      rewrite <- not_true_iff_false in Ea. apply Ea. unfold allclose. cbn [length Nat.eqb]. rewrite orb_true_r. cbn [orb andb].
      apply forallb_forall. intros i Hi. apply in_seq in Hi. apply near_le. unfold bpos at 1. cbn [Nat.eqb nth].
      assert (K : In (nth (bpos (length (uniqueZ (time_array (v_u v)))) i) (uniqueZ (time_array (v_u v))) 0) (time_array (v_u v))).
      { apply (proj1 (uniqueZ_In _ _)). apply nth_In. unfold bpos. destruct (_ =? 1)%nat eqn:E; [apply Nat.eqb_eq in E|]; lia. }
      destruct (H _ K) as (s & [<-|[]] & Hs). exact Hs.
    + destruct H as [[H _]|H]; [contradiction|]. destruct Al as [Al|[Cl Al]]; [contradiction|].
      destruct (time_array (v_u v)) as [|t0 ts] eqn:Et; [destruct Hc as (_ & _ & _ & Hc & _); congruence|]. rewrite <- Et in *.
      assert (Hi : In 0%nat (pair_rows (v_u v) (nth 0 (ant_1_array (v_u v)) 0) (nth 0 (ant_2_array (v_u v)) 0))) by (apply pair_rows_In; rewrite Et; simpl; auto with arith).
      assert (Hr : pair_rows (v_u v) (nth 0 (ant_1_array (v_u v)) 0) (nth 0 (ant_2_array (v_u v)) 0) <> []) by (intros K; rewrite K in Hi; contradiction).
      destruct (Al _ _ Hr) as [CT Hall]. pose proof (times_unique _ _ _ _ CT Hall) as EU.
      destruct (mapM_total (first_near ttol l) (uniqueZ (time_array (v_u v)))) as (keep & EK).
      { intros t Hin. apply (proj1 (uniqueZ_In _ _)) in Hin. destruct (H t Hin) as (s & A & B). eapply first_near_total; eauto. }
      assert (L : (length (uniqueZ (time_array (v_u v))) <= length l)%nat).
      { rewrite EU in *. rewrite <- (mapM_Ok_length _ _ _ EK). apply NoDup_incl_length; [apply StronglySorted_Zlt_NoDup, (keep_sorted ttol l _ keep CT EK)|].
        intros x Hx. apply (keep_incl _ _ _ _ EK x Hx). }
      rewrite HN, (proj2 (Nat.ltb_ge _ _) L), andb_false_r. destruct (allclose _ _ _); [eauto|].
      rewrite (proj2 (Nat.eqb_neq _ _) E1), EK. cbn [bind]. eauto.
  - assert (Hcov : (forall t, In t (time_array (v_u v)) -> exists r, In r l /\ within r t) -> forall t, In t (uniqueZ (time_array (v_u v))) ->
        exists r, In r l /\ within r t) by (intros G t Hin; apply G, uniqueZ_In, Hin).
    destruct H as [[E1 E2]|H].
    + rewrite E1, E2. cbn [Nat.ltb Nat.leb andb Nat.eqb negb]. rewrite andb_false_r. eauto.
    + specialize (Hcov H). destruct (existsb _ _ && negb _) eqn:Eb.
      * exfalso. apply andb_true_iff in Eb. destruct Eb as [Eb _]. apply existsb_exists in Eb. destruct Eb as (t & Hin & Hb).
        destruct (Hcov t Hin) as (r & Hr & [W1 W2]). apply orb_true_iff in Hb. rewrite !forallb_forall in Hb.
        destruct Hb as [Hb|Hb]; specialize (Hb r Hr); apply Z.ltb_lt in Hb; lia.
      * destruct (_ && existsb _ _) eqn:Eb2; [|eauto]. exfalso. apply andb_true_iff in Eb2. destruct Eb2 as [_ Eb2]. apply existsb_exists in Eb2.
        destruct Eb2 as (t & Hin & Hb). destruct (Hcov t Hin) as (r & Hr & [W1 W2]). apply negb_true_iff in Hb. rewrite <- not_true_iff_false in Hb. apply Hb.
        apply existsb_exists. exists r. split; [exact Hr|]. apply andb_true_iff. rewrite !Z.leb_le. auto.
Qed.

Lemma check_feeds_total v c : Forall (fun p => -8 <= p <= -1) (polarization_array (v_u v)) -> Forall (fun j => -8 <= j <= -1) (k_jones c) ->
  (forall p, (p < length (polarization_array (v_u v)))%nat -> In (feed1 v c p) (k_jones c) /\ In (feed2 v c p) (k_jones c)) ->
  (side_of (k_xo c) = None -> match v_xo v with None => True | Some x => side_of x = None end) -> check_feeds v c = Ok tt.
Proof.
  intros HP HJ HF Ho. unfold check_feeds. cbv zeta. fold (use_xo (v_xo v) (k_xo c)).
  assert (FT : forall p, In p (polarization_array (v_u v)) -> exists s f1 f2 n1 n2, polnum2str (use_xo (v_xo v) (k_xo c)) p = Ok s /\
     dget String.eqb s POL_TO_FEED_DICT = Ok (f1, f2) /\ parse_jpolstr (Some (k_xo c)) f1 = Ok n1 /\ parse_jpolstr (Some (k_xo c)) f2 = Ok n2 /\
     (exists j, In j (k_jones c) /\ jnum2str (Some (k_xo c)) j = Ok n1) /\ (exists j, In j (k_jones c) /\ jnum2str (Some (k_xo c)) j = Ok n2)).
  { intros p Hp. assert (Rp : -8 <= p <= -1) by (rewrite Forall_forall in HP; apply HP, Hp).
    destruct (feeds_total (v_xo v) (use_xo (v_xo v) (k_xo c)) (k_xo c) p Rp (or_intror eq_refl) Ho) as (s & f1 & f2 & E1 & E2 & E3 & E4).
    apply In_nth with (d := 0) in Hp. destruct Hp as (q & Hq & <-). destruct (HF q Hq) as [F1 F2]. rewrite Forall_forall in HJ.
    destruct (jones_name (k_xo c) (feed1 v c q) (HJ _ F1)) as (n1 & N1). destruct (jones_name (k_xo c) (feed2 v c q) (HJ _ F2)) as (n2 & N2).
    exists s, f1, f2, n1, n2. split; [exact E1|]. split; [exact E2|]. unfold parse_jpolstr. rewrite E3, E4. cbn [bind]. split; [exact N1|]. split; [exact N2|]. split; [exists (feed1 v c q)|exists (feed2 v c q)]; split; assumption. }
  destruct (mapM_total (polnum2str (use_xo (v_xo v) (k_xo c))) (polarization_array (v_u v))) as (pols & Ep).
  { intros p Hp. destruct (FT p Hp) as (s & _ & _ & _ & _ & E & _). eauto. }
  rewrite Ep. cbn [bind]. destruct (mapM_total (jnum2str (Some (k_xo c))) (k_jones c)) as (have & Eh).
  { intros j Hj. rewrite Forall_forall in HJ. apply jones_name, HJ, Hj. }
  rewrite Eh. cbn [bind].
  assert (Hh : forall j n, In j (k_jones c) -> jnum2str (Some (k_xo c)) j = Ok n -> In n have).
  { intros j n Hj En. apply In_nth with (d := 0) in Hj. destruct Hj as (q & Hq & <-). pose proof (mapM_Ok_nth _ _ _ 0 EmptyString Eh q Hq) as E.
    replace n with (nth q have EmptyString) by congruence. apply nth_In. rewrite (mapM_Ok_length _ _ _ Eh). exact Hq. }
  assert (Ps : forall s, In s pols -> exists p, In p (polarization_array (v_u v)) /\ polnum2str (use_xo (v_xo v) (k_xo c)) p = Ok s).
  { intros s Hs. apply In_nth with (d := EmptyString) in Hs. destruct Hs as (q & Hq & <-). rewrite (mapM_Ok_length _ _ _ Ep) in Hq.
    exists (nth q (polarization_array (v_u v)) 0). split; [apply nth_In, Hq|]. apply (mapM_Ok_nth _ _ _ 0 EmptyString Ep q Hq). }
  destruct (mapM_total (fun s => dget String.eqb s POL_TO_FEED_DICT) pols) as (fds & Ef).
  { intros s Hs. destruct (Ps s Hs) as (p & Hp & Es). destruct (FT p Hp) as (s' & f1 & f2 & _ & _ & E1 & E2 & _). assert (s' = s) by congruence. subst s'. eauto. }
  rewrite Ef. cbn [bind].
  assert (Fs : forall f, In f fds -> exists n1 n2, parse_jpolstr (Some (k_xo c)) (fst f) = Ok n1 /\ parse_jpolstr (Some (k_xo c)) (snd f) = Ok n2 /\ In n1 have /\ In n2 have).
  { intros f Hf. apply In_nth with (d := (EmptyString, EmptyString)) in Hf. destruct Hf as (q & Hq & <-). rewrite (mapM_Ok_length _ _ _ Ef) in Hq.
    pose proof (mapM_Ok_nth _ _ _ EmptyString (EmptyString, EmptyString) Ef q Hq) as E. cbv beta in E.
    destruct (Ps (nth q pols EmptyString) (nth_In _ _ Hq)) as (p & Hp & Es).
    destruct (FT p Hp) as (s' & f1 & f2 & n1 & n2 & E1 & E2 & E3 & E4 & (j1 & A1 & B1) & (j2 & A2 & B2)). assert (s' = nth q pols EmptyString) by congruence. subst s'.
    rewrite E2 in E. injection E as <-. exists n1, n2. cbn [fst snd]. split; [exact E3|]. split; [exact E4|]. split; [exact (Hh j1 n1 A1 B1)|exact (Hh j2 n2 A2 B2)]. }
  destruct (mapM_total (parse_jpolstr (Some (k_xo c))) (flat_map (fun f => [fst f; snd f]) fds)) as (names & En).
  { intros s Hs. apply in_flat_map in Hs. destruct Hs as (f & Hf & [<-|[<-|[]]]); destruct (Fs f Hf) as (n1 & n2 & A & B & _); eauto. }
  rewrite En. cbn [bind].
  replace (forallb (fun s => memb String.eqb s have) names) with true; [reflexivity|]. symmetry. apply forallb_forall. intros n Hn.
  apply (memb_spec _ String.eqb_eq). apply In_nth with (d := EmptyString) in Hn. destruct Hn as (q & Hq & <-). rewrite (mapM_Ok_length _ _ _ En) in Hq.
  pose proof (mapM_Ok_nth _ _ _ EmptyString EmptyString En q Hq) as E.
  assert (K : In (nth q (flat_map (fun f : string * string => [fst f; snd f]) fds) EmptyString) (flat_map (fun f => [fst f; snd f]) fds)) by (apply nth_In, Hq).
  apply in_flat_map in K. destruct K as (f & Hf & K). destruct (Fs f Hf) as (n1 & n2 & A & B & C & D).
  destruct K as [K|[K|[]]]; rewrite <- K in E; congruence.
Qed.

Lemma run_total {S K} (step : S -> K -> result S) keys : (forall k s, In k keys -> exists s', step s k = Ok s') ->
  forall s, exists s', run_keys step keys s = (s', Ok tt).
Proof.
  induction keys as [|k keys IH]; intros H s; cbn [run_keys]; [eauto|]. destruct (H k s (or_introl eq_refl)) as (s' & ->).
  apply IH. intros k' s'' Hk. apply H. right; exact Hk.
Qed.

Lemma solution_total c n feed j : jstr2num (Some (k_xo c)) feed = Ok j -> exists r, solution c n feed = Ok r.
Proof. intros E. unfold solution. destruct n as [n|]; [|eauto]. destruct (isinZ n (k_ants c)); [|eauto]. rewrite E. cbn [bind]. eauto. Qed.

Lemma kt_fits ttol ftol o v c kt a b : 0 <= ttol -> aligned ttol ftol v c -> k_ntimes c <> 0%nat -> match_times ttol o v c = Ok kt ->
  pair_rows (v_u v) a b <> [] -> bcast (if by_range c then length (pair_rows (v_u v) a b) else length kt) (length (pair_rows (v_u v) a b)) = true.
Proof.
  intros Ht (_ & _ & Al) Hk H Hr. unfold bcast, by_range, k_ntimes in *. destruct (k_times c) as [l|l] eqn:Ek.
  - destruct (Nat.eq_dec (length l) 1) as [E1|E1].
    + assert (E : kt = seq 0 (length l)).
      { unfold match_times in H. rewrite Ek, E1 in H. cbv zeta in H. cbn [Nat.ltb Nat.leb andb Nat.eqb] in H.
        destruct (allclose _ _ _); [congruence|]. destruct (time_check o); congruence. }
      rewrite E, seq_length, E1. apply orb_true_r.
    + destruct Al as [Al|[Cl Al]]; [contradiction|]. destruct (Al a b Hr) as [CT Hall]. assert (Nl : l <> []) by (intros ->; apply Hk; reflexivity).
      assert (NT : pair_times (v_u v) a b <> []) by (unfold pair_times; intros K; apply map_eq_nil in K; contradiction).
      destruct (match_times_follows ttol o v c kt l Ht Ek Cl E1 Nl _ NT CT (times_unique _ _ _ _ CT Hall) H) as [L _].
      unfold pair_times in L. rewrite map_length in L. rewrite L, Nat.eqb_refl. reflexivity.
  - destruct (1 <? length l)%nat eqn:E1; [rewrite Nat.eqb_refl; reflexivity|]. apply Nat.ltb_ge in E1.
    assert (E : kt = seq 0 (length l)).
    { unfold match_times in H. rewrite Ek in H. cbv zeta in H. destruct (_ && negb _); [discriminate|]. destruct (_ && existsb _ _); congruence. }
    rewrite E, seq_length. replace (length l) with 1%nat by lia. apply orb_true_r.
Qed.

Lemma calibrate_total ttol ftol o v c : 0 <= ttol -> 0 <= ftol -> well_formed v c -> aligned ttol ftol v c -> compatible ttol ftol o v c ->
  exists v', uvcalibrate ttol ftol o v c = (v', Ok tt).
Proof.
  intros Tt Tf Hw Al (HA & NK & HK & HJ & HF & Ho & Nf & Hfr & HNt & Htm & Hun & Hud & Hag).
  pose proof Hw as (Hc & HN & HP & N1 & L1 & N2 & L2 & N3 & N4 & Hkf & Hkt).
  destruct (match_times_total ttol ftol o v c Tt Al Hc Hkt HNt Htm) as (kt & Et).
  destruct (match_freqs_total ftol v c Hfr) as (kf & Ef).
  pose proof (check_feeds_total v c HP HJ HF Ho) as Ecf.
  destruct (used_names_ok (v_numbers v) (v_names v) (ant_1_array (v_u v) ++ ant_2_array (v_u v)) N1 L1) as (mine & Em & Hm).
  { intros x Hx. apply in_app_iff in Hx. apply HA, Hx. }
  destruct (used_names_ok (k_numbers c) (k_names c) (k_ants c) NK L2 HK) as (theirs & Eth & Hth).
  assert (Eck : existsb (fun s => negb (memb String.eqb s theirs)) mine && ant_check o = false).
  { destruct (ant_check o) eqn:Ea; [|apply andb_false_r]. rewrite andb_true_r. apply not_true_iff_false. intros K. apply existsb_exists in K.
    destruct K as (s & Hs & Kn). apply Hm in Hs. destruct Hs as (x & Hx & Hn). apply in_app_iff in Hx. destruct (HA x Hx) as [_ Hka].
    destruct (Hka eq_refl) as (s' & m & A & B & C). assert (s' = s).
    { destruct A as (k & A1 & A2), Hn as (k' & B1 & B2). assert (k = k') by (apply (proj1 (NoDup_nth_error _) N1); [apply nth_error_Some; congruence|congruence]). congruence. }
    subst s'. apply negb_true_iff in Kn. rewrite <- not_true_iff_false in Kn. apply Kn. apply (memb_spec _ String.eqb_eq). apply Hth. eauto. }
  assert (Ecv : exists cv, get_pol_conventions o (v_conv v) (k_conv c) = Ok cv).
  { unfold get_pol_conventions. destruct (undo o) eqn:Eu.
    - destruct (Hun eq_refl) as [_ Hd]. unfold agree in *. destruct (uvc_conv o) as [[]|], (k_conv c) as [[]|], (uvd_conv o) as [[]|], (v_conv v) as [[]|]; try discriminate; cbn; eauto.
    - rewrite (Hud eq_refl). unfold agree in *. destruct (uvc_conv o) as [[]|], (k_conv c) as [[]|]; try discriminate; cbn; eauto. }
  destruct Ecv as (cv & Ecv).
  destruct (get_pairs_ok _ Hc) as (aps & Eap & NDa & Hap).
  destruct (mapM_total (polnum2str (v_xo v)) (polarization_array (v_u v))) as (pols & Epol).
  { intros p Hp. rewrite Forall_forall in HP. destruct (feeds_total (v_xo v) (v_xo v) (k_xo c) p (HP p Hp) (or_introl eq_refl) Ho) as (s & _ & _ & E & _). eauto. }
  assert (Ekeys : exists keys, get_antpairpols v = Ok keys) by (unfold get_antpairpols; rewrite Epol; cbn [bind]; rewrite Eap; cbn [bind]; eauto).
  destruct Ekeys as (keys & Ekeys).
  assert (Ep : prepare ttol ftol o v c = Ok (cv, (kt, kf), keys)).
  { unfold prepare. replace (existsb (fun p => 0 <? p) (polarization_array (v_u v))) with false.
    - replace (undo o && _) with false; [rewrite Ecv; cbn [bind]; rewrite Em; cbn [bind]; rewrite Eth; cbn [bind]; rewrite Eck, Et; cbn [bind]; rewrite Ef; cbn [bind]; rewrite Ecf; cbn [bind]; rewrite Ekeys; reflexivity|].
      destruct (undo o) eqn:Eu; [|reflexivity]. destruct (Hun eq_refl) as [Hs _]. cbn [andb]. destruct (k_scale c); [|reflexivity].
      unfold agree in Hs. subst. rewrite String.eqb_refl. reflexivity.
    - symmetry. apply not_true_iff_false. intros K. apply existsb_exists in K. destruct K as (p & Hp & K). apply Z.ltb_lt in K.
      rewrite Forall_forall in HP. specialize (HP p Hp). lia. }
  destruct (keys_spec v Hc HN keys Ekeys) as (_ & Hg & _).
  destruct (run_total (cal_key o v c kt kf) keys) with (s := (flag_array (v_u v), v_vis v)) as (st & Er).
  { intros [[a b] s] st0 Hk. destruct (Hg _ Hk) as (Hr & q & Hq). cbn [fst snd] in *.
    pose proof (pol_at_range v HP q s Hq) as Rq. destruct (search_rows _ a b Hc Hr) as (ix & E1 & E2). unfold cal_key. rewrite E1. cbn [bind]. rewrite E2. cbn [bind].
    destruct Hq as [Hq1 Hq2]. destruct (feeds_ok (v_xo v) (k_xo c) _ s Rq Hq2) as [Epn _].
    fold (use_xo (v_xo v) (k_xo c)). rewrite Epn. cbn [bind]. cbv zeta.
    destruct (feeds_total (v_xo v) (v_xo v) (k_xo c) _ Rq (or_introl eq_refl) Ho) as (s' & f1 & f2 & F1 & F2 & F3 & F4). assert (s' = s) by congruence. subst s'.
    rewrite F2. cbn [bind fst snd]. destruct (solution_total c (antenna_of v c a) f1 _ F3) as (r1 & ->). cbn [bind].
    destruct (solution_total c (antenna_of v c b) f2 _ F4) as (r2 & ->). cbn [bind].
    destruct r1 as [s1|]; [destruct r2 as [s2|]|]; eauto. rewrite (kt_fits ttol ftol o v c kt a b Tt Al Hkt Et Hr).
    destruct Al as (C1 & C2 & _). destruct (match_freqs_follows ftol v c kf Tf C1 C2 Hkf Ef) as [K|[L _]]; [contradiction|].
    unfold bcast. unfold Nfreqs. rewrite L, Nat.eqb_refl. cbn [orb andb]. eauto. }
  unfold uvcalibrate. rewrite Ep, Er. destruct (k_scale c); eauto.
Qed.
