(** What uvcalibrate does to each sample. *)
From Coq Require Import List ZArith QArith Qcanon Bool Arith Sorted String Lia.
From Verif Require Import Lib.Py Lib.Np Lib.Sorting Lib.Dict Lib.Cube Model.Pol Model.UVData Model.Hdf5 Model.Access Model.FreqAvg
  Model.UVFlag Model.Calibrate Spec.PolSpec Spec.UVDataSpec Spec.AccessSpec Spec.FlagSpec Spec.CalibrateSpec
  Proofs.PolProofs Proofs.Hdf5Proofs Proofs.AccessProofs Proofs.AccessRead Proofs.FlagConvert Proofs.FlagApply
  Proofs.CalibrateBase Proofs.CalibrateAlign.
Import ListNotations.
Open Scope Z_scope.
Open Scope list_scope.
Notation length := List.length.

Definition sol_of (v : vdata) (c : cal) (a b : Z) (pol : string) : result (option ((nat * nat) * (nat * nat))) :=
  do feeds <- dget String.eqb pol POL_TO_FEED_DICT;
  do s1 <- solution c (antenna_of v c a) (fst feeds);
  do s2 <- solution c (antenna_of v c b) (snd feeds);
  Ok (match s1, s2 with Some s1, Some s2 => Some (s1, s2) | _, _ => None end).

(** The new flag and visibility of row [i], the [r]-th of its baseline, channel [j] *)
Definition new_cell (o : options) (v : vdata) (c : cal) (kt kf : list nat) (x : option ((nat * nat) * (nat * nat)))
    (i r j : nat) (old : bool * cqc) : bool * cqc :=
  match x with
  | None => (true, snd old)
  | Some (s1, s2) => (new_flag o c s1 s2 (freq_used kf j) (time_used v c kt i r) (fst old),
                      new_vis o c s1 s2 (freq_used kf j) (time_used v c kt i r) (snd old))
  end.
Definition fits (v : vdata) (c : cal) (kt kf : list nat) (n : nat) : Prop :=
  bcast (if by_range c then n else length kt) n = true /\ bcast (length kf) (Nfreqs (v_u v)) = true.
Definition cell (s : cube bool * cube cqc) (i j p : nat) : bool * cqc := (fst s i j p, snd s i j p).

Definition pol_at (v : vdata) (q : nat) (s : string) : Prop :=
  (q < length (polarization_array (v_u v)))%nat /\ polnum2str (v_xo v) (nth q (polarization_array (v_u v)) 0) = Ok s.

Section Run.
  Context (v : vdata) (c : cal) (kt kf : list nat)
          (Hc : consistent (v_u v)) (HN : NoDup (polarization_array (v_u v)))
          (HP : Forall (fun p => -8 <= p <= -1) (polarization_array (v_u v))).

  Lemma pol_at_range q s : pol_at v q s -> -8 <= nth q (polarization_array (v_u v)) 0 <= -1.
  Proof. intros [Hq _]. rewrite Forall_forall in HP. apply HP, nth_In, Hq. Qed.
  Lemma pol_at_inj q q' s : pol_at v q s -> pol_at v q' s -> q = q'.
  Proof.
    intros [A1 A2] [B1 B2]. apply (proj1 (NoDup_nth _ 0) HN); try assumption. eapply pol_names_distinct; eauto.
  Qed.

  Lemma key_spec o st st' a b q s : pol_at v q s -> pair_rows (v_u v) a b <> [] -> cal_key o v c kt kf st (a, b, s) = Ok st' ->
    exists x, sol_of v c a b s = Ok x /\ (x <> None -> fits v c kt kf (length (pair_rows (v_u v) a b))) /\
    forall i j p, (i < length (time_array (v_u v)))%nat ->
      (pair_of (v_u v) i <> (a, b) \/ p <> q -> cell st' i j p = cell st i j p) /\
      (pair_of (v_u v) i = (a, b) -> p = q ->
         exists r, nth_error (pair_rows (v_u v) a b) r = Some i /\ cell st' i j p = new_cell o v c kt kf x i r j (cell st i j p)).
  Proof.
    intros Hq Hr H. unfold cal_key in H. destruct (search_rows _ a b Hc Hr) as (ix & E1 & E2). rewrite E1 in H. cbn [bind] in H.
    rewrite E2 in H. cbn [bind] in H. pose proof (pol_at_range q s Hq) as Rq. pose proof Hq as [Hq1 Hq2].
    destruct (feeds_ok (v_xo v) (k_xo c) _ s Rq Hq2) as [Ep _].
    change (match v_xo v with None => Some (k_xo c) | Some x => Some x end) with (use_xo (v_xo v) (k_xo c)) in H.
    rewrite Ep in H. cbn [bind] in H. cbv zeta in H.
    rewrite (argmin_abs_at _ q _ HN (nth_error_nth' _ 0 Hq1)) in H.
    apply bind_Ok in H as (fd & Ef & H). apply bind_Ok in H as (s1 & Es1 & H). apply bind_Ok in H as (s2 & Es2 & H).
    unfold sol_of. rewrite Ef. cbn [bind]. rewrite Es1. cbn [bind]. rewrite Es2. cbn [bind]. eexists. split; [reflexivity|].
    assert (Hin : forall i, (i < length (time_array (v_u v)))%nat -> (In i (pair_rows (v_u v) a b) <-> pair_of (v_u v) i = (a, b))).
    { intros i Hi. rewrite pair_rows_In. unfold pair_of. split; [intros (_ & -> & ->); reflexivity|intros E; injection E; auto]. }
    assert (Miss : st' = (fun i j p : nat => if isinN i (pair_rows (v_u v) a b) && (p =? q)%nat then true else fst st i j p, snd st) ->
      forall i j p, (i < length (time_array (v_u v)))%nat ->
      (pair_of (v_u v) i <> (a, b) \/ p <> q -> cell st' i j p = cell st i j p) /\
      (pair_of (v_u v) i = (a, b) -> p = q ->
         exists r, nth_error (pair_rows (v_u v) a b) r = Some i /\ cell st' i j p = new_cell o v c kt kf None i r j (cell st i j p))).
    { intros -> i j p Hi. unfold cell. cbn [fst snd]. split.
      - intros Hne. destruct (isinN i (pair_rows (v_u v) a b)) eqn:Ei; cbn [andb]; [|reflexivity].
        destruct (p =? q)%nat eqn:Epq; [|reflexivity]. apply Nat.eqb_eq in Epq. apply isinN_spec in Ei. apply Hin in Ei; [|exact Hi]. tauto.
      - intros Hp ->. apply Hin in Hp; [|exact Hi]. destruct (index_of_in i _ Hp) as (r & _ & Hr' & Hn). exists r.
        split; [rewrite (nth_error_nth' _ 0%nat Hr'); congruence|]. rewrite (proj2 (isinN_spec _ _) Hp), Nat.eqb_refl. reflexivity. }
    destruct s1 as [s1|]; [destruct s2 as [s2|]|].
    - destruct (bcast _ _ && bcast _ _) eqn:Eb; [|discriminate]. injection H as <-. apply andb_true_iff in Eb.
      split; [intros _; exact Eb|]. intros i j p Hi. unfold cell. cbn [fst snd]. split.
      + intros Hne. destruct (index_of Nat.eqb i (pair_rows (v_u v) a b)) as [r|] eqn:Ei; [|reflexivity].
        destruct (p =? q)%nat eqn:Epq; [|reflexivity]. apply Nat.eqb_eq in Epq.
        apply (index_of_Some Nat.eqb Nat.eqb_eq 0%nat) in Ei. destruct Ei as (Hlt & En & _).
        assert (K : In i (pair_rows (v_u v) a b)) by (rewrite <- En; apply nth_In, Hlt). apply Hin in K; [tauto|exact Hi].
      + intros Hp ->. apply Hin in Hp; [|exact Hi]. destruct (index_of_in i _ Hp) as (r & Er & Hr' & Hn). exists r.
        split; [rewrite (nth_error_nth' _ 0%nat Hr'); congruence|]. rewrite Er, Nat.eqb_refl. reflexivity.
    - injection H as <-. split; [congruence|]. apply Miss. reflexivity.
    - injection H as <-. split; [congruence|]. apply Miss. reflexivity.
  Qed.

  (** Whether a step fails depends neither on the state nor on the options *)
  Lemma key_any o o2 st st' st2 k : cal_key o v c kt kf st k = Ok st' -> exists st2', cal_key o2 v c kt kf st2 k = Ok st2'.
  Proof.
    destruct k as [[a b] s]. unfold cal_key. intros H. apply bind_Ok in H as (ix & -> & H). cbn [bind].
    apply bind_Ok in H as (rows & -> & H). cbn [bind]. apply bind_Ok in H as (n & -> & H). cbn [bind]. cbv zeta in H. cbv zeta.
    apply bind_Ok in H as (fd & -> & H). cbn [bind]. apply bind_Ok in H as (s1 & -> & H). cbn [bind]. apply bind_Ok in H as (s2 & -> & H). cbn [bind].
    destruct s1 as [s1|]; [destruct s2 as [s2|]|]; eauto. destruct (bcast _ _ && bcast _ _); [eauto|discriminate].
  Qed.
  Lemma run_any o o2 keys : forall st st' st2, run_keys (cal_key o v c kt kf) keys st = (st', Ok tt) ->
    exists st2', run_keys (cal_key o2 v c kt kf) keys st2 = (st2', Ok tt).
  Proof.
    induction keys as [|k keys IH]; intros st st' st2 H; cbn [run_keys] in *; [eauto|].
    destruct (cal_key o v c kt kf st k) as [s1|] eqn:E; [|discriminate]. destruct (key_any o o2 st s1 st2 k E) as (s2 & ->). eapply IH; eauto.
  Qed.

  Definition good (k : Z * Z * string) : Prop :=
    pair_rows (v_u v) (fst (fst k)) (snd (fst k)) <> [] /\ exists q, pol_at v q (snd k).

  Lemma run_spec o keys : NoDup keys -> (forall k, In k keys -> good k) -> forall st st', run_keys (cal_key o v c kt kf) keys st = (st', Ok tt) ->
    forall i j p s, (i < length (time_array (v_u v)))%nat -> pol_at v p s ->
      (~ In (pair_of (v_u v) i, s) keys -> cell st' i j p = cell st i j p) /\
      (In (pair_of (v_u v) i, s) keys ->
         let a := nth i (ant_1_array (v_u v)) 0 in let b := nth i (ant_2_array (v_u v)) 0 in
         exists x r, sol_of v c a b s = Ok x /\ (x <> None -> fits v c kt kf (length (pair_rows (v_u v) a b))) /\
           nth_error (pair_rows (v_u v) a b) r = Some i /\ cell st' i j p = new_cell o v c kt kf x i r j (cell st i j p)).
  Proof.
    intros ND. induction ND as [|k keys Hnin ND IH]; intros Hg st st' H i j p s Hi Hp; cbn [run_keys] in H.
    - injection H as <-. split; [reflexivity|contradiction].
    - destruct (cal_key o v c kt kf st k) as [st1|] eqn:E; [|discriminate].
      destruct (IH (fun x K => Hg x (or_intror K)) st1 st' H i j p s Hi Hp) as [B1 B2].
      destruct (Hg k (or_introl eq_refl)) as (Hr & q & Hq). destruct k as [[a b] s']. cbn [fst snd] in *.
      destruct (key_spec o st st1 a b q s' Hq Hr E) as (x & Ex & Fx & Kx). destruct (Kx i j p Hi) as [A1 A2].
      assert (D : (pair_of (v_u v) i = (a, b) /\ p = q) \/ (pair_of (v_u v) i <> (a, b) \/ p <> q)).
      { destruct (zpair_eqb (pair_of (v_u v) i) (a, b)) eqn:Ez; [apply pair_eqb_eq in Ez|].
        - destruct (Nat.eq_dec p q); tauto.
        - right; left. intros K. apply pair_eqb_eq in K. congruence. }
      destruct D as [[D ->]|D].
      + assert (s = s') by (destruct Hp as [_ Hp], Hq as [_ Hq]; congruence). subst s'.
        split; [intros K; elim K; left; rewrite D; reflexivity|]. intros _. rewrite D in B1. specialize (B1 Hnin).
        destruct (A2 D eq_refl) as (r & R1 & R2). unfold pair_of in D. injection D as Da Db. cbv zeta. rewrite Da, Db. exists x, r. rewrite B1. auto.
      + assert (Hne : (pair_of (v_u v) i, s) <> (a, b, s')).
        { intros K. apply pair_equal_spec in K. destruct K as [K1 K2]. subst s'. destruct D as [D|D]; [contradiction|]. apply D. eapply pol_at_inj; eauto. }
        rewrite (A1 D) in *. split.
        * intros K. apply B1. intros K2. apply K. right; exact K2.
        * intros [K|K]; [congruence|]. apply B2. exact K.
  Qed.

  Lemma keys_spec keys : get_antpairpols v = Ok keys ->
    NoDup keys /\ (forall k, In k keys -> good k) /\
    (forall i p s, (i < length (time_array (v_u v)))%nat -> pol_at v p s -> In (pair_of (v_u v) i, s) keys) /\
    (forall p, (p < length (polarization_array (v_u v)))%nat -> exists s, pol_at v p s).
  Proof.
    unfold get_antpairpols. intros H. apply bind_Ok in H as (pols & Ep & H). apply bind_Ok in H as (aps & Ea & H). injection H as <-.
    destruct (get_pairs_ok _ Hc) as (l & E & NDl & Hl). assert (l = aps) by congruence. subst l. clear E.
    pose proof (mapM_Ok_length _ _ _ Ep) as Lp.
    assert (Hat : forall q, (q < length (polarization_array (v_u v)))%nat -> pol_at v q (nth q pols EmptyString)).
    { intros q Hq. split; [exact Hq|]. apply (mapM_Ok_nth _ _ _ 0 EmptyString Ep q Hq). }
    assert (NDp : NoDup pols).
    { apply (NoDup_nth pols EmptyString). intros i j Hi Hj E. rewrite Lp in Hi, Hj. apply (pol_at_inj i j (nth i pols EmptyString)); [apply Hat, Hi|rewrite E; apply Hat, Hj]. }
    split; [|split; [|split]].
    - clear -NDl NDp. induction NDl as [|ap l Hn NDl IH]; [constructor|]. cbn [flat_map].
      assert (G : forall (A B : list (Z * Z * string)), NoDup A -> NoDup B -> (forall x, In x A -> ~ In x B) -> NoDup (A ++ B)).
      { intros A B HA HB Hd. induction HA as [|x A Hx HA IHA]; [exact HB|]. cbn [app]. constructor.
        - rewrite in_app_iff. intros [K|K]; [apply Hx, K|apply (Hd x (or_introl eq_refl) K)].
        - apply IHA. intros y Hy. apply Hd. right; exact Hy. }
      apply G; [|exact IH|].
      + clear -NDp. induction NDp as [|p l Hp NDp IH]; [constructor|]. cbn [map]. constructor; [|exact IH].
        intros K. apply in_map_iff in K. destruct K as (y & E & Hy). injection E as <-. apply Hp, Hy.
      + intros x Hx K. apply in_map_iff in Hx. destruct Hx as (p & <- & _). apply in_flat_map in K. destruct K as (ap' & Hap & K).
        apply in_map_iff in K. destruct K as (p' & E & _). injection E as <- _. apply Hn, Hap.
    - intros [[a b] s] Hk. apply in_flat_map in Hk. destruct Hk as ([a' b'] & Hap & Hk). apply in_map_iff in Hk. destruct Hk as (s' & E & Hs).
      injection E as <- <- <-. split; cbn [fst snd]; [apply Hl, Hap|]. apply In_nth with (d := EmptyString) in Hs. destruct Hs as (q & Hq & <-).
      exists q. apply Hat. lia.
    - intros i p s Hi Hp. apply in_flat_map. exists (pair_of (v_u v) i). split.
      + unfold pair_of. apply Hl. intros K. assert (In i []); [|contradiction]. rewrite <- K. apply pair_rows_In. auto.
      + apply in_map_iff. exists s. split; [reflexivity|]. destruct Hp as [Hp1 Hp2]. destruct (Hat p Hp1) as [_ E].
        replace s with (nth p pols EmptyString) by congruence. apply nth_In. lia.
    - intros p Hp. eexists. apply Hat, Hp.
  Qed.
End Run.

(** ** A successful call *)
Lemma prepare_unfold ttol ftol o v c cv kt kf keys : prepare ttol ftol o v c = Ok (cv, (kt, kf), keys) ->
  (undo o = true -> match k_scale c with None => True | Some s => s = v_units v end) /\
  get_pol_conventions o (v_conv v) (k_conv c) = Ok cv /\
  match_times ttol o v c = Ok kt /\ match_freqs ftol v c = Ok kf /\ get_antpairpols v = Ok keys.
Proof.
  unfold prepare. destruct (existsb _ _); [discriminate|].
  destruct (undo o && _) eqn:Eu; [discriminate|]. intros H. apply bind_Ok in H as (cv' & E1 & H).
  apply bind_Ok in H as (mine & _ & H). apply bind_Ok in H as (theirs & _ & H). destruct (_ && ant_check o); [discriminate|].
  apply bind_Ok in H as (kt' & E2 & H). apply bind_Ok in H as (kf' & E3 & H). apply bind_Ok in H as (u & _ & H). apply bind_Ok in H as (keys' & E4 & H).
  injection H as <- <- <- <-. split; [|auto]. intros Hu. rewrite Hu in Eu. cbn [andb] in Eu. destruct (k_scale c) as [s|]; [|exact I].
  apply negb_false_iff in Eu. apply String.eqb_eq. exact Eu.
Qed.

Lemma conventions_spec o v c cv : get_pol_conventions o (v_conv v) (k_conv c) = Ok cv ->
  fst cv = cal_convention o v c /\ snd cv = data_convention o v c /\ (undo o = false -> v_conv v = None).
Proof.
  unfold get_pol_conventions, data_convention, cal_convention. intros H.
  destruct (uvc_conv o) as [[]|], (uvd_conv o) as [[]|], (v_conv v) as [[]|], (k_conv c) as [[]|], (undo o); cbn in *;
    try discriminate; injection H as <-; cbn; (split; [reflexivity|]; split; [reflexivity|]); intros E; try reflexivity; discriminate E.
Qed.
Lemma correction_factor o v c : match k_scale c with None => 1%Qc | Some _ => correction (undo o) (cal_convention o v c) (data_convention o v c) end = factor o v c.
Proof.
  unfold factor. destruct (k_scale c); [|reflexivity]. unfold data_convention, cal_convention, correction.
  destruct (uvc_conv o) as [[]|], (uvd_conv o) as [[]|], (v_conv v) as [[]|], (k_conv c) as [[]|], (undo o); cbn;
    apply Qc_is_canon; reflexivity.
Qed.

(** The state after a successful call *)
Lemma calibrate_unfold ttol ftol o v c v' : uvcalibrate ttol ftol o v c = (v', Ok tt) ->
  exists cv kt kf keys st,
    prepare ttol ftol o v c = Ok (cv, (kt, kf), keys) /\
    run_keys (cal_key o v c kt kf) keys (flag_array (v_u v), v_vis v) = (st, Ok tt) /\
    v_u v' = set_flag_array (fst st) (v_u v) /\
    (forall i j p, v_vis v' i j p = cscale (factor o v c) (snd st i j p)) /\
    v_numbers v' = v_numbers v /\ v_names v' = v_names v /\ v_xo v' = v_xo v /\
    v_units v' = (if undo o then "uncalib"%string else match k_scale c with Some s => s | None => v_units v end) /\
    v_conv v' = (match k_scale c with None => v_conv v | Some _ => if undo o then None else data_convention o v c end).
Proof.
  unfold uvcalibrate. destruct (prepare ttol ftol o v c) as [[[cv [kt kf]] keys]|] eqn:Ep; [|discriminate].
  destruct (run_keys _ keys _) as [st r] eqn:Er. intros H.
  pose proof (prepare_unfold _ _ _ _ _ _ _ _ _ Ep) as (_ & Ec & _). apply conventions_spec in Ec. destruct Ec as (E1 & E2 & _).
  destruct r as [[]|]; [|discriminate]. exists cv, kt, kf, keys, st. split; [reflexivity|]. split; [exact Er|].
  pose proof (correction_factor o v c) as F.
  destruct (k_scale c) as [s|]; injection H as <-; cbn [v_u v_vis v_numbers v_names v_xo v_units v_conv].
  - split; [reflexivity|]. split; [intros; rewrite <- F, E1, E2; reflexivity|]. rewrite E2. auto.
  - split; [reflexivity|]. split; [intros; rewrite <- F, cscale_1; reflexivity|]. auto.
Qed.

(** ** Flags only grow, whatever happens *)
Lemma cal_key_mono o v c kt kf st k st' : cal_key o v c kt kf st k = Ok st' -> forall i j p, fst st i j p = true -> fst st' i j p = true.
Proof.
  destruct k as [[a b] s]. unfold cal_key. intros H. apply bind_Ok in H as (ix & _ & H). apply bind_Ok in H as (rows & _ & H).
  apply bind_Ok in H as (n & _ & H). cbv zeta in H. apply bind_Ok in H as (fd & _ & H). apply bind_Ok in H as (s1 & _ & H). apply bind_Ok in H as (s2 & _ & H).
  intros i j p Ht. destruct s1 as [s1|]; [destruct s2 as [s2|]|].
  - destruct (bcast _ _ && bcast _ _); [|discriminate]. injection H as <-. cbn [fst]. destruct (index_of Nat.eqb i rows); [|exact Ht].
    destruct (p =? _)%nat; [|exact Ht]. unfold new_flag. rewrite Ht. reflexivity.
  - injection H as <-. cbn [fst]. destruct (_ && _); [reflexivity|exact Ht].
  - injection H as <-. cbn [fst]. destruct (_ && _); [reflexivity|exact Ht].
Qed.
Lemma run_mono o v c kt kf keys : forall st st' r, run_keys (cal_key o v c kt kf) keys st = (st', r) -> forall i j p, fst st i j p = true -> fst st' i j p = true.
Proof.
  induction keys as [|k keys IH]; intros st st' r H i j p Ht; cbn [run_keys] in H; [injection H as <- _; exact Ht|].
  destruct (cal_key o v c kt kf st k) as [s1|] eqn:E; [|injection H as <- _; exact Ht].
  eapply IH; [exact H|]. eapply cal_key_mono; eauto.
Qed.
Lemma calibrate_mono ttol ftol o v c v' r : uvcalibrate ttol ftol o v c = (v', r) -> forall i j p, flag_array (v_u v) i j p = true -> flag_array (v_u v') i j p = true.
Proof.
  unfold uvcalibrate. intros H i j p Ht. destruct (prepare ttol ftol o v c) as [[[cv [kt kf]] keys]|]; [|injection H as <- _; exact Ht].
  destruct (run_keys _ keys _) as [st r'] eqn:Er. pose proof (run_mono _ _ _ _ _ _ _ _ _ Er i j p Ht) as K.
  destruct r' as [[]|]; [|injection H as <- _; exact K]. destruct (k_scale c); injection H as <- _; exact K.
Qed.
