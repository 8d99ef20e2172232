(** Proofs about UVBeam.select. *)
From Coq Require Import List ZArith Bool Arith String Lia Sorting.Sorted.
From Verif Require Import Lib.Py Lib.Np Lib.Dict Lib.Cube Lib.Sorting Model.Pol Model.Select Spec.SelectSpec Model.BeamSelect Spec.BeamSelectSpec Proofs.SelectTotal Proofs.FlagSelectProofs Proofs.FlagSelectTop.
Import ListNotations.
Notation length := List.length.
Open Scope list_scope.
Open Scope Z_scope.

(** * Maps of axes *)
Definition axm {A} (d : A) (s : nat -> nat) (l l' : list A) : Prop :=
  forall i, (i < length l')%nat -> (s i < length l)%nat /\ nth i l' d = nth (s i) l d.

Lemma axm_id {A} (d : A) l : axm d (fun i => i) l l.
Proof. intros i L. auto. Qed.
Lemma axm_trans {A} (d : A) s t l l1 l2 : axm d s l l1 -> axm d t l1 l2 -> axm d (fun i => s (t i)) l l2.
Proof. intros H K i L. destruct (K i L) as (L1 & E1). destruct (H _ L1) as (L0 & E0). split; [exact L0 | congruence]. Qed.
Lemma axm_take {A} (d : A) l idx : (forall i, In i idx -> (i < length l)%nat) -> axm d (at_ idx) l (take d l idx).
Proof.
  intros H i L. rewrite take_length in L. unfold at_. split.
  - apply H, nth_In, L.
  - apply nth_take, L.
Qed.
Lemma axm_inj {A} (d : A) s l l' i i' : NoDup l -> axm d s l l' -> (i < length l)%nat -> (i' < length l')%nat ->
  nth i l d = nth i' l' d -> i = s i'.
Proof.
  intros N H L L' E. destruct (H i' L') as (L0 & E0). apply (proj1 (NoDup_nth _ d) N); [exact L | exact L0 | congruence].
Qed.

Definition rows_follow (sf : nat -> nat) (n : nat) (o o' : option (list Z)) : Prop :=
  match o, o' with
  | None, None => True
  | Some l, Some l' => forall f, (f < n)%nat -> nth f l' 0 = nth (sf f) l 0
  | _, _ => False
  end.

Record cutr (sp sf sy sx : nat -> nat) (u u' : ubeam) : Prop := {
  cr_same : u_power u' = u_power u /\ u_phased u' = u_phased u /\ u_nvec u' = u_nvec u /\ u_xo u' = u_xo u;
  cr_pol : if u_power u then axm 0 sp (u_pols u) (u_pols u') else axm EmptyString sp (u_feeds u) (u_feeds u');
  cr_freq : axm 0 sf (u_freqs u) (u_freqs u');
  cr_image : match u_pix u, u_pix u' with
    | Healpix l, Healpix l' => axm 0 sx l l' /\ sy 0%nat = 0%nat
    | Grid a1 a2, Grid b1 b2 => axm 0 sx a1 b1 /\ axm 0 sy a2 b2
    | _, _ => False
    end;
  cr_data : forall v p f y x, (v < u_nvec u)%nat -> (p < pol_count u')%nat -> (f < nfreq u')%nat -> on_image u' y x ->
    u_data u' v p f y x = u_data u v (sp p) (sf f) (sy y) (sx x);
  cr_basis : match u_basis u, u_basis u' with
    | None, None => True
    | Some b, Some b' => forall v c y x, on_image u' y x -> bv_at b' v c y x = bv_at b v c (sy y) (sx x)
    | _, _ => False
    end;
  cr_bandpass : rows_follow sf (nfreq u') (Some (u_bandpass u)) (Some (u_bandpass u'));
  cr_rx : rows_follow sf (nfreq u') (u_rx u) (u_rx u');
  cr_loss : rows_follow sf (nfreq u') (u_loss u) (u_loss u');
  cr_mismatch : rows_follow sf (nfreq u') (u_mismatch u) (u_mismatch u');
  cr_spar : match u_spar u, u_spar u' with
    | None, None => True
    | Some s, Some s' => Forall2 (fun l l' => rows_follow sf (nfreq u') (Some l) (Some l')) s s'
    | _, _ => False
    end;
  cr_coupling : u_phased u = true -> u_power u = false -> forall d e a b f,
    (a < pol_count u')%nat -> (b < pol_count u')%nat -> (f < nfreq u')%nat ->
    u_coupling u' d e a b f = u_coupling u d e (sp a) (sp b) (sf f) }.

Definition idn : nat -> nat := fun i => i.

Lemma rows_id n o : rows_follow idn n o o.
Proof. destruct o; cbn; auto. Qed.
Lemma Forall2_refl {A} (R : A -> A -> Prop) l : (forall x, R x x) -> Forall2 R l l.
Proof. intros H. induction l; constructor; auto. Qed.

Lemma cutr_id u : cutr idn idn idn idn u u.
Proof.
  constructor; auto.
  - destruct (u_power u); apply axm_id.
  - apply axm_id.
  - destruct (u_pix u); split; try apply axm_id; reflexivity.
  - destruct (u_basis u); auto.
  - apply rows_id.
  - apply rows_id.
  - apply rows_id.
  - apply rows_id.
  - destruct (u_spar u); [|exact I]. apply Forall2_refl. intros x. apply rows_id.
Qed.

Lemma rows_trans s t n n1 o o1 o2 : (forall f, (f < n)%nat -> (t f < n1)%nat) ->
  rows_follow s n1 o o1 -> rows_follow t n o1 o2 -> rows_follow (fun i => s (t i)) n o o2.
Proof.
  intros B. unfold rows_follow. destruct o, o1, o2; try tauto. intros H K f L. rewrite (K f L). apply H, B, L.
Qed.
Lemma Forall2_comp {A B C} (R : A -> B -> Prop) (Q : B -> C -> Prop) (T : A -> C -> Prop) l l1 l2 :
  (forall a b c, R a b -> Q b c -> T a c) -> Forall2 R l l1 -> Forall2 Q l1 l2 -> Forall2 T l l2.
Proof.
  intros H F. revert l2. induction F as [|a b l l1 Rab F IH]; intros l2 G; inversion G; subst; constructor; eauto.
Qed.

Lemma cr_pol_lt sp sf sy sx u u' p : cutr sp sf sy sx u u' -> (p < pol_count u')%nat -> (sp p < pol_count u)%nat.
Proof.
  intros C. pose proof (cr_pol _ _ _ _ _ _ C) as P. destruct (cr_same _ _ _ _ _ _ C) as (E & _). unfold pol_count. rewrite E.
  destruct (u_power u); intros L; apply (P p L).
Qed.
Lemma cr_image_lt sp sf sy sx u u' y x : cutr sp sf sy sx u u' -> on_image u' y x -> on_image u (sy y) (sx x).
Proof.
  intros C (Ly & Lx). pose proof (cr_image _ _ _ _ _ _ C) as P. unfold on_image. destruct (u_pix u), (u_pix u'); try tauto; cbn [px_ny px_nx] in *.
  - destruct P as (P & E). replace y with 0%nat by lia. rewrite E. split; [lia | apply (P x Lx)].
  - destruct P as (P & Q). split; [apply (Q y Ly) | apply (P x Lx)].
Qed.

Lemma cutr_trans sp sf sy sx tp tf ty tx u u1 u2 : cutr sp sf sy sx u u1 -> cutr tp tf ty tx u1 u2 ->
  cutr (fun i => sp (tp i)) (fun i => sf (tf i)) (fun i => sy (ty i)) (fun i => sx (tx i)) u u2.
Proof.
  intros C D. pose proof (cr_freq _ _ _ _ _ _ D) as BF.
  assert (BF' : forall f, (f < nfreq u2)%nat -> (tf f < nfreq u1)%nat) by (intros f L; apply (BF f L)).
  destruct (cr_same _ _ _ _ _ _ C) as (C1 & C2 & C3 & C4). destruct (cr_same _ _ _ _ _ _ D) as (D1 & D2 & D3 & D4).
  constructor.
  - rewrite D1, D2, D3, D4. auto.
  - pose proof (cr_pol _ _ _ _ _ _ C) as P. pose proof (cr_pol _ _ _ _ _ _ D) as Q. rewrite C1 in Q.
    destruct (u_power u); eapply axm_trans; eassumption.
  - eapply axm_trans; [apply (cr_freq _ _ _ _ _ _ C) | exact BF].
  - pose proof (cr_image _ _ _ _ _ _ C) as P. pose proof (cr_image _ _ _ _ _ _ D) as Q.
    destruct (u_pix u), (u_pix u1), (u_pix u2); try tauto.
    + destruct P as (P & P0), Q as (Q & Q0). split; [eapply axm_trans; eassumption | rewrite Q0; exact P0].
    + destruct P as (P & P0), Q as (Q & Q0). split; eapply axm_trans; eassumption.
  - intros v p f y x Lv Lp Lf Li. rewrite (cr_data _ _ _ _ _ _ D) by (rewrite ?C3; auto).
    apply (cr_data _ _ _ _ _ _ C); auto; [eapply cr_pol_lt | eapply cr_image_lt]; eassumption.
  - pose proof (cr_basis _ _ _ _ _ _ C) as P. pose proof (cr_basis _ _ _ _ _ _ D) as Q.
    destruct (u_basis u), (u_basis u1), (u_basis u2); try tauto. intros v c y x Li. rewrite (Q v c y x Li). apply P. eapply cr_image_lt; eassumption.
  - eapply rows_trans; [exact BF' | apply (cr_bandpass _ _ _ _ _ _ C) | apply (cr_bandpass _ _ _ _ _ _ D)].
  - eapply rows_trans; [exact BF' | apply (cr_rx _ _ _ _ _ _ C) | apply (cr_rx _ _ _ _ _ _ D)].
  - eapply rows_trans; [exact BF' | apply (cr_loss _ _ _ _ _ _ C) | apply (cr_loss _ _ _ _ _ _ D)].
  - eapply rows_trans; [exact BF' | apply (cr_mismatch _ _ _ _ _ _ C) | apply (cr_mismatch _ _ _ _ _ _ D)].
  - pose proof (cr_spar _ _ _ _ _ _ C) as P. pose proof (cr_spar _ _ _ _ _ _ D) as Q.
    destruct (u_spar u), (u_spar u1), (u_spar u2); try tauto. eapply Forall2_comp; [|exact P | exact Q].
    intros a b c H K. eapply rows_trans; [exact BF' | exact H | exact K].
  - intros P1 P2 d e a b f La Lb Lf. rewrite (cr_coupling _ _ _ _ _ _ D) by (rewrite ?C1, ?C2; auto).
    apply (cr_coupling _ _ _ _ _ _ C); auto; eapply cr_pol_lt; eassumption.
Qed.

Lemma plain_cutr sp sf sy sx u u' : cutr sp sf sy sx u u' -> plain_power u -> plain_power u'.
Proof.
  intros C P W. destruct (cr_same _ _ _ _ _ _ C) as (E & _ & En & _). rewrite E in W. destruct (P W) as (B & N). split.
  - pose proof (cr_basis _ _ _ _ _ _ C) as Q. rewrite B in Q. destruct (u_basis u'); tauto.
  - intros v p f y x Lv Lp Lf Li X. rewrite En in Lv. rewrite (cr_data _ _ _ _ _ _ C) by auto.
    apply N; auto; [eapply cr_pol_lt; eassumption | apply (cr_freq _ _ _ _ _ _ C f Lf) | eapply cr_image_lt; eassumption |].
    pose proof (cr_pol _ _ _ _ _ _ C) as Q. rewrite W in Q. unfold pol_count in Lp. rewrite E, W in Lp. rewrite <- (proj2 (Q p Lp)). exact X.
Qed.

Lemma rows_same sf u u' o o' : NoDup (u_freqs u) -> axm 0 sf (u_freqs u) (u_freqs u') ->
  len_ok (nfreq u') o' -> rows_follow sf (nfreq u') o o' -> same_along_freq u u' o o'.
Proof.
  intros N A. unfold rows_follow, same_along_freq, len_ok. destruct o, o'; try tauto. intros Len H. split; [exact Len|].
  intros f f' L L' E. rewrite (H f' L'). f_equal. symmetry. exact (axm_inj _ _ _ _ _ _ N A L L' E).
Qed.

Lemma cutr_numbers sp sf sy sx u u' : beam_ok u -> beam_ok u' -> cutr sp sf sy sx u u' -> same_numbers u u'.
Proof.
  intros O O' C. pose proof (bo_freqs _ O) as NF. pose proof (cr_freq _ _ _ _ _ _ C) as AF.
  destruct (cr_same _ _ _ _ _ _ C) as (E1 & _).
  assert (SP : forall p p', (p < pol_count u)%nat -> (p' < pol_count u')%nat -> same_pol u u' p p' -> p = sp p').
  { intros p p' L L'. pose proof (cr_pol _ _ _ _ _ _ C) as Q. unfold same_pol, pol_count in *. rewrite E1 in L'. destruct (u_power u); intros E.
    - exact (axm_inj _ _ _ _ _ _ (bo_pols _ O) Q L L' E).
    - exact (axm_inj _ _ _ _ _ _ (bo_feeds _ O) Q L L' E). }
  assert (SS : forall y x y' x', on_image u y x -> on_image u' y' x' -> same_spot u u' y x y' x' -> y = sy y' /\ x = sx x').
  { intros y x y' x' (Ly & Lx) (Ly' & Lx'). pose proof (cr_image _ _ _ _ _ _ C) as Q. pose proof (bo_image _ O) as N. unfold same_spot.
    destruct (u_pix u), (u_pix u'); try tauto; cbn [px_ny px_nx] in *.
    - destruct Q as (Q & Q0). intros E. split; [|exact (axm_inj _ _ _ _ _ _ N Q Lx Lx' E)]. replace y' with 0%nat by lia. rewrite Q0. lia.
    - destruct Q as (Q & Q0), N as (N & N0). intros (E & F). split; [exact (axm_inj _ _ _ _ _ _ N0 Q0 Ly Ly' F) | exact (axm_inj _ _ _ _ _ _ N Q Lx Lx' E)]. }
  constructor.
  - intros v p f y x p' f' y' x' Lv Lp Lp' Lf Lf' Li Li' Ep Ef Es. rewrite (cr_data _ _ _ _ _ _ C) by auto.
    destruct (SS _ _ _ _ Li Li' Es) as (<- & <-). rewrite <- (SP _ _ Lp Lp' Ep).
    rewrite <- (axm_inj _ _ _ _ _ _ NF AF Lf Lf' Ef). reflexivity.
  - pose proof (cr_basis _ _ _ _ _ _ C) as Q. pose proof (bo_basis _ O') as B. destruct (u_basis u), (u_basis u'); try tauto.
    split; [apply B|]. split; [apply B|]. intros v c y x y' x' Li Li' Es. rewrite (Q v c y' x' Li'). destruct (SS _ _ _ _ Li Li' Es) as (<- & <-). reflexivity.
  - apply (rows_same sf); auto; [exact (bo_bandpass _ O') | apply (cr_bandpass _ _ _ _ _ _ C)].
  - apply (rows_same sf); auto; [exact (bo_rx _ O') | apply (cr_rx _ _ _ _ _ _ C)].
  - apply (rows_same sf); auto; [exact (bo_loss _ O') | apply (cr_loss _ _ _ _ _ _ C)].
  - apply (rows_same sf); auto; [exact (bo_mismatch _ O') | apply (cr_mismatch _ _ _ _ _ _ C)].
  - pose proof (cr_spar _ _ _ _ _ _ C) as Q. pose proof (bo_spar _ O') as B. destruct (u_spar u), (u_spar u'); try tauto.
    clear - Q B NF AF. induction Q as [|a b s s' H Q IH]; [constructor|]. inversion B; subst. constructor; [|auto].
    apply (rows_same sf); auto.
  - intros P1 P2 d e a b f a' b' f' La La' Lb Lb' Lf Lf' Ea Eb Ef. rewrite (cr_coupling _ _ _ _ _ _ C) by auto.
    rewrite <- (SP _ _ La La' Ea), <- (SP _ _ Lb Lb' Eb), <- (axm_inj _ _ _ _ _ _ NF AF Lf Lf' Ef). reflexivity.
Qed.

(** * Positions *)
Lemma places_spec {A B} (eqb : A -> A -> bool) (EQ : forall x y, eqb x y = true <-> x = y) (res : B -> result A) (d : A) l asked ks :
  places eqb res l asked = Ok ks ->
  uniqueN ks = nonzero (fun v => existsb (fun a => match res a with Ok x => eqb x v | Err _ => false end) asked) l.
Proof.
  unfold places. intros H. apply bind_Ok in H as (kss & H & E). injection E as <-. apply mapM_Ok_Forall2 in H.
  apply (nonzero_unique d); [apply uniqueN_sorted|]. intros i. rewrite uniqueN_In. rewrite in_concat, existsb_exists. split.
  - intros (k & Ik & Ii). destruct (In_nth _ _ [] Ik) as (n & Ln & En).
    assert (X : exists a, In a asked /\ (do x <- res a; if memb eqb x l then Ok (nonzero (eqb x) l) else Err ValueError) = Ok k).
    { clear - H Ik. induction H as [|a k' asked kss Ha H IH]; [destruct Ik|]. destruct Ik as [<- | Ik].
      - exists a. split; [left; reflexivity | exact Ha].
      - destruct (IH Ik) as (b & I & E). exists b. split; [right; exact I | exact E]. }
    destruct X as (a & Ia & Ea). destruct (res a) as [x|] eqn:Er; [|discriminate]. cbn [bind] in Ea.
    destruct (memb eqb x l); [|discriminate]. injection Ea as <-. apply (nonzero_spec d) in Ii as (L & Ex).
    split; [exact L|]. exists a. rewrite Er. auto.
  - intros (L & a & Ia & Ea). destruct (res a) as [x|] eqn:Er; [|discriminate].
    assert (X : exists k, In k kss /\ (do x <- res a; if memb eqb x l then Ok (nonzero (eqb x) l) else Err ValueError) = Ok k).
    { clear - H Ia. induction H as [|b k' asked kss Ha H IH]; [destruct Ia|]. destruct Ia as [<- | Ia].
      - exists k'. split; [left; reflexivity | exact Ha].
      - destruct (IH Ia) as (k & I & E). exists k. split; [right; exact I | exact E]. }
    destruct X as (k & Ik & Ek). rewrite Er in Ek. cbn [bind] in Ek. destruct (memb eqb x l); [|discriminate]. injection Ek as <-.
    exists (nonzero (eqb x) l). split; [exact Ik|]. apply (nonzero_spec d). auto.
Qed.

Lemma places_ok {A B} (eqb : A -> A -> bool) (EQ : forall x y, eqb x y = true <-> x = y) (res : B -> result A) l asked :
  (exists ks, places eqb res l asked = Ok ks) <-> Forall (fun a => exists x, res a = Ok x /\ In x l) asked.
Proof.
  unfold places. split.
  - intros (ks & H). apply bind_Ok in H as (kss & H & _). apply mapM_Ok_Forall2 in H.
    induction H as [|a k asked kss Ha H IH]; constructor; [|exact IH]. destruct (res a) as [x|]; [|discriminate]. cbn [bind] in Ha.
    destruct (memb eqb x l) eqn:M; [|discriminate]. exists x. split; [reflexivity|]. apply (memb_spec eqb EQ). exact M.
  - intros H. destruct (mapM_total (fun a => do x <- res a; if memb eqb x l then Ok (nonzero (eqb x) l) else Err ValueError) asked) as (kss & E).
    + intros a Ia. rewrite Forall_forall in H. destruct (H a Ia) as (x & E & I). rewrite E. cbn [bind].
      rewrite (proj2 (memb_spec eqb EQ x l) I). eauto.
    + rewrite E. cbn [bind]. eauto.
Qed.

Lemma axis_inds_spec n l idx : axis_inds n l = Ok idx ->
  l <> [] /\ Forall (fun i => 0 <= i < Z.of_nat n) l /\ StronglySorted lt idx /\ forall i, In i idx <-> In (Z.of_nat i) l.
Proof.
  unfold axis_inds. pose proof (uniqueZ_sorted l) as HS. pose proof (fun x => uniqueZ_In x l) as HI. pose proof (proj1 (uniqueZ_nil l)) as HN.
  destruct (uniqueZ l) as [|lo t] eqn:EU; [discriminate|].
  destruct ((lo <? 0) || (Z.of_nat n - 1 <? last (lo :: t) 0)) eqn:E; [discriminate|]. intros H. injection H as <-.
  apply orb_false_iff in E as (E1 & E2). apply Z.ltb_ge in E1, E2.
  assert (B : Forall (fun i => 0 <= i < Z.of_nat n) (lo :: t)).
  { apply Forall_forall. intros x Ix. split.
    - inversion HS; subst. destruct Ix as [-> | Ix]; [lia|]. rewrite Forall_forall in H2. specialize (H2 x Ix). lia.
    - assert (x <= last (lo :: t) 0); [|lia]. clear - HS Ix. revert x Ix. generalize dependent lo. induction t as [|a t IH]; intros lo HS x Ix.
      + destruct Ix as [-> | []]. cbn. lia.
      + inversion HS; subst. change (last (lo :: a :: t) 0) with (last (a :: t) 0). destruct Ix as [<- | Ix]; [|apply IH; auto].
        inversion H2; subst. specialize (IH a H1 a (or_introl eq_refl)). lia. }
  split; [intros ->; discriminate EU|]. split.
  { apply Forall_forall. intros x Ix. apply HI in Ix. rewrite Forall_forall in B. auto. }
  change (map Z.to_nat (lo :: t)) with (map Z.to_nat (lo :: t)).
  split.
  - assert (G : forall l, StronglySorted Z.lt l -> Forall (fun i => 0 <= i < Z.of_nat n) l -> StronglySorted lt (map Z.to_nat l)).
    { clear. induction 1 as [|a l S IH F]; intros B; [constructor|]. inversion B; subst. cbn [map]. constructor; [auto|].
      apply Forall_forall. intros k Ik. apply in_map_iff in Ik as (z & <- & Iz). rewrite Forall_forall in F, H2. specialize (F z Iz). specialize (H2 z Iz). lia. }
    apply (G (lo :: t)); assumption.
  - intros i. change (In i (map Z.to_nat (lo :: t)) <-> In (Z.of_nat i) l). rewrite in_map_iff, <- HI. split.
    + intros (z & <- & Iz). rewrite Forall_forall in B. specialize (B z Iz). rewrite Z2Nat.id by lia. exact Iz.
    + intros Iz. exists (Z.of_nat i). split; [apply Nat2Z.id | exact Iz].
Qed.
Lemma axis_inds_ok n l : l <> [] -> Forall (fun i => 0 <= i < Z.of_nat n) l -> exists idx, axis_inds n l = Ok idx.
Proof.
  intros NE B. unfold axis_inds. pose proof (fun x => uniqueZ_In x l) as HI. pose proof (proj1 (uniqueZ_nil l)) as HN.
  destruct (uniqueZ l) as [|lo t] eqn:EU; [destruct NE; auto|].
  assert (B' : forall x, In x (lo :: t) -> 0 <= x < Z.of_nat n) by (intros x Ix; apply HI in Ix; rewrite Forall_forall in B; auto).
  assert (L : In (last (lo :: t) 0) (lo :: t)).
  { clear. generalize lo. induction t as [|a t IH]; intros b; [left; reflexivity|]. right. apply IH. }
  pose proof (B' _ L). pose proof (B' lo (or_introl eq_refl)).
  replace (lo <? 0) with false by (symmetry; apply Z.ltb_ge; lia).
  replace (Z.of_nat n - 1 <? last (lo :: t) 0) with false by (symmetry; apply Z.ltb_ge; lia). cbn [orb]. eauto.
Qed.

(** Increasing positions keep the elements at them. *)
Lemma keeps_all {A} (P : A -> Prop) l : (forall x, In x l -> P x) -> keeps P l l.
Proof.
  intros H. exists (fun _ => true). split; [intros x I; split; [intros _; auto | reflexivity]|].
  induction l as [|a l IH]; [reflexivity|]. cbn [filter]. rewrite <- IH; [reflexivity|]. intros x I. apply H. right. exact I.
Qed.
Lemma keeps_nonzero {A} (d : A) (P : A -> Prop) b l : (forall x, In x l -> (b x = true <-> P x)) -> keeps P l (take d l (nonzero b l)).
Proof. intros H. exists b. split; [exact H | apply take_nonzero_filter]. Qed.
Lemma keeps_axis l idx req : NoDup l -> StronglySorted lt idx -> (forall i, In i idx <-> In (Z.of_nat i) req) ->
  Forall (fun i => 0 <= i < Z.of_nat (length l)) req -> keeps (wants_axis (Some req) l) l (take 0 l idx).
Proof.
  intros N HS HI HB. rewrite Forall_forall in HB.
  assert (E : idx = nonzero (fun v => isinZ v (take 0 l idx)) l).
  { apply (nonzero_unique 0); [exact HS|]. intros i. rewrite isinZ_spec. unfold take. rewrite in_map_iff. split.
    - intros I. assert (L : (i < length l)%nat) by (apply HI, HB in I; lia). split; [exact L|]. exists i. auto.
    - intros (L & j & Ej & Ij). assert (Lj : (j < length l)%nat) by (pose proof (HB _ (proj1 (HI j) Ij)); lia).
      rewrite (proj1 (NoDup_nth _ 0) N i j L Lj (eq_sym Ej)). exact Ij. }
  rewrite E at 1. apply keeps_nonzero. intros v Iv. rewrite isinZ_spec. unfold take. rewrite in_map_iff. cbn [wants_axis]. split.
  - intros (i & Ei & Ii). exists i. split; [apply HI, Ii|]. split; [|exact Ei]. pose proof (HB _ (proj1 (HI i) Ii)); lia.
  - intros (i & Ii & L & Ei). exists i. split; [exact Ei | apply HI, Ii].
Qed.
Lemma keeps_NoDup {A} (P : A -> Prop) l l' : NoDup l -> keeps P l l' -> NoDup l'.
Proof. intros N (b & _ & ->). apply NoDup_filter, N. Qed.

(** * Steps *)
Definition image_keeps (r : beam_request) (u u' : ubeam) : Prop :=
  match u_pix u, u_pix u' with
  | Healpix l, Healpix l' => keeps (wants_pixel (br_pixels r)) l l'
  | Grid a1 a2, Grid b1 b2 => keeps (wants_axis (br_axis1 r) a1) a1 b1 /\ keeps (wants_axis (br_axis2 r) a2) a2 b2
  | _, _ => False
  end.
Definition cut (u u' : ubeam) : Prop := exists sp sf sy sx, cutr sp sf sy sx u u'.
Lemma cut_id u : cut u u.
Proof. exists idn, idn, idn, idn. apply cutr_id. Qed.
Lemma cut_trans u u1 u2 : cut u u1 -> cut u1 u2 -> cut u u2.
Proof. intros (a & b & c & d & H) (a' & b' & c' & d' & K). eexists _, _, _, _. eapply cutr_trans; eassumption. Qed.
Lemma plain_cut u u' : cut u u' -> plain_power u -> plain_power u'.
Proof. intros (a & b & c & d & H). eapply plain_cutr. exact H. Qed.

Lemma cut_image_ok pix sy sx u : beam_ok u -> plain_power u ->
  match u_pix u, pix with
  | Healpix l, Healpix l' => axm 0 sx l l' /\ sy 0%nat = 0%nat /\ NoDup l'
  | Grid a1 a2, Grid b1 b2 => axm 0 sx a1 b1 /\ axm 0 sy a2 b2 /\ NoDup b1 /\ NoDup b2
  | _, _ => False
  end -> beam_ok (cut_image pix sy sx u) /\ cut u (cut_image pix sy sx u).
Proof.
  intros O P H. assert (BN : u_power u = true -> u_basis u = None) by (intros W; apply (P W)). split.
  - destruct O. constructor; cbn [cut_image u_pix u_freqs u_feeds u_pols u_npols u_power u_basis u_bandpass u_rx u_loss u_mismatch u_spar]; auto.
    + destruct (u_pix u), pix; tauto.
    + destruct (u_power u); [rewrite (BN eq_refl) in *; reflexivity|]. destruct (u_basis u); [|discriminate]. cbn. auto.
  - exists idn, idn, sy, sx. constructor; cbn [cut_image u_pix u_freqs u_feeds u_pols u_npols u_power u_phased u_nvec u_xo u_data u_basis u_bandpass u_rx u_loss u_mismatch u_spar u_coupling]; auto; try apply rows_id.
    + destruct (u_power u); apply axm_id.
    + apply axm_id.
    + destruct (u_pix u), pix; tauto.
    + destruct (u_power u); [rewrite (BN eq_refl); exact I|]. destruct (u_basis u); [|exact I]. cbn. auto.
    + destruct (u_spar u); [|exact I]. apply Forall2_refl. intros x. apply rows_id.
Qed.

Definition same_labels (u u' : ubeam) : Prop :=
  u_freqs u' = u_freqs u /\ u_feeds u' = u_feeds u /\ u_pols u' = u_pols u /\ u_power u' = u_power u /\ u_xo u' = u_xo u.

Lemma sorted_lt_bound idx n : (forall i, In i idx -> (i < n)%nat) -> forall i, (i < length idx)%nat -> (at_ idx i < n)%nat.
Proof. intros H i L. apply H. unfold at_. apply nth_In, L. Qed.

(** The image axes *)
Lemma image_steps r u : beam_ok u -> plain_power u ->
  match u_pix u with
  | Healpix pix => br_axis1 r = None /\ br_axis2 r = None /\
      match br_pixels r with None => True | Some l => incl l pix end
  | Grid a1 a2 => br_pixels r = None /\ axis_fits (br_axis1 r) (length a1) /\ axis_fits (br_axis2 r) (length a2)
  end ->
  exists u', and_then (and_then (sel_axis1 (br_axis1 r) u) (sel_axis2 (br_axis2 r))) (sel_pixels (br_pixels r)) = (u', None) /\
    beam_ok u' /\ cut u u' /\ image_keeps r u u' /\ same_labels u u'.
Proof.
  intros O P F. pose proof (bo_image _ O) as N. destruct (u_pix u) as [pix | a1 a2] eqn:EP.
  - destruct F as (F1 & F2 & F3). rewrite F1, F2. unfold and_then at 2. cbn [sel_axis1 sel_axis2 fst snd]. unfold and_then. cbn [fst snd].
    destruct (br_pixels r) as [l|] eqn:ER; cbn [sel_pixels].
    + rewrite EP. destruct (proj2 (places_ok Z.eqb Z.eqb_eq Ok pix l)) as (ks & E).
      { apply Forall_forall. intros p I. exists p. auto. }
      rewrite E. pose proof (places_spec Z.eqb Z.eqb_eq Ok 0 pix l ks E) as S.
      eexists. split; [reflexivity|].
      assert (K : keeps (wants_pixel (Some l)) pix (take 0 pix (uniqueN ks))).
      { rewrite S. apply keeps_nonzero. intros x _. rewrite existsb_exists. cbn [wants_pixel]. split.
        - intros (p & I & Eq). apply Z.eqb_eq in Eq. subst. exact I.
        - intros I. exists x. split; [exact I | apply Z.eqb_refl]. }
      destruct (cut_image_ok (Healpix (take 0 pix (uniqueN ks))) (fun y => y) (at_ (uniqueN ks)) u O P) as (A & B).
      { rewrite EP. split; [|split; [reflexivity | eapply keeps_NoDup; eassumption]]. apply axm_take. intros i I. rewrite S in I. eapply nonzero_lt. exact I. }
      split; [exact A|]. split; [exact B|]. split; [unfold image_keeps; rewrite EP, ER; exact K|]. repeat split.
    + exists u. split; [reflexivity|]. split; [exact O|]. split; [apply cut_id|]. split; [|repeat split].
      unfold image_keeps. rewrite EP, ER. apply keeps_all. intros; exact I.
  - destruct F as (F0 & F1 & F2). destruct N as (N1 & N2). rewrite F0.
    assert (G1 : exists u1 b1, sel_axis1 (br_axis1 r) u = (u1, None) /\ u_pix u1 = Grid b1 a2 /\ beam_ok u1 /\ plain_power u1 /\ cut u u1 /\
       keeps (wants_axis (br_axis1 r) a1) a1 b1 /\ same_labels u u1).
    { destruct (br_axis1 r) as [l|]; cbn [sel_axis1].
      - rewrite EP. destruct F1 as (NE & B). destruct (axis_inds_ok _ _ NE B) as (idx & E). rewrite E.
        destruct (axis_inds_spec _ _ _ E) as (_ & _ & HS & HI). pose proof (keeps_axis a1 idx l N1 HS HI B) as K.
        destruct (cut_image_ok (Grid (take 0 a1 idx) a2) (fun y => y) (at_ idx) u O P) as (A & C).
        { rewrite EP. split; [|split; [apply axm_id | split; [exact (keeps_NoDup _ _ _ N1 K) | exact N2]]]. apply axm_take. intros i I.
          apply HI in I. rewrite Forall_forall in B. specialize (B _ I). lia. }
        eexists _, _. split; [reflexivity|]. split; [reflexivity|]. split; [exact A|]. split; [eapply plain_cut; eassumption|].
        split; [exact C|]. split; [exact K|]. repeat split.
      - exists u, a1. split; [reflexivity|]. split; [exact EP|]. split; [exact O|]. split; [exact P|]. split; [apply cut_id|].
        split; [apply keeps_all; intros; exact I|]. repeat split. }
    destruct G1 as (u1 & b1 & E1 & EP1 & O1 & P1 & C1 & K1 & L1 & L2 & L3 & L4 & L5).
    pose proof (bo_image _ O1) as NN. rewrite EP1 in NN. destruct NN as (Nb1 & _).
    assert (G2 : exists u2 b2, sel_axis2 (br_axis2 r) u1 = (u2, None) /\ u_pix u2 = Grid b1 b2 /\ beam_ok u2 /\ cut u1 u2 /\
       keeps (wants_axis (br_axis2 r) a2) a2 b2 /\ same_labels u1 u2).
    { destruct (br_axis2 r) as [l|]; cbn [sel_axis2].
      - rewrite EP1. destruct F2 as (NE & B). destruct (axis_inds_ok _ _ NE B) as (idx & E). rewrite E.
        destruct (axis_inds_spec _ _ _ E) as (_ & _ & HS & HI). pose proof (keeps_axis a2 idx l N2 HS HI B) as K.
        destruct (cut_image_ok (Grid b1 (take 0 a2 idx)) (at_ idx) (fun x => x) u1 O1 P1) as (A & C).
        { rewrite EP1. split; [apply axm_id | split; [|split; [exact Nb1 | exact (keeps_NoDup _ _ _ N2 K)]]]. apply axm_take. intros i I.
          apply HI in I. rewrite Forall_forall in B. specialize (B _ I). lia. }
        eexists _, _. split; [reflexivity|]. split; [reflexivity|]. split; [exact A|].
        split; [exact C|]. split; [exact K|]. repeat split.
      - exists u1, a2. split; [reflexivity|]. split; [exact EP1|]. split; [exact O1|]. split; [apply cut_id|].
        split; [apply keeps_all; intros; exact I|]. repeat split. }
    destruct G2 as (u2 & b2 & E2 & EP2 & O2 & C2 & K2 & M1 & M2 & M3 & M4 & M5).
    exists u2. rewrite E1. unfold and_then at 2. cbn [fst snd]. rewrite E2. unfold and_then. cbn [fst snd sel_pixels].
    split; [reflexivity|]. split; [exact O2|]. split; [eapply cut_trans; eassumption|]. split; [unfold image_keeps; rewrite EP, EP2; auto|].
    unfold same_labels. rewrite M1, M2, M3, M4, M5. auto.
Qed.

(** The frequency axis *)
Lemma take_len_ok idx o : len_ok (length idx) (option_map (fun l => take 0 l idx) o).
Proof. destruct o; cbn; [apply take_length | exact I]. Qed.
Lemma take_rows idx o : rows_follow (at_ idx) (length idx) o (option_map (fun l => take 0 l idx) o).
Proof. destruct o; cbn; [|exact I]. intros f L. apply nth_take, L. Qed.

Lemma cut_freqs_ok P idx u : beam_ok u -> keeps P (u_freqs u) (take 0 (u_freqs u) idx) -> (forall i, In i idx -> (i < nfreq u)%nat) ->
  beam_ok (cut_freqs idx u) /\ cut u (cut_freqs idx u).
Proof.
  intros O K B. assert (EN : nfreq (cut_freqs idx u) = length idx) by (unfold nfreq; cbn; apply take_length). split.
  - pose proof (keeps_NoDup _ _ _ (bo_freqs _ O) K) as NK. destruct O. constructor; try rewrite EN;
      cbn [cut_freqs u_pix u_freqs u_feeds u_pols u_npols u_power u_basis u_bandpass u_rx u_loss u_mismatch u_spar]; auto using take_length, take_len_ok.
    destruct (u_spar u); [|exact I]. cbn [option_map]. apply Forall_forall. intros x Ix. apply in_map_iff in Ix as (y & <- & _). apply take_length.
  - exists idn, (at_ idx), idn, idn. constructor; try rewrite EN; cbn [cut_freqs u_pix u_freqs u_feeds u_pols u_npols u_power u_phased u_nvec u_xo u_data u_basis u_bandpass u_rx u_loss u_mismatch u_spar u_coupling]; auto using take_rows.
    + destruct (u_power u); apply axm_id.
    + apply axm_take. exact B.
    + destruct (u_pix u); split; try apply axm_id; reflexivity.
    + destruct (u_basis u); auto.
    + exact (take_rows idx (Some (u_bandpass u))).
    + destruct (u_spar u) as [s|]; [|exact I]. cbn [option_map]. induction s as [|x s IH]; constructor; [exact (take_rows idx (Some x)) | exact IH].
    + intros -> W d e a b f La Lb Lf. reflexivity.
Qed.

Lemma freq_step r u : beam_ok u ->
  match br_freqs r with None => True | Some l => incl l (u_freqs u) end ->
  match br_chans r with None => True | Some l => Forall (fun c => exists j, denotes (length (u_freqs u)) c j) l end ->
  exists u', sel_freqs (br_freqs r) (br_chans r) u = (u', None) /\ beam_ok u' /\ cut u u' /\
    keeps (wants_freq r u) (u_freqs u) (u_freqs u') /\
    u_pix u' = u_pix u /\ u_feeds u' = u_feeds u /\ u_pols u' = u_pols u /\ u_power u' = u_power u /\ u_xo u' = u_xo u.
Proof.
  intros O F G.
  assert (A : exists o, asked_freqs (br_freqs r) (br_chans r) u = Ok o /\
    (o = None /\ br_freqs r = None /\ br_chans r = None \/ exists l, o = Some l /\ incl l (u_freqs u) /\ forall v, In v (u_freqs u) -> (In v l <-> wants_freq r u v))).
  { unfold asked_freqs. destruct (br_chans r) as [c|] eqn:EC.
    - assert (H : exists vals, mapM (fun i => match norm_index (length (u_freqs u)) i with Some k => Ok (nth k (u_freqs u) 0) | None => Err IndexError end) c = Ok vals /\
                 forall v, In v vals <-> exists x j, In x c /\ denotes (length (u_freqs u)) x j /\ nth j (u_freqs u) 0 = v).
      { clear - G. induction c as [|x c IH].
        - exists []. split; [reflexivity|]. intros v. split; [intros [] | intros (y & j & [] & _)].
        - inversion G; subst. destruct H1 as (j & D). destruct (IH H2) as (vals & E & S). cbn [mapM].
          rewrite (proj2 (norm_index_denotes _ _ _) D). cbn [bind]. rewrite E. cbn [bind]. eexists. split; [reflexivity|]. intros v. split.
          + intros [<- | I]; [exists x, j; cbn; auto|]. apply S in I as (y & k & I & D' & E'). exists y, k. cbn. auto.
          + intros (y & k & [-> | I] & D' & E').
            * left. apply norm_index_denotes in D, D'. rewrite D in D'. injection D' as <-. exact E'.
            * right. apply S. exists y, k. auto. }
      destruct H as (vals & E & S). rewrite E. cbn [bind].
      assert (IV : incl vals (u_freqs u)). { intros v I. apply S in I as (x & j & _ & (L & _) & <-). apply nth_In, L. }
      destruct (br_freqs r) as [l|] eqn:EF.
      + eexists. split; [reflexivity|]. right. eexists. split; [reflexivity|]. split.
        * intros v I. apply (proj1 (uniqueZ_In _ _)) in I. apply in_app_iff in I as [I|I]; [apply F, I | apply IV, I].
        * intros v _. rewrite uniqueZ_In, in_app_iff. unfold wants_freq. rewrite EC, EF. rewrite S. split.
          -- intros [I | (x & j & I & D & E')]; [right; left; eauto | right; right; exists c, x, j; auto].
          -- intros [(X & _) | [(l' & X & I) | (l' & x & j & X & I & D & E')]]; [discriminate| |]; injection X as <-; [auto|]. right. exists x, j. auto.
      + eexists. split; [reflexivity|]. right. eexists. split; [reflexivity|]. split; [exact IV|].
        intros v _. unfold wants_freq. rewrite EC, EF, S. split.
        * intros (x & j & I & D & E'). right. right. exists c, x, j. auto.
        * intros [(_ & X) | [(l' & X & I) | (l' & x & j & X & I & D & E')]]; [discriminate | discriminate |]. injection X as <-. exists x, j. auto.
    - eexists. split; [reflexivity|]. destruct (br_freqs r) as [l|] eqn:EF; [|left; auto]. right. exists l. split; [reflexivity|]. split; [exact F|].
      intros v _. unfold wants_freq. rewrite EC, EF. split; [intros I; right; left; eauto|].
      intros [(X & _) | [(l' & X & I) | (l' & x & j & X & _)]]; [discriminate | injection X as <-; exact I | discriminate]. }
  destruct A as (o & EA & [(-> & EF & EC) | (l & -> & IL & S)]); unfold sel_freqs; rewrite EA.
  - exists u. split; [reflexivity|]. split; [exact O|]. split; [apply cut_id|]. split; [|auto].
    apply keeps_all. intros v _. left. auto.
  - destruct (proj2 (places_ok Z.eqb Z.eqb_eq Ok (u_freqs u) l)) as (ks & E).
    { apply Forall_forall. intros p I. exists p. auto. }
    rewrite E. pose proof (places_spec Z.eqb Z.eqb_eq Ok 0 (u_freqs u) l ks E) as SP.
    assert (K : keeps (wants_freq r u) (u_freqs u) (take 0 (u_freqs u) (uniqueN ks))).
    { rewrite SP. apply keeps_nonzero. intros x Ix. rewrite existsb_exists, <- (S x Ix). split.
      - intros (p & I & Eq). apply Z.eqb_eq in Eq. subst. exact I.
      - intros I. exists x. split; [exact I | apply Z.eqb_refl]. }
    destruct (cut_freqs_ok _ _ u O K) as (A & C).
    { intros i I. rewrite SP in I. eapply nonzero_lt. exact I. }
    eexists. split; [reflexivity|]. split; [exact A|]. split; [exact C|]. split; [exact K|]. cbn. auto.
Qed.

(** The feed axis *)
Lemma directions_differ xo dx dy : x_orientation_pol_map xo = Ok (dx, dy) -> dx <> dy.
Proof.
  unfold x_orientation_pol_map. destruct (dget String.eqb (lower xo) XORIENTMAP) as [v|]; [|discriminate].
  destruct (v =? "east")%string; [intros H; injection H as <- <-; discriminate|].
  destruct (v =? "north")%string; [intros H; injection H as <- <-; discriminate | discriminate].
Qed.
Definition directions (u : ubeam) (m : option (Ascii.ascii * Ascii.ascii)) : Prop :=
  match u_xo u with None => m = None | Some xo => exists p, m = Some p /\ x_orientation_pol_map xo = Ok p end.
Lemma feed_memb f l : memb String.eqb f l = true <-> In f l.
Proof. apply memb_spec. apply String.eqb_eq. Qed.
Lemma feed_label_names u m s f : directions u m -> (feed_label m (u_feeds u) s = Ok f <-> names_feed u s f).
Proof.
  intros D. unfold feed_label, names_feed. destruct (memb String.eqb (lower s) (u_feeds u)) eqn:M.
  - apply feed_memb in M. split.
    + intros H. injection H as <-. auto.
    + intros (_ & [E | (X & _)]); [congruence | contradiction].
  - assert (X : ~ In (lower s) (u_feeds u)) by (intros I; apply feed_memb in I; congruence).
    unfold physical_feed. unfold directions in D. destruct (u_xo u) as [xo|].
    + destruct D as ([dx dy] & -> & E). pose proof (directions_differ _ _ _ E) as ND. split.
      * unfold char_string. destruct (String.eqb (lower s) (String dy "") && memb String.eqb "y" (u_feeds u)) eqn:Y.
        -- intros H. injection H as <-. apply andb_true_iff in Y as (Y1 & Y2). apply String.eqb_eq in Y1. apply feed_memb in Y2.
           split; [exact Y2|]. right. split; [exact X|]. exists xo, dx, dy. auto.
        -- destruct (String.eqb (lower s) (String dx "") && memb String.eqb "x" (u_feeds u)) eqn:Y'; [|discriminate].
           intros H. injection H as <-. apply andb_true_iff in Y' as (Y1 & Y2). apply String.eqb_eq in Y1. apply feed_memb in Y2.
           split; [exact Y2|]. right. split; [exact X|]. exists xo, dx, dy. auto.
      * unfold char_string. intros (I & [E0 | (_ & xo' & dx' & dy' & EX & E' & H)]); [rewrite E0 in X; contradiction|]. injection EX as <-. rewrite E in E'. injection E' as <- <-.
        destruct H as [(-> & EL) | (-> & EL)]; rewrite EL.
        -- replace (String.eqb (String dx "") (String dy "")) with false. 2:{ symmetry. apply String.eqb_neq. intros C. injection C as C. contradiction. }
           cbn [andb]. rewrite String.eqb_refl, (proj2 (feed_memb _ _) I). reflexivity.
        -- rewrite String.eqb_refl, (proj2 (feed_memb _ _) I). reflexivity.
    + rewrite D. split; [discriminate|]. intros (I & [E0 | (_ & xo' & dx' & dy' & EX & _)]); [rewrite E0 in X; contradiction | discriminate].
Qed.

Lemma cut_feeds_ok P idx u : beam_ok u -> u_power u = false -> keeps P (u_feeds u) (take EmptyString (u_feeds u) idx) ->
  (forall i, In i idx -> (i < length (u_feeds u))%nat) -> beam_ok (cut_feeds idx u) /\ cut u (cut_feeds idx u).
Proof.
  intros O W K B. split.
  - pose proof (keeps_NoDup _ _ _ (bo_feeds _ O) K) as NK. destruct O. constructor;
      cbn [cut_feeds u_pix u_freqs u_feeds u_pols u_npols u_power u_basis u_bandpass u_rx u_loss u_mismatch u_spar]; auto.
  - assert (EC : pol_count (cut_feeds idx u) = length idx) by (unfold pol_count; cbn; rewrite W; apply take_length).
    exists (at_ idx), idn, idn, idn. constructor; try rewrite EC; cbn [cut_feeds u_pix u_freqs u_feeds u_pols u_npols u_power u_phased u_nvec u_xo u_data u_basis u_bandpass u_rx u_loss u_mismatch u_spar u_coupling]; auto; try apply rows_id.
    + rewrite W. apply axm_take. exact B.
    + apply axm_id.
    + destruct (u_pix u); split; try apply axm_id; reflexivity.
    + destruct (u_basis u); auto.
    + destruct (u_spar u); [|exact I]. apply Forall2_refl. intros x. apply rows_id.
    + intros -> _ d e a b f La Lb Lf. reflexivity.
Qed.

Definition find_directions (u : ubeam) : result (option (Ascii.ascii * Ascii.ascii)) :=
  match u_xo u with None => Ok None | Some xo => rmap Some (x_orientation_pol_map xo) end.
Lemma find_directions_ok u m : find_directions u = Ok m <-> directions u m /\ match u_xo u with None => True | Some xo => exists p, x_orientation_pol_map xo = Ok p end.
Proof.
  unfold find_directions, directions. destruct (u_xo u) as [xo|].
  - destruct (x_orientation_pol_map xo) as [p|]; cbn [rmap]; split.
    + intros H. injection H as <-. split; eauto.
    + intros ((q & -> & H) & _). congruence.
    + discriminate.
    + intros ((q & _ & H) & _). discriminate.
  - split; [intros H; injection H as <-; auto | intros (-> & _); reflexivity].
Qed.

Lemma feed_step r u : beam_ok u ->
  match br_feeds r with
  | None => True
  | Some l => u_power u = false /\
      match u_xo u with None => True | Some xo => exists m, x_orientation_pol_map xo = Ok m end /\
      Forall (fun s => exists f, names_feed u s f) l
  end ->
  exists u', sel_feeds (br_feeds r) u = (u', None) /\ beam_ok u' /\ cut u u' /\
    keeps (wants_feed r u) (u_feeds u) (u_feeds u') /\
    u_pix u' = u_pix u /\ u_freqs u' = u_freqs u /\ u_pols u' = u_pols u /\ u_power u' = u_power u /\ u_xo u' = u_xo u.
Proof.
  intros O F. unfold wants_feed. destruct (br_feeds r) as [l|]; cbn [sel_feeds].
  - destruct F as (W & X & F). rewrite W.
    assert (M : exists m, find_directions u = Ok m).
    { unfold find_directions. destruct (u_xo u); [|eauto]. destruct X as (m & ->). cbn. eauto. }
    destruct M as (m & EM). change (match u_xo u with None => Ok None | Some xo => rmap Some (x_orientation_pol_map xo) end) with (find_directions u).
    rewrite EM. apply find_directions_ok in EM as (D & _).
    destruct (proj2 (places_ok String.eqb String.eqb_eq (feed_label m (u_feeds u)) (u_feeds u) l)) as (ks & E).
    { revert F. apply Forall_impl. intros s (f & H). exists f. split; [apply feed_label_names; assumption | apply H]. }
    rewrite E. pose proof (places_spec String.eqb String.eqb_eq _ EmptyString (u_feeds u) l ks E) as SP.
    assert (K : keeps (fun f => exists s, In s l /\ names_feed u s f) (u_feeds u) (take EmptyString (u_feeds u) (uniqueN ks))).
    { rewrite SP. apply keeps_nonzero. intros f If. rewrite existsb_exists. split.
      - intros (s & I & Eq). exists s. split; [exact I|]. apply (feed_label_names u m s f D). destruct (feed_label m (u_feeds u) s); [|discriminate].
        apply String.eqb_eq in Eq. congruence.
      - intros (s & I & H). exists s. split; [exact I|]. apply (feed_label_names u m s f D) in H. rewrite H. apply String.eqb_refl. }
    destruct (cut_feeds_ok _ _ u O W K) as (A & C).
    { intros i I. rewrite SP in I. eapply nonzero_lt. exact I. }
    eexists. split; [reflexivity|]. split; [exact A|]. split; [exact C|]. split; [exact K|]. cbn. auto.
  - exists u. split; [reflexivity|]. split; [exact O|]. split; [apply cut_id|]. split; [|auto]. apply keeps_all. intros; exact I.
Qed.

(** The polarization axis *)
Lemma pol_number_names u a p : pol_number (u_xo u) a = Ok p <-> names_pol u a p.
Proof. destruct a as [n|s]; cbn [pol_number names_pol]; [split; [intros H; injection H as <-; reflexivity | intros ->; reflexivity] | reflexivity]. Qed.

Lemma single_place (l : list Z) i : NoDup l -> (i < length l)%nat -> nonzero (Z.eqb (nth i l 0)) l = [i].
Proof.
  intros N L. symmetry. apply (nonzero_unique 0); [repeat constructor|]. intros k. rewrite Z.eqb_eq. split.
  - intros [<- | []]. auto.
  - intros (Lk & E). left. apply (proj1 (NoDup_nth _ 0) N); auto.
Qed.
Lemma concat_singles {A} (l : list A) : List.concat (map (fun i => [i]) l) = l.
Proof. induction l as [|a l IH]; [reflexivity|]. cbn [map List.concat]. rewrite IH. reflexivity. Qed.

Lemma ordered_places u l b : NoDup (u_pols u) -> Forall2 (names_pol u) l (filter b (u_pols u)) ->
  places Z.eqb (pol_number (u_xo u)) (u_pols u) l = Ok (nonzero b (u_pols u)).
Proof.
  intros N F. rewrite <- (take_nonzero_filter 0) in F. unfold places.
  assert (B : forall i, In i (nonzero b (u_pols u)) -> (i < length (u_pols u))%nat) by (intros i; apply nonzero_lt).
  assert (E : mapM (fun a => do x <- pol_number (u_xo u) a; if memb Z.eqb x (u_pols u) then Ok (nonzero (Z.eqb x) (u_pols u)) else Err ValueError) l
              = Ok (map (fun i => [i]) (nonzero b (u_pols u)))).
  { revert F B. generalize (nonzero b (u_pols u)). revert N. clear. intros N. induction l as [|a l IH]; intros idx F B.
    - destruct idx; [reflexivity | inversion F].
    - destruct idx as [|i idx]; [inversion F|]. unfold take in F. cbn [map] in F. inversion F; subst. cbn [mapM].
      rewrite (proj2 (pol_number_names u a _) H2). cbn [bind].
      rewrite (proj2 (memb_spec Z.eqb Z.eqb_eq _ _) (nth_In _ 0 (B i (or_introl eq_refl)))). cbn [bind].
      rewrite (IH idx H4 (fun j I => B j (or_intror I))). cbn [bind map].
      rewrite single_place; [reflexivity | exact N | apply B; left; reflexivity]. }
  rewrite E. cbn [bind]. rewrite concat_singles. reflexivity.
Qed.

Lemma sorted_uniqueN l : StronglySorted lt l -> uniqueN l = l.
Proof.
  intros H. apply (sorted_unique lt); try (intros; lia); auto using uniqueN_sorted. intros x. apply uniqueN_In.
Qed.

Lemma all_real_spec nvec np nf ny nx d : all_real nvec np nf ny nx d = true -> forall v p f y x,
  (v < nvec)%nat -> (p < np)%nat -> (f < nf)%nat -> (y < ny)%nat -> (x < nx)%nat -> snd (d v p f y x) = 0.
Proof.
  unfold all_real. intros H v p f y x Lv Lp Lf Ly Lx.
  rewrite forallb_forall in H. specialize (H v). rewrite in_seq in H. specialize (H ltac:(lia)).
  rewrite forallb_forall in H. specialize (H p). rewrite in_seq in H. specialize (H ltac:(lia)).
  rewrite forallb_forall in H. specialize (H f). rewrite in_seq in H. specialize (H ltac:(lia)).
  rewrite forallb_forall in H. specialize (H y). rewrite in_seq in H. specialize (H ltac:(lia)).
  rewrite forallb_forall in H. specialize (H x). rewrite in_seq in H. specialize (H ltac:(lia)).
  apply Z.eqb_eq, H.
Qed.

Lemma pol_step r u : beam_ok u -> plain_power u -> pols_in_order r u ->
  match br_pols r with
  | None => True
  | Some l => u_power u = true /\ Forall (fun a => exists p, names_pol u a p /\ In p (u_pols u)) l
  end ->
  exists u', sel_pols (br_pols r) u = (u', None) /\ beam_ok u' /\ cut u u' /\
    keeps (wants_pol r u) (u_pols u) (u_pols u') /\
    u_pix u' = u_pix u /\ u_freqs u' = u_freqs u /\ u_feeds u' = u_feeds u.
Proof.
  intros O P Q F. unfold wants_pol, pols_in_order in *. destruct (br_pols r) as [l|]; cbn [sel_pols].
  2:{ exists u. split; [reflexivity|]. split; [exact O|]. split; [apply cut_id|]. split; [|auto]. apply keeps_all. intros; exact I. }
  destruct F as (W & F). destruct Q as (b & Q). rewrite W. cbn [negb].
  pose proof (bo_pols _ O) as NP. pose proof (ordered_places u l b NP Q) as E. rewrite E.
  set (ks := nonzero b (u_pols u)) in *.
  assert (EU : uniqueN ks = ks) by (apply sorted_uniqueN, nonzero_sorted).
  assert (BK : forall i, In i ks -> (i < length (u_pols u))%nat) by (intros i; apply nonzero_lt).
  assert (K : keeps (fun p => exists a, In a l /\ names_pol u a p) (u_pols u) (take 0 (u_pols u) ks)).
  { apply keeps_nonzero. intros p Ip. split.
    - intros Eb. assert (I : In p (filter b (u_pols u))) by (apply filter_In; auto). clear - Q I.
      induction Q as [|a q l ps H Q IH]; [destruct I|]. destruct I as [<- | I]; [exists a; cbn; auto|]. destruct (IH I) as (c & Ic & Hc). exists c. cbn. auto.
    - intros (a & Ia & Ha). assert (I : In p (filter b (u_pols u))).
      { clear - Q Ia Ha. induction Q as [|c q l ps H Q IH]; [destruct Ia|]. destruct Ia as [-> | Ia]; [|right; auto].
        left. apply pol_number_names in H, Ha. congruence. }
      apply filter_In in I. tauto. }
  exists (cut_pols ks u). split; [reflexivity|].
  assert (EC : pol_count (cut_pols ks u) = length ks) by (unfold pol_count; cbn; rewrite W; apply take_length).
  split; [|split; [|split; [exact K | cbn; auto]]].
  - pose proof (keeps_NoDup _ _ _ NP K) as NK. destruct O. constructor;
      cbn [cut_pols u_pix u_freqs u_feeds u_pols u_npols u_power u_basis u_bandpass u_rx u_loss u_mismatch u_spar]; auto.
    intros _. rewrite EU, take_length. reflexivity.
  - exists (at_ ks), idn, idn, idn. constructor; try rewrite EC; cbn [cut_pols u_pix u_freqs u_feeds u_pols u_npols u_power u_phased u_nvec u_xo u_basis u_bandpass u_rx u_loss u_mismatch u_spar u_coupling]; auto; try apply rows_id.
    + rewrite W. apply axm_take. exact BK.
    + apply axm_id.
    + destruct (u_pix u); split; try apply axm_id; reflexivity.
    + intros v p f y x Lv Lp Lf (Ly & Lx). unfold cut_pols. cbn [u_data]. rewrite EU. unfold idn.
      destruct (has_cross (u_pols u) && negb (has_cross (take 0 (u_pols u) ks)) && all_real _ _ _ _ _ _) eqn:C; [|reflexivity].
      apply andb_true_iff in C as (C & C3). apply andb_true_iff in C as (_ & C2). apply negb_true_iff in C2.
      pose proof (all_real_spec _ _ _ _ _ _ C3 v p f y x Lv Lp Lf Ly Lx) as R.
      assert (LP : (at_ ks p < length (u_pols u))%nat) by (apply BK; unfold at_; apply nth_In, Lp).
      assert (G : 0 <= fst (u_data u v (at_ ks p) f y x)).
      { apply (proj2 (P W)); auto; [unfold pol_count; rewrite W; exact LP | split; assumption |]. intros I.
        assert (X : has_cross (take 0 (u_pols u) ks) = true); [|congruence]. unfold has_cross. apply existsb_exists.
        exists (nth (at_ ks p) (u_pols u) 0). split; [|apply isinZ_spec; exact I]. unfold take. apply in_map_iff.
        exists (at_ ks p). split; [reflexivity | unfold at_; apply nth_In, Lp]. }
      destruct (u_data u v (at_ ks p) f y x) as [re im]. cbn [fst snd] in *. f_equal; lia.
    + destruct (u_basis u); auto.
    + destruct (u_spar u); [|exact I]. apply Forall2_refl. intros x. apply rows_id.
    + intros _ X. rewrite W in X. discriminate.
Qed.

(** * The whole selection *)
Lemma shapes_fine u : beam_ok u -> shapes_ok u = true.
Proof.
  intros O. unfold shapes_ok. apply andb_true_iff. split.
  - destruct (u_power u) eqn:W; [|reflexivity]. rewrite (bo_npols _ O W). apply Nat.eqb_refl.
  - pose proof (bo_basis _ O) as B. destruct (u_basis u); [|reflexivity]. destruct B as (-> & ->). rewrite !Nat.eqb_refl. reflexivity.
Qed.

Theorem select_fits chk r u : beam_ok u -> plain_power u -> fits r u -> pols_in_order r u ->
  exists u', beam_select chk r u = (u', None) /\ beam_ok u' /\ cut_down r u u'.
Proof.
  intros O P (F1 & F2 & F3 & F4 & F5) Q. unfold beam_select.
  destruct (image_steps r u O P F1) as (u1 & E1 & O1 & C1 & K1 & L1 & L2 & L3 & L4 & L5). rewrite E1.
  pose proof (plain_cut _ _ C1 P) as P1.
  destruct (freq_step r u1 O1) as (u2 & E2 & O2 & C2 & K2 & M0 & M2 & M3 & M4 & M5); try (rewrite L1; assumption).
  pose proof (plain_cut _ _ C2 P1) as P2. unfold and_then at 4. cbn [fst snd]. rewrite E2.
  destruct (feed_step r u2 O2) as (u3 & E3 & O3 & C3 & K3 & N0 & N2 & N3 & N4 & N5).
  { unfold names_feed in *. rewrite M4, M5, M2, L4, L5, L2. exact F4. }
  pose proof (plain_cut _ _ C3 P2) as P3. unfold and_then at 3. cbn [fst snd]. rewrite E3.
  assert (EP : u_pols u3 = u_pols u) by congruence. assert (EX : u_xo u3 = u_xo u) by congruence. assert (EW : u_power u3 = u_power u) by congruence.
  destruct (pol_step r u3 O3 P3) as (u4 & E4 & O4 & C4 & K4 & R0 & R1 & R2).
  { unfold pols_in_order, names_pol in *. rewrite EP, EX. exact Q. }
  { unfold names_pol in *. rewrite EP, EX, EW. exact F5. }
  unfold and_then at 2. cbn [fst snd]. rewrite E4. unfold and_then. cbn [fst snd]. rewrite (shapes_fine u4 O4), andb_false_r.
  exists u4. split; [reflexivity|]. split; [exact O4|].
  assert (C : cut u u4) by (eapply cut_trans; [exact C1|]; eapply cut_trans; [exact C2|]; eapply cut_trans; [exact C3 | exact C4]).
  constructor.
  - destruct C as (a & b & c & d & C). exact (cr_same _ _ _ _ _ _ C).
  - unfold image_keeps in K1. rewrite R0, N0, M0. exact K1.
  - rewrite R1, N2. unfold wants_freq in *. rewrite <- L1. exact K2.
  - rewrite R2. replace (u_feeds u) with (u_feeds u2) by congruence. revert K3. unfold keeps. intros (b & Hb & E). exists b. split; [|exact E].
    intros x Ix. rewrite (Hb x Ix). unfold wants_feed, names_feed. rewrite M5, L5, M2, L2. reflexivity.
  - rewrite <- EP. revert K4. unfold keeps. intros (b & Hb & E). exists b. split; [|exact E].
    intros x Ix. rewrite (Hb x Ix). unfold wants_pol, names_pol. rewrite EX. reflexivity.
  - destruct C as (a & b & c & d & C). exact (cutr_numbers _ _ _ _ _ _ O O4 C).
Qed.

(** * What is accepted *)
Lemma and_then_ok o k u' : and_then o k = (u', None) -> exists u1, o = (u1, None) /\ k u1 = (u', None).
Proof. destruct o as [u1 [e|]]; unfold and_then; cbn [fst snd]; [discriminate|]. intros H. eauto. Qed.

Lemma axis1_accepts req u u1 : sel_axis1 req u = (u1, None) ->
  same_labels u u1 /\
  match u_pix u with
  | Healpix l => req = None /\ u_pix u1 = Healpix l
  | Grid a1 a2 => axis_fits req (length a1) /\ exists b1, u_pix u1 = Grid b1 a2
  end.
Proof.
  unfold sel_axis1. destruct req as [l|].
  - destruct (u_pix u) as [|a1 a2]; [discriminate|]. destruct (axis_inds (length a1) l) as [idx|] eqn:E; [|discriminate].
    intros H. apply pair_equal_spec in H as (<- & _). split; [repeat split|]. destruct (axis_inds_spec _ _ _ E) as (A & B & _). split; [split; assumption|]. eexists. reflexivity.
  - intros H. apply pair_equal_spec in H as (<- & _). split; [repeat split|]. destruct (u_pix u); [auto|]. split; [exact I | eauto].
Qed.
Lemma axis2_accepts req u u1 : sel_axis2 req u = (u1, None) ->
  same_labels u u1 /\
  match u_pix u with
  | Healpix l => req = None /\ u_pix u1 = Healpix l
  | Grid a1 a2 => axis_fits req (length a2) /\ exists b1 b2, u_pix u1 = Grid b1 b2
  end.
Proof.
  unfold sel_axis2. destruct req as [l|].
  - destruct (u_pix u) as [|a1 a2]; [discriminate|]. destruct (axis_inds (length a2) l) as [idx|] eqn:E; [|discriminate].
    intros H. apply pair_equal_spec in H as (<- & _). split; [repeat split|]. destruct (axis_inds_spec _ _ _ E) as (A & B & _). split; [split; assumption|]. eexists _, _. reflexivity.
  - intros H. apply pair_equal_spec in H as (<- & _). split; [repeat split|]. destruct (u_pix u); [auto|]. split; [exact I | eauto].
Qed.
Lemma pixels_accepts req u u1 : sel_pixels req u = (u1, None) ->
  same_labels u u1 /\
  match u_pix u with
  | Healpix l => match req with None => True | Some p => incl p l end
  | Grid a1 a2 => req = None
  end.
Proof.
  unfold sel_pixels. destruct req as [l|].
  - destruct (u_pix u) as [pix|]; [|discriminate]. destruct (places Z.eqb Ok pix l) as [ks|] eqn:E; [|discriminate].
    intros H. apply pair_equal_spec in H as (<- & _). split; [repeat split|].
    pose proof (proj1 (places_ok Z.eqb Z.eqb_eq Ok pix l) (ex_intro _ ks E)) as F. intros x Ix. rewrite Forall_forall in F.
    destruct (F x Ix) as (y & Ey & Iy). injection Ey as <-. exact Iy.
  - intros H. apply pair_equal_spec in H as (<- & _). split; [repeat split|]. destruct (u_pix u); auto.
Qed.
Lemma freqs_accepts fr ch u u1 : sel_freqs fr ch u = (u1, None) ->
  u_feeds u1 = u_feeds u /\ u_pols u1 = u_pols u /\ u_power u1 = u_power u /\ u_xo u1 = u_xo u /\
  match fr with None => True | Some l => incl l (u_freqs u) end /\
  match ch with None => True | Some l => Forall (fun c => exists j, denotes (length (u_freqs u)) c j) l end.
Proof.
  unfold sel_freqs. destruct (asked_freqs fr ch u) as [o|] eqn:EA; [|discriminate]. intros H.
  assert (G : u_feeds u1 = u_feeds u /\ u_pols u1 = u_pols u /\ u_power u1 = u_power u /\ u_xo u1 = u_xo u /\
              match o with None => True | Some l => incl l (u_freqs u) end).
  { destruct o as [l|].
    - destruct (places Z.eqb Ok (u_freqs u) l) as [ks|] eqn:E; [|discriminate]. apply pair_equal_spec in H as (<- & _).
      repeat (split; [reflexivity|]). pose proof (proj1 (places_ok Z.eqb Z.eqb_eq Ok _ l) (ex_intro _ ks E)) as F. intros x Ix. rewrite Forall_forall in F.
      destruct (F x Ix) as (y & Ey & Iy). injection Ey as <-. exact Iy.
    - apply pair_equal_spec in H as (<- & _). auto. }
  destruct G as (G1 & G2 & G3 & G4 & G5). repeat (split; [assumption|]). unfold asked_freqs in EA. destruct ch as [c|].
  - apply bind_Ok in EA as (vals & EV & EA). split.
    + destruct fr as [f|]; [|exact I]. injection EA as <-. intros x Ix. apply G5. apply uniqueZ_In, in_app_iff. auto.
    + apply mapM_Ok_Forall2 in EV. clear - EV. induction EV as [|x v c vals H EV IH]; constructor; [|exact IH].
      destruct (norm_index (length (u_freqs u)) x) as [j|] eqn:E; [|discriminate]. exists j. apply norm_index_denotes, E.
  - injection EA as <-. auto.
Qed.
Lemma feeds_accepts req u u1 : sel_feeds req u = (u1, None) ->
  u_pols u1 = u_pols u /\ u_power u1 = u_power u /\ u_xo u1 = u_xo u /\
  match req with
  | None => True
  | Some l => u_power u = false /\
      match u_xo u with None => True | Some xo => exists m, x_orientation_pol_map xo = Ok m end /\
      Forall (fun s => exists f, names_feed u s f) l
  end.
Proof.
  unfold sel_feeds. destruct req as [l|]; [|intros H; apply pair_equal_spec in H as (<- & _); auto].
  destruct (u_power u) eqn:W; [discriminate|].
  change (match u_xo u with None => Ok None | Some xo => rmap Some (x_orientation_pol_map xo) end) with (find_directions u).
  destruct (find_directions u) as [m|] eqn:EM; [|discriminate]. apply find_directions_ok in EM as (D & X).
  destruct (places String.eqb (feed_label m (u_feeds u)) (u_feeds u) l) as [ks|] eqn:E; [|discriminate].
  intros H. apply pair_equal_spec in H as (<- & _). split; [reflexivity|]. split; [exact W|]. split; [reflexivity|]. split; [reflexivity|]. split; [exact X|].
  pose proof (proj1 (places_ok String.eqb String.eqb_eq _ _ l) (ex_intro _ ks E)) as F. revert F. apply Forall_impl.
  intros s (f & Ef & _). exists f. apply (feed_label_names u m s f D), Ef.
Qed.
Lemma pols_accepts req u u1 : sel_pols req u = (u1, None) ->
  match req with
  | None => True
  | Some l => u_power u = true /\ Forall (fun a => exists p, names_pol u a p /\ In p (u_pols u)) l
  end.
Proof.
  unfold sel_pols. destruct req as [l|]; [|intros _; exact I]. destruct (u_power u); cbn [negb]; [|discriminate].
  destruct (places Z.eqb (pol_number (u_xo u)) (u_pols u) l) as [ks|] eqn:E; [|discriminate]. intros _. split; [reflexivity|].
  pose proof (proj1 (places_ok Z.eqb Z.eqb_eq _ _ l) (ex_intro _ ks E)) as F. revert F. apply Forall_impl.
  intros a (p & Ep & Ip). exists p. split; [apply pol_number_names, Ep | exact Ip].
Qed.

Theorem select_accepts chk r u u' : beam_select chk r u = (u', None) -> fits r u.
Proof.
  unfold beam_select. intros H.
  apply and_then_ok in H as (u6 & H & _). apply and_then_ok in H as (u5 & H & E6). apply and_then_ok in H as (u4 & H & E5).
  apply and_then_ok in H as (u3 & H & E4). apply and_then_ok in H as (u2 & H & E3). apply and_then_ok in H as (u1 & E1 & E2).
  apply axis1_accepts in E1 as ((A1 & A2 & A3 & A4 & A5) & E1). apply axis2_accepts in E2 as ((B1 & B2 & B3 & B4 & B5) & E2).
  apply pixels_accepts in E3 as ((D1 & D2 & D3 & D4 & D5) & E3). apply freqs_accepts in E4 as (G2 & G3 & G4 & G5 & E4 & E4').
  apply feeds_accepts in E5 as (H3 & H4 & H5 & E5). apply pols_accepts in E6.
  assert (X1 : u_freqs u3 = u_freqs u) by congruence. assert (X2 : u_feeds u4 = u_feeds u) by congruence. assert (X3 : u_pols u5 = u_pols u) by congruence.
  assert (X4 : u_power u4 = u_power u) by congruence. assert (X5 : u_xo u4 = u_xo u) by congruence.
  assert (X6 : u_power u5 = u_power u) by congruence. assert (X7 : u_xo u5 = u_xo u) by congruence.
  rewrite X1 in E4, E4'. split; [|split; [exact E4|]; split; [exact E4'|]; split].
  - destruct (u_pix u) as [l|a1 a2].
    + destruct E1 as (R1 & Q1). rewrite Q1 in E2. destruct E2 as (R2 & Q2). rewrite Q2 in E3. auto.
    + destruct E1 as (R1 & b1 & Q1). rewrite Q1 in E2. destruct E2 as (R2 & c1 & c2 & Q2). rewrite Q2 in E3. auto.
  - unfold names_feed in *. rewrite X2, X4, X5 in E5. exact E5.
  - unfold names_pol in *. rewrite X3, X6, X7 in E6. exact E6.
Qed.
