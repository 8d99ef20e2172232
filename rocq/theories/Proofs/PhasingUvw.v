(** Baseline coordinates through phasing. *)
From Coq Require Import List ZArith Reals Bool Arith String QArith Lia Lra.
From Verif Require Import Lib.Py Lib.Np Lib.Dict Lib.Cube Model.PhaseCenter Model.Coordinates Model.Rotation Model.Phase
  Spec.PhaseSpec Spec.CoordinatesSpec Spec.RotationSpec Spec.PhasingSpec Proofs.PhaseProofs Proofs.PhaseOps Proofs.PhaseSplit Proofs.PhasePhase
  Proofs.RotationProofs Proofs.CalcUvw Proofs.CalcUvwAnts Proofs.CalcUvwRoutes Proofs.PhasingProofs Proofs.PhasingOps Proofs.PhasingTop.
Import ListNotations.
Open Scope list_scope.
Open Scope R_scope.
Notation length := List.length.

(** * Selected rows and where they are among the selected *)
Definition rank (sel : list bool) (i : nat) : nat := count (firstn i sel).
Lemma rank_lt sel : forall i, nth i sel false = true -> (rank sel i < count sel)%nat.
Proof.
  unfold rank. induction sel as [|b sel IH]; intros i H; [destruct i; discriminate|]. destruct i as [|i]; cbn [nth firstn] in *.
  - subst b. rewrite count_cons. cbn [count filter length]. lia.
  - rewrite !count_cons. apply IH in H. destruct b; lia.
Qed.
Lemma rank_masked {A} sel (d : A) : forall l i, nth i sel false = true -> length l = length sel -> nth (rank sel i) (masked sel l) d = nth i l d.
Proof.
  unfold rank. induction sel as [|b sel IH]; intros l i H L; [destruct i; discriminate|]. destruct l as [|x l]; [discriminate|]. simpl in L.
  destruct i as [|i]; cbn [nth firstn masked] in *.
  - subst b. reflexivity.
  - rewrite count_cons. destruct b; cbn [nth]; apply IH; auto.
Qed.
Lemma rank_put {A} sel (d : A) : forall new old i, nth i sel false = true -> length old = length sel -> length new = count sel ->
  nth i (put sel new old) d = nth (rank sel i) new d.
Proof.
  unfold rank. induction sel as [|b sel IH]; intros new old i H L Ln; [destruct i; discriminate|]. destruct old as [|x old]; [discriminate|]. simpl in L.
  rewrite count_cons in Ln. destruct i as [|i]; cbn [nth firstn put] in *.
  - subst b. destruct new as [|y new]; [simpl in Ln; lia|]. reflexivity.
  - rewrite count_cons. destruct b; [destruct new as [|y new]; [simpl in Ln; lia|]|]; cbn [nth]; apply IH; auto.
Qed.
Lemma rank_assign {A} sel (d : A) new old out i : assign_rows sel new old = Ok out -> nth i sel false = true ->
  length old = length sel -> length new = count sel -> nth i out d = nth (rank sel i) new d.
Proof.
  intros H Hi L Ln. unfold assign_rows in H. rewrite (proj2 (Nat.eqb_eq _ _) Ln) in H. injection H as <-. apply rank_put; assumption.
Qed.
Lemma rank_onto sel : forall r, (r < count sel)%nat -> exists i, nth i sel false = true /\ rank sel i = r.
Proof.
  unfold rank. induction sel as [|b sel IH]; intros r H; [simpl in H; inversion H|]. rewrite count_cons in H. destruct b.
  - destruct r as [|r]; [exists 0%nat; split; reflexivity|]. destruct (IH r) as (i & H1 & H2); [lia|]. exists (S i). cbn [nth firstn].
    split; [exact H1|]. rewrite count_cons, H2. reflexivity.
  - destruct (IH r) as (i & H1 & H2); [lia|]. exists (S i). cbn [nth firstn]. split; [exact H1|]. rewrite count_cons, H2. reflexivity.
Qed.
Lemma masked_count {A} sel : forall l : list A, length l = length sel -> length (masked sel l) = count sel.
Proof.
  induction sel as [|b sel IH]; intros l L; destruct l as [|x l]; try discriminate; [reflexivity|]. simpl in L. rewrite count_cons.
  destruct b; cbn [masked length]; rewrite IH by lia; lia.
Qed.
Lemma masked_In {A} sel : forall (l : list A) x, In x (masked sel l) -> In x l.
Proof.
  induction sel as [|b sel IH]; intros l x H; [destruct H|]. destruct l as [|y l]; [destruct H|]. destruct b; cbn [masked] in H.
  - destruct H as [->|H]; [left; reflexivity|right; apply IH, H].
  - right. apply IH, H.
Qed.
Lemma calc_app_length sky lat q times lsts : length (calc_app_coords sky lat q times lsts) = length times.
Proof. apply map_length. Qed.

(** * phase *)
Lemma phase_uvw_ants sky junk pop name p mask cleanup s s' : picks pop -> whole s -> name_fits s name p -> antennas_ok s ->
  phase sky junk pop name p false true mask cleanup s = Ok s' -> angles_agree (in_mask s mask) s' ->
  forall i b, in_mask s mask i -> baseline_of s i b -> placed s' i b.
Proof.
  intros Hp Hw Hf Ha H Hag i b Hi (k1 & k2 & K1 & K2 & ->).
  pose proof Hw as (Hc & L0 & L1 & L2 & L3 & L4 & L5 & L6 & L7 & L8). destruct Ha as (An & Al & A1 & A2).
  pose proof H as H'.
  apply phase_parts in H as (id & q & info & sel & new_uvw & nra & ndec & npa & new_w & Hreq & Hsel & _ & Er & Ed & Ep & _ & Hu & Hpc & _ & _ & Au & Ar & Ad & Ap & E1 & E2 & E3 & E4 & E5 & E6 & E7 & E8 & E9).
  assert (Hch : forall r, length sel = o_Nblts s /\ (in_mask s mask r <-> nth r sel false = true)) by (intros r; apply (mask_chosen s mask sel r Hsel)).
  assert (Ls : length sel = o_Nblts s) by (apply (Hch 0%nat)).
  assert (Lr : length nra = count sel) by (rewrite Er, map_length, calc_app_length, masked_count; congruence).
  assert (Ld : length ndec = count sel) by (rewrite Ed, map_length, calc_app_length, masked_count; congruence).
  assert (Lp : length npa = count sel).
  { rewrite Ep. destruct (type_in _ _); [rewrite repeat_length, masked_count; congruence|].
    rewrite map_length, combine_length, calc_app_length, Nat.min_id, masked_count; congruence. }
  assert (Kra : forall r, nth r sel false = true -> nth r (o_ra s') 0 = nth (rank sel r) nra 0) by (intros; eapply rank_assign; try eassumption; congruence).
  assert (Kdec : forall r, nth r sel false = true -> nth r (o_dec s') 0 = nth (rank sel r) ndec 0) by (intros; eapply rank_assign; try eassumption; congruence).
  assert (Kpa : forall r, nth r sel false = true -> nth r (o_pa s') 0 = nth (rank sel r) npa 0) by (intros; eapply rank_assign; try eassumption; congruence).
  assert (Klst : forall r, nth r sel false = true -> nth r (o_lst s') 0 = nth (rank sel r) (masked sel (o_lst s)) 0) by (intros; rewrite E2, rank_masked; congruence).
  pose proof (proj1 (proj2 (Hch i)) Hi) as Hs.
  assert (Lm : length (masked sel (o_ant1 s)) = count sel) by (rewrite masked_count; congruence).
  assert (Hlt := rank_lt _ _ Hs).
  destruct (ants_to_phased junk (uvw_call (Some nra) (Some ndec) (Some npa) (masked sel (o_lst s)) (masked sel (o_uvw s)) (o_pos s) (masked sel (o_ant1 s)) (masked sel (o_ant2 s)) s)
    (o_pos s) (o_nums s) (masked sel (o_ant1 s)) (masked sel (o_ant2 s)) (o_lon s) eq_refl eq_refl eq_refl eq_refl eq_refl An Al)
    with (ra := nra) (dec := ndec) (lst := masked sel (o_lst s)) as (new & N1 & N2 & N3); try reflexivity; try (rewrite Lm; assumption).
  - intros a H. apply A1. eapply masked_In. exact H.
  - intros a H. apply A2. eapply masked_In. exact H.
  - rewrite !masked_count; congruence.
  - intros E. rewrite E in Lm. simpl in Lm. lia.
  - rewrite Lm, masked_count; congruence.
  - rewrite Lm. intros r Hr Eha Edec. cbn [frame_pa uvw_call pa_at].
    destruct (rank_onto sel (S r) Hr) as (i1 & S1 & R1). destruct (rank_onto sel r) as (i0 & S0 & R0); [lia|].
    rewrite <- R1, <- R0 in *. rewrite <- !Kra, <- !Klst in Eha by assumption. rewrite <- !Kdec in Edec by assumption.
    rewrite <- !Kpa by assumption. apply Hag; try assumption; apply (proj2 (Hch _)); assumption.
  - rewrite Hu in N1. injection N1 as <-. rewrite Lm in *. unfold placed.
    assert (Ku : nth i (o_uvw s') origin = nth (rank sel i) new_uvw origin).
    { apply (rank_assign _ origin _ _ _ _ Au Hs); [exact (eq_trans L5 (eq_sym Ls))|exact N2]. }
    rewrite Ku.
    specialize (N3 (rank sel i) k1 k2 Hlt). rewrite !rank_masked in N3 by congruence. specialize (N3 K1 K2).
    cbn [frame_pa uvw_call pa_at] in N3. rewrite Kra, Kdec, Kpa, E2, E9 by assumption. exact N3.
Qed.

(** Without antennas: all rows are selected *)
Lemma count_all sel : count sel = length sel -> forall i, (i < length sel)%nat -> nth i sel false = true.
Proof.
  induction sel as [|b sel IH]; intros H i Hi; [simpl in Hi; lia|]. rewrite count_cons in H. simpl in H, Hi.
  assert (Hle : (count sel <= length sel)%nat) by (unfold count; clear; induction sel as [|[] sel IH]; simpl; lia).
  destruct b; [|lia]. destruct i; [reflexivity|]. simpl. apply IH; lia.
Qed.
Lemma count_rank sel : count sel = length sel -> forall i, (i < length sel)%nat -> rank sel i = i.
Proof.
  unfold rank. induction sel as [|b sel IH]; intros H i Hi; [simpl in Hi; lia|]. rewrite count_cons in H. simpl in H, Hi.
  assert (Hle : (count sel <= length sel)%nat) by (unfold count; clear; induction sel as [|[] sel IH]; simpl; lia).
  destruct b; [|lia]. destruct i; [reflexivity|]. cbn [firstn]. rewrite count_cons, IH by lia. reflexivity.
Qed.
Lemma count_masked {A} sel : count sel = length sel -> forall l : list A, length l = length sel -> masked sel l = l.
Proof.
  induction sel as [|b sel IH]; intros H l L; destruct l as [|x l]; try discriminate; [reflexivity|]. rewrite count_cons in H. simpl in H, L.
  assert (Hle : (count sel <= length sel)%nat) by (unfold count; clear; induction sel as [|[] sel IH]; simpl; lia).
  destruct b; [|lia]. cbn [masked]. rewrite IH by lia. reflexivity.
Qed.
Lemma phase_uvw_rotate sky junk pop name p mask cleanup s s' : picks pop -> whole s -> name_fits s name p ->
  phase sky junk pop name p false false mask cleanup s = Ok s' ->
  forall i b, (i < o_Nblts s)%nat -> placed s i b -> placed s' i b.
Proof.
  intros Hp Hw Hf H i b Hi Hpl.
  pose proof Hw as (Hc & L0 & L1 & L2 & L3 & L4 & L5 & L6 & L7 & L8).
  apply phase_parts in H as (id & q & info & sel & new_uvw & nra & ndec & npa & new_w & Hreq & Hsel & _ & Er & Ed & Ep & [Hx|Hall] & Hu & Hpc & _ & _ & Au & Ar & Ad & Ap & E1 & E2 & E3 & E4 & E5 & E6 & E7 & E8 & E9); [discriminate|].
  assert (Ls : length sel = o_Nblts s) by (apply (mask_chosen s mask sel i Hsel)).
  assert (Hcs : count sel = length sel) by congruence.
  assert (Hs : nth i sel false = true) by (apply count_all; congruence).
  assert (Hr : rank sel i = i) by (apply count_rank; congruence).
  assert (Lr : length nra = o_Nblts s) by (rewrite Er, map_length, calc_app_length, masked_count; congruence).
  assert (Ld : length ndec = o_Nblts s) by (rewrite Ed, map_length, calc_app_length, masked_count; congruence).
  assert (Lp : length npa = o_Nblts s).
  { rewrite Ep. destruct (type_in _ _); [rewrite repeat_length, masked_count; congruence|].
    rewrite map_length, combine_length, calc_app_length, Nat.min_id, masked_count; congruence. }
  assert (Kra : nth i (o_ra s') 0 = nth i nra 0) by (rewrite <- Hr at 2; eapply rank_assign; try eassumption; congruence).
  assert (Kdec : nth i (o_dec s') 0 = nth i ndec 0) by (rewrite <- Hr at 2; eapply rank_assign; try eassumption; congruence).
  assert (Kpa : nth i (o_pa s') 0 = nth i npa 0) by (rewrite <- Hr at 2; eapply rank_assign; try eassumption; congruence).
  rewrite !count_masked in Hu by congruence.
  destruct (move_spec junk (uvw_call (Some nra) (Some ndec) (Some npa) (o_lst s) (o_uvw s) (o_pos s) (o_ant1 s) (o_ant2 s) s)
    (o_uvw s) nra ndec npa (o_ra s) (o_dec s) (o_pa s) eq_refl) as (new & N1 & N2 & N3); try reflexivity; try congruence.
  - apply (nonempty _ _ L5 L0).
  - rewrite Hu in N1. injection N1 as <-. unfold placed in *.
    assert (Ku : nth i (o_uvw s') origin = nth i new_uvw origin) by (rewrite <- Hr at 2; eapply rank_assign; try eassumption; congruence).
    rewrite Ku, Kra, Kdec, Kpa, E2, E9. apply (N3 i _ b) in Hpl; [|lia]. rewrite Hpl. f_equal. ring.
Qed.

(** Rows phased to "unprojected" are at the zenith *)
Lemma first_lst_in times lsts t : forall i0, nth i0 times 0 = t -> (i0 < length times)%nat -> length lsts = length times ->
  exists i, (i < length times)%nat /\ nth i times 0 = t /\ first_lst times lsts t = nth i lsts 0.
Proof.
  revert lsts. induction times as [|u times IH]; intros lsts i0 H Hi L; [simpl in Hi; lia|]. destruct lsts as [|l lsts]; [discriminate|]. cbn [first_lst].
  destruct (Req_EM_T u t) as [->|Hn].
  - exists 0%nat. split; [simpl; lia|]. split; reflexivity.
  - destruct i0 as [|i0]; [exfalso; apply Hn; exact H|]. simpl in H, Hi, L. destruct (IH lsts i0) as (i & I1 & I2 & I3); [assumption|lia|lia|].
    exists (S i). split; [simpl; lia|]. split; assumption.
Qed.
Lemma phase_zenith sky junk pop name p ant mask cleanup s s' : picks pop -> whole s -> lst_of_time s ->
  (forall k e, stored (o_pc s) k e -> e_name e <> name) -> is_type "unprojected" p = true -> c_frame p = Some "altaz"%string ->
  phase sky junk pop name p false ant mask cleanup s = Ok s' ->
  forall i, in_mask s mask i -> at_zenith s' i.
Proof.
  intros Hp Hw Hlt Hnew Hty Hfr H i Hi.
  pose proof Hw as (Hc & L0 & L1 & L2 & L3 & L4 & L5 & L6 & L7 & L8).
  apply phase_parts in H as (id & q & info & sel & new_uvw & nra & ndec & npa & new_w & Hreq & Hsel & _ & Er & Ed & Ep & _ & Hu & Hpc & _ & _ & Au & Ar & Ad & Ap & E1 & E2 & E3 & E4 & E5 & E6 & E7 & E8 & E9).
  destruct (mask_chosen s mask sel i Hsel) as [Ls Hch]. pose proof (proj1 Hch Hi) as Hs.
  assert (Hq : type_in (c_type q) ["unprojected"%string] = true).
  { unfold phase_request in Hreq. cbn zeta in Hreq.
    assert (Hnil : look_for_name (pc_cat (o_pc s)) name = []).
    { unfold look_for_name. destruct (filter _ (pc_cat (o_pc s))) as [|[k e] t] eqn:E; [reflexivity|]. exfalso.
      assert (Hin : In (k, e) (filter (fun p => String.eqb (e_name (snd p)) name) (pc_cat (o_pc s)))) by (rewrite E; left; reflexivity).
      apply filter_In in Hin as [Hin Hx]. apply String.eqb_eq in Hx. apply (Hnew k e Hin). exact Hx. }
    rewrite Hnil in Hreq. injection Hreq as _ <- _. cbn [c_type]. unfold is_type in Hty. destruct (c_type p); [exact Hty|discriminate]. }
  assert (Lt : length (masked sel (o_time s)) = count sel) by (apply masked_count; congruence).
  assert (Ll : length (masked sel (o_lst s)) = count sel) by (apply masked_count; congruence).
  assert (Hrk := rank_lt _ _ Hs).
  set (times := masked sel (o_time s)) in *. set (lsts := masked sel (o_lst s)) in *.
  assert (Happ : nth (rank sel i) (calc_app_coords sky (o_lat s) q times lsts) (0, 0) = (nth i (o_lst s) 0, o_lat s)).
  { unfold calc_app_coords. rewrite Hq.
    rewrite (nth_indep _ (0, 0) ((fun t => let l := first_lst times lsts t in (l, o_lat s)) 0)) by (rewrite map_length; lia).
    rewrite (map_nth (fun t => let l := first_lst times lsts t in (l, o_lat s))). cbv beta zeta.
    f_equal. destruct (first_lst_in times lsts (nth (rank sel i) times 0) (rank sel i) eq_refl) as (r & R1 & R2 & R3); [lia|lia|].
    rewrite R3. destruct (rank_onto sel r) as (k & K1 & K2); [lia|]. rewrite <- K2 in *.
    unfold times, lsts in *. rewrite !rank_masked in * by congruence.
    assert (Hkl : (k < o_Nblts s)%nat) by (destruct (Nat.lt_ge_cases k (o_Nblts s)) as [Hk|Hk]; [exact Hk|rewrite nth_overflow in K1 by lia; discriminate]).
    apply Hlt; [exact Hkl| |exact R2]. destruct Hi; assumption. }
  unfold at_zenith. rewrite E2, E8.
  split; [|split].
  - rewrite (rank_assign _ 0 _ _ _ _ Ar Hs); [|congruence|rewrite Er, map_length, calc_app_length; exact Lt].
    rewrite Er. change 0 with (fst (0, 0)) at 1. rewrite map_nth, Happ. reflexivity.
  - rewrite (rank_assign _ 0 _ _ _ _ Ad Hs); [|congruence|rewrite Ed, map_length, calc_app_length; exact Lt].
    rewrite Ed. change 0 with (snd (0, 0)) at 1. rewrite map_nth, Happ. reflexivity.
  - assert (Ez : npa = repeat 0 (length times)) by (rewrite Ep, Hfr; reflexivity).
    rewrite (rank_assign _ 0 _ _ _ _ Ap Hs); [|congruence|rewrite Ez, repeat_length; exact Lt].
    rewrite Ez. clear. revert i. generalize (length times). intros n i. generalize (rank sel i). intros r. clear.
    revert r. induction n as [|n IH]; intros [|r]; try reflexivity. cbn [repeat nth]. apply IH.
Qed.

(** * unproject_phase *)
Lemma unproject_zenith junk pop ant mask name s s' : picks pop -> whole s -> zeniths s ->
  unproject_phase junk pop ant mask name s = Ok s' ->
  forall i, (i < o_Nblts s)%nat -> in_mask s mask i \/ unprojected s i -> at_zenith s' i.
Proof.
  intros Hp Hw Hz H i Hi Hm. pose proof Hw as (Hc & L0 & L1 & L2 & L3 & L4 & L5 & L6 & L7 & L8).
  apply unproject_parts in H as (m & sel & Hmm & Esel & Hu & Hd & Hpc & Hra & Hdec & Hpa & E1 & E2 & E3 & E4 & E5 & E6 & E7 & E8 & E9).
  destruct (unproject_sel s mask m i Hc Hi Hmm) as [Ls Hsel]. rewrite <- Esel in Ls, Hsel.
  unfold at_zenith. rewrite Hra, Hdec, Hpa, E2, E8.
  destruct (nth i sel false) eqn:Es.
  - assert (Hrep : forall x n r, (r < n)%nat -> nth r (repeat x n) 0 = x).
    { clear. intros x n. induction n as [|n IH]; intros r Hr; [lia|]. destruct r; [reflexivity|]. cbn [repeat nth]. apply IH. lia. }
    pose proof (rank_lt _ _ Es) as Hrk.
    rewrite !rank_put by (try assumption; try congruence; try (rewrite repeat_length; reflexivity); apply masked_count; congruence).
    rewrite rank_masked by congruence. rewrite !Hrep by assumption. auto.
  - rewrite !put_false by exact Es. apply Hz; [exact Hi|]. destruct Hm as [Hm|Hm]; [|exact Hm].
    destruct (row_cases s i Hc Hi) as [Hr|Hr]; [exact Hr|]. assert (Hx : false = true) by (apply Hsel; split; assumption). discriminate.
Qed.
Lemma zenith_placed s i b : at_zenith s i -> nth i (o_uvw s) origin = east_north_up (o_lat s) (o_lon s) b -> placed s i b.
Proof. intros (Z1 & Z2 & Z3) H. unfold placed. rewrite Z1, Z2, Z3, H, enu_is_uvw. f_equal. ring. Qed.
Lemma unproject_uvw_ants junk pop mask name s s' : picks pop -> whole s -> zeniths s -> antennas_ok s ->
  unproject_phase junk pop true mask name s = Ok s' ->
  forall i b, (i < o_Nblts s)%nat -> in_mask s mask i \/ unprojected s i -> baseline_of s i b -> placed s' i b.
Proof.
  intros Hp Hw Hz (An & Al & A1 & A2) H i b Hi Hm (k1 & k2 & K1 & K2 & ->).
  pose proof (unproject_zenith _ _ _ _ _ _ _ Hp Hw Hz H i Hi Hm) as Hzen.
  pose proof Hw as (Hc & L0 & L1 & L2 & L3 & L4 & L5 & L6 & L7 & L8).
  apply unproject_parts in H as (m & sel & Hmm & Esel & Hu & Hd & Hpc & Hra & Hdec & Hpa & E1 & E2 & E3 & E4 & E5 & E6 & E7 & E8 & E9).
  apply zenith_placed; [exact Hzen|]. rewrite E8, E9.
  destruct (ants_to_enu junk (uvw_call None None None (o_lst s) (o_uvw s) (o_pos s) (o_ant1 s) (o_ant2 s) s)
    (o_pos s) (o_nums s) (o_ant1 s) (o_ant2 s) (o_lon s) eq_refl eq_refl eq_refl eq_refl eq_refl An Al A1 A2 ltac:(congruence) (nonempty _ _ L3 L0) (o_lat s) eq_refl)
    as (new & N1 & N2 & N3). rewrite Hu in N1. injection N1 as <-. apply N3; [lia|assumption|assumption].
Qed.
Lemma unproject_uvw_rotate junk pop mask name s s' : picks pop -> whole s -> zeniths s ->
  unproject_phase junk pop false mask name s = Ok s' ->
  forall i b, (i < o_Nblts s)%nat -> in_mask s mask i \/ unprojected s i -> placed s i b -> placed s' i b.
Proof.
  intros Hp Hw Hz H i b Hi Hm Hpl.
  pose proof (unproject_zenith _ _ _ _ _ _ _ Hp Hw Hz H i Hi Hm) as Hzen.
  pose proof Hw as (Hc & L0 & L1 & L2 & L3 & L4 & L5 & L6 & L7 & L8).
  apply unproject_parts in H as (m & sel & Hmm & Esel & Hu & Hd & Hpc & Hra & Hdec & Hpa & E1 & E2 & E3 & E4 & E5 & E6 & E7 & E8 & E9).
  apply zenith_placed; [exact Hzen|]. rewrite E8, E9.
  destruct (to_enu_spec junk (uvw_call None None None (o_lst s) (o_uvw s) (o_pos s) (o_ant1 s) (o_ant2 s) s)
    (o_uvw s) (o_ra s) (o_dec s) (o_lst s) (o_lat s) eq_refl (nonempty _ _ L5 L0) eq_refl eq_refl eq_refl eq_refl eq_refl) as (new & N1 & N2 & N3); try congruence.
  rewrite Hu in N1. injection N1 as <-. apply N3; [lia|]. exact Hpl.
Qed.

(** * set_uvws_from_antenna_positions *)
Lemma uvws_from_placed junk pos s new : whole s -> NoDup (o_nums s) -> length (o_nums s) = length pos ->
  (forall a, In a (o_ant1 s) -> In a (o_nums s)) -> (forall a, In a (o_ant2 s) -> In a (o_nums s)) ->
  angles_agree (fun i => (i < o_Nblts s)%nat) s -> uvws_from junk pos s = Ok new ->
  forall i k1 k2, (i < o_Nblts s)%nat -> nth_error (o_nums s) k1 = Some (nth i (o_ant1 s) 0%Z) -> nth_error (o_nums s) k2 = Some (nth i (o_ant2 s) 0%Z) ->
    nth i new origin = uvw_of (nth i (o_lst s) 0 - nth i (o_ra s) 0 - o_lon s) (nth i (o_dec s) 0) (nth i (o_pa s) 0) (minus3 (nth k2 pos origin) (nth k1 pos origin)).
Proof.
  intros Hw An Al A1 A2 Hag H i k1 k2 Hi K1 K2. pose proof Hw as (Hc & L0 & L1 & L2 & L3 & L4 & L5 & L6 & L7 & L8). unfold uvws_from in H.
  match type of H with calc_uvw _ _ _ _ ?g = _ =>
    destruct (ants_to_phased junk g pos (o_nums s) (o_ant1 s) (o_ant2 s) (o_lon s) eq_refl eq_refl eq_refl eq_refl eq_refl An Al A1 A2 ltac:(congruence) (nonempty _ _ L3 L0)
      (o_ra s) (o_dec s) (o_lst s) eq_refl eq_refl eq_refl) as (new' & N1 & N2 & N3); try congruence end.
  - rewrite L3. intros r Hr Eh Ed. cbn [frame_pa pa_at]. apply Hag; try assumption; lia.
  - rewrite H in N1. injection N1 as <-. apply N3; [lia|assumption|assumption].
Qed.
Lemma set_uvws_placed junk upd s s' : whole s -> antennas_ok s -> angles_agree (fun i => (i < o_Nblts s)%nat) s ->
  set_uvws_from_antenna_positions junk upd s = Ok s' ->
  forall i b, (i < o_Nblts s)%nat -> baseline_of s i b -> placed s' i b.
Proof.
  intros Hw (An & Al & A1 & A2) Hag H i b Hi (k1 & k2 & K1 & K2 & ->). apply set_uvws_parts in H as (new & data & Hn & -> & _).
  unfold placed. cbn [with_uvw o_uvw o_lst o_ra o_dec o_pa o_lon]. eapply uvws_from_placed; eassumption.
Qed.

(** * update_antenna_positions *)
Lemma positions_len new s : length (o_nums s) = length (o_pos s) ->
  length (map (fun p : Z * vec => match dget Z.eqb (fst p) new with Ok v => v | Err _ => snd p end) (combine (o_nums s) (o_pos s))) = length (o_pos s).
Proof. intros H. rewrite map_length, combine_length. lia. Qed.
Lemma uvw_of_add H dec pa b c : add_vec (uvw_of H dec pa b) (uvw_of H dec pa c) = uvw_of H dec pa (add_vec b c).
Proof. destruct b as [[X Y] Z], c as [[X' Y'] Z']. unfold uvw_of, tilted, textbook_uvw, add_vec. apply vec_eq; ring. Qed.
Lemma nth_combine_map {A B} (f : A -> A -> B) l m d d' i : length m = length l -> (i < length l)%nat ->
  nth i (map (fun p => f (fst p) (snd p)) (combine l m)) d' = f (nth i l d) (nth i m d).
Proof.
  intros L Hi. rewrite (nth_indep _ d' ((fun p => f (fst p) (snd p)) (d, d))) by (rewrite map_length, combine_length; lia).
  rewrite (map_nth (fun p => f (fst p) (snd p))). rewrite combine_nth by congruence. reflexivity.
Qed.
Lemma positions_placed junk new delta upd s s' : whole s -> antennas_ok s -> angles_agree (fun i => (i < o_Nblts s)%nat) s ->
  update_antenna_positions junk new delta upd s = Ok s' -> (forall i b, (i < o_Nblts s)%nat -> baseline_of s i b -> placed s i b) ->
  forall i b, (i < o_Nblts s)%nat -> baseline_of s' i b -> placed s' i b.
Proof.
  intros Hw (An & Al & A1 & A2) Hag H Hpl i b Hi. unfold update_antenna_positions in H.
  set (np := map _ (combine (o_nums s) (o_pos s))) in *.
  assert (Ln : length np = length (o_pos s)) by (apply positions_len, Al). clearbody np.
  destruct (forallb _ _); [injection H as <-; apply Hpl; exact Hi|]. destruct delta.
  - apply bind_Ok in H as (dl & Hdl & H). apply bind_Ok in H as (data & Hd & H). injection H as <-.
    intros (k1 & k2 & K1 & K2 & ->). cbn [with_uvw o_nums o_ant1 o_ant2 o_pos] in K1, K2.
    set (dp := map _ (combine np (o_pos s))) in *.
    assert (Ldp : length (o_nums s) = length dp) by (unfold dp; rewrite map_length, combine_length; lia).
    pose proof (uvws_from_length _ _ _ _ Hw Hdl) as Ldl.
    pose proof (uvws_from_placed junk dp s dl Hw An Ldp A1 A2 Hag Hdl i k1 k2 Hi K1 K2) as Hr.
    specialize (Hpl i _ Hi (ex_intro _ k1 (ex_intro _ k2 (conj K1 (conj K2 eq_refl))))).
    unfold placed in *. cbn [with_uvw o_uvw o_lst o_ra o_dec o_pa o_lon o_pos].
    pose proof Hw as (Hc & L0 & L1 & L2 & L3 & L4 & L5 & L6 & L7 & L8).
    assert (Hk : forall k a, nth_error (o_nums s) k = Some a -> (k < length (o_pos s))%nat).
    { intros k a Hk. rewrite <- Al. apply nth_error_Some. congruence. }
    apply Hk in K1. apply Hk in K2.
    assert (Hdp : forall k, (k < length (o_pos s))%nat -> nth k dp origin = vsub (nth k np origin) (nth k (o_pos s) origin)).
    { intros k Hkl. unfold dp. apply (nth_combine_map vsub np (o_pos s) origin origin k); lia. }
    rewrite (Hdp k1 K1), (Hdp k2 K2) in Hr.
    assert (Hs : nth i (map (fun p => add_vec (fst p) (snd p)) (combine (o_uvw s) dl)) origin = add_vec (nth i (o_uvw s) origin) (nth i dl origin)).
    { apply (nth_combine_map add_vec (o_uvw s) dl origin origin i); lia. }
    etransitivity; [exact Hs|]. rewrite Hpl, Hr, uvw_of_add. f_equal.
    destruct (nth k1 np origin) as [[x1 y1] z1], (nth k2 np origin) as [[x2 y2] z2], (nth k1 (o_pos s) origin) as [[x3 y3] z3], (nth k2 (o_pos s) origin) as [[x4 y4] z4].
    unfold vsub, minus3, add_vec. apply vec_eq; ring.
  - intros Hb. eapply (set_uvws_placed junk upd (with_uvw (o_uvw s) (o_data s) np s)); try eassumption.
    + split; [exact An|]. split; [cbn [with_uvw o_nums o_pos]; congruence|]. split; [exact A1|exact A2].
    + apply set_uvws_parts in H as (new' & data & _ & -> & _). exact Hb.
Qed.

(** * Any history *)
Lemma zeniths_same s s' : o_pc s' = o_pc s -> o_ra s' = o_ra s -> o_dec s' = o_dec s -> o_pa s' = o_pa s -> o_lst s' = o_lst s -> o_lat s' = o_lat s ->
  zeniths s -> zeniths s'.
Proof. unfold zeniths, at_zenith, unprojected, o_Nblts. intros -> -> -> -> -> -> H. exact H. Qed.

Lemma positions_shape junk new delta upd s s' : whole s -> update_antenna_positions junk new delta upd s = Ok s' ->
  whole s' /\ o_pc s' = o_pc s /\ o_ra s' = o_ra s /\ o_dec s' = o_dec s /\ o_pa s' = o_pa s /\ o_lst s' = o_lst s /\ o_lat s' = o_lat s /\
  o_time s' = o_time s /\ o_nums s' = o_nums s /\ o_ant1 s' = o_ant1 s /\ o_ant2 s' = o_ant2 s /\
  (length (o_nums s) = length (o_pos s) -> length (o_pos s') = length (o_pos s)).
Proof.
  intros Hw H. unfold update_antenna_positions in H.
  pose proof (positions_len new s) as Ln. set (np := map _ (combine (o_nums s) (o_pos s))) in *. clearbody np.
  destruct (forallb _ _); [injection H as <-; split; [exact Hw|]; repeat (split; [reflexivity|]); reflexivity|]. destruct delta.
  - apply bind_Ok in H as (dl & Hdl & H). apply bind_Ok in H as (data & Hd & H). injection H as <-.
    pose proof (uvws_from_length _ _ _ _ Hw Hdl) as Ldl. cbn [with_uvw o_pc o_ra o_dec o_pa o_lst o_lat o_time o_nums o_ant1 o_ant2 o_pos].
    split; [|repeat (split; [reflexivity|]); exact Ln]. destruct Hw as (Hc & L0 & L1 & L2 & L3 & L4 & L5 & L6 & L7 & L8).
    unfold whole, o_Nblts in *. cbn [with_uvw o_pc o_time o_lst o_ant1 o_ant2 o_uvw o_ra o_dec o_pa]. rewrite map_length, combine_length. do 6 (split; [assumption|]).
    split; [lia|]. auto.
  - destruct (set_uvws_whole junk upd _ _ (positions_whole np s Hw) H) as (Hw' & _ & _). split; [exact Hw'|].
    apply set_uvws_parts in H as (new' & data & _ & -> & _). repeat (split; [reflexivity|]). exact Ln.
Qed.

Lemma coords_step_right s s' : coords_step s s' -> whole s -> antennas_ok s -> lst_of_time s -> coords_right s ->
  whole s' /\ antennas_ok s' /\ lst_of_time s' /\ coords_right s'.
Proof.
  intros H Hw Ha Hlt [Hz Hr].
  destruct H as [sky junk pop name p ant mask cleanup s s' Hp Hf H Hun Hag|junk pop ant name s s' Hp H|junk upd s s' Hag H|junk new delta upd s s' Hag H].
  - destruct (phase_whole _ _ _ _ _ _ _ _ _ _ Hp Hw Hf H) as [Hw' Hs]. pose proof Hs as (S1 & S2 & S3 & S4 & S5 & S6 & S7 & S8 & S9 & _).
    assert (Epos : o_pos s' = o_pos s) by (apply phase_parts in H; destruct H as (? & ? & ? & ? & ? & ? & ? & ? & ? & H); tauto).
    split; [exact Hw'|]. split; [unfold antennas_ok; rewrite S3, S4, S6, Epos; exact Ha|]. split; [unfold lst_of_time; rewrite S1, S2, S9; exact Hlt|].
    assert (Hin : forall i, (i < o_Nblts s)%nat -> in_mask s mask i \/ ~ in_mask s mask i).
    { intros i Hi. apply phase_parts in H as (? & ? & ? & sel & ? & ? & ? & ? & ? & _ & Hsel & _).
      destruct (mask_chosen s mask sel i Hsel) as [_ Hch]. destruct (nth i sel false) eqn:E; [left; apply Hch; reflexivity|right; rewrite Hch; discriminate]. }
    assert (Hb : forall i b, baseline_of s' i b -> baseline_of s i b) by (unfold baseline_of; rewrite S3, S4, S6, Epos; auto).
    split.
    + intros i Hi Hu. rewrite S9 in Hi. destruct (Hin i Hi) as [Hm|Hm].
      * destruct (phase_types _ _ _ _ _ _ _ _ _ _ i Hp Hw Hf H Hm) as [[Hty _]|[_ Hpr]].
        -- destruct (Hun Hty) as [Hfr Hnew]. apply (phase_zenith _ _ _ _ _ _ _ _ _ _ Hp Hw Hlt Hnew Hty Hfr H i Hm).
        -- exfalso. destruct Hu as (e & He & Hu), Hpr as (e' & He' & Hp'). destruct Hw' as (Hc' & _).
           apply Hp'. replace e' with e; [exact Hu|]. eapply points_unique; eassumption.
      * destruct (phase_others _ _ _ _ _ _ _ _ _ _ Hp Hw Hf H i Hi Hm) as (_ & _ & O1 & O2 & O3 & O4).
        unfold at_zenith. rewrite O1, O2, O3, S2, S7. apply Hz; [exact Hi|].
        destruct (row_cases s i (proj1 Hw) Hi) as [Hc|Hc]; [exact Hc|]. exfalso. destruct Hu as (e & He & Hu), Hc as (e' & He' & Hp').
        apply O4 in He'. apply Hp'. replace e' with e; [exact Hu|]. destruct Hw' as (Hc' & _). eapply points_unique; eassumption.
    + intros i b Hi Hbl. rewrite S9 in Hi. apply Hb in Hbl. destruct ant.
      * destruct (Hin i Hi) as [Hm|Hm]; [apply (phase_uvw_ants _ _ _ _ _ _ _ _ _ Hp Hw Hf Ha H (Hag eq_refl) i b Hm Hbl)|].
        destruct (phase_others _ _ _ _ _ _ _ _ _ _ Hp Hw Hf H i Hi Hm) as (_ & O0 & O1 & O2 & O3 & O4).
        unfold placed. rewrite O1, O2, O3, S2, S8. etransitivity; [exact O0|]. apply Hr; assumption.
      * apply (phase_uvw_rotate _ _ _ _ _ _ _ _ _ Hp Hw Hf H i b Hi). apply Hr; assumption.
  - destruct (unproject_whole _ _ _ _ _ _ _ Hp Hw H) as [Hw' Hs]. pose proof Hs as (S1 & S2 & S3 & S4 & S5 & S6 & S7 & S8 & S9 & _).
    assert (Epos : o_pos s' = o_pos s) by (apply unproject_parts in H; destruct H as (? & ? & H); tauto).
    split; [exact Hw'|]. split; [unfold antennas_ok; rewrite S3, S4, S6, Epos; exact Ha|]. split; [unfold lst_of_time; rewrite S1, S2, S9; exact Hlt|].
    assert (Hb : forall i b, baseline_of s' i b -> baseline_of s i b) by (unfold baseline_of; rewrite S3, S4, S6, Epos; auto).
    assert (Hin : forall i, (i < o_Nblts s)%nat -> in_mask s None i) by (intros i Hi; split; [exact Hi|exact I]).
    split.
    + intros i Hi _. rewrite S9 in Hi. apply (unproject_zenith _ _ _ _ _ _ _ Hp Hw Hz H i Hi). left. apply Hin, Hi.
    + intros i b Hi Hbl. rewrite S9 in Hi. apply Hb in Hbl. destruct ant.
      * apply (unproject_uvw_ants _ _ _ _ _ _ Hp Hw Hz Ha H i b Hi); [left; apply Hin, Hi|exact Hbl].
      * apply (unproject_uvw_rotate _ _ _ _ _ _ Hp Hw Hz H i b Hi); [left; apply Hin, Hi|]. apply Hr; assumption.
  - destruct (set_uvws_whole _ _ _ _ Hw H) as (Hw' & Hs & Epc). split; [exact Hw'|]. pose proof (set_uvws_placed _ _ _ _ Hw Ha Hag H) as Hpl.
    apply set_uvws_parts in H as (new & data & Hn & -> & _). split; [exact Ha|]. split; [exact Hlt|]. split; [exact Hz|]. exact Hpl.
  - destruct (positions_shape _ _ _ _ _ _ Hw H) as (Hw' & P1 & P2 & P3 & P4 & P5 & P6 & P7 & P8 & P9 & P10 & P11).
    split; [exact Hw'|]. destruct Ha as (An & Al & A1 & A2).
    split; [unfold antennas_ok; rewrite P8, P9, P10, P11 by exact Al; auto|]. split; [unfold lst_of_time, o_Nblts; rewrite P1, P5, P7; exact Hlt|].
    split; [eapply zeniths_same; eassumption|]. unfold o_Nblts. rewrite P1.
    apply (positions_placed _ _ _ _ _ _ Hw (conj An (conj Al (conj A1 A2))) Hag H Hr).
Qed.
Lemma coords_history_right s s' : coords_history s s' -> whole s -> antennas_ok s -> lst_of_time s -> coords_right s ->
  whole s' /\ antennas_ok s' /\ lst_of_time s' /\ coords_right s'.
Proof.
  intros H. induction H as [s|s1 s2 s3 H H' IH]; intros Hw Ha Hl Hr; [auto|].
  destruct (coords_step_right _ _ H Hw Ha Hl Hr) as (Hw' & Ha' & Hl' & Hr'). apply IH; assumption.
Qed.

(** * The apparent place *)
Lemma map_nth0 {A B} (f : A -> B) l i d d' : (i < length l)%nat -> nth i (map f l) d' = f (nth i l d).
Proof. intros H. rewrite (nth_indep _ d' (f d)) by (rewrite map_length; exact H). apply map_nth. Qed.
Lemma phase_apparent sky junk pop name p ant mask cleanup s s' : whole s -> lst_of_time s ->
  (forall k e, stored (o_pc s) k e -> e_name e <> name) -> is_type "unprojected" p = false -> c_frame p <> Some "altaz"%string ->
  phase sky junk pop name p false ant mask cleanup s = Ok s' ->
  forall i, in_mask s mask i ->
    (nth i (o_ra s') 0, nth i (o_dec s') 0) = app_of sky (position_of p) (nth i (o_time s) 0) (nth i (o_lst s) 0) /\
    nth i (o_pa s') 0 = pa_of sky (c_frame p) (c_epoch p) (nth i (o_time s) 0) (nth i (o_ra s') 0) (nth i (o_dec s') 0).
Proof.
  intros Hw Hlt Hnew Hty Hfr H i Hi.
  pose proof Hw as (Hc & L0 & L1 & L2 & L3 & L4 & L5 & L6 & L7 & L8).
  apply phase_parts in H as (id & q & info & sel & new_uvw & nra & ndec & npa & new_w & Hreq & Hsel & _ & Er & Ed & Ep & _ & Hu & Hpc & _ & _ & Au & Ar & Ad & Ap & E1 & E2 & E3 & E4 & E5 & E6 & E7 & E8 & E9).
  destruct (mask_chosen s mask sel i Hsel) as [Ls Hch]. pose proof (proj1 Hch Hi) as Hs.
  assert (Hq : q = position_of p).
  { unfold phase_request in Hreq. cbn zeta in Hreq.
    assert (Hnil : look_for_name (pc_cat (o_pc s)) name = []).
    { unfold look_for_name. destruct (filter _ (pc_cat (o_pc s))) as [|[k e] t] eqn:E; [reflexivity|]. exfalso.
      assert (Hin : In (k, e) (filter (fun p => String.eqb (e_name (snd p)) name) (pc_cat (o_pc s)))) by (rewrite E; left; reflexivity).
      apply filter_In in Hin as [Hin Hx]. apply String.eqb_eq in Hx. apply (Hnew k e Hin). exact Hx. }
    rewrite Hnil in Hreq. injection Hreq as _ <- _. unfold position_of, is_type in *. cbn [c_type c_frame c_epoch c_lon c_lat c_times c_pm_ra c_pm_dec c_dist c_vrad].
    destruct (c_type p) as [t|], (c_epoch p); try reflexivity. rewrite Hty. reflexivity. }
  assert (Hqt : type_in (c_type q) ["unprojected"%string] = false).
  { rewrite Hq. unfold is_type in Hty. cbn [position_of c_type]. destruct (c_type p); [exact Hty|reflexivity]. }
  assert (Lt : length (masked sel (o_time s)) = count sel) by (apply masked_count; congruence).
  assert (Ll : length (masked sel (o_lst s)) = count sel) by (apply masked_count; congruence).
  assert (Hrk := rank_lt _ _ Hs).
  set (times := masked sel (o_time s)) in *. set (lsts := masked sel (o_lst s)) in *.
  assert (Ht : nth (rank sel i) times 0 = nth i (o_time s) 0) by (unfold times; apply rank_masked; congruence).
  assert (Happ : nth (rank sel i) (calc_app_coords sky (o_lat s) q times lsts) (0, 0) = app_of sky (position_of p) (nth i (o_time s) 0) (nth i (o_lst s) 0)).
  { unfold calc_app_coords. rewrite Hqt.
    rewrite (map_nth0 (fun t => let l := first_lst times lsts t in app_of sky q t l) times _ 0) by lia. cbv zeta. rewrite Ht, Hq. f_equal.
    destruct (first_lst_in times lsts (nth i (o_time s) 0) (rank sel i) Ht) as (r & R1 & R2 & R3); [lia|lia|].
    rewrite R3. destruct (rank_onto sel r) as (k & K1 & K2); [lia|]. rewrite <- K2 in *.
    unfold times, lsts in *. rewrite !rank_masked in * by congruence.
    assert (Hkl : (k < o_Nblts s)%nat) by (destruct (Nat.lt_ge_cases k (o_Nblts s)) as [Hk|Hk]; [exact Hk|rewrite nth_overflow in K1 by lia; discriminate]).
    apply Hlt; [exact Hkl| |exact R2]. destruct Hi; assumption. }
  assert (Hr : nth i (o_ra s') 0 = fst (app_of sky (position_of p) (nth i (o_time s) 0) (nth i (o_lst s) 0))).
  { rewrite (rank_assign _ 0 _ _ _ _ Ar Hs); [|congruence|rewrite Er, map_length, calc_app_length; exact Lt].
    rewrite Er, (map_nth0 fst _ _ (0, 0)) by (rewrite calc_app_length; lia). rewrite Happ. reflexivity. }
  assert (Hd : nth i (o_dec s') 0 = snd (app_of sky (position_of p) (nth i (o_time s) 0) (nth i (o_lst s) 0))).
  { rewrite (rank_assign _ 0 _ _ _ _ Ad Hs); [|congruence|rewrite Ed, map_length, calc_app_length; exact Lt].
    rewrite Ed, (map_nth0 snd _ _ (0, 0)) by (rewrite calc_app_length; lia). rewrite Happ. reflexivity. }
  split; [rewrite Hr, Hd; destruct (app_of _ _ _ _); reflexivity|].
  assert (Hnf : type_in (c_frame p) ["altaz"%string] = false).
  { destruct (type_in (c_frame p) ["altaz"%string]) eqn:E; [|reflexivity]. exfalso. apply Hfr.
    destruct (c_frame p) as [f|]; [|discriminate]. cbn in E. rewrite orb_false_r in E. apply String.eqb_eq in E. congruence. }
  rewrite Hnf in Ep.
  assert (Lp : length npa = count sel) by (rewrite Ep, map_length, combine_length, calc_app_length; lia).
  rewrite (rank_assign _ 0 _ _ _ _ Ap Hs) by congruence.
  rewrite Ep, (map_nth0 _ _ _ (0, (0, 0))) by (rewrite combine_length, calc_app_length; lia). cbv beta.
  rewrite combine_nth by (rewrite calc_app_length; reflexivity). cbn [fst snd]. rewrite Happ, Ht, Hr, Hd. reflexivity.
Qed.
