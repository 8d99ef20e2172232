(** Phasing does not depend on how the data were phased before; baseline coordinates. *)
From Coq Require Import List ZArith Reals Bool Arith String QArith Lia Lra.
From Verif Require Import Lib.Py Lib.Np Lib.Dict Lib.Cube Model.PhaseCenter Model.Coordinates Model.Rotation Model.Phase
  Spec.PhaseSpec Spec.CoordinatesSpec Spec.RotationSpec Spec.PhasingSpec Proofs.PhaseProofs Proofs.PhaseOps Proofs.PhaseSplit Proofs.PhasePhase
  Proofs.RotationProofs Proofs.CalcUvw Proofs.CalcUvwAnts Proofs.CalcUvwRoutes Proofs.PhasingProofs Proofs.PhasingOps.
Import ListNotations.
Open Scope list_scope.
Open Scope R_scope.
Notation length := List.length.

(** * The uninitialised memory does not matter *)
Lemma two_axis_junk junk junk' r a b : rotate_two_axis junk [r] (AArr a) (AArr b) 2 1 = rotate_two_axis junk' [r] (AArr a) (AArr b) 2 1.
Proof.
  (* every entry of the matrix for axes 2 and 1 is overwritten *)
  unfold rotate_two_axis. destruct (no_rot (AArr a)), (no_rot (AArr b)); try reflexivity. cbn [Nat.eqb].
  destruct (spread (Nat.max (n_rot (AArr a)) (n_rot (AArr b))) (AArr a)) as [l1|]; [|reflexivity].
  destruct (spread (Nat.max (n_rot (AArr a)) (n_rot (AArr b))) (AArr b)) as [l2|]; [|reflexivity].
  cbn [bind]. rewrite !apply_rot_set, !map_map. f_equal.
Qed.
(** Coordinates from antennas are made from these arguments only *)
Lemma ants_args junk junk' ra dec pa lst uvw uvw' pos a1 a2 s s' : o_nums s' = o_nums s -> o_lat s' = o_lat s -> o_lon s' = o_lon s ->
  calc_uvw junk true false false (uvw_call ra dec pa lst uvw pos a1 a2 s) = calc_uvw junk' true false false (uvw_call ra dec pa lst uvw' pos a1 a2 s').
Proof.
  intros E1 E2 E3. unfold calc_uvw, uvw_call. rewrite E1, E2, E3. cbn [lst_array telescope_lat app_ra app_dec frame_pa andb orb negb isNone].
  destruct (_ && _); [reflexivity|].
  unfold calc_uvw_ants. cbn [antenna_positions antenna_numbers ant_1 ant_2 telescope_lon lst_array telescope_lat app_ra app_dec frame_pa isNone andb negb need bind].
  destruct (mapM _ a1) as [i1|]; [|reflexivity]. cbn [bind]. destruct (mapM _ a2) as [i2|]; [|reflexivity]. cbn [bind].
  destruct ra as [ra|]; [|reflexivity]. destruct dec as [dec|]; [|reflexivity]. cbn [need bind].
  rewrite (two_axis_junk junk junk'). reflexivity.
Qed.

(** * A new name *)
Lemma new_request name p s : (forall k e, stored s k e -> e_name e <> name) ->
  exists q, phase_request name p s = Ok (None, q, "user"%string) /\
    forall s', (forall k e, stored s' k e -> e_name e <> name) -> phase_request name p s' = Ok (None, q, "user"%string).
Proof.
  intros H. assert (Hn : forall s, (forall k e, stored s k e -> e_name e <> name) -> look_for_name (pc_cat s) name = []).
  { clear. intros s H. unfold look_for_name. destruct (filter _ (pc_cat s)) as [|[k e] t] eqn:E; [reflexivity|]. exfalso.
    assert (Hin : In (k, e) (filter (fun p => String.eqb (e_name (snd p)) name) (pc_cat s))) by (rewrite E; left; reflexivity).
    apply filter_In in Hin as [Hin Hs]. apply String.eqb_eq in Hs. apply (H k e Hin). exact Hs. }
  unfold phase_request. cbn zeta. rewrite (Hn s H). eexists. split; [reflexivity|]. intros s' H'. rewrite (Hn s' H'). reflexivity.
Qed.

Lemma phase_uvw_same sky junk1 junk2 pop1 pop2 name p mask c1 c2 s1 s2 t1 t2 : same_setting s1 s2 -> o_pos s2 = o_pos s1 ->
  whole s1 -> whole s2 ->
  (forall k e, stored (o_pc s1) k e -> e_name e <> name) -> (forall k e, stored (o_pc s2) k e -> e_name e <> name) ->
  phase sky junk1 pop1 name p false true mask c1 s1 = Ok t1 -> phase sky junk2 pop2 name p false true mask c2 s2 = Ok t2 ->
  forall i, in_mask s1 mask i -> nth i (o_uvw t2) origin = nth i (o_uvw t1) origin /\ nth i (o_ra t2) 0 = nth i (o_ra t1) 0 /\
    nth i (o_dec t2) 0 = nth i (o_dec t1) 0 /\ nth i (o_pa t2) 0 = nth i (o_pa t1) 0.
Proof.
  intros Hs Epos W1 W2 N1 N2 H1 H2 i Hi. destruct Hs as (E1 & E2 & E3 & E4 & E5 & E6 & E7 & E8 & E9 & _).
  apply phase_parts in H1 as (id & q & info & sel & new_uvw & nra & ndec & npa & new_w & Hreq & Hsel & _ & Hr & Hd & Hp & _ & Hu & _ & _ & _ & Au & Ar & Ad & Ap & _).
  apply phase_parts in H2 as (id2 & q2 & info2 & sel2 & new_uvw2 & nra2 & ndec2 & npa2 & new_w2 & Hreq2 & Hsel2 & _ & Hr2 & Hd2 & Hp2 & _ & Hu2 & _ & _ & _ & Au2 & Ar2 & Ad2 & Ap2 & _).
  destruct (new_request name p _ N1) as (q0 & Hq & Hq2). specialize (Hq2 _ N2). rewrite Hreq in Hq. rewrite Hreq2 in Hq2.
  injection Hq as _ -> _. injection Hq2 as _ -> _. rewrite E9, Hsel in Hsel2. injection Hsel2 as <-.
  rewrite E1, E2, E7 in *. rewrite <- Hr in Hr2. rewrite <- Hd in Hd2. rewrite <- Hp in Hp2. subst nra2 ndec2 npa2.
  rewrite E3, E4, Epos in Hu2.
  rewrite (ants_args junk1 junk2 _ _ _ _ _ (masked sel (o_uvw s2)) _ _ _ s1 s2) in Hu by assumption. rewrite Hu in Hu2. injection Hu2 as <-.
  destruct (mask_chosen s1 mask sel i Hsel) as [Ls Hch]. apply Hch in Hi.
  pose proof W1 as (_ & _ & _ & _ & _ & _ & K5 & K6 & K7 & K8). pose proof W2 as (_ & _ & _ & _ & _ & _ & J5 & J6 & J7 & J8).
  rewrite E9 in *.
  assert (Hsame : forall A (new old old' out out' : list A) d, assign_rows sel new old = Ok out -> assign_rows sel new old' = Ok out' ->
     length old = o_Nblts s1 -> length old' = o_Nblts s1 -> nth i out' d = nth i out d).
  { intros A new old old' out out' d Ho Ho' L L'. rewrite <- (map_id new) in Ho'.
    apply (assign_rows_map (fun x => x) sel new old old' out out' d d i Ho Ho'); congruence. }
  split; [eapply Hsame; eassumption|]. split; [eapply Hsame; eassumption|]. split; eapply Hsame; eassumption.
Qed.

Lemma phase_types sky junk pop name p ant mask cleanup s s' i : picks pop -> whole s -> name_fits s name p ->
  phase sky junk pop name p false ant mask cleanup s = Ok s' -> in_mask s mask i ->
  (is_type "unprojected" p = true /\ unprojected s' i) \/ (is_type "unprojected" p = false /\ projected s' i).
Proof.
  intros Hp (Hc & _) Hf H Hi.
  apply phase_parts in H as (id & q & info & sel & new_uvw & nra & ndec & npa & new_w & Hreq & Hsel & _ & _ & _ & _ & _ & _ & Hpc & _).
  destruct (catalog_rows _ _ _ _ _ _ _ Hp Hc Hf Hpc) as (Hc' & Hl & Hrows).
  assert (Hil : (i < o_Nblts s)%nat) by (destruct Hi; assumption). destruct (Hrows i Hil) as [Hin _].
  destruct (Hin Hi) as (e' & He' & Ht). destruct (is_type "unprojected" p); [left|right]; (split; [reflexivity|]); exists e'; (split; [exact He'|]).
  - apply Ht. reflexivity.
  - rewrite Ht. discriminate.
Qed.

(** Phasing to a new name gives the same whatever was done before *)
Lemma phase_direct sky junk1 junk2 pop1 pop2 name p mask c1 c2 s s1 t t1 : picks pop1 -> picks pop2 -> whole s ->
  phasing_history s s1 -> o_pos s1 = o_pos s ->
  (forall k e, stored (o_pc s) k e -> e_name e <> name) -> (forall k e, stored (o_pc s1) k e -> e_name e <> name) ->
  phase sky junk1 pop1 name p false true mask c1 s = Ok t -> phase sky junk2 pop2 name p false true mask c2 s1 = Ok t1 ->
  forall i, in_mask s mask i ->
    (forall j k, vis_of t1 i j k = vis_of t i j k) /\ nth i (o_uvw t1) origin = nth i (o_uvw t) origin /\
    nth i (o_ra t1) 0 = nth i (o_ra t) 0 /\ nth i (o_dec t1) 0 = nth i (o_dec t) 0 /\ nth i (o_pa t1) 0 = nth i (o_pa t) 0.
Proof.
  intros P1 P2 Hw Hh Epos N N1 H H1 i Hi. destruct (history_keeps _ _ Hh Hw) as (Hw1 & Hs1 & Hm1).
  destruct (phase_uvw_same _ _ _ _ _ _ _ _ _ _ _ _ _ _ Hs1 Epos Hw Hw1 N N1 H H1 i Hi) as (Eu & Er & Ed & Ep).
  split; [|split; [exact Eu|split; [exact Er|split; [exact Ed|exact Ep]]]].
  assert (F : name_fits s name p) by (left; exact N). assert (F1 : name_fits s1 name p) by (left; exact N1).
  assert (Hil : (i < o_Nblts s)%nat) by (destruct Hi; assumption).
  assert (E9 : o_Nblts s1 = o_Nblts s) by (destruct Hs1 as (_ & _ & _ & _ & _ & _ & _ & _ & E9 & _); exact E9).
  assert (Hi1 : in_mask s1 mask i) by (unfold in_mask in *; rewrite E9; exact Hi).
  destruct (phase_whole _ _ _ _ _ _ _ _ _ _ P1 Hw F H) as [Wt St]. destruct (phase_whole _ _ _ _ _ _ _ _ _ _ P2 Hw1 F1 H1) as [Wt1 St1].
  pose proof (same_setting_trans _ _ _ Hs1 St1) as St2.
  destruct St as (_ & _ & _ & _ & Ef & _ & _ & _ & _ & En). destruct St2 as (_ & _ & _ & _ & Ef1 & _ & _ & _ & _ & En1).
  intros j k. unfold vis_of. destruct (o_data t) as [d|] eqn:Dt.
  - destruct (o_data t1) as [d1|] eqn:Dt1; [|exfalso; assert (Hn : o_data s = None) by tauto; assert (Hq : Some d = None) by tauto; discriminate Hq].
    f_equal. assert (Hw_all : exists w, w_has t i j w /\ w_has t1 i j w).
    { destruct (phase_types _ _ _ _ _ _ _ _ _ _ i P1 Hw F H Hi) as [[Ty U]|[Ty U]]; destruct (phase_types _ _ _ _ _ _ _ _ _ _ i P2 Hw1 F1 H1 Hi1) as [[Ty1 U1]|[Ty1 U1]]; try congruence.
      - exists 0. split; left; auto.
      - exists (w_waves t i j). split; right; (split; [assumption|]); [reflexivity|].
        unfold w_waves. rewrite Ef, Ef1. do 2 f_equal. apply (f_equal snd). symmetry. exact Eu. }
    destruct Hw_all as (w & Wa & Wb). pose proof Wt as (Ct & _). pose proof Wt1 as (Ct1 & _).
    pose (v := cx_mul (d i j k) (turn_back (- w))).
    assert (Mt : measured t i j k v).
    { apply (measured_w t i j k v d w Ct Dt Wa). unfold v. rewrite turn_add. replace (- w + w) with 0 by ring. rewrite turn_zero. reflexivity. }
    apply (phase_keeps _ _ _ _ _ _ _ _ _ _ P1 Hw F H i j k v Hil) in Mt. apply (Hm1 i j k v Hil) in Mt.
    apply (phase_keeps _ _ _ _ _ _ _ _ _ _ P2 Hw1 F1 H1 i j k v) in Mt; [|rewrite E9; exact Hil].
    apply (measured_w t1 i j k v d1 w Ct1 Dt1 Wb) in Mt. rewrite Mt. unfold v. rewrite turn_add. replace (- w + w) with 0 by ring. apply turn_zero.
  - assert (Hn : o_data t1 = None) by tauto. rewrite Hn. reflexivity.
Qed.
