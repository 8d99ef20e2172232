(** Concrete objects for phasing. *)
From Coq Require Import List ZArith Reals Bool Arith String QArith Lia Lra.
From Verif Require Import Lib.Py Lib.Np Lib.Dict Lib.Cube Model.PhaseCenter Model.Coordinates Model.Rotation Model.Phase
  Spec.PhaseSpec Spec.CoordinatesSpec Spec.RotationSpec Spec.PhasingSpec Proofs.PhaseProofs Proofs.PhaseOps Proofs.PhaseSplit Proofs.PhasePhase
  Proofs.RotationProofs Proofs.CalcUvw Proofs.CalcUvwAnts Proofs.CalcUvwRoutes Proofs.PhasingProofs Proofs.PhasingOps Proofs.PhasingTop Proofs.PhasingUvw.
From Verif Require Proofs.PhaseCases.
Import ListNotations.
Open Scope list_scope.
Open Scope R_scope.
Notation length := List.length.

(** A site on the equator at longitude zero; the baseline points up and is half a metre
    long, half a wavelength at the only frequency.  Row 0 is phased to "a", setting in the
    east; row 1 is not projected. *)
Definition mixed_pc : pcobj := mkpc [(0%Z, PhaseCases.entry "a" (PhaseCases.star 1 0)); (1%Z, PhaseCases.entry "zen" PhaseCases.zenith)] 2 [0%Z; 1%Z].
Definition mixed : pobj :=
  {| o_pc := mixed_pc; o_time := [0; 1]; o_lst := [0; 0]; o_ant1 := [0%Z; 0%Z]; o_ant2 := [1%Z; 1%Z];
     o_uvw := [(- (1 / 2), 0, 0); (0, 0, 1 / 2)]; o_ra := [PI / 2; 0]; o_dec := [0; 0]; o_pa := [0; 0];
     o_freq := [speed_of_light]; o_data := Some (fun _ _ _ : nat => (1, 0));
     o_pos := [(0, 0, 0); (1 / 2, 0, 0)]; o_nums := [0%Z; 1%Z]; o_lat := 0; o_lon := 0 |}.
Definition no_junk : mat := fun _ _ => 0.

Lemma mixed_consistent : pc_consistent mixed_pc.
Proof.
  apply consistent_keys. split; [split; [PhaseCases.nodupZ|]|split; [reflexivity|]].
  - unfold mixed_pc. cbn [pc_cat]. PhaseCases.storables.
  - intros k Hk. simpl in *. intuition.
Qed.
Lemma mixed_whole : whole mixed.
Proof. split; [exact mixed_consistent|]. split; [discriminate|]. repeat (split; [reflexivity|]). reflexivity. Qed.
Lemma mixed_antennas : antennas_ok mixed.
Proof.
  split; [PhaseCases.nodupZ|]. split; [reflexivity|]. split; intros a H; simpl in *; intuition.
Qed.
Lemma mixed_lsts : lst_of_time mixed.
Proof.
  intros i k Hi Hk _. change (o_Nblts mixed) with 2%nat in *. destruct i as [|[|i]]; [| |lia]; (destruct k as [|[|k]]; [| |lia]); reflexivity.
Qed.
Lemma mixed_0 : projected mixed 0.
Proof.
  exists (PhaseCases.entry "a" (PhaseCases.star 1 0)). split; [exists 0%Z; split; [reflexivity|left; reflexivity]|]. discriminate.
Qed.
Lemma mixed_1 : unprojected mixed 1.
Proof.
  exists (PhaseCases.entry "zen" PhaseCases.zenith). split; [exists 1%Z; split; [reflexivity|right; left; reflexivity]|]. reflexivity.
Qed.
Lemma quarter : - (PI / 2) = - PI / 2.
Proof. field. Qed.
Lemma east x y z : uvw_of (0 - PI / 2 - 0) 0 0 (x, y, z) = (- x, z, y).
Proof.
  unfold uvw_of, tilted, textbook_uvw. replace (0 - PI / 2 - 0) with (- (PI / 2)) by ring.
  rewrite sin_neg, cos_neg, cos_PI2, sin_PI2, sin_0, cos_0. apply vec_eq; ring.
Qed.
Lemma above x y z : uvw_of (0 - 0 - 0) 0 0 (x, y, z) = (y, z, x).
Proof.
  unfold uvw_of, tilted, textbook_uvw. replace (0 - 0 - 0) with 0 by ring. rewrite sin_0, cos_0. apply vec_eq; ring.
Qed.
Lemma mixed_right : coords_right mixed.
Proof.
  split.
  - intros i Hi Hu. change (o_Nblts mixed) with 2%nat in Hi. destruct i as [|[|i]]; [|repeat split; reflexivity|lia].
    exfalso. destruct Hu as (e & He & Hu), mixed_0 as (e' & He' & Hn). apply Hn. replace e' with e; [exact Hu|]. eapply points_unique; [exact mixed_consistent| |]; eassumption.
  - intros i b Hi (k1 & k2 & K1 & K2 & ->). change (o_Nblts mixed) with 2%nat in Hi.
    assert (k1 = 0%nat /\ k2 = 1%nat) as [-> ->].
    { destruct k1 as [|[|k1]]; destruct k2 as [|[|k2]]; destruct i as [|[|i]]; try lia; cbn in K1, K2; try discriminate; try (destruct k1; discriminate); try (destruct k2; discriminate); auto. }
    destruct i as [|[|i]]; [| |lia]; unfold placed; cbn [mixed o_uvw o_lst o_ra o_dec o_pa o_lon o_pos nth minus3].
    + rewrite east. apply vec_eq; ring.
    + rewrite above. apply vec_eq; ring.
Qed.
Lemma mixed_measured i k : (i < 2)%nat -> measured mixed i 0 k (1, 0).
Proof.
  intros Hi. eexists. split; [reflexivity|]. destruct i as [|[|i]]; [|left; split; [exact mixed_1|reflexivity]|lia].
  right. split; [exact mixed_0|]. cbv beta. unfold w_waves. cbn [mixed o_uvw o_freq nth snd].
  replace (0 * speed_of_light / speed_of_light) with 0 by (unfold Rdiv; ring). symmetry. apply turn_zero.
Qed.
Lemma mixed_angles : angles_agree (fun i => (i < o_Nblts mixed)%nat) mixed.
Proof.
  intros i k Hi Hk _ _. change (o_Nblts mixed) with 2%nat in *. destruct i as [|[|i]]; [| |lia]; (destruct k as [|[|k]]; [| |lia]); reflexivity.
Qed.
Lemma c_pos : speed_of_light <> 0.
Proof. unfold speed_of_light. lra. Qed.
Lemma turn_half : turn_back (1 / 2) = (-1, 0).
Proof.
  unfold turn_back. replace (2 * PI * (1 / 2)) with PI by field. rewrite cos_PI, sin_PI. f_equal; ring.
Qed.
Lemma exp_half x : x = PI \/ x = - PI -> exp_i x = (-1, 0).
Proof.
  intros [->| ->]; unfold exp_i; [rewrite cos_PI, sin_PI; reflexivity|]. rewrite cos_neg, sin_neg, cos_PI, sin_PI. f_equal. ring.
Qed.
(** What was measured is what it is, half a wavelength turned: it is not one *)
Lemma not_one_projected s i k : pc_consistent (o_pc s) -> projected s i -> vis_of s i 0 k = Some (1, 0) -> w_waves s i 0 = 1 / 2 -> ~ measured s i 0 k (1, 0).
Proof.
  intros Hc Hp Hv Hw (d & Hd & [[Hu _]|[_ Hm]]).
  - destruct Hu as (e & He & Hu), Hp as (e' & He' & Hn). apply Hn. replace e' with e; [exact Hu|]. eapply points_unique; eassumption.
  - unfold vis_of in Hv. rewrite Hd in Hv. injection Hv as Hv. rewrite Hv, Hw, turn_half in Hm. apply (f_equal fst) in Hm. cbn [times_c fst snd] in Hm. lra.
Qed.
Lemma not_one_unprojected s i k : pc_consistent (o_pc s) -> unprojected s i -> vis_of s i 0 k = Some (-1, 0) -> ~ measured s i 0 k (1, 0).
Proof.
  intros Hc Hu Hv H. apply (measured_is_vis s i 0 k _ Hc Hu) in H. rewrite Hv in H. injection H as H. lra.
Qed.

(** * unproject_phase with a mask *)
Lemma unproject_other : exists s', unproject_phase no_junk PhaseCases.first_of true (Some [false; true]) "zen" mixed = Ok s' /\
  same_setting mixed s' /\ projected s' 0 /\ vis_of s' 0 0 0 = vis_of mixed 0 0 0 /\ nth 0 (o_uvw s') origin = (0, 0, 1 / 2) /\
  nth 0 (o_ra s') 0 = nth 0 (o_ra mixed) 0 /\ ~ measured s' 0 0 0 (1, 0).
Proof.
  destruct mixed_antennas as (An & Al & A1 & A2).
  destruct (ants_to_enu no_junk (uvw_call None None None (o_lst mixed) (o_uvw mixed) (o_pos mixed) (o_ant1 mixed) (o_ant2 mixed) mixed)
    (o_pos mixed) (o_nums mixed) (o_ant1 mixed) (o_ant2 mixed) (o_lon mixed) eq_refl eq_refl eq_refl eq_refl eq_refl An Al A1 A2 eq_refl ltac:(discriminate) (o_lat mixed) eq_refl)
    as (new & N1 & N2 & N3).
  assert (H : exists s', unproject_phase no_junk PhaseCases.first_of true (Some [false; true]) "zen" mixed = Ok s' /\
     o_pc s' = mixed_pc /\ o_uvw s' = new /\ o_ra s' = o_ra mixed /\ vis_of s' 0 0 0 = vis_of mixed 0 0 0 /\ o_freq s' = o_freq mixed).
  { unfold unproject_phase. cbn [mask_rows]. change (Nat.eqb (length [false; true]) (o_Nblts mixed)) with true. cbn [bind]. rewrite N1. cbn [bind].
    change (unproject_catalog PhaseCases.first_of "zen" (Some [false; true]) (o_pc mixed)) with (Ok mixed_pc).
    change (map (fun p : bool * bool => negb (fst p) && snd p) (combine (check_for_cat_type "unprojected" (o_pc mixed)) [false; true])) with [false; false].
    cbn [apply_w_proj mixed o_data row_bools bind]. change (o_Nblts _) with 2%nat. cbn [length Nat.eqb bind forallb negb andb].
    eexists. split; [reflexivity|]. repeat (split; [reflexivity|]). reflexivity. }
  destruct H as (s' & H & P1 & P2 & P3 & P4 & P5). exists s'. split; [exact H|].
  destruct (unproject_whole _ _ _ _ _ _ _ PhaseCases.first_picks mixed_whole H) as [Hw Hs]. split; [exact Hs|].
  assert (Hpr : projected s' 0) by (unfold projected; rewrite P1; exact mixed_0). split; [exact Hpr|]. split; [exact P4|].
  assert (Hu : nth 0 (o_uvw s') origin = (0, 0, 1 / 2)).
  { rewrite P2. etransitivity; [apply (N3 0 0 1)%nat; [simpl; lia|reflexivity|reflexivity]|].
    cbn [mixed o_lat o_lon o_pos nth minus3]. unfold east_north_up. rewrite sin_0, cos_0. apply vec_eq; field. }
  split; [exact Hu|]. split; [rewrite P3; reflexivity|].
  apply not_one_projected; [apply Hw|exact Hpr|rewrite P4; reflexivity|].
  unfold w_waves. rewrite P5. assert (E : snd (nth 0 (o_uvw s') origin) = 1 / 2) by (rewrite Hu; reflexivity). rewrite E.
  cbn [mixed o_freq nth]. field. exact c_pos.
Qed.

(** * set_uvws_from_antenna_positions *)
Lemma mixed_uvws : exists new, uvws_from no_junk (o_pos mixed) mixed = Ok new /\ new = o_uvw mixed.
Proof.
  destruct mixed_antennas as (An & Al & A1 & A2). unfold uvws_from.
  match goal with |- exists new, calc_uvw _ _ _ _ ?g = _ /\ _ =>
    destruct (ants_to_phased no_junk g (o_pos mixed) (o_nums mixed) (o_ant1 mixed) (o_ant2 mixed) (o_lon mixed) eq_refl eq_refl eq_refl eq_refl eq_refl An Al A1 A2 eq_refl ltac:(discriminate)
      (o_ra mixed) (o_dec mixed) (o_lst mixed) eq_refl eq_refl eq_refl eq_refl eq_refl eq_refl eq_refl) as (new & N1 & N2 & N3) end.
  - intros i Hi _ _. cbn [frame_pa pa_at]. simpl in Hi. destruct i as [|i]; [reflexivity|lia].
  - exists new. split; [exact N1|]. destruct new as [|v0 [|v1 [|? ?]]]; try discriminate N2.
    pose proof (N3 0 0 1)%nat as R0. pose proof (N3 1 0 1)%nat as R1.
    cbn [mixed o_lst o_ra o_dec o_lon o_pos o_nums o_ant1 o_ant2 nth nth_error frame_pa pa_at minus3 length] in R0, R1. rewrite east in R0. rewrite above in R1.
    rewrite R0, R1 by (try lia; reflexivity). cbn [mixed o_uvw]. f_equal; [apply vec_eq; ring|]. f_equal. apply vec_eq; ring.
Qed.
Lemma set_uvws_unprojected : exists s', set_uvws_from_antenna_positions no_junk true mixed = Ok s' /\ o_uvw s' = o_uvw mixed /\
  unprojected s' 1 /\ vis_of s' 1 0 0 = Some (-1, 0) /\ ~ measured s' 1 0 0 (1, 0).
Proof.
  destruct mixed_uvws as (new & N1 & ->).
  assert (H : exists s', set_uvws_from_antenna_positions no_junk true mixed = Ok s' /\ o_uvw s' = o_uvw mixed /\ o_pc s' = mixed_pc /\
     vis_of s' 1 0 0 = Some (cx_mul (1, 0) (exp_i ((-1 * 2 * PI) * ((1 / 2 - 0) * (1 / const_c) * speed_of_light))))).
  { unfold set_uvws_from_antenna_positions. rewrite N1. cbn [bind].
    change (check_for_cat_type "unprojected" (o_pc mixed)) with [false; true]. cbn [existsb negb orb andb apply_w_proj mixed o_data row_bools bind].
    change (o_Nblts _) with 2%nat. cbn [repeat forallb negb andb bind].
    eexists. split; [reflexivity|]. repeat (split; [reflexivity|]). reflexivity. }
  destruct H as (s' & H & P1 & P2 & P3). exists s'. split; [exact H|]. split; [exact P1|].
  assert (Hu : unprojected s' 1) by (unfold unprojected; rewrite P2; exact mixed_1). split; [exact Hu|].
  assert (Hv : vis_of s' 1 0 0 = Some (-1, 0)).
  { rewrite P3. rewrite exp_half; [unfold cx_mul; cbn [fst snd]; do 2 f_equal; ring|]. right. unfold const_c, speed_of_light. field. }
  split; [exact Hv|]. apply not_one_unprojected; [rewrite P2; exact mixed_consistent|exact Hu|exact Hv].
Qed.

(** * update_antenna_positions with delta_antpos *)
Definition moved : list (Z * vec) := [(1%Z, (1, 1 / 2, 0))].
Lemma vec_neqb x y z x' y' z' : x <> x' -> vec_eqb (x, y, z) (x', y', z') = false.
Proof.
  intros H. unfold vec_eqb, neqR. destruct (Req_EM_T x x'); [contradiction|]. reflexivity.
Qed.
Lemma delta_both : exists s', update_antenna_positions no_junk moved true true mixed = Ok s' /\ whole s' /\
  o_pc s' = o_pc mixed /\ o_uvw s' = [(-1, 0, 1 / 2); (1 / 2, 0, 1)] /\
  vis_of s' 0 0 0 = Some (1, 0) /\ vis_of s' 1 0 0 = Some (-1, 0) /\
  ~ measured s' 0 0 0 (1, 0) /\ ~ measured s' 1 0 0 (1, 0).
Proof.
  destruct mixed_antennas as (An & Al & A1 & A2).
  pose (dp := [(0 - 0, 0 - 0, 0 - 0); (1 - 1 / 2, 1 / 2 - 0, 0 - 0)] : list vec).
  assert (Hd : exists new, uvws_from no_junk dp mixed = Ok new /\ new = [(- (1 / 2), 0, 1 / 2); (1 / 2, 0, 1 / 2)]).
  { unfold uvws_from.
    match goal with |- exists new, calc_uvw _ _ _ _ ?g = _ /\ _ =>
      destruct (ants_to_phased no_junk g dp (o_nums mixed) (o_ant1 mixed) (o_ant2 mixed) (o_lon mixed) eq_refl eq_refl eq_refl eq_refl eq_refl An eq_refl A1 A2 eq_refl ltac:(discriminate)
        (o_ra mixed) (o_dec mixed) (o_lst mixed) eq_refl eq_refl eq_refl eq_refl eq_refl eq_refl eq_refl) as (new & N1 & N2 & N3) end.
    - intros i Hi _ _. cbn [frame_pa pa_at]. simpl in Hi. destruct i as [|i]; [reflexivity|lia].
    - exists new. split; [exact N1|]. destruct new as [|v0 [|v1 [|? ?]]]; try discriminate N2.
      pose proof (N3 0 0 1)%nat as R0. pose proof (N3 1 0 1)%nat as R1. unfold dp in R0, R1.
      cbn [mixed o_lst o_ra o_dec o_lon o_pos o_nums o_ant1 o_ant2 nth nth_error frame_pa pa_at minus3 length] in R0, R1. rewrite east in R0. rewrite above in R1.
      rewrite R0, R1 by (try lia; reflexivity). f_equal; [apply vec_eq; field|]. f_equal. apply vec_eq; field. }
  destruct Hd as (dl & Hdl & ->).
  assert (H : exists s', update_antenna_positions no_junk moved true true mixed = Ok s' /\ o_pc s' = o_pc mixed /\ o_freq s' = o_freq mixed /\
     o_uvw s' = [(- (1 / 2) + - (1 / 2), 0 + 0, 0 + 1 / 2); (0 + 1 / 2, 0 + 0, 1 / 2 + 1 / 2)] /\ vis_of s' 0 0 0 = Some (1, 0) /\
     vis_of s' 1 0 0 = Some (cx_mul (1, 0) (exp_i ((-1 * 2 * PI) * ((0 - 1 / 2) * (1 / const_c) * speed_of_light))))).
  { unfold update_antenna_positions.
    change (map _ (combine (o_nums mixed) (o_pos mixed))) with ([(0, 0, 0); (1, 1 / 2, 0)] : list vec).
    change (combine ([(0, 0, 0); (1, 1 / 2, 0)] : list vec) (o_pos mixed)) with ([((0, 0, 0), (0, 0, 0)); ((1, 1 / 2, 0), (1 / 2, 0, 0))] : list (vec * vec)).
    cbn [forallb fst snd]. rewrite (vec_neqb 1 (1 / 2) 0 (1 / 2) 0 0) by lra. rewrite andb_false_r.
    change (map (fun p : vec * vec => vsub (fst p) (snd p)) _) with dp. rewrite Hdl. cbn [bind].
    change (check_for_cat_type "unprojected" (o_pc mixed)) with [false; true]. cbn [apply_w_proj mixed o_data row_bools bind].
    change (o_Nblts _) with 2%nat. cbn [length Nat.eqb bind forallb negb andb].
    eexists. split; [reflexivity|]. repeat (split; [reflexivity|]). reflexivity. }
  destruct H as (s' & H & P1 & P2 & P3 & P4 & P5). exists s'. split; [exact H|].
  destruct (positions_shape _ _ _ _ _ _ mixed_whole H) as (Hw & _). split; [exact Hw|]. split; [exact P1|].
  assert (P3' : o_uvw s' = [(-1, 0, 1 / 2); (1 / 2, 0, 1)]) by (rewrite P3; f_equal; [apply vec_eq; field|f_equal; apply vec_eq; field]).
  assert (P5' : vis_of s' 1 0 0 = Some (-1, 0)).
  { rewrite P5, exp_half; [unfold cx_mul; cbn [fst snd]; do 2 f_equal; ring|]. left. unfold const_c, speed_of_light. field. }
  split; [exact P3'|]. split; [exact P4|]. split; [exact P5'|]. split.
  - apply not_one_projected; [apply Hw|unfold projected; rewrite P1; exact mixed_0|exact P4|].
    unfold w_waves. rewrite P2, P3'. cbn [mixed o_freq nth snd]. field. exact c_pos.
  - apply not_one_unprojected; [apply Hw|unfold unprojected; rewrite P1; exact mixed_1|exact P5'].
Qed.

(** * phase *)
(** A sky in which everything is always opposite to the zenith of the equator at LST zero *)
Definition below : skymap := mkSky (fun _ _ _ => (PI, 0)) (fun _ _ _ _ _ => 0).
Lemma nadir x y z : uvw_of (0 - PI - 0) 0 0 (x, y, z) = (- y, z, - x).
Proof.
  unfold uvw_of, tilted, textbook_uvw. replace (0 - PI - 0) with (- PI) by ring. rewrite sin_neg, cos_neg, cos_PI, sin_PI, sin_0, cos_0. apply vec_eq; ring.
Qed.
Definition to_b : coords := PhaseCases.star 2 0.
Lemma phase_case : exists s', phase below no_junk PhaseCases.first_of "b" to_b false true (Some [false; true]) true mixed = Ok s' /\
  name_fits mixed "b" to_b /\ pc_ids (o_pc s') = [0%Z; 2%Z] /\ nth 1 (o_uvw s') origin = (0, 0, - (1 / 2)) /\ vis_of s' 1 0 0 = Some (-1, 0) /\
  measured s' 1 0 0 (1, 0) /\ o_ra s' = [PI / 2; PI] /\ angles_agree (in_mask mixed (Some [false; true])) s'.
Proof.
  assert (Hnew : forall k e, stored (o_pc mixed) k e -> e_name e <> "b"%string).
  { intros k e H. unfold stored in H. cbn [mixed o_pc mixed_pc pc_cat In] in H. destruct H as [H|[H|[]]]; injection H as <- <-; discriminate. }
  destruct mixed_antennas as (An & Al & A1 & A2).
  destruct (ants_to_phased no_junk (uvw_call (Some [PI]) (Some [0]) (Some [0]) [0] [(0, 0, 1 / 2)] (o_pos mixed) [0%Z] [1%Z] mixed)
    (o_pos mixed) (o_nums mixed) [0%Z] [1%Z] (o_lon mixed) eq_refl eq_refl eq_refl eq_refl eq_refl An Al) with (ra := [PI]) (dec := [0]) (lst := [0]) as (new & N1 & N2 & N3);
    try reflexivity; try (intros a Ha; simpl in *; intuition; fail).
  { discriminate. }
  destruct new as [|v0 [|? ?]]; try discriminate N2. pose proof (N3 0 0 1)%nat as R0.
  cbn [mixed o_lst o_ra o_dec o_lon o_pos o_nums o_ant1 o_ant2 nth nth_error frame_pa pa_at minus3 length uvw_call] in R0. rewrite nadir in R0.
  specialize (R0 ltac:(lia) eq_refl eq_refl). clear N2 N3.
  assert (H : exists s', phase below no_junk PhaseCases.first_of "b" to_b false true (Some [false; true]) true mixed = Ok s' /\
     pc_ids (o_pc s') = [0%Z; 2%Z] /\ o_uvw s' = [(- (1 / 2), 0, 0); v0] /\ o_ra s' = [PI / 2; PI] /\ o_dec s' = [0; 0] /\ o_pa s' = [0; 0] /\
     vis_of s' 1 0 0 = Some (cx_mul (1, 0) (exp_i ((-1 * 2 * PI) * ((w_of v0 - 0) * (1 / const_c) * speed_of_light))))).
  { unfold phase. change (negb (is_type "unprojected" to_b) && (is_none (c_lon to_b) || is_none (c_lat to_b))) with false. cbv iota.
    change (phase_request "b" to_b (o_pc mixed)) with (Ok (@None Z, to_b, "user"%string)). cbn [bind snd mask_rows].
    change (Nat.eqb (length [false; true]) (o_Nblts mixed)) with true. cbn [bind]. change (Nat.eqb (count [false; true]) 0) with false. cbv iota.
    change (masked [false; true] (o_time mixed)) with [1]. change (masked [false; true] (o_lst mixed)) with [0].
    change (masked [false; true] (o_uvw mixed)) with ([(0, 0, 1 / 2)] : list vec). change (masked [false; true] (o_ant1 mixed)) with [0%Z]. change (masked [false; true] (o_ant2 mixed)) with [1%Z].
    change (calc_app_coords below (o_lat mixed) to_b [1] [0]) with [(PI, 0)]. cbn [map fst snd combine].
    change (type_in (c_frame to_b) ["altaz"%string]) with false. cbv iota. change (pa_of below (c_frame to_b) (c_epoch to_b) 1 PI 0) with 0.
    cbn [negb andb]. rewrite N1. cbn [bind].
    match goal with |- context [phase_catalog ?a ?b ?c ?d ?e ?f] => let r := eval vm_compute in (phase_catalog a b c d e f) in change (phase_catalog a b c d e f) with r end.
    cbn [bind]. change (is_type "unprojected" to_b) with false. cbv iota. change (o_Nblts mixed) with 2%nat. cbn [map repeat].
    change (assign_rows [false; true] [w_of v0] [0; 0]) with (Ok [0; w_of v0]). cbn [bind].
    change (check_for_cat_type "unprojected" (o_pc mixed)) with [false; true].
    cbn [apply_w_proj mixed o_data row_bools bind]. change (o_Nblts _) with 2%nat. cbn [length Nat.eqb bind forallb negb andb].
    eexists. split; [reflexivity|]. repeat (split; [reflexivity|]). reflexivity. }
  destruct H as (s' & H & P1 & P2 & P3 & P4 & P5 & P6). exists s'. split; [exact H|].
  assert (Hf : name_fits mixed "b" to_b) by (left; exact Hnew). split; [exact Hf|]. split; [exact P1|].
  split; [rewrite P2; cbn [nth]; rewrite R0; apply vec_eq; field|].
  split; [rewrite P6, exp_half; [unfold cx_mul; cbn [fst snd]; do 2 f_equal; ring|left; rewrite R0; unfold w_of, const_c, speed_of_light; cbn [snd]; field]|].
  split; [apply (phase_keeps _ _ _ _ _ _ _ _ _ _ PhaseCases.first_picks mixed_whole Hf H); [exact Nat.lt_1_2|apply mixed_measured; lia]|].
  split; [exact P3|].
  intros i k Hi Hk _ _. rewrite P5. destruct Hi as [Hi _], Hk as [Hk _]. change (o_Nblts mixed) with 2%nat in *. destruct i as [|[|i]]; [| |lia]; (destruct k as [|[|k]]; [| |lia]); reflexivity.
Qed.

(** With use_ant_pos=False and a mask of part of the rows *)
Lemma rotate_mask : phase below no_junk PhaseCases.first_of "b" to_b false false (Some [false; true]) true mixed = Err ValueError.
Proof. reflexivity. Qed.

(** Looking up an unprojected entry without stating the type *)
Definition any_place : coords := mkcoords None (Some (Num 0%Q)) (Some (Num 0%Q)) (Some "icrs"%string) None None None None None None.
Lemma lookup_unprojected : exists s', phase below no_junk PhaseCases.first_of "zen" any_place true true None true mixed = Ok s' /\
  unprojected s' 0 /\ vis_of s' 0 0 0 = Some (-1, 0) /\ ~ measured s' 0 0 0 (1, 0).
Proof.
  destruct mixed_antennas as (An & Al & A1 & A2).
  destruct (ants_to_phased no_junk (uvw_call (Some [0; 0]) (Some [0; 0]) (Some [0; 0]) [0; 0] (o_uvw mixed) (o_pos mixed) (o_ant1 mixed) (o_ant2 mixed) mixed)
    (o_pos mixed) (o_nums mixed) (o_ant1 mixed) (o_ant2 mixed) (o_lon mixed) eq_refl eq_refl eq_refl eq_refl eq_refl An Al A1 A2 eq_refl ltac:(discriminate))
    with (ra := [0; 0]) (dec := [0; 0]) (lst := [0; 0]) as (new & N1 & N2 & N3); try reflexivity.
  { intros i Hi _ _. cbn [frame_pa pa_at uvw_call]. simpl in Hi. destruct i as [|i]; [reflexivity|lia]. }
  destruct new as [|v0 [|v1 [|? ?]]]; try discriminate N2. pose proof (N3 0 0 1)%nat as R0.
  cbn [mixed o_lst o_ra o_dec o_lon o_pos o_nums o_ant1 o_ant2 nth nth_error frame_pa pa_at minus3 length uvw_call] in R0. rewrite above in R0.
  specialize (R0 ltac:(lia) eq_refl eq_refl). clear N2 N3.
  assert (H : exists s', phase below no_junk PhaseCases.first_of "zen" any_place true true None true mixed = Ok s' /\
     o_pc s' = mkpc [(1%Z, PhaseCases.entry "zen" PhaseCases.zenith)] 1 [1%Z; 1%Z] /\
     vis_of s' 0 0 0 = Some (cx_mul (1, 0) (exp_i ((-1 * 2 * PI) * ((w_of v0 - 0) * (1 / const_c) * speed_of_light))))).
  { unfold phase. change (negb (is_type "unprojected" any_place) && (is_none (c_lon any_place) || is_none (c_lat any_place))) with false. cbv iota.
    match goal with |- context [lookup_request ?a ?b ?c] => let r := eval vm_compute in (lookup_request a b c) in change (lookup_request a b c) with r end.
    cbn [bind snd mask_rows]. change (o_Nblts mixed) with 2%nat. cbn [repeat]. change (Nat.eqb (count [true; true]) 0) with false. cbv iota.
    change (masked [true; true] (o_time mixed)) with [0; 1]. change (masked [true; true] (o_lst mixed)) with [0; 0].
    change (masked [true; true] (o_uvw mixed)) with (o_uvw mixed). change (masked [true; true] (o_ant1 mixed)) with (o_ant1 mixed). change (masked [true; true] (o_ant2 mixed)) with (o_ant2 mixed).
    match goal with |- context [calc_app_coords ?a ?b ?c ?d ?e] => assert (Happ : calc_app_coords a b c d e = [(0, 0); (0, 0)]) end.
    { unfold calc_app_coords. match goal with |- context [type_in ?a ?b] => change (type_in a b) with true end.
      cbn [map first_lst mixed o_lat]. destruct (Req_EM_T 0 0); [|contradiction]. destruct (Req_EM_T 0 1), (Req_EM_T 1 1); try contradiction; reflexivity. }
    rewrite Happ. cbn [map fst snd combine].
    change (type_in (c_frame any_place) ["altaz"%string]) with false. cbv iota.
    change (pa_of below (c_frame any_place) (c_epoch any_place) 0 0 0) with 0. change (pa_of below (c_frame any_place) (c_epoch any_place) 1 0 0) with 0.
    cbn [negb andb]. rewrite N1. cbn [bind].
    match goal with |- context [lookup_catalog ?a ?b ?c ?d ?e ?f] => let r := eval vm_compute in (lookup_catalog a b c d e f) in change (lookup_catalog a b c d e f) with r end.
    cbn [bind]. change (is_type "unprojected" any_place) with false. cbv iota. cbn [map repeat].
    change (assign_rows [true; true] [w_of v0; w_of v1] [0; 0]) with (Ok [w_of v0; w_of v1]). cbn [bind].
    change (check_for_cat_type "unprojected" (o_pc mixed)) with [false; true].
    cbn [apply_w_proj mixed o_data row_bools bind]. change (o_Nblts _) with 2%nat. cbn [length Nat.eqb bind repeat forallb negb andb].
    eexists. split; [reflexivity|]. split; reflexivity. }
  destruct H as (s' & H & P1 & P2). exists s'. split; [exact H|].
  assert (Hc : pc_consistent (o_pc s')).
  { rewrite P1. apply consistent_keys. split; [split; [PhaseCases.nodupZ|cbn [pc_cat]; PhaseCases.storables]|split; [reflexivity|intros k Hk; simpl in *; intuition]]. }
  assert (Hu : unprojected s' 0).
  { unfold unprojected. rewrite P1. exists (PhaseCases.entry "zen" PhaseCases.zenith). split; [exists 1%Z; split; [reflexivity|left; reflexivity]|reflexivity]. }
  assert (Hv : vis_of s' 0 0 0 = Some (-1, 0)).
  { rewrite P2, exp_half; [unfold cx_mul; cbn [fst snd]; do 2 f_equal; ring|right; rewrite R0; unfold w_of, const_c, speed_of_light; cbn [snd]; field]. }
  split; [exact Hu|]. split; [exact Hv|]. apply not_one_unprojected; assumption.
Qed.

(** The uvws of rows outside the mask of unproject_phase are not those of their place *)
Lemma unproject_other_placed : exists s' b, unproject_phase no_junk PhaseCases.first_of true (Some [false; true]) "zen" mixed = Ok s' /\
  baseline_of s' 0 b /\ placed mixed 0 b /\ ~ placed s' 0 b.
Proof.
  destruct unproject_other as (s' & H & Hs & _ & _ & Hu & Hra & _). exists s', (1 / 2 - 0, 0 - 0, 0 - 0). split; [exact H|].
  pose proof H as H'. apply unproject_parts in H' as (m & sel & Hmm & Esel & _ & _ & _ & _ & Hdec & Hpa & E1 & E2 & E3 & E4 & E5 & E6 & E7 & E8 & E9).
  assert (Hb : baseline_of mixed 0 (1 / 2 - 0, 0 - 0, 0 - 0)) by (exists 0%nat, 1%nat; split; [reflexivity|]; split; reflexivity).
  split; [unfold baseline_of in *; rewrite E3, E4, E6, E7; exact Hb|]. split; [apply mixed_right; [exact Nat.lt_0_2|exact Hb]|].
  unfold placed. rewrite E2, E9, Hra, Hdec, Hpa. injection Hmm as <-.
  assert (Es : sel = [false; false]) by (rewrite Esel; reflexivity). rewrite Es. cbn [put mixed o_dec o_pa o_lst o_ra o_lon nth].
  rewrite east. intros E. assert (E' : (0, 0, 1 / 2) = (- (1 / 2 - 0), 0 - 0, 0 - 0)) by (rewrite <- Hu; exact E). apply (f_equal snd) in E'. cbn [snd] in E'. lra.
Qed.

(** Looking up an entry: the position angles are those of the frame argument *)
Definition sky2 : skymap := mkSky (fun _ _ _ => (PI, 0)) (fun f _ _ _ _ => match f with Some "fk5"%string => 1 | _ => 0 end).
Definition some_place : coords := mkcoords None (Some (Num 0%Q)) (Some (Num 0%Q)) (Some "fk5"%string) (Some (2000 # 1)%Q) None None None None None.
Lemma lookup_frame : exists s' e, phase sky2 no_junk PhaseCases.first_of "a" some_place true true None true mixed = Ok s' /\
  points (o_pc s') 0 e /\ c_frame (e_coords e) = Some "icrs"%string /\ c_epoch (e_coords e) = Some (2000 # 1)%Q /\
  nth 0 (o_pa s') 0 = 1 /\
  pa_of sky2 (c_frame (e_coords e)) (c_epoch (e_coords e)) (nth 0 (o_time s') 0) (nth 0 (o_ra s') 0) (nth 0 (o_dec s') 0) = 0.
Proof.
  destruct mixed_antennas as (An & Al & A1 & A2).
  destruct (ants_to_phased no_junk (uvw_call (Some [PI; PI]) (Some [0; 0]) (Some [1; 1]) [0; 0] (o_uvw mixed) (o_pos mixed) (o_ant1 mixed) (o_ant2 mixed) mixed)
    (o_pos mixed) (o_nums mixed) (o_ant1 mixed) (o_ant2 mixed) (o_lon mixed) eq_refl eq_refl eq_refl eq_refl eq_refl An Al A1 A2 eq_refl ltac:(discriminate))
    with (ra := [PI; PI]) (dec := [0; 0]) (lst := [0; 0]) as (new & N1 & N2 & N3); try reflexivity.
  { intros i Hi _ _. cbn [frame_pa pa_at uvw_call]. simpl in Hi. destruct i as [|i]; [reflexivity|lia]. }
  destruct new as [|v0 [|v1 [|? ?]]]; try discriminate N2. clear N2 N3.
  assert (H : exists s', phase sky2 no_junk PhaseCases.first_of "a" some_place true true None true mixed = Ok s' /\
     o_pc s' = mkpc [(0%Z, PhaseCases.entry "a" (PhaseCases.star 1 0))] 1 [0%Z; 0%Z] /\ o_pa s' = [1; 1]).
  { unfold phase. change (negb (is_type "unprojected" some_place) && (is_none (c_lon some_place) || is_none (c_lat some_place))) with false. cbv iota.
    match goal with |- context [lookup_request ?a ?b ?c] => let r := eval vm_compute in (lookup_request a b c) in change (lookup_request a b c) with r end.
    cbn [bind snd mask_rows]. change (o_Nblts mixed) with 2%nat. cbn [repeat]. change (Nat.eqb (count [true; true]) 0) with false. cbv iota.
    change (masked [true; true] (o_time mixed)) with [0; 1]. change (masked [true; true] (o_lst mixed)) with [0; 0].
    change (masked [true; true] (o_uvw mixed)) with (o_uvw mixed). change (masked [true; true] (o_ant1 mixed)) with (o_ant1 mixed). change (masked [true; true] (o_ant2 mixed)) with (o_ant2 mixed).
    match goal with |- context [calc_app_coords ?a ?b ?c ?d ?e] => change (calc_app_coords a b c d e) with [(PI, 0); (PI, 0)] end.
    cbn [map fst snd combine]. change (type_in (c_frame some_place) ["altaz"%string]) with false. cbv iota.
    change (pa_of sky2 (c_frame some_place) (c_epoch some_place) 0 PI 0) with 1. change (pa_of sky2 (c_frame some_place) (c_epoch some_place) 1 PI 0) with 1.
    cbn [negb andb]. rewrite N1. cbn [bind].
    match goal with |- context [lookup_catalog ?a ?b ?c ?d ?e ?f] => let r := eval vm_compute in (lookup_catalog a b c d e f) in change (lookup_catalog a b c d e f) with r end.
    cbn [bind]. change (is_type "unprojected" some_place) with false. cbv iota. cbn [map repeat].
    change (assign_rows [true; true] [w_of v0; w_of v1] [0; 0]) with (Ok [w_of v0; w_of v1]). cbn [bind].
    change (check_for_cat_type "unprojected" (o_pc mixed)) with [false; true].
    cbn [apply_w_proj mixed o_data row_bools bind]. change (o_Nblts _) with 2%nat. cbn [length Nat.eqb bind repeat forallb negb andb].
    eexists. split; [reflexivity|]. split; reflexivity. }
  destruct H as (s' & H & P1 & P2). exists s', (PhaseCases.entry "a" (PhaseCases.star 1 0)). split; [exact H|].
  split; [rewrite P1; exists 0%Z; split; [reflexivity|left; reflexivity]|]. split; [reflexivity|]. split; [reflexivity|]. split; [rewrite P2; reflexivity|]. reflexivity.
Qed.

(** * Two ways to the same place *)
Definition like_mixed (pc : pcobj) (u0 u1 : vec) (r0 r1 d0 d1 p0 p1 : R) (d : cube cx) : pobj :=
  {| o_pc := pc; o_time := [0; 1]; o_lst := [0; 0]; o_ant1 := [0%Z; 0%Z]; o_ant2 := [1%Z; 1%Z];
     o_uvw := [u0; u1]; o_ra := [r0; r1]; o_dec := [d0; d1]; o_pa := [p0; p1];
     o_freq := [speed_of_light]; o_data := Some d;
     o_pos := [(0, 0, 0); (1 / 2, 0, 0)]; o_nums := [0%Z; 1%Z]; o_lat := 0; o_lon := 0 |}.
Lemma phase_like name pc pc' u0 u1 r0 r1 d0 d1 p0 p1 d ty :
  phase_request name to_b pc = Ok (None, to_b, "user"%string) -> phase_catalog PhaseCases.first_of name to_b (Some [false; true]) true pc = Ok pc' ->
  length (pc_ids pc) = 2%nat -> check_for_cat_type "unprojected" pc = [false; ty] ->
  exists u1' d', phase below no_junk PhaseCases.first_of name to_b false true (Some [false; true]) true (like_mixed pc u0 u1 r0 r1 d0 d1 p0 p1 d) =
    Ok (like_mixed pc' u0 u1' r0 PI d0 0 p0 0 d').
Proof.
  intros Hreq Hcat Hlen Hty. set (s := like_mixed pc u0 u1 r0 r1 d0 d1 p0 p1 d). destruct mixed_antennas as (An & Al & A1 & A2).
  destruct (ants_to_phased no_junk (uvw_call (Some [PI]) (Some [0]) (Some [0]) [0] [u1] (o_pos mixed) [0%Z] [1%Z] s)
    (o_pos mixed) (o_nums mixed) [0%Z] [1%Z] (o_lon mixed) eq_refl eq_refl eq_refl eq_refl eq_refl An Al) with (ra := [PI]) (dec := [0]) (lst := [0]) as (new & N1 & N2 & N3);
    try reflexivity; try (intros a Ha; simpl in *; intuition; fail).
  { discriminate. }
  destruct new as [|v0 [|? ?]]; try discriminate N2. clear N2 N3.
  unfold phase. change (negb (is_type "unprojected" to_b) && (is_none (c_lon to_b) || is_none (c_lat to_b))) with false. cbv iota.
  change (o_pc s) with pc. rewrite Hreq. cbn [bind snd mask_rows]. assert (Hn : o_Nblts s = 2%nat) by exact Hlen. rewrite Hn.
  cbn [length Nat.eqb bind]. change (Nat.eqb (count [false; true]) 0) with false. cbv iota.
  change (masked [false; true] (o_time s)) with [1]. change (masked [false; true] (o_lst s)) with [0].
  change (masked [false; true] (o_uvw s)) with [u1]. change (masked [false; true] (o_ant1 s)) with [0%Z]. change (masked [false; true] (o_ant2 s)) with [1%Z].
  change (calc_app_coords below (o_lat s) to_b [1] [0]) with [(PI, 0)]. cbn [map fst snd combine].
  change (type_in (c_frame to_b) ["altaz"%string]) with false. cbv iota. change (pa_of below (c_frame to_b) (c_epoch to_b) 1 PI 0) with 0.
  cbn [negb andb]. change (o_pos s) with (o_pos mixed). rewrite N1. cbn [bind]. rewrite Hcat.
  cbn [bind]. change (is_type "unprojected" to_b) with false. cbv iota. cbn [map repeat].
  change (assign_rows [false; true] [w_of v0] [0; 0]) with (Ok [0; w_of v0]). cbn [bind]. rewrite Hty.
  unfold apply_w_proj. rewrite Hn. cbn [s like_mixed o_data row_bools bind]. cbn [length Nat.eqb bind forallb negb andb].
  eexists. eexists. reflexivity.
Qed.
Lemma two_ways : exists s1 t t1, phasing_history mixed s1 /\ projected s1 1 /\ o_pos s1 = o_pos mixed /\
  (forall k e, stored (o_pc mixed) k e -> e_name e <> "c"%string) /\ (forall k e, stored (o_pc s1) k e -> e_name e <> "c"%string) /\
  phase below no_junk PhaseCases.first_of "c" to_b false true (Some [false; true]) true mixed = Ok t /\
  phase below no_junk PhaseCases.first_of "c" to_b false true (Some [false; true]) true s1 = Ok t1 /\
  pc_ids (o_pc t) = [0%Z; 2%Z] /\ pc_ids (o_pc t1) = [0%Z; 1%Z].
Proof.
  assert (Hnew : forall k e, stored (o_pc mixed) k e -> e_name e <> "b"%string /\ e_name e <> "c"%string).
  { intros k e H. unfold stored in H. cbn [mixed o_pc mixed_pc pc_cat In] in H. destruct H as [H|[H|[]]]; injection H as <- <-; split; discriminate. }
  pose (pc1 := mkpc [(0%Z, PhaseCases.entry "a" (PhaseCases.star 1 0)); (2%Z, PhaseCases.entry "b" to_b)] 2 [0%Z; 2%Z]).
  destruct (phase_like "b" mixed_pc pc1 (- (1 / 2), 0, 0) (0, 0, 1 / 2) (PI / 2) 0 0 0 0 0 (fun _ _ _ : nat => (1, 0)) true) as (u1 & d1 & H1); [vm_compute; reflexivity..|].
  destruct (phase_like "c" mixed_pc (mkpc [(0%Z, PhaseCases.entry "a" (PhaseCases.star 1 0)); (2%Z, PhaseCases.entry "c" to_b)] 2 [0%Z; 2%Z])
    (- (1 / 2), 0, 0) (0, 0, 1 / 2) (PI / 2) 0 0 0 0 0 (fun _ _ _ : nat => (1, 0)) true) as (u2 & d2 & H2); [vm_compute; reflexivity..|].
  destruct (phase_like "c" pc1 (mkpc [(0%Z, PhaseCases.entry "a" (PhaseCases.star 1 0)); (1%Z, PhaseCases.entry "c" to_b)] 2 [0%Z; 1%Z])
    (- (1 / 2), 0, 0) u1 (PI / 2) PI 0 0 0 0 d1 false) as (u3 & d3 & H3); [vm_compute; reflexivity..|].
  eexists. eexists. eexists. split.
  { eapply PhH_cons; [eapply Ph_phase; [exact PhaseCases.first_picks| |exact H1]|apply PhH_nil]. left. intros k e H. apply (Hnew k e H). }
  split; [exists (PhaseCases.entry "b" to_b); split; [exists 2%Z; split; [reflexivity|right; left; reflexivity]|discriminate]|].
  split; [reflexivity|]. split; [intros k e H; apply (Hnew k e H)|].
  split; [intros k e H; unfold stored in H; cbn [like_mixed o_pc pc1 pc_cat In] in H; destruct H as [H|[H|[]]]; injection H as <- <-; discriminate|].
  split; [exact H2|]. split; [exact H3|]. split; reflexivity.
Qed.
