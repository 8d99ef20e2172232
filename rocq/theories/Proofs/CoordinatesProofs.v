(** Coordinate transforms over the reals. *)
From Coq Require Import List ZArith Reals Bool Arith Lia Lra.
From Verif Require Import Lib.Py Model.Coordinates Spec.CoordinatesSpec Proofs.RotationProofs.
Import ListNotations.
Open Scope R_scope.

(** * Rotations about the polar axis *)
Lemma rot_z_turn a v : rot_z a v = turn 2 a v.
Proof. destruct v as [[x y] z]. unfold rot_z, turn. apply vec_eq; ring. Qed.
Lemma map_id_in {A} (f : A -> A) l : (forall x, f x = x) -> map f l = l.
Proof. intros H. transitivity (map (fun x => x) l); [apply map_ext, H|apply map_id]. Qed.
Lemma rotECEF_back lon l : ECEF_from_rotECEF (rotECEF_from_ECEF l lon) lon = l.
Proof. unfold ECEF_from_rotECEF, rotECEF_from_ECEF. rewrite map_map. apply map_id_in. intros v. rewrite !rot_z_turn. apply turn_inv. ring. Qed.
Lemma rotECEF_forth lon l : rotECEF_from_ECEF (ECEF_from_rotECEF l lon) lon = l.
Proof. unfold ECEF_from_rotECEF, rotECEF_from_ECEF. rewrite map_map. apply map_id_in. intros v. rewrite !rot_z_turn. apply turn_inv. ring. Qed.
Lemma turn_keeps axis a : keeps_distances (turn axis a).
Proof. intros p q. unfold distance. rewrite <- turn_minus. apply turn_len. Qed.

(** * East, north, up *)
Lemma enu1_spec e lat lon alt v : enu_from_ecef1 e lat lon alt v = east_north_up lat lon (minus3 v (xyz_from_latlonalt e lat lon alt)).
Proof. destruct v as [[x y] z]. unfold enu_from_ecef1. destruct (xyz_from_latlonalt e lat lon alt) as [[cx cy] cz]. reflexivity. Qed.
Lemma enu_turns lat lon p : east_north_up lat lon p = (let '(x, y, z) := turn 1 lat (turn 2 (- lon) p) in (y, z, x)).
Proof. destruct p as [[x y] z]. unfold east_north_up, turn. rewrite cos_neg, sin_neg. apply vec_eq; ring. Qed.
Lemma enu_len lat lon p : len3 (east_north_up lat lon p) = len3 p.
Proof.
  rewrite enu_turns. pose proof (turn_len 1 lat (turn 2 (- lon) p)) as H. rewrite (turn_len 2) in H. rewrite <- H.
  destruct (turn 1 lat (turn 2 (- lon) p)) as [[x y] z]. unfold len3. f_equal. ring.
Qed.
Lemma enu_minus lat lon p q : east_north_up lat lon (minus3 p q) = minus3 (east_north_up lat lon p) (east_north_up lat lon q).
Proof. destruct p as [[x y] z], q as [[x' y'] z']. unfold east_north_up, minus3. apply vec_eq; ring. Qed.
Lemma minus3_cancel p q c : minus3 (minus3 p c) (minus3 q c) = minus3 p q.
Proof. destruct p as [[x y] z], q as [[x' y'] z'], c as [[a b] d]. unfold minus3. apply vec_eq; ring. Qed.
Lemma enu1_keeps e lat lon alt : keeps_distances (enu_from_ecef1 e lat lon alt).
Proof. intros p q. unfold distance. rewrite !enu1_spec, <- enu_minus, minus3_cancel. apply enu_len. Qed.

Lemma ecef1_spec e lat lon alt v : ecef_from_enu1 e lat lon alt v =
  (let '(ee, nn, uu) := v in let '(x, y, z) := turn 2 lon (turn 1 (- lat) (uu, ee, nn)) in let '(cx, cy, cz) := xyz_from_latlonalt e lat lon alt in (x + cx, y + cy, z + cz)).
Proof.
  destruct v as [[ee nn] uu]. unfold ecef_from_enu1, turn. destruct (xyz_from_latlonalt e lat lon alt) as [[cx cy] cz]. rewrite cos_neg, sin_neg. apply vec_eq; ring.
Qed.
Lemma enu_back e lat lon alt v : ecef_from_enu1 e lat lon alt (enu_from_ecef1 e lat lon alt v) = v.
Proof.
  rewrite ecef1_spec, enu1_spec, enu_turns. destruct v as [[x y] z]. destruct (xyz_from_latlonalt e lat lon alt) as [[cx cy] cz]. unfold minus3.
  destruct (turn 1 lat (turn 2 (- lon) (x - cx, y - cy, z - cz))) as [[a b] c] eqn:E. rewrite <- E. rewrite (turn_inv 1) by ring. rewrite (turn_inv 2) by ring. apply vec_eq; ring.
Qed.
Lemma enu_forth e lat lon alt v : enu_from_ecef1 e lat lon alt (ecef_from_enu1 e lat lon alt v) = v.
Proof.
  rewrite ecef1_spec, enu1_spec, enu_turns. destruct v as [[ee nn] uu]. destruct (xyz_from_latlonalt e lat lon alt) as [[cx cy] cz].
  destruct (turn 2 lon (turn 1 (- lat) (uu, ee, nn))) as [[x y] z] eqn:E. unfold minus3.
  replace (x + cx - cx) with x by ring. replace (y + cy - cy) with y by ring. replace (z + cz - cz) with z by ring. rewrite <- E.
  rewrite (turn_inv 2) by ring. rewrite (turn_inv 1) by ring. reflexivity.
Qed.
Lemma ecef1_keeps e lat lon alt : keeps_distances (ecef_from_enu1 e lat lon alt).
Proof. intros p q. rewrite <- (enu1_keeps e lat lon alt). rewrite !enu_forth. reflexivity. Qed.

(** The check of ENU_from_ECEF *)
Definition off_range (radii : R * R) (v : vec) : bool := if Rle_dec (norm v) (fst radii) then true else if Rge_dec (norm v) (snd radii) then true else false.
Lemma off_range_false radii v : off_range radii v = false <-> fst radii < len3 v < snd radii.
Proof.
  unfold off_range. change (len3 v) with (norm v). destruct (Rle_dec (norm v) (fst radii)); [split; [discriminate|lra]|]. destruct (Rge_dec (norm v) (snd radii)); split; try discriminate; lra.
Qed.
Lemma ENU_ok radii e lat lon alt xyz : (forall v, In v xyz -> fst radii < len3 v < snd radii) ->
  ENU_from_ECEF radii e lat lon alt xyz = Ok (map (enu_from_ecef1 e lat lon alt) xyz).
Proof.
  intros H. unfold ENU_from_ECEF. fold (off_range radii).
  destruct (existsb (off_range radii) xyz) eqn:E; [|reflexivity]. apply existsb_exists in E as (v & Hv & E). rewrite (proj2 (off_range_false radii v) (H v Hv)) in E. discriminate E.
Qed.
Lemma ENU_refused radii e lat lon alt xyz v : In v xyz -> ~ (fst radii < len3 v < snd radii) -> ENU_from_ECEF radii e lat lon alt xyz = Err ValueError.
Proof.
  intros Hv Hr. unfold ENU_from_ECEF. replace (existsb _ xyz) with true; [reflexivity|]. symmetry. apply existsb_exists. exists v. split; [exact Hv|].
  change (off_range radii v = true). destruct (off_range radii v) eqn:E; [reflexivity|]. apply off_range_false in E. contradiction.
Qed.
Lemma ENU_inv radii e lat lon alt xyz enu : ENU_from_ECEF radii e lat lon alt xyz = Ok enu -> enu = map (enu_from_ecef1 e lat lon alt) xyz.
Proof. unfold ENU_from_ECEF. destruct (existsb _ xyz); [discriminate|]. intros H. injection H as <-. reflexivity. Qed.
Lemma ENU_there_and_back radii e lat lon alt xyz enu : ENU_from_ECEF radii e lat lon alt xyz = Ok enu -> ECEF_from_ENU e lat lon alt enu = xyz.
Proof. intros H. apply ENU_inv in H. subst. unfold ECEF_from_ENU. rewrite map_map. apply map_id_in, enu_back. Qed.
Lemma ECEF_there_and_back radii e lat lon alt enu : (forall v, In v (ECEF_from_ENU e lat lon alt enu) -> fst radii < len3 v < snd radii) ->
  ENU_from_ECEF radii e lat lon alt (ECEF_from_ENU e lat lon alt enu) = Ok enu.
Proof. intros H. rewrite ENU_ok by exact H. unfold ECEF_from_ENU. rewrite map_map. f_equal. apply map_id_in, enu_forth. Qed.

(** * atan2 *)
Lemma atan2_polar r t : 0 < r -> - PI < t <= PI -> atan2 (r * sin t) (r * cos t) = t.
Proof.
  intros Hr [H1 H2]. pose proof PI_RGT_0 as HP. unfold atan2.
  assert (Hq : forall c, cos c <> 0 -> r * sin c / (r * cos c) = tan c) by (intros c Hc; unfold tan; field; split; [exact Hc|lra]).
  destruct (Rlt_dec 0 (r * cos t)) as [Hc|Hc].
  - assert (Hp : 0 < cos t) by (apply Rmult_lt_reg_l with r; lra).
    assert (- PI / 2 < t < PI / 2).
    { split.
      - destruct (Rle_lt_dec t (- (PI / 2))) as [Hlt|Hlt]; [|lra]. exfalso. pose proof (cos_le_0 (- t) ltac:(lra) ltac:(lra)) as Hn. rewrite cos_neg in Hn. lra.
      - destruct (Rle_lt_dec (PI / 2) t) as [Hlt|Hlt]; [|lra]. exfalso. pose proof (cos_le_0 t ltac:(lra) ltac:(lra)) as Hn. lra. }
    rewrite Hq by lra. apply atan_tan. lra.
  - destruct (Rlt_dec (r * cos t) 0) as [Hc'|Hc'].
    + assert (Hp : cos t < 0).
      { apply Rnot_le_lt. intros Hge. pose proof (Rmult_le_pos r (cos t) ltac:(lra) Hge). lra. }
      destruct (Rle_dec 0 (r * sin t)) as [Hs|Hs].
      * assert (Hsn : 0 <= sin t). { apply Rmult_le_reg_l with r; [exact Hr|]. lra. }
        assert (PI / 2 < t).
        { destruct (Rle_lt_dec t (PI / 2)) as [Hlt|Hlt]; [|exact Hlt]. exfalso. destruct (Rle_lt_dec (- (PI / 2)) t) as [Hm|Hm].
          - pose proof (cos_ge_0 t ltac:(lra) ltac:(lra)). lra.
          - pose proof (sin_gt_0 (- t) ltac:(lra) ltac:(lra)) as Hg. rewrite sin_neg in Hg. lra. }
        rewrite Hq by lra. replace (tan t) with (tan (t - PI)).
        -- rewrite atan_tan by lra. ring.
        -- unfold tan. rewrite sin_minus, cos_minus, sin_PI, cos_PI. field. repeat split; lra.
      * assert (Hsn : sin t < 0). { apply Rnot_le_lt. intros Hge. pose proof (Rmult_le_pos r (sin t) ltac:(lra) Hge). lra. }
        assert (t < - (PI / 2)).
        { destruct (Rle_lt_dec (- (PI / 2)) t) as [Hlt|Hlt]; [|exact Hlt]. exfalso. destruct (Rle_lt_dec t (PI / 2)) as [Hm|Hm].
          - pose proof (cos_ge_0 t ltac:(lra) ltac:(lra)). lra.
          - pose proof (sin_ge_0 t ltac:(lra) ltac:(lra)). lra. }
        rewrite Hq by lra. replace (tan t) with (tan (t + PI)).
        -- rewrite atan_tan by lra. ring.
        -- unfold tan. rewrite sin_plus, cos_plus, sin_PI, cos_PI. field. repeat split; lra.
    + assert (Hz : cos t = 0). { assert (r * cos t = 0) by lra. apply Rmult_integral in H as [H|H]; lra. }
      assert (Ht : t = PI / 2 \/ t = - (PI / 2)).
      { destruct (Rtotal_order t (- (PI / 2))) as [Hl|[Hl|Hl]]; [|right; exact Hl|].
        - exfalso. pose proof (cos_lt_0 (- t) ltac:(lra) ltac:(lra)) as Hn. rewrite cos_neg in Hn. lra.
        - destruct (Rtotal_order t (PI / 2)) as [Hm|[Hm|Hm]]; [|left; exact Hm|].
          + exfalso. pose proof (cos_gt_0 t ltac:(lra) ltac:(lra)). lra.
          + exfalso. pose proof (cos_lt_0 t ltac:(lra) ltac:(lra)). lra. }
      destruct Ht as [-> | ->].
      * rewrite sin_PI2. destruct (Rlt_dec 0 (r * 1)); [reflexivity|lra].
      * rewrite sin_neg, sin_PI2. destruct (Rlt_dec 0 (r * - (1))); [lra|]. destruct (Rlt_dec (r * - (1)) 0); [reflexivity|lra].
Qed.
