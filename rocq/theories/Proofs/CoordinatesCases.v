(** Cases for the coordinate claims. *)
From Coq Require Import List ZArith Reals Bool Arith Lia Lra.
From Verif Require Import Lib.Py Model.Coordinates Model.Rotation Spec.CoordinatesSpec Spec.RotationSpec
  Proofs.RotationProofs Proofs.CoordinatesProofs Proofs.CalcUvw Proofs.CalcUvwAnts Proofs.CalcUvwRoutes Proofs.GeodeticProofs.
Import ListNotations.
Open Scope R_scope.

Lemma ENU_distances radii e lat lon alt xyz enu : ENU_from_ECEF radii e lat lon alt xyz = Ok enu ->
  forall i j, (i < length xyz)%nat -> (j < length xyz)%nat ->
    distance (nth i enu origin) (nth j enu origin) = distance (nth i xyz origin) (nth j xyz origin).
Proof.
  intros H i j Hi Hj. apply ENU_inv in H. subst. rewrite !(Np.nth_map _ _ _ origin) by assumption. apply enu1_keeps.
Qed.
Lemma two_rotations junk axis1 axis2 a1 a2 vs :
  vs <> [] -> (axis1 < 3)%nat -> (axis2 < 3)%nat -> fits (length vs) a1 -> fits (length vs) a2 ->
  exists out, rotate_two_axis junk (column vs) a1 a2 axis1 axis2 = Ok (column out) /\ length out = length vs /\
    forall i, (i < length vs)%nat -> nth i out origin = turn axis2 (angle_at a2 i) (turn axis1 (angle_at a1 i) (nth i vs origin)).
Proof.
  intros Hv H1 H2 F1 F2. eexists. split; [apply rotate_two_rows; assumption|]. rewrite !turned_length. split; [reflexivity|].
  intros i Hi. change origin with zero3. rewrite !turned_nth by (rewrite ?turned_length; exact Hi). reflexivity.
Qed.
Lemma position_angle_lost : exists g, forall junk, exists new,
  calc_uvw junk true false false g = Ok new /\
  frame_pa g = Some [0; PI / 2] /\ antenna_positions g = Some [(0, 0, 0); (0, 1, 0)] /\
  ant_1 g = Some [0%Z; 0%Z] /\ ant_2 g = Some [1%Z; 1%Z] /\ antenna_numbers g = Some [0%Z; 1%Z] /\
  app_ra g = Some [0; 0] /\ app_dec g = Some [0; 0] /\ lst_array g = Some [0; 0] /\ telescope_lon g = Some 0 /\
  nth 1 new origin <> uvw_of (0 - 0 - 0) 0 (PI / 2) (minus3 (0, 1, 0) (0, 0, 0)).
Proof.
  exists two_frames. intros junk. destruct (two_frames_lost junk) as (new & E & H). exists new. split; [exact E|]. repeat (split; [reflexivity|]). exact H.
Qed.
Lemma enu_example : exists enu, ENU_from_ECEF (1, 3) (mkEll 2 2) 0 0 0 [(2, 0, 0); (0, 2, 0)] = Ok enu /\ nth 1 enu origin = (2, 0, -2).
Proof.
  eexists. split.
  - apply ENU_ok. cbn [fst snd]. intros v [<-|[<-|[]]]; unfold len3;
      [replace (2 * 2 + 0 * 0 + 0 * 0) with (2 * 2) by ring | replace (0 * 0 + 2 * 2 + 0 * 0) with (2 * 2) by ring]; rewrite sqrt_square by lra; lra.
  - cbn [map nth]. unfold enu_from_ecef1, xyz_from_latlonalt, e_squared, b_div_a2. cbn [gps_a gps_b]. rewrite !sin_0, !cos_0.
    replace (1 - (1 - (2 / 2) ^ 2) * 0 ^ 2) with (1 * 1) by field. rewrite sqrt_square by lra. apply vec_eq; field.
Qed.
Definition three_antennas : uvw_args :=
  {| app_ra := Some [1; 1; 1; 1]; app_dec := Some [1 / 2; 1 / 2; 1 / 2; 1 / 2]; frame_pa := Some [1 / 4; 1 / 4; 1 / 3; 1 / 3]; lst_array := Some [2; 2; 3; 3];
     uvw_array := None; antenna_positions := Some [(0, 0, 0); (0, 14, 0); (14, 0, 3)]; antenna_numbers := Some [7%Z; 2%Z; 12%Z];
     ant_1 := Some [7%Z; 2%Z; 7%Z; 2%Z]; ant_2 := Some [2%Z; 12%Z; 2%Z; 12%Z]; old_app_ra := None; old_app_dec := None; old_frame_pa := None;
     telescope_lat := Some (-1 / 2); telescope_lon := Some (1 / 3) |}.
Lemma antennas_example : exists g pos nums a1 a2 lon ra dec lst,
  antenna_positions g = Some pos /\ antenna_numbers g = Some nums /\ ant_1 g = Some a1 /\ ant_2 g = Some a2 /\ telescope_lon g = Some lon /\
  NoDup nums /\ length nums = length pos /\ (forall a, In a a1 -> In a nums) /\ (forall a, In a a2 -> In a nums) /\ length a2 = length a1 /\ a1 <> [] /\
  app_ra g = Some ra /\ app_dec g = Some dec /\ lst_array g = Some lst /\ length ra = length a1 /\ length dec = length a1 /\ length lst = length a1 /\
  length a1 = 4%nat /\ fits_opt (length a1) (frame_pa g) /\
  (forall i, (S i < length a1)%nat -> nth (S i) lst 0 - nth (S i) ra 0 = nth i lst 0 - nth i ra 0 -> nth (S i) dec 0 = nth i dec 0 ->
     pa_at (frame_pa g) (S i) = pa_at (frame_pa g) i).
Proof.
  exists three_antennas. do 8 eexists. do 5 (split; [reflexivity|]). split; [repeat constructor; cbn; intuition discriminate|]. split; [reflexivity|].
  split; [cbn; intuition|]. split; [cbn; intuition|]. split; [reflexivity|]. split; [discriminate|]. do 8 (split; [reflexivity|]).
  intros [|[|[|i]]] Hi; cbn [length nth pa_at frame_pa three_antennas] in *; try lia; intros; lra.
Qed.
Definition two_records : uvw_args :=
  {| app_ra := Some [1; 1]; app_dec := Some [1 / 2; 1 / 2]; frame_pa := Some [1 / 4; 1 / 3]; lst_array := None; uvw_array := Some [(1, 2, 3); (-4, 5, 0)];
     antenna_positions := None; antenna_numbers := None; ant_1 := None; ant_2 := None;
     old_app_ra := Some [2; 2]; old_app_dec := Some [0; -1]; old_frame_pa := Some [0; 0]; telescope_lat := None; telescope_lon := None |}.
Lemma move_example : exists g uvw ra dec pa ora odec opa,
  uvw_array g = Some uvw /\ uvw <> [] /\ app_ra g = Some ra /\ app_dec g = Some dec /\ frame_pa g = Some pa /\
  old_app_ra g = Some ora /\ old_app_dec g = Some odec /\ old_frame_pa g = Some opa /\
  length ra = length uvw /\ length dec = length uvw /\ length pa = length uvw /\ length ora = length uvw /\ length odec = length uvw /\ length opa = length uvw /\
  length uvw = 2%nat /\ ra <> ora.
Proof.
  exists two_records. do 7 eexists. split; [reflexivity|]. split; [discriminate|]. do 13 (split; [reflexivity|]). intros H. injection H as H1 _. lra.
Qed.
Lemma pole_refuted e : 0 < gps_b e <= gps_a e ->
  xyz_from_latlonalt e (PI / 2) 0 0 = (0, 0, gps_b e) /\
  lla_from_xyz e (0, 0, gps_b e) = (PI / 2, 0, - (gps_a e ^ 2 / gps_b e)).
Proof.
  intros [Hb Ha]. assert (Ha' : 0 < gps_a e) by lra. split.
  - unfold xyz_from_latlonalt. rewrite (curvature e Ha' Hb), (b_a2 e Ha'). unfold rad. rewrite sin_PI2, cos_PI2.
    replace (gps_a e ^ 2 * 0 ^ 2 + gps_b e ^ 2 * 1 ^ 2) with (gps_b e * gps_b e) by ring. rewrite sqrt_square by lra. apply vec_eq; field; repeat split; lra.
  - apply pole; try assumption. unfold e_prime_squared. rewrite (b_a2 e Ha').
    replace (gps_b e + (1 / (gps_b e ^ 2 / gps_a e ^ 2) - 1) * gps_b e) with (gps_a e ^ 2 / gps_b e) by (field; split; lra).
    apply Rdiv_lt_0_compat; [apply pow_lt; exact Ha'|exact Hb].
Qed.
Lemma geodetic_example : 0 < gps_b (mkEll 6378137 6356752) /\ - (PI / 2) < -1 / 2 < PI / 2 /\ - PI < 1 / 3 <= PI.
Proof. cbn [gps_b]. pose proof PI2_1 as H. lra. Qed.
Lemma polar_example : 0 < 2 /\ 0 <= 4 < 2 * PI /\ - (PI / 2) < -1 / 2 < PI / 2.
Proof. pose proof PI2_1 as H. assert (2 < PI) by (unfold Rgt in *; lra). lra. Qed.
