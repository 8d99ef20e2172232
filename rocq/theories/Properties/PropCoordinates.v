(** C60, C66, C67, C68 and C69: coordinate transforms, baselines and rotations. *)
From Coq Require Import List ZArith Reals Bool Arith Lia Lra.
From Verif Require Import Lib.Py Model.Coordinates Model.Rotation Spec.CoordinatesSpec Spec.RotationSpec
  Proofs.RotationProofs Proofs.CoordinatesProofs Proofs.CalcUvw Proofs.CalcUvwAnts Proofs.CalcUvwRoutes Proofs.GeodeticProofs Proofs.CoordinatesCases.
Import ListNotations.
Open Scope R_scope.

(** * C60 *)
Theorem C60_rotECEF : forall xyz longitude,
  ECEF_from_rotECEF (rotECEF_from_ECEF xyz longitude) longitude = xyz /\
  rotECEF_from_ECEF (ECEF_from_rotECEF xyz longitude) longitude = xyz.
Proof. exact (fun xyz lon => conj (rotECEF_back lon xyz) (rotECEF_forth lon xyz)). Qed.
Print Assumptions C60_rotECEF.

(** Point by point these are turns about the polar axis, by minus the longitude and by
    the longitude, and they keep distances. *)
Theorem C60_rotECEF_turns : forall longitude,
  (forall xyz, ECEF_from_rotECEF xyz longitude = map (turn 2 longitude) xyz) /\
  (forall xyz, rotECEF_from_ECEF xyz longitude = map (turn 2 (-1 * longitude)) xyz) /\
  keeps_distances (turn 2 longitude) /\ keeps_distances (turn 2 (-1 * longitude)).
Proof.
  exact (fun lon => conj (fun xyz => map_ext _ _ (rot_z_turn lon) xyz) (conj (fun xyz => map_ext _ _ (rot_z_turn (-1 * lon)) xyz)
    (conj (turn_keeps 2 lon) (turn_keeps 2 (-1 * lon))))).
Qed.
Print Assumptions C60_rotECEF_turns.

(** ENU_from_ECEF gives for every point its offset from the site along the local east,
    north and up; it is refused exactly if the radius of a point is off range. *)
Theorem C60_ENU : forall radii e lat lon alt xyz,
  (forall v, In v xyz -> fst radii < len3 v < snd radii) ->
  ENU_from_ECEF radii e lat lon alt xyz = Ok (map (fun v => east_north_up lat lon (minus3 v (xyz_from_latlonalt e lat lon alt))) xyz).
Proof. exact (fun radii e lat lon alt xyz H => eq_trans (ENU_ok radii e lat lon alt xyz H) (f_equal Ok (map_ext _ _ (enu1_spec e lat lon alt) xyz))). Qed.
Print Assumptions C60_ENU.

Theorem C60_ENU_refused : forall radii e lat lon alt xyz v,
  In v xyz -> ~ (fst radii < len3 v < snd radii) -> ENU_from_ECEF radii e lat lon alt xyz = Err ValueError.
Proof. exact ENU_refused. Qed.
Print Assumptions C60_ENU_refused.

Theorem C60_ENU_there_and_back : forall radii e lat lon alt xyz enu,
  ENU_from_ECEF radii e lat lon alt xyz = Ok enu -> ECEF_from_ENU e lat lon alt enu = xyz.
Proof. exact ENU_there_and_back. Qed.
Print Assumptions C60_ENU_there_and_back.

Theorem C60_ECEF_there_and_back : forall radii e lat lon alt enu,
  (forall v, In v (ECEF_from_ENU e lat lon alt enu) -> fst radii < len3 v < snd radii) ->
  ENU_from_ECEF radii e lat lon alt (ECEF_from_ENU e lat lon alt enu) = Ok enu.
Proof. exact ECEF_there_and_back. Qed.
Print Assumptions C60_ECEF_there_and_back.

Theorem C60_ENU_keeps_distances : forall radii e lat lon alt xyz enu,
  ENU_from_ECEF radii e lat lon alt xyz = Ok enu ->
  forall i j, (i < length xyz)%nat -> (j < length xyz)%nat ->
    distance (nth i enu origin) (nth j enu origin) = distance (nth i xyz origin) (nth j xyz origin).
Proof. exact ENU_distances. Qed.
Print Assumptions C60_ENU_keeps_distances.

(** A site and a second point, both in range *)
Example C60_inhabited : exists enu, ENU_from_ECEF (1, 3) (mkEll 2 2) 0 0 0 [(2, 0, 0); (0, 2, 0)] = Ok enu /\ nth 1 enu origin = (2, 0, -2).
Proof. exact enu_example. Qed.

(** * C66: baselines from antenna positions *)
(** The rotation helpers turn every vector about the axes asked for, one after the other,
    whether the angles are numbers, arrays or None (no turn). *)
Theorem C66_two_rotations : forall junk axis1 axis2 a1 a2 vs,
  vs <> [] -> (axis1 < 3)%nat -> (axis2 < 3)%nat -> fits (length vs) a1 -> fits (length vs) a2 ->
  exists out, rotate_two_axis junk (column vs) a1 a2 axis1 axis2 = Ok (column out) /\ length out = length vs /\
    forall i, (i < length vs)%nat -> nth i out origin = turn axis2 (angle_at a2 i) (turn axis1 (angle_at a1 i) (nth i vs origin)).
Proof. exact two_rotations. Qed.
Print Assumptions C66_two_rotations.

(** Every record of the result is the textbook projection of the difference of the
    two antenna positions, at Greenwich hour angle lst - ra - longitude, for all antenna
    numberings and record orders, if consecutive records towards the same place agree
    about the position angle. *)
Theorem C66_uvw_from_antennas : forall junk g pos nums a1 a2 lon,
  antenna_positions g = Some pos -> antenna_numbers g = Some nums -> ant_1 g = Some a1 -> ant_2 g = Some a2 -> telescope_lon g = Some lon ->
  NoDup nums -> length nums = length pos -> (forall a, In a a1 -> In a nums) -> (forall a, In a a2 -> In a nums) ->
  length a2 = length a1 -> a1 <> [] -> forall ra dec lst,
  app_ra g = Some ra -> app_dec g = Some dec -> lst_array g = Some lst ->
  length ra = length a1 -> length dec = length a1 -> length lst = length a1 -> fits_opt (length a1) (frame_pa g) ->
  (forall i, (S i < length a1)%nat -> nth (S i) lst 0 - nth (S i) ra 0 = nth i lst 0 - nth i ra 0 -> nth (S i) dec 0 = nth i dec 0 ->
     pa_at (frame_pa g) (S i) = pa_at (frame_pa g) i) ->
  exists new, calc_uvw junk true false false g = Ok new /\ length new = length a1 /\
    forall i k1 k2, (i < length a1)%nat -> nth_error nums k1 = Some (nth i a1 0%Z) -> nth_error nums k2 = Some (nth i a2 0%Z) ->
      nth i new origin = uvw_of (nth i lst 0 - nth i ra 0 - lon) (nth i dec 0) (pa_at (frame_pa g) i) (minus3 (nth k2 pos origin) (nth k1 pos origin)).
Proof. exact ants_to_phased. Qed.
Print Assumptions C66_uvw_from_antennas.

Theorem C66_enu_from_antennas : forall junk g pos nums a1 a2 lon,
  antenna_positions g = Some pos -> antenna_numbers g = Some nums -> ant_1 g = Some a1 -> ant_2 g = Some a2 -> telescope_lon g = Some lon ->
  NoDup nums -> length nums = length pos -> (forall a, In a a1 -> In a nums) -> (forall a, In a a2 -> In a nums) ->
  length a2 = length a1 -> a1 <> [] -> forall lat,
  telescope_lat g = Some lat ->
  exists new, calc_uvw junk true false true g = Ok new /\ length new = length a1 /\
    forall i k1 k2, (i < length a1)%nat -> nth_error nums k1 = Some (nth i a1 0%Z) -> nth_error nums k2 = Some (nth i a2 0%Z) ->
      nth i new origin = east_north_up lat lon (minus3 (nth k2 pos origin) (nth k1 pos origin)).
Proof. exact ants_to_enu. Qed.
Print Assumptions C66_enu_from_antennas.

(** The condition on position angles is needed: of two consecutive records of one
    baseline towards the same place in frames a quarter turn apart, the second gets
    the coordinates of the first. *)
Theorem C66_position_angle_refuted : exists g, forall junk, exists new,
  calc_uvw junk true false false g = Ok new /\
  frame_pa g = Some [0; PI / 2] /\ antenna_positions g = Some [(0, 0, 0); (0, 1, 0)] /\
  ant_1 g = Some [0%Z; 0%Z] /\ ant_2 g = Some [1%Z; 1%Z] /\ antenna_numbers g = Some [0%Z; 1%Z] /\
  app_ra g = Some [0; 0] /\ app_dec g = Some [0; 0] /\ lst_array g = Some [0; 0] /\ telescope_lon g = Some 0 /\
  nth 1 new origin <> uvw_of (0 - 0 - 0) 0 (PI / 2) (minus3 (0, 1, 0) (0, 0, 0)).
Proof. exact position_angle_lost. Qed.
Print Assumptions C66_position_angle_refuted.

(** Two baselines of three antennas at two times *)
Example C66_inhabited : exists g pos nums a1 a2 lon ra dec lst,
  antenna_positions g = Some pos /\ antenna_numbers g = Some nums /\ ant_1 g = Some a1 /\ ant_2 g = Some a2 /\ telescope_lon g = Some lon /\
  NoDup nums /\ length nums = length pos /\ (forall a, In a a1 -> In a nums) /\ (forall a, In a a2 -> In a nums) /\ length a2 = length a1 /\ a1 <> [] /\
  app_ra g = Some ra /\ app_dec g = Some dec /\ lst_array g = Some lst /\ length ra = length a1 /\ length dec = length a1 /\ length lst = length a1 /\
  length a1 = 4%nat /\ fits_opt (length a1) (frame_pa g) /\
  (forall i, (S i < length a1)%nat -> nth (S i) lst 0 - nth (S i) ra 0 = nth i lst 0 - nth i ra 0 -> nth (S i) dec 0 = nth i dec 0 ->
     pa_at (frame_pa g) (S i) = pa_at (frame_pa g) i).
Proof. exact antennas_example. Qed.

(** * C67: baselines from their old coordinates *)
(** If the old coordinates of a record are those of baseline b towards the old place, the
    new ones are those of b towards the new place *)
Theorem C67_move : forall junk g uvw ra dec pa ora odec opa,
  uvw_array g = Some uvw -> uvw <> [] ->
  app_ra g = Some ra -> app_dec g = Some dec -> frame_pa g = Some pa ->
  old_app_ra g = Some ora -> old_app_dec g = Some odec -> old_frame_pa g = Some opa ->
  length ra = length uvw -> length dec = length uvw -> length pa = length uvw -> length ora = length uvw -> length odec = length uvw -> length opa = length uvw ->
  exists new, calc_uvw junk false false false g = Ok new /\ length new = length uvw /\
    forall i H b, (i < length uvw)%nat -> nth i uvw origin = uvw_of H (nth i odec 0) (nth i opa 0) b ->
      nth i new origin = uvw_of (H + nth i ora 0 - nth i ra 0) (nth i dec 0) (nth i pa 0) b.
Proof. exact move_spec. Qed.
Print Assumptions C67_move.

Theorem C67_from_enu : forall junk g uvw ra dec lst lat,
  uvw_array g = Some uvw -> uvw <> [] ->
  app_ra g = Some ra -> app_dec g = Some dec -> lst_array g = Some lst -> telescope_lat g = Some lat -> old_app_dec g = None ->
  length ra = length uvw -> length dec = length uvw -> length lst = length uvw -> fits_opt (length uvw) (frame_pa g) ->
  exists new, calc_uvw junk false true false g = Ok new /\ length new = length uvw /\
    forall i lon b, (i < length uvw)%nat -> nth i uvw origin = east_north_up lat lon b ->
      nth i new origin = uvw_of (nth i lst 0 - nth i ra 0 - lon) (nth i dec 0) (pa_at (frame_pa g) i) b.
Proof. exact from_enu_spec. Qed.
Print Assumptions C67_from_enu.

Theorem C67_to_enu : forall junk g uvw ora odec lst lat,
  uvw_array g = Some uvw -> uvw <> [] ->
  old_app_ra g = Some ora -> old_app_dec g = Some odec -> lst_array g = Some lst -> telescope_lat g = Some lat -> app_dec g = None ->
  length ora = length uvw -> length odec = length uvw -> length lst = length uvw -> fits_opt (length uvw) (old_frame_pa g) ->
  exists new, calc_uvw junk false false true g = Ok new /\ length new = length uvw /\
    forall i lon b, (i < length uvw)%nat -> nth i uvw origin = uvw_of (nth i lst 0 - nth i ora 0 - lon) (nth i odec 0) (pa_at (old_frame_pa g) i) b ->
      nth i new origin = east_north_up lat lon b.
Proof. exact to_enu_spec. Qed.
Print Assumptions C67_to_enu.

(** Every vector is the coordinates of some baseline, so the three theorems above
    determine the result for all arrays *)
Theorem C67_every_vector : forall H d pa v, exists b, v = uvw_of H d pa b.
Proof. exact uvw_of_onto. Qed.
Print Assumptions C67_every_vector.

Theorem C67_there_and_back : forall junk g g' uvw new ra dec pa ora odec opa,
  uvw_array g = Some uvw -> uvw <> [] ->
  app_ra g = Some ra -> app_dec g = Some dec -> frame_pa g = Some pa ->
  old_app_ra g = Some ora -> old_app_dec g = Some odec -> old_frame_pa g = Some opa ->
  length ra = length uvw -> length dec = length uvw -> length pa = length uvw -> length ora = length uvw -> length odec = length uvw -> length opa = length uvw ->
  calc_uvw junk false false false g = Ok new ->
  uvw_array g' = Some new ->
  app_ra g' = Some ora -> app_dec g' = Some odec -> frame_pa g' = Some opa ->
  old_app_ra g' = Some ra -> old_app_dec g' = Some dec -> old_frame_pa g' = Some pa ->
  calc_uvw junk false false false g' = Ok uvw.
Proof. exact move_back. Qed.
Print Assumptions C67_there_and_back.

Theorem C67_enu_and_back : forall junk g g' uvw new ora odec lst lat,
  uvw_array g = Some uvw -> uvw <> [] ->
  old_app_ra g = Some ora -> old_app_dec g = Some odec -> lst_array g = Some lst -> telescope_lat g = Some lat -> app_dec g = None ->
  length ora = length uvw -> length odec = length uvw -> length lst = length uvw -> fits_opt (length uvw) (old_frame_pa g) ->
  calc_uvw junk false false true g = Ok new ->
  uvw_array g' = Some new -> app_ra g' = Some ora -> app_dec g' = Some odec -> lst_array g' = Some lst -> telescope_lat g' = Some lat -> old_app_dec g' = None ->
  frame_pa g' = old_frame_pa g ->
  calc_uvw junk false true false g' = Ok uvw.
Proof. exact enu_and_back. Qed.
Print Assumptions C67_enu_and_back.

Theorem C67_lengths_kept : forall junk g uvw new ra dec pa ora odec opa,
  uvw_array g = Some uvw -> uvw <> [] ->
  app_ra g = Some ra -> app_dec g = Some dec -> frame_pa g = Some pa ->
  old_app_ra g = Some ora -> old_app_dec g = Some odec -> old_frame_pa g = Some opa ->
  length ra = length uvw -> length dec = length uvw -> length pa = length uvw -> length ora = length uvw -> length odec = length uvw -> length opa = length uvw ->
  calc_uvw junk false false false g = Ok new -> map len3 new = map len3 uvw.
Proof. exact move_lengths. Qed.
Print Assumptions C67_lengths_kept.

(** The calculation that old data were phased with gives the textbook coordinates for a frame that does
    not turn with the Earth, and its inverse takes them back, both ways. *)
Theorem C67_old_uvw : forall ra dec l,
  old_uvw_calc ra dec l = map (textbook_uvw (- ra) dec) l /\
  undo_old_uvw_calc ra dec (old_uvw_calc ra dec l) = l /\
  old_uvw_calc ra dec (undo_old_uvw_calc ra dec l) = l.
Proof.
  intros ra dec l.
  assert (A : cos ra * cos ra = 1 - sin ra * sin ra) by (pose proof (sin2_cos2 ra) as E; unfold Rsqr in E; lra).
  assert (B : cos dec * cos dec = 1 - sin dec * sin dec) by (pose proof (sin2_cos2 dec) as E; unfold Rsqr in E; lra).
  unfold old_uvw_calc, undo_old_uvw_calc. rewrite !map_map. split; [|split].
  - apply map_ext. intros [[x y] z]. cbn. rewrite sin_neg, cos_neg. f_equal; [f_equal|]; ring.
  - rewrite <- (map_id l) at 2. apply map_ext. intros [[x y] z]. cbn. f_equal; [f_equal|]; ring [A B].
  - rewrite <- (map_id l) at 2. apply map_ext. intros [[x y] z]. cbn. f_equal; [f_equal|]; ring [A B].
Qed.
Print Assumptions C67_old_uvw.
Example C67_old_uvw_case : old_uvw_calc 0 0 [(1, 2, 3)] = [(2, 3, 1)].
Proof. unfold old_uvw_calc. cbn [map old_uvw_calc1]. rewrite sin_0, cos_0. repeat f_equal; ring. Qed.

(** Without position angles, as the arguments allow, moving to the place where the data
    already are raises TypeError *)
Theorem C67_no_angle_refuted : exists g,
  uvw_array g = Some [(1, 0, 0)] /\ frame_pa g = None /\ old_frame_pa g = None /\ app_ra g = old_app_ra g /\ app_dec g = old_app_dec g /\
  forall junk, calc_uvw junk false false false g = Err TypeError.
Proof. exact (ex_intro _ no_angle (conj eq_refl (conj eq_refl (conj eq_refl (conj eq_refl (conj eq_refl no_angle_raises)))))). Qed.
Print Assumptions C67_no_angle_refuted.

(** The arguments of the theorems above for two records *)
Example C67_inhabited : exists g uvw ra dec pa ora odec opa,
  uvw_array g = Some uvw /\ uvw <> [] /\ app_ra g = Some ra /\ app_dec g = Some dec /\ frame_pa g = Some pa /\
  old_app_ra g = Some ora /\ old_app_dec g = Some odec /\ old_frame_pa g = Some opa /\
  length ra = length uvw /\ length dec = length uvw /\ length pa = length uvw /\ length ora = length uvw /\ length odec = length uvw /\ length opa = length uvw /\
  length uvw = 2%nat /\ ra <> ora.
Proof. exact move_example. Qed.

(** * C68: geodetic coordinates *)
(** At altitude 0 a point is on the ellipsoid, and the altitude is measured along the
    normal of that place *)
Theorem C68_on_ellipsoid : forall e, 0 < gps_a e -> 0 < gps_b e -> forall lat lon,
  let '(x, y, z) := xyz_from_latlonalt e lat lon 0 in (x / gps_a e) ^ 2 + (y / gps_a e) ^ 2 + (z / gps_b e) ^ 2 = 1.
Proof. exact surface. Qed.
Print Assumptions C68_on_ellipsoid.

Theorem C68_altitude : forall e lat lon alt, xyz_from_latlonalt e lat lon alt =
  (let '(x, y, z) := xyz_from_latlonalt e lat lon 0 in (x + alt * (cos lat * cos lon), y + alt * (cos lat * sin lon), z + alt * sin lat)).
Proof. exact along_normal. Qed.
Print Assumptions C68_altitude.

(** LatLonAlt_from_XYZ inverts XYZ_from_LatLonAlt on the ellipsoid, and for a sphere at
    every altitude (its formula is an approximation elsewhere) *)
Theorem C68_back_on_ellipsoid : forall e, 0 < gps_a e -> 0 < gps_b e -> forall lat lon,
  - (PI / 2) < lat < PI / 2 -> - PI < lon <= PI -> lla_from_xyz e (xyz_from_latlonalt e lat lon 0) = (lat, lon, 0).
Proof. exact surface_back. Qed.
Print Assumptions C68_back_on_ellipsoid.

Theorem C68_back_on_sphere : forall e lat lon alt, 0 < gps_a e -> gps_b e = gps_a e -> 0 < gps_a e + alt ->
  - (PI / 2) < lat < PI / 2 -> - PI < lon <= PI -> lla_from_xyz e (xyz_from_latlonalt e lat lon alt) = (lat, lon, alt).
Proof. exact sphere_back. Qed.
Print Assumptions C68_back_on_sphere.

(** The longitude comes back exactly at every altitude above the curvature centre *)
Theorem C68_longitude_back : forall e, 0 < gps_a e -> 0 < gps_b e -> forall lat lon alt,
  - (PI / 2) < lat < PI / 2 -> - PI < lon <= PI -> 0 < gps_a e ^ 2 / sqrt (gps_a e ^ 2 * cos lat ^ 2 + gps_b e ^ 2 * sin lat ^ 2) + alt ->
  snd (fst (lla_from_xyz e (xyz_from_latlonalt e lat lon alt))) = lon.
Proof. exact longitude_back. Qed.
Print Assumptions C68_longitude_back.

(** At the pole itself the altitude is wrong by the radius of curvature a²/b *)
Theorem C68_pole_refuted : forall e, 0 < gps_b e <= gps_a e ->
  xyz_from_latlonalt e (PI / 2) 0 0 = (0, 0, gps_b e) /\
  lla_from_xyz e (0, 0, gps_b e) = (PI / 2, 0, - (gps_a e ^ 2 / gps_b e)).
Proof. exact pole_refuted. Qed.
Print Assumptions C68_pole_refuted.

Example C68_inhabited : 0 < gps_b (mkEll 6378137 6356752) /\ - (PI / 2) < -1 / 2 < PI / 2 /\ - PI < 1 / 3 <= PI.
Proof. exact geodetic_example. Qed.

(** * C69: spherical coordinates *)
Theorem C69_polar_back : forall r lon lat, 0 < r -> 0 <= lon < 2 * PI -> - (PI / 2) < lat < PI / 2 ->
  cart3_to_polar2 (let '(x, y, z) := polar2_to_cart3 lon lat in (r * x, r * y, r * z)) = (lon, lat).
Proof. exact cart_polar_back. Qed.
Print Assumptions C69_polar_back.

Theorem C69_cart_back : forall v, let '(lon, lat) := cart3_to_polar2 v in
  0 <= lon < 2 * PI /\ - (PI / 2) <= lat <= PI / 2 /\ v = (let '(x, y, z) := polar2_to_cart3 lon lat in (len3 v * x, len3 v * y, len3 v * z)).
Proof. exact polar_cart_back. Qed.
Print Assumptions C69_cart_back.
Example C69_inhabited : 0 < 2 /\ 0 <= 4 < 2 * PI /\ - (PI / 2) < -1 / 2 < PI / 2.
Proof. exact polar_example. Qed.
