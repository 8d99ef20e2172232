(** Geodetic and spherical coordinates over the reals. *)
From Coq Require Import List ZArith Reals Bool Arith Lia Lra Lra.
From Verif Require Import Lib.Py Model.Coordinates Spec.CoordinatesSpec Proofs.RotationProofs Proofs.CoordinatesProofs.
Import ListNotations.
Open Scope R_scope.

Lemma sq_pow x : x ^ 2 = x * x.
Proof. ring. Qed.
Lemma sc2 t : cos t ^ 2 = 1 - sin t ^ 2.
Proof. rewrite !sq_pow. apply sc. Qed.

(** The length [r] = sqrt(a² cos² + b² sin²), and the radius of curvature a²/r *)
Section Ell.
Variable (e : ellipsoid).
Hypothesis (Ha : 0 < gps_a e) (Hb : 0 < gps_b e).
Notation a := (gps_a e).
Notation b := (gps_b e).
Definition rad (t : R) : R := sqrt (a ^ 2 * cos t ^ 2 + b ^ 2 * sin t ^ 2).
Lemma rad_arg t : 0 < a ^ 2 * cos t ^ 2 + b ^ 2 * sin t ^ 2.
Proof.
  assert (H : 0 < Rmin (a ^ 2) (b ^ 2)) by (apply Rmin_pos; apply pow_lt; assumption).
  pose proof (Rmin_l (a ^ 2) (b ^ 2)) as L. pose proof (Rmin_r (a ^ 2) (b ^ 2)) as L'. set (m := Rmin (a ^ 2) (b ^ 2)) in *.
  pose proof (pow2_ge_0 (cos t)) as C. pose proof (pow2_ge_0 (sin t)) as S. pose proof (sc2 t) as E.
  apply Rlt_le_trans with (m * cos t ^ 2 + m * sin t ^ 2); [rewrite E; lra|]. apply Rplus_le_compat; apply Rmult_le_compat_r; assumption.
Qed.
Lemma rad_pos t : 0 < rad t.
Proof. apply sqrt_lt_R0, rad_arg. Qed.
Lemma rad_sq t : rad t ^ 2 = a ^ 2 * cos t ^ 2 + b ^ 2 * sin t ^ 2.
Proof. rewrite sq_pow. apply sqrt_sqrt. left. apply rad_arg. Qed.
Lemma gps_n_rad t : sqrt (1 - e_squared e * sin t ^ 2) = rad t / a.
Proof.
  unfold e_squared, b_div_a2. replace (1 - (1 - (b / a) ^ 2) * sin t ^ 2) with ((rad t / a) * (rad t / a)).
  - apply sqrt_square. left. apply Rdiv_lt_0_compat; [apply rad_pos|exact Ha].
  - replace (rad t / a * (rad t / a)) with (rad t ^ 2 / a ^ 2) by (field; lra). rewrite rad_sq, sc2. field. lra.
Qed.
Lemma curvature t : a / sqrt (1 - e_squared e * sin t ^ 2) = a ^ 2 / rad t.
Proof. rewrite gps_n_rad. pose proof (rad_pos t). field. split; lra. Qed.
Lemma b_a2 : b_div_a2 e = b ^ 2 / a ^ 2.
Proof. unfold b_div_a2. field. lra. Qed.

(** On the ellipsoid at altitude zero; the altitude is along the normal *)
Lemma surface lat lon : let '(x, y, z) := xyz_from_latlonalt e lat lon 0 in (x / a) ^ 2 + (y / a) ^ 2 + (z / b) ^ 2 = 1.
Proof.
  unfold xyz_from_latlonalt. rewrite curvature, b_a2. pose proof (rad_pos lat) as H. pose proof (rad_sq lat) as E.
  replace (((a ^ 2 / rad lat + 0) * cos lat * cos lon / a) ^ 2 + ((a ^ 2 / rad lat + 0) * cos lat * sin lon / a) ^ 2 +
    ((b ^ 2 / a ^ 2 * (a ^ 2 / rad lat) + 0) * sin lat / b) ^ 2) with ((a ^ 2 * cos lat ^ 2 * (cos lon ^ 2 + sin lon ^ 2) + b ^ 2 * sin lat ^ 2) / rad lat ^ 2) by (field; repeat split; lra).
  rewrite (sc2 lon). replace (1 - sin lon ^ 2 + sin lon ^ 2) with 1 by ring. rewrite Rmult_1_r, <- E. field. lra.
Qed.
Lemma along_normal lat lon alt : xyz_from_latlonalt e lat lon alt =
  (let '(x, y, z) := xyz_from_latlonalt e lat lon 0 in (x + alt * (cos lat * cos lon), y + alt * (cos lat * sin lon), z + alt * sin lat)).
Proof. unfold xyz_from_latlonalt. apply vec_eq; ring. Qed.

(** The point above the site is straight up *)
Lemma p_of lat lon alt : 0 <= (a ^ 2 / rad lat + alt) * cos lat -> let '(x, y, z) := xyz_from_latlonalt e lat lon alt in
  sqrt (x ^ 2 + y ^ 2) = (a ^ 2 / rad lat + alt) * cos lat.
Proof.
  intros H. unfold xyz_from_latlonalt. rewrite curvature. set (p := (a ^ 2 / rad lat + alt) * cos lat) in *.
  replace ((p * cos lon) ^ 2 + (p * sin lon) ^ 2) with (p * p * (cos lon ^ 2 + sin lon ^ 2)) by ring. rewrite sc2. replace (1 - sin lon ^ 2 + sin lon ^ 2) with 1 by ring.
  rewrite Rmult_1_r. apply sqrt_square, H.
Qed.

(** Longitude *)
Lemma longitude_back lat lon alt : - (PI / 2) < lat < PI / 2 -> - PI < lon <= PI -> 0 < a ^ 2 / rad lat + alt ->
  snd (fst (lla_from_xyz e (xyz_from_latlonalt e lat lon alt))) = lon.
Proof.
  intros H1 H2 H3. unfold lla_from_xyz, xyz_from_latlonalt. cbn [fst snd]. rewrite curvature. apply atan2_polar; [|exact H2].
  apply Rmult_lt_0_compat; [exact H3|]. apply cos_gt_0; lra.
Qed.

(** On the ellipsoid *)
Lemma surface_back lat lon : - (PI / 2) < lat < PI / 2 -> - PI < lon <= PI -> lla_from_xyz e (xyz_from_latlonalt e lat lon 0) = (lat, lon, 0).
Proof.
  intros H1 H2. pose proof (rad_pos lat) as Hr. pose proof (rad_sq lat) as Er. pose proof (cos_gt_0 lat ltac:(lra) ltac:(lra)) as Hc.
  assert (Hn : 0 < a ^ 2 / rad lat) by (apply Rdiv_lt_0_compat; [apply pow_lt, Ha|exact Hr]).
  pose proof (p_of lat lon 0) as Hp. pose proof (longitude_back lat lon 0 H1 H2 ltac:(lra)) as Hlon. unfold lla_from_xyz in *.
  unfold xyz_from_latlonalt in *. rewrite curvature in *. cbn [fst snd] in Hlon. rewrite Hp by (apply Rmult_le_pos; lra). clear Hp. rewrite Hlon. clear Hlon. rewrite b_a2.
  set (r := rad lat) in *. set (c := cos lat) in *. set (s := sin lat) in *.
  (* the parametric latitude *)
  assert (Hth : exists th, atan2 ((b ^ 2 / a ^ 2 * (a ^ 2 / r) + 0) * s * a) ((a ^ 2 / r + 0) * c * b) = th /\ sin th = b * s / r /\ cos th = a * c / r).
  { assert (Hu : (b * s / r) ^ 2 + (a * c / r) ^ 2 = 1).
    { replace ((b * s / r) ^ 2 + (a * c / r) ^ 2) with ((a ^ 2 * c ^ 2 + b ^ 2 * s ^ 2) / r ^ 2) by (field; lra). rewrite <- Er. field. lra. }
    set (S := b * s / r) in *. set (C := a * c / r) in *.
    assert (HC : 0 < C) by (unfold C; apply Rdiv_lt_0_compat; [apply Rmult_lt_0_compat; assumption|exact Hr]).
    set (th := asin S). assert (HS : -1 < S < 1). { split; apply Rnot_le_lt; intros Hx; nra. }
    assert (Sth : sin th = S) by (apply sin_asin; lra). pose proof (asin_bound S) as Hbd. pose proof PI_RGT_0 as HPI.
    assert (Cth : cos th = C).
    { pose proof (sc2 th) as E. rewrite Sth in E. assert (Hge : 0 <= cos th) by (apply cos_ge_0; unfold th; lra). apply (Rsqr_inj _ _ Hge); [lra|]. unfold Rsqr. rewrite <- !sq_pow. lra. }
    exists th. split; [|split; [exact Sth|exact Cth]].
    replace ((b ^ 2 / a ^ 2 * (a ^ 2 / r) + 0) * s * a) with ((a * b) * sin th) by (rewrite Sth; unfold S; field; repeat split; lra).
    replace ((a ^ 2 / r + 0) * c * b) with ((a * b) * cos th) by (rewrite Cth; unfold C; field; lra).
    apply atan2_polar; [apply Rmult_lt_0_compat; assumption|]. unfold th. lra. }
  destruct Hth as (th & -> & Sth & Cth). rewrite Sth, Cth.
  assert (Hlat : atan2 ((b ^ 2 / a ^ 2 * (a ^ 2 / r) + 0) * s + e_prime_squared e * b * (b * s / r) ^ 3) ((a ^ 2 / r + 0) * c - e_squared e * a * (a * c / r) ^ 3) = lat).
  { unfold e_prime_squared, e_squared. rewrite b_a2. set (k := a ^ 2 * b ^ 2 / r ^ 3).
    assert (Cs : c ^ 2 = 1 - s ^ 2) by apply sc2.
    replace ((b ^ 2 / a ^ 2 * (a ^ 2 / r) + 0) * s + (1 / (b ^ 2 / a ^ 2) - 1) * b * (b * s / r) ^ 3) with (k * s).
    - replace ((a ^ 2 / r + 0) * c - (1 - b ^ 2 / a ^ 2) * a * (a * c / r) ^ 3) with (k * c).
      + apply atan2_polar; [|lra]. unfold k. apply Rdiv_lt_0_compat; [apply Rmult_lt_0_compat; apply pow_lt; assumption|apply pow_lt; exact Hr].
      + unfold k. replace ((a ^ 2 / r + 0) * c - (1 - b ^ 2 / a ^ 2) * a * (a * c / r) ^ 3) with (a ^ 2 * c / r ^ 3 * (r ^ 2 - (a ^ 2 - b ^ 2) * c ^ 2)) by (field; repeat split; lra).
        rewrite Er. replace (a ^ 2 * c ^ 2 + b ^ 2 * s ^ 2 - (a ^ 2 - b ^ 2) * c ^ 2) with (b ^ 2 * (s ^ 2 + c ^ 2)) by ring. rewrite Cs. replace (s ^ 2 + (1 - s ^ 2)) with 1 by ring. field. lra.
    - unfold k. replace ((b ^ 2 / a ^ 2 * (a ^ 2 / r) + 0) * s + (1 / (b ^ 2 / a ^ 2) - 1) * b * (b * s / r) ^ 3) with (b ^ 2 * s / r ^ 3 * (r ^ 2 + (a ^ 2 - b ^ 2) * s ^ 2)) by (field; repeat split; lra).
      rewrite Er, Cs. replace (a ^ 2 * (1 - s ^ 2) + b ^ 2 * s ^ 2 + (a ^ 2 - b ^ 2) * s ^ 2) with (a ^ 2) by ring. field. lra. }
  rewrite Hlat. rewrite curvature. fold c r. apply vec_eq; [reflexivity|reflexivity|]. field. repeat split; lra.
Qed.
End Ell.

(** For a sphere at every altitude *)
Lemma sphere_back e lat lon alt : 0 < gps_a e -> gps_b e = gps_a e -> 0 < gps_a e + alt -> - (PI / 2) < lat < PI / 2 -> - PI < lon <= PI ->
  lla_from_xyz e (xyz_from_latlonalt e lat lon alt) = (lat, lon, alt).
Proof.
  intros Ha Hb Hh H1 H2. assert (Hb' : 0 < gps_b e) by lra. pose proof (cos_gt_0 lat ltac:(lra) ltac:(lra)) as Hc.
  assert (Hrad : forall t, rad e t = gps_a e).
  { intros t. unfold rad. rewrite Hb, sc2. replace (gps_a e ^ 2 * (1 - sin t ^ 2) + gps_a e ^ 2 * sin t ^ 2) with (gps_a e * gps_a e) by ring. apply sqrt_square. lra. }
  assert (Hn : gps_a e ^ 2 / gps_a e = gps_a e) by (field; lra).
  pose proof (p_of e Ha Hb' lat lon alt) as Hp. pose proof (longitude_back e Ha Hb' lat lon alt H1 H2) as Hlon. rewrite Hrad, Hn in Hp, Hlon. specialize (Hlon Hh).
  unfold lla_from_xyz, xyz_from_latlonalt in *. rewrite (curvature e Ha Hb'), Hrad, Hn in *. cbn [fst snd] in Hlon.
  rewrite Hp by (apply Rmult_le_pos; lra). rewrite Hlon. clear Hp Hlon.
  assert (E1 : b_div_a2 e = 1) by (unfold b_div_a2; rewrite Hb; field; lra). assert (E2 : e_squared e = 0) by (unfold e_squared; rewrite E1; ring).
  assert (E3 : e_prime_squared e = 0) by (unfold e_prime_squared; rewrite E1; field). rewrite E1, E3. rewrite E2 at 1 2.
  match goal with |- context [atan2 (?x + 0 * ?y * ?w) (?z - 0 * ?u * ?v)] => assert (Hlat : atan2 (x + 0 * y * w) (z - 0 * u * v) = lat) end.
  { replace ((1 * gps_a e + alt) * sin lat + 0 * gps_b e * _) with ((gps_a e + alt) * sin lat) by ring.
    match goal with |- atan2 _ ?q = _ => replace q with ((gps_a e + alt) * cos lat) by ring end. apply atan2_polar; lra. }
  rewrite Hlat. clear Hlat. apply vec_eq; [reflexivity|reflexivity|]. rewrite (curvature e Ha Hb'), Hrad, Hn. field. lra.
Qed.

(** At a pole the altitude is minus the radius of curvature *)
Lemma cos_atan2_pole y : 0 < y -> atan2 y 0 = PI / 2.
Proof. intros H. unfold atan2. destruct (Rlt_dec 0 0); [lra|]. destruct (Rlt_dec 0 0); [lra|]. destruct (Rlt_dec 0 y); [reflexivity|lra]. Qed.
Lemma pole e z : 0 < gps_a e -> 0 < gps_b e -> 0 < z -> 0 < z + e_prime_squared e * gps_b e ->
  lla_from_xyz e (0, 0, z) = (PI / 2, 0, - (gps_a e ^ 2 / gps_b e)).
Proof.
  intros Ha Hb Hz Hy. unfold lla_from_xyz. replace (sqrt (0 ^ 2 + 0 ^ 2)) with 0 by (replace (0 ^ 2 + 0 ^ 2) with 0 by ring; symmetry; apply sqrt_0).
  rewrite Rmult_0_l. rewrite (cos_atan2_pole (z * gps_a e)) by (apply Rmult_lt_0_compat; assumption). rewrite sin_PI2, cos_PI2.
  replace (0 - e_squared e * gps_a e * 0 ^ 3) with 0 by ring. replace (z + e_prime_squared e * gps_b e * 1 ^ 3) with (z + e_prime_squared e * gps_b e) by ring.
  rewrite cos_atan2_pole by exact Hy. apply vec_eq; [reflexivity| |].
  - unfold atan2. destruct (Rlt_dec 0 0); [lra|]. destruct (Rlt_dec 0 0); [lra|]. reflexivity.
  - rewrite curvature by assumption. unfold rad. rewrite sin_PI2, cos_PI2. replace (gps_a e ^ 2 * 0 ^ 2 + gps_b e ^ 2 * 1 ^ 2) with (gps_b e * gps_b e) by ring.
    rewrite sqrt_square by lra. unfold Rdiv. rewrite Rmult_0_l. ring.
Qed.

(** * Spherical coordinates *)
Lemma atan2_bound y x : - PI < atan2 y x <= PI.
Proof.
  pose proof PI_RGT_0. unfold atan2. pose proof (atan_bound (y / x)) as B.
  destruct (Rlt_dec 0 x); [lra|]. destruct (Rlt_dec x 0) as [Hx|Hx].
  - destruct (Rle_dec 0 y) as [Hy|Hy].
    + assert (y / x <= 0). { unfold Rdiv. pose proof (Rinv_lt_0_compat x Hx). nra. }
      assert (atan (y / x) <= 0). { destruct (Req_dec (y / x) 0) as [->|Hn]; [rewrite atan_0; lra|]. left. rewrite <- atan_0. apply atan_increasing. lra. } lra.
    + assert (0 < y / x). { unfold Rdiv. pose proof (Rinv_lt_0_compat x Hx). nra. } assert (0 < atan (y / x)) by (rewrite <- atan_0; apply atan_increasing; lra). lra.
  - destruct (Rlt_dec 0 y); [lra|]. destruct (Rlt_dec y 0); lra.
Qed.
(** Every vector of the plane is given by its angle *)
Lemma polar_exists x y : exists t, x = sqrt (x ^ 2 + y ^ 2) * cos t /\ y = sqrt (x ^ 2 + y ^ 2) * sin t /\ - PI < t <= PI.
Proof.
  pose proof PI_RGT_0 as HPI. set (r := sqrt (x ^ 2 + y ^ 2)).
  assert (Hr2 : r * r = x ^ 2 + y ^ 2) by (apply sqrt_sqrt; pose proof (pow2_ge_0 x); pose proof (pow2_ge_0 y); lra).
  assert (Hr0 : 0 <= r) by apply sqrt_pos.
  destruct (Req_dec r 0) as [Hz|Hz].
  - rewrite Hz in *. exists 0. assert (x ^ 2 = 0) by (pose proof (pow2_ge_0 x); pose proof (pow2_ge_0 y); lra). assert (y ^ 2 = 0) by (pose proof (pow2_ge_0 x); pose proof (pow2_ge_0 y); lra).
    assert (x = 0) by nra. assert (y = 0) by nra. repeat split; lra.
  - assert (Hr : 0 < r) by lra. set (c := x / r). assert (Hc : -1 <= c <= 1).
    { assert (Hcc : c * c <= 1). { unfold c. replace (x / r * (x / r)) with (x ^ 2 / (r * r)) by (field; lra). apply Rmult_le_reg_r with (r * r); [nra|]. unfold Rdiv. rewrite Rmult_assoc, Rinv_l by nra. pose proof (pow2_ge_0 y). lra. }
      nra. }
    pose proof (acos_bound c) as B. pose proof (cos_acos c Hc) as C.
    assert (Hs : sin (acos c) ^ 2 = (y / r) ^ 2).
    { pose proof (sc2 (acos c)) as E. rewrite C in E. unfold c in E at 1. replace ((y / r) ^ 2) with (1 - (x / r) ^ 2); [lra|]. replace 1 with ((x ^ 2 + y ^ 2) / (r * r)) by (rewrite <- Hr2; field; lra). field. lra. }
    assert (Hs0 : 0 <= sin (acos c)) by (apply sin_ge_0; lra).
    destruct (Rle_lt_dec 0 y) as [Hy|Hy].
    + exists (acos c). split; [rewrite C; unfold c; field; lra|]. split; [|lra].
      assert (Hd : 0 <= y / r) by (apply Rmult_le_pos; [exact Hy|left; apply Rinv_0_lt_compat, Hr]). assert (E : sin (acos c) = y / r) by (apply Rsqr_inj; [exact Hs0|exact Hd|]; unfold Rsqr; rewrite <- !sq_pow; exact Hs).
      rewrite E. field. lra.
    + exists (- acos c). rewrite cos_neg, sin_neg. split; [rewrite C; unfold c; field; lra|].
      assert (Hd : 0 < - y / r) by (apply Rdiv_lt_0_compat; lra). assert (E : sin (acos c) = - y / r) by (apply Rsqr_inj; [exact Hs0|lra|]; unfold Rsqr; rewrite <- !sq_pow, Hs; field; lra).
      split; [rewrite E; field; lra|]. split; [|lra]. destruct (Req_dec (acos c) PI) as [Hp|Hp]; [|lra]. exfalso. rewrite Hp, sin_PI in E. lra.
Qed.
Lemma polar_atan2 x y : x = sqrt (x ^ 2 + y ^ 2) * cos (atan2 y x) /\ y = sqrt (x ^ 2 + y ^ 2) * sin (atan2 y x).
Proof.
  destruct (polar_exists x y) as (t & Hx & Hy & Ht). set (r := sqrt (x ^ 2 + y ^ 2)) in *. destruct (Req_dec r 0) as [Hz|Hz].
  - rewrite Hz in *. lra.
  - assert (0 < r) by (pose proof (sqrt_pos (x ^ 2 + y ^ 2)); unfold r in *; lra).
    assert (E : atan2 y x = t). { rewrite Hx, Hy. apply atan2_polar; assumption. } rewrite E. split; assumption.
Qed.

Lemma mod_turn t : - PI < t <= PI -> mod_R t (2 * PI) = (if Rlt_dec t 0 then t + 2 * PI else t).
Proof.
  intros [H1 H2]. pose proof PI_RGT_0 as HPI. unfold mod_R. pose proof (base_Int_part (t / (2 * PI))) as [B1 B2]. set (k := Int_part (t / (2 * PI))) in *.
  assert (Q : t / (2 * PI) * (2 * PI) = t) by (field; lra).
  destruct (Rlt_dec t 0) as [Hl|Hl].
  - assert (t / (2 * PI) < 0) by (apply Rmult_lt_reg_r with (2 * PI); lra). assert (-1 < t / (2 * PI)) by (apply Rmult_lt_reg_r with (2 * PI); lra).
    assert (k = (-1)%Z). { assert (A1 : IZR k < 0) by lra. assert (A2 : -2 < IZR k) by lra. apply lt_IZR in A1, A2. lia. } rewrite H3. simpl. lra.
  - assert (0 <= t / (2 * PI)) by (apply Rmult_le_reg_r with (2 * PI); lra). assert (t / (2 * PI) < 1) by (apply Rmult_lt_reg_r with (2 * PI); lra).
    assert (k = 0%Z). { assert (A1 : IZR k < 1) by lra. assert (A2 : -1 < IZR k) by lra. apply lt_IZR in A1, A2. lia. } rewrite H3. simpl. lra.
Qed.

Lemma cart_polar_back r lon lat : 0 < r -> 0 <= lon < 2 * PI -> - (PI / 2) < lat < PI / 2 ->
  cart3_to_polar2 (let '(x, y, z) := polar2_to_cart3 lon lat in (r * x, r * y, r * z)) = (lon, lat).
Proof.
  intros Hr Hlon Hlat. unfold polar2_to_cart3, cart3_to_polar2. pose proof PI_RGT_0 as HPI. pose proof (cos_gt_0 lat ltac:(lra) ltac:(lra)) as Hc.
  assert (Hrc : 0 < r * cos lat) by (apply Rmult_lt_0_compat; assumption).
  replace (r * (sin lon * cos lat)) with (r * cos lat * sin lon) by ring. replace (r * (cos lon * cos lat)) with (r * cos lat * cos lon) by ring.
  f_equal.
  - destruct (Rle_lt_dec lon PI) as [Hl|Hl].
    + rewrite atan2_polar by (lra || assumption). rewrite mod_turn by lra. destruct (Rlt_dec lon 0); [lra|reflexivity].
    + replace (sin lon) with (sin (lon - 2 * PI)) by (rewrite sin_minus, sin_2PI, cos_2PI; ring). replace (cos lon) with (cos (lon - 2 * PI)) by (rewrite cos_minus, sin_2PI, cos_2PI; ring).
      rewrite atan2_polar by (lra || assumption). rewrite mod_turn by lra. destruct (Rlt_dec (lon - 2 * PI) 0); [ring|lra].
  - replace ((r * cos lat * cos lon) ^ 2 + (r * cos lat * sin lon) ^ 2) with ((r * cos lat) * (r * cos lat) * (cos lon ^ 2 + sin lon ^ 2)) by ring. rewrite sc2.
    replace (1 - sin lon ^ 2 + sin lon ^ 2) with 1 by ring. rewrite Rmult_1_r, sqrt_square by lra. apply atan2_polar; [exact Hr|lra].
Qed.
Lemma mod_trig t : - PI < t <= PI -> sin (mod_R t (2 * PI)) = sin t /\ cos (mod_R t (2 * PI)) = cos t.
Proof. intros H. rewrite mod_turn by exact H. destruct (Rlt_dec t 0); [|split; reflexivity]. rewrite sin_plus, cos_plus, sin_2PI, cos_2PI. split; ring. Qed.
Lemma polar_cart_back v : let '(lon, lat) := cart3_to_polar2 v in
  0 <= lon < 2 * PI /\ - (PI / 2) <= lat <= PI / 2 /\ v = (let '(x, y, z) := polar2_to_cart3 lon lat in (len3 v * x, len3 v * y, len3 v * z)).
Proof.
  destruct v as [[x y] z]. unfold cart3_to_polar2, polar2_to_cart3. pose proof PI_RGT_0 as HPI.
  pose proof (atan2_bound y x) as B. destruct (mod_trig _ B) as [M1 M2]. destruct (polar_atan2 x y) as [X Y].
  set (p := sqrt (x ^ 2 + y ^ 2)) in *. destruct (polar_atan2 p z) as [P Q].
  assert (Hp : 0 <= p) by apply sqrt_pos.
  assert (Hl : sqrt (p ^ 2 + z ^ 2) = len3 (x, y, z)). { unfold len3. f_equal. unfold p. rewrite (sq_pow (sqrt _)), sqrt_sqrt by (pose proof (pow2_ge_0 x); pose proof (pow2_ge_0 y); lra). ring. }
  rewrite Hl in P, Q.
  split; [rewrite mod_turn by exact B; destruct (Rlt_dec (atan2 y x) 0); lra|]. split.
  - pose proof (atan_bound (z / p)) as A. unfold atan2. destruct (Rlt_dec 0 p); [lra|]. destruct (Rlt_dec p 0); [lra|]. destruct (Rlt_dec 0 z); [lra|]. destruct (Rlt_dec z 0); lra.
  - rewrite M1, M2. apply vec_eq.
    + rewrite X at 1. rewrite P at 1. ring.
    + rewrite Y at 1. rewrite P at 1. ring.
    + exact Q.
Qed.
