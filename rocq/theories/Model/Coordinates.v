(** Coordinate transforms, /repo/src/pyuvdata/utils/coordinates.py and
    coordinates.pyx, over the real numbers (no rounding).  A point is (x, y, z); an
    array of shape (Npts, 3) is a list of points. *)
From Coq Require Import List Reals Bool.
From Verif Require Import Lib.Py.
Import ListNotations.
Open Scope R_scope.

Definition vec := (R * R * R)%type.
Definition norm (v : vec) : R := let '(x, y, z) := v in sqrt (x * x + y * y + z * z).

(** coordinates.py:191-220, 223-249 *)
Definition rot_z (angle : R) (v : vec) : vec :=
  let '(x, y, z) := v in
  (cos angle * x + -1 * sin angle * y + 0 * z, sin angle * x + cos angle * y + 0 * z, 0 * x + 0 * y + 1 * z).
Definition rotECEF_from_ECEF (xyz : list vec) (longitude : R) : list vec := map (rot_z (-1 * longitude)) xyz.
Definition ECEF_from_rotECEF (xyz : list vec) (longitude : R) : list vec := map (rot_z longitude) xyz.

(** coordinates.pyx:20-29 *)
Record ellipsoid := mkEll { gps_a : R; gps_b : R }.
Definition b_div_a2 (e : ellipsoid) : R := (gps_b e / gps_a e) ^ 2.
Definition e_squared (e : ellipsoid) : R := 1 - b_div_a2 e.

(** coordinates.pyx:96-126, one point *)
Definition xyz_from_latlonalt (e : ellipsoid) (lat lon alt : R) : vec :=
  let gps_n := gps_a e / sqrt (1 - e_squared e * sin lat ^ 2) in
  ((gps_n + alt) * cos lat * cos lon, (gps_n + alt) * cos lat * sin lon, (b_div_a2 e * gps_n + alt) * sin lat).

(** coordinates.pyx:132-179, one point *)
Definition enu_from_ecef1 (e : ellipsoid) (lat lon alt : R) (v : vec) : vec :=
  let '(x, y, z) := v in
  let '(cx, cy, cz) := xyz_from_latlonalt e lat lon alt in
  let x := x - cx in let y := y - cy in let z := z - cz in
  (- sin lon * x + cos lon * y,
   - sin lat * cos lon * x - sin lat * sin lon * y + cos lat * z,
   cos lat * cos lon * x + cos lat * sin lon * y + sin lat * z).
(** coordinates.pyx:185-229, one point *)
Definition ecef_from_enu1 (e : ellipsoid) (lat lon alt : R) (v : vec) : vec :=
  let '(ee, nn, uu) := v in
  let '(cx, cy, cz) := xyz_from_latlonalt e lat lon alt in
  (- sin lat * cos lon * nn - sin lon * ee + cos lat * cos lon * uu + cx,
   - sin lat * sin lon * nn + cos lon * ee + cos lat * sin lon * uu + cy,
   cos lat * nn + sin lat * uu + cz).

(** coordinates.py:252-374: the ITRS frame, whose [radii] are 6.35e6 and 6.39e6, or
    the MCMF frame with an ellipsoid of the Moon, 1.71e6 and 1.75e6.  The location
    is given by latitude, longitude and altitude. *)
Definition ENU_from_ECEF (radii : R * R) (e : ellipsoid) (lat lon alt : R) (xyz : list vec) : result (list vec) :=
  if existsb (fun v => if Rle_dec (norm v) (fst radii) then true else if Rge_dec (norm v) (snd radii) then true else false) xyz
  then Err ValueError
  else Ok (map (enu_from_ecef1 e lat lon alt) xyz).
(** coordinates.py:377-482 *)
Definition ECEF_from_ENU (e : ellipsoid) (lat lon alt : R) (enu : list vec) : list vec := map (ecef_from_enu1 e lat lon alt) enu.

(** phasing.py:27-60, 63-92 and phasing.pyx:18-95 *)
Definition old_uvw_calc1 (ra dec : R) (v : vec) : vec :=
  let '(x, y, z) := v in
  (- sin ra * x + cos ra * y,
   - sin dec * cos ra * x - sin dec * sin ra * y + cos dec * z,
   cos dec * cos ra * x + cos dec * sin ra * y + sin dec * z).
Definition undo_old_uvw_calc1 (ra dec : R) (v : vec) : vec :=
  let '(u, v, w) := v in
  (- sin ra * u - sin dec * cos ra * v + cos dec * cos ra * w,
   cos ra * u - sin dec * sin ra * v + cos dec * sin ra * w,
   cos dec * v + sin dec * w).
Definition old_uvw_calc (ra dec : R) (l : list vec) : list vec := map (old_uvw_calc1 ra dec) l.
Definition undo_old_uvw_calc (ra dec : R) (l : list vec) : list vec := map (undo_old_uvw_calc1 ra dec) l.

(** C's atan2, for real arguments (no signed zeros) *)
Definition atan2 (y x : R) : R :=
  if Rlt_dec 0 x then atan (y / x)
  else if Rlt_dec x 0 then (if Rle_dec 0 y then atan (y / x) + PI else atan (y / x) - PI)
  else if Rlt_dec 0 y then PI / 2 else if Rlt_dec y 0 then - (PI / 2) else 0.

(** coordinates.pyx:25-27 *)
Definition e_prime_squared (e : ellipsoid) : R := 1 / b_div_a2 e - 1.
(** coordinates.pyx:62-93, one point *)
Definition lla_from_xyz (e : ellipsoid) (v : vec) : vec :=
  let '(x, y, z) := v in
  let gps_p := sqrt (x ^ 2 + y ^ 2) in
  let gps_theta := atan2 (z * gps_a e) (gps_p * gps_b e) in
  let lat := atan2 (z + e_prime_squared e * gps_b e * sin gps_theta ^ 3) (gps_p - e_squared e * gps_a e * cos gps_theta ^ 3) in
  (lat, atan2 y x, gps_p / cos lat - gps_a e / sqrt (1 - e_squared e * sin lat ^ 2)).
(** coordinates.py:44-128; [bounds] are 6.35e6 and 6.39e6 for ITRS, 1.71e6 and 1.75e6
    for MCMF *)
Definition LatLonAlt_from_XYZ (bounds : R * R) (check_acceptability : bool) (e : ellipsoid) (xyz : list vec) : result (list vec) :=
  if check_acceptability && negb (forallb (fun v => if Rle_dec (fst bounds) (norm v) then if Rle_dec (norm v) (snd bounds) then true else false else false) xyz)
  then Err ValueError
  else Ok (map (lla_from_xyz e) xyz).
(** coordinates.py:131-188: latitudes, longitudes and altitudes *)
Definition XYZ_from_LatLonAlt (e : ellipsoid) (lat lon alt : list R) : result (list vec) :=
  if negb (Nat.eqb (length lon) (length lat)) then Err ValueError
  else if negb (Nat.eqb (length alt) (length lat)) then Err ValueError
  else Ok (map (fun p => xyz_from_latlonalt e (fst p) (fst (snd p)) (snd (snd p))) (combine lat (combine lon alt))).

(** phasing.py:95-140, one direction *)
Definition polar2_to_cart3 (lon lat : R) : vec := (cos lon * cos lat, sin lon * cos lat, sin lat).
(** np.mod *)
Definition mod_R (x m : R) : R := x - m * IZR (Int_part (x / m)).
(** phasing.py:143-184, one vector *)
Definition cart3_to_polar2 (v : vec) : R * R :=
  let '(x, y, z) := v in (mod_R (atan2 y x) (2 * PI), atan2 z (sqrt (x ^ 2 + y ^ 2))).
