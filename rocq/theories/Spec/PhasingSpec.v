(** What phasing should do to visibilities and baseline coordinates.  Only the shape of
    objects and of catalogs is taken from the model. *)
From Coq Require Import List ZArith QArith Reals Bool String.
From Verif Require Import Lib.Py Lib.Cube Model.PhaseCenter Model.Phase Spec.PhaseSpec Spec.CoordinatesSpec.
Import ListNotations.
Open Scope R_scope.
Notation length := List.length.

(** At least one baseline-time, one value for each of them, and rows that refer to
    catalog entries *)
Definition whole (s : pobj) : Prop :=
  pc_consistent (o_pc s) /\ o_Nblts s <> 0%nat /\
  length (o_time s) = o_Nblts s /\ length (o_lst s) = o_Nblts s /\ length (o_ant1 s) = o_Nblts s /\ length (o_ant2 s) = o_Nblts s /\
  length (o_uvw s) = o_Nblts s /\ length (o_ra s) = o_Nblts s /\ length (o_dec s) = o_Nblts s /\ length (o_pa s) = o_Nblts s.

Definition times_c (a b : R * R) : R * R := (fst a * fst b - snd a * snd b, fst a * snd b + snd a * fst b).
(** e^(-2 pi i x) *)
Definition turn_back (x : R) : R * R := (cos (2 * PI * x), - sin (2 * PI * x)).
(** The speed of light in m/s *)
Definition speed_of_light : R := 299792458.

(** The w coordinate of row [i] in wavelengths at frequency [j] *)
Definition w_waves (s : pobj) (i j : nat) : R := snd (nth i (o_uvw s) origin) * nth j (o_freq s) 0 / speed_of_light.

Definition projected (s : pobj) (i : nat) : Prop := exists e, points (o_pc s) i e /\ ~ is_unprojected e.
Definition unprojected (s : pobj) (i : nat) : Prop := exists e, points (o_pc s) i e /\ is_unprojected e.

(** [v] is what was measured for row [i], frequency [j] and polarization [p]: the
    visibility itself if the row is not projected; if it is, the visibility is [v] turned
    back by the w coordinate the object states. *)
Definition measured (s : pobj) (i j p : nat) (v : R * R) : Prop :=
  exists d, o_data s = Some d /\
    ((unprojected s i /\ d i j p = v) \/ (projected s i /\ d i j p = times_c v (turn_back (w_waves s i j)))).

(** The visibility of row [i], frequency [j] and polarization [p] *)
Definition vis_of (s : pobj) (i j p : nat) : option (R * R) := match o_data s with None => None | Some d => Some (d i j p) end.

(** Row [i] is described in the same way by both objects *)
Definition same_row (s s' : pobj) (i : nat) : Prop :=
  (forall j p, vis_of s' i j p = vis_of s i j p) /\
  nth i (o_uvw s') origin = nth i (o_uvw s) origin /\ nth i (o_ra s') 0 = nth i (o_ra s) 0 /\
  nth i (o_dec s') 0 = nth i (o_dec s) 0 /\ nth i (o_pa s') 0 = nth i (o_pa s) 0 /\
  forall e, points (o_pc s) i e -> points (o_pc s') i e.

(** The arrays phasing never touches *)
Definition same_setting (s s' : pobj) : Prop :=
  o_time s' = o_time s /\ o_lst s' = o_lst s /\ o_ant1 s' = o_ant1 s /\ o_ant2 s' = o_ant2 s /\ o_freq s' = o_freq s /\
  o_nums s' = o_nums s /\ o_lat s' = o_lat s /\ o_lon s' = o_lon s /\ o_Nblts s' = o_Nblts s /\
  (o_data s' = None <-> o_data s = None).

(** The name is not in the catalog, or it is the name of an entry with this position *)
Definition name_fits (s : pobj) (name : string) (p : coords) : Prop :=
  (forall k e, stored (o_pc s) k e -> e_name e <> name) \/
  (exists k e, stored (o_pc s) k e /\ e_name e = name /\ same_place p (e_coords e) /\ c_epoch p <> None).

(** The selected rows *)
Definition in_mask (s : pobj) (mask : option (list bool)) (i : nat) : Prop := chosen (o_Nblts s) (mask_of mask) i.

(** All rows are projected, or none is *)
Definition uniform (s : pobj) : Prop :=
  (forall i, (i < o_Nblts s)%nat -> projected s i) \/ (forall i, (i < o_Nblts s)%nat -> unprojected s i).

(** One successful phasing operation on whole objects; catalogs ids are taken from sets in
    any order *)
Inductive phasing_step : pobj -> pobj -> Prop :=
| Ph_phase sky junk pop name p ant mask cleanup s s' : picks pop -> name_fits s name p ->
    phase sky junk pop name p false ant mask cleanup s = Ok s' -> phasing_step s s'
| Ph_unproject junk pop ant name s s' : picks pop ->
    unproject_phase junk pop ant None name s = Ok s' -> phasing_step s s'
| Ph_uvws junk s s' : uniform s ->
    set_uvws_from_antenna_positions junk true s = Ok s' -> phasing_step s s'
| Ph_positions junk new s s' : uniform s ->
    update_antenna_positions junk new false true s = Ok s' -> phasing_step s s'.
Inductive phasing_history : pobj -> pobj -> Prop :=
| PhH_nil s : phasing_history s s
| PhH_cons s1 s2 s3 : phasing_step s1 s2 -> phasing_history s2 s3 -> phasing_history s1 s3.

(** [b] is the baseline of row [i]: the position of its second antenna minus that of its
    first *)
Definition baseline_of (s : pobj) (i : nat) (b : point) : Prop :=
  exists k1 k2, nth_error (o_nums s) k1 = Some (nth i (o_ant1 s) 0%Z) /\ nth_error (o_nums s) k2 = Some (nth i (o_ant2 s) 0%Z) /\
    b = minus3 (nth k2 (o_pos s) origin) (nth k1 (o_pos s) origin).
(** The coordinates of row [i] are those of baseline [b] towards the apparent place, in the
    frame, the object states for it *)
Definition placed (s : pobj) (i : nat) (b : point) : Prop :=
  nth i (o_uvw s) origin =
  uvw_of (nth i (o_lst s) 0 - nth i (o_ra s) 0 - o_lon s) (nth i (o_dec s) 0) (nth i (o_pa s) 0) b.
(** The place of unprojected rows is the zenith *)
Definition at_zenith (s : pobj) (i : nat) : Prop :=
  nth i (o_ra s) 0 = nth i (o_lst s) 0 /\ nth i (o_dec s) 0 = o_lat s /\ nth i (o_pa s) 0 = 0.
Definition zeniths (s : pobj) : Prop := forall i, (i < o_Nblts s)%nat -> unprojected s i -> at_zenith s i.

(** Antenna numbers are distinct, every antenna has a position, and rows name antennas *)
Definition antennas_ok (s : pobj) : Prop :=
  NoDup (o_nums s) /\ length (o_nums s) = length (o_pos s) /\
  (forall a, In a (o_ant1 s) -> In a (o_nums s)) /\ (forall a, In a (o_ant2 s) -> In a (o_nums s)).

(** Of the rows [P], those at the same hour angle and declination have the same position angle *)
Definition angles_agree (P : nat -> Prop) (s : pobj) : Prop :=
  forall i k, P i -> P k -> nth i (o_lst s) 0 - nth i (o_ra s) 0 = nth k (o_lst s) 0 - nth k (o_ra s) 0 ->
    nth i (o_dec s) 0 = nth k (o_dec s) 0 -> nth i (o_pa s) 0 = nth k (o_pa s) 0.
(** Rows of the same time have the same LST *)
Definition lst_of_time (s : pobj) : Prop :=
  forall i k, (i < o_Nblts s)%nat -> (k < o_Nblts s)%nat -> nth i (o_time s) 0 = nth k (o_time s) 0 -> nth i (o_lst s) 0 = nth k (o_lst s) 0.

(** Every row has the coordinates of its baseline, and unprojected rows are at the zenith *)
Definition coords_right (s : pobj) : Prop :=
  zeniths s /\ forall i b, (i < o_Nblts s)%nat -> baseline_of s i b -> placed s i b.

Inductive coords_step : pobj -> pobj -> Prop :=
| Co_phase sky junk pop name p ant mask cleanup s s' : picks pop -> name_fits s name p ->
    phase sky junk pop name p false ant mask cleanup s = Ok s' ->
    (is_type "unprojected" p = true -> c_frame p = Some "altaz"%string /\ forall k e, stored (o_pc s) k e -> e_name e <> name) ->
    (ant = true -> angles_agree (in_mask s mask) s') -> coords_step s s'
| Co_unproject junk pop ant name s s' : picks pop ->
    unproject_phase junk pop ant None name s = Ok s' -> coords_step s s'
| Co_uvws junk upd s s' : angles_agree (fun i => (i < o_Nblts s)%nat) s ->
    set_uvws_from_antenna_positions junk upd s = Ok s' -> coords_step s s'
| Co_positions junk new delta upd s s' : angles_agree (fun i => (i < o_Nblts s)%nat) s ->
    update_antenna_positions junk new delta upd s = Ok s' -> coords_step s s'.
Inductive coords_history : pobj -> pobj -> Prop :=
| Ch_none s : coords_history s s
| Ch_step s1 s2 s3 : coords_step s1 s2 -> coords_history s2 s3 -> coords_history s1 s3.

(** The position asked for: sidereal unless a type is given; the default equinox is 1950 for
    FK4 and 2000 for other frames *)
Definition position_of (p : coords) : coords :=
  mkcoords (Some (match c_type p with Some t => t | None => "sidereal"%string end)) (c_lon p) (c_lat p) (c_frame p)
    (match c_epoch p with
     | Some e => Some e
     | None => if type_in (c_frame p) ["fk4"; "fk4noeterms"]%string then Some (1950 # 1)%Q else Some (2000 # 1)%Q
     end)
    (c_times p) (c_pm_ra p) (c_pm_dec p) (c_dist p) (c_vrad p).
