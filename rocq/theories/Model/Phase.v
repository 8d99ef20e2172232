(** Phasing: /repo/src/pyuvdata/uvdata/uvdata.py:4238-5069 over the real numbers.
    The catalog is the one of Model/PhaseCenter.v and baseline coordinates those of
    Model/Rotation.v.  Flags, weights and everything else these methods leave alone are
    left out, and so are warnings. *)
From Coq Require Import List ZArith Reals Bool Arith String QArith.
From Verif Require Import Lib.Py Lib.Np Lib.Dict Lib.Cube Model.PhaseCenter Model.Coordinates Model.Rotation.
Import ListNotations.
Open Scope list_scope.
Open Scope R_scope.
Notation length := List.length.

Definition cx := (R * R)%type.
Definition cx_mul (a b : cx) : cx := (fst a * fst b - snd a * snd b, fst a * snd b + snd a * fst b).
(** [np.exp(1j * a)] *)
Definition exp_i (a : R) : cx := (cos a, sin a).
(** [const.c.to_value("m/s")] *)
Definition const_c : R := 299792458.

(** The attributes phasing works on.  [o_data] is None for a metadata-only object. *)
Record pobj := mkP {
  o_pc : pcobj; o_time : list R; o_lst : list R; o_ant1 : list Z; o_ant2 : list Z;
  o_uvw : list vec; o_ra : list R; o_dec : list R; o_pa : list R;
  o_freq : list R; o_data : option (cube cx);
  o_pos : list vec; o_nums : list Z; o_lat : R; o_lon : R }.
Definition o_Nblts (s : pobj) : nat := length (pc_ids (o_pc s)).
Definition w_of (v : vec) : R := snd v.

(** The w-values of one row: a float or an array with one value is the same for all *)
Definition w_at (a : amount) (i : nat) : R :=
  match a with ANone => 0 | ANum r => r | AArr [r] => r | AArr l => nth i l 0 end.
Definition shape_ok (n : nat) (a : amount) : bool :=
  match a with ANone => false | ANum _ => true | AArr l => Nat.eqb (length l) 1 || Nat.eqb (length l) n end.

(** uvdata.py:4238-4316: the new data *)
Definition apply_w_proj (new_w old_w : amount) (mask : row_mask) (s : pobj) : result (option (cube cx)) :=
  match o_data s with
  | None => Ok None
  | Some d =>
      do sel <- row_bools (o_Nblts s) mask;
      if forallb negb sel then Ok (Some d)
      else if negb (shape_ok (o_Nblts s) old_w && shape_ok (o_Nblts s) new_w) then Err IndexError
      else Ok (Some (fun i j p : nat =>
        if nth i sel false
        then cx_mul (d i j p) (exp_i ((-1 * 2 * PI) * ((w_at new_w i - w_at old_w i) * (1 / const_c) * nth j (o_freq s) 0)))
        else d i j p))
  end.

(** [old[sel] = new] for a boolean mask; an array of one row is assigned to all *)
Fixpoint put {A} (sel : list bool) (new old : list A) : list A :=
  match sel, old with
  | b :: sel, x :: old => if b then match new with y :: new => y :: put sel new old | [] => x :: put sel [] old end
                          else x :: put sel new old
  | _, _ => old
  end.
Definition count (sel : list bool) : nat := length (filter (fun b => b) sel).
Definition assign_rows {A} (sel : list bool) (new old : list A) : result (list A) :=
  if Nat.eqb (length new) (count sel) then Ok (put sel new old)
  else match new with [x] => Ok (put sel (repeat x (count sel)) old) | _ => Err ValueError end.

(** The mask of rows to work on (uvdata.py:4344-4351, 4759-4767); that its elements are
    booleans is part of its type *)
Definition mask_rows (n : nat) (mask : option (list bool)) : result (list bool) :=
  match mask with None => Ok (repeat true n) | Some m => if Nat.eqb (length m) n then Ok m else Err IndexError end.

(** What astropy computes: apparent right ascension and declination of a catalog position
    at a time (with its LST), and the position angle of a frame at a time towards a place.
    phasing.py:2041-2256 and :1572-1700 call it once for every unique time. *)
Record skymap := mkSky {
  app_of : coords -> R -> R -> R * R;
  pa_of : option string -> option Q -> R -> R -> R -> R }.

(** phasing.py:2165, 2171: the LST of the first record with that time *)
Fixpoint first_lst (times lsts : list R) (t : R) : R :=
  match times, lsts with
  | u :: times, l :: lsts => if Req_EM_T u t then l else first_lst times lsts t
  | _, _ => 0
  end.
(** phasing.py:2160-2256 *)
Definition calc_app_coords (sky : skymap) (lat : R) (q : coords) (times lsts : list R) : list (R * R) :=
  map (fun t => let l := first_lst times lsts t in
                if type_in (c_type q) ["unprojected"%string] then (l, lat) else app_of sky q t l) times.

(** uvdata.py:4527-4528 *)
Definition fill_epoch (p : coords) : coords :=
  mkcoords (c_type p) (c_lon p) (c_lat p) (c_frame p)
    (match c_epoch p with
     | None => if type_in (c_type p) ["unprojected"%string] then None
               else if type_in (c_frame p) ["fk4"; "fk4noeterms"]%string then Some (1950 # 1)%Q else Some (2000 # 1)%Q
     | e => e end)
    (c_times p) (c_pm_ra p) (c_pm_dec p) (c_dist p) (c_vrad p).
(** uvdata.py:4424-4513 with lookup_name=True: the entry of that name.  The lookup at
    JPL-Horizons is not modelled. *)
Definition lookup_request (name : string) (p : coords) (s : pcobj) : result (option Z * coords * string) :=
  match look_for_name (pc_cat s) name with
  | [] => if is_none (c_type p) || type_in (c_type p) ["ephem"%string] then Err Undefined else Err ValueError
  | [k] => do e <- cat_get k (pc_cat s); Ok (Some k, fill_epoch (e_coords e), e_info e)
  | _ => Err ValueError
  end.
(** uvdata.py:4806-4823, 4857-4865 with lookup_name=True: the effect on the catalog *)
Definition lookup_catalog (pop : list Z -> Z) (name : string) (p : coords) (mask : option (list bool)) (cleanup : bool)
    (s : pcobj) : result pcobj :=
  do (req, info) <- lookup_request name p s;
  let '(id, q) := req in
  do sel <- mask_rows (length (pc_ids s)) mask;
  do (s, k) <- add_phase_center pop name info q true id s;
  let s := mkpc (pc_cat s) (pc_n s) (assign_ids sel k (pc_ids s)) in
  if cleanup then clear_unused_phase_centers s else Ok s.

(** The arguments of calc_uvw shared by the methods *)
Definition uvw_call (ra dec pa : option (list R)) (lst : list R) (uvw : list vec) (pos : list vec) (a1 a2 : list Z) (s : pobj) : uvw_args :=
  {| app_ra := ra; app_dec := dec; frame_pa := pa; lst_array := Some lst; uvw_array := Some uvw;
     antenna_positions := Some pos; antenna_numbers := Some (o_nums s); ant_1 := Some a1; ant_2 := Some a2;
     old_app_ra := Some (o_ra s); old_app_dec := Some (o_dec s); old_frame_pa := Some (o_pa s);
     telescope_lat := Some (o_lat s); telescope_lon := Some (o_lon s) |}.

Definition zero_where (sel : list bool) (l : list R) : list R := map (fun p : bool * R => if fst p then 0 else snd p) (combine sel l).
Definition is_type (t : string) (p : coords) : bool := type_in (c_type p) [t].

(** uvdata.py:4596-4865.  With [use_ant_pos] false the old apparent coordinates are those
    of all records and the new ones those of the selected records, so numpy raises if some
    are not selected.  A mask that selects nothing (astropy on empty arrays) is not
    modelled. *)
Definition phase (sky : skymap) (junk : mat) (pop : list Z -> Z) (name : string) (p : coords) (lookup use_ant_pos : bool)
    (mask : option (list bool)) (cleanup : bool) (s : pobj) : result pobj :=
  if negb (is_type "unprojected" p) && (is_none (c_lon p) || is_none (c_lat p)) then Err ValueError else
  do (req, info) <- (if lookup then lookup_request else phase_request) name p (o_pc s);
  let q := snd req in
  do sel <- mask_rows (o_Nblts s) mask;
  if Nat.eqb (count sel) 0 then Err Undefined else
  let old_w := zero_where (check_for_cat_type "unprojected" (o_pc s)) (map w_of (o_uvw s)) in
  let times := masked sel (o_time s) in
  let lsts := masked sel (o_lst s) in
  let app := calc_app_coords sky (o_lat s) q times lsts in
  let new_ra := map fst app in
  let new_dec := map snd app in
  let new_pa := if type_in (c_frame p) ["altaz"%string] then repeat 0 (length times)
                else map (fun t => pa_of sky (c_frame p) (c_epoch p) (fst t) (fst (snd t)) (snd (snd t))) (combine times app) in
  do new_uvw <- (if negb use_ant_pos && negb (Nat.eqb (count sel) (o_Nblts s)) then Err ValueError
                 else calc_uvw junk use_ant_pos false false
                        (uvw_call (Some new_ra) (Some new_dec) (Some new_pa) lsts (masked sel (o_uvw s)) (o_pos s)
                                  (masked sel (o_ant1 s)) (masked sel (o_ant2 s)) s));
  do pc <- (if lookup then lookup_catalog else phase_catalog) pop name p mask cleanup (o_pc s);
  do new_w <- (if is_type "unprojected" p then Ok (ANum 0)
               else do l <- assign_rows sel (map w_of new_uvw) (repeat 0 (o_Nblts s)); Ok (AArr l));
  do data <- apply_w_proj new_w (AArr old_w) (match mask with None => AllRows | Some m => Mask m end) s;
  do uvw <- assign_rows sel new_uvw (o_uvw s);
  do ra <- assign_rows sel new_ra (o_ra s);
  do dec <- assign_rows sel new_dec (o_dec s);
  do pa <- assign_rows sel new_pa (o_pa s);
  Ok {| o_pc := pc; o_time := o_time s; o_lst := o_lst s; o_ant1 := o_ant1 s; o_ant2 := o_ant2 s;
        o_uvw := uvw; o_ra := ra; o_dec := dec; o_pa := pa; o_freq := o_freq s; o_data := data;
        o_pos := o_pos s; o_nums := o_nums s; o_lat := o_lat s; o_lon := o_lon s |}.

(** uvdata.py:4318-4394 *)
Definition unproject_phase (junk : mat) (pop : list Z -> Z) (use_ant_pos : bool) (mask : option (list bool)) (name : string)
    (s : pobj) : result pobj :=
  do m <- mask_rows (o_Nblts s) mask;
  let sel := map (fun p : bool * bool => negb (fst p) && snd p) (combine (check_for_cat_type "unprojected" (o_pc s)) m) in
  do new_uvw <- calc_uvw junk use_ant_pos false true
                  (uvw_call None None None (o_lst s) (o_uvw s) (o_pos s) (o_ant1 s) (o_ant2 s) s);
  do data <- apply_w_proj (ANum 0) (AArr (map w_of (o_uvw s))) (Mask sel) s;
  do pc <- unproject_catalog pop name mask (o_pc s);
  Ok {| o_pc := pc; o_time := o_time s; o_lst := o_lst s; o_ant1 := o_ant1 s; o_ant2 := o_ant2 s;
        o_uvw := new_uvw; o_ra := put sel (masked sel (o_lst s)) (o_ra s);
        o_dec := put sel (repeat (o_lat s) (count sel)) (o_dec s); o_pa := put sel (repeat 0 (count sel)) (o_pa s);
        o_freq := o_freq s; o_data := data;
        o_pos := o_pos s; o_nums := o_nums s; o_lat := o_lat s; o_lon := o_lon s |}.

(** The uvws towards where the object is phased, from given antenna positions *)
Definition uvws_from (junk : mat) (pos : list vec) (s : pobj) : result (list vec) :=
  calc_uvw junk true false false
    {| app_ra := Some (o_ra s); app_dec := Some (o_dec s); frame_pa := Some (o_pa s); lst_array := Some (o_lst s); uvw_array := None;
       antenna_positions := Some pos; antenna_numbers := Some (o_nums s); ant_1 := Some (o_ant1 s); ant_2 := Some (o_ant2 s);
       old_app_ra := None; old_app_dec := None; old_frame_pa := None;
       telescope_lat := Some (o_lat s); telescope_lon := Some (o_lon s) |}.

Definition with_uvw (uvw : list vec) (data : option (cube cx)) (pos : list vec) (s : pobj) : pobj :=
  {| o_pc := o_pc s; o_time := o_time s; o_lst := o_lst s; o_ant1 := o_ant1 s; o_ant2 := o_ant2 s;
     o_uvw := uvw; o_ra := o_ra s; o_dec := o_dec s; o_pa := o_pa s; o_freq := o_freq s; o_data := data;
     o_pos := pos; o_nums := o_nums s; o_lat := o_lat s; o_lon := o_lon s |}.

(** uvdata.py:4939-4984 *)
Definition set_uvws_from_antenna_positions (junk : mat) (update_vis : bool) (s : pobj) : result pobj :=
  let unprojected := check_for_cat_type "unprojected" (o_pc s) in
  do new_uvw <- uvws_from junk (o_pos s) s;
  do data <- (if existsb negb unprojected && update_vis
              then apply_w_proj (AArr (map w_of new_uvw)) (AArr (zero_where unprojected (map w_of (o_uvw s)))) AllRows s
              else Ok (o_data s));
  Ok (with_uvw new_uvw data (o_pos s) s).

Definition vec_eqb (a b : vec) : bool :=
  let '(x, y, z) := a in let '(x', y', z') := b in negb (neqR x x' || neqR y y' || neqR z z').
Definition add_vec (a b : vec) : vec := let '(x, y, z) := a in let '(x', y', z') := b in (x + x', y + y', z + z').

(** uvdata.py:4986-5069; [new_positions] is a dict from antenna numbers to positions *)
Definition update_antenna_positions (junk : mat) (new_positions : list (Z * vec)) (delta_antpos update_vis : bool) (s : pobj) : result pobj :=
  let new_antpos := map (fun p : Z * vec => match dget Z.eqb (fst p) new_positions with Ok v => v | Err _ => snd p end)
                        (combine (o_nums s) (o_pos s)) in
  if forallb (fun p => vec_eqb (fst p) (snd p)) (combine new_antpos (o_pos s)) then Ok s
  else if delta_antpos then
    do delta <- uvws_from junk (map (fun p => vsub (fst p) (snd p)) (combine new_antpos (o_pos s))) s;
    do data <- (if update_vis then apply_w_proj (ANum 0) (AArr (map w_of delta)) (Mask (check_for_cat_type "unprojected" (o_pc s))) s
                else Ok (o_data s));
    Ok (with_uvw (map (fun p => add_vec (fst p) (snd p)) (combine (o_uvw s) delta)) data new_antpos s)
  else
    set_uvws_from_antenna_positions junk update_vis (with_uvw (o_uvw s) (o_data s) new_antpos s).
