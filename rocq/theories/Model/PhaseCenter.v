(** The phase center catalog: /repo/src/pyuvdata/utils/phase_center_catalog.py and
    the catalog methods of /repo/src/pyuvdata/uvdata/uvdata.py *)
From Coq Require Import List ZArith Bool Arith String QArith.
From Verif Require Import Lib.Py Lib.Np Lib.Slice Lib.Cube Lib.Dict Model.Tools Model.Hdf5.
Import ListNotations.
Open Scope Z_scope.
Open Scope list_scope.
Notation length := List.length.

(** A float or a 1-d array of floats; floats are rationals. *)
Inductive cval := Num (q : Q) | Arr (l : list Q).

(** The ten compared fields of a catalog entry (phase_center_catalog.py:152-163).
    A given epoch is taken to be a number already (astropy's Time conversion of
    strings is not modelled). *)
Record coords := mkcoords {
  c_type : option string;
  c_lon : option cval; c_lat : option cval;
  c_frame : option string;
  c_epoch : option Q;
  c_times : option cval;
  c_pm_ra : option cval; c_pm_dec : option cval;
  c_dist : option cval; c_vrad : option cval }.

(** A catalog entry (phase_center_catalog.py:735-748) *)
Record pentry := mkentry { e_name : string; e_info : string; e_coords : coords }.

Definition catalog := list (Z * pentry).
Definition cat_get (k : Z) (c : catalog) : result pentry := dget Z.eqb k c.

(** phase_center_catalog.py:11 *)
Definition allowed_cat_types : list string := ["sidereal"; "ephem"; "unprojected"; "driftscan"]%string.
Definition str_in (s : string) (l : list string) : bool := existsb (String.eqb s) l.
Definition type_in (t : option string) (l : list string) : bool :=
  match t with Some s => str_in s l | None => false end.

(** np.pi / 2 as the double it is *)
Definition half_pi : Q := 884279719003555 # 562949953421312.

(** utils/__init__.py RADIAN_TOL, 1 mas in radians; written to ten digits *)
Definition RADIAN_TOL : Q := 4848136811 # 1000000000000000000.
Definition radian_tols : Q * Q := (0, RADIAN_TOL)%Q.
Definition default_tols : Q * Q := (1 # 100000, 1 # 100000000).

(** phase_center_catalog.py:195-206: shapes, then np.allclose *)
Definition cval_close (tol : Q * Q) (a b : cval) : bool :=
  match a, b with
  | Num x, Num y => isclose x y (fst tol) (snd tol)
  | Arr x, Arr y => (length x =? length y)%nat &&
                    forallb (fun p => isclose (fst p) (snd p) (fst tol) (snd tol)) (combine x y)
  | _, _ => false
  end.

(** phase_center_catalog.py:185-208: the contribution of one key; [p] is the value
    asked for, [c] the one in the catalog *)
Definition key_diff {A} (same : A -> A -> bool) (p c : option A) : nat :=
  match p, c with
  | Some x, Some y => if same x y then 0 else 1
  | Some _, None => 1
  | None, Some _ => 1
  | None, None => 0
  end%nat.

(** phase_center_catalog.py:184-208 *)
Definition cat_diffs (p c : coords) : nat :=
  (key_diff String.eqb (c_type p) (c_type c)
   + key_diff (cval_close radian_tols) (c_lon p) (c_lon c)
   + key_diff (cval_close radian_tols) (c_lat p) (c_lat c)
   + key_diff String.eqb (c_frame p) (c_frame c)
   + key_diff Qeq_bool (c_epoch p) (c_epoch c)
   + key_diff (cval_close default_tols) (c_times p) (c_times c)
   + key_diff (cval_close default_tols) (c_pm_ra p) (c_pm_ra c)
   + key_diff (cval_close default_tols) (c_pm_dec p) (c_pm_dec c)
   + key_diff (cval_close default_tols) (c_dist p) (c_dist c)
   + key_diff (cval_close default_tols) (c_vrad p) (c_vrad c))%nat.

(** phase_center_catalog.py:179-217.  [nm] is the name asked for; it is [None]
    when ignore_name is set.  [(mid, md)] is the best match so far. *)
Fixpoint look_loop (nm : option string) (p : coords) (l : catalog) (mid : option Z) (md : Z) : option Z * Z :=
  match l with
  | [] => (mid, md)
  | (k, e) :: l =>
      let same_name := match nm with Some s => String.eqb s (e_name e) | None => false end in
      if (match nm with Some _ => negb same_name | None => false end) then look_loop nm p l mid md
      else
        let d := Z.of_nat (cat_diffs p (e_coords e)) in
        if (d =? 0) || same_name then
          let '(mid, md) := if d <? md then (Some k, d) else (mid, md) in
          if md =? 0 then (mid, md) else look_loop nm p l mid md
        else look_loop nm p l mid md
  end.

(** phase_center_catalog.py:14-219, called with a phase_dict *)
Definition look_in_catalog (cat : catalog) (nm : option string) (p : coords) (target : option Z)
    : result (option Z * Z) :=
  match target with
  | None => Ok (look_loop nm p cat None 99999)
  | Some k => match cat_get k cat with
              | Ok e => Ok (look_loop nm p [(k, e)] None 99999)
              | Err _ => Err ValueError
              end
  end.

(** phase_center_catalog.py:120-149: the phase_dict made from keyword arguments *)
Definition query_defaults (p : coords) : result coords :=
  if match c_type p with Some t => negb (str_in t allowed_cat_types) | None => false end then Err ValueError
  else if type_in (c_type p) ["unprojected"; "driftscan"]%string then
    Ok (mkcoords (c_type p)
          (match c_lon p with None => Some (Num 0) | v => v end)
          (match c_lat p with None => Some (Num half_pi) | v => v end)
          (match c_frame p with None => Some "altaz"%string | v => v end)
          (c_epoch p) (c_times p) (c_pm_ra p) (c_pm_dec p) (c_dist p) (c_vrad p))
  else Ok p.

(** phase_center_catalog.py:222-248 (one name) *)
Definition look_for_name (cat : catalog) (nm : string) : list Z :=
  map fst (filter (fun p => String.eqb (e_name (snd p)) nm) cat).

(** [set(range(n + 1)).difference(used).pop()]: which element a set gives up is
    not specified, [pop] stands for the choice *)
Definition free_ids (n : nat) (used : list Z) : list Z :=
  filter (fun i => negb (isinZ i used)) (map Z.of_nat (seq 0 (S n))).

(** phase_center_catalog.py:505-574 *)
Definition generate_new_phase_center_id (pop : list Z -> Z) (cat : option (list Z)) (cat_id old_id : option Z)
    (reserved : option (list Z)) : result Z :=
  do used <- match cat with
             | None => match old_id with Some _ => Err ValueError | None => Ok [] end
             | Some keys =>
                 match old_id with
                 | None => Ok keys
                 | Some o => if isinZ o keys then Ok (filter (fun k => negb (k =? o)) keys) else Err ValueError
                 end
             end;
  let used := match reserved with None => used | Some r => used ++ r end in
  match cat_id with
  | Some c => if isinZ c used then Err ValueError else Ok c
  | None =>
      match old_id with
      | Some o => if isinZ o used then Ok (pop (free_ids (length (uniqueZ used)) used)) else Ok o
      | None => Ok (pop (free_ids (length (uniqueZ used)) used))
      end
  end.

(** float(x) *)
Definition as_float (v : option cval) : result (option cval) :=
  match v with
  | Some (Arr [q]) => Ok (Some (Num q))
  | Some (Arr _) => Err TypeError
  | v => Ok v
  end.
(** np.array(x, dtype=float).reshape((n,)) *)
Definition as_array (n : nat) (v : option cval) : result (option cval) :=
  match v with
  | None => Ok None
  | Some (Num q) => if (n =? 1)%nat then Ok (Some (Arr [q])) else Err ValueError
  | Some (Arr l) => if (length l =? n)%nat then Ok (Some (Arr l)) else Err ValueError
  end.
Definition is_none {A} (v : option A) : bool := match v with None => true | Some _ => false end.
(** [x != q] for a scalar; an array of another size raises *)
Definition scalar_is (q : Q) (v : option cval) : bool :=
  match v with Some (Num x) => Qeq_bool x q | Some (Arr [x]) => Qeq_bool x q | _ => false end.

(** phase_center_catalog.py:577-750 *)
Definition generate_entry (name : string) (info : string) (p : coords) : result pentry :=
  let ty := c_type p in
  let is t := type_in ty [t] in
  if negb (type_in ty allowed_cat_types) then Err ValueError
  else if negb (Bool.eqb (is_none (c_pm_ra p)) (is_none (c_pm_dec p))) then Err ValueError
  else
  do p <- query_defaults p;
  if is_none (c_times p) && is "ephem"%string then Err ValueError
  else if negb (is_none (c_times p)) && negb (is "ephem"%string) then Err ValueError
  else if (is_none (c_lon p) || is_none (c_lat p) || is_none (c_frame p)) then Err ValueError
  else if negb (match c_frame p with Some f => String.eqb f "altaz"%string | None => false end)
          && type_in ty ["driftscan"; "unprojected"]%string then Err ValueError
  else if is "unprojected"%string && negb (scalar_is 0 (c_lon p)) then Err ValueError
  else if is "unprojected"%string && negb (scalar_is half_pi (c_lat p)) then Err ValueError
  else if negb (is "sidereal"%string) && (negb (is_none (c_pm_ra p)) || negb (is_none (c_pm_dec p))) then Err ValueError
  else
  do p <- (if is "ephem"%string then
             let times := match c_times p with Some (Arr l) => l | Some (Num q) => [q] | None => [] end in
             let n := length times in
             do lon <- as_array n (c_lon p); do lat <- as_array n (c_lat p);
             do dist <- as_array n (c_dist p); do vrad <- as_array n (c_vrad p);
             Ok (mkcoords ty lon lat (c_frame p) (c_epoch p) (Some (Arr times)) (c_pm_ra p) (c_pm_dec p) dist vrad)
           else
             do lon <- as_float (c_lon p); do lat <- as_float (c_lat p);
             do ra <- as_float (c_pm_ra p); do dec <- as_float (c_pm_dec p);
             do dist <- as_float (c_dist p); do vrad <- as_float (c_vrad p);
             Ok (mkcoords ty lon lat (c_frame p) (c_epoch p) (c_times p) ra dec dist vrad));
  Ok (mkentry name info p).

(** The attributes the catalog methods work on.  A missing catalog (None) is the
    empty one. *)
Record pcobj := mkpc { pc_cat : catalog; pc_n : nat; pc_ids : list Z }.

(** uvdata.py:685-840 *)
Definition add_phase_center (pop : list Z -> Z) (name info : string) (p : coords) (force : bool) (cat_id : option Z)
    (s : pcobj) : result (pcobj * Z) :=
  do e <- generate_entry name info p;
  do id <- match cat_id, force with
           | Some c, true => Ok c
           | _, _ => generate_new_phase_center_id pop (Some (dkeys (pc_cat s))) cat_id None None
           end;
  let '(mid, md) := look_loop (Some name) (e_coords e) (pc_cat s) None 99999 in
  match mid with
  | Some t => if md =? 0 then Ok (s, t)
              else let cat := dset Z.eqb id e (pc_cat s) in Ok (mkpc cat (length cat) (pc_ids s), id)
  | None => let cat := dset Z.eqb id e (pc_cat s) in Ok (mkpc cat (length cat) (pc_ids s), id)
  end.

(** uvdata.py:842-862 *)
Definition remove_phase_center (k : Z) (s : pcobj) : result pcobj :=
  if dmem Z.eqb k (pc_cat s) then
    let cat := ddel Z.eqb k (pc_cat s) in Ok (mkpc cat (length cat) (pc_ids s))
  else Err IndexError.

Definition remove_all (l : list Z) (s : pcobj) : result pcobj :=
  foldM (fun s k => remove_phase_center k s) l s.

(** uvdata.py:864-890 *)
Definition clear_unused_phase_centers (s : pcobj) : result pcobj :=
  let unique_cat_ids := uniqueZ (pc_ids s) in
  let kept := filter (fun k => isinZ k unique_cat_ids) (dkeys (pc_cat s)) in
  let defunct := filter (fun k => negb (isinZ k unique_cat_ids)) (dkeys (pc_cat s)) in
  if (length kept =? pc_n s)%nat then Ok s else remove_all defunct s.

(** uvdata.py:892-922 *)
Definition check_for_cat_type (ty : string) (s : pcobj) : list bool :=
  let ids := map fst (filter (fun p => type_in (c_type (e_coords (snd p))) [ty]) (pc_cat s)) in
  map (fun k => isinZ k ids) (pc_ids s).

Inductive pc_ident := ByName (n : string) | ById (k : Z) | ByIds (l : list Z).

Definition set_name (nm : string) (e : pentry) : pentry := mkentry nm (e_info e) (e_coords e).
Definition update_entry (f : pentry -> pentry) (k : Z) (c : catalog) : catalog :=
  map (fun p => if fst p =? k then (fst p, f (snd p)) else p) c.

(** uvdata.py:924-987 *)
Definition rename_phase_center (i : pc_ident) (nm : string) (s : pcobj) : result pcobj :=
  do ids <- match i with
            | ByName n => match look_for_name (pc_cat s) n with [] => Err ValueError | l => Ok l end
            | ById k => if dmem Z.eqb k (pc_cat s) then Ok [k] else Err ValueError
            | ByIds l => if forallb (fun k => dmem Z.eqb k (pc_cat s)) l then Ok l else Err ValueError
            end;
  if match i with ByName n => String.eqb nm n | _ => false end || (length ids =? 0)%nat then Ok s
  else Ok (mkpc (fold_left (fun c k => update_entry (set_name nm) k c) ids (pc_cat s)) (pc_n s) (pc_ids s)).

(** uvdata.py:1298-1332: [d[new] = d.pop(old)] *)
Definition update_phase_center_id (pop : list Z -> Z) (cat_id : Z) (new_id : option Z) (reserved : option (list Z))
    (s : pcobj) : result pcobj :=
  do n <- generate_new_phase_center_id pop (Some (dkeys (pc_cat s))) new_id (Some cat_id) reserved;
  do e <- cat_get cat_id (pc_cat s);
  Ok (mkpc (dset Z.eqb n e (ddel Z.eqb cat_id (pc_cat s))) (pc_n s)
           (map (fun k => if k =? cat_id then n else k) (pc_ids s))).

(** A selection of baseline-times: the default None (everything), a boolean mask
    of length Nblts, or indices, possibly negative. *)
Inductive row_mask := AllRows | Mask (m : list bool) | Rows (l : list Z).

(** The mask as one boolean per row; IndexError if it is not a valid index *)
Definition row_bools (n : nat) (m : row_mask) : result (list bool) :=
  match m with
  | AllRows => Ok (repeat true n)
  | Mask m => if (length m =? n)%nat then Ok m else Err IndexError
  | Rows l =>
      do p <- mapM (fun i => match norm_index n i with Some k => Ok k | None => Err IndexError end) l;
      Ok (map (fun i => existsb (Nat.eqb i) p) (seq 0 n))
  end.

(** [ids[sel] = k] *)
Definition assign_ids (sel : list bool) (k : Z) (ids : list Z) : list Z :=
  map (fun p => if fst p : bool then k else snd p) (combine sel ids).

(** uvdata.py:1041-1066 *)
Definition split_source (i : pc_ident) (s : pcobj) : result Z :=
  match i with
  | ByName n => match look_for_name (pc_cat s) n with [k] => Ok k | _ => Err ValueError end
  | ById k => if dmem Z.eqb k (pc_cat s) then Ok k else Err ValueError
  | ByIds _ => Err TypeError
  end.

(** uvdata.py:989-1138 *)
Definition split_phase_center (pop : list Z -> Z) (i : pc_ident) (new_name : option string) (mask : row_mask)
    (new_id : option Z) (downselect : bool) (s : pcobj) : result pcobj :=
  do cat_id <- split_source i s;
  let new_id := match new_id with
                | None => pop (free_ids (pc_n s) (dkeys (pc_cat s)))
                | Some k => k end in
  if dmem Z.eqb new_id (pc_cat s) then Err ValueError else
  do sel <- row_bools (length (pc_ids s)) mask;
  let stray := existsb (fun p : bool * Z => fst p && negb (snd p =? cat_id)) (combine sel (pc_ids s)) in
  if stray && negb downselect then Err ValueError else
  let sel := if stray then map (fun p : bool * Z => fst p && (snd p =? cat_id)) (combine sel (pc_ids s)) else sel in
  if forallb negb sel then Ok s
  else if negb (existsb (fun p : bool * Z => negb (fst p) && (snd p =? cat_id)) (combine sel (pc_ids s))) then
    do s <- update_phase_center_id pop cat_id (Some new_id) None s;
    match new_name with
    | None => Ok s
    | Some nm => rename_phase_center (ById new_id) nm s
    end
  else
    do e <- cat_get cat_id (pc_cat s);
    do (s, k) <- add_phase_center pop (match new_name with None => e_name e | Some nm => nm end) "user"%string
                   (e_coords e) true (Some new_id) s;
    Ok (mkpc (pc_cat s) (pc_n s) (assign_ids sel k (pc_ids s))).

(** uvdata.py:1192-1209: the ids named by a list of identifiers *)
Definition merge_ids (s : pcobj) (l : list pc_ident) : result (list Z) :=
  do ls <- mapM (fun i => match i with
                          | ByName n => match look_for_name (pc_cat s) n with [] => Err ValueError | l => Ok l end
                          | ById k => if dmem Z.eqb k (pc_cat s) then Ok [k] else Err ValueError
                          | ByIds _ => Err TypeError
                          end) l;
  Ok (List.concat ls).

(** uvdata.py:1219-1237: whether an entry may be merged into the first *)
Definition merge_ok (ignore_name : bool) (first : Z) (s : pcobj) (k : Z) : result bool :=
  do e <- cat_get k (pc_cat s);
  do (mid, md) <- look_in_catalog (pc_cat s) (if ignore_name then None else Some (e_name e)) (e_coords e) (Some first);
  Ok (match mid with None => false | Some _ => md =? 0 end).

(** uvdata.py:1140-1245 *)
Definition merge_phase_centers (l : list pc_ident) (force_merge ignore_name : bool) (s : pcobj) : result pcobj :=
  do ids <- merge_ids s l;
  match ids with
  | (first :: _ :: _) as ids =>
      do oks <- mapM (merge_ok ignore_name first s) (tl ids);
      if negb (forallb (fun b => b) oks) && negb force_merge then Err ValueError
      else remove_all (tl ids)
             (mkpc (pc_cat s) (pc_n s) (map (fun k => if isinZ k ids then first else k) (pc_ids s)))
  | _ => Ok s
  end.

Definition set_info (info : string) (e : pentry) : pentry := mkentry (e_name e) info (e_coords e).

(** uvdata.py:1386-1406: one reference entry *)
Definition consolidate_one (pop : list Z -> Z) (ignore_name : bool) (s : pcobj) (r : Z * pentry) : result pcobj :=
  let '(k, e) := r in
  let '(mid, md) := look_loop (if ignore_name then None else Some (e_name e)) (e_coords e) (pc_cat s) None 99999 in
  match mid with
  | Some m =>
      if md =? 0 then
        do s <- update_phase_center_id pop m (Some k) None s;
        Ok (mkpc (update_entry (fun x => let x := set_info (e_info e) x in
                                         if ignore_name then set_name (e_name e) x else x) k (pc_cat s))
                 (pc_n s) (pc_ids s))
      else do (s, _) <- add_phase_center pop (e_name e) (e_info e) (e_coords e) false (Some k) s; Ok s
  | None => do (s, _) <- add_phase_center pop (e_name e) (e_info e) (e_coords e) false (Some k) s; Ok s
  end.

(** uvdata.py:1334-1406 with a reference catalog (the catalog of [other]) *)
Definition consolidate (pop : list Z -> Z) (ref : catalog) (ignore_name : bool) (s : pcobj) : result pcobj :=
  do s <- foldM (fun s k => update_phase_center_id pop k None (Some (dkeys ref)) s) (dkeys (pc_cat s)) s;
  foldM (consolidate_one pop ignore_name) ref s.

(** What phase is asked for: the coordinates as given by keywords. *)
(** uvdata.py:4424-4513 for lookup_name=False and cat_type given or None
    (ephemerides are not extended): the id, coordinates and info_source handed to
    _add_phase_center *)
Definition phase_request (name : string) (p : coords) (s : pcobj) : result (option Z * coords * string) :=
  let default_type p := mkcoords (match c_type p with None => Some "sidereal"%string | t => t end)
        (c_lon p) (c_lat p) (c_frame p) (c_epoch p) (c_times p) (c_pm_ra p) (c_pm_dec p) (c_dist p) (c_vrad p) in
  let fill_epoch p :=
    mkcoords (c_type p) (c_lon p) (c_lat p) (c_frame p)
      (match c_epoch p with
       | None => if type_in (c_type p) ["unprojected"%string] then None
                 else if type_in (c_frame p) ["fk4"; "fk4noeterms"]%string then Some (1950 # 1) else Some (2000 # 1)
       | e => e end)
      (c_times p) (c_pm_ra p) (c_pm_dec p) (c_dist p) (c_vrad p) in
  match look_for_name (pc_cat s) name with
  | [] => Ok (None, fill_epoch (default_type p), "user"%string)
  | _ =>
      do q <- query_defaults p;
      let '(mid, md) := look_loop (Some name) q (pc_cat s) None 99999 in
      if md =? 0 then
        match mid with
        | Some k => do e <- cat_get k (pc_cat s); Ok (Some k, fill_epoch (e_coords e), e_info e)
        | None => Err Undefined
        end
      else Ok (mid, fill_epoch (default_type p), "user"%string)
  end.

(** uvdata.py:4713-4865, the effect of phase on the catalog and the ids *)
Definition phase_catalog (pop : list Z -> Z) (name : string) (p : coords) (mask : option (list bool))
    (cleanup : bool) (s : pcobj) : result pcobj :=
  do (req, info) <- phase_request name p s;
  let '(id, p) := req in
  let n := length (pc_ids s) in
  do sel <- match mask with None => Ok (repeat true n) | Some m => if (length m =? n)%nat then Ok m else Err IndexError end;
  do (s, k) <- add_phase_center pop name info p true id s;
  let s := mkpc (pc_cat s) (pc_n s) (assign_ids sel k (pc_ids s)) in
  if cleanup then clear_unused_phase_centers s else Ok s.

Definition unprojected_coords : coords :=
  mkcoords (Some "unprojected"%string) None None None None None None None None None.

(** uvdata.py:4340-4355, 4377-4387, the effect of unproject_phase *)
Definition unproject_catalog (pop : list Z -> Z) (name : string) (mask : option (list bool)) (s : pcobj) : result pcobj :=
  let n := length (pc_ids s) in
  do m <- match mask with None => Ok (repeat true n) | Some m => if (length m =? n)%nat then Ok m else Err IndexError end;
  let sel := map (fun p : bool * bool => negb (fst p) && snd p) (combine (check_for_cat_type "unprojected"%string s) m) in
  do q <- query_defaults unprojected_coords;
  let '(mid, md) := look_loop (Some name) q (pc_cat s) None 99999 in
  do (s, k) <- match mid with
               | Some k => if md =? 0 then Ok (s, k)
                           else add_phase_center pop name "user"%string unprojected_coords false None s
               | None => add_phase_center pop name "user"%string unprojected_coords false None s
               end;
  clear_unused_phase_centers (mkpc (pc_cat s) (pc_n s) (assign_ids sel k (pc_ids s))).
