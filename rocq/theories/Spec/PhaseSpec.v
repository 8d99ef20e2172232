(** What the phase center catalog should guarantee.  Only the shape of catalogs is
    taken from the model. *)
From Coq Require Import List ZArith Bool String QArith Qabs.
From Verif Require Import Lib.Py Model.PhaseCenter.
Import ListNotations.
Open Scope Z_scope.
Open Scope list_scope.
Notation length := List.length.

(** [a] is within the tolerance of [b] *)
Definition near (tol : Q * Q) (a b : Q) : Prop := (Qabs (a - b) <= snd tol + fst tol * Qabs b)%Q.

Definition cval_near (tol : Q * Q) (a b : cval) : Prop :=
  match a, b with
  | Num x, Num y => near tol x y
  | Arr x, Arr y => Forall2 (near tol) x y
  | _, _ => False
  end.

(** Both absent, or both present and related *)
Definition both {A} (R : A -> A -> Prop) (a b : option A) : Prop :=
  match a, b with
  | Some x, Some y => R x y
  | None, None => True
  | _, _ => False
  end.

(** The position asked for [p] is, within the tolerances, the stored position [c] *)
Definition same_place (p c : coords) : Prop :=
  c_type p = c_type c /\
  both (cval_near radian_tols) (c_lon p) (c_lon c) /\
  both (cval_near radian_tols) (c_lat p) (c_lat c) /\
  c_frame p = c_frame c /\
  both Qeq (c_epoch p) (c_epoch c) /\
  both (cval_near default_tols) (c_times p) (c_times c) /\
  both (cval_near default_tols) (c_pm_ra p) (c_pm_ra c) /\
  both (cval_near default_tols) (c_pm_dec p) (c_pm_dec c) /\
  both (cval_near default_tols) (c_dist p) (c_dist c) /\
  both (cval_near default_tols) (c_vrad p) (c_vrad c).

(** The stored entry [e] is what entry [r] describes, names included unless they
    are ignored. *)
Definition matches (ignore_name : bool) (r e : pentry) : Prop :=
  same_place (e_coords r) (e_coords e) /\ (ignore_name = false -> e_name r = e_name e).

(** set.pop may give any element of the set *)
Definition picks (pop : list Z -> Z) : Prop := forall l, l <> [] -> In (pop l) l.

(** Entry [e] is stored under id [k] *)
Definition stored (s : pcobj) (k : Z) (e : pentry) : Prop := In (k, e) (pc_cat s).
(** Row [i] refers to entry [e] *)
Definition points (s : pcobj) (i : nat) (e : pentry) : Prop :=
  exists k, nth_error (pc_ids s) i = Some k /\ stored s k e.

(** An entry _add_phase_center stores as it is *)
Definition storable (e : pentry) : Prop := generate_entry (e_name e) (e_info e) (e_coords e) = Ok e.

Definition catalog_ok (c : catalog) : Prop := NoDup (map fst c) /\ Forall (fun p => storable (snd p)) c.

(** Distinct ids, a right count, and no row referring to a missing entry *)
Definition pc_consistent (s : pcobj) : Prop :=
  catalog_ok (pc_cat s) /\ pc_n s = length (pc_cat s) /\
  (forall i, (i < length (pc_ids s))%nat -> exists e, points s i e).

(** The entries an identifier names *)
Definition named_by (s : pcobj) (i : pc_ident) (k : Z) : Prop :=
  match i with
  | ByName n => exists e, stored s k e /\ e_name e = n
  | ById j => k = j
  | ByIds l => In k l
  end.
(** No entry is named twice *)
Definition named_once (s : pcobj) (l : list pc_ident) : Prop :=
  forall a b i j k, nth_error l a = Some i -> nth_error l b = Some j ->
    named_by s i k -> named_by s j k -> a = b.

(** No entry answers the description of two different reference entries. *)
Definition distinguishable (ignore_name : bool) (s : pcobj) (ref : catalog) : Prop :=
  forall k1 r1 k2 r2 e, In (k1, r1) ref -> In (k2, r2) ref ->
    (exists k, In (k, e) (pc_cat s ++ ref)) ->
    matches ignore_name r1 e -> matches ignore_name r2 e -> k1 = k2.

(** One successful operation on the catalog; sets may give up elements in any order *)
Inductive pc_step : pcobj -> pcobj -> Prop :=
| St_add pop name info p force id s s' k :
    picks pop -> add_phase_center pop name info p force id s = Ok (s', k) -> pc_step s s'
| St_rename i nm s s' : rename_phase_center i nm s = Ok s' -> pc_step s s'
| St_split pop i nm mask id down s s' :
    picks pop -> split_phase_center pop i nm mask id down s = Ok s' -> pc_step s s'
| St_merge l force ign s s' :
    named_once s l -> merge_phase_centers l force ign s = Ok s' -> pc_step s s'
| St_clear s s' : clear_unused_phase_centers s = Ok s' -> pc_step s s'
| St_phase pop name p mask cleanup s s' :
    picks pop -> phase_catalog pop name p mask cleanup s = Ok s' -> pc_step s s'
| St_unproject pop name mask s s' :
    picks pop -> unproject_catalog pop name mask s = Ok s' -> pc_step s s'
| St_consolidate pop ref ign s s' :
    picks pop -> catalog_ok ref -> distinguishable ign s ref ->
    consolidate pop ref ign s = Ok s' -> pc_step s s'.

Inductive pc_history : pcobj -> pcobj -> Prop :=
| Hist_nil s : pc_history s s
| Hist_cons s1 s2 s3 : pc_step s1 s2 -> pc_history s2 s3 -> pc_history s1 s3.

(** Ids that may not be given out *)
Definition in_use (cat : option (list Z)) (old : option Z) (reserved : option (list Z)) (i : Z) : Prop :=
  (exists keys, cat = Some keys /\ In i keys /\ old <> Some i) \/
  (exists r, reserved = Some r /\ In i r).

(** The row is selected *)
Definition chosen (n : nat) (mask : row_mask) (i : nat) : Prop :=
  (i < n)%nat /\
  match mask with
  | AllRows => True
  | Mask m => nth i m false = true
  | Rows l => In (Z.of_nat i) l \/ In (Z.of_nat i - Z.of_nat n) l
  end.

(** The values of a field, written as a number or as an array *)
Definition values (v : option cval) : option (list Q) :=
  match v with None => None | Some (Num q) => Some [q] | Some (Arr l) => Some l end.

(** The position asked of phase: fields left out take their documented defaults *)
Definition asked_type (p : coords) : string :=
  match c_type p with Some t => t | None => "sidereal"%string end.
Definition zenith_type (t : string) : Prop := t = "unprojected"%string \/ t = "driftscan"%string.

(** A stored position [c] is the one asked for by [p]: every field that was given
    has the value given. *)
Definition given {A} (R : A -> A -> Prop) (a b : option A) : Prop :=
  match a with None => True | Some x => exists y, b = Some y /\ R x y end.
Definition place_asked (p c : coords) : Prop :=
  c_type c = Some (asked_type p) /\
  given (Forall2 (near radian_tols)) (values (c_lon p)) (values (c_lon c)) /\
  given (Forall2 (near radian_tols)) (values (c_lat p)) (values (c_lat c)) /\
  given eq (c_frame p) (c_frame c) /\
  given Qeq (c_epoch p) (c_epoch c) /\
  given (Forall2 (near default_tols)) (values (c_times p)) (values (c_times c)) /\
  given (Forall2 (near default_tols)) (values (c_pm_ra p)) (values (c_pm_ra c)) /\
  given (Forall2 (near default_tols)) (values (c_pm_dec p)) (values (c_pm_dec c)) /\
  given (Forall2 (near default_tols)) (values (c_dist p)) (values (c_dist c)) /\
  given (Forall2 (near default_tols)) (values (c_vrad p)) (values (c_vrad c)).

(** A select_mask argument: no mask selects every row *)
Definition mask_of (m : option (list bool)) : row_mask := match m with None => AllRows | Some m => Mask m end.

Definition is_unprojected (e : pentry) : Prop := c_type (e_coords e) = Some "unprojected"%string.

(** The name asked for, or the old one *)
Definition new_label (nm : option string) (e : pentry) : string := match nm with None => e_name e | Some n => n end.

(** The same position, and the same name unless names are ignored *)
Definition alike (ign : bool) (e e' : pentry) : Prop :=
  e_coords e' = e_coords e /\ (ign = false -> e_name e' = e_name e).
