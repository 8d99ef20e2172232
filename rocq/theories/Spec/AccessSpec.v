(** Which rows and polarizations belong to a key, and the histories of calls on
    one object. *)
From Coq Require Import List ZArith Bool String Relations.
From Verif Require Import Lib.Py Lib.Cube Lib.Slice Model.Pol Model.Tools Model.UVData Model.Access
  Spec.BlsSpec Spec.BltSpec Spec.PolSpec Spec.ToolsSpec Spec.UVDataSpec.
Import ListNotations.
Open Scope Z_scope.
Open Scope list_scope.
Notation length := List.length.

(** The rows stored as (a, b), in increasing order. *)
Definition pair_rows (u : uvd) (a b : Z) : list nat :=
  filter (fun i => (nth i (ant_1_array u) 0 =? a) && (nth i (ant_2_array u) 0 =? b)) (seq 0 (length (time_array u))).

(** The positions of a polarization. *)
Definition pol_positions (u : uvd) (p : Z) : list nat :=
  filter (fun k => nth k (polarization_array u) 0 =? p) (seq 0 (length (polarization_array u))).

(** An answer of antpair2ind: None for no rows, otherwise an index that selects
    exactly the given rows in the given order. *)
Definition finds (n : nat) (ix : option axis_index) (rows : list nat) : Prop :=
  match ix with
  | None => rows = []
  | Some ix => rows <> [] /\ positions (Z.of_nat n) ix = Ok (map Z.of_nat rows)
  end.

(** All baseline numbers are in one of the three numbering schemes and agree
    with the antennas of their row. *)
Definition bl_coded (u : uvd) : Prop :=
  exists m off, encoding m off /\
  forall i, (i < length (time_array u))%nat ->
    0 <= nth i (ant_1_array u) 0 < m /\ 0 <= nth i (ant_2_array u) 0 < m /\
    nth i (baseline_array u) 0 = m * nth i (ant_1_array u) 0 + nth i (ant_2_array u) 0 + off.

(** The object is self-consistent: shapes, numbering, rectangularity flag. *)
Definition consistent (u : uvd) : Prop :=
  blt_shaped u /\ bl_coded u /\ rect_truthful u /\ time_array u <> [] /\ polarization_array u <> [] /\
  Nants_telescope u <= 2147483648.

(** What get_data must return for rows [R1] stored as asked with polarizations
    [P1] and rows [R2] stored the other way round with polarizations [P2]. *)
Definition expected {A} (conj : A -> A) (c : cube A) (nf : nat) (R1 P1 R2 P2 : list nat) : list (list (list A)) :=
  map (fun i => map (fun j => map (fun k => c i j k) P1) (seq 0 nf)) R1 ++
  map (fun i => map (fun j => map (fun k => conj (c i j k)) P2) (seq 0 nf)) R2.

(** The rows stored the other way round (none for an auto-correlation). *)
Definition reverse_rows (u : uvd) (a b : Z) : list nat := if a =? b then [] else pair_rows u b a.

(** [P] lists, for each polarization in turn, where its conjugate is stored. *)
Definition conj_positions (u : uvd) (P : list nat) : Prop :=
  length P = length (polarization_array u) /\
  forall k, (k < length P)%nat -> (nth k P 0 < length P)%nat /\
    nth (nth k P 0%nat) (polarization_array u) 0 = swapped (nth k (polarization_array u) 0).

(** The cells a key stands for: the rows [R1] stored as asked, of which the
    polarizations [P1] are taken, and the rows [R2] stored the other way round, of
    which the polarizations [P2] are taken. *)
Inductive key_cells (u : uvd) (xo : option string) : ukey -> list nat -> list nat -> list nat -> list nat -> Prop :=
| cells_pair a b P2 : Forall legal_pol (polarization_array u) -> NoDup (polarization_array u) -> conj_positions u P2 ->
    key_cells u xo (KPair a b) (pair_rows u a b) (seq 0 (length (polarization_array u))) (reverse_rows u a b) P2
| cells_pair_stored a b : reverse_rows u a b = [] ->
    key_cells u xo (KPair a b) (pair_rows u a b) (seq 0 (length (polarization_array u))) [] []
| cells_pair_number a b p : legal_pol p ->
    key_cells u xo (KPairN a b p) (pair_rows u a b) (pol_positions u p) (reverse_rows u a b) (pol_positions u (swapped p))
| cells_pair_name a b s p : polstr2num xo s = Ok p -> legal_pol p ->
    key_cells u xo (KPairS a b s) (pair_rows u a b) (pol_positions u p) (reverse_rows u a b) (pol_positions u (swapped p))
| cells_pol_name s p : polstr2num xo s = Ok p ->
    key_cells u xo (KPol s) (seq 0 (length (time_array u))) (pol_positions u p) [] []
| cells_pol_number p : p < 5 ->
    key_cells u xo (KNum p) (seq 0 (length (time_array u))) (pol_positions u p) [] []
| cells_baseline i P2 : (i < length (time_array u))%nat -> 5 <= nth i (baseline_array u) 0 ->
    Forall legal_pol (polarization_array u) -> NoDup (polarization_array u) -> conj_positions u P2 ->
    let a := nth i (ant_1_array u) 0 in let b := nth i (ant_2_array u) 0 in
    key_cells u xo (KNum (nth i (baseline_array u) 0)) (pair_rows u a b) (seq 0 (length (polarization_array u)))
      (reverse_rows u a b) P2
| cells_baseline_stored i : (i < length (time_array u))%nat -> 5 <= nth i (baseline_array u) 0 ->
    let a := nth i (ant_1_array u) 0 in let b := nth i (ant_2_array u) 0 in
    reverse_rows u a b = [] ->
    key_cells u xo (KNum (nth i (baseline_array u) 0)) (pair_rows u a b) (seq 0 (length (polarization_array u))) [] [].

(** The key is not found on the object. *)
Definition absent (R1 P1 R2 P2 : list nat) : Prop := (R1 = [] \/ P1 = []) /\ (R2 = [] \/ P2 = []).

(** All entries of an array of shape (m0, m1, m2). *)
Definition entries {A} (m0 m1 m2 : nat) (arr : cube A) : list (list (list A)) :=
  map (fun i => map (fun j => map (fun k => arr i j k) (seq 0 m2)) (seq 0 m1)) (seq 0 m0).

(** [new] is [old] with the cells of rows [R] and polarizations [P] replaced by
    [arr], cell by cell, and all other cells unchanged. *)
Definition replaced {A} (old new : cube A) (nf : nat) (R P : list nat) (arr : cube A) : Prop :=
  (forall i j k, (i < length R)%nat -> (j < nf)%nat -> (k < length P)%nat ->
     new (nth i R 0%nat) j (nth k P 0%nat) = arr i j k) /\
  (forall i j k, ~ (In i R /\ (j < nf)%nat /\ In k P) -> new i j k = old i j k).

(** The conjugate polarizations are stored in exactly the opposite order. *)
Definition opposite_order (P : list nat) : Prop := (2 <= length P)%nat /\ P = rev (seq 0 (length P)).

(** The antenna and polarization arrays are untouched. *)
  Definition same_ants (u u' : uvd) : Prop :=
    ant_1_array u' = ant_1_array u /\ ant_2_array u' = ant_2_array u /\ length (time_array u') = length (time_array u).
  Definition same_pols (u u' : uvd) : Prop := polarization_array u' = polarization_array u.

  (** One call on the object: a query or a setter (made while the object is
      self-consistent; it may fail), a successful modification, or assignments to
      attributes.  Assigning an antenna array or the polarization array runs that
      attribute's setter.  In-place changes of the arrays behind the object's back
      are not calls. *)
  Inductive step : obj -> obj -> Prop :=
  | st_antpair2ind o a b ord : consistent (o_u o) -> step o (fst (antpair2ind a b ord o))
  | st_get_data o k : consistent (o_u o) -> step o (fst (get_data k o))
  | st_get_flags o k : consistent (o_u o) -> step o (fst (get_flags k o))
  | st_get_nsamples o k : consistent (o_u o) -> step o (fst (get_nsamples k o))
  | st_get_times o k : consistent (o_u o) -> step o (fst (get_times k o))
  | st_set_data o sh arr k : consistent (o_u o) -> step o (fst (set_data sh arr k o))
  | st_set_flags o sh arr k : consistent (o_u o) -> step o (fst (set_flags sh arr k o))
  | st_set_nsamples o sh arr k : consistent (o_u o) -> step o (fst (set_nsamples sh arr k o))
  | st_conjugate o conv tol coords o' : obj_conjugate conv tol coords o = (o', Ok tt) -> step o o'
  | st_reorder_blts o ord minor af conj o' : obj_reorder_blts ord minor af conj o = (o', Ok tt) -> step o o'
  | st_reorder_pols o req o' : obj_reorder_pols req o = (o', Ok tt) -> step o o'
  | st_set_rectangularity o force o' : obj_set_rectangularity force o = (o', Ok tt) -> step o o'
  | st_assign_ants o u' : step o (clear_antpair2ind_cache (mkobj u' (o_xo o) (o_apc o) (o_kc o)))
  | st_assign_pols o u' : same_ants (o_u o) u' ->
      step o (clear_key2ind_cache (mkobj u' (o_xo o) (o_apc o) (o_kc o)))
  | st_assign_other o u' : same_ants (o_u o) u' -> same_pols (o_u o) u' ->
      step o (mkobj u' (o_xo o) (o_apc o) (o_kc o)).

  (** The object after some finite history of calls on a new object. *)
  Definition reachable (o : obj) : Prop := exists u xo, clos_refl_trans_1n _ step (fresh u xo) o.
