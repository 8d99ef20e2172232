(** What writing and reading UVFITS files should do. *)
From Coq Require Import List ZArith Bool Arith Sorting.Sorted Permutation.
From Verif Require Import Lib.Py Lib.Cube Lib.Dict Spec.FreqSpec Model.Uvfits.
Import ListNotations.
Open Scope Z_scope.

(** The sizes of an object *)
Definition nrows (o : fobj) : nat := length (o_rows o).
Definition nfreqs (o : fobj) : nat := length (o_freqs o).
Definition npols (o : fobj) : nat := length (o_pols o).
Definition in_obj (o : fobj) (b k p : nat) : Prop := (b < nrows o)%nat /\ (k < nfreqs o)%nat /\ (p < npols o)%nat.

(** An object that passes its check: arrays as long as their axes, windows and polarizations
    listed once, positive channel widths, no negative nsamples, every row's phase center in
    the catalog, no id twice *)
Record obj_ok (o : fobj) : Prop := {
  oo_widths : length (o_widths o) = nfreqs o;
  oo_flex : length (o_flex o) = nfreqs o;
  oo_freqs : o_freqs o <> [];
  oo_spws : o_spws o <> [] /\ NoDup (o_spws o);
  oo_pols : o_pols o <> [] /\ NoDup (o_pols o);
  oo_positive : Forall (fun w => 0 < w) (o_widths o);
  oo_ns : forall b k p, in_obj o b k p -> 0 <= o_ns o b k p;
  oo_src : Forall (fun r => In (r_src r) (map fst (o_cat o))) (o_rows o);
  oo_cat : NoDup (map fst (o_cat o)) }.

(** Each window has [n] channels, and the windows come in the order in which they are listed. *)
Definition in_order (n : nat) (o : fobj) : Prop :=
  o_flex o = List.concat (map (fun w => repeat w n) (o_spws o)).

(** Within a window the frequencies go up or down by the channel width, which is the same in
    all its channels. *)
Definition spaced (freqs widths : list Z) : Prop :=
  (2 <= length freqs)%nat ->
  exists w e, (e = 1 \/ e = -1) /\ Forall (fun x => x = w) widths /\
    forall i, (S i < length freqs)%nat -> nth (S i) freqs 0 - nth i freqs 0 = w * e.
Definition evenly_spaced (l : list Z) : Prop := exists d, forall i, (S i < length l)%nat -> nth (S i) l 0 - nth i l 0 = d.
Definition by_size (l : list Z) : Prop := StronglySorted (fun x y => Z.abs x <= Z.abs y) l.

(** What can be written: windows in blocks of equal size and all in use, evenly spaced
    frequencies, a positive first frequency in each window, and polarizations that are evenly
    spaced once they are ordered by size *)
Definition writable (o : fobj) : Prop :=
  contiguous (o_flex o) /\ (forall w, In w (o_flex o) <-> In w (o_spws o)) /\
  (exists n, forall w, In w (o_spws o) -> count_occ Z.eq_dec (o_flex o) w = n) /\
  (forall w, In w (o_spws o) -> spaced (window_freqs w (o_flex o) (o_freqs o)) (window_freqs w (o_flex o) (o_widths o))) /\
  (forall w, In w (o_spws o) -> 0 < nth 0 (window_freqs w (o_flex o) (o_freqs o)) 0) /\
  exists pols, Permutation (o_pols o) pols /\ by_size pols /\ evenly_spaced pols.

(** The rows of the second object are those of the first, with [s] added to the antenna
    numbers, and each belongs to the same phase center. *)
Definition same_row (s : Z) (o o' : fobj) (r r' : row) : Prop :=
  r_uvw r' = r_uvw r /\ r_time r' = r_time r /\ r_lst r' = r_lst r /\ r_int r' = r_int r /\
  r_ant1 r' = r_ant1 r + s /\ r_ant2 r' = r_ant2 r + s /\
  forall e, In (r_src r, e) (o_cat o) <-> In (r_src r', e) (o_cat o').

(** [o'] is [o] after writing and reading. *)
Record back (s : Z) (o o' : fobj) : Prop := {
  bk_rows : Forall2 (same_row s o o') (o_rows o) (o_rows o');
  bk_ants : o_ants o' = map (Z.add s) (o_ants o);
  bk_freqs : o_freqs o' = o_freqs o;
  bk_widths : if ((length (o_spws o) =? 1)%nat && (nth 1 (o_freqs o) 0 <? nth 0 (o_freqs o) 0) && (2 <=? nfreqs o)%nat)
              then o_widths o' = map Z.opp (o_widths o) else o_widths o' = o_widths o;
  bk_spws : o_spws o' = map Z.of_nat (seq 0 (length (o_spws o)));
  bk_flex : length (o_flex o') = nfreqs o /\
    forall k, (k < nfreqs o)%nat -> exists i, (i < length (o_spws o))%nat /\ nth k (o_flex o) 0 = nth i (o_spws o) 0 /\ nth k (o_flex o') 0 = Z.of_nat i;
  bk_pols : Permutation (o_pols o) (o_pols o') /\ by_size (o_pols o');
  bk_data : forall b k p p', in_obj o b k p -> (p' < npols o)%nat -> nth p (o_pols o) 0 = nth p' (o_pols o') 0 ->
    o_data o' b k p' = o_data o b k p /\ o_ns o' b k p' = o_ns o b k p /\
    o_flags o' b k p' = o_flags o b k p || (o_ns o b k p =? 0) }.

(** The indices of a selection *)
Definition index_list (n : nat) (i : option (list nat)) : Prop :=
  match i with None => True | Some l => l <> [] /\ StronglySorted lt l /\ Forall (fun k => (k < n)%nat) l end.
Definition picks {A} (i : option (list nat)) (l l' : list A) : Prop :=
  match i with None => l' = l | Some i => length l' = length i /\ forall k d, (k < length i)%nat -> nth k l' d = nth (nth k i 0%nat) l d end.
Definition pos (i : option (list nat)) (k : nat) : nat := match i with None => k | Some i => nth k i 0%nat end.

(** [o'] is [o] restricted to the given rows, channels and polarizations. *)
Record cut_of (bi fi pi : option (list nat)) (o o' : fobj) : Prop := {
  cu_rows : picks bi (o_rows o) (o_rows o');
  cu_freqs : picks fi (o_freqs o) (o_freqs o');
  cu_widths : picks fi (o_widths o) (o_widths o');
  cu_flex : picks fi (o_flex o) (o_flex o');
  cu_spws : o_spws o' = o_spws o;
  cu_pols : picks pi (o_pols o) (o_pols o');
  cu_rest : o_ants o' = o_ants o /\ o_cat o' = o_cat o;
  cu_data : forall b k p, in_obj o' b k p ->
    o_data o' b k p = o_data o (pos bi b) (pos fi k) (pos pi p) /\
    o_flags o' b k p = o_flags o (pos bi b) (pos fi k) (pos pi p) /\
    o_ns o' b k p = o_ns o (pos bi b) (pos fi k) (pos pi p) }.
