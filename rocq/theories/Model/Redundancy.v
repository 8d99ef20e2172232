(** Clusters of vectors and redundant baselines:
    /repo/src/pyuvdata/utils/redundancy.py.

    Coordinates and tolerances are integers (any finite set of floats is one up
    to a common scale); distances are compared through their squares, without
    rounding. *)
From Coq Require Import List ZArith Bool QArith Qcanon.
From Verif Require Import Lib.Py Lib.Sorting Lib.Np Lib.Dict Lib.QSum Model.Bls.
Import ListNotations.
Open Scope Z_scope.

(** The square of scipy's [cdist]: the Euclidean distance. *)
Definition dist2 (v w : list Z) : Z :=
  fold_right Z.add 0 (map (fun p => (fst p - snd p) * (fst p - snd p)) (combine v w)).

(** redundancy.py:39 [cdist(...) < tol] *)
Definition within (tol : Z) (v w : list Z) : bool := (0 <? tol) && (dist2 v w <? tol * tol).

(** [np.array_split(order, n)]: the first [length mod n] sections are one longer. *)
Fixpoint cut {A} (sizes : list nat) (l : list A) : list (list A) :=
  match sizes with
  | [] => []
  | s :: t => firstn s l :: cut t (skipn s l)
  end.
Definition array_split {A} (l : list A) (n : nat) : list (list A) :=
  let each := (length l / n)%nat in
  let extras := (length l mod n)%nat in
  cut (repeat (S each) extras ++ repeat each (n - extras)) l.

Definition xcoord (vecs : list (list Z)) (i : nat) : Z := nth 0 (nth i vecs []) 0.

(** redundancy.py:32-37; the blocks are not empty here *)
Definition apart (vecs : list (list Z)) (tol : Z) (b1 b2 : list nat) : bool :=
  Z.max (xcoord vecs (hd O b1) - tol) (xcoord vecs (hd O b2) - tol)
  >? Z.min (xcoord vecs (last b1 O) + tol) (xcoord vecs (last b2 O) + tol).

(** redundancy.py:30-41, one pair of blocks.  A set of indices is the sorted
    list of its elements. *)
Definition link_blocks (vecs : list (list Z)) (tol : Z) (adj : list (list nat))
    (bb : list nat * list nat) : list (list nat) :=
  let '(b1, b2) := bb in
  if apart vecs tol b1 b2 then adj
  else fold_left (fun adj i =>
         set_nth i (uniqueN (nth i adj []
           ++ filter (fun j => within tol (nth i vecs []) (nth j vecs [])) b2)) adj) b1 adj.

(** redundancy.py:14-42.  [v1[0, 0]] of an empty block is an IndexError;
    [array_split] into no sections is a ValueError. *)
Definition adj_list (vecs : list (list Z)) (tol : Z) (n_blocks : option nat)
    : result (list (list nat)) :=
  let n_items := length vecs in
  let n_blocks := match n_blocks with
                  | Some n => n
                  | None => Z.to_nat (Z.max (Z.of_nat n_items / 1024) 1)
                  end in
  if Nat.eqb n_blocks 0 then Err ValueError else
  let order := argsortZ (map (fun v => nth 0 v 0) vecs) in
  let blocks := array_split order n_blocks in
  if existsb (fun b => Nat.eqb (length b) 0) blocks then Err IndexError else
  Ok (fold_left (link_blocks vecs tol) (list_prod blocks blocks)
        (map (fun k => [k]) (seq 0 n_items))).

Definition same_set (a b : list nat) : bool := if list_eq_dec Nat.eq_dec a b then true else false.

(** redundancy.py:50-59, one turn of the loop.  The hashes of two frozensets
    are taken to be equal only for equal sets. *)
Definition clique_step (adj : list (list nat)) (st : list bool * list (list nat)) (k : nat)
    : list bool * list (list nat) :=
  let '(visited, loc_gps) := st in
  if nth k visited false then st else
  let a0 := nth k adj [] in
  let visited := set_nth k true visited in
  if forallb (fun it => same_set (nth it adj []) a0) a0
  then (fold_left (fun v i => set_nth i true v) a0 visited, loc_gps ++ [a0])
  else (visited, loc_gps).

(** redundancy.py:45-66 *)
Definition find_cliques (adj : list (list nat)) (strict : bool) : result (list (list nat)) :=
  let n_items := length adj in
  let '(_, loc_gps) :=
    fold_left (clique_step adj) (seq 0 n_items) (repeat false n_items, []) in
  if strict && negb (forallb (fun st => memb same_set st loc_gps) adj)
  then Err ValueError
  else Ok loc_gps.

(** redundancy.py:69-100.  One-dimensional locations are vectors of length one. *)
Definition find_clusters (ids : list Z) (vecs : list (list Z)) (tol : Z) (strict : bool)
    : result (list (list Z)) :=
  do adj <- adj_list vecs tol None;
  do loc_gps <- find_cliques adj strict;
  Ok (map (fun gp => isort Z.leb (map (fun i => nth i ids 0) gp)) loc_gps).

(** ** The grid algorithm *)

Definition vec3 : Type := Z * Z * Z.
Definition key_eqb (a b : vec3) : bool :=
  let '(a1, a2, a3) := a in let '(b1, b2, b3) := b in
  (a1 =? b1) && (a2 =? b2) && (a3 =? b3).

(** [np.round(num / den)], to the nearest integer, halves to the even one, for [0 < den] *)
Definition round_even (num den : Z) : Z :=
  let q := num / den in
  let r := num mod den in
  if 2 * r <? den then q else if den <? 2 * r then q + 1
  else if Z.even q then q else q + 1.

(** redundancy.py:142, 161 [np.round(v / (tol / 4))] *)
Definition grid_coord (tol x : Z) : Z :=
  if 0 <? tol then round_even (4 * x) tol else round_even (- (4 * x)) (- tol).
Definition grid_cell (tol : Z) (v : vec3) : vec3 :=
  let '(x, y, z) := v in (grid_coord tol x, grid_coord tol y, grid_coord tol z).

(** redundancy.py:144-145 *)
Definition p_or_m : list Z := [0; -1; 1].
Definition epsilons : list vec3 :=
  flat_map (fun dx => flat_map (fun dy => map (fun dz => (dx, dy, dz)) p_or_m) p_or_m) p_or_m.

Definition shift (v e : vec3) : vec3 :=
  let '(x, y, z) := v in let '(a, b, c) := e in (x + a, y + b, z + c).

(** redundancy.py:147-157 *)
Definition check_neighbors {A} (bl_gps : list (vec3 * list A)) (delta : vec3) : option vec3 :=
  find (fun key => dmem key_eqb key bl_gps) (map (shift delta) epsilons).

(** redundancy.py:160-168, one turn of the loop *)
Definition grid_step {A} (tol : Z) (bl_gps : list (vec3 * list A)) (p : A * vec3)
    : list (vec3 * list A) :=
  let '(bl, v) := p in
  let delta := grid_cell tol v in
  match check_neighbors bl_gps delta with
  | Some key => match dget key_eqb key bl_gps with
                | Ok gv => dset key_eqb key (gv ++ [bl]) bl_gps
                | Err _ => bl_gps
                end
  | None => dset key_eqb delta [bl] bl_gps
  end.

Definition grid_groups {A} (tol : Z) (items : list (A * vec3)) : list (vec3 * list A) :=
  fold_left (grid_step tol) items [].

(** redundancy.py:103-172; [location_vectors[bl_i]] past the end is an
    IndexError; the division by a zero grid size is not modelled. *)
Definition find_clusters_grid (ids : list Z) (vecs : list vec3) (tol : Z)
    : result (list (list Z)) :=
  if tol =? 0 then Err Undefined
  else if (length vecs <? length ids)%nat then Err IndexError
  else Ok (map (fun kv => isort Z.leb (snd kv)) (grid_groups tol (combine ids vecs))).

(** ** Redundant baselines *)

Definition coords (v : vec3) : list Z := let '(x, y, z) := v in [x; y; z].
Definition neg3 (v : vec3) : vec3 := let '(x, y, z) := v in (- x, - y, - z).

(** redundancy.py:229-235; [np.isclose(x, 0.0, atol=tol)] is [abs(x) <= tol] *)
Definition is_conjugate (tol : Z) (bv : vec3) : bool :=
  let '(u, v, w) := bv in
  let uneg := u <? - tol in
  let uzer := Z.abs u <=? tol in
  let vneg := v <? - tol in
  let vzer := Z.abs v <=? tol in
  let wneg := w <? - tol in
  uneg || (uzer && vneg) || (uzer && vzer && wneg).

Definition qz (z : Z) : Qc := Q2Qc (inject_Z z).
Definition qvec : Type := Qc * Qc * Qc.

(** redundancy.py:274, the mean of the rows *)
Definition mean_vec (vs : list vec3) : qvec :=
  (qmean (map (fun v => qz (fst (fst v))) vs), qmean (map (fun v => qz (snd (fst v))) vs),
   qmean (map (fun v => qz (snd v)) vs)).

(** redundancy.py:272-274 for one group.  When the ids of the group do not have
    exactly one row each, the mean has the wrong shape (or the index is
    ragged): a ValueError. *)
Definition group_center (baselines : list Z) (vecs : list vec3) (gp : list Z) : result qvec :=
  do rows <- mapM (fun i =>
       match filter (fun k => i =? nth k baselines 0) (seq 0 (length baselines)) with
       | [k] => Ok (nth k vecs (0, 0, 0))
       | _ => Err ValueError
       end) gp;
  Ok (mean_vec rows).

(** redundancy.py:249-277 ([lens], the norms of the centers, is left out) *)
Definition redundancies_plain (baselines : list Z) (vecs : list vec3) (tol : Z) (use_grid : bool)
    : result (list (list Z) * list qvec) :=
  do gps <- (if use_grid then find_clusters_grid baselines vecs tol
             else find_clusters baselines (map coords vecs) tol true);
  do centers <- mapM (group_center baselines vecs) gps;
  Ok (gps, centers).

(** redundancy.py:208-277.  The third component is [baseline_ind_conj], empty
    without [include_conjugates]. *)
Definition get_baseline_redundancies (baselines : list Z) (vecs : list vec3) (tol : Z)
    (include_conjugates use_grid : bool) : result (list (list Z) * list qvec * list Z) :=
  if negb (Nat.eqb (length vecs) (length baselines)) then Err ValueError else
  if include_conjugates then
    let conjugates := map (is_conjugate tol) vecs in
    let flipped := map (fun p : bool * vec3 => if fst p then neg3 (snd p) else snd p)
                       (combine conjugates vecs) in
    let conj := map snd (filter fst (combine conjugates baselines)) in
    do (gps, centers) <- redundancies_plain baselines flipped tol use_grid;
    Ok (gps, centers, conj)
  else
    do (gps, centers) <- redundancies_plain baselines vecs tol use_grid;
    Ok (gps, centers, []).

Definition sub3 (v w : vec3) : vec3 :=
  let '(a, b, c) := v in let '(x, y, z) := w in (a - x, b - y, c - z).

(** redundancy.py:348-352, the index pairs [(aj, ai)] in order *)
Definition ant_pairs (nants : nat) (include_autos : bool) : list (nat * nat) :=
  flat_map (fun aj =>
    let mini := if include_autos then aj else S aj in
    map (fun ai => (aj, ai)) (seq mini (nants - mini))) (seq 0 nants).

(** [antnums_to_baseline(a, b, Nants_telescope=n)] with scalar arguments *)
Definition scalar_baseline (a b n : Z) : result Z :=
  do l <- antnums_to_baseline [a] [b] (Some n) false false;
  match l with [x] => Ok x | _ => Err Undefined end.

(** [baseline_index_flip(bl, Nants_telescope=n)] with a scalar argument *)
Definition scalar_flip (bl n : Z) : result Z :=
  do l <- baseline_index_flip [bl] n;
  match l with [x] => Ok x | _ => Err Undefined end.

(** redundancy.py:280-369.  Without any pair of antennas [bl_vecs] has the
    shape (0,), refused by the check of line 222. *)
Definition get_antenna_redundancies (numbers : list Z) (positions : list vec3) (tol : Z)
    (include_autos use_grid : bool) : result (list (list Z) * list qvec) :=
  let nants := length numbers in
  let num i := nth i numbers 0 in
  let pos i := nth i positions (0, 0, 0) in
  let pairs := ant_pairs nants include_autos in
  do bls <- mapM (fun p : nat * nat =>
       scalar_baseline (num (fst p)) (num (snd p)) (Z.of_nat nants)) pairs;
  let bl_vecs := map (fun p : nat * nat => sub3 (pos (snd p)) (pos (fst p))) pairs in
  if Nat.eqb (length pairs) 0 then Err ValueError else
  do (gps, vecs, conjs) <- get_baseline_redundancies bls bl_vecs tol true use_grid;
  do gps <- mapM (mapM (fun bl => if isinZ bl conjs then scalar_flip bl (Z.of_nat nants) else Ok bl)) gps;
  Ok (gps, vecs).
