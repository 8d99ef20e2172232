(** Reading and writing blocks of a 3-d dataset:
    /repo/src/pyuvdata/utils/io/hdf5.py and the reader/writer of
    /repo/src/pyuvdata/uvdata/uvh5.py *)
From Coq Require Import List ZArith Bool Arith QArith.
From Verif Require Import Lib.Py Lib.Np Lib.Slice Lib.Cube Model.Tools.
Import ListNotations.
Open Scope Z_scope.

(** What [indices] may hold for one axis: an integer, a slice, a python list of
    integers, an integer ndarray, or a list of slices. *)
Inductive axis_sel :=
| AInt (i : Z) | ASlice (s : slice) | AList (l : list Z) | AArr (l : list Z) | ASlices (l : list slice).

Definition sumZ (l : list Z) : Z := fold_right Z.add 0 l.

(** hdf5.py:133-147: the length allocated for one axis ([dset_shape[i]]). An
    ndarray leaves the axis length unchanged. [inds[0]] of an empty list raises
    IndexError. *)
Definition sel_len (n : Z) (sel : axis_sel) : result Z :=
  match sel with
  | AInt _ => Ok 1
  | ASlice s => get_slice_len s n
  | AList [] => Err IndexError
  | AList l => Ok (Z.of_nat (length l))
  | AArr _ => Ok n
  | ASlices [] => Err IndexError
  | ASlices l => do lens <- mapM (fun s => get_slice_len s n) l; Ok (sumZ lens)
  end.

(** hdf5.py:214-222 *)
Fixpoint ssums (acc : Z) (lens : list Z) : list slice :=
  match lens with
  | [] => []
  | l :: lens => mkslice (Some acc) (Some (acc + l)) None :: ssums (acc + l) lens
  end.

(** What an index selects on an axis of length n of the dataset.  An integer
    index list must lie inside the axis. *)
Definition list_positions (n : Z) (l : list Z) : result (list nat) :=
  mapM (fun i => match norm_index (Z.to_nat n) i with Some k => Ok k | None => Err IndexError end) l.
Definition slice_positions (n : Z) (s : slice) : result (list nat) :=
  do l <- slice_indices s n; Ok (map Z.to_nat l).

(** hdf5.py:199-225: per axis the list of (arr slice, dset selection) pairs;
    [n] is the length of the dataset's axis *)
Definition sel_blocks (n : Z) (sel : axis_sel) : result (list (slice * axis_sel)) :=
  let full := mkslice None None None in
  match sel with
  | AInt i => Ok [(full, AList [i])]
  | ASlice s => Ok [(full, ASlice s)]
  | AList [] | AArr [] | ASlices [] => Err IndexError
  | AList l | AArr l => Ok [(full, AList l)]
  | ASlices l =>
      do lens <- mapM (fun s => get_slice_len s n) l;
      Ok (combine (ssums 0 lens) (map ASlice l))
  end.

Definition block_positions (n : Z) (sel : axis_sel) : result (list nat) :=
  match sel with
  | ASlice s => slice_positions n s
  | AList l => list_positions n l
  | _ => Err Undefined (* not produced by sel_blocks *)
  end.

Definition is_list (sel : axis_sel) : bool := match sel with AList _ | AArr _ | AInt _ => true | _ => false end.

(** One numpy/h5py assignment [dst[D0, D1, D2] = src]: axis k of [src] has
    length [len Sk]; length-1 axes are broadcast, other mismatches raise
    ValueError.  (For repeated destination positions the first is kept; numpy
    keeps the last.) *)
Definition assign3 {A} (D : list nat * list nat * list nat) (m : nat * nat * nat) (src : cube A) (dst : cube A)
    : result (cube A) :=
  let '(D0, D1, D2) := D in
  let '(m0, m1, m2) := m in
  let ok d m := ((m =? length d) || (m =? 1))%nat in
  let ix m p := if (m =? 1)%nat then 0%nat else p in
  if ok D0 m0 && ok D1 m1 && ok D2 m2 then
    Ok (fun i j k => match index_of Nat.eqb i D0, index_of Nat.eqb j D1, index_of Nat.eqb k D2 with
                     | Some p, Some q, Some r => src (ix m0 p) (ix m1 q) (ix m2 r)
                     | _, _, _ => dst i j k end)
  else Err ValueError.

Definition take3 {A} (S0 S1 S2 : list nat) (c : cube A) : cube A :=
  fun i j k => c (nth i S0 0%nat) (nth j S1 0%nat) (nth k S2 0%nat).

Definition foldM {A B} (f : A -> B -> result A) (l : list B) (a : A) : result A :=
  fold_left (fun acc x => do a <- acc; f a x) l (Ok a).

(** hdf5.py:227-245: all combinations of blocks; [np.meshgrid] makes the second
    axis the slowest *)
Definition block_product {A} (b0 b1 b2 : list A) : list (A * A * A) :=
  flat_map (fun y => flat_map (fun x => map (fun z => (x, y, z)) b2) b0) b1.

Definition shape3 := (Z * Z * Z)%type.

(** hdf5.py:152-257 with [input_array=None] on a 3-d dataset.  [fill] is the
    content of the uninitialised array.  More than one integer list is refused
    by h5py. *)
Definition read_dset {A} (fill : cube A) (shape : shape3) (dset : cube A) (sel : axis_sel * axis_sel * axis_sel)
    : result (shape3 * cube A) :=
  let '(n0, n1, n2) := shape in
  let '(s0, s1, s2) := sel in
  do a0 <- sel_len n0 s0; do a1 <- sel_len n1 s1; do a2 <- sel_len n2 s2;
  if (a0 <? 0) || (a1 <? 0) || (a2 <? 0) then Err ValueError else
  do b0 <- sel_blocks n0 s0; do b1 <- sel_blocks n1 s1; do b2 <- sel_blocks n2 s2;
  if (1 <? length (filter is_list [s0; s1; s2]))%nat then Err TypeError else
  do arr <- foldM (fun arr '(x0, x1, x2) =>
      do D0 <- slice_positions a0 (fst x0); do D1 <- slice_positions a1 (fst x1); do D2 <- slice_positions a2 (fst x2);
      do S0 <- block_positions n0 (snd x0); do S1 <- block_positions n1 (snd x1); do S2 <- block_positions n2 (snd x2);
      assign3 (D0, D1, D2) (length S0, length S1, length S2) (take3 S0 S1 S2 dset) arr)
    (block_product b0 b1 b2) fill;
  Ok ((a0, a1, a2), arr).

(** hdf5.py:152-257 with [input_array] of shape [ashape] *)
Definition write_dset {A} (shape : shape3) (dset : cube A) (sel : axis_sel * axis_sel * axis_sel)
    (ashape : shape3) (arr : cube A) : result (cube A) :=
  let '(n0, n1, n2) := shape in
  let '(s0, s1, s2) := sel in
  let '(a0, a1, a2) := ashape in
  do _ <- sel_len n0 s0; do _ <- sel_len n1 s1; do _ <- sel_len n2 s2;
  do b0 <- sel_blocks n0 s0; do b1 <- sel_blocks n1 s1; do b2 <- sel_blocks n2 s2;
  if (1 <? length (filter is_list [s0; s1; s2]))%nat then Err TypeError else
  foldM (fun dset '(x0, x1, x2) =>
      do S0 <- slice_positions a0 (fst x0); do S1 <- slice_positions a1 (fst x1); do S2 <- slice_positions a2 (fst x2);
      do D0 <- block_positions n0 (snd x0); do D1 <- block_positions n1 (snd x1); do D2 <- block_positions n2 (snd x2);
      assign3 (D0, D1, D2) (length S0, length S1, length S2) (take3 S0 S1 S2 arr) dset)
    (block_product b0 b1 b2) dset.

(** uvh5.py:758-800: how the selection of one axis is turned into an index.
    Returns (fancy index, sliced index, sliceable). *)
Definition axis_plan (frac : Q) (inds : option (list Z)) : axis_sel * axis_sel * bool :=
  match inds with
  | None => (ASlice (mkslice None None None), ASlice (mkslice None None None), true)
  | Some l =>
      let '(slices, ok) := convert_to_slices (IList l) frac None false in
      (AList l, ASlices (map (fun ix => match ix with ISlice s => s | _ => mkslice None None None end) slices), ok)
  end.

Definition pick (p : axis_sel * axis_sel * bool) : axis_sel :=
  let '(fancy, sliced, ok) := p in if ok then sliced else fancy.

Definition axis_frac (inds : option (list Z)) (n : Z) : Q :=
  match inds with None => 1 | Some l => (Z.of_nat (length l) # Z.to_pos n) end.

Definition opt_take (inds : option (list Z)) (n : Z) : list nat :=
  match inds with None => seq 0 (Z.to_nat n) | Some l => map Z.to_nat l end.

(** uvh5.py:875-883, 920-928, 965-973: fancy indexing of one axis of an array
    already read, skipped when the read was multi-dimensional or the axis is
    complete *)
Definition down_select {A} (multi : bool) (frac : Q) (inds : option (list Z)) (ax : nat) (r : shape3 * cube A)
    : shape3 * cube A :=
  if negb multi && negb (Qle_bool 1 frac) then
    match inds with
    | None => r
    | Some l =>
        let '((a0, a1, a2), c) := r in
        let m := Z.of_nat (length l) in
        match ax with
        | 0%nat => ((m, a1, a2), take0 (map Z.to_nat l) c)
        | 1%nat => ((a0, m, a2), take1 (map Z.to_nat l) c)
        | _ => ((a0, a1, m), take2 (map Z.to_nat l) c)
        end
    end
  else r.

(** uvh5.py:743-975 (one of the three datasets; index lists inside the axes).
    The trailing [visdata[..., freq_inds, :]] down-selections are fancy indexing
    of the array read. *)
Definition read_selected {A} (fill : cube A) (shape : shape3) (dset : cube A)
    (blt_inds freq_inds pol_inds : option (list Z)) (multidim_index : bool) : result (shape3 * cube A) :=
  let '(n0, n1, n2) := shape in
  let blt_frac := axis_frac blt_inds n0 in
  let freq_frac := axis_frac freq_inds n1 in
  let pol_frac := axis_frac pol_inds n2 in
  let qmin2 a b := if Qle_bool a b then a else b in
  let min_frac := qmin2 (qmin2 blt_frac freq_frac) pol_frac in
  let all := ASlice (mkslice None None None) in
  if Qeq_bool min_frac 1 then read_dset fill shape dset (all, all, all)
  else
    let pb := axis_plan (1 # 10) blt_inds in
    let pf := axis_plan (1 # 10) freq_inds in
    let pp := axis_plan (1 # 2) pol_inds in
    let nslice := length (filter (fun b : bool => b) [snd pb; snd pf; snd pp]) in
    let multi := multidim_index && negb (nslice <? 2)%nat in
    let other p := if multi then pick p else all in
    if Qeq_bool blt_frac min_frac then
      do r <- read_dset fill shape dset (pick pb, other pf, other pp);
      Ok (down_select multi pol_frac pol_inds 2%nat (down_select multi freq_frac freq_inds 1%nat r))
    else if Qeq_bool freq_frac min_frac then
      do r <- read_dset fill shape dset (other pb, pick pf, other pp);
      Ok (down_select multi pol_frac pol_inds 2%nat (down_select multi blt_frac blt_inds 0%nat r))
    else
      do r <- read_dset fill shape dset (other pb, other pf, pick pp);
      Ok (down_select multi freq_frac freq_inds 1%nat (down_select multi blt_frac blt_inds 0%nat r)).

(** uvh5.py:1780-1835: one axis of a partial write; [n] is the axis length of
    the object and of the file.  Returns the number of elements expected, the
    index and whether it is regularly spaced. *)
Definition part_axis (n : Z) (inds : option (list Z)) : result (Z * axis_sel * bool) :=
  match inds with
  | None => Ok (n, ASlice (mkslice None None None), true)
  | Some [] => Err IndexError
  | Some [x] => Ok (1, ASlice (mk x (x + 1) (Some 1)), true)
  | Some ((x :: y :: _) as l) =>
      let m := Z.of_nat (length l) in
      if all_diff (y - x) l then Ok (m, ASlice (mk x (last l 0 + 1) (Some (y - x))), true)
      else Ok (m, AList l, false)
  end.

(** uvh5.py:1857-1937: the (array positions, file positions) pairs looped over on
    one axis: one block, or one pair per index when the axis is looped over *)
Definition part_blocks (n m : Z) (sel : axis_sel) (loop : bool) : result (list (list nat * list nat)) :=
  do pos <- block_positions n sel;
  let src := seq 0 (Z.to_nat m) in
  if loop then Ok (map (fun '(p, q) => ([p], [q])) (combine src pos)) else Ok [(src, pos)].

(** uvh5.py:1740-1937 for one of the three datasets: [dset] is the file content
    of shape [shape], [arr] the array passed by the caller, of shape [ashape] *)
Definition write_part {A} (shape : shape3) (dset : cube A) (blt_inds freq_inds pol_inds : option (list Z))
    (ashape : shape3) (arr : cube A) : result (cube A) :=
  let '(n0, n1, n2) := shape in
  let '(a0, a1, a2) := ashape in
  do (p0, reg0) <- part_axis n0 blt_inds; let '(m0, s0) := p0 in
  do (p1, reg1) <- part_axis n1 freq_inds; let '(m1, s1) := p1 in
  do (p2, reg2) <- part_axis n2 pol_inds; let '(m2, s2) := p2 in
  if negb ((a0 =? m0) && (a1 =? m1) && (a2 =? m2)) then Err AssertionError else
  let few := (length (filter (fun b : bool => b) [reg0; reg1; reg2]) <? 2)%nat in
  do b0 <- part_blocks n0 m0 s0 (few && negb reg0);
  do b1 <- part_blocks n1 m1 s1 (few && negb reg1);
  do b2 <- part_blocks n2 m2 s2 (few && negb reg2);
  foldM (fun dset '(x0, x1, x2) =>
      assign3 (snd x0, snd x1, snd x2) (length (fst x0), length (fst x1), length (fst x2))
        (take3 (fst x0) (fst x1) (fst x2) arr) dset)
    (flat_map (fun x0 => flat_map (fun x1 => map (fun x2 => (x0, x1, x2)) b2) b1) b0) dset.
