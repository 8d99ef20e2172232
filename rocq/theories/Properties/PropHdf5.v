(** Properties C09 and C58: partial reads and writes of a dataset. *)
From Coq Require Import List ZArith QArith Sorted Lia.
From Verif Require Import Lib.Py Lib.Slice Lib.Cube Model.Tools Model.Hdf5 Spec.ToolsSpec Spec.Hdf5Spec Proofs.Hdf5Proofs.
Import ListNotations.
Open Scope Z_scope.

(** C09: indexing a dataset returns exactly the addressed block, *)
Theorem C09_read_returns_the_block :
  forall A (fill : cube A) n0 n1 n2 dset s0 s1 s2 l0 l1 l2,
  0 <= n0 -> 0 <= n1 -> 0 <= n2 ->
  selects n0 s0 l0 -> selects n1 s1 l1 -> selects n2 s2 l2 -> one_list s0 s1 s2 ->
  exists arr, read_dset fill (n0, n1, n2) dset (s0, s1, s2) = Ok (lengths l0 l1 l2, arr) /\ is_block dset l0 l1 l2 arr.
Proof. exact @read_dset_correct. Qed.
Print Assumptions C09_read_returns_the_block.

(** writing replaces exactly the addressed block, *)
Theorem C09_write_changes_exactly_the_block :
  forall A n0 n1 n2 (dset arr : cube A) s0 s1 s2 l0 l1 l2,
  0 <= n0 -> 0 <= n1 -> 0 <= n2 ->
  selects n0 s0 l0 -> selects n1 s1 l1 -> selects n2 s2 l2 -> one_list s0 s1 s2 ->
  NoDup l0 -> NoDup l1 -> NoDup l2 ->
  exists d', write_dset (n0, n1, n2) dset (s0, s1, s2) (lengths l0 l1 l2) arr = Ok d' /\ is_update dset l0 l1 l2 arr d'.
Proof. exact @write_dset_correct. Qed.
Print Assumptions C09_write_changes_exactly_the_block.

(** and reading back returns what was written. *)
Theorem C09_read_after_write :
  forall A (fill : cube A) n0 n1 n2 (dset arr : cube A) s0 s1 s2 l0 l1 l2,
  0 <= n0 -> 0 <= n1 -> 0 <= n2 ->
  selects n0 s0 l0 -> selects n1 s1 l1 -> selects n2 s2 l2 -> one_list s0 s1 s2 ->
  NoDup l0 -> NoDup l1 -> NoDup l2 ->
  exists d' back, write_dset (n0, n1, n2) dset (s0, s1, s2) (lengths l0 l1 l2) arr = Ok d' /\
    read_dset fill (n0, n1, n2) d' (s0, s1, s2) = Ok (lengths l0 l1 l2, back) /\
    forall i j k, (i < length l0)%nat -> (j < length l1)%nat -> (k < length l2)%nat -> back i j k = arr i j k.
Proof. exact @read_after_write. Qed.
Print Assumptions C09_read_after_write.

Example C09_case :
  selects 10 (ASlices [mk 1 4 (Some 1); mk 6 9 (Some 2)]) [1; 2; 3; 6; 8] /\
  selects 4 (AList [0; 3]) [0; 3] /\ selects 2 (ASlice (mkslice None None None)) [0; 1] /\
  one_list (ASlices [mk 1 4 (Some 1); mk 6 9 (Some 2)]) (AList [0; 3]) (ASlice (mkslice None None None)).
Proof.
  split.
  { change [1; 2; 3; 6; 8] with (concat [[1; 2; 3]; [6; 8]]). constructor; [discriminate|].
    constructor; [|constructor; [|constructor]];
      (split; [simpl; lia|]; split; [simpl; lia|]; split; [simpl; lia|]; split; [reflexivity|discriminate]). }
  split; [constructor; [discriminate|]; split; repeat constructor; lia|].
  split; [|unfold one_list; simpl; lia]. constructor. unfold plain_slice; simpl. repeat split; discriminate.
Qed.
Example C09_computes :
  match read_dset (fun _ _ _ => 0) (10, 4, 2) (fun i j k => Z.of_nat (100 * i + 10 * j + k))
    (ASlices [mk 1 4 (Some 1); mk 6 9 (Some 2)], AList [0; 3], ASlice (mkslice None None None)) with
  | Ok (sh, c) => sh = (5, 2, 2) /\ c 4%nat 1%nat 1%nat = 831
  | Err _ => False end.
Proof. vm_compute. auto. Qed.

(** C09, finding: an index given as an integer array, which the documentation
    allows, is not taken into account when the output is allocated; a
    one-element array silently fills the whole axis with one element. *)
Theorem C09_ndarray_index_refuted :
  exists (dset fill arr : cube Z),
    read_dset fill (3, 1, 1) dset (AArr [2], ASlice (mkslice None None None), ASlice (mkslice None None None))
    = Ok ((3, 1, 1), arr) /\ (forall i, (i < 3)%nat -> arr i 0%nat 0%nat = dset 2%nat 0%nat 0%nat) /\
    arr 0%nat 0%nat 0%nat <> dset 0%nat 0%nat 0%nat /\
    read_dset fill (3, 1, 1) dset (AArr [0; 2], ASlice (mkslice None None None), ASlice (mkslice None None None)) = Err ValueError.
Proof. exact ndarray_index_wrong. Qed.
Print Assumptions C09_ndarray_index_refuted.

(** C09, at the level of the uvh5 reader: whichever combination of slices, index
    lists and later down-selections it picks (the fractions selected, the
    sliceability of the lists, [multidim_index]), a partial read is the full
    array indexed with the three lists. *)
Theorem C09_partial_file_read_is_the_selection :
  forall A (fill : cube A) n0 n1 n2 dset blt_inds freq_inds pol_inds (multidim_index : bool) l0 l1 l2,
  0 < n0 -> 0 < n1 -> 0 < n2 ->
  chosen n0 blt_inds l0 -> chosen n1 freq_inds l1 -> chosen n2 pol_inds l2 ->
  exists arr, read_selected fill (n0, n1, n2) dset blt_inds freq_inds pol_inds multidim_index = Ok (lengths l0 l1 l2, arr)
    /\ is_block dset l0 l1 l2 arr.
Proof. exact @read_selected_correct. Qed.
Print Assumptions C09_partial_file_read_is_the_selection.

Example C09_partial_file_case :
  chosen 10 (Some [0; 1; 2; 5; 9]) [0; 1; 2; 5; 9] /\ chosen 4 (Some [0; 3]) [0; 3] /\ chosen 2 None [0; 1] /\
  match read_selected (fun _ _ _ => 0) (10, 4, 2) (fun i j k => Z.of_nat (100 * i + 10 * j + k))
    (Some [0; 1; 2; 5; 9]) (Some [0; 3]) None true with
  | Ok (sh, c) => sh = (5, 2, 2) /\ c 4%nat 1%nat 1%nat = 931
  | Err _ => False end.
Proof.
  split; [split; [reflexivity|]; split; [discriminate|]; split; repeat constructor; lia|].
  split; [split; [reflexivity|]; split; [discriminate|]; split; repeat constructor; lia|].
  split; [reflexivity|]. vm_compute. auto.
Qed.

(** C58: after any sequence of partial writes of blocks of one array (any order,
    overlaps and repetitions allowed) the file holds that array on every cell
    touched, and is unchanged elsewhere. *)
Theorem C58_partial_writes_accumulate :
  forall A n0 n1 n2 (full : cube A) ws d0,
  0 < n0 -> 0 < n1 -> 0 < n2 ->
  Forall (fun w => exists l0 l1 l2, part_of (n0, n1, n2) full w l0 l1 l2) ws ->
  exists d', write_parts (n0, n1, n2) ws d0 = Ok d' /\
    (forall i j k, touched (n0, n1, n2) full ws i j k -> d' i j k = full i j k) /\
    (forall i j k, ~ touched (n0, n1, n2) full ws i j k -> d' i j k = d0 i j k).
Proof. exact @write_parts_correct. Qed.
Print Assumptions C58_partial_writes_accumulate.

(** If the blocks cover the array, the file is the one a single whole write makes. *)
Theorem C58_parts_equal_whole :
  forall A n0 n1 n2 (full d0 d1 : cube A) ws,
  0 < n0 -> 0 < n1 -> 0 < n2 ->
  Forall (fun w => exists l0 l1 l2, part_of (n0, n1, n2) full w l0 l1 l2) ws ->
  (forall i j k, in_shape (n0, n1, n2) i j k -> touched (n0, n1, n2) full ws i j k) ->
  exists dp dw, write_parts (n0, n1, n2) ws d0 = Ok dp /\
    write_part (n0, n1, n2) d1 None None None (n0, n1, n2) full = Ok dw /\
    forall i j k, in_shape (n0, n1, n2) i j k -> dp i j k = dw i j k.
Proof. exact @parts_equal_whole. Qed.
Print Assumptions C58_parts_equal_whole.

(** An array of the wrong shape is refused. *)
Theorem C58_wrong_shape_refused :
  forall A n0 n1 n2 (dset arr : cube A) b f p l0 l1 l2 ashape,
  0 < n0 -> 0 < n1 -> 0 < n2 ->
  chosen n0 b l0 -> chosen n1 f l1 -> chosen n2 p l2 -> ashape <> lengths l0 l1 l2 ->
  write_part (n0, n1, n2) dset b f p ashape arr = Err AssertionError.
Proof. exact @write_part_shape. Qed.
Print Assumptions C58_wrong_shape_refused.

(** Two parts, the second irregular on two axes, covering a 4 x 4 x 1 file
    except rows 0, 1, 3 of channel 2. *)
Example C58_case : let full : cube Z := fun i j k => Z.of_nat (100 * i + 10 * j + k) in
  let w1 : part_write Z := (Some [2], None, None, (1, 4, 1), fun i j k => full (2 + i)%nat j k) in
  let w2 : part_write Z := (Some [0; 1; 3], Some [0; 1; 3], None, (3, 3, 1),
     fun i j k => full (nth i [0; 1; 3]%nat 0%nat) (nth j [0; 1; 3]%nat 0%nat) k) in
  part_of (4, 4, 1) full w1 [2] [0; 1; 2; 3] [0] /\ part_of (4, 4, 1) full w2 [0; 1; 3] [0; 1; 3] [0] /\
  match write_parts (4, 4, 1) [w1; w2] (fun _ _ _ => -1) with
  | Ok d => map (fun i => map (fun j => d i j 0%nat) [0; 1; 2; 3]%nat) [0; 1; 2; 3]%nat =
     [[0; 10; -1; 30]; [100; 110; -1; 130]; [200; 210; 220; 230]; [300; 310; -1; 330]]
  | Err _ => False end.
Proof.
  cbv zeta. split; [|split].
  - split; [split; [reflexivity|]; split; [discriminate|]; split; repeat constructor; lia|].
    split; [reflexivity|]. split; [reflexivity|]. split; [reflexivity|].
    intros i j k Hi Hj Hk. simpl in Hi, Hj, Hk.
    destruct i as [|i]; [|lia]. destruct k as [|k]; [|lia].
    destruct j as [|[|[|[|j]]]]; try lia; reflexivity.
  - split; [split; [reflexivity|]; split; [discriminate|]; split; repeat constructor; lia|].
    split; [split; [reflexivity|]; split; [discriminate|]; split; repeat constructor; lia|].
    split; [reflexivity|]. split; [reflexivity|].
    intros i j k Hi Hj Hk. simpl in Hi, Hj, Hk. destruct k as [|k]; [|lia].
    destruct i as [|[|[|i]]]; try lia; destruct j as [|[|[|j]]]; try lia; reflexivity.
  - vm_compute. reflexivity.
Qed.
