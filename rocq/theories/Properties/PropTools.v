(** Properties C06-C08 and C10-C12: index lists, slices, set helpers, ranges. *)
From Coq Require Import List ZArith QArith Sorted String Lia.
From Verif Require Import Lib.Py Lib.Np Lib.Slice Model.Tools Spec.ToolsSpec Proofs.ToolsProofs.
Import ListNotations.
Open Scope Z_scope.

(** C06 *)
Theorem C06_slices_select_the_list :
  forall n l max_nslice_frac max_nslice return_index_on_fail,
  l <> [] -> increasing_in n l ->
  all_positions n (fst (convert_to_slices (IList l) max_nslice_frac max_nslice return_index_on_fail)) = Ok l.
Proof. exact convert_list_correct. Qed.
Print Assumptions C06_slices_select_the_list.

Example C06_case : increasing_in 20 [1; 2; 3; 10; 12; 14; 19] /\
  convert_to_slices (IList [1; 2; 3; 10; 12; 14; 19]) (1 # 10) None false =
  ([ISlice (mk 1 4 (Some 1)); ISlice (mk 10 15 (Some 2)); ISlice (mk 19 20 None)], false).
Proof.
  split; [|reflexivity]. split; repeat constructor; lia.
Qed.

Theorem C06_slices_select_the_mask :
  forall n m max_nslice_frac max_nslice return_index_on_fail,
  Z.of_nat (List.length m) <= n -> nonzero (fun b : bool => b) m <> [] ->
  all_positions n (fst (convert_to_slices (IMask m) max_nslice_frac max_nslice return_index_on_fail))
  = Ok (map Z.of_nat (nonzero (fun b : bool => b) m)).
Proof. exact convert_mask_correct. Qed.
Print Assumptions C06_slices_select_the_mask.

Example C06_mask_case :
  convert_to_slices (IMask [true; true; false; true; false; true]) (1 # 2) (Some 2) false =
  ([ISlice (mk 0 2 (Some 1)); ISlice (mk 3 6 (Some 2))], true).
Proof. reflexivity. Qed.

Theorem C06_flag_reports_slice_count :
  forall l max_nslice_frac k return_index_on_fail out chk,
  (2 < List.length l)%nat ->
  convert_to_slices (IList l) max_nslice_frac (Some k) return_index_on_fail = (out, chk) -> 1 <= k ->
  (chk = true -> Z.of_nat (List.length out) <= k /\ Forall (fun ix => exists s, ix = ISlice s) out) /\
  (chk = false -> return_index_on_fail = true -> out = [IList l]) /\
  (chk = false -> return_index_on_fail = false -> k < Z.of_nat (List.length out)).
Proof. exact convert_flag. Qed.
Print Assumptions C06_flag_reports_slice_count.

(** C06, finding: outside the strictly increasing domain the slices are wrong
    although success is reported. *)
Theorem C06_decreasing_refuted :
  exists l out, convert_to_slices (IList l) 1 None false = (out, true) /\
    all_positions 10 out <> Ok l /\ Forall (fun i => 0 <= i < 10) l /\ NoDup l.
Proof. exact convert_decreasing_wrong. Qed.
Print Assumptions C06_decreasing_refuted.

Theorem C06_duplicates_refuted :
  exists l out, convert_to_slices (IList l) 1 None false = (out, true) /\
    all_positions 10 out = Err ValueError /\ Sorted Z.le l /\ l <> [].
Proof. exact convert_duplicate_wrong. Qed.
Print Assumptions C06_duplicates_refuted.

(** An empty list yields a zero-step slice, which no axis accepts. *)
Theorem C06_empty_list :
  convert_to_slices (IList []) 1 None false = ([ISlice (mk 0 0 (Some 0))], false)
  /\ forall n, all_positions n [ISlice (mk 0 0 (Some 0))] = Err ValueError.
Proof. exact convert_empty. Qed.
Print Assumptions C06_empty_list.

(** C07 *)
Theorem C07_slicify_selects_the_list :
  forall n l, l <> [] -> increasing_in n l ->
  exists ix, slicify (Some (IList l)) = Some ix /\ positions n ix = Ok l.
Proof. exact slicify_correct. Qed.
Print Assumptions C07_slicify_selects_the_list.

Theorem C07_slicify_none_empty_slice :
  slicify None = None /\ slicify (Some (IList [])) = None
  /\ (forall s, slicify (Some (ISlice s)) = Some (ISlice s)).
Proof. exact slicify_none. Qed.
Print Assumptions C07_slicify_none_empty_slice.

(** It succeeds exactly on arithmetic progressions. *)
Theorem C07_slicify_succeeds_iff_progression :
  forall n x y l, increasing_in n (x :: y :: l) ->
  (exists s, slicify (Some (IList (x :: y :: l))) = Some (ISlice s)) <->
  (exists step, x :: y :: l = arith x step (S (S (List.length l)))).
Proof. exact slicify_is_slice_iff. Qed.
Print Assumptions C07_slicify_succeeds_iff_progression.

Example C07_case : slicify (Some (IList [2; 5; 8])) = Some (ISlice (mk 2 9 (Some 3)))
  /\ slicify (Some (IList [2; 5; 9])) = Some (IList [2; 5; 9])
  /\ increasing_in 10 [2; 5; 8].
Proof. split; [reflexivity|]. split; [reflexivity|]. split; repeat constructor; lia. Qed.

Theorem C07_slicify_decreasing_refuted :
  exists l ix, slicify (Some (IList l)) = Some ix /\ positions 10 ix <> Ok l
    /\ Forall (fun i => 0 <= i < 10) l /\ NoDup l.
Proof. exact slicify_decreasing_wrong. Qed.
Print Assumptions C07_slicify_decreasing_refuted.

(** C08 *)
Theorem C08_slice_length :
  forall s n l,
  match s_start s with None => True | Some v => 0 <= v end ->
  match s_stop s with None => True | Some v => 0 <= v end ->
  match s_step s with None => True | Some v => 0 < v end ->
  slice_indices s n = Ok l -> l <> [] -> 0 <= n ->
  get_slice_len s n = Ok (Z.of_nat (List.length l)).
Proof. exact get_slice_len_correct. Qed.
Print Assumptions C08_slice_length.

Example C08_case : slice_indices (mk 2 100 (Some 3)) 12 = Ok [2; 5; 8; 11]
  /\ get_slice_len (mk 2 100 (Some 3)) 12 = Ok 4.
Proof. split; reflexivity. Qed.

(** Why non-emptiness is needed: the computed length of an empty slice can be negative. *)
Theorem C08_empty_slice_length_refuted :
  exists s, slice_indices s 10 = Ok [] /\ get_slice_len s 10 = Ok (-5).
Proof. exact get_slice_len_empty_wrong. Qed.
Print Assumptions C08_empty_slice_length_refuted.

(** C10 *)
Theorem C10_union :
  forall o1 o2, StronglySorted Z.lt (sorted_unique_union o1 o2) /\
  forall x, In x (sorted_unique_union o1 o2) <->
    In x o1 \/ match o2 with Some l => In x l | None => False end.
Proof. exact union_spec. Qed.
Print Assumptions C10_union.

Theorem C10_intersection :
  forall o1 o2, StronglySorted Z.lt (sorted_unique_intersection o1 o2) /\
  forall x, In x (sorted_unique_intersection o1 o2) <->
    In x o1 /\ match o2 with Some l => In x l | None => True end.
Proof. exact inter_spec. Qed.
Print Assumptions C10_intersection.

Theorem C10_difference :
  forall o1 o2, StronglySorted Z.lt (sorted_unique_difference o1 o2) /\
  forall x, In x (sorted_unique_difference o1 o2) <->
    In x o1 /\ match o2 with Some l => ~ In x l | None => True end.
Proof. exact diff_spec. Qed.
Print Assumptions C10_difference.

Example C10_case : sorted_unique_union [3; 1; 3] (Some [2; 1]) = [1; 2; 3]
  /\ sorted_unique_intersection [3; 1; 3] (Some [2; 1]) = [1]
  /\ sorted_unique_difference [3; 1; 3] (Some [2; 1]) = [3].
Proof. repeat split. Qed.

(** C11; [slt] is the code-point order on strings. *)
Theorem C11_combined_filenames :
  forall f1 f2,
  (combine_filenames f1 f2 = None <-> f1 = None /\ f2 = None) /\
  (forall a, f1 = Some a -> f2 = None -> combine_filenames f1 f2 = Some a) /\
  (forall b, f1 = None -> f2 = Some b -> combine_filenames f1 f2 = Some b) /\
  (forall a b, f1 = Some a -> f2 = Some b ->
     exists c, combine_filenames f1 f2 = Some c /\
       StronglySorted (fun x y => String.compare x y = Lt) c /\
       forall x, In x c <-> In x a \/ In x b).
Proof. exact combine_filenames_spec. Qed.
Print Assumptions C11_combined_filenames.

Theorem C11_filename_algebra :
  forall f1 f2 f3, norm f1 -> norm f2 -> norm f3 ->
  combine_filenames f1 f2 = combine_filenames f2 f1 /\
  combine_filenames (combine_filenames f1 f2) f3 = combine_filenames f1 (combine_filenames f2 f3) /\
  combine_filenames f1 f1 = f1 /\ norm (combine_filenames f1 f2).
Proof. exact combine_filenames_algebra. Qed.
Print Assumptions C11_filename_algebra.

Example C11_case : norm (Some ["a"; "b"]%string) /\
  combine_filenames (Some ["a"; "b"]%string) (Some ["aa"; "b"]%string) = Some ["a"; "aa"; "b"]%string.
Proof. split; [repeat constructor|reflexivity]. Qed.

(** C12 *)
Theorem C12_range_overlap_exact :
  forall ranges, Forall (fun r => fst r < snd r) ranges ->
  exists b, check_range_overlap ranges = Ok b /\
  (b = true <-> exists i j, (i < List.length ranges)%nat /\ (j < List.length ranges)%nat /\ i <> j /\
     share_interior (nth i ranges (0, 0)) (nth j ranges (0, 0))).
Proof. exact check_range_overlap_exact. Qed.
Print Assumptions C12_range_overlap_exact.

Example C12_case : check_range_overlap [(5, 9); (0, 3); (3, 6)] = Ok true
  /\ check_range_overlap [(5, 9); (0, 3); (3, 5)] = Ok false.
Proof. split; reflexivity. Qed.

Theorem C12_malformed_ranges_rejected :
  forall ranges, check_range_overlap ranges = Err ValueError <-> exists r, In r ranges /\ snd r < fst r.
Proof. exact check_range_overlap_malformed. Qed.
Print Assumptions C12_malformed_ranges_rejected.
