(** Properties C20-C23 and C63: looking up and writing data by baseline. *)
From Coq Require Import List ZArith Bool Sorted String Lia.
From Verif Require Import Lib.Py Lib.Cube Lib.Slice Spec.BltSpec Spec.PolSpec Spec.ToolsSpec Spec.UVDataSpec Spec.AccessSpec
  Model.Tools Model.Pol Model.UVData Model.Hdf5 Model.Access Proofs.AccessProofs Proofs.AccessRead Proofs.Samples.
Import ListNotations.
Open Scope Z_scope.
Open Scope list_scope.
Notation length := List.length.

(** C20: after any history of calls, the answer is an index that selects exactly
    the rows of the pair, in increasing order. *)
Theorem C20_antpair2ind_finds_rows :
  forall o a b, reachable o -> consistent (o_u o) ->
  exists ix, snd (antpair2ind a b true o) = Ok ix /\
    finds (length (time_array (o_u o))) ix (pair_rows (o_u o) a b).
Proof. exact antpair2ind_ordered. Qed.
Print Assumptions C20_antpair2ind_finds_rows.

Theorem C20_antpair2ind_either_order :
  forall o a b, reachable o -> consistent (o_u o) -> a <> b ->
  ~ (exists x y, pair_rows (o_u o) a b = [x] /\ pair_rows (o_u o) b a = [y] /\ (y < x)%nat) ->
  exists ix, snd (antpair2ind a b false o) = Ok ix /\
    finds (length (time_array (o_u o))) ix (pair_rows (o_u o) a b ++ pair_rows (o_u o) b a).
Proof. exact antpair2ind_unordered. Qed.
Print Assumptions C20_antpair2ind_either_order.

(** A rectangular object whose second baseline is asked for after a query. *)
Example C20_case : consistent square /\ exists o ix,
  o = fst (antpair2ind 0 1 true (fresh square None)) /\ reachable o /\
  snd (antpair2ind 2 0 true o) = Ok (Some ix) /\ positions 4 ix = Ok [1; 3] /\ pair_rows square 2 0 = [1; 3]%nat.
Proof.
  split; [exact square_consistent|]. do 2 eexists. split; [reflexivity|]. split.
  - eapply reach_step; [apply fresh_reachable|]. apply st_antpair2ind. exact square_consistent.
  - split; [reflexivity|]. split; reflexivity.
Qed.

(** Finding: with one row per orientation, the reversed one first, no row (or
    only one) is selected. *)
Theorem C20_two_rows_reversed_refuted :
  exists o, reachable o /\ consistent (o_u o) /\
  pair_rows (o_u o) 0 1 = [1%nat] /\ pair_rows (o_u o) 1 0 = [0%nat] /\
  exists ix, snd (antpair2ind 0 1 false o) = Ok (Some ix) /\ positions (Z.of_nat (length (time_array (o_u o)))) ix = Ok [].
Proof. exact unordered_pair_lost. Qed.
Print Assumptions C20_two_rows_reversed_refuted.

(** C21: after any history of calls, get_data, get_flags, get_nsamples and
    get_times return the rows stored as asked followed by the (conjugated) rows
    stored the other way round; KeyError exactly if there is nothing. *)
Theorem C21_get_returns_the_baseline :
  forall o k R1 P1 R2 P2, reachable o -> consistent (o_u o) ->
  key_cells (o_u o) (o_xo o) k R1 P1 R2 P2 -> ~ opposite_order P2 ->
  let u := o_u o in let nf := length (freq_array u) in
  (absent R1 P1 R2 P2 ->
     snd (get_data k o) = Err KeyError /\ snd (get_flags k o) = Err KeyError /\ snd (get_nsamples k o) = Err KeyError) /\
  (~ absent R1 P1 R2 P2 -> (R1 <> [] -> R2 <> [] -> length P1 = length P2) ->
     snd (get_data k o) = Ok (expected cconj (data_array u) nf R1 P1 R2 P2) /\
     snd (get_flags k o) = Ok (expected (fun b => b) (flag_array u) nf R1 P1 R2 P2) /\
     snd (get_nsamples k o) = Ok (expected (fun z => z) (nsample_array u) nf R1 P1 R2 P2) /\
     snd (get_times k o) = Ok (map (fun i => nth i (time_array u) 0) (R1 ++ R2))) /\
  (R1 <> [] -> R2 <> [] -> length P1 <> length P2 ->
     snd (get_data k o) = Err ValueError /\ snd (get_flags k o) = Err ValueError /\ snd (get_nsamples k o) = Err ValueError).
Proof. exact get_data_cells. Qed.
Print Assumptions C21_get_returns_the_baseline.

(** Reading (0, 2, yx) from rows stored as (2, 0): the xy column, conjugated. *)
Example C21_case :
  key_cells square (Some "east"%string) (KPairS 0 2 "yx") [] [3%nat] [1; 3]%nat [2%nat] /\
  ~ opposite_order [2%nat] /\
  snd (get_data (KPairS 0 2 "yx") (fresh square (Some "east"%string))) =
    Ok [[[(102, -2)]; [(112, -2)]; [(122, -2)]]; [[(302, -4)]; [(312, -4)]; [(322, -4)]]].
Proof.
  split; [|split].
  - apply (cells_pair_name square (Some "east"%string) 0 2 "yx" (-8)); [reflexivity|]. unfold legal_pol. simpl. lia.
  - intros [H _]. simpl in H. lia.
  - reflexivity.
Qed.

(** If some stored polarization has no stored conjugate, a pair key gives only
    the rows stored as asked; rows stored the other way round are left out. *)
Theorem C21_unconjugable_polarizations :
  forall o a b, reachable o -> consistent (o_u o) -> Forall legal_pol (polarization_array (o_u o)) ->
  (exists p, In p (polarization_array (o_u o)) /\ ~ In (swapped p) (polarization_array (o_u o))) ->
  reverse_rows (o_u o) a b <> [] ->
  snd (get_data (KPair a b) o) =
    match pair_rows (o_u o) a b with
    | [] => Err KeyError
    | R1 => Ok (expected cconj (data_array (o_u o)) (length (freq_array (o_u o))) R1 (seq 0 (length (polarization_array (o_u o)))) [] [])
    end.
Proof. exact unconjugable_rows. Qed.
Print Assumptions C21_unconjugable_polarizations.

Example C21_unconjugable_case : consistent both_ways /\ pair_rows both_ways 0 1 = [1%nat] /\ reverse_rows both_ways 0 1 = [0%nat] /\
  In (-7) (polarization_array both_ways) /\ ~ In (swapped (-7)) (polarization_array both_ways).
Proof.
  split; [exact both_ways_consistent|]. split; [reflexivity|]. split; [reflexivity|].
  split; [simpl; auto|]. simpl. intros [H|[H|[]]]; discriminate.
Qed.

(** Findings.  Cross polarizations stored in the order that conjugation exactly
    reverses are silently dropped; a polarization present in one orientation only
    makes get_data raise although get_times answers; rows are silently left out. *)
Theorem C21_reversed_polarizations_refuted :
  exists o P2, reachable o /\ consistent (o_u o) /\
  key_cells (o_u o) (o_xo o) (KPair 0 1) [] [0; 1]%nat [0%nat] P2 /\ opposite_order P2 /\
  snd (get_data (KPair 0 1) o) = Ok [[[]; []; []]] /\
  expected cconj (data_array (o_u o)) (length (freq_array (o_u o))) [] [0; 1]%nat [0%nat] P2 <> [[[]; []; []]].
Proof. exact cross_pols_lost. Qed.
Print Assumptions C21_reversed_polarizations_refuted.

Theorem C21_one_sided_polarization_refuted :
  exists o, reachable o /\ consistent (o_u o) /\
  key_cells (o_u o) (o_xo o) (KPairN 0 1 (-7)) [1%nat] [1%nat] [0%nat] [] /\
  snd (get_data (KPairN 0 1 (-7)) o) = Err ValueError /\ snd (get_times (KPairN 0 1 (-7)) o) = Ok [1; 1].
Proof. exact pol_one_way. Qed.
Print Assumptions C21_one_sided_polarization_refuted.

Theorem C21_rows_left_out_refuted :
  exists o, reachable o /\ consistent (o_u o) /\
  pair_rows (o_u o) 0 1 = [1%nat] /\ reverse_rows (o_u o) 0 1 = [0%nat] /\
  exists row, snd (get_data (KPair 0 1) o) = Ok [row].
Proof. exact rows_dropped. Qed.
Print Assumptions C21_rows_left_out_refuted.

(** C22: a setter replaces exactly the cells of the key, and reading them back
    gives what was written; otherwise nothing changes. *)
Theorem C22_set_data :
  forall sh arr o k R1 P1 R2 P2,
  reachable o -> consistent (o_u o) -> freq_array (o_u o) <> [] -> NoDup (polarization_array (o_u o)) ->
  key_cells (o_u o) (o_xo o) k R1 P1 R2 P2 -> ~ opposite_order P2 ->
  let u := o_u o in
  let r := set_data sh arr k o in
  o_xo (fst r) = o_xo o /\
  (absent R1 P1 R2 P2 -> snd r = Err KeyError /\ o_u (fst r) = u) /\
  (~ absent R1 P1 R2 P2 -> R2 <> [] -> snd r = Err ValueError /\ o_u (fst r) = u) /\
  (~ absent R1 P1 R2 P2 -> R2 = [] ->
     sh <> (Z.of_nat (length R1), Z.of_nat (length (freq_array u)), Z.of_nat (length P1)) ->
     snd r = Err ValueError /\ o_u (fst r) = u) /\
  (~ absent R1 P1 R2 P2 -> R2 = [] ->
     sh = (Z.of_nat (length R1), Z.of_nat (length (freq_array u)), Z.of_nat (length P1)) ->
     snd r = Ok tt /\ (exists c, o_u (fst r) = set_data_array c u /\ replaced (data_array u) c (length (freq_array u)) R1 P1 arr) /\
     snd (get_data k (fst r)) = Ok (entries (length R1) (length (freq_array u)) (length P1) arr)).
Proof. exact set_data_cells. Qed.
Print Assumptions C22_set_data.

Theorem C22_set_flags :
  forall sh arr o k R1 P1 R2 P2,
  reachable o -> consistent (o_u o) -> freq_array (o_u o) <> [] -> NoDup (polarization_array (o_u o)) ->
  key_cells (o_u o) (o_xo o) k R1 P1 R2 P2 -> ~ opposite_order P2 ->
  let u := o_u o in
  let r := set_flags sh arr k o in
  o_xo (fst r) = o_xo o /\
  (absent R1 P1 R2 P2 -> snd r = Err KeyError /\ o_u (fst r) = u) /\
  (~ absent R1 P1 R2 P2 -> R2 <> [] -> snd r = Err ValueError /\ o_u (fst r) = u) /\
  (~ absent R1 P1 R2 P2 -> R2 = [] ->
     sh <> (Z.of_nat (length R1), Z.of_nat (length (freq_array u)), Z.of_nat (length P1)) ->
     snd r = Err ValueError /\ o_u (fst r) = u) /\
  (~ absent R1 P1 R2 P2 -> R2 = [] ->
     sh = (Z.of_nat (length R1), Z.of_nat (length (freq_array u)), Z.of_nat (length P1)) ->
     snd r = Ok tt /\ (exists c, o_u (fst r) = set_flag_array c u /\ replaced (flag_array u) c (length (freq_array u)) R1 P1 arr) /\
     snd (get_flags k (fst r)) = Ok (entries (length R1) (length (freq_array u)) (length P1) arr)).
Proof. exact set_flags_cells. Qed.
Print Assumptions C22_set_flags.

Theorem C22_set_nsamples :
  forall sh arr o k R1 P1 R2 P2,
  reachable o -> consistent (o_u o) -> freq_array (o_u o) <> [] -> NoDup (polarization_array (o_u o)) ->
  key_cells (o_u o) (o_xo o) k R1 P1 R2 P2 -> ~ opposite_order P2 ->
  let u := o_u o in
  let r := set_nsamples sh arr k o in
  o_xo (fst r) = o_xo o /\
  (absent R1 P1 R2 P2 -> snd r = Err KeyError /\ o_u (fst r) = u) /\
  (~ absent R1 P1 R2 P2 -> R2 <> [] -> snd r = Err ValueError /\ o_u (fst r) = u) /\
  (~ absent R1 P1 R2 P2 -> R2 = [] ->
     sh <> (Z.of_nat (length R1), Z.of_nat (length (freq_array u)), Z.of_nat (length P1)) ->
     snd r = Err ValueError /\ o_u (fst r) = u) /\
  (~ absent R1 P1 R2 P2 -> R2 = [] ->
     sh = (Z.of_nat (length R1), Z.of_nat (length (freq_array u)), Z.of_nat (length P1)) ->
     snd r = Ok tt /\ (exists c, o_u (fst r) = set_nsample_array c u /\ replaced (nsample_array u) c (length (freq_array u)) R1 P1 arr) /\
     snd (get_nsamples k (fst r)) = Ok (entries (length R1) (length (freq_array u)) (length P1) arr)).
Proof. exact set_nsamples_cells. Qed.
Print Assumptions C22_set_nsamples.

(** Writing the pair (2, 0) of the rectangular object. *)
Definition block22 : cube (Z * Z) := fun i j k => (Z.of_nat (1000 + 100 * i + 10 * j + k), 7).
Example C22_case : consistent square /\ NoDup (polarization_array square) /\
  key_cells square None (KPairN 2 0 (-7)) [1; 3]%nat [2%nat] [] [3%nat] /\
  ~ absent [1; 3]%nat [2%nat] [] [3%nat] /\
  let r := set_data (2, 3, 1) block22 (KPairN 2 0 (-7)) (fresh square None) in
  snd r = Ok tt /\ data_array (o_u (fst r)) 3%nat 1%nat 2%nat = (1110, 7) /\ data_array (o_u (fst r)) 3%nat 1%nat 1%nat = (311, 4).
Proof.
  split; [exact square_consistent|]. split; [repeat constructor; simpl; intuition discriminate|]. split.
  - apply (cells_pair_number square None 2 0 (-7)). unfold legal_pol. simpl. lia.
  - split; [intros [[H|H] _]; discriminate|]. repeat split.
Qed.

(** C23: after any history of queries and modifications every query answers as on
    a new object with the same arrays. *)
Theorem C23_no_stale_answers :
  forall o, reachable o -> consistent (o_u o) ->
  let f := fresh (o_u o) (o_xo o) in
  (forall a b ord, exists v w, snd (antpair2ind a b ord o) = Ok v /\ snd (antpair2ind a b ord f) = Ok w /\
     match v, w with
     | None, None => True
     | Some i, Some j => positions (Z.of_nat (length (time_array (o_u o)))) i = positions (Z.of_nat (length (time_array (o_u o)))) j
     | _, _ => False end) /\
  (forall k, snd (get_data k o) = snd (get_data k f)) /\
  (forall k, snd (get_flags k o) = snd (get_flags k f)) /\
  (forall k, snd (get_nsamples k o) = snd (get_nsamples k f)) /\
  (forall k, snd (get_times k o) = snd (get_times k f)).
Proof. exact same_as_fresh. Qed.
Print Assumptions C23_no_stale_answers.

(** A query, then the antenna arrays are exchanged, then the same query. *)
Example C23_case : exists o,
  o = clear_antpair2ind_cache (mkobj both_ways None (o_apc (fst (get_data (KPair 0 1) (fresh square None)))) (o_kc (fst (get_data (KPair 0 1) (fresh square None))))) /\
  reachable o /\ consistent (o_u o) /\ o_kc (fst (get_data (KPair 0 1) (fresh square None))) <> [].
Proof.
  eexists. split; [reflexivity|]. split; [|split; [exact both_ways_consistent|discriminate]].
  eapply reach_step; [eapply reach_step; [apply (fresh_reachable square None)|apply (st_get_data _ (KPair 0 1)); exact square_consistent]|].
  apply st_assign_ants.
Qed.

(** Finding: telescope.x_orientation is not watched; a polarization given by a
    feed-direction name is answered from the cache after it changes. *)
Theorem C23_x_orientation_refuted :
  exists o xo, reachable o /\ consistent (o_u o) /\
  let o' := mkobj (o_u o) xo (o_apc o) (o_kc o) in
  exists r r', snd (get_data (KPol "en") o') = Ok r /\ snd (get_data (KPol "en") (fresh (o_u o') xo)) = Ok r' /\ r <> r'.
Proof. exact orientation_stale. Qed.
Print Assumptions C23_x_orientation_refuted.

(** C63: the lists of baselines, antenna pairs and antennas are exact. *)
Theorem C63_get_baseline_nums_exact :
  forall u, consistent u -> exists l, get_baseline_nums u = Ok l /\ NoDup l /\ (forall b, In b l <-> In b (baseline_array u)).
Proof. exact get_bls_ok. Qed.
Print Assumptions C63_get_baseline_nums_exact.

Theorem C63_get_antpairs_exact :
  forall u, consistent u -> exists l, get_antpairs u = Ok l /\ NoDup l /\ (forall a b, In (a, b) l <-> pair_rows u a b <> []).
Proof. exact get_pairs_ok. Qed.
Print Assumptions C63_get_antpairs_exact.

Theorem C63_get_ants_exact :
  forall u, consistent u -> exists l, get_ants u = Ok l /\ StronglySorted Z.lt l /\
  (forall a, In a l <-> In a (ant_1_array u) \/ In a (ant_2_array u)).
Proof. exact get_ants_ok. Qed.
Print Assumptions C63_get_ants_exact.

Example C63_case : consistent square /\ get_antpairs square = Ok [(0, 1); (2, 0)] /\ get_ants square = Ok [0; 1; 2].
Proof. split; [exact square_consistent|]. split; reflexivity. Qed.
