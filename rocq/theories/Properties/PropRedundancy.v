(** C46, C47, C48 and C70: clusters and redundant baselines. *)
From Coq Require Import List ZArith Bool Lia Permutation Sorted QArith Qcanon.
From Verif Require Import Lib.Py Lib.Np Lib.QSum Model.Bls Model.Redundancy Spec.RedundancySpec
  Proofs.RedundancyProofs Proofs.RedundancyGrid Proofs.RedundancyBaselines Proofs.RedundancyTotal Proofs.RedundancyRoutes.
Import ListNotations.
Open Scope Z_scope.

(** * C46 *)

(** The groups are exactly the isolated cliques: sets of locations pairwise
    closer than the tolerance with no other location that close to a member. No
    location is in two groups. *)
Theorem C46_groups_are_isolated_cliques : forall d ids vecs tol strict gps,
  shaped d vecs -> find_clusters ids vecs tol strict = Ok gps ->
  exists igs, Forall2 (ids_of ids) igs gps /\ NoDup (concat igs)
    /\ forall g, In g igs <-> isolated_clique tol vecs g.
Proof.
  exact (fun d ids vecs tol strict gps Hs H =>
    match clusters_spec d ids vecs tol strict gps Hs H with
    | ex_intro _ igs (conj A (conj B (conj C _))) => ex_intro _ igs (conj A (conj B C)) end).
Qed.
Print Assumptions C46_groups_are_isolated_cliques.

(** In strict mode every id is in exactly one group. *)
Theorem C46_strict_partitions : forall d ids vecs tol gps,
  shaped d vecs -> length ids = length vecs -> find_clusters ids vecs tol true = Ok gps ->
  Permutation (concat gps) ids.
Proof. exact clusters_strict_cover. Qed.
Print Assumptions C46_strict_partitions.

(** Strict mode refuses exactly the inputs where being near is not transitive. *)
Theorem C46_strict_refuses_ambiguity : forall d ids vecs tol,
  shaped d vecs -> vecs <> [] ->
  find_clusters ids vecs tol true = Err ValueError <->
  exists i j k, (i < length vecs)%nat /\ (j < length vecs)%nat /\ (k < length vecs)%nat
      /\ linked tol vecs i j /\ linked tol vecs j k /\ ~ linked tol vecs i k.
Proof. exact clusters_strict_fails. Qed.
Print Assumptions C46_strict_refuses_ambiguity.

(** Without strict it always answers. *)
Theorem C46_nonstrict_total : forall d ids vecs tol,
  shaped d vecs -> vecs <> [] -> exists gps, find_clusters ids vecs tol false = Ok gps.
Proof. exact clusters_total. Qed.
Print Assumptions C46_nonstrict_total.

(** The division into blocks, made to save memory, does not change the neighbours found. *)
Theorem C46_blocks_do_not_matter : forall d vecs tol nb,
  shaped d vecs -> (1 <= nb <= length vecs)%nat ->
  exists adj, adj_list vecs tol (Some nb) = Ok adj /\ length adj = length vecs
    /\ forall k, (k < length vecs)%nat -> StronglySorted lt (nth k adj [])
       /\ forall j, In j (nth k adj []) <-> (j < length vecs)%nat /\ linked tol vecs k j.
Proof. exact adj_list_blocks. Qed.
Print Assumptions C46_blocks_do_not_matter.

(** Without strict, ids of an ambiguous chain are in no group at all. *)
Theorem C46_nonstrict_covers_refuted : exists ids vecs tol,
  shaped 1 vecs /\ length ids = length vecs /\ find_clusters ids vecs tol false = Ok [[9]] /\ length ids = 4%nat.
Proof.
  exists [6; 7; 8; 9], [[0]; [3]; [6]; [20]], 4. split; [|split; [reflexivity|split; [reflexivity|reflexivity]]].
  split; [lia|]. intros v [<-|[<-|[<-|[<-|[]]]]]; reflexivity.
Qed.
Print Assumptions C46_nonstrict_covers_refuted.

Example C46_case : find_clusters [14; 11; 12; 13] [[0; 0]; [30; 0]; [1; 1]; [31; 2]] 5 true = Ok [[12; 14]; [11; 13]]
  /\ shaped 2 [[0; 0]; [30; 0]; [1; 1]; [31; 2]]
  /\ find_clusters [14; 11; 12] [[0]; [3]; [6]] 4 true = Err ValueError
  /\ adj_list [[0]; [30]; [1]; [31]] 5 (Some 3%nat) = Ok [[0; 2]; [1; 3]; [0; 2]; [1; 3]]%nat.
Proof.
  split; [reflexivity|]. split; [|split; reflexivity]. split; [lia|].
  intros v [<-|[<-|[<-|[<-|[]]]]]; reflexivity.
Qed.

(** * C47 *)

(** Every id is in exactly one group, as often as it is listed, and no group is empty. *)
Theorem C47_partition : forall ids vecs tol gps,
  find_clusters_grid ids vecs tol = Ok gps ->
  Permutation (concat gps) ids /\ Forall (fun g => g <> []) gps.
Proof. exact grid_partition. Qed.
Print Assumptions C47_partition.

(** It always answers. *)
Theorem C47_total : forall ids vecs tol, 0 < tol -> (length ids <= length vecs)%nat ->
  exists gps, find_clusters_grid ids vecs tol = Ok gps.
Proof. exact grid_total. Qed.
Print Assumptions C47_total.

(** Every member is closer than the tolerance to the first listed member of its
    group, and no coordinate of two members differs by more than three quarters
    of the tolerance. *)
Theorem C47_members_near_the_first : forall ids vecs tol gps, 0 < tol ->
  find_clusters_grid ids vecs tol = Ok gps ->
  exists igs, Forall2 (ids_of ids) igs gps
    /\ Permutation (concat igs) (seq 0 (length ids))
    /\ forall g, In g igs -> StronglySorted lt g /\
         exists first rest, g = first :: rest
         /\ (forall i, In i g -> near tol (xyz (nth i vecs (0, 0, 0))) (xyz (nth first vecs (0, 0, 0))))
         /\ (forall i j c, In i g -> In j g ->
               4 * Z.abs (nth c (xyz (nth i vecs (0, 0, 0))) 0 - nth c (xyz (nth j vecs (0, 0, 0))) 0) <= 3 * tol).
Proof. exact grid_spec. Qed.
Print Assumptions C47_members_near_the_first.

(** Two members of a group can be farther apart than the tolerance. *)
Theorem C47_pairwise_near_refuted : exists ids vecs tol,
  0 < tol /\ find_clusters_grid ids vecs tol = Ok [ids] /\ length vecs = length ids
  /\ ~ near tol (xyz (nth 1 vecs (0, 0, 0))) (xyz (nth 2 vecs (0, 0, 0))) /\ (2 < length ids)%nat.
Proof.
  exists [1; 2; 3], [(0, 0, 0); (14, 14, 14); (-14, -14, -14)], 40.
  split; [lia|]. split; [reflexivity|]. split; [reflexivity|]. split; [|simpl; lia].
  unfold near. simpl. lia.
Qed.
Print Assumptions C47_pairwise_near_refuted.

(** Two equal vectors can be put in different groups. *)
Theorem C47_equal_together_refuted : exists ids vecs tol,
  0 < tol /\ find_clusters_grid ids vecs tol = Ok [[1; 2]; [3; 4]] /\ ids = [1; 2; 3; 4]
  /\ nth 1 vecs (9, 9, 9) = nth 3 vecs (0, 0, 0).
Proof.
  exists [1; 2; 3; 4], [(10, 0, 0); (0, 0, 0); (-10, 0, 0); (0, 0, 0)], 40.
  split; [lia|]. split; [reflexivity|]. split; reflexivity.
Qed.
Print Assumptions C47_equal_together_refuted.

Example C47_case : find_clusters_grid [7; 5; 6; 7] [(100, 0, 0); (0, 100, 0); (105, 1, 2); (-1, 104, 3)] 20
  = Ok [[6; 7]; [5; 7]] /\ (0 < 20).
Proof. split; [reflexivity|lia]. Qed.

(** * C48 *)

(** The groups are a partition of the baselines, each group in increasing order;
    a baseline number listed twice is refused. *)
Theorem C48_partition : forall baselines vecs tol inc grid gps centers conj,
  get_baseline_redundancies baselines vecs tol inc grid = Ok (gps, centers, conj) ->
  Permutation (concat gps) baselines /\ NoDup baselines
  /\ Forall (fun g => g <> [] /\ StronglySorted Z.le g) gps.
Proof. exact redundant_partition. Qed.
Print Assumptions C48_partition.

(** The conjugates are exactly the baselines whose vector points back. *)
Theorem C48_conjugates : forall baselines vecs tol grid gps centers conj,
  get_baseline_redundancies baselines vecs tol true grid = Ok (gps, centers, conj) ->
  forall b, In b conj <->
    exists i, (i < length baselines)%nat /\ nth i baselines 0 = b /\ points_back tol (nth i vecs (0, 0, 0)).
Proof. exact redundant_conjugates. Qed.
Print Assumptions C48_conjugates.

(** Of a vector and its opposite exactly one points back, unless all its
    coordinates are within the tolerance. *)
Theorem C48_one_orientation : forall tol v, 0 <= tol -> oriented tol v ->
  (points_back tol v /\ ~ points_back tol (opposite v)) \/ (points_back tol (opposite v) /\ ~ points_back tol v).
Proof. exact points_back_xor. Qed.
Print Assumptions C48_one_orientation.

(** Reversing any of the baselines that have an orientation changes neither the
    groups nor their centers. *)
Theorem C48_orientation_does_not_matter : forall baselines vecs vecs' tol grid, 0 <= tol ->
  Forall2 (fun v v' => v' = v \/ (v' = opposite v /\ oriented tol v)) vecs vecs' ->
  match get_baseline_redundancies baselines vecs tol true grid,
        get_baseline_redundancies baselines vecs' tol true grid with
  | Ok (gps, centers, _), Ok (gps', centers', _) => gps = gps' /\ centers = centers'
  | Err e, Err e' => e = e'
  | _, _ => False
  end.
Proof. exact orientation_independent. Qed.
Print Assumptions C48_orientation_does_not_matter.

(** Turned forward, the vectors of a group are near the vector of one of its
    members (grid algorithm), or pairwise near and near no vector of another
    group (clustering); the center of the group is their mean. *)
Theorem C48_groups_near_and_centers : forall baselines vecs tol grid gps centers conj, 0 < tol ->
  get_baseline_redundancies baselines vecs tol true grid = Ok (gps, centers, conj) ->
  exists fwd : list (Z * Z * Z),
    Forall2 (fun v w => (~ points_back tol v /\ w = v) \/ (points_back tol v /\ w = opposite v)) vecs fwd
    /\ exists igs, Forall2 (fun g gp => gp = map (fun i => nth i baselines 0) g) igs gps
    /\ Permutation (concat igs) (seq 0 (length baselines))
    /\ Forall2 (fun g c => c =
         (qmean (map (fun i => qz (nth 0 (xyz (nth i fwd (0, 0, 0))) 0)) g),
          qmean (map (fun i => qz (nth 1 (xyz (nth i fwd (0, 0, 0))) 0)) g),
          qmean (map (fun i => qz (nth 2 (xyz (nth i fwd (0, 0, 0))) 0)) g))) igs centers
    /\ forall g, In g igs ->
       if grid then exists first, In first g /\
         forall i, In i g -> near tol (xyz (nth i fwd (0, 0, 0))) (xyz (nth first fwd (0, 0, 0)))
       else forall i j, In i g -> (j < length baselines)%nat ->
         (In j g <-> (i = j \/ near tol (xyz (nth i fwd (0, 0, 0))) (xyz (nth j fwd (0, 0, 0))))).
Proof. exact redundant_groups. Qed.
Print Assumptions C48_groups_near_and_centers.

(** The grid algorithm answers for any distinct baselines. *)
Theorem C48_total : forall baselines vecs tol inc,
  NoDup baselines -> length vecs = length baselines -> 0 < tol ->
  exists gps centers conj, get_baseline_redundancies baselines vecs tol inc true = Ok (gps, centers, conj).
Proof. exact redundancies_total. Qed.
Print Assumptions C48_total.

(** Two baselines much nearer than the tolerance are kept apart if their first
    coordinates are on either side of minus the tolerance. *)
Theorem C48_near_together_refuted : exists v w tol,
  near tol (xyz v) (xyz w) /\
  forall grid, exists centers conj, get_baseline_redundancies [1; 2] [v; w] tol true grid = Ok ([[1]; [2]], centers, conj).
Proof.
  exists (-10, 100, 0), (-11, 100, 0), 10. split; [unfold near; simpl; lia|].
  intros [|]; eexists; eexists; vm_compute; reflexivity.
Qed.
Print Assumptions C48_near_together_refuted.

Definition is_gps (gps : list (list Z)) (conj : list Z) (r : result (list (list Z) * list qvec * list Z)) : bool :=
  match r with
  | Ok (g, _, c) => if list_eq_dec (list_eq_dec Z.eq_dec) g gps then
                      if list_eq_dec Z.eq_dec c conj then true else false else false
  | Err _ => false
  end.

Example C48_case :
  is_gps [[1; 2]; [3]] [2]
    (get_baseline_redundancies [1; 2; 3] [(30, 0, 0); (-31, 1, 0); (0, 30, 0)] 4 true true) = true
  /\ is_gps [[1; 2]; [3]] [2]
    (get_baseline_redundancies [1; 2; 3] [(30, 0, 0); (-31, 1, 0); (0, 30, 0)] 4 true false) = true
  /\ oriented 4 (-31, 1, 0) /\ points_back 4 (-31, 1, 0)
  /\ NoDup [1; 2; 3] /\ length [(30, 0, 0); (-31, 1, 0); (0, 30, 0)] = length [1; 2; 3].
Proof.
  split; [vm_compute; reflexivity|]. split; [vm_compute; reflexivity|].
  split; [unfold oriented; lia|]. split; [unfold points_back; lia|]. split; [|reflexivity].
  repeat constructor; simpl; lia.
Qed.

(** * C70 *)

(** The groups found from the antenna positions list every pair of antennas (and
    every antenna with itself, when asked) exactly once, as the number of the
    pair ordered so that the vector from the first antenna to the second does
    not point back; the vectors of a group are near as in C48, and the center is
    their mean. *)
Theorem C70_every_pair_once : forall numbers positions tol autos grid gps centers, 0 <= tol ->
  get_antenna_redundancies numbers positions tol autos grid = Ok (gps, centers) ->
  let n := length numbers in
  let vec p := sub3 (nth (snd p) positions (0, 0, 0)) (nth (fst p) positions (0, 0, 0)) in
  exists pgps : list (list (nat * nat)),
    Forall2 (Forall2 (fun p bl => baseline_to_antnums [bl] (Z.of_nat n)
                                  = Ok ([nth (fst p) numbers 0], [nth (snd p) numbers 0]))) pgps gps
    /\ (forall p, In p (concat pgps) -> ~ points_back tol (vec p))
    /\ NoDup (map (fun p => (Nat.min (fst p) (snd p), Nat.max (fst p) (snd p))) (concat pgps))
    /\ (forall i j, (i <= j)%nat ->
         In (i, j) (map (fun p => (Nat.min (fst p) (snd p), Nat.max (fst p) (snd p))) (concat pgps))
         <-> (j < n)%nat /\ (autos = true \/ i <> j))
    /\ Forall2 (fun g c => c = mean_vec (map vec g)) pgps centers
    /\ (forall g, In g pgps -> g <> [] /\
          if grid then 0 < tol -> exists first, In first g /\
               forall p, In p g -> near tol (xyz (vec p)) (xyz (vec first))
          else forall p q, In p g -> In q (concat pgps) ->
               (In q g <-> (p = q \/ near tol (xyz (vec p)) (xyz (vec q))))).
Proof. exact antenna_pairs_once. Qed.
Print Assumptions C70_every_pair_once.

(** The grid algorithm answers for two or more antennas with distinct valid numbers. *)
Theorem C70_total : forall numbers positions tol autos,
  NoDup numbers -> Forall (fun a => 0 <= a < 2147483648) numbers ->
  Z.of_nat (length numbers) <= 2147483648 -> (2 <= length numbers)%nat -> 0 < tol ->
  exists gps centers, get_antenna_redundancies numbers positions tol autos true = Ok (gps, centers).
Proof. exact antenna_total. Qed.
Print Assumptions C70_total.

(** The docstring has the vector the other way round: from the second antenna to the first. *)
Theorem C70_docstring_sign_refuted : exists numbers positions tol bl centers,
  get_antenna_redundancies numbers positions tol false true = Ok ([[bl]], centers)
  /\ baseline_to_antnums [bl] 2 = Ok ([nth 0 numbers 0], [nth 1 numbers 0])
  /\ points_back tol (sub3 (nth 0 positions (0, 0, 0)) (nth 1 positions (0, 0, 0))).
Proof.
  exists [3; 5], [(0, 0, 0); (50, 0, 0)], 1. eexists. eexists.
  split; [vm_compute; reflexivity|]. split; [vm_compute; reflexivity|]. unfold points_back. simpl. lia.
Qed.
Print Assumptions C70_docstring_sign_refuted.

Definition just_gps (r : result (list (list Z) * list qvec)) : list (list Z) :=
  match r with Ok (g, _) => g | Err _ => [] end.

(** Antennas 3, 5, 4000 on a line: 3-5 and 5-4000 are redundant, the second
    turned round and with a number of the large kind. *)
Example C70_case :
  map (map (fun b => baseline_to_antnums [b] 3))
    (just_gps (get_antenna_redundancies [3; 4000; 5] [(0, 0, 0); (100, 0, 0); (50, 0, 0)] 1 false true))
  = [[Ok ([3], [4000])]; [Ok ([3], [5]); Ok ([5], [4000])]]
  /\ NoDup [3; 4000; 5] /\ Forall (fun a => 0 <= a < 2147483648) [3; 4000; 5].
Proof.
  split; [vm_compute; reflexivity|]. split; [repeat constructor; simpl; lia|].
  repeat constructor; lia.
Qed.
