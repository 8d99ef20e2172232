(** C57: inflate_by_redundancy. *)
From Coq Require Import List ZArith Bool Lia Permutation.
From Verif Require Import Lib.Py Lib.Np Lib.Cube Spec.BltSpec Spec.BlsSpec Spec.PolSpec Spec.UVDataSpec Spec.RedundancySpec Spec.ConjSpec Spec.InflateSpec.
From Verif Require Import Model.Bls Model.UVData Model.Reorder Model.Redundancy Model.Inflate.
From Verif Require Import Proofs.Samples Proofs.InflateTop Proofs.InflateNames Proofs.InflateCases.
Import ListNotations.
Open Scope Z_scope.

(** The rows of the result correspond one to one to the pairs of a baseline of a
    group and a row, after turning the baselines forward, of the first baseline
    of that group which the object has; each is a copy of that row under the name
    of that baseline.  The axis is in the order asked for. *)
Theorem C57_rows : forall numbers positions tol grid key minor u u',
  blt_shaped u -> Forall legal_pol (polarization_array u) -> NoDup (polarization_array u) -> NoDup numbers -> 0 <= tol ->
  inflate_by_redundancy numbers positions tol grid (BltKey key) minor u = Ok u' ->
  exists u1 gps v src keys,
    conjugate_forward numbers positions 0 u = Ok u1 /\
    get_redundancies_antpos numbers positions tol grid u1 = Ok (gps, v) /\
    length src = Nblts u' /\ NoDup src /\
    (forall b r, In (b, r) src <-> exists gp b0, In gp gps /\ In b gp /\ first_present gp (baseline_array v) b0 /\
                                 (r < Nblts v)%nat /\ nth r (baseline_array v) 0 = b0) /\
    (forall i, (i < Nblts u')%nat -> row_renamed v (snd (nth i src (0, 0%nat))) u' i (fst (nth i src (0, 0%nat)))) /\
    blt_shaped u' /\ distinct_count (baseline_array u') (Nbls u') /\
    polarization_array u' = polarization_array v /\ same_freq_axis v u' /\
    blt_order u' = Some keys /\ hd_error keys = Some key /\ (forall m, minor = Some m -> m <> key -> keys = [key; m]) /\
    axis_sorted false keys u'.
Proof. exact inflate_rows. Qed.
Print Assumptions C57_rows.

(** If all pairs of antennas get numbers of one kind, the antennas of each row of
    the result are the ones its baseline number stands for. *)
Theorem C57_antennas : forall numbers positions tol grid key minor u u',
  blt_shaped u -> Forall legal_pol (polarization_array u) -> NoDup (polarization_array u) -> NoDup numbers -> 0 <= tol ->
  one_scheme numbers -> Nants_telescope u = Z.of_nat (length numbers) ->
  inflate_by_redundancy numbers positions tol grid (BltKey key) minor u = Ok u' ->
  forall i, (i < Nblts u')%nat ->
  In (nth i (ant_1_array u') 0) numbers /\ In (nth i (ant_2_array u') 0) numbers /\
  antnums_to_baseline [nth i (ant_1_array u') 0] [nth i (ant_2_array u') 0] (Some (Nants_telescope u)) false false
    = Ok [nth i (baseline_array u') 0].
Proof. exact inflate_antennas. Qed.
Print Assumptions C57_antennas.

(** Then also no baseline longer than the tolerance in some direction, and no
    autocorrelation, disappears; and an object which has at most one baseline of
    each group keeps every such row. *)
Theorem C57_nothing_lost : forall numbers positions tol grid key minor u u',
  blt_shaped u -> Forall legal_pol (polarization_array u) -> NoDup (polarization_array u) -> NoDup numbers -> 0 <= tol ->
  one_scheme numbers -> Nants_telescope u = Z.of_nat (length numbers) -> default_coded u ->
  (forall i, (i < Nblts u)%nat -> In (nth i (ant_1_array u) 0) numbers /\ In (nth i (ant_2_array u) 0) numbers) ->
  inflate_by_redundancy numbers positions tol grid (BltKey key) minor u = Ok u' ->
  exists u1 gps v,
    conjugate_forward numbers positions 0 u = Ok u1 /\
    get_redundancies_antpos numbers positions tol grid u1 = Ok (gps, v) /\
    forall r, (r < Nblts v)%nat ->
    nth r (ant_1_array v) 0 = nth r (ant_2_array v) 0 \/ oriented tol (coords_at (Some (antpos_of numbers positions)) v r) ->
    In (nth r (baseline_array v) 0) (baseline_array u') /\
    ((forall gp b b', In gp gps -> In b gp -> In b' gp -> In b (baseline_array v) -> In b' (baseline_array v) -> b = b') ->
     exists i, (i < Nblts u')%nat /\ row_copied v r u' i).
Proof. exact inflate_keeps. Qed.
Print Assumptions C57_nothing_lost.

(** With the grid algorithm the call succeeds. *)
Theorem C57_total : forall numbers positions tol key minor u,
  blt_shaped u -> Forall legal_pol (polarization_array u) -> NoDup (polarization_array u) ->
  (forall p, In p (polarization_array u) -> In (swapped p) (polarization_array u)) ->
  NoDup numbers -> (2 <= length numbers)%nat -> 0 < tol ->
  one_scheme numbers -> Nants_telescope u = Z.of_nat (length numbers) -> default_coded u ->
  (forall i, (i < Nblts u)%nat -> In (nth i (ant_1_array u) 0) numbers /\ In (nth i (ant_2_array u) 0) numbers) ->
  (exists r, (r < Nblts u)%nat /\ (nth r (ant_1_array u) 0 = nth r (ant_2_array u) 0 \/
                                  oriented tol (coords_at (Some (antpos_of numbers positions)) u r))) ->
  (minor = None \/ exists m, minor = Some m /\ m <> KBda /\ key <> KBda /\ (key = KBaseline -> m <> KAnt1 /\ m <> KAnt2)) ->
  exists u', inflate_by_redundancy numbers positions tol true (BltKey key) minor u = Ok u'.
Proof. exact inflate_total. Qed.
Print Assumptions C57_total.

Example C57_case :
  ants_of (inflate_by_redundancy [3; 5; 7; 9] line 1 true (BltKey KTime) (Some KBaseline) compressed)
    = Ok ([1; 1; 1; 2; 2; 2; 2; 2; 2], [3; 5; 5; 3; 3; 5; 5; 7; 9], [5; 7; 9; 3; 5; 5; 7; 7; 9])
  /\ blt_shaped compressed /\ Forall legal_pol (polarization_array compressed)
  /\ (forall p, In p (polarization_array compressed) -> In (swapped p) (polarization_array compressed))
  /\ NoDup [3; 5; 7; 9] /\ one_scheme [3; 5; 7; 9]
  /\ Nants_telescope compressed = Z.of_nat (length [3; 5; 7; 9]) /\ default_coded compressed
  /\ (forall i, (i < Nblts compressed)%nat ->
       In (nth i (ant_1_array compressed) 0) [3; 5; 7; 9] /\ In (nth i (ant_2_array compressed) 0) [3; 5; 7; 9]).
Proof.
  split; [vm_compute; reflexivity|]. split; [repeat split|].
  split; [repeat constructor; unfold legal_pol; cbn; lia|]. split; [cbn; intuition (subst; cbn; auto)|].
  split; [repeat constructor; cbn; lia|].
  split. { exists 2048, 65536. split; [left; cbn; lia|]. repeat constructor; lia. }
  split; [reflexivity|].
  split. { exists 2048, 65536. split; [left; cbn; lia|]. intros i Hi. cbn in Hi.
           do 4 (destruct i as [|i]; [cbn; lia|]). lia. }
  intros i Hi. cbn in Hi. do 4 (destruct i as [|i]; [cbn; lia|]). lia.
Qed.

(** ** What goes wrong otherwise *)

(** Antenna 4000 among four antennas: the numbers in the groups are then of two
    kinds, and decoded together they give antennas which do not exist. *)
Theorem C57_antennas_refuted : exists numbers positions tol u u',
  NoDup numbers /\ Nants_telescope u = Z.of_nat (length numbers) /\ blt_shaped u /\
  antnums_to_baseline (ant_1_array u) (ant_2_array u) (Some (Nants_telescope u)) false false = Ok (baseline_array u) /\
  inflate_by_redundancy numbers positions tol true (BltKey KTime) None u = Ok u' /\
  exists a, In a (ant_1_array u') /\ ~ In a numbers.
Proof.
  exists [3; 5; 4000; 9], line, 1, (numbered [(1, 5, 4000)] 1 1).
  destruct (ok_by_ants (inflate_by_redundancy [3; 5; 4000; 9] line 1 true (BltKey KTime) None (numbered [(1, 5, 4000)] 1 1))
    ([1; 1], [3; 5244929], [5; 1952]) ltac:(vm_compute; reflexivity)) as (u' & E & H). exists u'.
  split; [repeat constructor; cbn; lia|]. split; [reflexivity|]. split; [repeat split|]. split; [vm_compute; reflexivity|].
  split; [exact E|]. exists 5244929. injection H as _ -> _. cbn. lia.
Qed.
Print Assumptions C57_antennas_refuted.

(** For the same reason rows disappear: here the baseline of antennas 3 and 5. *)
Theorem C57_large_numbers_lost_refuted : exists numbers positions tol u u',
  NoDup numbers /\ Nants_telescope u = Z.of_nat (length numbers) /\ blt_shaped u /\
  antnums_to_baseline (ant_1_array u) (ant_2_array u) (Some (Nants_telescope u)) false false = Ok (baseline_array u) /\
  inflate_by_redundancy numbers positions tol true (BltKey KTime) None u = Ok u' /\
  ant_1_array u = [3; 3] /\ ant_2_array u = [5; 4000] /\ ant_1_array u' = [3] /\ ant_2_array u' = [4000].
Proof.
  exists [3; 5; 4000; 9], [(0, 0, 0); (50, 0, 0); (200, 0, 0); (0, 900, 0)], 1, (numbered [(1, 3, 5); (1, 3, 4000)] 2 1).
  destruct (ok_by_ants (inflate_by_redundancy [3; 5; 4000; 9] [(0, 0, 0); (50, 0, 0); (200, 0, 0); (0, 900, 0)] 1 true (BltKey KTime) None
    (numbered [(1, 3, 5); (1, 3, 4000)] 2 1)) ([1], [3], [4000]) ltac:(vm_compute; reflexivity)) as (u' & E & H). exists u'.
  split; [repeat constructor; cbn; lia|]. split; [reflexivity|]. split; [repeat split|]. split; [vm_compute; reflexivity|].
  split; [exact E|]. injection H as _ -> ->. auto.
Qed.
Print Assumptions C57_large_numbers_lost_refuted.

(** A baseline shorter than the tolerance disappears if it is stored against the
    order of the antenna list: here that of antennas 5 and 3. *)
Theorem C57_short_lost_refuted : exists numbers positions tol u u',
  one_scheme numbers /\ default_coded u /\ Nants_telescope u = Z.of_nat (length numbers) /\ blt_shaped u /\
  inflate_by_redundancy numbers positions tol true (BltKey KTime) None u = Ok u' /\
  ant_1_array u = [5; 5] /\ ant_2_array u = [3; 7] /\ ant_1_array u' = [3; 5] /\ ant_2_array u' = [7; 7].
Proof.
  exists [3; 5; 7; 9], [(2, 0, 0); (0, 0, 0); (200, 0, 0); (0, 900, 0)], 10, (numbered [(1, 5, 3); (1, 5, 7)] 2 1).
  destruct (ok_by_ants (inflate_by_redundancy [3; 5; 7; 9] [(2, 0, 0); (0, 0, 0); (200, 0, 0); (0, 900, 0)] 10 true (BltKey KTime) None
    (numbered [(1, 5, 3); (1, 5, 7)] 2 1)) ([1; 1], [3; 5], [7; 7]) ltac:(vm_compute; reflexivity)) as (u' & E & H). exists u'.
  split. { exists 2048, 65536. split; [left; cbn; lia|]. repeat constructor; lia. }
  split. { exists 2048, 65536. split; [left; cbn; lia|]. intros i Hi. cbn in Hi. do 2 (destruct i as [|i]; [cbn; lia|]). lia. }
  split; [reflexivity|]. split; [repeat split|]. split; [exact E|]. injection H as _ -> ->. auto.
Qed.
Print Assumptions C57_short_lost_refuted.

Definition ntimes_of (r : result uvd) : result (list Z * nat) := do u <- r; Ok (time_array u, Ntimes u).

(** When two baselines of a group are present and only the second has some time,
    that time disappears but Ntimes still counts it. *)
Theorem C57_ntimes_refuted : exists numbers positions tol u u',
  one_scheme numbers /\ counts_ok u /\ Nants_telescope u = Z.of_nat (length numbers) /\ blt_shaped u /\
  inflate_by_redundancy numbers positions tol true (BltKey KTime) None u = Ok u' /\
  ~ distinct_count (time_array u') (Ntimes u').
Proof.
  exists [3; 5; 7; 9], line, 1, (numbered [(1, 3, 5); (1, 5, 7); (2, 5, 7)] 2 2).
  assert (E : ntimes_of (inflate_by_redundancy [3; 5; 7; 9] line 1 true (BltKey KTime) None (numbered [(1, 3, 5); (1, 5, 7); (2, 5, 7)] 2 2))
    = Ok ([1; 1], 2%nat)) by (vm_compute; reflexivity).
  destruct (inflate_by_redundancy _ _ _ _ _ _ _) as [u'|]; [|discriminate]. injection E as E1 E2. exists u'.
  split. { exists 2048, 65536. split; [left; cbn; lia|]. repeat constructor; lia. }
  split. { split; [distinct_by [71685; 75783]|distinct_by [1; 2]]. }
  split; [reflexivity|]. split; [repeat split|]. split; [reflexivity|].
  rewrite E1, E2. intros (l & ND & HI & HL). destruct l as [|x [|y [|? ?]]]; try discriminate.
  assert (x = 1) by (destruct (proj1 (HI x)) as [?|[?|[]]]; [left; reflexivity|lia|lia]).
  assert (y = 1) by (destruct (proj1 (HI y)) as [?|[?|[]]]; [right; left; reflexivity|lia|lia]).
  subst. inversion ND as [|? ? C _]. apply C. left. reflexivity.
Qed.
Print Assumptions C57_ntimes_refuted.
