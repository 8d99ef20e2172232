(** When the redundancy functions succeed. *)
From Coq Require Import List ZArith Bool Lia Permutation Sorted.
From Verif Require Import Lib.Py Lib.Sorting Lib.Np Model.Bls Model.Redundancy Spec.RedundancySpec Spec.BlsSpec
  Proofs.RedundancyProofs Proofs.RedundancyGrid Proofs.RedundancyBaselines Proofs.BlsProofs Proofs.SelectTotal.
Import ListNotations.
Open Scope Z_scope.

Lemma filter_single (l : list Z) i : NoDup l -> (i < length l)%nat ->
  filter (fun k => nth i l 0 =? nth k l 0) (seq 0 (length l)) = [i].
Proof.
  intros ND Hi. apply (sorted_unique lt); try (intros; lia).
  - assert (H : StronglySorted lt (seq 0 (length l))).
    { clear. generalize 0%nat as a. induction (length l) as [|n IH]; intros a; simpl; constructor; auto.
      apply Forall_forall. intros x Hx. apply in_seq in Hx. lia. }
    induction H as [|x s Hs IH HF]; simpl; [constructor|].
    destruct (_ =? _); [|exact IH]. constructor; [exact IH|].
    rewrite Forall_forall in *. intros y Hy. apply filter_In in Hy. apply HF. tauto.
  - repeat constructor.
  - intros k. rewrite filter_In, in_seq, Z.eqb_eq. split.
    + intros [Hk E]. left. apply (proj1 (NoDup_nth l 0) ND); [exact Hi|lia|exact E].
    + intros [<-|[]]. split; [lia|reflexivity].
Qed.

Lemma center_total baselines vecs gp : NoDup baselines -> (forall b, In b gp -> In b baselines) ->
  exists c, group_center baselines vecs gp = Ok c.
Proof.
  intros ND H. unfold group_center.
  destruct (mapM_total (fun i =>
       match filter (fun k => i =? nth k baselines 0) (seq 0 (length baselines)) with
       | [k] => Ok (nth k vecs (0, 0, 0))
       | _ => Err ValueError
       end) gp) as (rows & E).
  - intros b Hb. destruct (In_nth _ _ 0 (H b Hb)) as (i & Hi & <-). rewrite (filter_single _ _ ND Hi). eauto.
  - rewrite E. cbn [bind]. eauto.
Qed.

Lemma plain_total (baselines : list Z) (vecs : list vec3) (tol : Z) (grid : bool) gps : NoDup baselines -> length vecs = length baselines ->
  (if grid then find_clusters_grid baselines vecs tol
   else find_clusters baselines (map coords vecs) tol true) = Ok gps ->
  exists r, redundancies_plain baselines vecs tol grid = Ok r.
Proof.
  intros ND Hl H. unfold redundancies_plain. rewrite H. cbn [bind].
  destruct (groups_found baselines vecs tol grid gps Hl H) as (igs & A & B & _).
  destruct (mapM_total (group_center baselines vecs) gps) as (cs & E).
  - intros gp Hgp. apply center_total; [exact ND|]. intros b Hb.
    assert (X : exists g, In g igs /\ gp = map (fun i => nth i baselines 0) g).
    { clear - A Hgp. induction A as [|g gp' igs gps [E _] _ IH]; [destruct Hgp|].
      destruct Hgp as [->|Hgp]; [exists g; simpl; auto|].
      destruct (IH Hgp) as (g' & ? & ?). exists g'. simpl. auto. }
    destruct X as (g & Hg & ->). apply in_map_iff in Hb. destruct Hb as (i & <- & Hi).
    apply nth_In. assert (Hin : In i (seq 0 (length baselines))).
    { apply (Permutation_in _ B). apply in_concat. eauto. }
    apply in_seq in Hin. lia.
  - rewrite E. cbn [bind]. eauto.
Qed.

Lemma redundancies_total baselines vecs tol inc : NoDup baselines -> length vecs = length baselines ->
  0 < tol -> exists gps centers conj,
    get_baseline_redundancies baselines vecs tol inc true = Ok (gps, centers, conj).
Proof.
  intros ND Hl Ht. unfold get_baseline_redundancies. rewrite Hl, Nat.eqb_refl. cbn [negb].
  assert (X : forall vs, length vs = length baselines -> exists r, redundancies_plain baselines vs tol true = Ok r).
  { intros vs Hv. destruct (grid_total baselines vs tol Ht) as (gps & Hg); [lia|].
    apply (plain_total baselines vs tol true gps ND Hv Hg). }
  destruct inc.
  - rewrite flipped_forward. destruct (X (map (forward tol) vecs)) as ([g c] & ->); [rewrite map_length; exact Hl|].
    cbn [bind]. eauto.
  - destruct (X vecs Hl) as ([g c] & ->). cbn [bind]. eauto.
Qed.

Lemma scalar_total a b n : 0 <= a < 2147483648 -> 0 <= b < 2147483648 -> n <= 2147483648 ->
  exists bl, scalar_baseline a b n = Ok bl.
Proof.
  intros Ha Hb Hn. unfold scalar_baseline.
  destruct (proj2 (encode_accepts [a] [b] (Some n) false eq_refl)) as (l & E).
  { repeat split; try discriminate; try (constructor; [lia|constructor]); try lia. }
  rewrite E. pose proof (encode_length [a] [b] _ _ _ eq_refl E) as Hl. cbn [bind].
  destruct l as [|x [|? ?]]; try discriminate. eauto.
Qed.

Lemma antenna_total numbers positions tol autos :
  NoDup numbers -> Forall (fun a => 0 <= a < 2147483648) numbers ->
  Z.of_nat (length numbers) <= 2147483648 -> (2 <= length numbers)%nat -> 0 < tol ->
  exists gps vecs, get_antenna_redundancies numbers positions tol autos true = Ok (gps, vecs).
Proof.
  intros ND HV Hn H2 Ht. unfold get_antenna_redundancies. set (n := length numbers) in *.
  set (pairs := ant_pairs n autos).
  set (f := fun p : nat * nat => scalar_baseline (nth (fst p) numbers 0) (nth (snd p) numbers 0) (Z.of_nat n)).
  assert (Hp : forall p, In p pairs -> (fst p < n /\ snd p < n)%nat).
  { intros [i j] H. apply ant_pairs_In in H. simpl. tauto. }
  rewrite Forall_forall in HV.
  destruct (mapM_total f pairs) as (bls & EB).
  { intros p Hin. apply scalar_total; try (apply HV, nth_In; apply Hp; exact Hin). exact Hn. }
  fold f. rewrite EB. cbn [bind].
  assert (E0 : Nat.eqb (length pairs) 0 = false).
  { apply Nat.eqb_neq. intros E. apply length_zero_iff_nil in E.
    assert (H : In (0, 1)%nat pairs) by (apply ant_pairs_In; destruct autos; lia). rewrite E in H. destruct H. }
  rewrite E0.
  assert (Hlb : length bls = length pairs) by (apply (mapM_Ok_length _ _ _ EB)).
  assert (HB : forall i, (i < length pairs)%nat -> f (nth i pairs (O, O)) = Ok (nth i bls 0)).
  { intros i Hi. apply (mapM_Ok_nth _ _ _ (O, O) 0 EB i Hi). }
  assert (NDb : NoDup bls).
  { apply (NoDup_nth bls 0). intros i j Hi Hj E. rewrite Hlb in *.
    pose proof (scalar_decodes _ _ _ _ Hn (HB i Hi)) as D1. pose proof (scalar_decodes _ _ _ _ Hn (HB j Hj)) as D2.
    rewrite E in D1. rewrite D1 in D2. injection D2 as N1 N2.
    destruct (Hp _ (nth_In pairs (O, O) Hi)) as [A1 A2]. destruct (Hp _ (nth_In pairs (O, O) Hj)) as [B1 B2].
    apply (proj1 (NoDup_nth pairs (O, O)) (ant_pairs_NoDup n autos)); auto.
    pose proof (proj1 (NoDup_nth numbers 0) ND _ _ A1 B1 N1) as M1.
    pose proof (proj1 (NoDup_nth numbers 0) ND _ _ A2 B2 N2) as M2.
    destruct (nth i pairs (O, O)), (nth j pairs (O, O)). simpl in *. congruence. }
  match goal with |- context [get_baseline_redundancies bls ?v _ _ _] => set (bv := v) end.
  destruct (redundancies_total bls bv tol true NDb) as (gps & cs & conjs & EG).
  { unfold bv. rewrite map_length. symmetry. exact Hlb. }
  { exact Ht. }
  rewrite EG. cbn [bind].
  destruct (baseline_redundancies_spec _ _ _ _ _ _ _ _ EG) as (_ & _ & (igs & A & _ & C & _) & _).
  match goal with |- context [mapM ?h gps] => destruct (mapM_total h gps) as (gps' & EF) end.
  - intros gp Hgp. apply mapM_total. intros b Hb. destruct (isinZ b conjs); [|eauto].
    assert (Hin : In b bls).
    { assert (X : exists g, In g igs /\ gp = map (fun i => nth i bls 0) g).
      { clear - A Hgp. induction A as [|g gp' igs gps [E _] _ IH]; [destruct Hgp|].
        destruct Hgp as [->|Hgp]; [exists g; simpl; auto|].
        destruct (IH Hgp) as (g' & ? & ?). exists g'. simpl. auto. }
      destruct X as (g & Hg & ->). apply in_map_iff in Hb. destruct Hb as (i & <- & Hi).
      apply nth_In. assert (Hin : In i (seq 0 (length bls))).
      { apply (Permutation_in _ C). apply in_concat. eauto. }
      apply in_seq in Hin. lia. }
    destruct (In_nth _ _ 0 Hin) as (i & Hi & <-). rewrite Hlb in Hi. specialize (HB i Hi).
    unfold f, scalar_baseline in HB.
    destruct (antnums_to_baseline _ _ _ _ _) as [l|] eqn:E in HB; [|discriminate]. cbn [bind] in HB.
    destruct l as [|x [|? ?]]; try discriminate. injection HB as Ex.
    match type of E with antnums_to_baseline [?a] [?b] ?m ?t _ = Ok ?l =>
      destruct (flip_swaps [a] [b] m t l (Z.of_nat n) eq_refl Hn E) as (fl & E1 & E2 & _) end.
    unfold scalar_flip. rewrite <- Ex, E1. cbn [bind].
    specialize (E2 (Z.of_nat n) Hn).
    destruct fl as [|y [|? ?]]; eauto.
    + exfalso. unfold baseline_to_antnums in E2. destruct (Z.of_nat n >? 2147483648); [discriminate|]. simpl in E2. discriminate.
    + exfalso. unfold baseline_to_antnums in E2. destruct (_ >? _); [discriminate|].
      destruct (existsb _ _); [discriminate|]. destruct (existsb _ _); [discriminate|].
      unfold pyx_baseline_to_antnums in E2. destruct (arraymin _); [|discriminate]. cbn [bind] in E2.
      injection E2 as E2 _. discriminate.
  - rewrite EF. cbn [bind]. eauto.
Qed.
