(** inflate_by_redundancy as a whole. *)
From Coq Require Import List ZArith Bool Lia Permutation.
From Verif Require Import Lib.Py Lib.Np Lib.Cube Spec.BltSpec Spec.BlsSpec Spec.PolSpec Spec.UVDataSpec Spec.RedundancySpec Spec.ConjSpec Spec.InflateSpec.
From Verif Require Import Model.Bls Model.UVData Model.Reorder Model.Redundancy Model.Inflate.
From Verif Require Import Proofs.BlsProofs Proofs.ReorderProofs Proofs.ConjProofs Proofs.ConjSame.
From Verif Require Import Proofs.RedundancyProofs Proofs.RedundancyBaselines Proofs.RedundancyTotal Proofs.InflateProofs.
Import ListNotations.
Open Scope Z_scope.

Lemma inflate_parts numbers positions tol grid order minor u u' :
  inflate_by_redundancy numbers positions tol grid order minor u = Ok u' ->
  exists u1 gps v w, conjugate_forward numbers positions 0 u = Ok u1 /\
    get_redundancies_antpos numbers positions tol grid u1 = Ok (gps, v) /\
    inflate_apply (map snd (source gps (baseline_array v))) (map fst (source gps (baseline_array v))) v = Ok w /\
    reorder_blts order minor false None w = Ok u'.
Proof.
  unfold inflate_by_redundancy. intros H. apply bind_Ok in H as (u1 & E1 & H). apply bind_Ok in H as ((gps & v) & E2 & H).
  rewrite inflate_map_source in H. cbn [bind] in H. apply bind_Ok in H as (w & E3 & H). exists u1, gps, v, w. auto.
Qed.

Lemma redundancies_parts numbers positions tol grid u gps v :
  get_redundancies_antpos numbers positions tol grid u = Ok (gps, v) ->
  (exists cs, get_antenna_redundancies numbers positions tol true grid = Ok (gps, cs)) /\
  conjugate_forward numbers positions tol u = Ok v.
Proof.
  unfold get_redundancies_antpos. intros H. apply bind_Ok in H as ((g & cs) & E1 & H). apply bind_Ok in H as (u2 & E2 & H).
  injection H as -> ->. split; [exists cs; exact E1|exact E2].
Qed.

Lemma row_renamed_copied u i v i' b w i'' : row_renamed u i v i' b -> row_copied v i' w i'' -> row_renamed u i w i'' b.
Proof.
  intros (A1 & A2 & A3 & A4 & A5 & A6 & A7 & A8 & A9 & A10) (B1 & B2 & B3 & B4 & B5 & B6 & B7 & B8 & B9 & B10 & B11 & B12).
  unfold row_renamed. rewrite B1, B2, B5, B6, B7, B8, B9, B10, B11.
  do 9 (split; [assumption|]). intros j k. destruct (A10 j k) as (C1 & C2 & C3), (B12 j k) as (D1 & D2 & D3).
  rewrite D1, D2, D3. auto.
Qed.

Lemma reorder_counts k minor af u u' : reorder_blts (BltKey k) minor af None u = Ok u' ->
  Nbls u' = Nbls u /\ Ntimes u' = Ntimes u /\ Nants_telescope u' = Nants_telescope u.
Proof.
  intros H. destruct (reorder_named_unfold _ _ _ _ _ H) as (m & Hm & H'). cbv zeta in H'.
  destruct (set_rect_fields _ _ H') as (_ & _ & _ & _ & _ & _ & _ & F8 & F9 & F10 & _). auto.
Qed.

(** The state before the final reordering and what it has in common with the result. *)
Lemma inflate_core numbers positions tol grid key minor u u' :
  blt_shaped u -> Forall legal_pol (polarization_array u) -> NoDup (polarization_array u) -> NoDup numbers -> 0 <= tol ->
  inflate_by_redundancy numbers positions tol grid (BltKey key) minor u = Ok u' ->
  exists u1 gps v w sigma keys,
    conjugate_forward numbers positions 0 u = Ok u1 /\
    get_redundancies_antpos numbers positions tol grid u1 = Ok (gps, v) /\ blt_shaped v /\
    let src := source gps (baseline_array v) in
    NoDup src /\ (forall p, In p src -> (snd p < Nblts v)%nat) /\
    inflate_apply (map snd src) (map fst src) v = Ok w /\ Nblts w = length src /\
    Permutation sigma (seq 0 (length src)) /\ Nblts u' = length src /\ blt_shaped u' /\
    (forall i, (i < length src)%nat -> row_copied w (nth i sigma 0%nat) u' i) /\
    (forall i, (i < length src)%nat -> row_renamed v (snd (nth i src (0, 0%nat))) w i (fst (nth i src (0, 0%nat)))) /\
    baseline_array w = map fst src /\
    baseline_to_antnums (map fst src) (Nants_telescope v) = Ok (ant_1_array w, ant_2_array w) /\
    blt_order u' = Some keys /\ hd_error keys = Some key /\ (forall m, minor = Some m -> m <> key -> keys = [key; m]) /\
    axis_sorted false keys u' /\ Nbls u' = length (uniqueZ (map fst src)) /\ Ntimes u' = Ntimes v /\
    polarization_array u' = polarization_array v /\ same_freq_axis v u'.
Proof.
  intros Hsh HL ND Hn Ht H. destruct (inflate_parts _ _ _ _ _ _ _ _ H) as (u1 & gps & v & w & E1 & E2 & E3 & E4).
  destruct (redundancies_parts _ _ _ _ _ _ _ E2) as [(cs & G) E2'].
  destruct (conjugate_rows _ _ _ _ _ Hsh HL ND E1) as (S1 & _ & _ & P1 & _).
  assert (HL1 : Forall legal_pol (polarization_array u1)) by (rewrite P1; exact HL).
  assert (ND1 : NoDup (polarization_array u1)) by (rewrite P1; exact ND).
  destruct (conjugate_rows _ _ _ _ _ S1 HL1 ND1 E2') as (S2 & _).
  assert (B : forall p, In p (source gps (baseline_array v)) -> (snd p < Nblts v)%nat).
  { intros [b r] Hp. apply source_spec in Hp as (_ & _ & _ & _ & _ & Hr & _). cbn. destruct S2 as (_ & _ & _ & L & _). unfold Nblts. lia. }
  destruct (apply_rows _ _ _ S2 E3 B) as (N & EB & ED & SW & EN & ET & _ & EP & EF & R).
  destruct (reorder_named_keys _ _ _ _ _ SW E4) as (keys & sigma & K1 & K2 & K3 & K4 & K5 & K6 & K7 & K8 & K9 & K10).
  destruct (reorder_counts _ _ _ _ _ E4) as (C1 & C2 & _).
  exists u1, gps, v, w, sigma, keys. split; [exact E1|]. split; [exact E2|]. split; [exact S2|]. cbv zeta.
  rewrite N in *.
  split; [apply source_NoDup, (groups_NoDup _ _ _ _ _ _ Hn Ht G)|]. split; [exact B|]. split; [exact E3|].
  split; [reflexivity|]. split; [exact K4|]. split; [exact K5|]. split; [exact K6|]. split; [exact K7|]. split; [exact R|].
  split; [exact EB|]. split; [exact ED|]. split; [exact K1|]. split; [exact K2|]. split; [exact K3|]. split; [exact K10|].
  split; [congruence|]. split; [congruence|]. split; [congruence|].
  destruct EF as (F1 & F2 & F3 & F4), K9 as (G1 & G2 & G3 & G4). unfold same_freq_axis. repeat split; congruence.
Qed.

Lemma perm_seq_bound sigma n i : Permutation sigma (seq 0 n) -> (i < n)%nat -> (nth i sigma 0 < n)%nat.
Proof.
  intros P Hi. assert (L : length sigma = n) by (rewrite (Permutation_length P); apply seq_length).
  assert (I : In (nth i sigma 0%nat) (seq 0 n)) by (apply (Permutation_in _ P), nth_In; lia). apply in_seq in I. lia.
Qed.

Lemma inflate_rows numbers positions tol grid key minor u u' :
  blt_shaped u -> Forall legal_pol (polarization_array u) -> NoDup (polarization_array u) -> NoDup numbers -> 0 <= tol ->
  inflate_by_redundancy numbers positions tol grid (BltKey key) minor u = Ok u' ->
  exists u1 gps v src keys,
    conjugate_forward numbers positions 0 u = Ok u1 /\
    get_redundancies_antpos numbers positions tol grid u1 = Ok (gps, v) /\
    length src = Nblts u' /\ NoDup src /\
    (forall b r, In (b, r) src <-> exists gp b0, In gp gps /\ In b gp /\ first_present gp (baseline_array v) b0 /\
                                 (r < Nblts v)%nat /\ nth r (baseline_array v) 0 = b0) /\
    (forall i, (i < Nblts u')%nat -> row_renamed v (snd (nth i src (0, 0%nat))) u' i (fst (nth i src (0, 0%nat)))) /\
    blt_shaped u' /\ distinct_count (baseline_array u') (Nbls u') /\
    polarization_array u' = polarization_array v /\ same_freq_axis v u' /\
    blt_order u' = Some keys /\ hd_error keys = Some key /\ (forall m, minor = Some m -> m <> key -> keys = [key; m]) /\
    axis_sorted false keys u'.
Proof.
  intros Hsh HL ND Hn Ht H.
  destruct (inflate_core _ _ _ _ _ _ _ _ Hsh HL ND Hn Ht H) as (u1 & gps & v & w & sigma & keys & E1 & E2 & SV & R). cbv zeta in R.
  set (src := source gps (baseline_array v)) in *.
  destruct R as (NS & B & EA & N & P & N' & S' & RC & RR & EB & ED & O1 & O2 & O3 & O4 & C1 & C2 & EP & EF).
  assert (Lsg : length sigma = length src) by (rewrite (Permutation_length P); apply seq_length).
  assert (PS : Permutation (take (0, 0%nat) src sigma) src).
  { apply take_perm. exact P. }
  exists u1, gps, v, (take (0, 0%nat) src sigma), keys. split; [exact E1|]. split; [exact E2|].
  split. { rewrite take_length, Lsg. symmetry. exact N'. }
  split. { eapply Permutation_NoDup; [symmetry; exact PS|exact NS]. }
  assert (LB : length (baseline_array v) = Nblts v) by (destruct SV as (_ & _ & _ & L & _); exact L).
  split. { intros b r. rewrite <- LB, <- source_spec. fold src. split; apply Permutation_in; [exact PS|symmetry; exact PS]. }
  assert (RN : forall i, (i < Nblts u')%nat -> row_renamed v (snd (nth i (take (0, 0%nat) src sigma) (0, 0%nat))) u' i (fst (nth i (take (0, 0%nat) src sigma) (0, 0%nat)))).
  { intros i Hi. rewrite N' in Hi. rewrite nth_take by lia. eapply row_renamed_copied; [|apply RC; exact Hi].
    apply RR. apply perm_seq_bound; assumption. }
  split; [exact RN|]. split; [exact S'|]. split; [|split; [exact EP|split; [exact EF|split; [exact O1|split; [exact O2|split; [exact O3|exact O4]]]]]].
  apply distinct_count_unique. rewrite C1.
  assert (PB : Permutation (baseline_array u') (map fst src)).
  { etransitivity; [|apply Permutation_map; exact PS].
    replace (baseline_array u') with (map fst (take (0, 0%nat) src sigma)); [reflexivity|].
    apply (nth_ext _ _ 0 0).
    - rewrite map_length, take_length, Lsg. destruct S' as (_ & _ & _ & L & _). rewrite L. symmetry. exact N'.
    - intros i Hi. rewrite map_length, take_length, Lsg in Hi. rewrite (nth_map _ _ _ (0, 0%nat) 0) by (rewrite take_length; lia).
      symmetry. apply RN. rewrite N'. exact Hi. }
  apply Permutation_length, NoDup_Permutation; [apply uniqueZ_NoDup|apply uniqueZ_NoDup|].
  intros x. rewrite !uniqueZ_In. split; apply Permutation_in; [symmetry; exact PB|exact PB].
Qed.
