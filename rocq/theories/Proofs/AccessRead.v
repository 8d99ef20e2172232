From Coq Require Import List ZArith Bool Arith Lia ZifyBool ZifyNat Sorted String Relations QArith.
From Verif Require Import Lib.Py Lib.Np Lib.Sorting Lib.Slice Lib.Cube Lib.Dict Spec.BlsSpec Spec.BltSpec Spec.PolSpec
  Spec.ToolsSpec Spec.UVDataSpec Spec.AccessSpec Spec.Hdf5Spec
  Model.Bls Model.Tools Model.Pol Model.BltAxis Model.UVData Model.Reorder Model.Hdf5 Model.Access
  Proofs.BlsProofs Proofs.ToolsProofs Proofs.PolProofs Proofs.Hdf5Proofs Proofs.AccessProofs Proofs.Samples.
Import ListNotations.
Open Scope Z_scope.
Open Scope list_scope.
Notation length := List.length.
(** ** get_data and its siblings *)
Lemma conj_block {A} (conj : A -> A) nf (c : cube A) R P :
  map (map (map conj)) (block_of nf c R P) = map (fun i => map (fun j => map (fun k => conj (c i j k)) P) (seq 0 nf)) R.
Proof.
  unfold block_of. rewrite map_map. apply map_ext. intros i. rewrite map_map. apply map_ext. intros j. apply map_map.
Qed.

Lemma smart_found {A} u (conj : A -> A) (c : cube A) i1 i2 q1 q2 R1 P1 R2 P2 :
  hits (Nblts u) i1 R1 -> hits (Nblts u) i2 R2 ->
  (R1 <> [] -> hits (Npols u) q1 P1) -> (R2 <> [] -> hits (Npols u) q2 P2) ->
  ~ ((R1 = [] \/ P1 = []) /\ (R2 = [] \/ P2 = [])) ->
  smart_slicing u conj c (i1, i2, (q1, q2)) =
    (if negb (match R1, R2 with _ :: _, _ :: _ => false | _, _ => true end) && negb (length P1 =? length P2)%nat
     then Err ValueError else Ok (expected conj c (Nfreqs u) R1 P1 R2 P2)).
Proof.
  intros H1 H2 HQ1 HQ2 Hsome. unfold smart_slicing, expected.
  destruct i1 as [i1|]; cbn [hits] in H1.
  - destruct H1 as (N1 & A1 & _). specialize (HQ1 N1). destruct R1 as [|r1 R1]; [congruence|].
    destruct i2 as [i2|]; cbn [hits] in H2.
    + destruct H2 as (N2 & A2 & _). specialize (HQ2 N2). destruct R2 as [|r2 R2]; [congruence|].
      destruct q1 as [q1|]; cbn [hits] in HQ1.
      * destruct HQ1 as (M1 & B1 & _). destruct q2 as [q2|]; cbn [hits] in HQ2.
        -- destruct HQ2 as (M2 & B2 & _). rewrite A1, A2, B1, B2. cbn [bind fst snd]. cbn [negb andb].
           destruct (length P1 =? length P2)%nat; [|reflexivity]. cbn [negb]. rewrite conj_block. reflexivity.
        -- subst P2. destruct P1 as [|p1 P1]; [congruence|]. reflexivity.
      * subst P1. destruct P2 as [|p2 P2]; [|reflexivity]. exfalso. apply Hsome. auto.
    + subst R2. cbn [negb andb]. destruct q1 as [q1|]; cbn [hits] in HQ1.
      * destruct HQ1 as (M1 & B1 & _). rewrite A1, B1. cbn [bind snd map]. rewrite app_nil_r. reflexivity.
      * exfalso. apply Hsome. auto.
  - subst R1. cbn [negb andb map app]. destruct i2 as [i2|]; cbn [hits] in H2.
    + destruct H2 as (N2 & A2 & _). specialize (HQ2 N2). destruct q2 as [q2|]; cbn [hits] in HQ2.
      * destruct HQ2 as (M2 & B2 & _). rewrite A2, B2. cbn [bind snd]. rewrite conj_block. reflexivity.
      * exfalso. apply Hsome. auto.
    + exfalso. apply Hsome. auto.
Qed.

Lemma times_found u i1 i2 ps R1 R2 : hits (Nblts u) i1 R1 -> hits (Nblts u) i2 R2 ->
  times_of u (i1, i2, ps) = Ok (map (fun i => nth i (time_array u) 0) (R1 ++ R2)).
Proof.
  intros H1 H2. unfold times_of. cbn [fst snd]. rewrite map_app.
  destruct i1 as [i1|]; cbn [hits] in H1; [destruct H1 as (_ & -> & _)|subst R1]; cbn [bind];
  (destruct i2 as [i2|]; cbn [hits] in H2; [destruct H2 as (_ & -> & _)|subst R2]); reflexivity.
Qed.

Lemma all_hits n : (0 < n)%nat -> hits n (Some sliceall) (seq 0 n).
Proof.
  intros Hn. cbn [hits]. split; [destruct n; [lia|discriminate]|]. split; [apply at_index_all|].
  destruct (full_plain (Z.of_nat n) ltac:(lia)) as (_ & _ & _ & E & _). rewrite Nat2Z.id in E. split; [exact E|].
  cbn. auto.
Qed.

Lemma pol_hits u p : hits (Npols u) (slicify (some_list (pol_where u p))) (pol_positions u p).
Proof.
  rewrite pol_where_positions. destruct (pol_positions u p) as [|i l] eqn:E; [reflexivity|].
  assert (Hs : StronglySorted lt (i :: l)) by (rewrite <- E; apply pol_positions_sorted).
  assert (Hb : Forall (fun i => (i < Npols u)%nat) (i :: l)) by (rewrite <- E; apply pol_positions_bound).
  destruct (slicify_at (Npols u) (i :: l)) as (ix & E1 & A & P); [discriminate|exact Hs|exact Hb|].
  unfold some_list. cbn [map] in *. rewrite E1. cbn [hits]. split; [discriminate|]. auto.
Qed.

Lemma conj_positions_unique u P Q : NoDup (polarization_array u) -> conj_positions u P -> conj_positions u Q -> P = Q.
Proof.
  intros ND [LP HP] [LQ HQ]. apply (nth_ext _ _ 0%nat 0%nat); [lia|]. intros k Hk.
  destruct (HP k Hk) as [A B]. destruct (HQ k ltac:(lia)) as [C D].
  apply (proj1 (NoDup_nth (polarization_array u) 0) ND); try lia; congruence.
Qed.

Lemma conj_positions_NoDup u P : NoDup (polarization_array u) -> conj_positions u P -> NoDup P.
Proof.
  intros ND [LP HP]. apply (NoDup_nth P 0%nat). intros i j Hi Hj E.
  destruct (HP i Hi) as [A B]. destruct (HP j Hj) as [C D]. rewrite E, D in B.
  apply (proj1 (NoDup_nth (polarization_array u) 0) ND); try lia.
  assert (S : forall z, swapped (swapped z) = z).
  { intros z. unfold swapped. destruct (z =? -3) eqn:E1; [change (-4 =? -3) with false; change (-4 =? -4) with true; cbv iota; lia|].
    destruct (z =? -4) eqn:E2; [change (-3 =? -3) with true; cbv iota; lia|].
    destruct (z =? -7) eqn:E3; [change (-8 =? -3) with false; change (-8 =? -4) with false; change (-8 =? -7) with false; change (-8 =? -8) with true; cbv iota; lia|].
    destruct (z =? -8) eqn:E4; [change (-7 =? -3) with false; change (-7 =? -4) with false; change (-7 =? -7) with true; cbv iota; lia|].
    rewrite E1, E2, E3, E4. reflexivity. }
  rewrite <- (S (nth i (polarization_array u) 0)), <- (S (nth j (polarization_array u) 0)), B. reflexivity.
Qed.

Lemma conj_hits u P : polarization_array u <> [] -> NoDup (polarization_array u) -> conj_positions u P -> ~ opposite_order P ->
  hits (Npols u) (slicify (Some (IList (map Z.of_nat P)))) P.
Proof.
  intros Hne ND HP Hop. pose proof (conj_positions_NoDup u P ND HP) as NDP. destruct HP as [LP HP].
  assert (Hb : Forall (fun i => (i < Npols u)%nat) P).
  { apply Forall_forall. intros x Hx. apply In_nth with (d := 0%nat) in Hx. destruct Hx as (k & Hk & <-). unfold Npols. rewrite <- LP. apply HP. exact Hk. }
  assert (HneP : P <> []) by (destruct P; [destruct (polarization_array u); [congruence|discriminate]|discriminate]).
  destruct (slicify_keeps (Npols u) P Hb HneP) as (ix & E & A & Q).
  - intros x y t -> Hd. destruct (Nat.lt_trichotomy x y) as [H|[H|H]]; [exact H| |].
    + subst. inversion NDP as [|? ? Hx _]. exfalso. apply Hx. left. reflexivity.
    + exfalso. apply Hop. split; [simpl; lia|]. remember (x :: y :: t) as l eqn:El.
      rewrite <- (rev_involutive l) at 1. f_equal. apply (sorted_unique lt); try (intros; lia).
      * pose proof Hd as Ha. rewrite El in Ha. cbn [map] in Ha. apply all_diff_arith in Ha.
        assert (Hdec : forall i j, (i < j < length l)%nat -> (nth j l 0 < nth i l 0)%nat).
        { intros i j Hij. assert (Z.of_nat (nth j l 0%nat) < Z.of_nat (nth i l 0%nat)); [|lia].
          assert (Hmap : map Z.of_nat l = arith (Z.of_nat x) (Z.of_nat y - Z.of_nat x) (length l)).
          { rewrite El. cbn [map length]. rewrite Ha. cbn [length]. rewrite map_length. reflexivity. }
          rewrite <- !(map_nth Z.of_nat). change (Z.of_nat 0) with 0. rewrite Hmap. rewrite !nth_arith by lia. nia. }
        apply (StronglySorted_nth lt 0%nat). intros i j Hij Hj. rewrite rev_length in Hj. rewrite !rev_nth by lia. apply Hdec. lia.
      * apply seq_sorted.
      * intros z. rewrite <- in_rev, in_seq. split.
        -- intros Hz. rewrite Forall_forall in Hb. specialize (Hb z Hz). unfold Npols in Hb. lia.
        -- intros Hz. assert (Hincl : incl (seq 0 (length l)) l).
           { apply NoDup_length_incl; [exact NDP|rewrite seq_length; lia|].
             intros w Hw. apply in_seq. rewrite Forall_forall in Hb. specialize (Hb w Hw). unfold Npols in Hb. lia. }
           apply Hincl. apply in_seq. lia.
  - rewrite E. cbn [hits]. auto.
Qed.

Lemma conj_order_of u P : Forall legal_pol (polarization_array u) -> NoDup (polarization_array u) -> conj_positions u P ->
  reorder_conj_pols (polarization_array u) = Ok P.
Proof.
  intros HL ND HP. destruct (reorder_conj_ok (polarization_array u) HL) as (order & E & L & H).
  - intros p Hp. apply In_nth with (d := 0) in Hp. destruct Hp as (k & Hk & <-). destruct HP as [LP HP].
    destruct (HP k ltac:(lia)) as [A B]. rewrite <- B. apply nth_In. lia.
  - rewrite E. f_equal. apply (conj_positions_unique u); [exact ND| |exact HP]. split; [lia|].
    intros k Hk. rewrite L. apply H. lia.
Qed.

Lemma rev_canon u a b : hits (Nblts u) (if a =? b then None else canon u b a true) (reverse_rows u a b).
Proof. unfold reverse_rows. destruct (a =? b); [reflexivity|apply canon_ordered]. Qed.

Definition gives (u : uvd) (r : result entry) (R1 P1 R2 P2 : list nat) : Prop :=
  (((R1 = [] \/ P1 = []) /\ (R2 = [] \/ P2 = [])) -> r = Err KeyError) /\
  (~ ((R1 = [] \/ P1 = []) /\ (R2 = [] \/ P2 = [])) -> exists i1 i2 q1 q2, r = Ok (i1, i2, (q1, q2)) /\
    hits (Nblts u) i1 R1 /\ hits (Nblts u) i2 R2 /\
    (R1 <> [] -> hits (Npols u) q1 P1) /\ (R2 <> [] -> hits (Npols u) q2 P2)).

Lemma canon_pair_all u xo a b P2 : polarization_array u <> [] -> Forall legal_pol (polarization_array u) -> NoDup (polarization_array u) ->
  conj_positions u P2 -> ~ opposite_order P2 ->
  gives u (canon_pair u xo (KPair a b) a b) (pair_rows u a b) (seq 0 (length (polarization_array u))) (reverse_rows u a b) P2.
Proof.
  intros Hp HL ND HP Hop. unfold canon_pair. pose proof (canon_ordered u a b) as H1. pose proof (rev_canon u a b) as H2.
  pose proof (conj_hits u P2 Hp ND HP Hop) as HQ. pose proof (conj_order_of u P2 HL ND HP) as Eord.
  assert (Hseq : seq 0 (length (polarization_array u)) <> []) by (destruct (polarization_array u); [congruence|discriminate]).
  assert (HneP : P2 <> []) by (destruct P2; [destruct HP as [LP _]; destruct (polarization_array u); [congruence|discriminate]|discriminate]).
  assert (HA : hits (Npols u) (Some sliceall) (seq 0 (length (polarization_array u)))).
  { apply all_hits. unfold Npols. destruct (polarization_array u); [congruence|simpl; lia]. }
  cbn [pair_pol bind]. split.
  - intros [[E1|E1] [E2|E2]]; try congruence. rewrite E1 in H1. rewrite E2 in H2.
    destruct (canon u a b true) as [i1|]; [destruct H1; congruence|].
    destruct (if a =? b then None else canon u b a true) as [i2|]; [destruct H2; congruence|]. reflexivity.
  - intros Hs. unfold pair_entry. rewrite Eord.
    destruct (canon u a b true) as [i1|] eqn:C1; destruct (if a =? b then None else canon u b a true) as [i2|] eqn:C2; cbn [bind].
    + do 4 eexists. split; [reflexivity|]. split; [exact H1|]. split; [exact H2|]. split; intros _; [exact HA|exact HQ].
    + do 4 eexists. split; [reflexivity|]. split; [exact H1|]. split; [exact H2|]. split; [auto|]. intros N. exfalso. apply N. exact H2.
    + cbn [slicify]. do 4 eexists. split; [reflexivity|]. split; [exact H1|]. split; [exact H2|]. split; [|auto]. intros N. exfalso. apply N. exact H1.
    + exfalso. apply Hs. cbn [hits] in H1, H2. auto.
Qed.

Lemma canon_pair_pol u xo k a b p : legal_pol p -> pair_pol k xo = Ok (Some p) ->
  gives u (canon_pair u xo k a b) (pair_rows u a b) (pol_positions u p) (reverse_rows u a b) (pol_positions u (swapped p)).
Proof.
  intros HL Hk. unfold canon_pair. pose proof (canon_ordered u a b) as H1. pose proof (rev_canon u a b) as H2.
  pose proof (pol_hits u p) as HQ1. pose proof (pol_hits u (swapped p)) as HQ2. rewrite Hk. cbn [bind].
  unfold pair_entry. rewrite (conj_pol_legal p HL). cbn [bind].
  assert (Slf : forall l, match some_list l with None => slicify (some_list l) = None | Some _ => exists ix, slicify (some_list l) = Some ix end).
  { intros [|x [|y l]]; simpl; [reflexivity|eauto|]. match goal with |- context [if ?c then _ else _] => destruct c end; eauto. }
  pose proof (Slf (pol_where u p)) as S1. pose proof (Slf (pol_where u (swapped p))) as S2.
  assert (T1 : some_list (pol_where u p) = None <-> pol_positions u p = []).
  { rewrite pol_where_positions. destruct (pol_positions u p); simpl; split; congruence. }
  assert (T2 : some_list (pol_where u (swapped p)) = None <-> pol_positions u (swapped p) = []).
  { rewrite pol_where_positions. destruct (pol_positions u (swapped p)); simpl; split; congruence. }
  split.
  - intros [E1 E2].
    destruct (canon u a b true) as [i1|] eqn:C1; destruct (if a =? b then None else canon u b a true) as [i2|] eqn:C2; cbn [bind].
    + destruct H1 as [N1 _], H2 as [N2 _]. destruct E1 as [E1|E1]; [congruence|]. destruct E2 as [E2|E2]; [congruence|].
      rewrite (proj2 T1 E1), (proj2 T2 E2). reflexivity.
    + destruct H1 as [N1 _]. destruct E1 as [E1|E1]; [congruence|]. rewrite (proj2 T1 E1). reflexivity.
    + destruct H2 as [N2 _]. destruct E2 as [E2|E2]; [congruence|]. rewrite (proj2 T2 E2). reflexivity.
    + reflexivity.
  - intros Hs.
    destruct (canon u a b true) as [i1|] eqn:C1; destruct (if a =? b then None else canon u b a true) as [i2|] eqn:C2; cbn [bind].
    + destruct (some_list (pol_where u p)) as [s1|] eqn:F1; destruct (some_list (pol_where u (swapped p))) as [s2|] eqn:F2;
        try (do 4 eexists; split; [reflexivity|]; split; [exact H1|]; split; [exact H2|]; split; intros _; assumption).
      exfalso. apply Hs. split; right; [apply T1|apply T2]; reflexivity.
    + destruct (some_list (pol_where u p)) as [s1|] eqn:F1.
      * do 4 eexists. split; [reflexivity|]. split; [exact H1|]. split; [exact H2|]. split; [auto|]. intros N. exfalso. apply N. exact H2.
      * exfalso. apply Hs. split; [right; apply T1; reflexivity|left; exact H2].
    + destruct (some_list (pol_where u (swapped p))) as [s2|] eqn:F2.
      * do 4 eexists. split; [reflexivity|]. split; [exact H1|]. split; [exact H2|]. split; [|auto]. intros N. exfalso. apply N. exact H1.
      * exfalso. apply Hs. split; [left; exact H1|right; apply T2; reflexivity].
    + exfalso. apply Hs. split; left; [exact H1|exact H2].
Qed.

Lemma all_rows_hits u : time_array u <> [] -> hits (Nblts u) (Some sliceall) (seq 0 (length (time_array u))).
Proof. intros Hne. apply all_hits. unfold Nblts. destruct (time_array u); [congruence|simpl; lia]. Qed.

Lemma canon_pol u p : time_array u <> [] ->
  gives u (pol_entry u p) (seq 0 (length (time_array u))) (pol_positions u p) [] [].
Proof.
  intros Hne. pose proof (all_rows_hits u Hne) as HA. pose proof (pol_hits u p) as HP. unfold pol_entry.
  rewrite pol_where_positions in *. split.
  - intros [[E|E] _].
    + destruct (time_array u); [congruence|discriminate].
    + rewrite E. reflexivity.
  - intros Hs. destruct (pol_positions u p) as [|i l]; [exfalso; apply Hs; auto|].
    unfold some_list in HP. cbn [map] in *. do 4 eexists. split; [reflexivity|]. split; [exact HA|]. split; [reflexivity|].
    split; [intros _; exact HP|congruence].
Qed.

Lemma coded_number u i : consistent u -> (i < length (time_array u))%nat ->
  baseline_to_antnums [nth i (baseline_array u) 0] (Nants_telescope u) = Ok ([nth i (ant_1_array u) 0], [nth i (ant_2_array u) 0]).
Proof.
  intros (_ & (m & off & Henc & Hc) & _ & _ & _ & Hn) Hi. destruct (Hc i Hi) as (A & B & E).
  rewrite (decode_regime m off _ _ Henc); [|discriminate|exact Hn|].
  - rewrite E. cbn [map]. rewrite div_enc, mod_enc by exact B. reflexivity.
  - constructor; [|constructor]. rewrite E. unfold in_regime. nia.
Qed.


Lemma canon_pair_stored u xo a b : polarization_array u <> [] -> reverse_rows u a b = [] ->
  gives u (canon_pair u xo (KPair a b) a b) (pair_rows u a b) (seq 0 (length (polarization_array u))) [] [].
Proof.
  intros Hp HR. unfold canon_pair. pose proof (canon_ordered u a b) as H1. pose proof (rev_canon u a b) as H2. rewrite HR in H2.
  assert (HA : hits (Npols u) (Some sliceall) (seq 0 (length (polarization_array u)))).
  { apply all_hits. unfold Npols. destruct (polarization_array u); [congruence|simpl; lia]. }
  destruct (if a =? b then None else canon u b a true) as [i2|]; [destruct H2; congruence|].
  cbn [pair_pol bind]. split.
  - intros [[E1|E1] _].
    + rewrite E1 in H1. destruct (canon u a b true) as [i1|]; [destruct H1; congruence|]. reflexivity.
    + destruct (polarization_array u); [congruence|discriminate].
  - intros Hs. destruct (canon u a b true) as [i1|]; [|exfalso; apply Hs; cbn [hits] in H1; auto].
    unfold pair_entry. cbn [bind slicify]. do 4 eexists. split; [reflexivity|]. split; [exact H1|]. split; [reflexivity|].
    split; [auto|congruence].
Qed.

Lemma canon_cells u xo k R1 P1 R2 P2 : consistent u -> key_cells u xo k R1 P1 R2 P2 -> ~ opposite_order P2 ->
  gives u (canon_key u xo k) R1 P1 R2 P2.
Proof.
  intros Hc HK Hop. pose proof Hc as (Hsh & _ & _ & Ht & Hp & _).
  destruct HK as [a b P2 HL ND HP|a b HR|a b p HL|a b s p Es HL|s p Es|p Hlt|i P2 Hi H5 HL ND HP a b|i Hi H5 a b HR]; cbn [canon_key].
  - apply canon_pair_all; assumption.
  - apply canon_pair_stored; assumption.
  - apply canon_pair_pol; [exact HL|reflexivity].
  - apply canon_pair_pol; [exact HL|]. cbn [pair_pol]. rewrite Es. reflexivity.
  - rewrite Es. cbn [bind]. apply canon_pol. exact Ht.
  - replace (p <? 5) with true by lia. apply canon_pol. exact Ht.
  - replace (nth i (baseline_array u) 0 <? 5) with false by lia. rewrite (coded_number u i Hc Hi). cbv iota.
    apply canon_pair_all; assumption.
  - replace (nth i (baseline_array u) 0 <? 5) with false by lia. rewrite (coded_number u i Hc Hi). cbv iota.
    apply canon_pair_stored; assumption.
Qed.

Lemma get_cells {A} conj (f : uvd -> cube A) o k R1 P1 R2 P2 : reachable o -> consistent (o_u o) ->
  key_cells (o_u o) (o_xo o) k R1 P1 R2 P2 -> ~ opposite_order P2 ->
  let r := snd (get_cube conj f k o) in
  (absent R1 P1 R2 P2 -> r = Err KeyError) /\
  (~ absent R1 P1 R2 P2 -> (R1 <> [] -> R2 <> [] -> length P1 = length P2) ->
     r = Ok (expected conj (f (o_u o)) (length (freq_array (o_u o))) R1 P1 R2 P2)) /\
  (R1 <> [] -> R2 <> [] -> length P1 <> length P2 -> r = Err ValueError).
Proof.
  intros Hr Hc HK Hop. cbv zeta. rewrite (get_cube_ok conj f k o Hc (reachable_inv o Hr)).
  destruct (canon_cells _ _ _ _ _ _ _ Hc HK Hop) as [G1 G2]. split; [|split].
  - intros H. rewrite (G1 H). reflexivity.
  - intros Hs Hl. destruct (G2 Hs) as (i1 & i2 & q1 & q2 & -> & H1 & H2 & HQ1 & HQ2). cbn [bind].
    rewrite (smart_found (o_u o) conj _ i1 i2 q1 q2 R1 P1 R2 P2) by assumption. fold (Nfreqs (o_u o)).
    destruct R1 as [|r1 R1], R2 as [|r2 R2]; try reflexivity.
    rewrite (Hl ltac:(discriminate) ltac:(discriminate)), Nat.eqb_refl. reflexivity.
  - intros N1 N2 Hl. assert (Hs : ~ absent R1 P1 R2 P2).
    { intros [[E1|E1] [E2|E2]]; try congruence. }
    destruct (G2 Hs) as (i1 & i2 & q1 & q2 & -> & H1 & H2 & HQ1 & HQ2). cbn [bind].
    rewrite (smart_found (o_u o) conj _ i1 i2 q1 q2 R1 P1 R2 P2) by assumption.
    destruct R1 as [|r1 R1], R2 as [|r2 R2]; try congruence.
    cbn [negb andb]. destruct (Nat.eqb_spec (length P1) (length P2)); [lia|reflexivity].
Qed.

Lemma times_cells o k R1 P1 R2 P2 : reachable o -> consistent (o_u o) ->
  key_cells (o_u o) (o_xo o) k R1 P1 R2 P2 -> ~ opposite_order P2 -> ~ absent R1 P1 R2 P2 ->
  snd (get_times k o) = Ok (map (fun i => nth i (time_array (o_u o)) 0) (R1 ++ R2)).
Proof.
  intros Hr Hc HK Hop Hs. rewrite (get_times_ok k o Hc (reachable_inv o Hr)).
  destruct (canon_cells _ _ _ _ _ _ _ Hc HK Hop) as [_ G2]. destruct (G2 Hs) as (i1 & i2 & q1 & q2 & -> & H1 & H2 & _).
  cbn [bind]. apply times_found; assumption.
Qed.

(** ** set_data and its siblings *)
Lemma write_arr0 {A} sh (c : cube A) l s1 s2 ash arr : l <> [] ->
  write_dset sh c (AArr l, s1, s2) ash arr = write_dset sh c (AList l, s1, s2) ash arr.
Proof. intros H. destruct sh as [[n0 n1] n2], ash as [[a0 a1] a2], l as [|x l]; [congruence|]. reflexivity. Qed.

(** What set_axis addresses, with an array of integers read as a list. *)
Definition as_list (s : axis_sel) : axis_sel := match s with AArr l => AList l | _ => s end.

Lemma write_as_list {A} sh (c : cube A) s0 s1 s2 ash arr : (forall l, s0 = AArr l -> l <> []) ->
  write_dset sh c (s0, s1, s2) ash arr = write_dset sh c (as_list s0, s1, s2) ash arr.
Proof. intros H. destruct s0 as [i|s|l|l|l]; try reflexivity. apply write_arr0. apply H. reflexivity. Qed.

Lemma sorted_Z n R : StronglySorted lt R -> Forall (fun i => (i < n)%nat) R -> increasing_in (Z.of_nat n) (map Z.of_nat R).
Proof.
  intros Hs Hb. split.
  - apply (proj1 (StronglySorted_map Z.lt Z.of_nat _)). eapply StronglySorted_impl; [|exact Hs]. intros; lia.
  - apply Forall_map. eapply Forall_impl; [|exact Hb]. intros; cbv beta in *; lia.
Qed.

Lemma set_axis_selects n frac ix R : hits n (Some ix) R -> StronglySorted lt R -> Forall (fun i => (i < n)%nat) R ->
  selects (Z.of_nat n) (as_list (set_axis frac ix)) (map Z.of_nat R) /\ (forall l, set_axis frac ix = AArr l -> l <> []) /\
  (forall s, ix = ISlice s -> is_list (set_axis frac ix) = false).
Proof.
  intros (Hne & HA & HP & T) Hs Hb. destruct ix as [s|i|m|l]; try contradiction; cycle 1.
  - cbn [positions] in HP. injection HP as ->. unfold set_axis.
    assert (HneZ : map Z.of_nat R <> []) by (destruct R; [congruence|discriminate]).
    pose proof (sorted_Z n R Hs Hb) as Hinc.
    destruct (convert_tidy (Z.of_nat n) (map Z.of_nat R) frac HneZ Hinc) as (ss & E & Hss & Ti & Sl).
    destruct (convert_to_slices (IList (map Z.of_nat R)) frac None false) as [out ok] eqn:Eo. cbn [fst] in E. subst out.
    fold unslice. rewrite unslice_map. destruct ok; cbn [as_list].
    + split; [|split; [discriminate|discriminate]]. destruct (tidy_all _ ss _ Ti Sl) as (ls & F & <-). constructor; assumption.
    + split; [constructor; assumption|]. split; [|discriminate]. intros l E. injection E as <-. exact HneZ.
  - unfold set_axis. cbn [convert_to_slices map as_list]. split; [|split; [discriminate|reflexivity]].
    rewrite <- (app_nil_r (map Z.of_nat R)). change (map Z.of_nat R ++ []) with (concat [map Z.of_nat R]).
    constructor; [discriminate|]. constructor; [|constructor]. cbn [tame positions] in *. destruct T as (T1 & T2 & T3).
    split; [exact T1|]. split; [exact T2|]. split; [exact T3|]. split; [exact HP|]. destruct R; [congruence|discriminate].
Qed.

Lemma NoDup_of_nat R : NoDup R -> NoDup (map Z.of_nat R).
Proof. intros H. apply FinFun.Injective_map_NoDup; [|exact H]. intros x y; lia. Qed.

Lemma update_replaced {A} (old new arr : cube A) nf R P :
  is_update old (map Z.of_nat R) (map Z.of_nat (seq 0 nf)) (map Z.of_nat P) arr new -> replaced old new nf R P arr.
Proof.
  assert (AP : forall l i, (i < length l)%nat -> at_pos (map Z.of_nat l) i = nth i l 0%nat).
  { intros l i Hi. unfold at_pos. rewrite (nth_map Z.of_nat l i 0%nat 0) by exact Hi. lia. }
  assert (IN : forall l i, In (Z.of_nat i) (map Z.of_nat l) <-> In i l).
  { intros l i. rewrite in_map_iff. split; [intros (x & E & H); replace i with x by lia; exact H|eauto]. }
  intros [HB HO]. split.
  - intros i j k Hi Hj Hk. rewrite (HB i j k) by (rewrite map_length, ?seq_length; assumption).
    rewrite !AP by (rewrite ?seq_length; assumption). rewrite seq_nth by exact Hj. reflexivity.
  - intros i j k H. apply HO. rewrite !IN, in_seq. intros (H1 & H2 & H3). apply H. split; [exact H1|]. split; [lia|exact H3].
Qed.

Lemma set_cube_ok {A} (c arr : cube A) u i1 s R P : freq_array u <> [] ->
  hits (Nblts u) (Some i1) R -> hits (Npols u) (Some (ISlice s)) P ->
  StronglySorted lt R -> Forall (fun i => (i < Nblts u)%nat) R -> StronglySorted lt P -> Forall (fun i => (i < Npols u)%nat) P ->
  forall q2, exists c', set_cube c u (Some i1, None, (Some (ISlice s), q2)) (Z.of_nat (length R), Z.of_nat (Nfreqs u), Z.of_nat (length P)) arr = Ok c' /\
    replaced c c' (Nfreqs u) R P arr.
Proof.
  intros Hf H1 HQ SR BR SP BP q2.
  destruct (set_axis_selects _ (1 # 10)%Q i1 R H1 SR BR) as (X0 & X0' & _).
  destruct (set_axis_selects _ (1 # 2)%Q (ISlice s) P HQ SP BP) as (X2 & _ & X2'). specialize (X2' s eq_refl).
  destruct H1 as (_ & A1 & _). destruct HQ as (_ & A2 & _). unfold set_cube. rewrite A1, A2. cbn [bind]. rewrite !Z.eqb_refl. cbn [andb].
  assert (N1 : (0 < Nfreqs u)%nat) by (unfold Nfreqs; destruct (freq_array u); [congruence|simpl; lia]).
  pose proof (full_plain (Z.of_nat (Nfreqs u)) ltac:(lia)) as X1. rewrite Nat2Z.id in X1.
  rewrite write_as_list by exact X0'.
  assert (E2 : as_list (set_axis (1 # 2)%Q (ISlice s)) = set_axis (1 # 2)%Q (ISlice s)) by reflexivity. rewrite E2 in X2.
  destruct (write_dset_correct (Z.of_nat (Nblts u)) (Z.of_nat (Nfreqs u)) (Z.of_nat (Npols u)) c arr
     (as_list (set_axis (1 # 10)%Q i1)) (ASlice (mkslice None None None)) (set_axis (1 # 2)%Q (ISlice s))
     (map Z.of_nat R) (map Z.of_nat (seq 0 (Nfreqs u))) (map Z.of_nat P)) as (c' & E & U); try lia; try assumption.
  - constructor. exact X1.
  - unfold one_list. cbn [filter is_list]. rewrite X2'. destruct (is_list (as_list (set_axis (1 # 10)%Q i1))); simpl; lia.
  - apply NoDup_of_nat. apply (StronglySorted_lt_NoDup R SR).
  - apply NoDup_of_nat. apply seq_NoDup.
  - apply NoDup_of_nat. apply (StronglySorted_lt_NoDup P SP).
  - exists c'. unfold lengths in E. rewrite !map_length, seq_length in E. split; [exact E|]. apply update_replaced. exact U.
Qed.

Lemma pol_where_single u p : NoDup (polarization_array u) -> (length (pol_where u p) <= 1)%nat.
Proof.
  intros ND. rewrite pol_where_positions, map_length. destruct (pol_positions u p) as [|i [|j l]] eqn:E; simpl; try lia. exfalso.
  pose proof (pol_positions_sorted u p) as S. rewrite E in S. inversion S as [|? ? _ HF]; subst. inversion HF; subst.
  assert (Hi : In i (pol_positions u p)) by (rewrite E; left; reflexivity).
  assert (Hj : In j (pol_positions u p)) by (rewrite E; right; left; reflexivity).
  unfold pol_positions in Hi, Hj. apply filter_In in Hi, Hj. destruct Hi as [Hi Ei], Hj as [Hj Ej]. apply in_seq in Hi, Hj.
  assert (i = j); [|lia]. apply (proj1 (NoDup_nth (polarization_array u) 0) ND); lia.
Qed.

Lemma pol_slice u p l : NoDup (polarization_array u) -> pol_where u p = l ->
  match slicify (some_list l) with None => True | Some q => exists s, q = ISlice s end.
Proof.
  intros ND <-. pose proof (pol_where_single u p ND) as H. destruct (pol_where u p) as [|x [|y l]]; simpl in *; try lia; eauto.
Qed.

Lemma pair_entry_slice u i1 i2 pol j1 j2 q1 q2 : NoDup (polarization_array u) ->
  pair_entry u i1 i2 pol = Ok (j1, j2, (Some q1, q2)) -> exists s, q1 = ISlice s.
Proof.
  intros ND. unfold pair_entry.
  assert (G : match slicify (match i1, pol with None, _ => None | Some _, None => Some sliceall | Some _, Some p => some_list (pol_where u p) end) with
              None => True | Some q => exists s, q = ISlice s end).
  { destruct i1; [|exact I]. destruct pol as [p|]; [|eexists; reflexivity]. apply (pol_slice u p _ ND eq_refl). }
  revert G. generalize (match i1, pol with None, _ => None | Some _, None => Some sliceall | Some _, Some p => some_list (pol_where u p) end).
  intros ix1 G E.
  destruct (match i1 with None => match i2 with None => true | _ => false end | _ => false end) eqn:Z; [destruct i1, i2; discriminate|].
  assert (E' : (do (ind2, pol_ind2) <-
        match i2, pol with
        | None, _ => Ok (None, None)
        | Some _, None =>
            match reorder_conj_pols (polarization_array u) with
            | Ok l => Ok (i2, Some (IList (map Z.of_nat l)))
            | Err ValueError => match i1 with None => Err KeyError | Some _ => Ok (None, None) end
            | Err e => Err e
            end
        | Some _, Some p =>
            do cp <- conj_pol p;
            Ok (i2, some_list (pol_where u cp))
        end;
      match (match i1, ix1 with Some _, Some _ => true | _, _ => false end),
            (match ind2, pol_ind2 with Some _, Some _ => true | _, _ => false end) with
      | false, false => Err KeyError
      | _, _ => Ok (i1, ind2, (slicify ix1, slicify pol_ind2))
      end) = Ok (j1, j2, (Some q1, q2))) by (destruct i1, i2; try discriminate; exact E).
  clear E. match type of E' with bind ?X _ = _ => destruct X as [[ind2 pol_ind2]|e] end; cbn [bind] in E'; [|discriminate].
  destruct (match i1, ix1 with Some _, Some _ => true | _, _ => false end), (match ind2, pol_ind2 with Some _, Some _ => true | _, _ => false end); try discriminate;
  injection E' as _ _ E'' _; rewrite E'' in G; exact G.
Qed.

Lemma canon_key_slice u xo k j1 j2 q1 q2 : NoDup (polarization_array u) ->
  canon_key u xo k = Ok (j1, j2, (Some q1, q2)) -> exists s, q1 = ISlice s.
Proof.
  intros ND.
  assert (P : forall p, pol_entry u p = Ok (j1, j2, (Some q1, q2)) -> exists s, q1 = ISlice s).
  { intros p. unfold pol_entry. pose proof (pol_slice u p _ ND eq_refl) as G.
    destruct (pol_where u p) as [|x l]; [discriminate|]. intros E. unfold some_list in G. assert (E1 : slicify (Some (IList (x :: l))) = Some q1) by congruence. rewrite E1 in G. exact G. }
  assert (Q : forall k a b, canon_pair u xo k a b = Ok (j1, j2, (Some q1, q2)) -> exists s, q1 = ISlice s).
  { intros k' a b. unfold canon_pair.
    destruct (canon u a b true), (if a =? b then None else canon u b a true); try discriminate;
    (destruct (pair_pol k' xo); cbn [bind]; [apply pair_entry_slice; exact ND|discriminate]). }
  destruct k; cbn [canon_key]; try apply Q.
  - destruct (polstr2num xo s); cbn [bind]; [apply P|discriminate].
  - destruct (n <? 5); [apply P|]. destruct (baseline_to_antnums [n] (Nants_telescope u)) as [[[|a [|? ?]] [|b [|? ?]]]|]; try discriminate. apply Q.
Qed.

Lemma cells_sorted u xo k R1 P1 R2 P2 : key_cells u xo k R1 P1 R2 P2 ->
  StronglySorted lt R1 /\ Forall (fun i => (i < Nblts u)%nat) R1 /\ StronglySorted lt P1 /\ Forall (fun i => (i < Npols u)%nat) P1.
Proof.
  assert (S : forall n, StronglySorted lt (seq 0 n) /\ Forall (fun i => (i < n)%nat) (seq 0 n)).
  { intros n. split; [apply seq_sorted|]. apply Forall_forall. intros x Hx. apply in_seq in Hx. lia. }
  intros HK. destruct HK; repeat split; try apply pair_rows_sorted; try apply pair_rows_bound; try apply pol_positions_sorted; try apply pol_positions_bound;
    apply S.
Qed.

Definition same_keys (u u' : uvd) : Prop :=
  time_array u' = time_array u /\ ant_1_array u' = ant_1_array u /\ ant_2_array u' = ant_2_array u /\
  polarization_array u' = polarization_array u /\ baseline_array u' = baseline_array u.
Lemma cells_same u u' xo k R1 P1 R2 P2 : same_keys u u' -> key_cells u xo k R1 P1 R2 P2 -> key_cells u' xo k R1 P1 R2 P2.
Proof.
  intros (E1 & E2 & E3 & E4 & E5) HK.
  assert (PR : forall a b, pair_rows u' a b = pair_rows u a b) by (intros; unfold pair_rows; rewrite E1, E2, E3; reflexivity).
  assert (RR : forall a b, reverse_rows u' a b = reverse_rows u a b) by (intros; unfold reverse_rows; rewrite PR; reflexivity).
  assert (PP : forall p, pol_positions u' p = pol_positions u p) by (intros; unfold pol_positions; rewrite E4; reflexivity).
  destruct HK as [a b P2 HL ND HP|a b HR|a b p HL|a b s p Es HL|s p Es|p Hlt|i P2 Hi H5 HL ND HP a b|i Hi H5 a b HR].
  - rewrite <- PR, <- RR, <- E4 in *. apply cells_pair; auto. unfold conj_positions in *. rewrite E4. exact HP.
  - rewrite <- PR, <- E4. apply cells_pair_stored. rewrite RR. exact HR.
  - rewrite <- PR, <- RR, <- !PP. apply cells_pair_number. exact HL.
  - rewrite <- PR, <- RR, <- !PP. apply cells_pair_name; assumption.
  - rewrite <- PP, <- E1. apply cells_pol_name; assumption.
  - rewrite <- PP, <- E1. apply cells_pol_number; assumption.
  - rewrite <- PR, <- RR, <- E4 in *. subst a b. rewrite <- E5 in *. rewrite <- E2, <- E3. apply cells_baseline; auto; [rewrite E1; exact Hi|].
    unfold conj_positions in *. rewrite E4. exact HP.
  - subst a b. rewrite <- PR, <- E4. rewrite <- RR in HR. rewrite <- E5 in *. rewrite <- E2, <- E3 in *. apply cells_baseline_stored; auto. rewrite E1. exact Hi.
Qed.

Lemma set_cells {A} (f : uvd -> cube A) upd sh (arr : cube A) o k R1 P1 R2 P2 :
  reachable o -> consistent (o_u o) -> freq_array (o_u o) <> [] -> NoDup (polarization_array (o_u o)) ->
  key_cells (o_u o) (o_xo o) k R1 P1 R2 P2 -> ~ opposite_order P2 ->
  let u := o_u o in
  let r := set_with f upd sh arr k o in
  o_xo (fst r) = o_xo o /\
  (absent R1 P1 R2 P2 -> snd r = Err KeyError /\ o_u (fst r) = u) /\
  (~ absent R1 P1 R2 P2 -> R2 <> [] -> snd r = Err ValueError /\ o_u (fst r) = u) /\
  (~ absent R1 P1 R2 P2 -> R2 = [] ->
     sh <> (Z.of_nat (length R1), Z.of_nat (length (freq_array u)), Z.of_nat (length P1)) ->
     snd r = Err ValueError /\ o_u (fst r) = u) /\
  (~ absent R1 P1 R2 P2 -> R2 = [] ->
     sh = (Z.of_nat (length R1), Z.of_nat (length (freq_array u)), Z.of_nat (length P1)) ->
     exists c, snd r = Ok tt /\ o_u (fst r) = upd c u /\ replaced (f u) c (length (freq_array u)) R1 P1 arr).
Proof.
  intros Hr Hc Hf ND HK Hop u r. subst r. unfold set_with.
  pose proof (key2inds_inv k o Hc (reachable_inv o Hr)) as (U & X & _ & Sm).
  destruct (canon_cells _ _ _ _ _ _ _ Hc HK Hop) as [G1 G2].
  pose proof (cells_sorted _ _ _ _ _ _ _ HK) as (SR & BR & SP & BP).
  destruct (key2inds k o) as [o' rr]. cbn [fst snd] in U, X, Sm.
  split; [|split; [|split; [|split]]].
  - destruct rr as [e|x]; [|exact X]. destruct (set_cube (f (o_u o')) (o_u o') e sh arr); exact X.
  - intros Ha. rewrite (G1 Ha) in Sm. destruct rr as [e|x]; cbn [same_res] in Sm; [contradiction|]. subst x. cbn [fst snd]. auto.
  - intros Ha HR2. destruct (G2 Ha) as (i1 & i2 & q1 & q2 & E & H1 & H2 & HQ1 & HQ2). rewrite E in Sm.
    destruct rr as [[[j1 j2] [p1 p2]]|x]; cbn [same_res same_entry] in Sm; [|contradiction]. destruct Sm as (_ & S2 & _).
    destruct i2 as [i2|]; [|cbn [hits] in H2; congruence]. destruct j2 as [j2|]; [|contradiction]. cbn [set_cube fst snd]. auto.
  - intros Ha -> Hsh. destruct (G2 Ha) as (i1 & i2 & q1 & q2 & E & H1 & H2 & HQ1 & HQ2). rewrite E in Sm.
    destruct rr as [[[j1 j2] [p1 p2]]|x]; cbn [same_res same_entry] in Sm; [|contradiction]. destruct Sm as (S1 & S2 & Ep).
    injection Ep as -> ->. assert (N : R1 <> [] /\ P1 <> []) by (split; intros ->; apply Ha; split; auto). destruct N as [N1 N2].
    specialize (HQ1 N1). apply (hits_sel _ _ _ _ S1) in H1. apply (hits_sel _ _ _ _ S2) in H2.
    destruct j2 as [j2|]; [destruct H2; congruence|]. destruct j1 as [j1|]; [|cbn [hits] in H1; congruence].
    destruct q1 as [q1|]; [|cbn [hits] in HQ1; congruence]. destruct H1 as (_ & A1 & _), HQ1 as (_ & A2 & _).
    cbn [set_cube]. rewrite U, A1, A2. cbn [bind]. destruct sh as [[d0 d1] d2].
    destruct ((d0 =? Z.of_nat (length R1)) && (d1 =? Z.of_nat (Nfreqs (o_u o))) && (d2 =? Z.of_nat (length P1))) eqn:Ed.
    + exfalso. apply Hsh. unfold Nfreqs in Ed. fold u in Ed. repeat f_equal; lia.
    + cbn [fst snd]. auto.
  - intros Ha -> ->. destruct (G2 Ha) as (i1 & i2 & q1 & q2 & E & H1 & H2 & HQ1 & HQ2). pose proof E as Ek. rewrite E in Sm.
    destruct rr as [[[j1 j2] [p1 p2]]|x]; cbn [same_res same_entry] in Sm; [|contradiction]. destruct Sm as (S1 & S2 & Ep).
    injection Ep as -> ->. assert (N : R1 <> [] /\ P1 <> []) by (split; intros ->; apply Ha; split; auto). destruct N as [N1 N2].
    specialize (HQ1 N1). apply (hits_sel _ _ _ _ S1) in H1. apply (hits_sel _ _ _ _ S2) in H2.
    destruct j2 as [j2|]; [destruct H2; congruence|]. destruct j1 as [j1|]; [|cbn [hits] in H1; congruence].
    destruct q1 as [q1|]; [|cbn [hits] in HQ1; congruence].
    destruct (canon_key_slice _ _ _ _ _ _ _ ND Ek) as (s & ->). rewrite U.
    destruct (set_cube_ok (f (o_u o)) arr (o_u o) j1 s R1 P1 Hf H1 HQ1 SR BR SP BP q2) as (c & Ec & Hrep).
    unfold u. unfold Nfreqs in *. rewrite Ec. exists c. cbn [fst snd o_u]. auto.
Qed.

Lemma replaced_entries {A} (conj : A -> A) old new nf R P P2 (arr : cube A) : replaced old new nf R P arr ->
  expected conj new nf R P [] P2 = entries (length R) nf (length P) arr.
Proof.
  intros [HB _]. unfold expected, entries. cbn [map]. rewrite app_nil_r.
  assert (L : forall (B : Type) (g : nat -> B) l, map g l = map (fun i => g (nth i l 0%nat)) (seq 0 (length l))).
  { intros B g l. rewrite <- (map_map (fun i => nth i l 0%nat) g). f_equal. symmetry. 
    induction l as [|x l IH]; [reflexivity|]. simpl. f_equal. rewrite <- seq_shift, map_map. exact IH. }
  rewrite (L _ _ R). apply map_ext_in. intros i Hi. apply in_seq in Hi. apply map_ext_in. intros j Hj. apply in_seq in Hj.
  rewrite (L _ _ P). apply map_ext_in. intros k Hk. apply in_seq in Hk. apply HB; lia.
Qed.

Lemma set_then_get {A} conj (f : uvd -> cube A) upd sh (arr : cube A) o k R1 P1 R2 P2 :
  (forall o, reachable o -> consistent (o_u o) -> reachable (fst (set_with f upd sh arr k o))) ->
  (forall c u, f (upd c u) = c) -> (forall c u, consistent u -> consistent (upd c u)) ->
  (forall c u, same_keys u (upd c u) /\ freq_array (upd c u) = freq_array u) ->
  reachable o -> consistent (o_u o) -> freq_array (o_u o) <> [] -> NoDup (polarization_array (o_u o)) ->
  key_cells (o_u o) (o_xo o) k R1 P1 R2 P2 -> ~ opposite_order P2 ->
  snd (set_with f upd sh arr k o) = Ok tt ->
  snd (get_cube conj f k (fst (set_with f upd sh arr k o))) =
    Ok (entries (length R1) (length (freq_array (o_u o))) (length P1) arr).
Proof.
  intros Hreach Hfu Hcons Hsame Hr Hc Hf ND HK Hop Hok.
  destruct (set_cells f upd sh arr o k R1 P1 R2 P2 Hr Hc Hf ND HK Hop) as (X & C1 & C2 & C3 & C4).
  assert (D : absent R1 P1 R2 P2 \/ ~ absent R1 P1 R2 P2).
  { unfold absent. destruct R1, P1, R2, P2; try (left; split; auto; fail); try (right; intros [[H|H] [H'|H']]; discriminate). }
  destruct D as [D|D]; [destruct (C1 D); congruence|].
  assert (R2 = []) as -> by (destruct R2; [reflexivity|destruct (C2 D ltac:(discriminate)); congruence]).
  assert (Hs : sh = (Z.of_nat (length R1), Z.of_nat (length (freq_array (o_u o))), Z.of_nat (length P1))).
  { destruct sh as [[d0 d1] d2].
    destruct (Z.eq_dec d0 (Z.of_nat (length R1))) as [->|N]; [|destruct C3; [exact D|reflexivity|congruence|congruence]].
    destruct (Z.eq_dec d1 (Z.of_nat (length (freq_array (o_u o))))) as [->|N]; [|destruct C3; [exact D|reflexivity|congruence|congruence]].
    destruct (Z.eq_dec d2 (Z.of_nat (length P1))) as [->|N]; [reflexivity|destruct C3; [exact D|reflexivity|congruence|congruence]]. }
  destruct (C4 D eq_refl Hs) as (c & _ & Eu & Hrep).
  set (o' := fst (set_with f upd sh arr k o)) in *.
  destruct (Hsame c (o_u o)) as [Sk Sf].
  destruct (get_cells conj f o' k R1 P1 [] P2) as (_ & G & _).
  - apply Hreach; assumption.
  - rewrite Eu. apply Hcons. exact Hc.
  - rewrite Eu, X. apply cells_same with (u := o_u o); assumption.
  - exact Hop.
  - rewrite G by (try exact D; congruence). rewrite Eu, Hfu, Sf. f_equal. eapply replaced_entries. exact Hrep.
Qed.

Lemma reach_step o o' : reachable o -> step o o' -> reachable o'.
Proof.
  intros (u & xo & H) Hs. exists u, xo. induction H as [|a b c Hab _ IH]; [eapply Relation_Operators.rt1n_trans; [exact Hs|constructor]|].
  eapply Relation_Operators.rt1n_trans; [exact Hab|auto].
Qed.

(** ** what is on the object *)
Lemma rows_bl u i : blt_shaped u -> (i < length (time_array u))%nat -> In (nth i (baseline_array u) 0) (baseline_array u).
Proof. intros (_ & _ & _ & Lb & _) Hi. apply nth_In. lia. Qed.

Lemma get_bls_ok u : consistent u -> exists l, get_baseline_nums u = Ok l /\ NoDup l /\ (forall b, In b l <-> In b (baseline_array u)).
Proof.
  intros Hc. pose proof Hc as (Hsh & _). destruct (blts_are_rectangular u) as [[]|] eqn:Er.
  - destruct (rect_axis_of u Hc Er) as (bs & H). exists bs. split; [apply rect_bls; assumption|]. split; [apply H|].
    destruct Hsh as (_ & _ & _ & Lb & _). intros b. split; intros Hb; apply In_nth with (d := 0) in Hb; destruct Hb as (q & Hq & <-).
    + assert (Hq' : (q < Nbls u)%nat) by (destruct H; lia). destruct (firsts_row u bs q H Hq') as [H1 H2].
      pose proof (ra_bl u bs H _ H1) as E. rewrite H2 in E. rewrite <- E. apply nth_In. lia.
    + rewrite (ra_bl u bs H) by lia. apply nth_In. destruct (row_first u bs q Hc H ltac:(lia)) as [Hq' _]. destruct H. lia.
  - exists (uniqueZ (baseline_array u)). unfold get_baseline_nums. rewrite Er. split; [reflexivity|]. split; [apply uniqueZ_NoDup|intros; apply uniqueZ_In].
  - exists (uniqueZ (baseline_array u)). unfold get_baseline_nums. rewrite Er. split; [reflexivity|]. split; [apply uniqueZ_NoDup|intros; apply uniqueZ_In].
Qed.

Lemma get_pairs_ok u : consistent u -> exists l, get_antpairs u = Ok l /\ NoDup l /\
  (forall a b, In (a, b) l <-> pair_rows u a b <> []).
Proof.
  intros Hc. destruct (get_bls_ok u Hc) as (bs & E & ND & HI). pose proof Hc as (Hsh & (m & off & Henc & Hcod) & _ & Ht & _ & Hn).
  unfold get_antpairs. rewrite E. cbn [bind]. destruct Hsh as (_ & _ & _ & Lb & _).
  assert (Hrow : forall b, In b bs -> exists i, (i < length (time_array u))%nat /\ b = m * nth i (ant_1_array u) 0 + nth i (ant_2_array u) 0 + off /\
                  0 <= nth i (ant_1_array u) 0 < m /\ 0 <= nth i (ant_2_array u) 0 < m).
  { intros b Hb. apply HI in Hb. apply In_nth with (d := 0) in Hb. destruct Hb as (i & Hi & <-). rewrite Lb in Hi.
    exists i. destruct (Hcod i Hi) as (A & B & C). auto. }
  rewrite (decode_regime m off bs _ Henc).
  - cbn [bind]. eexists. split; [reflexivity|].
    assert (EC : forall l, combine (map (fun b => (b - off) / m) l) (map (fun b => (b - off) mod m) l) = map (fun b => ((b - off) / m, (b - off) mod m)) l)
      by (induction l as [|x l IH]; [reflexivity|simpl; rewrite IH; reflexivity]).
    rewrite EC. split.
    + clear - ND Hrow. induction ND as [|b l Hb ND IH]; [constructor|]. simpl. constructor; [|apply IH; intros; apply Hrow; right; assumption].
      intros Hin. apply in_map_iff in Hin. destruct Hin as (b' & Ee & Hb'). injection Ee as E1 E2.
      destruct (Hrow b ltac:(left; reflexivity)) as (i & _ & -> & _ & B). destruct (Hrow b' ltac:(right; assumption)) as (i' & _ & -> & _ & B').
      rewrite !div_enc in E1 by assumption. rewrite !mod_enc in E2 by assumption. rewrite E1, E2 in Hb'. contradiction.
    + intros a b. split.
      * intros Hin. apply in_map_iff in Hin. destruct Hin as (n & Ee & Hin). destruct (Hrow n Hin) as (i & Hi & -> & A & B).
        rewrite div_enc, mod_enc in Ee by exact B. injection Ee as <- <-. intros En.
        assert (In i []); [|contradiction]. rewrite <- En. apply pair_rows_In. auto.
      * intros Hne. destruct (pair_rows u a b) as [|i l] eqn:Er; [congruence|].
        assert (Hi : In i (pair_rows u a b)) by (rewrite Er; left; reflexivity). apply pair_rows_In in Hi. destruct Hi as (Hi & <- & <-).
        destruct (Hcod i Hi) as (A & B & C). apply in_map_iff. exists (nth i (baseline_array u) 0). split.
        -- rewrite C, div_enc, mod_enc by exact B. reflexivity.
        -- apply HI. apply nth_In. lia.
  - intros ->. destruct (baseline_array u) as [|b l]; [destruct (time_array u); [congruence|discriminate]|].
    destruct (HI b) as [_ H]. apply H. left; reflexivity.
  - exact Hn.
  - apply Forall_forall. intros b Hb. destruct (Hrow b Hb) as (i & _ & -> & A & B). unfold in_regime. inversion Henc; subst; nia.
Qed.

Lemma get_ants_ok u : consistent u -> exists l, get_ants u = Ok l /\ StronglySorted Z.lt l /\
  (forall a, In a l <-> In a (ant_1_array u) \/ In a (ant_2_array u)).
Proof.
  intros Hc. unfold get_ants. destruct (blts_are_rectangular u) as [[]|] eqn:Er;
    try (eexists; split; [reflexivity|]; split; [apply uniqueZ_sorted|]; intros a; rewrite uniqueZ_In, in_app_iff; reflexivity).
  destruct (rect_axis_of u Hc Er) as (bs & H). pose proof Hc as ((_ & L1 & L2 & _) & _).
  rewrite (rect_take 0 u bs (ant_1_array u) H L1), (rect_take 0 u bs (ant_2_array u) H L2). cbn [bind].
  eexists. split; [reflexivity|]. split; [apply uniqueZ_sorted|]. intros a. rewrite uniqueZ_In, in_app_iff.
  assert (G : forall l, length l = length (time_array u) ->
    (forall i, (i < length (time_array u))%nat -> exists q, (q < Nbls u)%nat /\ nth (nth q (firsts u) 0%nat) l 0 = nth i l 0) ->
    (In a (take 0 l (firsts u)) <-> In a l)).
  { intros l Hl Hrow. unfold take. rewrite in_map_iff. split.
    - intros (x & <- & Hx). apply In_nth with (d := 0%nat) in Hx. destruct Hx as (q & Hq & <-). rewrite firsts_length in Hq.
      apply nth_In. rewrite Hl. apply (firsts_row u bs q H Hq).
    - intros Ha. apply In_nth with (d := 0) in Ha. destruct Ha as (i & Hi & <-). destruct (Hrow i ltac:(lia)) as (q & Hq & Eq).
      exists (nth q (firsts u) 0%nat). split; [exact Eq|]. apply nth_In. rewrite firsts_length. exact Hq. }
  rewrite G, G; [reflexivity|exact L2| |exact L1|]; intros i Hi; destruct (row_first u bs i Hc H Hi) as (Hq & E1 & E2); eexists; split; eassumption.
Qed.

(** ** polarizations that are not closed under conjugation *)
Lemma unconjugable_rows o a b : reachable o -> consistent (o_u o) -> Forall legal_pol (polarization_array (o_u o)) ->
  (exists p, In p (polarization_array (o_u o)) /\ ~ In (swapped p) (polarization_array (o_u o))) ->
  reverse_rows (o_u o) a b <> [] ->
  snd (get_data (KPair a b) o) =
    match pair_rows (o_u o) a b with
    | [] => Err KeyError
    | R1 => Ok (expected cconj (data_array (o_u o)) (length (freq_array (o_u o))) R1 (seq 0 (length (polarization_array (o_u o)))) [] [])
    end.
Proof.
  intros Hr Hc HL (p & Hp & Hn) HR. unfold get_data. rewrite (get_cube_ok _ _ _ _ Hc (reachable_inv o Hr)). cbn [canon_key]. unfold canon_pair.
  pose proof (canon_ordered (o_u o) a b) as H1. pose proof (rev_canon (o_u o) a b) as H2.
  assert (Er : reorder_conj_pols (polarization_array (o_u o)) = Err ValueError).
  { apply (proj2 (reorder_conj_err _ HL)). exists p. auto. }
  destruct (if a =? b then None else canon (o_u o) b a true) as [i2|]; [|cbn [hits] in H2; congruence].
  destruct (canon (o_u o) a b true) as [i1|]; cbn [pair_pol bind]; unfold pair_entry; rewrite Er; cbn [bind slicify].
  - destruct H1 as (N1 & A1 & _). destruct (pair_rows (o_u o) a b) as [|r R1]; [congruence|].
    unfold sliceall at 1. cbn [smart_slicing]. rewrite A1. cbn [bind]. fold sliceall. rewrite at_index_all. cbn [bind snd].
    unfold expected, block_of, Nfreqs, Npols. cbn [map]. rewrite app_nil_r. reflexivity.
  - cbn [hits] in H1. rewrite H1. reflexivity.
Qed.

(** ** concrete objects for the examples and findings *)
Lemma sample_coded rows pols nb nt ord rect af :
  Forall (fun r => 0 <= snd (fst r) < 2048 /\ 0 <= snd r < 2048) rows ->
  bl_coded (Samples.sample rows pols nb nt ord rect af).
Proof.
  intros HF. exists 2048, 65536. split; [constructor|]. cbn. intros i Hi. rewrite map_length in Hi.
  rewrite (nth_map _ rows i (0, 0, 0)), (nth_map snd rows i (0, 0, 0)), (nth_map (fun r => Samples.bl0 _ _) rows i (0, 0, 0)) by exact Hi.
  rewrite Forall_forall in HF. specialize (HF (nth i rows (0, 0, 0)) ltac:(apply nth_In; exact Hi)).
  split; [apply HF|]. split; [apply HF|reflexivity].
Qed.

Definition square : uvd := Samples.sample [(1, 0, 1); (1, 2, 0); (2, 0, 1); (2, 2, 0)] [-5; -6; -7; -8] 2 2 None (Some true) false.
Lemma square_consistent : consistent square.
Proof.
  split; [apply Samples.sample_shaped|]. split.
  { apply sample_coded. repeat constructor; simpl; lia. }
  split; [|split; [discriminate|split; [discriminate|simpl; lia]]].
  intros _. exists [1; 2], [Samples.bl0 0 1; Samples.bl0 2 0]. split; [reflexivity|]. split; [reflexivity|]. unfold product_layout.
  split; [repeat constructor; simpl; lia|]. split; [repeat constructor; unfold Samples.bl0; simpl; lia|]. split; reflexivity.
Qed.

Lemma plain_consistent rows pols nb nt : rows <> [] -> pols <> [] ->
  Forall (fun r => 0 <= snd (fst r) < 2048 /\ 0 <= snd r < 2048) rows ->
  consistent (Samples.sample rows pols nb nt None None false).
Proof.
  intros Hr Hp HF. split; [apply Samples.sample_shaped|]. split.
  { apply sample_coded. exact HF. }
  split; [discriminate|]. split; [destruct rows; [congruence|discriminate]|]. split; [exact Hp|]. simpl. lia.
Qed.

Lemma fresh_reachable u xo : reachable (fresh u xo).
Proof. exists u, xo. constructor. Qed.

(** two rows, one per orientation, the reverse one first *)
Definition both_ways : uvd := Samples.sample [(1, 1, 0); (1, 0, 1)] [-5; -7] 2 1 None None false.
Lemma both_ways_consistent : consistent both_ways.
Proof. apply plain_consistent; try discriminate. repeat constructor; simpl; lia. Qed.

(** one row stored as (1, 0), with cross polarizations only *)
Definition cross_only : uvd := Samples.sample [(1, 1, 0)] [-7; -8] 1 1 None None false.
Lemma cross_only_consistent : consistent cross_only.
Proof. apply plain_consistent; try discriminate. repeat constructor; simpl; lia. Qed.

Lemma unordered_pair_lost : exists o, reachable o /\ consistent (o_u o) /\
  pair_rows (o_u o) 0 1 = [1%nat] /\ pair_rows (o_u o) 1 0 = [0%nat] /\
  exists ix, snd (antpair2ind 0 1 false o) = Ok (Some ix) /\ positions (Z.of_nat (length (time_array (o_u o)))) ix = Ok [].
Proof.
  exists (fresh both_ways None). split; [apply fresh_reachable|]. split; [apply both_ways_consistent|].
  split; [reflexivity|]. split; [reflexivity|]. eexists. split; reflexivity.
Qed.

Lemma cross_pols_lost : exists o P2, reachable o /\ consistent (o_u o) /\
  key_cells (o_u o) (o_xo o) (KPair 0 1) [] [0; 1]%nat [0%nat] P2 /\ opposite_order P2 /\
  snd (get_data (KPair 0 1) o) = Ok [[[]; []; []]] /\
  expected cconj (data_array (o_u o)) (length (freq_array (o_u o))) [] [0; 1]%nat [0%nat] P2 <> [[[]; []; []]].
Proof.
  exists (fresh cross_only None), [1; 0]%nat. split; [apply fresh_reachable|]. split; [apply cross_only_consistent|].
  split.
  { apply (cells_pair cross_only None 0 1 [1; 0]%nat).
    - repeat constructor; unfold legal_pol; simpl; lia.
    - repeat constructor; simpl; lia.
    - split; [reflexivity|]. intros [|[|k]] Hk; simpl in *; try lia; split; try lia; reflexivity. }
  split; [split; [simpl; lia|reflexivity]|]. split; [reflexivity|]. discriminate.
Qed.

Lemma pol_one_way : exists o, reachable o /\ consistent (o_u o) /\
  key_cells (o_u o) (o_xo o) (KPairN 0 1 (-7)) [1%nat] [1%nat] [0%nat] [] /\
  snd (get_data (KPairN 0 1 (-7)) o) = Err ValueError /\ snd (get_times (KPairN 0 1 (-7)) o) = Ok [1; 1].
Proof.
  exists (fresh both_ways None). split; [apply fresh_reachable|]. split; [apply both_ways_consistent|].
  split; [apply (cells_pair_number both_ways None 0 1 (-7)); unfold legal_pol; simpl; lia|]. split; reflexivity.
Qed.

Lemma rows_dropped : exists o, reachable o /\ consistent (o_u o) /\
  pair_rows (o_u o) 0 1 = [1%nat] /\ reverse_rows (o_u o) 0 1 = [0%nat] /\
  exists row, snd (get_data (KPair 0 1) o) = Ok [row].
Proof.
  exists (fresh both_ways None). split; [apply fresh_reachable|]. split; [apply both_ways_consistent|].
  split; [reflexivity|]. split; [reflexivity|]. eexists. reflexivity.
Qed.

(** Changing the orientation of the feeds leaves the cache as it is. *)
Lemma orientation_stale : exists o xo, reachable o /\ consistent (o_u o) /\
  let o' := mkobj (o_u o) xo (o_apc o) (o_kc o) in
  exists r r', snd (get_data (KPol "en") o') = Ok r /\ snd (get_data (KPol "en") (fresh (o_u o') xo)) = Ok r' /\ r <> r'.
Proof.
  exists (fst (get_data (KPol "en") (fresh cross_only (Some "east"%string)))), (Some "north"%string).
  split.
  { eapply reach_step; [apply fresh_reachable|]. apply st_get_data. apply cross_only_consistent. }
  split; [apply cross_only_consistent|]. cbv zeta. do 2 eexists. split; [vm_compute; reflexivity|]. split; [vm_compute; reflexivity|]. discriminate.
Qed.

(** ** the three setters *)
Lemma set_data_cells sh arr o k R1 P1 R2 P2 :
  reachable o -> consistent (o_u o) -> freq_array (o_u o) <> [] -> NoDup (polarization_array (o_u o)) ->
  key_cells (o_u o) (o_xo o) k R1 P1 R2 P2 -> ~ opposite_order P2 ->
  let u := o_u o in
  let r := set_data sh arr k o in
  o_xo (fst r) = o_xo o /\
  (absent R1 P1 R2 P2 -> snd r = Err KeyError /\ o_u (fst r) = u) /\
  (~ absent R1 P1 R2 P2 -> R2 <> [] -> snd r = Err ValueError /\ o_u (fst r) = u) /\
  (~ absent R1 P1 R2 P2 -> R2 = [] ->
     sh <> (Z.of_nat (length R1), Z.of_nat (length (freq_array u)), Z.of_nat (length P1)) ->
     snd r = Err ValueError /\ o_u (fst r) = u) /\
  (~ absent R1 P1 R2 P2 -> R2 = [] ->
     sh = (Z.of_nat (length R1), Z.of_nat (length (freq_array u)), Z.of_nat (length P1)) ->
     snd r = Ok tt /\ (exists c, o_u (fst r) = set_data_array c u /\ replaced (data_array u) c (length (freq_array u)) R1 P1 arr) /\
     snd (get_data k (fst r)) = Ok (entries (length R1) (length (freq_array u)) (length P1) arr)).
Proof.
  intros Hr Hc Hf ND HK Hop. cbv zeta.
  destruct (set_cells data_array set_data_array sh arr o k R1 P1 R2 P2 Hr Hc Hf ND HK Hop) as (X & C1 & C2 & C3 & C4).
  split; [exact X|]. split; [exact C1|]. split; [exact C2|]. split; [exact C3|].
  intros Ha HR2 Hsh. destruct (C4 Ha HR2 Hsh) as (c & E & Eu & Hrep). split; [exact E|]. split; [eauto|].
  refine (set_then_get cconj data_array set_data_array sh arr o k R1 P1 R2 P2 _ _ _ _ Hr Hc Hf ND HK Hop E).
  - intros o' H1 H2. eapply reach_step; [exact H1|]. apply st_set_data. exact H2.
  - reflexivity.
  - intros c' u H. exact H.
  - intros c' u. repeat split.
Qed.

Lemma set_flags_cells sh arr o k R1 P1 R2 P2 :
  reachable o -> consistent (o_u o) -> freq_array (o_u o) <> [] -> NoDup (polarization_array (o_u o)) ->
  key_cells (o_u o) (o_xo o) k R1 P1 R2 P2 -> ~ opposite_order P2 ->
  let u := o_u o in
  let r := set_flags sh arr k o in
  o_xo (fst r) = o_xo o /\
  (absent R1 P1 R2 P2 -> snd r = Err KeyError /\ o_u (fst r) = u) /\
  (~ absent R1 P1 R2 P2 -> R2 <> [] -> snd r = Err ValueError /\ o_u (fst r) = u) /\
  (~ absent R1 P1 R2 P2 -> R2 = [] ->
     sh <> (Z.of_nat (length R1), Z.of_nat (length (freq_array u)), Z.of_nat (length P1)) ->
     snd r = Err ValueError /\ o_u (fst r) = u) /\
  (~ absent R1 P1 R2 P2 -> R2 = [] ->
     sh = (Z.of_nat (length R1), Z.of_nat (length (freq_array u)), Z.of_nat (length P1)) ->
     snd r = Ok tt /\ (exists c, o_u (fst r) = set_flag_array c u /\ replaced (flag_array u) c (length (freq_array u)) R1 P1 arr) /\
     snd (get_flags k (fst r)) = Ok (entries (length R1) (length (freq_array u)) (length P1) arr)).
Proof.
  intros Hr Hc Hf ND HK Hop. cbv zeta.
  destruct (set_cells flag_array set_flag_array sh arr o k R1 P1 R2 P2 Hr Hc Hf ND HK Hop) as (X & C1 & C2 & C3 & C4).
  split; [exact X|]. split; [exact C1|]. split; [exact C2|]. split; [exact C3|].
  intros Ha HR2 Hsh. destruct (C4 Ha HR2 Hsh) as (c & E & Eu & Hrep). split; [exact E|]. split; [eauto|].
  refine (set_then_get _ flag_array set_flag_array sh arr o k R1 P1 R2 P2 _ _ _ _ Hr Hc Hf ND HK Hop E).
  - intros o' H1 H2. eapply reach_step; [exact H1|]. apply st_set_flags. exact H2.
  - reflexivity.
  - intros c' u H. exact H.
  - intros c' u. repeat split.
Qed.

Lemma set_nsamples_cells sh arr o k R1 P1 R2 P2 :
  reachable o -> consistent (o_u o) -> freq_array (o_u o) <> [] -> NoDup (polarization_array (o_u o)) ->
  key_cells (o_u o) (o_xo o) k R1 P1 R2 P2 -> ~ opposite_order P2 ->
  let u := o_u o in
  let r := set_nsamples sh arr k o in
  o_xo (fst r) = o_xo o /\
  (absent R1 P1 R2 P2 -> snd r = Err KeyError /\ o_u (fst r) = u) /\
  (~ absent R1 P1 R2 P2 -> R2 <> [] -> snd r = Err ValueError /\ o_u (fst r) = u) /\
  (~ absent R1 P1 R2 P2 -> R2 = [] ->
     sh <> (Z.of_nat (length R1), Z.of_nat (length (freq_array u)), Z.of_nat (length P1)) ->
     snd r = Err ValueError /\ o_u (fst r) = u) /\
  (~ absent R1 P1 R2 P2 -> R2 = [] ->
     sh = (Z.of_nat (length R1), Z.of_nat (length (freq_array u)), Z.of_nat (length P1)) ->
     snd r = Ok tt /\ (exists c, o_u (fst r) = set_nsample_array c u /\ replaced (nsample_array u) c (length (freq_array u)) R1 P1 arr) /\
     snd (get_nsamples k (fst r)) = Ok (entries (length R1) (length (freq_array u)) (length P1) arr)).
Proof.
  intros Hr Hc Hf ND HK Hop. cbv zeta.
  destruct (set_cells nsample_array set_nsample_array sh arr o k R1 P1 R2 P2 Hr Hc Hf ND HK Hop) as (X & C1 & C2 & C3 & C4).
  split; [exact X|]. split; [exact C1|]. split; [exact C2|]. split; [exact C3|].
  intros Ha HR2 Hsh. destruct (C4 Ha HR2 Hsh) as (c & E & Eu & Hrep). split; [exact E|]. split; [eauto|].
  refine (set_then_get _ nsample_array set_nsample_array sh arr o k R1 P1 R2 P2 _ _ _ _ Hr Hc Hf ND HK Hop E).
  - intros o' H1 H2. eapply reach_step; [exact H1|]. apply st_set_nsamples. exact H2.
  - reflexivity.
  - intros c' u H. exact H.
  - intros c' u. repeat split.
Qed.

Lemma get_data_cells o k R1 P1 R2 P2 : reachable o -> consistent (o_u o) ->
  key_cells (o_u o) (o_xo o) k R1 P1 R2 P2 -> ~ opposite_order P2 ->
  let u := o_u o in let nf := length (freq_array u) in
  (absent R1 P1 R2 P2 ->
     snd (get_data k o) = Err KeyError /\ snd (get_flags k o) = Err KeyError /\ snd (get_nsamples k o) = Err KeyError) /\
  (~ absent R1 P1 R2 P2 -> (R1 <> [] -> R2 <> [] -> length P1 = length P2) ->
     snd (get_data k o) = Ok (expected cconj (data_array u) nf R1 P1 R2 P2) /\
     snd (get_flags k o) = Ok (expected (fun b => b) (flag_array u) nf R1 P1 R2 P2) /\
     snd (get_nsamples k o) = Ok (expected (fun z => z) (nsample_array u) nf R1 P1 R2 P2) /\
     snd (get_times k o) = Ok (map (fun i => nth i (time_array u) 0) (R1 ++ R2))) /\
  (R1 <> [] -> R2 <> [] -> length P1 <> length P2 ->
     snd (get_data k o) = Err ValueError /\ snd (get_flags k o) = Err ValueError /\ snd (get_nsamples k o) = Err ValueError).
Proof.
  intros Hr Hc HK Hop. cbv zeta.
  destruct (get_cells cconj data_array o k R1 P1 R2 P2 Hr Hc HK Hop) as (A1 & A2 & A3).
  destruct (get_cells (fun b : bool => b) flag_array o k R1 P1 R2 P2 Hr Hc HK Hop) as (B1 & B2 & B3).
  destruct (get_cells (fun z : Z => z) nsample_array o k R1 P1 R2 P2 Hr Hc HK Hop) as (C1 & C2 & C3).
  split; [|split].
  - intros H. split; [apply A1, H|]. split; [apply B1, H|apply C1, H].
  - intros H Hl. split; [apply A2; assumption|]. split; [apply B2; assumption|]. split; [apply C2; assumption|].
    eapply times_cells; eassumption.
  - intros H H' H''. split; [apply A3; assumption|]. split; [apply B3; assumption|apply C3; assumption].
Qed.
