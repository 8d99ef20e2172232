(** Proofs about reading files of the MWA correlators. *)
From Coq Require Import List ZArith Bool Arith Lia Sorted Permutation.
From Verif Require Import Lib.Py Lib.Np Lib.Sorting Lib.Dict Lib.Slice Lib.Cube Model.MwaCorr Spec.MwaCorrSpec.
Import ListNotations.
Notation length := List.length.
Open Scope list_scope.
Open Scope Z_scope.

(** * Wiring *)
Definition output_of (x : Z) : Z := 64 * (x / 64) + 4 * (x mod 16) + (x mod 64) / 16.
Lemma inputs_mapped : forallb (fun x => match dget Z.eqb x input_output_mapping with Ok o => o =? output_of x | Err _ => false end) (py_range 0 256 1) = true.
Proof. vm_compute. reflexivity. Qed.
Lemma range_In a b x : In x (py_range a b 1) <-> a <= x < b.
Proof.
  unfold py_range, range_len, arith. change (1 >? 0) with true. cbv iota. rewrite in_map_iff. setoid_rewrite in_seq.
  destruct (Z.ltb_spec a b) as [L|L].
  - rewrite Z.div_1_r. split; [intros (k & <- & H); lia|]. intros H. exists (Z.to_nat (x - a)). lia.
  - split; [intros (k & _ & H); lia|lia].
Qed.
Lemma wired x : 0 <= x < 256 -> exists o, dget Z.eqb x input_output_mapping = Ok o /\ carries o x /\ 0 <= o < 256.
Proof.
  intros H. pose proof inputs_mapped as M. rewrite forallb_forall in M. specialize (M x (proj2 (range_In _ _ _) H)).
  destruct (dget Z.eqb x input_output_mapping) as [o|]; [|discriminate]. exists o. split; [reflexivity|].
  apply Z.eqb_eq in M. subst o. unfold output_of. clear - H. split.
  - exists (x / 64), (4 * (x mod 16) + (x mod 64) / 16).
    assert (A : 0 <= x / 64 < 4) by (Z.to_euclidean_division_equations; lia).
    assert (B : 0 <= x mod 64 / 16 < 4) by (Z.to_euclidean_division_equations; lia).
    assert (C : 0 <= x mod 16 < 16) by (apply Z.mod_pos_bound; lia).
    assert (D : (4 * (x mod 16) + x mod 64 / 16) / 4 = x mod 16) by (symmetry; apply (Z.div_unique _ _ _ (x mod 64 / 16)); lia).
    assert (E : (4 * (x mod 16) + x mod 64 / 16) mod 4 = x mod 64 / 16) by (symmetry; apply (Z.mod_unique _ _ (x mod 16)); lia).
    rewrite D, E. clear D E. repeat split; Z.to_euclidean_division_equations; lia.
  - Z.to_euclidean_division_equations. lia.
Qed.
Lemma carries_fun o x y : carries o x -> carries o y -> x = y.
Proof.
  intros (g & k & Hg & Hk & E & ->) (g' & k' & Hg' & Hk' & E' & ->). assert (g = g') by lia. assert (k = k') by lia. subst. reflexivity.
Qed.
Lemma carries_inj o o' x : carries o x -> carries o' x -> o = o'.
Proof.
  intros (g & k & Hg & Hk & -> & E) (g' & k' & Hg' & Hk' & -> & E'). Z.to_euclidean_division_equations. lia.
Qed.

(** * Dictionaries *)
Lemma fold_get {K V} (eqb : K -> K -> bool) (H : forall x y, eqb x y = true <-> x = y) k (v : V) : forall l d,
  (forall v', In (k, v') l -> v' = v) -> In (k, v) l \/ dget eqb k d = Ok v ->
  dget eqb k (fold_left (fun d p => dset eqb (fst p) (snd p) d) l d) = Ok v.
Proof.
  induction l as [|(k', v') l IH]; intros d U D; cbn [fold_left fst snd].
  - destruct D as [[]|D]. exact D.
  - apply IH; [intros; apply U; right; assumption|]. rewrite (dget_dset _ H). destruct (eqb k k') eqn:E.
    + right. apply H in E. subst k'. f_equal. apply U. left. reflexivity.
    + destruct D as [[D|D]|D]; auto. exfalso. injection D as <- <-. assert (eqb k' k' = true) by (apply H; reflexivity). congruence.
Qed.
Lemma eqb_pair_eq x y : eqb_pair x y = true <-> x = y.
Proof.
  destruct x, y. unfold eqb_pair. cbn. rewrite andb_true_iff, !Z.eqb_eq. split; [intros [-> ->]; reflexivity|]. intros E. injection E as -> ->. auto.
Qed.
Lemma inputs ants i p : NoDup ants -> (i < length ants)%nat -> p = 0 \/ p = 1 ->
  dget eqb_pair (nth i ants 0, p) (ants_to_pf ants) = Ok (2 * Z.of_nat i + p).
Proof.
  intros N L P. unfold ants_to_pf, dict_of. apply (fold_get _ eqb_pair_eq).
  - intros v. rewrite in_flat_map. intros (j & Hj & Hv). apply in_seq in Hj. cbn in Hv.
    assert (E : forall q, nth j ants 0 = nth i ants 0 -> 2 * Z.of_nat j + q = 2 * Z.of_nat i + q).
    { intros q E. apply (proj1 (NoDup_nth ants 0) N) in E; lia. }
    destruct Hv as [Hv|[Hv|[]]]; injection Hv as E1 <- <-; apply E, E1.
  - left. rewrite in_flat_map. exists i. split; [apply in_seq; lia|]. cbn. destruct P as [-> | ->]; auto.
Qed.

(** * The map *)
Definition bls (a b : Z) : Z := 128 * a - a * (a + 1) / 2 + b.
Definition pos (q : Z * Z * (Z * Z)) : Z := let '(a, b, (p1, p2)) := q in bls a b * 4 + (2 * p1 + p2).
Definition stored (o1 o2 : Z) : Z := 2 * (o1 / 2) * (o1 / 2 + 1) + 4 * (o2 / 2) + 2 * (o1 mod 2) + o2 mod 2.

Fixpoint increasing (l : list Z) : bool := match l with x :: (y :: _) as t => (x <? y) && increasing t | _ => true end.
Lemma increasing_sorted l : increasing l = true -> StronglySorted Z.lt l.
Proof.
  intros H. apply Sorted_StronglySorted; [intros x y z; lia|]. induction l as [|x [|y l] IH]; [constructor|repeat constructor|].
  cbn in H. apply andb_true_iff in H as [H1 H2]. apply Z.ltb_lt in H1. constructor; [apply IH, H2|constructor; exact H1].
Qed.
Lemma pos_NoDup : NoDup (map pos (quads 128)).
Proof. apply StronglySorted_Zlt_NoDup, increasing_sorted. vm_compute. reflexivity. Qed.
Lemma quads_In n a b p q : In (a, b, (p, q)) (quads n) <-> 0 <= a <= b /\ b < Z.of_nat n /\ (p = 0 \/ p = 1) /\ (q = 0 \/ q = 1).
Proof.
  unfold quads. rewrite in_flat_map. split.
  - intros (x & Hx & H). apply in_flat_map in H as (y & Hy & H). apply in_flat_map in H as (p' & Hp & H). apply in_map_iff in H as (q' & E & Hq).
    apply in_seq in Hx. apply in_seq in Hy. injection E as <- <- <- <-. cbn in Hp, Hq. repeat split; try lia; intuition.
  - intros (H & H' & P & Q). exists (Z.to_nat a). split; [apply in_seq; lia|]. apply in_flat_map. exists (Z.to_nat b). split; [apply in_seq; lia|].
    apply in_flat_map. exists p. split; [cbn; intuition|]. apply in_map_iff. exists q. split; [|cbn; intuition]. repeat f_equal; lia.
Qed.

Section Fold.
  Variable pf : list ((Z * Z) * Z).
  Variable out : Z -> Z -> Z.
  Definition wires (q : Z * Z * (Z * Z)) : Prop :=
    let '(a, b, (p1, p2)) := q in
    exists i1 i2, dget eqb_pair (a, p1) pf = Ok i1 /\ dget eqb_pair (b, p2) pf = Ok i2 /\
    dget Z.eqb i1 input_output_mapping = Ok (out a p1) /\ dget Z.eqb i2 input_output_mapping = Ok (out b p2).
  Definition entry (q : Z * Z * (Z * Z)) (m : Z -> Z) (c : Z -> bool) : Prop :=
    let '(a, b, (p1, p2)) := q in
    if out b p2 >? out a p1 then m (pos q) = stored (out b p2) (out a p1) /\ c (pos q) = true
    else m (pos q) = stored (out a p1) (out b p2) /\ c (pos q) = false.
  Lemma step q st : wires q -> snd st (pos q) = false ->
    exists st', map_step pf q st = Ok st' /\ entry q (fst st') (snd st') /\
    forall k, k <> pos q -> fst st' k = fst st k /\ snd st' k = snd st k.
  Proof.
    destruct q as ((a, b), (p1, p2)). intros (i1 & i2 & E1 & E2 & E3 & E4) F. unfold map_step. rewrite E1. cbn [bind]. rewrite E2. cbn [bind].
    rewrite E3. cbn [bind]. rewrite E4. cbn [bind]. fold (bls a b). unfold entry.
    change (bls a b * 4 + (2 * p1 + p2)) with (pos (a, b, (p1, p2))).
    set (k := pos (a, b, (p1, p2))) in *. destruct (out b p2 >? out a p1); eexists; (split; [reflexivity|]); cbn [fst snd]; unfold upd; rewrite ?Z.eqb_refl.
    - split; [split; reflexivity|]. intros j Hj. apply Z.eqb_neq in Hj. rewrite Hj. auto.
    - split; [split; [reflexivity|exact F]|]. intros j Hj. apply Z.eqb_neq in Hj. rewrite Hj. auto.
  Qed.
  Lemma steps : forall l st, NoDup (map pos l) -> (forall q, In q l -> wires q) -> (forall q, In q l -> snd st (pos q) = false) ->
    exists st', foldM (map_step pf) l st = Ok st' /\ (forall q, In q l -> entry q (fst st') (snd st')) /\
    forall k, ~ In k (map pos l) -> fst st' k = fst st k /\ snd st' k = snd st k.
  Proof.
    induction l as [|q l IH]; intros st N W F; cbn [foldM map].
    - exists st. split; [reflexivity|]. split; [intros q []|auto].
    - cbn in N. inversion N as [|? ? N1 N2]; subst.
      destruct (step q st (W q (or_introl eq_refl)) (F q (or_introl eq_refl))) as (s1 & -> & En & K). cbn [bind].
      destruct (IH s1 N2) as (s2 & E & En2 & K2).
      { intros r Hr. apply W. right. exact Hr. }
      { intros r Hr. assert (pos r <> pos q). { intros E. apply N1. rewrite <- E. apply in_map, Hr. } rewrite (proj2 (K _ H)). apply F. right. exact Hr. }
      exists s2. split; [exact E|]. split.
      + intros r [<-|Hr]; [|apply En2, Hr]. destruct (K2 (pos q) N1) as [A B]. destruct q as ((a, b), (p1, p2)). unfold entry in *. rewrite A, B. exact En.
      + intros k Hk. assert (k <> pos q) by (intros ->; apply Hk; left; reflexivity).
        assert (~ In k (map pos l)) by (intros Q; apply Hk; right; exact Q).
        destruct (K2 k H0) as [A B]. destruct (K k H) as [C D]. split; congruence.
  Qed.
End Fold.

(** * Rows *)
Fixpoint offset (L i : nat) : nat := match i with O => O | S i' => (L + offset (L - 1) i')%nat end.
Lemma pairs_nth {A} (d : A) : forall l i j, (i <= j)%nat -> (j < length l)%nat ->
  nth_error (pairs_of l) (offset (length l) i + (j - i)) = Some (nth i l d, nth j l d).
Proof.
  induction l as [|x l IH]; intros i j H L; [cbn in L; lia|]. destruct i as [|i].
  - cbn [offset pairs_of]. rewrite Nat.sub_0_r, Nat.add_0_l. rewrite nth_error_app1 by (rewrite map_length; exact L).
    rewrite nth_error_map. rewrite (nth_error_nth' _ d L). reflexivity.
  - destruct j as [|j]; [lia|]. cbn [offset]. cbn [pairs_of]. rewrite nth_error_app2 by (rewrite map_length; lia). rewrite map_length.
    cbn [length]. replace (S (length l) - 1)%nat with (length l) by lia.
    replace (S (length l) + offset (length l) i + (S j - S i) - S (length l))%nat with (offset (length l) i + (j - i))%nat by lia.
    rewrite IH; [reflexivity|lia|cbn in L; lia].
Qed.
Lemma pairs_inv {A} (d : A) : forall l k x y, nth_error (pairs_of l) k = Some (x, y) ->
  exists i j, (i <= j)%nat /\ (j < length l)%nat /\ x = nth i l d /\ y = nth j l d /\ k = (offset (length l) i + (j - i))%nat.
Proof.
  induction l as [|z l IH]; intros k x y H; [destruct k; discriminate|]. cbn [pairs_of] in H.
  destruct (Nat.lt_ge_cases k (length (z :: l))) as [L|L].
  - rewrite nth_error_app1 in H by (rewrite map_length; exact L). rewrite nth_error_map in H. rewrite (nth_error_nth' _ d L) in H. injection H as <- <-.
    exists 0%nat, k. split; [lia|]. split; [exact L|]. split; [reflexivity|]. split; [reflexivity|]. cbn. lia.
  - rewrite nth_error_app2 in H by (rewrite map_length; exact L). rewrite map_length in H. apply IH in H as (i & j & I & J & -> & -> & E).
    exists (S i), (S j). split; [lia|]. split; [cbn; lia|]. split; [reflexivity|]. split; [reflexivity|]. cbn [offset length].
    replace (S (length l) - 1)%nat with (length l) by lia. cbn [length] in E, L. lia.
Qed.
Lemma offset_closed : forall i L, (i <= L)%nat -> 2 * Z.of_nat (offset L i) = 2 * Z.of_nat L * Z.of_nat i - Z.of_nat i * (Z.of_nat i - 1).
Proof.
  induction i as [|i IH]; intros L H; [cbn; lia|]. cbn [offset]. rewrite Nat2Z.inj_add. specialize (IH (L - 1)%nat ltac:(lia)).
  rewrite Nat2Z.inj_sub in IH by lia. nia.
Qed.
Lemma bls_offset i j : (i <= j)%nat -> (j < 128)%nat -> bls (Z.of_nat i) (Z.of_nat j) = Z.of_nat (offset 128 i + (j - i)).
Proof.
  intros H L. unfold bls. pose proof (offset_closed i 128 ltac:(lia)) as E. rewrite Nat2Z.inj_add, Nat2Z.inj_sub by lia.
  set (o := Z.of_nat (offset 128 i)) in *. set (a := Z.of_nat i) in *.
  assert (D : a * (a + 1) / 2 = 128 * a - o + a). { symmetry. apply (Z.div_unique _ _ _ 0); [lia|]. change (Z.of_nat 128) with 128 in E. nia. }
  rewrite D. lia.
Qed.

(** * Sorting *)
Lemma strictly l : StronglySorted Z.le l -> NoDup l -> StronglySorted Z.lt l.
Proof.
  induction l as [|x l IH]; intros S' N; [constructor|]. inversion S' as [|? ? S1 F]; subst. inversion N as [|? ? N1 N2]; subst. constructor; [auto|].
  rewrite Forall_forall in *. intros y Hy. specialize (F y Hy). assert (x <> y) by (intros ->; contradiction). lia.
Qed.
Lemma argsort_of l c : StronglySorted Z.lt c -> Permutation l c -> take 0 l (argsortZ l) = c.
Proof.
  intros S' P. assert (PT : Permutation (take 0 l (argsortZ l)) l).
  { unfold take. transitivity (map (fun i => nth i l 0) (seq 0 (length l))); [apply Permutation_map, argsortZ_perm|].
    replace (map (fun i => nth i l 0) (seq 0 (length l))) with l; [reflexivity|].
    apply (nth_ext _ _ 0 0); [rewrite map_length, seq_length; reflexivity|]. intros n Hn. rewrite (nth_map _ _ _ 0%nat) by (rewrite seq_length; exact Hn). rewrite seq_nth by exact Hn. reflexivity. }
  apply (sorted_unique Z.lt); [intros x; lia|intros x y z; lia| |exact S'|].
  - apply strictly; [apply argsortZ_sorted|]. apply (Permutation_NoDup (l := c)); [symmetry; transitivity l; assumption|]. apply StronglySorted_Zlt_NoDup, S'.
  - intros x. split; intros H; [apply (Permutation_in x P), (Permutation_in x PT), H|apply (Permutation_in x (Permutation_sym PT)), (Permutation_in x (Permutation_sym P)), H].
Qed.
Lemma argsort_len l : length (argsortZ l) = length l.
Proof. apply argsort_by_length. Qed.
Definition indices : list Z := map Z.of_nat (seq 0 128).
Lemma indices_nth i : (i < 128)%nat -> nth i indices 0 = Z.of_nat i.
Proof. intros H. unfold indices. rewrite (nth_map _ _ _ 0%nat) by (rewrite seq_length; exact H). rewrite seq_nth by exact H. reflexivity. Qed.
Lemma indices_sorted : StronglySorted Z.lt indices.
Proof.
  apply increasing_sorted. vm_compute. reflexivity.
Qed.
Lemma ants_perm ants : all_antennas ants -> Permutation ants indices.
Proof.
  intros (L & N & B). apply NoDup_Permutation_bis; [exact N|rewrite L; unfold indices; rewrite map_length, seq_length; apply le_n|].
  intros a Ha. apply in_map_iff. exists (Z.to_nat a). specialize (B a Ha). split; [lia|]. apply in_seq. lia.
Qed.
Lemma tile_at ants tiles i : all_antennas ants -> (i < 128)%nat -> nth (Z.to_nat (nth i ants 0)) (sorted_tiles ants tiles) 0 = nth i tiles 0.
Proof.
  intros A H. pose proof (argsort_of ants indices indices_sorted (ants_perm ants A)) as E. destruct A as (L & N & B).
  assert (Ra : 0 <= nth i ants 0 < 128) by (apply B, nth_In; lia). set (a := Z.to_nat (nth i ants 0)).
  assert (La : (a < length (argsortZ ants))%nat) by (rewrite argsort_len; lia).
  unfold sorted_tiles. rewrite (nth_take 0 0 tiles) by exact La. f_equal.
  assert (Q : nth (nth a (argsortZ ants) 0%nat) ants 0 = nth i ants 0).
  { rewrite <- (nth_take 0 0 ants) by exact La. rewrite E, indices_nth by lia. unfold a. lia. }
  apply (proj1 (NoDup_nth ants 0) N); [|lia|exact Q].
  assert (I : In (nth a (argsortZ ants) 0%nat) (argsortZ ants)) by (apply nth_In; exact La).
  apply (argsort_by_In _ _ _) in I. exact I.
Qed.
Lemma tiles_len ants tiles : length (sorted_tiles ants tiles) = length ants.
Proof. unfold sorted_tiles, take. rewrite map_length. apply argsort_len. Qed.

(** * Visibilities *)
Lemma stored_product raw product o1 o2 : packed raw product -> 0 <= o2 <= o1 -> o1 < 256 -> raw (stored o1 o2) = product o1 o2.
Proof.
  intros P H L. unfold stored. rewrite P.
  - f_equal; [pose proof (Z.div_mod o1 2)|pose proof (Z.div_mod o2 2)]; lia.
  - split; [apply Z.div_pos; lia|]. apply Z.div_le_mono; lia.
  - apply Z.div_lt_upper_bound; lia.
  - apply Z.mod_pos_bound; lia.
  - apply Z.mod_pos_bound; lia.
Qed.
Definition out_at (ants : list Z) (a p : Z) : Z :=
  match index_of Z.eqb a ants with Some i => output_of (2 * Z.of_nat i + p) | None => 0 end.
Lemma index_at ants i : NoDup ants -> (i < length ants)%nat -> index_of Z.eqb (nth i ants 0) ants = Some i.
Proof.
  intros N L. destruct (index_of Z.eqb (nth i ants 0) ants) as [j|] eqn:E.
  - apply (index_of_Some _ Z.eqb_eq 0) in E as (Lj & E & _). f_equal. apply (proj1 (NoDup_nth ants 0) N); auto.
  - exfalso. apply (index_of_None _ Z.eqb_eq) in E. apply E, nth_In, L.
Qed.
Lemma out_of ants i p : all_antennas ants -> (i < 128)%nat -> p = 0 \/ p = 1 ->
  let o := out_at ants (nth i ants 0) p in
  carries o (2 * Z.of_nat i + p) /\ 0 <= o < 256 /\
  dget eqb_pair (nth i ants 0, p) (ants_to_pf ants) = Ok (2 * Z.of_nat i + p) /\ dget Z.eqb (2 * Z.of_nat i + p) input_output_mapping = Ok o.
Proof.
  intros (L & N & B) H P o. assert (R : 0 <= 2 * Z.of_nat i + p < 256) by lia.
  destruct (wired _ R) as (o' & E & C & O).
  assert (o = o') as ->.
  { unfold o, out_at. rewrite index_at by (auto; lia). pose proof inputs_mapped as M. rewrite forallb_forall in M.
    specialize (M _ (proj2 (range_In _ _ _) R)). rewrite E in M. apply Z.eqb_eq in M. symmetry. exact M. }
  split; [exact C|]. split; [exact O|]. split; [|exact E]. apply inputs; auto. lia.
Qed.
Lemma at_index ants a : all_antennas ants -> 0 <= a < 128 -> exists i, (i < 128)%nat /\ nth i ants 0 = a.
Proof.
  intros A H. assert (I : In a ants).
  { apply (Permutation_in a (Permutation_sym (ants_perm ants A))). apply in_map_iff. exists (Z.to_nat a). split; [lia|]. apply in_seq. lia. }
  apply (In_nth _ _ 0) in I as (i & L & E). destruct A as (LA & _ & _). exists i. split; [lia|exact E].
Qed.
Lemma all_wired ants q : all_antennas ants -> In q (quads 128) -> wires (ants_to_pf ants) (out_at ants) q.
Proof.
  destruct q as ((a, b), (p1, p2)). intros A H. apply (proj1 (quads_In 128 a b p1 p2)) in H as (H & L & P & Q). change (Z.of_nat 128) with 128 in L.
  destruct (at_index ants a A ltac:(lia)) as (i & Li & <-). destruct (at_index ants b A ltac:(lia)) as (k & Lk & <-).
  destruct (out_of ants i p1 A Li P) as (_ & _ & E1 & E2). destruct (out_of ants k p2 A Lk Q) as (_ & _ & E3 & E4).
  exists (2 * Z.of_nat i + p1), (2 * Z.of_nat k + p2). auto.
Qed.

Theorem visibilities ants tiles raw product :
  all_antennas ants -> packed raw product -> hermitian product ->
  exists rows pols data, legacy_read ants tiles raw = Ok (rows, pols, data) /\ pols = [-5; -6; -7; -8] /\
  (forall row t1 t2, nth_error rows row = Some (t1, t2) ->
     exists i k, (i < 128)%nat /\ (k < 128)%nat /\ nth i ants 0 <= nth k ants 0 /\ t1 = nth i tiles 0 /\ t2 = nth k tiles 0 /\
     forall p1 p2 j, p1 = 0 \/ p1 = 1 -> p2 = 0 \/ p2 = 1 -> nth_error pols j = Some (pol_of p1 p2) ->
       exists o1 o2, carries o1 (2 * Z.of_nat i + p1) /\ carries o2 (2 * Z.of_nat k + p2) /\ data row j = product o2 o1) /\
  (forall i k, (i < 128)%nat -> (k < 128)%nat -> nth i ants 0 <= nth k ants 0 -> exists row, nth_error rows row = Some (nth i tiles 0, nth k tiles 0)) /\
  (2 * length rows = 128 * 129)%nat.
Proof.
  intros A PK HM. unfold legacy_read, generate_map.
  destruct (steps (ants_to_pf ants) (out_at ants) (quads 128) (fun _ => 0, fun _ => false) pos_NoDup) as (mc & -> & EN & _).
  { intros q. apply all_wired, A. }
  { reflexivity. }
  cbn [bind]. eexists. eexists. eexists. split; [reflexivity|]. split; [vm_compute; reflexivity|].
  pose proof A as (LA & NA & BA). pose proof (tiles_len ants tiles) as TL. rewrite LA in TL. split; [|split].
  - intros row t1 t2 H. apply (pairs_inv 0) in H as (x & y & XY & LY & -> & -> & ER). rewrite TL in LY, ER.
    destruct (at_index ants (Z.of_nat x) A ltac:(lia)) as (i & Li & Ei). destruct (at_index ants (Z.of_nat y) A ltac:(lia)) as (k & Lk & Ek).
    exists i, k. split; [exact Li|]. split; [exact Lk|]. split; [rewrite Ei, Ek; lia|].
    split; [rewrite <- (tile_at ants tiles i A Li), Ei, Nat2Z.id; reflexivity|]. split; [rewrite <- (tile_at ants tiles k A Lk), Ek, Nat2Z.id; reflexivity|].
    intros p1 p2 j P1 P2 J.
    destruct (out_of ants i p1 A Li P1) as (C1 & O1 & _ & _). destruct (out_of ants k p2 A Lk P2) as (C2 & O2 & _ & _).
    rewrite Ei in C1, O1. rewrite Ek in C2, O2.
    exists (out_at ants (Z.of_nat x) p1), (out_at ants (Z.of_nat y) p2). split; [exact C1|]. split; [exact C2|].
    assert (EK : Z.of_nat row * 4 + Z.of_nat (nth j pol_index_array 0%nat) = pos (Z.of_nat x, Z.of_nat y, (p1, p2))).
    { unfold pos. rewrite bls_offset by lia. rewrite <- ER. f_equal.
      change (take 0 legacy_pols pol_index_array) with [-5; -6; -7; -8] in J. change pol_index_array with [3; 0; 2; 1]%nat.
      destruct P1 as [-> | ->], P2 as [-> | ->]; cbn [pol_of] in J; destruct j as [|[|[|[|j]]]]; try discriminate J; try reflexivity; destruct j; discriminate J. }
    rewrite EK. assert (Q : In (Z.of_nat x, Z.of_nat y, (p1, p2)) (quads 128)) by (apply quads_In; change (Z.of_nat 128) with 128; repeat split; auto; lia).
    specialize (EN _ Q). unfold entry in EN.
    destruct (out_at ants (Z.of_nat y) p2 >? out_at ants (Z.of_nat x) p1) eqn:G; destruct EN as [E1 E2]; rewrite E1, E2.
    + rewrite cconj_invol. apply stored_product; [exact PK|lia|lia].
    + rewrite (stored_product raw product) by (auto; lia). symmetry. apply HM.
  - intros i k Li Lk LE. assert (Ra : 0 <= nth i ants 0 < 128) by (apply BA, nth_In; lia). assert (Rb : 0 <= nth k ants 0 < 128) by (apply BA, nth_In; lia).
    eexists. rewrite (pairs_nth 0 _ (Z.to_nat (nth i ants 0)) (Z.to_nat (nth k ants 0))) by lia.
    rewrite !tile_at by auto. reflexivity.
  - assert (G : forall l : list Z, (2 * length (pairs_of l) = length l * S (length l))%nat).
    { induction l as [|x l IH]; [reflexivity|]. cbn [pairs_of]. rewrite app_length, map_length. cbn [length]. lia. }
    rewrite G, TL. reflexivity.
Qed.
