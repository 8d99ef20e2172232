(** Proofs about making calibration objects for data objects. *)
From Coq Require Import List ZArith Bool Arith Lia Permutation Sorted.
From Verif Require Import Lib.Py Lib.Np Lib.Sorting Model.NewData Model.CalFromData Spec.CalFromDataSpec.
Import ListNotations.
Notation length := List.length.
Open Scope list_scope.
Open Scope Z_scope.

Lemma take_take (l : list Z) idx ord : (forall i, In i ord -> (i < length idx)%nat) -> take 0 (take 0 l idx) ord = take 0 l (take 0%nat idx ord).
Proof.
  intros H. unfold take. rewrite map_map. apply map_ext_in. intros i I. specialize (H i I).
  rewrite (nth_map (fun j => nth j l 0) idx i 0%nat 0) by exact H. reflexivity.
Qed.

Lemma nth_error_take (l : list Z) idx k : (k < length idx)%nat -> (nth k idx 0 < length l)%nat -> nth_error (take 0 l idx) k = nth_error l (nth k idx 0%nat).
Proof.
  intros H L. rewrite (nth_error_nth' (take 0 l idx) 0) by (rewrite take_length; exact H). rewrite (nth_take 0 0) by exact H.
  symmetry. apply nth_error_nth'. exact L.
Qed.

Definition sel_idx (t : tel) (key l : list Z) : list nat :=
  let idx := nonzero (fun v => isinZ v l) key in take 0%nat idx (argsortZ (take 0 (t_nums t) idx)).

Lemma argsort_In (l : list Z) i : In i (argsortZ l) <-> (i < length l)%nat.
Proof. apply argsort_by_In. Qed.

Lemma sel_In t key l i : In i (sel_idx t key l) <-> (i < length key)%nat /\ In (nth i key 0) l.
Proof.
  unfold sel_idx. cbn zeta. unfold take at 1. rewrite in_map_iff. rewrite <- isinZ_spec, <- (nonzero_spec 0 (fun v => isinZ v l)). split.
  - intros (j & <- & J). apply argsort_In in J. rewrite take_length in J. apply nth_In, J.
  - intros I. destruct (In_nth _ _ 0%nat I) as (j & J & E). exists j. split; [exact E|]. apply argsort_In. rewrite take_length. exact J.
Qed.

Lemma sel_NoDup t key l : NoDup (sel_idx t key l).
Proof.
  unfold sel_idx. cbn zeta. set (idx := nonzero (fun v => isinZ v l) key).
  assert (P : Permutation (take 0%nat idx (argsortZ (take 0 (t_nums t) idx))) (take 0%nat idx (seq 0 (length idx)))).
  { unfold take at 1 3. apply Permutation_map. pose proof (argsortZ_perm (take 0 (t_nums t) idx)) as A. rewrite take_length in A. exact A. }
  apply (Permutation_NoDup (l := idx)); [|apply nonzero_NoDup]. symmetry. etransitivity; [exact P|].
  replace (take 0%nat idx (seq 0 (length idx))) with idx; [reflexivity|].
  apply (nth_ext _ _ 0%nat 0%nat); [rewrite take_length, seq_length; reflexivity|].
  intros k K. rewrite (nth_take 0%nat 0%nat) by (rewrite seq_length; exact K). rewrite seq_nth by exact K. reflexivity.
Qed.

Lemma new_tel_ok t (by_num : bool) l t' :
  new_tel t (if by_num then Some l else None) (if by_num then None else Some l) = Ok t' ->
  let key := if by_num then t_nums t else t_names t in
  t_nums t' = take 0 (t_nums t) (sel_idx t key l) /\ t_names t' = take 0 (t_names t) (sel_idx t key l) /\ t_pos t' = take 0 (t_pos t) (sel_idx t key l) /\
  t_diams t' = option_map (fun d => take 0 d (nonzero (fun v => isinZ v l) key)) (t_diams t) /\ StronglySorted Z.le (t_nums t').
Proof.
  assert (R : forall key, forall i, In i (argsortZ (take 0 (t_nums t) (nonzero (fun v => isinZ v l) key))) -> (i < length (nonzero (fun v => isinZ v l) key))%nat).
  { intros key i I. apply argsort_In in I. rewrite take_length in I. exact I. }
  unfold new_tel. destruct by_num; intros H; injection H as <-; cbn [t_nums t_names t_pos t_diams]; cbn zeta; unfold sel_idx; cbn zeta;
    rewrite !take_take by apply R; (repeat split); rewrite <- take_take by apply R; apply argsortZ_sorted.
Qed.

Lemma sel_sorted t key l : StronglySorted Z.lt (t_nums t) -> length key = length (t_nums t) -> sel_idx t key l = nonzero (fun v => isinZ v l) key.
Proof.
  intros S' L. unfold sel_idx. cbn zeta. set (idx := nonzero (fun v => isinZ v l) key).
  assert (E : argsortZ (take 0 (t_nums t) idx) = seq 0 (length idx)).
  { unfold argsortZ, argsort_by. rewrite take_length. apply isort_sorted_id.
    apply (proj2 (StronglySorted_nth _ 0%nat _)). intros i j Hij Hj. rewrite seq_length in Hj. rewrite !seq_nth by lia. cbn [Nat.add].
    unfold Sorting.le. apply Z.leb_le. rewrite !(nth_take 0 0) by lia.
    assert (X : (nth i idx 0 < nth j idx 0)%nat) by (apply (proj1 (StronglySorted_nth lt 0%nat idx) (nonzero_sorted _ _)); lia).
    assert (Y : (nth j idx 0 < length key)%nat) by (apply (nonzero_lt (fun v => isinZ v l)); apply nth_In; exact Hj).
    apply Z.lt_le_incl. apply (proj1 (StronglySorted_nth Z.lt 0 (t_nums t)) S'); lia. }
  rewrite E. apply (nth_ext _ _ 0%nat 0%nat); [rewrite take_length, seq_length; reflexivity|].
  rewrite take_length, seq_length. intros k K. rewrite (nth_take 0%nat 0%nat) by (rewrite seq_length; exact K). rewrite seq_nth by exact K. reflexivity.
Qed.

Lemma range_of_spec l lo hi : range_of l = Ok (lo, hi) -> In lo l /\ In hi l /\ forall x, In x l -> lo <= x <= hi.
Proof.
  destruct l as [|x t]; [discriminate|]. unfold range_of. intros H. injection H as <- <-.
  assert (Mi : forall t x, In (fold_left Z.min t x) (x :: t) /\ forall y, In y (x :: t) -> fold_left Z.min t x <= y).
  { induction t0 as [|y t0 IH]; intros z; cbn [fold_left].
    - split; [left; reflexivity|]. intros w [<-|[]]. lia.
    - destruct (IH (Z.min z y)) as [I H]. split.
      + destruct I as [<-|I]; [|right; right; exact I]. destruct (Z.min_dec z y) as [->| ->]; [left|right; left]; reflexivity.
      + intros w [<-|[<-|W]]; [specialize (H _ (or_introl eq_refl)); lia|specialize (H _ (or_introl eq_refl)); lia|apply H; right; exact W]. }
  assert (Ma : forall t x, In (fold_left Z.max t x) (x :: t) /\ forall y, In y (x :: t) -> y <= fold_left Z.max t x).
  { induction t0 as [|y t0 IH]; intros z; cbn [fold_left].
    - split; [left; reflexivity|]. intros w [<-|[]]. lia.
    - destruct (IH (Z.max z y)) as [I H]. split.
      + destruct I as [<-|I]; [|right; right; exact I]. destruct (Z.max_dec z y) as [->| ->]; [left|right; left]; reflexivity.
      + intros w [<-|[<-|W]]; [specialize (H _ (or_introl eq_refl)); lia|specialize (H _ (or_introl eq_refl)); lia|apply H; right; exact W]. }
  destruct (Mi t x) as [I1 H1], (Ma t x) as [I2 H2]. split; [exact I1|]. split; [exact I2|]. intros y Y. split; auto.
Qed.

Lemma window_In w : forall (ids freqs : list Z) f, length ids = length freqs ->
  In f (mask_select (map (Z.eqb w) ids) freqs) <-> exists c, nth_error ids c = Some w /\ nth_error freqs c = Some f.
Proof.
  induction ids as [|i ids IH]; intros [|g freqs] f L; try discriminate; cbn [map mask_select].
  - split; [intros []|intros ([|c] & H & _); discriminate].
  - cbn in L. specialize (IH freqs f ltac:(lia)). destruct (Z.eqb_spec w i) as [->|D].
    + cbn [In]. rewrite IH. split.
      * intros [->|(c & H)]; [exists 0%nat; split; reflexivity|exists (S c); exact H].
      * intros ([|c] & H1 & H2); [left; injection H2; auto|right; exists c; auto].
    + rewrite IH. split; [intros (c & H); exists (S c); exact H|]. intros ([|c] & H1 & H2); [injection H1 as E; congruence|exists c; auto].
Qed.
