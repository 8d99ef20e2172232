(** Waterfalls and conversions between flag types. *)
From Coq Require Import List ZArith Bool Arith Sorted Lia Permutation Qcanon QArith.
From Verif Require Import Lib.Py Lib.Np Lib.Cube Lib.QSum Model.Bls Model.UVData Model.Hdf5 Model.Access Model.UVFlag
  Spec.BlsSpec Spec.UVDataSpec Spec.AccessSpec Spec.FlagSpec.
Import ListNotations.
Open Scope Z_scope.
Open Scope list_scope.
Notation length := List.length.

(** ** Full rows and columns *)
Lemma filter_length_le' {A} (f : A -> bool) l : (length (filter f l) <= length l)%nat.
Proof. induction l as [|x l IH]; simpl; [lia|]. destruct (f x); simpl; lia. Qed.
Lemma count_full l : count l = length l <-> Forall (fun b => b = true) l.
Proof.
  unfold count. induction l as [|b l IH]; simpl; [split; auto|].
  pose proof (filter_length_le' (fun b => b) l). destruct b; simpl.
  - split.
    + intros H1. injection H1 as H1. constructor; [reflexivity|apply IH; exact H1].
    + intros H1. inversion H1; subst. f_equal. apply IH. assumption.
  - split; [lia|]. intros H1. inversion H1. discriminate.
Qed.
Lemma full_spec l : full l = true <-> l <> [] /\ Forall (fun b => b = true) l.
Proof.
  unfold full. rewrite andb_true_iff, negb_true_iff, Nat.eqb_neq, Nat.eqb_eq, count_full.
  destruct l; simpl; split; intros [A B]; (split; [intros E; first [discriminate E | (apply A; reflexivity)]|exact B]).
Qed.
Lemma full_seq (f : nat -> bool) n : full (map f (seq 0 n)) = true <-> (0 < n)%nat /\ forall i, (i < n)%nat -> f i = true.
Proof.
  rewrite full_spec, Forall_forall. split.
  - intros [Hne H]. split; [destruct n; [elim Hne; reflexivity|lia]|]. intros i Hi. apply H. apply in_map. apply in_seq. lia.
  - intros [Hn H]. split; [destruct n; [lia|discriminate]|]. intros b Hb. apply in_map_iff in Hb. destruct Hb as (i & <- & Hi).
    apply in_seq in Hi. apply H. lia.
Qed.

Lemma and_rows_cols_spec nt nf w i j : (i < nt)%nat -> (j < nf)%nat ->
  and_rows_cols nt nf w i j = true <->
  (forall i', (i' < nt)%nat -> w i' j = true) \/ (forall j', (j' < nf)%nat -> w i j' = true).
Proof.
  intros Hi Hj. unfold and_rows_cols.
  destruct (full (map (fun j => w i j) (seq 0 nf))) eqn:E.
  - apply full_seq in E. tauto.
  - destruct (full (map (fun i => w i j) (seq 0 nt))) eqn:E2.
    + apply full_seq in E2. tauto.
    + split; [discriminate|]. intros [H|H]; exfalso.
      * assert (full (map (fun i => w i j) (seq 0 nt)) = true) by (apply full_seq; split; [lia|exact H]). congruence.
      * assert (full (map (fun j => w i j) (seq 0 nf)) = true) by (apply full_seq; split; [lia|exact H]). congruence.
Qed.

Lemma and_rows_cols_subset nt nf w i j : (i < nt)%nat -> (j < nf)%nat ->
  and_rows_cols nt nf w i j = true -> w i j = true.
Proof. intros Hi Hj H. apply and_rows_cols_spec in H; auto. destruct H as [H|H]; auto. Qed.

Lemma and_rows_cols_idem nt nf w i j : (i < nt)%nat -> (j < nf)%nat ->
  and_rows_cols nt nf (and_rows_cols nt nf w) i j = and_rows_cols nt nf w i j.
Proof.
  intros Hi Hj. apply eq_true_iff_eq. split.
  - apply and_rows_cols_subset; assumption.
  - intros H. apply and_rows_cols_spec; auto. apply and_rows_cols_spec in H; auto. destruct H as [H|H].
    + left. intros i' Hi'. apply and_rows_cols_spec; auto.
    + right. intros j' Hj'. apply and_rows_cols_spec; auto.
Qed.

(** ** Means of booleans *)
Lemma rows_at_spec times t : rows_at times t = at_time times t.
Proof.
  unfold rows_at, at_time. symmetry. apply (nonzero_unique 0).
  - assert (Hs : forall n m, StronglySorted lt (filter (fun r => nth r times 0 =? t) (seq n m))).
    { intros n m. revert n. induction m as [|m IH]; intros n; simpl; [constructor|].
      destruct (nth n times 0 =? t); [|apply IH]. constructor; [apply IH|].
      apply Forall_forall. intros x Hx. apply filter_In in Hx. destruct Hx as [Hx _]. apply in_seq in Hx. lia. }
    apply Hs.
  - intros i. rewrite filter_In, in_seq, !Z.eqb_eq. intuition.
Qed.
Lemma at_time_In times t r : In r (at_time times t) <-> (r < length times)%nat /\ nth r times 0 = t.
Proof. unfold at_time. rewrite filter_In, in_seq, Z.eqb_eq. intuition lia. Qed.

Lemma qnat_S n : (qnat (S n) = 1 + qnat n)%Qc.
Proof.
  unfold qnat. apply Qc_is_canon. unfold Qcplus, Q2Qc. cbn [this]. rewrite !Qred_correct. cbn [this].
  replace (Z.of_nat (S n)) with (1 + Z.of_nat n) by lia. rewrite inject_Z_plus. reflexivity.
Qed.
Lemma qsum_bools l : qsum (map b2q l) = qnat (count l).
Proof.
  unfold count. induction l as [|[] l IH]; simpl.
  - apply Qc_is_canon. reflexivity.
  - rewrite qnat_S, <- IH. reflexivity.
  - rewrite <- IH. unfold qsum. simpl. ring.
Qed.
Lemma bmean_fraction l : bmean l = (qnat (count l) / qnat (length l))%Qc.
Proof. unfold bmean, qmean. rewrite qsum_bools, map_length. reflexivity. Qed.
Lemma qnat_inj n m : qnat n = qnat m -> n = m.
Proof.
  unfold qnat. intros H. apply (proj1 (Q2Qc_eq_iff _ _)) in H. unfold Qeq, inject_Z in H. simpl in H. lia.
Qed.
Lemma qnat_le n m : (n <= m)%nat -> (qnat n <= qnat m)%Qc.
Proof.
  intros H. unfold qnat, Qcle, Q2Qc. cbn [this]. rewrite !Qred_correct. unfold Qle, inject_Z. simpl. lia.
Qed.
Lemma bmean_one l : l <> [] -> bmean l = 1%Qc <-> Forall (fun b => b = true) l.
Proof.
  intros Hne. rewrite bmean_fraction, <- count_full.
  assert (Hz : qnat (length l) <> 0%Qc) by (apply qnat_nonzero; destruct l; simpl; congruence).
  split.
  - intros H. apply qnat_inj.
    transitivity (qnat (count l) / qnat (length l) * qnat (length l))%Qc; [field; exact Hz|]. rewrite H. ring.
  - intros ->. field. exact Hz.
Qed.
Lemma bmean_zero l : l <> [] -> bmean l = 0%Qc <-> Forall (fun b => b = false) l.
Proof.
  intros Hne. rewrite bmean_fraction.
  assert (Hz : qnat (length l) <> 0%Qc) by (apply qnat_nonzero; destruct l; simpl; congruence).
  assert (C : count l = 0%nat <-> Forall (fun b => b = false) l).
  { clear. unfold count. induction l as [|[] l IH]; simpl; [split; auto| |].
    - split; [discriminate|]. intros H; inversion H; discriminate.
    - rewrite IH. split; intros H; [constructor; auto|inversion H; auto]. }
  rewrite <- C. split.
  - intros H. apply qnat_inj.
    transitivity (qnat (count l) / qnat (length l) * qnat (length l))%Qc; [field; exact Hz|]. rewrite H.
    apply Qc_is_canon. reflexivity.
  - intros ->. apply Qc_is_canon. reflexivity.
Qed.
Lemma count_flat {A B} (f : A -> B -> bool) (ps : list B) rs :
  count (flat_map (fun r => map (fun q => f r q) ps) rs) = length (filter (fun x => f (fst x) (snd x)) (list_prod rs ps)).
Proof.
  unfold count. induction rs as [|r rs IH]; [reflexivity|]. simpl. rewrite !filter_app, !app_length, IH. f_equal.
  clear. induction ps as [|q ps IH]; [reflexivity|]. simpl. destruct (f r q); simpl; rewrite IH; reflexivity.
Qed.
Lemma flat_length {A B C} (f : A -> B -> C) (ps : list B) rs :
  length (flat_map (fun r => map (fun q => f r q) ps) rs) = length (list_prod rs ps).
Proof. induction rs as [|r rs IH]; [reflexivity|]. simpl. rewrite !app_length, !map_length, IH. reflexivity. Qed.

Lemma flags2waterfall_fraction u flags kp w : Ntimes u = length (uniqueZ (time_array u)) ->
  flags2waterfall u flags kp = Ok w ->
  forall i j p, (i < Ntimes u)%nat ->
  let s := cell_samples u (nth i (uniqueZ (time_array u)) 0) kp p in
  w i j p = (qnat (length (filter (fun x => flags (fst x) j (snd x)) s)) / qnat (length s))%Qc.
Proof.
  intros Hn H i j p Hi s. unfold flags2waterfall in H. rewrite Hn, Nat.leb_refl in H. injection H as <-.
  rewrite Hn in Hi. rewrite (proj2 (Nat.ltb_lt _ _) Hi). rewrite bmean_fraction, rows_at_spec.
  rewrite (count_flat (fun r q => flags r j q)), (flat_length (fun r q => flags r j q)). reflexivity.
Qed.
Lemma flags2waterfall_total u flags kp : Ntimes u = length (uniqueZ (time_array u)) -> exists w, flags2waterfall u flags kp = Ok w.
Proof. intros Hn. unfold flags2waterfall. rewrite Hn, Nat.leb_refl. eauto. Qed.

Lemma cells_nonempty u i kp p : (i < length (uniqueZ (time_array u)))%nat -> (p < Npols u)%nat ->
  cell_samples u (nth i (uniqueZ (time_array u)) 0) kp p <> [].
Proof.
  intros Hi Hp. pose proof (nth_In (uniqueZ (time_array u)) 0 Hi) as Ht. apply (proj1 (uniqueZ_In _ _)) in Ht.
  apply In_nth with (d := 0) in Ht. destruct Ht as (r & Hr & E).
  assert (Hr' : In r (at_time (time_array u) (nth i (uniqueZ (time_array u)) 0))) by (apply at_time_In; auto).
  intros En. assert (In (r, p) []); [|contradiction]. rewrite <- En. apply in_prod; [exact Hr'|].
  destruct kp; [left; reflexivity|]. apply in_seq. unfold Npols in Hp. lia.
Qed.

Lemma flags2waterfall_extremes u flags kp w : Ntimes u = length (uniqueZ (time_array u)) ->
  flags2waterfall u flags kp = Ok w ->
  forall i j p, (i < Ntimes u)%nat -> (p < Npols u)%nat ->
  let s := cell_samples u (nth i (uniqueZ (time_array u)) 0) kp p in
  (w i j p = 1%Qc <-> forall r q, In (r, q) s -> flags r j q = true) /\
  (w i j p = 0%Qc <-> forall r q, In (r, q) s -> flags r j q = false).
Proof.
  intros Hn H i j p Hi Hp s. pose proof Hi as Hi'. unfold flags2waterfall in H. rewrite Hn, Nat.leb_refl in H. injection H as <-.
  rewrite Hn in Hi. rewrite (proj2 (Nat.ltb_lt _ _) Hi). rewrite rows_at_spec.
  set (l := flat_map _ _).
  assert (Hl : forall b, In b l <-> exists r q, In (r, q) s /\ flags r j q = b).
  { intros b. unfold l, s, cell_samples. rewrite in_flat_map. split.
    - intros (r & Hr & Hb). apply in_map_iff in Hb. destruct Hb as (q & <- & Hq). exists r, q. split; [apply in_prod; assumption|reflexivity].
    - intros (r & q & Hin & <-). apply in_prod_iff in Hin. exists r. split; [tauto|]. apply in_map_iff. exists q. tauto. }
  assert (Hne : l <> []).
  { pose proof (cells_nonempty u i kp p Hi Hp) as Hs. fold s in Hs. destruct s as [|[r q] s']; [congruence|].
    intros E. assert (In (flags r j q) l); [|rewrite E in *; contradiction]. apply Hl. exists r, q. split; [left; reflexivity|reflexivity]. }
  rewrite bmean_one, bmean_zero by exact Hne. rewrite !Forall_forall. split; split.
  - intros H r q Hin. apply H. apply Hl. eauto.
  - intros H b Hb. apply Hl in Hb. destruct Hb as (r & q & Hin & <-). auto.
  - intros H r q Hin. apply H. apply Hl. eauto.
  - intros H b Hb. apply Hl in Hb. destruct Hb as (r & q & Hin & <-). auto.
Qed.

Lemma cal_fraction na nj flags (kp : bool) (t j p : nat) :
  let s := list_prod (seq 0 na) (if kp then [p] else seq 0 nj) in
  flags2waterfall_cal na nj flags kp t j p =
  (qnat (length (filter (fun x => flags (fst x) j t (snd x)) s)) / qnat (length s))%Qc.
Proof.
  unfold flags2waterfall_cal. rewrite bmean_fraction, (count_flat (fun a q => flags a j t q)), (flat_length (fun a q => flags a j t q)).
  reflexivity.
Qed.

Lemma fraction_bounds (n m : nat) : (n <= m)%nat -> (0 < m)%nat -> (0 <= qnat n / qnat m <= 1)%Qc.
Proof.
  intros H Hm.
  assert (P : (0 < qnat m)%Qc). { unfold qnat, Qclt, Q2Qc. cbn [this]. rewrite !Qred_correct. unfold Qlt, inject_Z. simpl. lia. }
  assert (Z : qnat m <> 0%Qc) by (apply qnat_nonzero; lia).
  split.
  - apply Qcmult_lt_0_le_reg_r with (qnat m); [exact P|].
    replace (0 * qnat m)%Qc with 0%Qc by ring. replace (qnat n / qnat m * qnat m)%Qc with (qnat n) by (field; exact Z).
    change 0%Qc with (qnat 0). apply qnat_le. lia.
  - apply Qcmult_lt_0_le_reg_r with (qnat m); [exact P|].
    replace (qnat n / qnat m * qnat m)%Qc with (qnat n) by (field; exact Z).
    replace (1 * qnat m)%Qc with (qnat m) by ring. apply qnat_le. exact H.
Qed.
