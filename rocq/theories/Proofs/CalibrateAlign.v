(** The solutions kept line up with the times and frequencies of the data. *)
From Coq Require Import List ZArith Bool Arith Sorted Lia.
From Verif Require Import Lib.Py Lib.Np Lib.Sorting Lib.Cube Model.UVData Model.Access Model.UVFlag Model.Calibrate
  Spec.UVDataSpec Spec.AccessSpec Spec.FlagSpec Spec.CalibrateSpec Proofs.AccessProofs Proofs.FlagConvert.
Import ListNotations.
Open Scope Z_scope.
Open Scope list_scope.
Notation length := List.length.

Lemma near_le tol a b : near tol a b = true <-> Z.abs (a - b) <= tol.
Proof. unfold near. apply Z.leb_le. Qed.

Lemma sorted_nth (l : list Z) : StronglySorted Z.lt l <-> forall i j, (i < j < length l)%nat -> nth i l 0 < nth j l 0.
Proof.
  split.
  - induction 1 as [|x l Hs IH Hf]; intros i j [Hi Hj]; [simpl in Hj; lia|]. simpl in Hj. destruct i as [|i], j as [|j]; try lia.
    + simpl. rewrite Forall_forall in Hf. apply Hf. apply nth_In. lia.
    + simpl. apply IH. lia.
  - induction l as [|x l IH]; intros H; [constructor|]. constructor.
    + apply IH. intros i j Hij. apply (H (S i) (S j)). simpl. lia.
    + apply Forall_forall. intros y Hy. apply In_nth with (d := 0) in Hy. destruct Hy as (k & Hk & <-). apply (H 0%nat (S k)). simpl. lia.
Qed.

Lemma clear_sorted_id tol l : clear_times tol l -> uniqueZ l = l /\ isort Z.leb l = l.
Proof.
  intros [H _]. split; [apply sorted_uniqueZ; exact H|]. apply isort_sorted_id.
  revert H. apply StronglySorted_impl. intros x y _ _ H. apply Z.leb_le. lia.
Qed.

Lemma clear_eq tol l x y : clear_times tol l -> In x l -> In y l -> Z.abs (x - y) <= 2 * tol -> x = y.
Proof.
  intros [_ H] Hx Hy Hn. apply In_nth with (d := 0) in Hx. apply In_nth with (d := 0) in Hy.
  destruct Hx as (i & Hi & <-), Hy as (j & Hj & <-). destruct (Nat.lt_trichotomy i j) as [L|[->|L]]; [|reflexivity|].
  - specialize (H i j (conj L Hj)). lia.
  - specialize (H j i (conj L Hi)). lia.
Qed.

Lemma allclose_same tol a b : length a = length b ->
  (allclose tol a b = true <-> forall i, (i < length a)%nat -> Z.abs (nth i a 0 - nth i b 0) <= tol).
Proof.
  intros E. unfold allclose. rewrite <- E, Nat.eqb_refl. cbn [orb andb].
  replace (if (length a =? 1)%nat then length a else length a) with (length a) by (destruct (_ =? _)%nat; reflexivity).
  rewrite forallb_forall. unfold bpos. split; intros H i Hi.
  - specialize (H i). rewrite in_seq in H. specialize (H ltac:(lia)). apply near_le in H.
    destruct (length a =? 1)%nat eqn:E1; [|exact H]. apply Nat.eqb_eq in E1. replace i with 0%nat by lia. exact H.
  - apply in_seq in Hi. apply near_le. destruct (length a =? 1)%nat eqn:E1; [apply Nat.eqb_eq in E1; apply H; lia|apply H; lia].
Qed.
Lemma allclose_clear tol a b : clear_times tol a -> clear_times tol b -> a <> [] -> b <> [] -> 0 <= tol -> allclose tol a b = true ->
  length a = length b.
Proof.
  intros [_ Ca] [_ Cb] Na Nb Ht H. unfold allclose in H. apply andb_true_iff in H. destruct H as [Hs H].
  apply orb_true_iff in Hs. destruct Hs as [Hs|Hs]; [apply orb_true_iff in Hs; destruct Hs as [Hs|Hs]|]; apply Nat.eqb_eq in Hs; [exact Hs| |].
  - rewrite Hs in H. cbn [Nat.eqb] in H. rewrite forallb_forall in H. destruct b as [|x [|y b]]; [congruence|exact Hs|]. exfalso.
    pose proof (H 0%nat) as H0. pose proof (H 1%nat) as H1. rewrite in_seq in H0, H1.
    specialize (H0 ltac:(simpl; lia)). specialize (H1 ltac:(simpl; lia)). apply near_le in H0. apply near_le in H1.
    specialize (Cb 0%nat 1%nat ltac:(simpl; lia)). unfold bpos in *. cbn [length nth Nat.eqb] in *. lia.
  - rewrite Hs in H. destruct a as [|x [|y a]]; [congruence|simpl; lia|]. exfalso. cbn [length Nat.eqb] in H. rewrite forallb_forall in H.
    pose proof (H 0%nat) as H0. pose proof (H 1%nat) as H1. rewrite in_seq in H0, H1.
    specialize (H0 ltac:(simpl; lia)). specialize (H1 ltac:(simpl; lia)). apply near_le in H0. apply near_le in H1.
    specialize (Ca 0%nat 1%nat ltac:(simpl; lia)). unfold bpos in *. cbn [length nth Nat.eqb] in *. lia.
Qed.

Lemma first_near_Ok tol l x y : first_near tol l x = Ok y -> In y l /\ Z.abs (y - x) <= tol.
Proof.
  unfold first_near. destruct (filter _ l) as [|z t] eqn:E; [discriminate|]. intros H. injection H as ->.
  assert (K : In y (filter (fun y => near tol y x) l)) by (rewrite E; left; reflexivity).
  apply filter_In in K. rewrite near_le in K. exact K.
Qed.
Lemma first_near_total tol l x y : In y l -> Z.abs (y - x) <= tol -> exists z, first_near tol l x = Ok z.
Proof.
  intros H1 H2. unfold first_near. destruct (filter (fun y => near tol y x) l) as [|z t] eqn:E; [|eauto].
  assert (K : In y (filter (fun y => near tol y x) l)) by (apply filter_In; rewrite near_le; auto). rewrite E in K. contradiction.
Qed.

(** The kept indices follow the data *)
Definition follows (tol : Z) (l T : list Z) (kt : list nat) : Prop :=
  length kt = length T /\ forall r, (r < length T)%nat -> (nth r kt 0 < length l)%nat /\ Z.abs (nth r T 0 - nth (nth r kt 0%nat) l 0) <= tol.

Lemma follows_all tol l T : length l = length T -> (forall i, (i < length l)%nat -> Z.abs (nth i l 0 - nth i T 0) <= tol) ->
  follows tol l T (seq 0 (length l)).
Proof.
  intros E H. split; [rewrite seq_length; exact E|]. intros r Hr. rewrite seq_nth by lia. cbn [Nat.add]. split; [lia|]. specialize (H r ltac:(lia)). lia.
Qed.

Lemma map_sorted_nat (l : list Z) kt : StronglySorted Z.lt l -> StronglySorted lt kt -> Forall (fun i => (i < length l)%nat) kt ->
  StronglySorted Z.lt (map (fun i => nth i l 0) kt).
Proof.
  intros Hl Hk Hb. induction Hk as [|k kt Hk IH Hf]; [constructor|]. apply Forall_inv_tail in Hb as Hb'. apply Forall_inv in Hb. cbn [map]. constructor; [apply IH, Hb'|].
  apply Forall_forall. intros y Hy. apply in_map_iff in Hy. destruct Hy as (i & <- & Hi). rewrite Forall_forall in Hf, Hb'.
  apply (proj1 (sorted_nth l) Hl). split; [apply Hf, Hi|apply Hb', Hi].
Qed.

Section Keep.
  Context (tol : Z) (l T keep : list Z) (Cl : clear_times tol l) (CT : clear_times tol T)
          (HK : mapM (first_near tol l) T = Ok keep).

  Lemma keep_length : length keep = length T.
  Proof. apply (mapM_Ok_length _ _ _ HK). Qed.
  Lemma keep_nth r : (r < length T)%nat -> In (nth r keep 0) l /\ Z.abs (nth r keep 0 - nth r T 0) <= tol.
  Proof. intros Hr. apply first_near_Ok. apply (mapM_Ok_nth _ _ _ 0 0 HK r Hr). Qed.
  Lemma keep_sorted : StronglySorted Z.lt keep.
  Proof.
    apply sorted_nth. rewrite keep_length. intros i j Hij. destruct CT as [_ CT']. specialize (CT' i j Hij).
    pose proof (keep_nth i ltac:(lia)). pose proof (keep_nth j ltac:(lia)). lia.
  Qed.
  Lemma keep_incl x : In x keep -> In x l.
  Proof. intros H. apply In_nth with (d := 0) in H. destruct H as (r & Hr & <-). apply keep_nth. rewrite <- keep_length. exact Hr. Qed.

  Lemma keep_follows kt : StronglySorted lt kt ->
    (forall i, In i kt <-> (i < length l)%nat /\ In (nth i l 0) keep) -> follows tol l T kt.
  Proof.
    intros Hs Hk. assert (E : map (fun i => nth i l 0) kt = keep).
    { apply (sorted_unique Z.lt); try (intros; lia).
      - apply map_sorted_nat; [apply Cl|exact Hs|]. apply Forall_forall. intros i Hi. apply Hk, Hi.
      - apply keep_sorted.
      - intros x. rewrite in_map_iff. split.
        + intros (i & <- & Hi). apply Hk, Hi.
        + intros Hx. pose proof (keep_incl x Hx) as Hl. apply In_nth with (d := 0) in Hl. destruct Hl as (i & Hi & E). exists i. split; [exact E|].
          apply Hk. rewrite E. auto. }
    assert (L : length kt = length T) by (rewrite <- keep_length, <- E, map_length; reflexivity).
    split; [exact L|]. intros r Hr.
    assert (K : In (nth r kt 0%nat) kt) by (apply nth_In; lia). split; [apply Hk, K|].
    destruct (keep_nth r Hr) as [_ N]. rewrite <- E in N. rewrite (nth_map (fun i => nth i l 0) kt r 0%nat 0) in N by lia. lia.
  Qed.

  Lemma keep_everything : (length l <= length keep)%nat -> forall x, In x l -> In x keep.
  Proof.
    intros L. assert (ND : NoDup keep) by (apply StronglySorted_Zlt_NoDup, keep_sorted).
    intros x Hx. apply (NoDup_length_incl ND L); [intros y Hy; apply keep_incl, Hy|exact Hx].
  Qed.

  Lemma keep_select (P : Z -> bool) : (forall x, In x l -> (P x = true <-> In x keep)) ->
    follows tol l T (if (length keep <? length l)%nat then filter (fun i => P (nth i l 0)) (seq 0 (length l)) else seq 0 (length l)).
  Proof.
    intros HP. destruct (length keep <? length l)%nat eqn:E.
    - apply keep_follows; [apply filter_sorted, seq_sorted|]. intros i. rewrite filter_In, in_seq. cbn [Nat.add].
      split; [intros [H1 H2]; split; [lia|]; apply HP; [apply nth_In; lia|exact H2]|intros [H1 H2]; split; [lia|]; apply HP; [apply nth_In; lia|exact H2]].
    - apply Nat.ltb_ge in E. apply keep_follows; [apply seq_sorted|]. intros i. rewrite in_seq. cbn [Nat.add].
      split; [intros H; split; [lia|]; apply keep_everything; [exact E|apply nth_In; lia]|lia].
  Qed.
End Keep.

Lemma match_freqs_follows ftol v c kf : 0 <= ftol -> clear_times ftol (k_freqs c) -> clear_times ftol (freq_array (v_u v)) ->
  k_freqs c <> [] -> match_freqs ftol v c = Ok kf ->
  freq_array (v_u v) = [] \/ follows ftol (k_freqs c) (freq_array (v_u v)) kf.
Proof.
  intros Ht Cl CT Hne H. unfold match_freqs in H.
  rewrite (proj2 (clear_sorted_id _ _ Cl)), (proj2 (clear_sorted_id _ _ CT)) in H.
  destruct (freq_array (v_u v)) as [|f0 fs] eqn:Ef; [left; reflexivity|right]. rewrite <- Ef in *.
  assert (Nf : freq_array (v_u v) <> []) by (rewrite Ef; discriminate).
  destruct (allclose ftol (k_freqs c) (freq_array (v_u v))) eqn:Ea.
  - injection H as <-. pose proof (allclose_clear _ _ _ Cl CT Hne Nf Ht Ea) as L. apply follows_all; [exact L|]. apply allclose_same; assumption.
  - apply bind_Ok in H as (keep & HK & H). injection H as <-.
    apply (keep_select ftol (k_freqs c) (freq_array (v_u v)) keep Cl CT HK (fun x => isinZ x keep)). intros x _. apply isinZ_spec.
Qed.

Lemma match_times_follows ttol o v c kt l : 0 <= ttol -> k_times c = KTimes l -> clear_times ttol l -> length l <> 1%nat -> l <> [] ->
  forall T, T <> [] -> clear_times ttol T -> uniqueZ (time_array (v_u v)) = T -> match_times ttol o v c = Ok kt -> follows ttol l T kt.
Proof.
  intros Ht Ek Cl Hl Hne T NT CT ET H. unfold match_times in H. rewrite Ek, ET in H. cbv zeta in H.
  destruct ((1 <? length l)%nat && (length l <? Ntimes (v_u v))%nat); [discriminate|].
  rewrite (proj1 (clear_sorted_id _ _ Cl)) in H. destruct (allclose ttol l T) eqn:Ea.
  - injection H as <-. pose proof (allclose_clear _ _ _ Cl CT Hne NT Ht Ea) as L. apply follows_all; [exact L|]. apply allclose_same; assumption.
  - rewrite (proj2 (Nat.eqb_neq _ _) Hl) in H. apply bind_Ok in H as (keep & HK & H). injection H as <-.
    apply (keep_select ttol l T keep Cl CT HK (fun x => existsb (near ttol x) keep)). intros x Hx. rewrite existsb_exists. split.
    + intros (y & Hy & Hn). apply near_le in Hn. rewrite (clear_eq ttol l x y Cl Hx (keep_incl _ _ _ _ HK y Hy)); [exact Hy|lia].
    + intros Hk. exists x. split; [exact Hk|]. apply near_le. lia.
Qed.

(** Several time ranges *)
Lemma range_fold (l : list (Z * Z)) x ks : forall k0,
  let k := fold_left (fun k i => if (fst (nth i l (0, 0)) <=? x) && (x <=? snd (nth i l (0, 0))) then i else k) ks k0 in
  (k = k0 /\ forall i, In i ks -> ~ (fst (nth i l (0, 0)) <= x <= snd (nth i l (0, 0)))) \/
  (In k ks /\ fst (nth k l (0, 0)) <= x <= snd (nth k l (0, 0))).
Proof.
  induction ks as [|i ks IH]; intros k0; cbn [fold_left]; [left; split; [reflexivity|contradiction]|].
  destruct ((fst (nth i l (0, 0)) <=? x) && (x <=? snd (nth i l (0, 0)))) eqn:E.
  - apply andb_true_iff in E. rewrite !Z.leb_le in E. destruct (IH i) as [[-> _]|[A B]]; right; [split; [left; reflexivity|exact E]|split; [right; exact A|exact B]].
  - apply andb_false_iff in E. rewrite !Z.leb_gt in E. destruct (IH k0) as [[-> A]|[A B]]; [left|right; split; [right; exact A|exact B]].
    split; [reflexivity|]. intros j [<-|Hj]; [lia|apply A, Hj].
Qed.
Lemma range_of_serves l x : existsb (fun r => (fst r <=? x) && (x <=? snd r)) l = true ->
  (range_of l x < length l)%nat /\ fst (nth (range_of l x) l (0, 0)) <= x <= snd (nth (range_of l x) l (0, 0)).
Proof.
  intros H. unfold range_of. destruct (range_fold l x (seq 0 (length l)) 0%nat) as [[E A]|[A B]].
  - exfalso. apply existsb_exists in H. destruct H as (r & Hr & Hx). apply In_nth with (d := (0, 0)) in Hr. destruct Hr as (i & Hi & <-).
    apply (A i); [apply in_seq; lia|]. apply andb_true_iff in Hx. rewrite !Z.leb_le in Hx. exact Hx.
  - split; [apply in_seq in A; lia|exact B].
Qed.
Lemma match_times_ranges ttol o v c kt l : k_times c = KRanges l -> match_times ttol o v c = Ok kt ->
  forall i, (i < length (time_array (v_u v)))%nat -> (1 < length l)%nat ->
  existsb (fun r => (fst r <=? nth i (time_array (v_u v)) 0) && (nth i (time_array (v_u v)) 0 <=? snd r)) l = true.
Proof.
  intros Ek H i Hi Hl. unfold match_times in H. rewrite Ek in H. cbv zeta in H. destruct (_ && negb _); [discriminate|].
  rewrite (proj2 (Nat.ltb_lt 1 (length l)) Hl) in H. cbn [andb] in H.
  destruct (existsb (fun x => negb _) _) eqn:E; [discriminate|].
  destruct (existsb (fun r => _ && _) l) eqn:E2; [reflexivity|]. exfalso.
  rewrite <- not_true_iff_false in E. apply E. apply existsb_exists. exists (nth i (time_array (v_u v)) 0). split; [apply uniqueZ_In, nth_In, Hi|].
  rewrite E2. reflexivity.
Qed.
