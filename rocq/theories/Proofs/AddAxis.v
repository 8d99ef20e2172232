(** Merging the labels of one axis, as __add__ does. *)
From Coq Require Import List ZArith Bool Arith Lia Permutation Sorted.
From Verif Require Import Lib.Py Lib.Np Lib.Cube Lib.Sorting Model.UVData Model.Reorder Model.Freq Model.Add
  Proofs.FreqProofs Proofs.ReorderProofs.
Import ListNotations.
Notation length := List.length.
Open Scope nat_scope.

Lemma listN_eqb_eq a b : listN_eqb a b = true <-> a = b.
Proof.
  revert b. induction a as [|x a IH]; intros [|y b]; simpl; try (split; [discriminate|discriminate]); [tauto|].
  rewrite andb_true_iff, Nat.eqb_eq, IH. split; [intros [-> ->]; reflexivity|intros E; injection E; auto].
Qed.

Lemma pair_eqb_spec x y : pair_eqb x y = true <-> x = y.
Proof.
  destruct x as [a b], y as [c e]. unfold pair_eqb. simpl. rewrite andb_true_iff, !Z.eqb_eq.
  split; [intros [-> ->]; reflexivity|intros E; injection E; auto].
Qed.

(** ** argsort of positions *)
Lemma argsortN_perm l : Permutation (argsortN l) (seq 0 (length l)).
Proof. unfold argsortN. rewrite <- (map_length Z.of_nat l). apply argsortZ_perm. Qed.

Lemma argsortN_sorted l : NoDup l -> StronglySorted lt (take 0 l (argsortN l)).
Proof.
  intros N. pose proof (argsortZ_sorted (map Z.of_nat l)) as H. fold (argsortN l) in H.
  destruct (perm_seq_facts _ _ (argsortN_perm l)) as (La & Na & Ba & Ia).
  assert (E : take 0%Z (map Z.of_nat l) (argsortN l) = map Z.of_nat (take 0 l (argsortN l))).
  { unfold take. rewrite map_map. apply map_ext_in. intros i Hi. apply Ia in Hi.
    rewrite (nth_indep _ 0%Z (Z.of_nat 0)) by (rewrite map_length; exact Hi). apply map_nth. }
  rewrite E in H. apply (proj2 (StronglySorted_map _ _ _)) in H.
  assert (NT : NoDup (take 0 l (argsortN l))).
  { apply (Permutation_NoDup (l := l)); [symmetry; apply take_perm, argsortN_perm|exact N]. }
  revert NT H. generalize (take 0 l (argsortN l)). intros s NT H. induction H as [|x s H IH Hf]; constructor.
  - apply IH. inversion NT; assumption.
  - rewrite Forall_forall in *. intros y Hy. specialize (Hf y Hy). inversion NT; subst.
    assert (x <> y) by (intros ->; contradiction). lia.
Qed.

Lemma sorted_as_nonzero {A} (d : A) f (l : list A) ix : NoDup ix ->
  (forall i, In i ix <-> i < length l /\ f (nth i l d) = true) -> take 0 ix (argsortN ix) = nonzero f l.
Proof.
  intros N H. apply (nonzero_unique d); [apply argsortN_sorted, N|].
  intros i. rewrite <- H. assert (P : Permutation (take 0 ix (argsortN ix)) ix) by (apply take_perm, argsortN_perm).
  split; apply Permutation_in; [|symmetry]; exact P.
Qed.

(** ** nonzero over concatenation *)
Lemma where_from_app {A} (f : A -> bool) a b n : where_from n f (a ++ b) = where_from n f a ++ where_from (n + length a) f b.
Proof.
  revert n. induction a as [|x a IH]; intros n; simpl; [rewrite Nat.add_0_r; reflexivity|].
  rewrite IH. replace (S n + length a) with (n + S (length a)) by lia. destruct (f x); reflexivity.
Qed.

Lemma where_from_ext {A} (f g : A -> bool) l l' n : length l = length l' ->
  (forall i x y, nth_error l i = Some x -> nth_error l' i = Some y -> f x = g y) -> where_from n f l = where_from n g l'.
Proof.
  revert l' n. induction l as [|x l IH]; intros [|y l'] n L H; try discriminate; [reflexivity|]. simpl.
  rewrite (H 0 x y eq_refl eq_refl), (IH l' (S n)); [reflexivity|simpl in L; lia|].
  intros i u v Hu Hv. apply (H (S i) u v); assumption.
Qed.

Section Axis.
Context {L : Type}.
Variables (d : L) (eqb : L -> L -> bool).
Hypothesis Heq : forall x y, eqb x y = true <-> x = y.

Lemma memb_In x l : memb eqb x l = true <-> In x l.
Proof. apply memb_spec, Heq. Qed.
Lemma memb_notIn x l : memb eqb x l = false <-> ~ In x l.
Proof. rewrite <- memb_In. destruct (memb eqb x l); split; intros; congruence. Qed.

Lemma dedup_In x l : In x (dedup eqb l) <-> In x l.
Proof.
  induction l as [|y l IH]; simpl; [tauto|]. destruct (memb eqb y l) eqn:E; simpl; rewrite IH; [|tauto].
  apply memb_In in E. split; [tauto|]. intros [->|H]; [exact E|exact H].
Qed.
Lemma dedup_NoDup l : NoDup (dedup eqb l).
Proof.
  induction l as [|y l IH]; simpl; [constructor|]. destruct (memb eqb y l) eqn:E; [exact IH|].
  constructor; [|exact IH]. rewrite dedup_In. apply memb_notIn, E.
Qed.

Lemma position_spec x l : In x l -> position eqb x l < length l /\ nth (position eqb x l) l d = x.
Proof.
  intros H. unfold position. destruct (index_of eqb x l) as [i|] eqn:E.
  - apply (index_of_Some eqb Heq d) in E. tauto.
  - apply (index_of_None eqb Heq) in E. contradiction.
Qed.

(** The positions of the shared labels, in some common order *)
Definition paired (la lb : list L) (ti oi : list nat) : Prop :=
  exists both, NoDup both /\ (forall x, In x both <-> In x la /\ In x lb) /\
    length ti = length both /\ length oi = length both /\
    forall q, q < length both -> nth q ti 0 < length la /\ nth (nth q ti 0) la d = nth q both d /\
                                 nth q oi 0 < length lb /\ nth (nth q oi 0) lb d = nth q both d.

Lemma intersect_paired leb la lb : paired la lb (fst (intersect1d eqb leb la lb)) (snd (intersect1d eqb leb la lb)).
Proof.
  unfold intersect1d. set (both := isort leb _). simpl.
  assert (I : forall x, In x both <-> In x la /\ In x lb).
  { intros x. unfold both. rewrite isort_In, filter_In, dedup_In, memb_In. tauto. }
  exists both. split; [|split; [exact I|]].
  - apply (Permutation_NoDup (isort_perm leb _)), NoDup_filter, dedup_NoDup.
  - rewrite !map_length. split; [reflexivity|]. split; [reflexivity|]. intros q Hq.
    rewrite !(nth_map _ both q d 0 Hq). pose proof (proj1 (I _) (nth_In both d Hq)) as [Ha Hb].
    pose proof (position_spec _ _ Ha) as [A1 A2]. pose proof (position_spec _ _ Hb) as [B1 B2].
    split; [exact A1|]. split; [exact A2|]. split; [exact B1|exact B2].
Qed.

Variables (la lb : list L).
Hypothesis Na : NoDup la.
Hypothesis Nb : NoDup lb.

Lemma NoDup_nth_inj l i j : NoDup l -> i < length l -> j < length l -> nth i l d = nth j l d -> i = j.
Proof. intros N Hi Hj E. apply (proj1 (NoDup_nth l d) N i j Hi Hj E). Qed.

Variables (ti oi : list nat).
Hypothesis Hp : paired la lb ti oi.

Lemma paired_swap : paired lb la oi ti.
Proof.
  destruct Hp as (both & N & I & Lt & Lo & H). exists both. split; [exact N|]. split; [intros x; rewrite I; tauto|].
  split; [exact Lo|]. split; [exact Lt|]. intros q Hq. destruct (H q Hq) as (A & B & C & D). tauto.
Qed.

Lemma ti_NoDup : NoDup ti.
Proof.
  destruct Hp as (both & N & _ & Lt & _ & H). apply (NoDup_nth ti 0). intros p q Hp' Hq E.
  rewrite Lt in *. destruct (H p Hp') as (_ & A & _). destruct (H q Hq) as (_ & B & _).
  rewrite E, B in A. symmetry in A. apply (proj1 (NoDup_nth both d) N _ _ Hp' Hq A).
Qed.

Lemma ti_spec i : In i ti <-> i < length la /\ memb eqb (nth i la d) lb = true.
Proof.
  destruct Hp as (both & N & I & Lt & _ & H). rewrite memb_In. split.
  - intros Hi. destruct (In_nth _ _ 0 Hi) as (q & Hq & <-). rewrite Lt in Hq. destruct (H q Hq) as (A & B & _).
    split; [exact A|]. rewrite B. apply (proj1 (I _) (nth_In both d Hq)).
  - intros [Hi Hb]. assert (Hx : In (nth i la d) both) by (apply I; split; [apply nth_In, Hi|exact Hb]).
    destruct (In_nth _ _ d Hx) as (q & Hq & E). destruct (H q Hq) as (A & B & _).
    rewrite E in B. rewrite <- (NoDup_nth_inj la _ _ Na A Hi B). apply nth_In. lia.
Qed.
End Axis.

Section Merge.
Context {L : Type}.
Variables (d : L) (eqb : L -> L -> bool).
Hypothesis Heq : forall x y, eqb x y = true <-> x = y.
Variables (la lb : list L).
Hypothesis Na : NoDup la.
Hypothesis Nb : NoDup lb.
Variables (ti oi : list nat).
Hypothesis Hp : paired d la lb ti oi.

Let n := length la.
Let ta := argsortN ti.
Let oa := argsortN oi.
Definition order_of (n : nat) (ti oi : list nat) : list nat :=
  match overlap_order n ti oi with None => seq 0 n | Some s => s end.
Let sigma := order_of n ti oi.

Let in_b x := memb eqb x lb.
Let in_a x := memb eqb x la.

Lemma ti_sorted : take 0 ti ta = nonzero in_b la.
Proof. apply (sorted_as_nonzero d); [apply (ti_NoDup d la lb ti oi Hp)|]. apply (ti_spec d eqb Heq la lb Na ti oi Hp). Qed.
Lemma oi_sorted : take 0 oi oa = nonzero in_a lb.
Proof.
  pose proof (paired_swap d la lb ti oi Hp) as Hs.
  apply (sorted_as_nonzero d); [apply (ti_NoDup d lb la oi ti Hs)|]. apply (ti_spec d eqb Heq lb la Nb oi ti Hs).
Qed.

Lemma lens : length ti = length oi /\ length ta = length ti /\ length oa = length ti.
Proof.
  destruct Hp as (both & _ & _ & Lt & Lo & _). unfold ta, oa.
  rewrite (Permutation_length (argsortN_perm ti)), (Permutation_length (argsortN_perm oi)), !seq_length. lia.
Qed.

Lemma sigma_facts : length sigma = n /\
  (forall q, q < length ti -> nth (nth q (nonzero in_b la) 0) sigma 0 = nth (nth q oa 0) ti 0) /\
  (forall p, p < n -> in_b (nth p la d) = false -> nth p sigma 0 = p).
Proof.
  destruct lens as (L1 & L2 & L3). pose proof ti_sorted as Et. unfold sigma, order_of, overlap_order.
  fold ta oa. destruct (listN_eqb ta oa) eqn:E.
  - apply listN_eqb_eq in E. split; [apply seq_length|]. split.
    + intros q Hq. rewrite <- Et, nth_take by lia. rewrite seq_nth; [rewrite E; reflexivity|].
      assert (Hi : In (nth (nth q ta 0) ti 0) ti).
      { apply nth_In. destruct (perm_seq_facts _ _ (argsortN_perm ti)) as (_ & _ & B & _). apply B, Hq. }
      apply (proj1 (ti_spec d eqb Heq la lb Na ti oi Hp _)) in Hi. apply Hi.
    + intros p Hpn _. apply seq_nth, Hpn.
  - rewrite assign_at_len, seq_length. split; [reflexivity|].
    assert (Nt : NoDup (take 0 ti ta)) by (rewrite Et; apply nonzero_NoDup).
    assert (Ft : Forall (fun i => i < length (seq 0 n)) (take 0 ti ta)).
    { rewrite Et, seq_length. apply Forall_forall. intros i Hi. apply nonzero_lt in Hi. exact Hi. }
    split.
    + intros q Hq. rewrite <- Et. rewrite nth_assign_in; [|exact Nt|exact Ft|rewrite !take_length; lia|rewrite take_length; lia].
      rewrite nth_take by lia. reflexivity.
    + intros p Hpn Hb. rewrite nth_assign_out; [apply seq_nth, Hpn|].
      rewrite Et. intros Hc. apply (proj1 (nonzero_spec d _ _ _)) in Hc. destruct Hc as [_ Hc]. congruence.
Qed.

Lemma oa_range q : q < length ti -> nth q oa 0 < length ti.
Proof.
  intros Hq. destruct lens as (L1 & _). destruct (perm_seq_facts _ _ (argsortN_perm oi)) as (_ & _ & B & _).
  fold oa in B. rewrite L1. apply B. lia.
Qed.

Lemma sigma_shared_range p : p < n -> in_b (nth p la d) = true ->
  exists q, q < length ti /\ p = nth q (nonzero in_b la) 0 /\ nth p sigma 0 = nth (nth q oa 0) ti 0.
Proof.
  intros Hpn Hb. assert (Hi : In p (nonzero in_b la)) by (apply (proj2 (nonzero_spec d _ _ _)); auto).
  destruct (In_nth _ _ 0 Hi) as (q & Hq & <-).
  assert (Lq : length (nonzero in_b la) = length ti) by (rewrite <- ti_sorted, take_length; apply lens).
  exists q. rewrite Lq in Hq. split; [exact Hq|]. split; [reflexivity|]. apply sigma_facts, Hq.
Qed.

Lemma sigma_keeps p : p < n -> nth p sigma 0 < n /\ in_b (nth (nth p sigma 0) la d) = in_b (nth p la d).
Proof.
  intros Hpn. destruct (in_b (nth p la d)) eqn:Hb.
  - destruct (sigma_shared_range p Hpn Hb) as (q & Hq & _ & ->).
    assert (Hi : In (nth (nth q oa 0) ti 0) ti) by (apply nth_In, oa_range, Hq).
    apply (ti_spec d eqb Heq la lb Na ti oi Hp) in Hi. destruct Hi as [H1 H2]. split; [exact H1|exact H2].
  - rewrite (proj2 (proj2 sigma_facts) p Hpn Hb). auto.
Qed.

Lemma sigma_perm : Permutation sigma (seq 0 n).
Proof.
  apply perm_seq_of; [apply sigma_facts| |intros p Hpn; apply sigma_keeps, Hpn].
  apply (NoDup_nth sigma 0). destruct sigma_facts as (Ls & Hs & Ho). rewrite Ls. intros i j Hi Hj E.
  destruct (in_b (nth i la d)) eqn:Bi; destruct (in_b (nth j la d)) eqn:Bj.
  - destruct (sigma_shared_range i Hi Bi) as (q & Hq & Ei & Si). destruct (sigma_shared_range j Hj Bj) as (r & Hr & Ej & Sj).
    rewrite Si, Sj in E.
    pose proof (proj1 (NoDup_nth ti 0) (ti_NoDup d la lb ti oi Hp) _ _ (oa_range q Hq) (oa_range r Hr) E) as E2.
    destruct (perm_seq_facts _ _ (argsortN_perm oi)) as (Lo & No & _). destruct lens as (L1 & L2 & L3).
    fold oa in No, Lo.
    assert (q = r) as -> by (apply (proj1 (NoDup_nth oa 0) No); [lia|lia|exact E2]). congruence.
  - pose proof (sigma_keeps i Hi) as [_ A]. pose proof (sigma_keeps j Hj) as [_ B]. rewrite E in A. congruence.
  - pose proof (sigma_keeps i Hi) as [_ A]. pose proof (sigma_keeps j Hj) as [_ B]. rewrite E in A. congruence.
  - rewrite (Ho i Hi Bi), (Ho j Hj Bj) in E. exact E.
Qed.

Definition new := new_in eqb la lb.
Definition padded := take d la sigma ++ take d lb new.
Definition stale := la ++ take d lb new.
Definition t2o := nonzero in_b stale.

Lemma new_spec i : In i new <-> i < length lb /\ ~ In (nth i lb d) la.
Proof.
  unfold new, new_in. rewrite (nonzero_spec d). rewrite negb_true_iff, (memb_notIn eqb Heq). tauto.
Qed.
Lemma new_labels x : In x (take d lb new) <-> In x lb /\ ~ In x la.
Proof.
  unfold take. rewrite in_map_iff. split.
  - intros (i & <- & Hi). apply new_spec in Hi. split; [apply nth_In; apply Hi|apply Hi].
  - intros [Hx Ha]. destruct (In_nth _ _ d Hx) as (i & Hi & E). exists i. split; [exact E|]. apply new_spec. rewrite E. auto.
Qed.
Lemma new_NoDup : NoDup (take d lb new).
Proof. unfold new, new_in. rewrite take_nonzero_filter. apply NoDup_filter, Nb. Qed.

Lemma NoDup_app_intro {A} (a b : list A) : NoDup a -> NoDup b -> (forall x, In x a -> ~ In x b) -> NoDup (a ++ b).
Proof.
  induction a as [|x a IH]; intros N1 N2 H; [exact N2|]. inversion N1; subst. simpl. constructor.
  - rewrite in_app_iff. intros [Hc|Hc]; [contradiction|]. apply (H x); [left; reflexivity|exact Hc].
  - apply IH; [assumption|exact N2|]. intros y Hy. apply H. right. exact Hy.
Qed.

Lemma la_perm : Permutation (take d la sigma) la.
Proof. apply take_perm, sigma_perm. Qed.
Lemma padded_len : length padded = n + length new.
Proof. unfold padded. rewrite app_length, !take_length. f_equal. apply sigma_facts. Qed.
Lemma padded_NoDup : NoDup padded.
Proof.
  unfold padded. apply NoDup_app_intro; [apply (Permutation_NoDup (Permutation_sym la_perm)), Na|apply new_NoDup|].
  intros x Hx Hy. apply new_labels in Hy. apply (Permutation_in _ la_perm) in Hx. tauto.
Qed.
Lemma padded_In x : In x padded <-> In x la \/ In x lb.
Proof.
  unfold padded. rewrite in_app_iff, new_labels. split.
  - intros [H|[H _]]; [left; apply (Permutation_in _ la_perm), H|right; exact H].
  - intros [H|H]; [left; apply (Permutation_in _ (Permutation_sym la_perm)), H|].
    destruct (memb eqb x la) eqn:E; [|right; apply (memb_notIn eqb Heq) in E; auto].
    apply (memb_In eqb Heq) in E. left. apply (Permutation_in _ (Permutation_sym la_perm)), E.
Qed.

(** old labels occupy the first [n] places *)
Lemma padded_old p : p < n -> nth p padded d = nth (nth p sigma 0) la d.
Proof.
  intros H. unfold padded. rewrite app_nth1 by (rewrite take_length, (proj1 sigma_facts); exact H).
  apply nth_take. rewrite (proj1 sigma_facts). exact H.
Qed.
Lemma padded_new p : n <= p < length padded -> nth p padded d = nth (nth (p - n) new 0) lb d.
Proof.
  rewrite padded_len. intros H. unfold padded. rewrite app_nth2; rewrite take_length, (proj1 sigma_facts); [|lia].
  apply nth_take. lia.
Qed.
Lemma padded_lt p : p < length padded -> (In (nth p padded d) la <-> p < n).
Proof.
  intros H. destruct (Nat.lt_ge_cases p n) as [Hl|Hl].
  - rewrite padded_old by exact Hl. split; [auto|]. intros _. apply nth_In, sigma_keeps, Hl.
  - rewrite padded_new by lia. split; [|lia]. intros Hc. exfalso.
    assert (Hi : In (nth (p - n) new 0) new) by (apply nth_In; rewrite padded_len in H; lia).
    apply new_spec in Hi. tauto.
Qed.

Lemma t2o_padded : nonzero in_b padded = t2o.
Proof.
  unfold t2o, stale, padded, nonzero. rewrite !where_from_app, take_length, (proj1 sigma_facts). simpl. f_equal.
  apply where_from_ext; [rewrite take_length; apply sigma_facts|]. intros i x y Hx Hy.
  assert (Hi : i < n) by (apply nth_error_Some; rewrite Hy; discriminate).
  apply (nth_error_nth _ _ d) in Hx. apply (nth_error_nth _ _ d) in Hy.
  rewrite nth_take in Hx by (rewrite (proj1 sigma_facts); exact Hi). rewrite <- Hx, <- Hy. apply sigma_keeps, Hi.
Qed.

Lemma t2o_split : t2o = nonzero in_b la ++ seq n (length new).
Proof.
  unfold t2o, stale, nonzero. rewrite where_from_app. simpl. f_equal.
  rewrite where_from_seq; [rewrite take_length; reflexivity|]. intros x Hx. apply (memb_In eqb Heq). apply new_labels in Hx. tauto.
Qed.

Lemma shared_count : length (nonzero in_b la) = length (nonzero in_a lb).
Proof. rewrite <- ti_sorted, <- oi_sorted, !take_length. destruct lens as (A & B & C). lia. Qed.

Lemma lb_split : length (nonzero in_a lb) + length new = length lb.
Proof.
  unfold new, new_in. pose proof (nonzero_split_perm in_a lb) as P. apply Permutation_length in P.
  rewrite app_length, seq_length in P. exact P.
Qed.

Lemma t2o_length : length t2o = length lb.
Proof. rewrite t2o_split, app_length, seq_length, shared_count. apply lb_split. Qed.

Lemma t2o_spec p : In p t2o <-> p < length padded /\ In (nth p padded d) lb.
Proof. rewrite <- t2o_padded, (nonzero_spec d). unfold in_b. rewrite (memb_In eqb Heq). tauto. Qed.

(** On the axis of b, shared labels come first. *)
Definition first_shared := forall i j, i < j < length lb -> In (nth j lb d) la -> In (nth i lb d) la.

Lemma prefix_of (P : nat -> bool) m l : length l = m ->
  (forall i j, i < j < m -> P j = true -> P i = true) ->
  l = seq 0 m -> exists k, k <= m /\ filter P l = seq 0 k /\ filter (fun i => negb (P i)) l = seq k (m - k).
Proof.
  intros _ H ->. assert (G : forall a b, (forall i j, a <= i < j -> j < a + b -> P j = true -> P i = true) ->
    exists k, k <= b /\ filter P (seq a b) = seq a k /\ filter (fun i => negb (P i)) (seq a b) = seq (a + k) (b - k)).
  { clear. intros a b. revert a. induction b as [|b IH]; intros a H; [exists 0; simpl; auto|].
    destruct (IH (S a)) as (k & Hk & E1 & E2); [intros i j Hij Hj; apply H; lia|]. simpl. destruct (P a) eqn:E; simpl.
    - exists (S k). split; [lia|]. rewrite E1, E2. replace (a + S k) with (S a + k) by lia. auto.
    - assert (filter P (seq (S a) b) = []) as Z.
      { destruct (filter P (seq (S a) b)) as [|x t] eqn:F; [reflexivity|exfalso].
        assert (Hx : In x (filter P (seq (S a) b))) by (rewrite F; left; reflexivity).
        apply filter_In in Hx as [Hx Px]. apply in_seq in Hx. rewrite (H a x) in E; [discriminate|lia|lia|exact Px]. }
      exists 0. split; [lia|]. rewrite Z. rewrite Z in E1. destruct k; [|discriminate].
      rewrite E2. rewrite Nat.add_0_r, Nat.add_0_r, Nat.sub_0_r. split; reflexivity. }
  destruct (G 0 m) as (k & Hk & E1 & E2); [intros i j Hij Hj; apply H; lia|]. exists k. auto.
Qed.

Lemma nonzero_filter {A} (dd : A) (f : A -> bool) l : nonzero f l = filter (fun i => f (nth i l dd)) (seq 0 (length l)).
Proof.
  symmetry. apply (nonzero_unique dd); [apply StronglySorted_filter, Sorting.seq_sorted|].
  intros i. rewrite filter_In, in_seq. intuition lia.
Qed.

Lemma prefix_split : first_shared -> exists m, m <= length lb /\ nonzero in_a lb = seq 0 m /\ new = seq m (length lb - m).
Proof.
  intros H. destruct (prefix_of (fun i => in_a (nth i lb d)) (length lb) (seq 0 (length lb))) as (m & Hm & E1 & E2);
    [apply seq_length| |reflexivity|].
  - unfold in_a. intros i j Hij Hj. apply (memb_In eqb Heq). apply (memb_In eqb Heq) in Hj. apply (H i j Hij Hj).
  - exists m. split; [exact Hm|]. unfold new, new_in. rewrite !(nonzero_filter d). split; [exact E1|exact E2].
Qed.

Lemma t2o_label q : first_shared -> q < length lb -> nth (nth q t2o 0) padded d = nth q lb d.
Proof.
  intros Hs Hq. destruct (prefix_split Hs) as (m & Hm & Em & En).
  assert (Lm : length (nonzero in_b la) = m) by (rewrite shared_count, Em, seq_length; reflexivity).
  rewrite t2o_split. destruct (Nat.lt_ge_cases q m) as [Hl|Hl].
  - rewrite app_nth1 by lia.
    assert (Lt : length ti = m) by (rewrite <- Lm, <- ti_sorted, take_length; symmetry; apply lens).
    assert (Hi : In (nth q (nonzero in_b la) 0) (nonzero in_b la)) by (apply nth_In; lia).
    apply nonzero_lt in Hi. rewrite padded_old by exact Hi.
    rewrite (proj1 (proj2 sigma_facts)) by lia.
    destruct Hp as (both & N & I & L1 & L2 & H). assert (Hoa : nth q oa 0 < length ti) by (apply oa_range; lia).
    destruct (H (nth q oa 0)) as (_ & -> & _ & <-); [lia|]. f_equal.
    rewrite <- (nth_take 0 0 oi oa) by (destruct lens as (_ & _ & ->); lia). rewrite oi_sorted, Em, seq_nth by exact Hl. reflexivity.
  - rewrite app_nth2 by lia. rewrite Lm. assert (Lnew : length new = length lb - m) by (rewrite En, seq_length; reflexivity).
    rewrite seq_nth by lia. rewrite padded_new by (rewrite padded_len; lia).
    replace (n + (q - m) - n) with (q - m) by lia. rewrite En, seq_nth by lia. f_equal. lia.
Qed.

(** Where the data of label [x] are put. *)
Lemma t2o_find p : first_shared -> p < length padded ->
  match index_of Nat.eqb p t2o with
  | Some q => q < length lb /\ nth q lb d = nth p padded d
  | None => ~ In (nth p padded d) lb
  end.
Proof.
  intros Hs H. destruct (index_of Nat.eqb p t2o) as [q|] eqn:E.
  - apply (index_of_Some Nat.eqb Nat.eqb_eq 0) in E. destruct E as (Hq & E & _). rewrite t2o_length in Hq.
    split; [exact Hq|]. rewrite <- (t2o_label q Hs Hq), E. reflexivity.
  - apply (index_of_None Nat.eqb Nat.eqb_eq) in E. intros Hc. apply E, t2o_spec. auto.
Qed.
End Merge.
