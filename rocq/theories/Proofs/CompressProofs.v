(** Averaging redundant baselines. *)
From Coq Require Import List ZArith QArith Qcanon Bool Arith Lia Permutation Sorted.
From Verif Require Import Lib.Py Lib.Np Lib.Cube Lib.Sorting Lib.QSum Model.FreqAvg Model.Redundancy Model.Compress Spec.RedundancySpec Spec.CompressSpec Proofs.RedundancyProofs.
Import ListNotations.
Open Scope Z_scope.
Open Scope list_scope.

(** ** One cluster *)
Section Cluster.
Context (tol : Z) (Ht : 0 < tol) (times : list Z).
Let n := length times.
Let T (k : nat) : Z := nth k times 0.
Let vecs := map (fun t => [t]) times.
Let ids := map Z.of_nat (seq 0 n).

Lemma near1 a b : near tol [a] [b] <-> Z.abs (a - b) < tol.
Proof. unfold near. cbn [sqdist]. rewrite Z.add_0_r, !Z.pow_2_r. split; [intros [_ H]; destruct (Z.abs_spec (a - b)) as [[_ ->]|[_ ->]]; nia|intros H; split; [exact Ht|]; destruct (Z.abs_spec (a - b)) as [[? E]|[? E]]; rewrite E in H; nia]. Qed.
Lemma linked1 i j : (i < n)%nat -> (j < n)%nat -> linked tol vecs i j <-> Z.abs (T i - T j) < tol.
Proof.
  intros Hi Hj. assert (V : forall k, (k < n)%nat -> nth k vecs [] = [T k]).
  { intros k Hk. unfold vecs, T. rewrite (nth_indep _ [] [0]) by (rewrite map_length; exact Hk). apply (map_nth (fun t => [t])). }
  unfold linked. rewrite (V i Hi), (V j Hj), near1. split; [intros [->|H]; [rewrite Z.sub_diag; exact Ht|exact H]|right; assumption].
Qed.
Lemma vecs_shaped : shaped 1 vecs.
Proof. split; [lia|]. intros w Hw. unfold vecs in Hw. apply in_map_iff in Hw. destruct Hw as (t & <- & _). reflexivity. Qed.
Lemma vecs_length : length vecs = n.
Proof. apply map_length. Qed.

Definition total (ig : list nat) : Z := fold_right Z.add 0 (map T ig).
Definition hits (ig : list nat) (t : Z) : Prop := Z.abs (Z.of_nat (length ig) * t - total ig) < Z.of_nat (length ig) * tol.

Lemma total_le ig a : (forall k, In k ig -> T k <= a) -> total ig <= Z.of_nat (length ig) * a.
Proof. unfold total. induction ig as [|k ig IH]; intros H; [cbn; lia|]. cbn [map fold_right length]. specialize (IH (fun k' Hk => H k' (or_intror Hk))). pose proof (H k (or_introl eq_refl)). nia. Qed.
Lemma total_ge ig a : (forall k, In k ig -> a <= T k) -> Z.of_nat (length ig) * a <= total ig.
Proof. unfold total. induction ig as [|k ig IH]; intros H; [cbn; lia|]. cbn [map fold_right length]. specialize (IH (fun k' Hk => H k' (or_intror Hk))). pose proof (H k (or_introl eq_refl)). nia. Qed.

Lemma hits_in ig k : isolated_clique tol vecs ig -> In k ig -> hits ig (T k).
Proof.
  intros (Ne & _ & Hb & Hc & _) Hk. unfold hits.
  assert (A : forall m, In m ig -> Z.abs (T k - T m) < tol).
  { intros m Hm. rewrite <- (linked1 k m); [apply Hc; assumption| |]; rewrite <- vecs_length; apply Hb; assumption. }
  assert (L : (0 < length ig)%nat) by (destruct ig; [contradiction|cbn; lia]).
  pose proof (total_le ig (T k + tol - 1)) as U. pose proof (total_ge ig (T k - tol + 1)) as W.
  assert (U' : total ig <= Z.of_nat (length ig) * (T k + tol - 1)) by (apply U; intros m Hm; specialize (A m Hm); lia).
  assert (W' : Z.of_nat (length ig) * (T k - tol + 1) <= total ig) by (apply W; intros m Hm; specialize (A m Hm); lia).
  apply Z.abs_lt. split; nia.
Qed.
Lemma hits_out ig k : isolated_clique tol vecs ig -> (k < n)%nat -> hits ig (T k) -> In k ig.
Proof.
  intros (Ne & _ & Hb & Hc & Hi) Lk H. destruct (in_dec Nat.eq_dec k ig) as [I|NI]; [exact I|]. exfalso. rewrite vecs_length in Hb, Hi.
  assert (A : forall m, In m ig -> tol <= Z.abs (T k - T m)).
  { intros m Hm. destruct (Z_lt_le_dec (Z.abs (T k - T m)) tol) as [L|L]; [|exact L]. exfalso. apply NI, (Hi m k Hm Lk). apply linked1; [apply Hb, Hm|exact Lk|lia]. }
  destruct ig as [|m0 ig']; [contradiction|]. set (ig := m0 :: ig') in *. assert (H0 : In m0 ig) by (left; reflexivity).
  assert (B : forall m, In m ig -> Z.abs (T m0 - T m) < tol) by (intros m Hm; apply linked1; [apply Hb, H0|apply Hb, Hm|apply Hc; assumption]).
  unfold hits in H. assert (L : (0 < length ig)%nat) by (cbn; lia). pose proof (A m0 H0) as A0.
  destruct (Z_le_gt_dec (T m0) (T k)) as [C|C].
  - assert (U : total ig <= Z.of_nat (length ig) * (T k - tol)) by (apply total_le; intros m Hm; specialize (A m Hm); specialize (B m Hm); lia). nia.
  - assert (W : Z.of_nat (length ig) * (T k + tol) <= total ig) by (apply total_ge; intros m Hm; specialize (A m Hm); specialize (B m Hm); lia). nia.
Qed.

(** The class of [k] is a cluster if being near is transitive. *)
Definition class (k : nat) : list nat := filter (fun m => Z.abs (T k - T m) <? tol) (seq 0 n).
Lemma class_clique k : (forall a b c, (a < n)%nat -> (b < n)%nat -> (c < n)%nat -> Z.abs (T a - T b) < tol -> Z.abs (T b - T c) < tol -> Z.abs (T a - T c) < tol) ->
  (k < n)%nat -> isolated_clique tol vecs (class k).
Proof.
  intros Tr Hk. assert (I : forall m, In m (class k) <-> (m < n)%nat /\ Z.abs (T k - T m) < tol).
  { intros m. unfold class. rewrite filter_In, in_seq, Z.ltb_lt. intuition lia. }
  split; [|split; [|split; [|split]]].
  - intros E. assert (H : In k (class k)) by (apply I; split; [exact Hk|lia]). rewrite E in H. contradiction.
  - apply StronglySorted_filter. clear. generalize 0%nat. induction n as [|q IH]; intros a; [constructor|]. cbn [seq]. constructor; [apply IH|]. apply Forall_forall. intros x Hx. apply in_seq in Hx. lia.
  - intros i Hi. rewrite vecs_length. apply I, Hi.
  - intros i j Hi Hj. apply I in Hi, Hj. apply linked1; [apply Hi|apply Hj|]. apply (Tr i k j); [apply Hi|exact Hk|apply Hj|lia|apply Hj].
  - intros i j Hi Hj L. rewrite vecs_length in Hj. apply I in Hi. apply linked1 in L; [|apply Hi|exact Hj]. apply I. split; [exact Hj|]. apply (Tr k i j); [exact Hk|apply Hi|exact Hj|apply Hi|exact L].
Qed.

Lemma ids_nth i : (i < n)%nat -> nth i ids 0 = Z.of_nat i.
Proof. intros H. unfold ids. change 0 with (Z.of_nat 0). rewrite map_nth, seq_nth by exact H. reflexivity. Qed.
Lemma ids_perm ig gp : (forall i, In i ig -> (i < n)%nat) -> ids_of ids ig gp -> Permutation (map Z.to_nat gp) ig.
Proof.
  intros Hb [P _]. transitivity (map Z.to_nat (map (fun i => nth i ids 0) ig)); [apply Permutation_map, P|].
  rewrite map_map. rewrite (map_ext_in _ (fun i => i)); [rewrite map_id; apply Permutation_refl|]. intros i Hi. rewrite ids_nth by (apply Hb, Hi). apply Nat2Z.id.
Qed.
End Cluster.

(** ** The average does not depend on the order of its rows *)
Lemma forallb_perm {A} (p : A -> bool) a b : Permutation a b -> forallb p a = forallb p b.
Proof. induction 1; cbn; [reflexivity|congruence|rewrite !andb_assoc, (andb_comm (p y)); reflexivity|congruence]. Qed.
Lemma filter_perm {A} (p : A -> bool) a b : Permutation a b -> Permutation (filter p a) (filter p b).
Proof.
  induction 1 as [|x a b P IH|x y a|a b c P1 I1 P2 I2]; cbn [filter]; [constructor|destruct (p x); [constructor|]; exact IH| |transitivity (filter p b); assumption].
  destruct (p x), (p y); try apply Permutation_refl. constructor.
Qed.
Lemma counted_perm v a b j p : Permutation a b -> Permutation (counted v a j p) (counted v b j p).
Proof. intros P. unfold counted, all_flagged. rewrite (forallb_perm _ a b P). apply filter_perm, P. Qed.
Lemma sum_ns_perm v a b j p : Permutation a b -> sum_ns v a j p = sum_ns v b j p.
Proof. intros P. unfold sum_ns. apply qsum_perm, Permutation_map, counted_perm, P. Qed.
Lemma avg_vis_perm v a b j p : Permutation a b -> avg_vis v a j p = avg_vis v b j p.
Proof.
  intros P. unfold avg_vis. rewrite (sum_ns_perm v a b j p P). f_equal. unfold csum. pose proof (counted_perm v a b j p P) as C.
  f_equal; apply qsum_perm; repeat apply Permutation_map; exact C.
Qed.

(** ** Steps *)
Section Steps.
Context (tol : Z) (conjs : list Z) (v : cvis) (bl' tm' : list Z).
Definition these (ms : list (nat * bool)) (gp : list Z) := map (fun k => nth (Z.to_nat k) ms (0%nat, false)) gp.
Definition targets (ms : list (nat * bool)) (head : Z) (gp : list Z) : list nat :=
  filter (fun o => Z.abs (Z.of_nat (length (these ms gp)) * nth o tm' 0 - fold_right Z.add 0 (map (fun m => nth (fst m) (c_time v) 0) (these ms gp)))
                   <? Z.of_nat (length (these ms gp)) * tol) (rows_of bl' head).
Definition at_row (t : temp) (o j p : nat) : cqc * bool * Qc := (t_data t o j p, t_flag t o j p, t_ns t o j p).
Definition value (ms : list (nat * bool)) (o j p : nat) : cqc * bool * Qc :=
  (if isinZ (nth o bl' 0) conjs then cconj (avg_vis v ms j p) else avg_vis v ms j p, forallb (fun m => c_flag v (fst m) j p) ms, sum_ns v ms j p).

Lemma step_hit ms head t gp o j p : targets ms head gp = [o] -> at_row (time_step tol conjs v bl' tm' ms head t gp) o j p = value (these ms gp) o j p.
Proof. intros H. unfold time_step. fold (these ms gp). cbv zeta. unfold targets in H. rewrite H. unfold at_row, value. cbn [t_data t_flag t_ns]. rewrite Nat.eqb_refl. reflexivity. Qed.
Lemma step_miss ms head t gp o j p : targets ms head gp <> [o] -> at_row (time_step tol conjs v bl' tm' ms head t gp) o j p = at_row t o j p.
Proof.
  intros H. unfold time_step. fold (these ms gp). cbv zeta. unfold targets in H. destruct (filter _ _) as [|o' [|o'' l]]; try reflexivity.
  unfold at_row. cbn [t_data t_flag t_ns]. rewrite (proj2 (Nat.eqb_neq o o')) by congruence. reflexivity.
Qed.
Lemma fold_miss ms head gps o j p : (forall gp, In gp gps -> targets ms head gp <> [o]) -> forall t, at_row (fold_left (time_step tol conjs v bl' tm' ms head) gps t) o j p = at_row t o j p.
Proof.
  induction gps as [|gp gps IH]; intros H t; [reflexivity|]. cbn [fold_left]. rewrite IH by (intros g Hg; apply H; right; exact Hg). apply step_miss, H. left; reflexivity.
Qed.
Lemma fold_hit ms head l1 gp l2 o j p : targets ms head gp = [o] -> (forall g, In g l2 -> targets ms head g <> [o]) ->
  forall t, at_row (fold_left (time_step tol conjs v bl' tm' ms head) (l1 ++ gp :: l2) t) o j p = value (these ms gp) o j p.
Proof. intros H H2 t. rewrite fold_left_app. cbn [fold_left]. rewrite fold_miss by exact H2. apply step_hit, H. Qed.
End Steps.

(** ** Rows of a group *)
Lemma rows_of_spec bls b i : In i (rows_of bls b) <-> (i < length bls)%nat /\ nth i bls 0 = b.
Proof. unfold rows_of. rewrite (nonzero_spec 0), Z.eqb_eq. intuition congruence. Qed.

Definition tag (conjs : list Z) (v : cvis) (i : nat) : nat * bool := (i, isinZ (bl_at v i) conjs).
Lemma members_spec conjs v g m : In m (members conjs v g) <-> exists i, m = tag conjs v i /\ (i < length (c_bl v))%nat /\ In (bl_at v i) g.
Proof.
  unfold members. rewrite in_app_iff, !in_flat_map. split.
  - intros [(b & Hb & Hm)|(b & Hb & Hm)]; apply filter_In in Hb; destruct Hb as [Hb Hc]; apply in_map_iff in Hm; destruct Hm as (i & <- & Hi); apply rows_of_spec in Hi; destruct Hi as [Hi E];
      exists i; unfold tag, bl_at; rewrite E; (split; [|split; [exact Hi|exact Hb]]); [apply negb_true_iff in Hc|]; rewrite Hc; reflexivity.
  - intros (i & -> & Hi & Hb). unfold tag. destruct (isinZ (bl_at v i) conjs) eqn:E; [right|left]; exists (bl_at v i); (split; [apply filter_In; split; [exact Hb|rewrite E; reflexivity]|]);
      apply in_map_iff; exists i; (split; [reflexivity|apply rows_of_spec; split; [exact Hi|reflexivity]]).
Qed.
Lemma NoDup_flat {A B} (f : A -> list B) l : NoDup l -> (forall a, NoDup (f a)) -> (forall a b x, In a l -> In b l -> In x (f a) -> In x (f b) -> a = b) -> NoDup (flat_map f l).
Proof.
  induction l as [|a l IH]; intros ND Hf Hd; [constructor|]. apply NoDup_cons_iff in ND. destruct ND as [N ND]. cbn [flat_map].
  assert (G : forall (u w : list B), NoDup u -> NoDup w -> (forall x, In x u -> ~ In x w) -> NoDup (u ++ w)).
  { clear. induction u as [|x u IH]; intros w Hu Hw D; [exact Hw|]. apply NoDup_cons_iff in Hu. destruct Hu as [Nx Hu]. cbn [app]. constructor.
    - rewrite in_app_iff. intros [K|K]; [contradiction|]. apply (D x); [left; reflexivity|exact K].
    - apply IH; [exact Hu|exact Hw|]. intros y Hy. apply D. right; exact Hy. }
  apply G; [apply Hf|apply IH; [exact ND|exact Hf|intros x y z Hx Hy; apply Hd; right; assumption]|].
  intros x Hx K. apply in_flat_map in K. destruct K as (b & Hb & Hxb). apply N. rewrite (Hd a b x); [exact Hb|left; reflexivity|right; exact Hb|exact Hx|exact Hxb].
Qed.
Lemma members_NoDup conjs v g : NoDup g -> NoDup (members conjs v g).
Proof.
  intros ND. unfold members.
  assert (H : forall (c : bool) (q : Z -> bool), NoDup (flat_map (fun b => map (fun i => (i, c)) (rows_of (c_bl v) b)) (filter q g))).
  { intros c q. apply NoDup_flat.
    - apply NoDup_filter, ND.
    - intros b. apply FinFun.Injective_map_NoDup; [intros x y E; congruence|apply nonzero_NoDup].
    - intros a b x _ _ Ha Hb. apply in_map_iff in Ha, Hb. destruct Ha as (i & <- & Hi), Hb as (k & E & Hk). injection E as ->. apply rows_of_spec in Hi, Hk. destruct Hi as [_ <-], Hk as [_ <-]. reflexivity. }
  assert (G : forall (u w : list (nat * bool)), NoDup u -> NoDup w -> (forall x, In x u -> ~ In x w) -> NoDup (u ++ w)).
  { clear. induction u as [|x u IH]; intros w Hu Hw D; [exact Hw|]. apply NoDup_cons_iff in Hu. destruct Hu as [Nx Hu]. cbn [app]. constructor.
    - rewrite in_app_iff. intros [K|K]; [contradiction|]. apply (D x); [left; reflexivity|exact K].
    - apply IH; [exact Hu|exact Hw|]. intros y Hy. apply D. right; exact Hy. }
  apply G; [apply H|apply H|]. intros x Hx K. apply in_flat_map in Hx, K. destruct Hx as (b & _ & Hx), K as (c & _ & K). apply in_map_iff in Hx, K.
  destruct Hx as (i & <- & _), K as (k & E & _). discriminate.
Qed.

(** ** One group *)
Lemma these_perm n ms gp ig : Permutation (map Z.to_nat gp) ig -> length ms = n -> Permutation (these ms gp) (map (fun k => nth k ms (0%nat, false)) ig).
Proof. intros P _. unfold these. rewrite <- (map_map Z.to_nat (fun k => nth k ms (0%nat, false))). apply Permutation_map, P. Qed.
Lemma zsum_perm a b : Permutation a b -> fold_right Z.add 0 a = fold_right Z.add 0 b.
Proof. induction 1; cbn [fold_right]; lia. Qed.
Lemma nth_In_unique {A} (d : A) l i k : NoDup l -> (i < length l)%nat -> (k < length l)%nat -> nth i l d = nth k l d -> i = k.
Proof. intros ND Hi Hk E. apply (proj1 (NoDup_nth l d) ND i k Hi Hk E). Qed.
Lemma map_nth_NoDup {A} (d : A) l ig : NoDup l -> NoDup ig -> (forall i, In i ig -> (i < length l)%nat) -> NoDup (map (fun k => nth k l d) ig).
Proof.
  intros ND. induction ig as [|i ig IH]; intros Hn Hb; [constructor|]. apply NoDup_cons_iff in Hn. destruct Hn as [N Hn]. cbn [map]. constructor.
  - intros K. apply in_map_iff in K. destruct K as (k & E & Hk). apply N. rewrite <- (nth_In_unique d l k i); [exact Hk|exact ND|apply Hb; right; exact Hk|apply Hb; left; reflexivity|exact E].
  - apply IH; [exact Hn|]. intros k Hk. apply Hb. right; exact Hk.
Qed.
Lemma filter_single {A} (eqd : forall a b : A, {a = b} + {a <> b}) (p : A -> bool) l o : NoDup l -> In o l -> p o = true -> (forall x, In x l -> p x = true -> x = o) -> filter p l = [o].
Proof.
  induction l as [|x l IH]; intros ND Ho Po U; [contradiction|]. apply NoDup_cons_iff in ND. destruct ND as [N ND]. cbn [filter].
  destruct (p x) eqn:E.
  - assert (x = o) by (apply U; [left; reflexivity|exact E]). subst x. f_equal. clear IH Ho. induction l as [|y l IH]; [reflexivity|]. cbn [filter].
    destruct (p y) eqn:Ey; [|apply IH].
    + exfalso. apply N. left. apply U; [right; left; reflexivity|exact Ey].
    + intros K. apply N. right; exact K.
    + apply NoDup_cons_iff in ND. apply ND.
    + intros z Hz. apply U. destruct Hz as [->|Hz]; [left; reflexivity|right; right; exact Hz].
  - destruct Ho as [->|Ho]; [congruence|]. apply IH; [exact ND|exact Ho|exact Po|]. intros y Hy. apply U. right; exact Hy.
Qed.
Lemma concat_once {A} (ls1 : list (list A)) l ls2 l' x : NoDup (concat (ls1 ++ l :: ls2)) -> In x l -> In l' (ls1 ++ ls2) -> ~ In x l'.
Proof.
  intros ND Hx Hl K. rewrite concat_app in ND. cbn [concat] in ND. apply in_app_iff in Hl.
  assert (P : Permutation (concat ls1 ++ l ++ concat ls2) (l ++ concat ls1 ++ concat ls2)) by apply Permutation_app_swap_app.
  pose proof (Permutation_NoDup P ND) as N. assert (I : In x (concat ls1 ++ concat ls2)).
  { apply in_app_iff. destruct Hl as [Hl|Hl]; [left|right]; apply in_concat; exists l'; split; assumption. }
  clear -N Hx I. induction l as [|y l IH]; [contradiction|]. cbn [app] in N. apply NoDup_cons_iff in N. destruct N as [N1 N2]. destruct Hx as [->|Hx].
  - apply N1, in_app_iff. right; exact I.
  - apply IH; assumption.
Qed.

Section Group.
Context (tol : Z) (Ht : 0 < tol) (conjs : list Z) (v : cvis) (kp : list nat) (g : list Z).
Context (HK : NoDup kp) (HB : forall i, In i kp -> (i < length (c_bl v))%nat) (HG : NoDup g) (Hh : In (hd 0 g) g).
Let bl' := take 0 (c_bl v) kp.
Let tm' := take 0 (c_time v) kp.
Let ms := members conjs v g.
Let times := map (fun m => nth (fst m) (c_time v) 0) ms.
Let d0 := (0%nat, false).

Lemma times_length : length times = length ms.
Proof. apply map_length. Qed.
Lemma times_nth k : (k < length ms)%nat -> nth k times 0 = time_at v (fst (nth k ms d0)).
Proof. intros H. unfold times. rewrite (nth_indep _ 0 (nth (fst d0) (c_time v) 0)) by (rewrite map_length; exact H). rewrite (map_nth (fun m => nth (fst m) (c_time v) 0)). reflexivity. Qed.
Lemma ms_nth k : (k < length ms)%nat -> exists i, nth k ms d0 = tag conjs v i /\ (i < length (c_bl v))%nat /\ In (bl_at v i) g.
Proof. intros H. apply members_spec, nth_In, H. Qed.
Lemma ms_pos i : (i < length (c_bl v))%nat -> In (bl_at v i) g -> exists k, (k < length ms)%nat /\ nth k ms d0 = tag conjs v i.
Proof. intros Hi Hb. apply In_nth. apply members_spec. exists i. repeat split; assumption. Qed.
Lemma bl'_rows o : In o (rows_of bl' (hd 0 g)) <-> (o < length kp)%nat /\ bl_at v (nth o kp 0%nat) = hd 0 g.
Proof.
  rewrite rows_of_spec. unfold bl'. rewrite take_length. unfold bl_at. split; intros [H E]; (split; [exact H|]); [rewrite <- E|rewrite <- E]; [symmetry|]; apply nth_take; exact H.
Qed.

Lemma targets_hits ig gp o : (forall i, In i ig -> (i < length ms)%nat) -> ids_of (map Z.of_nat (seq 0 (length times))) ig gp ->
  In o (targets tol v bl' tm' ms (hd 0 g) gp) <-> In o (rows_of bl' (hd 0 g)) /\ hits tol times ig (time_at v (nth o kp 0%nat)).
Proof.
  intros Hb Hi. pose proof (ids_perm times ig gp) as P. rewrite times_length in P. specialize (P Hb). rewrite times_length in Hi. specialize (P Hi).
  pose proof (these_perm (length ms) ms gp ig P eq_refl) as Q. unfold targets. rewrite filter_In. split; intros [A B]; (split; [exact A|]); apply bl'_rows in A; destruct A as [A _].
  - apply Z.ltb_lt in B. unfold tm' in B. rewrite nth_take in B by exact A. unfold hits. rewrite (Permutation_length Q), map_length in B.
    unfold total. replace (fold_right Z.add 0 (map (fun k => nth k times 0) ig)) with (fold_right Z.add 0 (map (fun m => nth (fst m) (c_time v) 0) (these ms gp))); [exact B|].
    rewrite (zsum_perm _ _ (Permutation_map (fun m => nth (fst m) (c_time v) 0) Q)). rewrite map_map. f_equal. apply map_ext_in. intros k Hk. symmetry. apply times_nth, Hb, Hk.
  - apply Z.ltb_lt. unfold tm'. rewrite nth_take by exact A. unfold hits in B. rewrite (Permutation_length Q), map_length.
    unfold total in B. replace (fold_right Z.add 0 (map (fun k => nth k times 0) ig)) with (fold_right Z.add 0 (map (fun m => nth (fst m) (c_time v) 0) (these ms gp))) in B; [exact B|].
    rewrite (zsum_perm _ _ (Permutation_map (fun m => nth (fst m) (c_time v) 0) Q)). rewrite map_map. f_equal. apply map_ext_in. intros k Hk. symmetry. apply times_nth, Hb, Hk.
Qed.

Lemma group_hit o r t t' j p : (o < length kp)%nat -> nth o kp 0%nat = r -> bl_at v r = hd 0 g -> no_chains tol g v -> only_row tol v r ->
  group_step tol conjs v bl' tm' t g = Ok t' -> exists l, Permutation l (map (tag conjs v) (joined tol g v r)) /\ at_row t' o j p = value conjs v bl' l o j p.
Proof.
  intros Lo Er Eb NC OR H. unfold group_step in H. fold ms in H. fold times in H. cbv zeta in H. apply bind_Ok in H. destruct H as (gps & Ec & H). injection H as <-.
  destruct (clusters_spec _ _ _ _ _ _ (vecs_shaped times) Ec) as (igs & F2 & ND & HI & _).
  assert (Lr : (r < length (c_bl v))%nat) by (rewrite <- Er; apply HB, nth_In, Lo).
  destruct (ms_pos r Lr) as (k0 & Lk & Ek); [rewrite Eb; exact Hh|].
  assert (B : forall ig, isolated_clique tol (map (fun t => [t]) times) ig -> forall i, In i ig -> (i < length ms)%nat).
  { intros ig (_ & _ & Hb & _) i Hi. specialize (Hb i Hi). rewrite map_length, times_length in Hb. exact Hb. }
  assert (Tk : nth k0 times 0 = time_at v r) by (rewrite times_nth, Ek by exact Lk; reflexivity).
  set (C := class tol times k0).
  assert (IC : isolated_clique tol (map (fun t => [t]) times) C).
  { apply class_clique; [exact Ht| |rewrite times_length; exact Lk]. rewrite times_length. intros a b c Ha Hb Hc. rewrite !times_nth by assumption.
    destruct (ms_nth a Ha) as (ia & -> & Ha1 & Ha2), (ms_nth b Hb) as (ib & -> & Hb1 & Hb2), (ms_nth c Hc) as (ic & -> & Hc1 & Hc2). cbn [tag fst]. apply NC; assumption. }
  pose proof (proj2 (HI C) IC) as In1. apply in_split in In1. destruct In1 as (i1 & i2 & ->). apply Forall2_app_inv_l in F2. destruct F2 as (g1 & g2' & F1 & F2 & ->).
  inversion F2 as [|? gp ? g2 Hgp F2' E1 E2]. subst g2'. clear F2 E1.
  assert (KC : In k0 C) by (apply filter_In; split; [apply in_seq; rewrite times_length; lia|apply Z.ltb_lt; lia]).
  assert (Ro : In o (rows_of bl' (hd 0 g))) by (apply bl'_rows; rewrite Er; split; assumption).
  assert (Miss : forall gp', In gp' g2 -> targets tol v bl' tm' ms (hd 0 g) gp' <> [o]).
  { intros gp' Hg' K. apply In_nth with (d := []) in Hg'. destruct Hg' as (q & Lx & Ex).
    assert (exists ig', In ig' i2 /\ ids_of (map Z.of_nat (seq 0 (length times))) ig' gp') as (ig' & Hi' & Hid).
    { clear -F2' Lx Ex. revert q Lx Ex. induction F2' as [|a b l l' Hab F IH]; intros [|x] Lx Ex; cbn in Lx; try lia; cbn in Ex.
      - subst b. exists a. split; [left; reflexivity|exact Hab].
      - destruct (IH x) as (ig' & ? & ?); [lia|exact Ex|]. exists ig'. split; [right; assumption|assumption]. }
    assert (IC' : isolated_clique tol (map (fun t => [t]) times) ig') by (apply HI, in_app_iff; right; right; exact Hi').
    assert (Io : In o (targets tol v bl' tm' ms (hd 0 g) gp')) by (rewrite K; left; reflexivity).
    apply (targets_hits ig' gp' o (B ig' IC') Hid) in Io. destruct Io as [_ Hh']. rewrite Er, <- Tk in Hh'.
    apply (hits_out tol Ht times ig' k0 IC') in Hh'; [|rewrite times_length; exact Lk]. revert Hh'. apply (concat_once i1 C i2 ig' k0 ND KC). apply in_app_iff. right; exact Hi'. }
  assert (Hit : targets tol v bl' tm' ms (hd 0 g) gp = [o]).
  { unfold targets. apply filter_single; [exact Nat.eq_dec|apply nonzero_NoDup|exact Ro| |].
    - assert (Io : In o (targets tol v bl' tm' ms (hd 0 g) gp)).
      { apply (targets_hits C gp o (B C IC) Hgp). split; [exact Ro|]. rewrite Er, <- Tk. apply hits_in; assumption. }
      unfold targets in Io. apply filter_In in Io. apply Io.
    - intros o' Ro' Ho'. assert (Io : In o' (targets tol v bl' tm' ms (hd 0 g) gp)) by (unfold targets; apply filter_In; split; assumption).
      apply (targets_hits C gp o' (B C IC) Hgp) in Io. destruct Io as [_ Hh']. apply bl'_rows in Ro'. destruct Ro' as [Lo' Eb'].
      set (r' := nth o' kp 0%nat) in *. assert (Lr' : (r' < length (c_bl v))%nat) by (apply HB, nth_In, Lo').
      destruct (ms_pos r' Lr') as (k' & Lk' & Ek'); [rewrite Eb'; exact Hh|].
      assert (Tk' : nth k' times 0 = time_at v r') by (rewrite times_nth, Ek' by exact Lk'; reflexivity). rewrite <- Tk' in Hh'.
      apply (hits_out tol Ht times C k' IC) in Hh'; [|rewrite times_length; exact Lk']. apply filter_In in Hh'. destruct Hh' as [_ Hn]. apply Z.ltb_lt in Hn. rewrite Tk, Tk' in Hn.
      assert (r' = r) by (apply OR; [exact Lr'|congruence|unfold near_in_time; lia]).
      apply (nth_In_unique 0%nat kp); [exact HK|exact Lo'|exact Lo|]. rewrite Er. assumption. }
  exists (these ms gp). split; [|apply fold_hit; assumption].
  pose proof (ids_perm times C gp) as P. rewrite times_length in P. specialize (P (B C IC)). rewrite times_length in Hgp. specialize (P Hgp).
  transitivity (map (fun k => nth k ms d0) C); [apply (these_perm (length ms)); [exact P|reflexivity]|].
  apply NoDup_Permutation.
  - apply map_nth_NoDup; [apply members_NoDup, HG|apply NoDup_filter, seq_NoDup|apply B, IC].
  - apply FinFun.Injective_map_NoDup; [intros xx yy E; unfold tag in E; congruence|apply NoDup_filter, seq_NoDup].
  - intros m. rewrite !in_map_iff. split.
    + intros (k & <- & Hk). pose proof (B C IC k Hk) as Lk'. destruct (ms_nth k Lk') as (i & E & Li & Hi). exists i. split; [symmetry; exact E|]. apply filter_In. split; [apply in_seq; lia|].
      unfold joins. apply andb_true_iff. split; [apply existsb_exists; exists (bl_at v i); split; [exact Hi|apply Z.eqb_refl]|]. apply filter_In in Hk. destruct Hk as [_ Hk]. apply Z.ltb_lt in Hk. apply Z.ltb_lt.
      rewrite Tk, times_nth, E in Hk by exact Lk'. cbn [tag fst] in Hk. lia.
    + intros (i & <- & Hi). apply filter_In in Hi. destruct Hi as [Li Hi]. apply in_seq in Li. apply andb_true_iff in Hi. destruct Hi as [Hb Hn].
      apply existsb_exists in Hb. destruct Hb as (b & Hb & E). apply Z.eqb_eq in E. subst b.
      destruct (ms_pos i) as (k & Lk' & Ek'); [lia|exact Hb|]. exists k. split; [exact Ek'|]. apply filter_In. split; [apply in_seq; rewrite times_length; lia|].
      apply Z.ltb_lt in Hn. apply Z.ltb_lt. rewrite Tk, times_nth, Ek' by exact Lk'. cbn [tag fst]. lia.
Qed.

Lemma group_total t : g <> [] -> (forall b, In b g -> In b (c_bl v)) -> exists t', group_step tol conjs v bl' tm' t g = Ok t'.
Proof.
  intros Ne Hd. unfold group_step. fold ms. fold times. cbv zeta. destruct (clusters_total 1 (map Z.of_nat (seq 0 (length times))) (map (fun t => [t]) times) tol) as (gps & ->).
  - apply vecs_shaped.
  - intros E. apply map_eq_nil in E. apply map_eq_nil in E. specialize (Hd _ Hh). apply In_nth with (d := 0) in Hd. destruct Hd as (i & Li & Ei).
    destruct (ms_pos i Li) as (k & Lk & _); [unfold bl_at; rewrite Ei; exact Hh|]. rewrite E in Lk. cbn in Lk. lia.
  - cbn [bind]. eauto.
Qed.
End Group.

Lemma group_miss tol conjs v bl' tm' g t t' o j p : nth o bl' 0 <> hd 0 g -> group_step tol conjs v bl' tm' t g = Ok t' -> at_row t' o j p = at_row t o j p.
Proof.
  intros Hn H. unfold group_step in H. cbv zeta in H. apply bind_Ok in H. destruct H as (gps & _ & H). injection H as <-. apply fold_miss. intros gp _ K.
  assert (I : In o (targets tol v bl' tm' (members conjs v g) (hd 0 g) gp)) by (rewrite K; left; reflexivity). unfold targets in I. apply filter_In in I. destruct I as [I _]. apply rows_of_spec in I. apply Hn, I.
Qed.
