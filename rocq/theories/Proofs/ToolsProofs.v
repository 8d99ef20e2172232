From Coq Require Import List ZArith Bool Lia ZifyBool ZifyNat Sorted Permutation QArith String.
From Verif Require Import Lib.Py Lib.Np Lib.Sorting Lib.Slice Model.Tools Spec.ToolsSpec.
Import ListNotations.
Open Scope Z_scope.
Notation length := List.length.

(** ** _convert_to_slices *)
Definition cts_inv (n : Z) (p : list Z) (st : cts_state) : Prop :=
  exists done s, c_start st = Some s /\ slices_indices (c_slices st) n = Ok done /\
    match c_last_step st with
    | None => p = done ++ [s]
    | Some d => exists k, (2 <= k)%nat /\ 0 < d /\ p = done ++ arith s d k
                /\ c_last_ind st = s + d * (Z.of_nat k - 1)
    end.

Lemma last_app_one {A} (l : list A) x d : last (l ++ [x]) d = x.
Proof. induction l as [|a l IH]; [reflexivity|]. simpl. destruct (l ++ [x]) eqn:E; [destruct l; discriminate|exact IH]. Qed.

Lemma cts_loop_inv n p : p <> [] -> increasing_in n p ->
  cts_inv n p (fold_left cts_step p (mkcts None None 0 [])).
Proof.
  induction p as [|x p IH] using rev_ind; [congruence|]. intros _ [Hs Hb].
  rewrite fold_left_app. cbn [fold_left].
  apply StronglySorted_app in Hs as (Hs1 & _ & Hlt).
  apply Forall_app in Hb as (Hb1 & Hbx). inversion Hbx as [|? ? Hx _]; subst.
  destruct p as [|y p'].
  - exists [], x. simpl. auto.
  - remember (y :: p') as q eqn:Eq.
    assert (Hq : q <> []) by (subst; congruence).
    specialize (IH Hq (conj Hs1 Hb1)).
    destruct IH as (done & s & Est & Edone & Hcase).
    remember (fold_left cts_step q (mkcts None None 0 [])) as st eqn:Estate.
    unfold cts_step. rewrite Est.
    destruct (c_last_step st) as [d|] eqn:Els.
    + destruct Hcase as (k & Hk & Hd & Hp & Hli).
      destruct (x - c_last_ind st =? d) eqn:E; cbn [negb].
      * exists done, s. simpl. repeat split; auto. exists (S k). split; [lia|]. split; [lia|].
        split; [|lia]. rewrite arith_S. rewrite Hp, <- app_assoc. f_equal. f_equal. f_equal. lia.
      * exists (done ++ arith s d k), x. simpl. split; [reflexivity|]. split; [|rewrite Hp; reflexivity].
        apply slices_indices_app; [exact Edone|]. apply slices_indices_one.
        unfold mk. rewrite Hli. apply slice_arith; try lia.
        -- assert (In s q). { rewrite Hp. apply in_or_app. right. destruct k; [lia|]. rewrite arith_cons. left; reflexivity. }
           rewrite Forall_forall in Hb1. apply Hb1 in H. lia.
        -- assert (In (s + d * (Z.of_nat k - 1)) q).
           { rewrite Hp. apply in_or_app. right. destruct k; [lia|]. rewrite arith_S. apply in_or_app. right.
             left. lia. }
           rewrite Forall_forall in Hb1. apply Hb1 in H. lia.
    + rewrite Hcase in Hlt. exists done, s. simpl. repeat split; auto.
      exists 2%nat. split; [lia|].
      assert (s < x). { apply Hlt; [apply in_or_app; right; left; reflexivity|left; reflexivity]. }
      split; [lia|]. split; [|lia]. rewrite Hcase, <- app_assoc. f_equal. unfold arith. simpl. f_equal; [lia|]. f_equal. lia.
Qed.

Lemma cts_loop_correct n l : l <> [] -> increasing_in n l ->
  slices_indices (cts_loop l) n = Ok l.
Proof.
  intros Hne Hinc. unfold cts_loop.
  pose proof (cts_loop_inv n l Hne Hinc) as (done & s & Est & Edone & Hcase).
  rewrite Est. destruct Hinc as [_ Hb]. rewrite Forall_forall in Hb.
  destruct (c_last_step (fold_left cts_step l (mkcts None None 0 []))) as [d|].
  - destruct Hcase as (k & Hk & Hd & Hp & Hli).
    assert (Hlast : last l 0 = s + d * (Z.of_nat k - 1)).
    { rewrite Hp. destruct k; [lia|]. rewrite arith_S, app_assoc, last_app_one. lia. }
    rewrite Hlast. rewrite Hp at 2. apply slices_indices_app; [exact Edone|].
    apply slices_indices_one. unfold mk.
    apply slice_arith; try lia.
    + assert (In s l) as H. { rewrite Hp. apply in_or_app. right. destruct k; [lia|]. rewrite arith_cons. left; reflexivity. }
      apply Hb in H. lia.
    + assert (In (s + d * (Z.of_nat k - 1)) l) as H.
      { rewrite Hp. apply in_or_app. right. destruct k; [lia|]. rewrite arith_S. apply in_or_app. right. left. lia. }
      apply Hb in H. lia.
  - assert (Hlast : last l 0 = s) by (rewrite Hcase; apply last_app_one). rewrite Hlast.
    rewrite Hcase at 2. apply slices_indices_app; [exact Edone|]. apply slices_indices_one.
    unfold mk. apply slice_single. apply Hb. rewrite Hcase.
    apply in_or_app. right. left. reflexivity.
Qed.

Lemma all_positions_slices n l : all_positions n (map ISlice l) = slices_indices l n.
Proof.
  unfold all_positions, slices_indices. f_equal. induction l as [|s l IH]; simpl; [reflexivity|].
  rewrite IH. reflexivity.
Qed.

Lemma all_positions_one n ix i : positions n ix = Ok i -> all_positions n [ix] = Ok i.
Proof. intros H. unfold all_positions. simpl. rewrite H. simpl. rewrite app_nil_r. reflexivity. Qed.

Lemma all_diff_arith step l x : all_diff step (x :: l) = true -> x :: l = arith x step (S (length l)).
Proof.
  revert x; induction l as [|y l IH]; intros x H.
  - unfold arith. simpl. f_equal. lia.
  - cbn [all_diff] in H. apply andb_prop in H as [H1 H2].
    cbn [List.length]. rewrite arith_cons. f_equal. rewrite (IH y H2). f_equal. lia.
Qed.

Lemma two_elem_slice n e0 tl : increasing_in n (e0 :: tl) -> (length (e0 :: tl) <= 2)%nat ->
  slice_indices (mk e0 (last (e0 :: tl) 0 + 1) (Some (Z.max (last (e0 :: tl) 0 - e0) 1))) n = Ok (e0 :: tl).
Proof.
  intros [Hs Hb] Hl. inversion Hb as [|? ? He0 Hb']; subst.
  destruct tl as [|e1 [|? ?]]; simpl in Hl; try lia.
  - simpl. replace (Z.max (e0 - e0) 1) with 1 by lia. unfold mk.
    pose proof (slice_arith e0 1 1 n ltac:(lia) ltac:(lia) ltac:(lia) ltac:(lia)) as E.
    simpl Z.of_nat in E. replace (e0 + 1 * (1 - 1) + 1) with (e0 + 1) in E by lia. rewrite E.
    unfold arith. simpl. f_equal. f_equal. lia.
  - inversion Hb' as [|? ? He1 _]; subst. inversion Hs as [|? ? _ Hall]; subst.
    inversion Hall; subst. simpl. rewrite Z.max_l by lia. unfold mk.
    pose proof (slice_arith e0 (e1 - e0) 2 n ltac:(lia) ltac:(lia) ltac:(lia) ltac:(lia)) as E.
    simpl Z.of_nat in E. replace (e0 + (e1 - e0) * (2 - 1) + 1) with (e1 + 1) in E by lia. rewrite E.
    unfold arith. simpl. f_equal. f_equal; [lia|]. f_equal. lia.
Qed.

Lemma all_diff_slice n x l step : increasing_in n (x :: l) -> (1 <= length l)%nat ->
  step = hd 0 l - x -> all_diff step (x :: l) = true ->
  slice_indices (mk x (last (x :: l) 0 + 1) (Some step)) n = Ok (x :: l).
Proof.
  intros [Hs Hb] Hl Hstep Hd. pose proof (all_diff_arith _ _ _ Hd) as Ha.
  assert (Hpos : 0 < step).
  { destruct l as [|y l]; [simpl in Hl; lia|]. simpl in Hstep. inversion Hs as [|? ? _ Hall]; subst.
    inversion Hall; subst. lia. }
  assert (Hlast : last (x :: l) 0 = x + step * (Z.of_nat (S (length l)) - 1)).
  { rewrite Ha at 1. rewrite arith_S, last_app_one. lia. }
  rewrite Hlast. rewrite Ha. unfold mk. apply slice_arith; try lia.
  - inversion Hb; subst; lia.
  - assert (In (last (x :: l) 0) (x :: l)) as Hin.
    { destruct (exists_last (l := x :: l)) as (l' & a & E); [congruence|]. rewrite E, last_app_one.
      apply in_or_app. right; left; reflexivity. }
    rewrite Forall_forall in Hb. apply Hb in Hin. lia.
Qed.

Lemma convert_list_correct n l frac mx rif : l <> [] -> increasing_in n l ->
  all_positions n (fst (convert_to_slices (IList l) frac mx rif)) = Ok l.
Proof.
  intros Hne Hinc. unfold convert_to_slices. destruct l as [|e0 tl]; [congruence|].
  destruct (length (e0 :: tl) <=? 2)%nat eqn:E2.
  { apply all_positions_one. cbn [positions]. apply two_elem_slice; [assumption|lia]. }
  destruct (match mx with Some k => k =? 1 | None => false end && rif) eqn:E3.
  { destruct (all_diff (hd 0 tl - e0) (e0 :: tl)) eqn:Ed.
    - apply all_positions_one. cbn [positions]. apply all_diff_slice; auto. simpl in E2. lia.
    - apply all_positions_one. reflexivity. }
  match goal with |- context [if ?c then _ else _] => destruct c end.
  - apply all_positions_one. reflexivity.
  - cbn [fst]. rewrite all_positions_slices. apply cts_loop_correct; assumption.
Qed.

Lemma mask_increasing n m : Z.of_nat (length m) <= n ->
  increasing_in n (map Z.of_nat (nonzero (fun b : bool => b) m)).
Proof.
  intros H. split.
  - apply (proj1 (StronglySorted_map _ _ _)). eapply StronglySorted_impl; [|apply nonzero_sorted].
    simpl. intros; lia.
  - apply Forall_map. apply Forall_forall. intros i Hi. apply nonzero_lt in Hi. lia.
Qed.

Lemma convert_mask_correct n m frac mx rif : Z.of_nat (length m) <= n ->
  nonzero (fun b : bool => b) m <> [] ->
  all_positions n (fst (convert_to_slices (IMask m) frac mx rif)) = Ok (map Z.of_nat (nonzero (fun b : bool => b) m)).
Proof.
  intros Hn Hne. pose proof (mask_increasing n m Hn) as Hinc.
  unfold convert_to_slices.
  remember (map Z.of_nat (nonzero (fun b : bool => b) m)) as l eqn:El.
  assert (Hl : l <> []) by (rewrite El; intros Hc; apply map_eq_nil in Hc; congruence).
  destruct l as [|e0 tl]; [congruence|].
  destruct (length (e0 :: tl) <=? 2)%nat eqn:E2.
  { apply all_positions_one. cbn [positions]. apply two_elem_slice; [assumption|lia]. }
  destruct (match mx with Some k => k =? 1 | None => false end && rif) eqn:E3.
  { destruct (all_diff (hd 0 tl - e0) (e0 :: tl)) eqn:Ed.
    - apply all_positions_one. cbn [positions]. apply all_diff_slice; auto. simpl in E2. lia.
    - apply all_positions_one. cbn [positions]. rewrite El. reflexivity. }
  match goal with |- context [if ?c then _ else _] => destruct c end.
  - apply all_positions_one. cbn [positions]. rewrite El. reflexivity.
  - cbn [fst]. rewrite all_positions_slices. apply cts_loop_correct; assumption.
Qed.

(** The flag: with more than two indices and an explicit limit, success means
    the returned slices number at most the limit; failure returns the input when
    asked to, or more slices than the limit. *)
Lemma convert_flag l frac k rif out chk : (2 < length l)%nat ->
  convert_to_slices (IList l) frac (Some k) rif = (out, chk) -> 1 <= k ->
  (chk = true -> Z.of_nat (length out) <= k /\ Forall (fun ix => exists s, ix = ISlice s) out) /\
  (chk = false -> rif = true -> out = [IList l]) /\
  (chk = false -> rif = false -> k < Z.of_nat (length out)).
Proof.
  intros Hl H Hk. unfold convert_to_slices in H. destruct l as [|e0 tl]; [simpl in Hl; lia|].
  replace (length (e0 :: tl) <=? 2)%nat with false in H by lia.
  destruct ((k =? 1) && rif) eqn:E3.
  { destruct (all_diff (hd 0 tl - e0) (e0 :: tl)) eqn:Ed; injection H as <- <-.
    - split; [|split; discriminate]. intros _. simpl. split; [lia|]. repeat constructor. eauto.
    - split; [discriminate|]. split; [reflexivity|]. intros. subst rif. lia. }
  cbv zeta in H.
  destruct (Z.of_nat (length (cts_loop (e0 :: tl))) <=? k) eqn:Ec; cbn [negb] in H.
  - rewrite andb_false_r in H. injection H as <- <-. split; [|split; discriminate].
    intros _. rewrite map_length. split; [lia|]. apply Forall_map. apply Forall_forall. eauto.
  - destruct rif; simpl in H; injection H as <- <-.
    + split; [discriminate|]. split; [reflexivity|discriminate].
    + split; [discriminate|]. split; [discriminate|]. rewrite map_length. lia.
Qed.

Lemma convert_decreasing_wrong :
  exists l out, convert_to_slices (IList l) 1 None false = (out, true) /\
    all_positions 10 out <> Ok l /\ Forall (fun i => 0 <= i < 10) l /\ NoDup l.
Proof.
  exists [5; 2], [ISlice (mk 5 3 (Some 1))]. split; [vm_compute; reflexivity|].
  split; [vm_compute; congruence|]. split; [repeat constructor; lia|].
  repeat constructor; simpl; intuition lia.
Qed.

Lemma convert_duplicate_wrong :
  exists l out, convert_to_slices (IList l) 1 None false = (out, true) /\
    all_positions 10 out = Err ValueError /\ Sorted Z.le l /\ l <> [].
Proof.
  exists [1; 1; 2], [ISlice (mk 1 2 (Some 0)); ISlice (mk 2 3 None)].
  split; [vm_compute; reflexivity|]. split; [vm_compute; reflexivity|].
  split; [repeat constructor; lia|congruence].
Qed.

Lemma convert_empty : convert_to_slices (IList []) 1 None false = ([ISlice (mk 0 0 (Some 0))], false)
  /\ forall n, all_positions n [ISlice (mk 0 0 (Some 0))] = Err ValueError.
Proof. split; reflexivity. Qed.

(** ** slicify *)
Lemma slicify_correct n l : l <> [] -> increasing_in n l ->
  exists ix, slicify (Some (IList l)) = Some ix /\ positions n ix = Ok l.
Proof.
  intros Hne Hinc. destruct l as [|x [|y l]]; [congruence| |].
  - eexists. split; [reflexivity|]. cbn [positions]. unfold mk.
    destruct Hinc as [_ Hb]. inversion Hb; subst.
    pose proof (slice_arith x 1 1 n ltac:(lia) ltac:(lia) ltac:(lia) ltac:(lia)) as E.
    simpl Z.of_nat in E. replace (x + 1 * (1 - 1) + 1) with (x + 1) in E by lia. rewrite E.
    unfold arith. simpl. f_equal. f_equal. lia.
  - cbn [slicify]. destruct (all_diff (y - x) (x :: y :: l)) eqn:Ed.
    + eexists. split; [reflexivity|]. cbn [positions]. apply all_diff_slice; auto. simpl; lia.
    + eexists. split; reflexivity.
Qed.

Lemma slicify_none : slicify None = None /\ slicify (Some (IList [])) = None
  /\ (forall s, slicify (Some (ISlice s)) = Some (ISlice s)).
Proof. repeat split. Qed.

Lemma slicify_is_slice_iff n x y l : increasing_in n (x :: y :: l) ->
  (exists s, slicify (Some (IList (x :: y :: l))) = Some (ISlice s)) <->
  (exists step, x :: y :: l = arith x step (S (S (length l)))).
Proof.
  intros Hinc. cbn [slicify]. destruct (all_diff (y - x) (x :: y :: l)) eqn:Ed.
  - split; [intros _|eauto]. exists (y - x). apply all_diff_arith in Ed. exact Ed.
  - split; [intros (s & H); discriminate|]. intros (step & H). exfalso.
    assert (Hy : y = x + step).
    { change y with (nth 1 (x :: y :: l) 0). rewrite H, nth_arith by lia. lia. }
    assert (G : forall k a, all_diff step (arith a step k) = true).
    { induction k as [|k IHk]; intros a; [reflexivity|]. rewrite arith_cons. destruct k; [reflexivity|].
      specialize (IHk (a + step)). rewrite arith_cons in *. cbn [all_diff]. cbn [all_diff] in IHk. rewrite IHk.
      replace (a + step - a =? step) with true by lia. reflexivity. }
    rewrite H in Ed. replace (y - x) with step in Ed by lia. rewrite G in Ed. discriminate.
Qed.

Lemma slicify_decreasing_wrong :
  exists l ix, slicify (Some (IList l)) = Some ix /\ positions 10 ix <> Ok l
    /\ Forall (fun i => 0 <= i < 10) l /\ NoDup l.
Proof.
  exists [3; 2; 1], (ISlice (mk 3 2 (Some (-1)))). split; [reflexivity|].
  split; [vm_compute; congruence|]. split; [repeat constructor; lia|].
  repeat constructor; simpl; intuition lia.
Qed.

(** ** _get_slice_len *)
Lemma get_slice_len_correct s n l :
  match s_start s with None => True | Some v => 0 <= v end ->
  match s_stop s with None => True | Some v => 0 <= v end ->
  match s_step s with None => True | Some v => 0 < v end ->
  slice_indices s n = Ok l -> l <> [] -> 0 <= n ->
  get_slice_len s n = Ok (Z.of_nat (length l)).
Proof.
  intros H1 H2 H3 H Hne Hn. unfold slice_indices in H. unfold get_slice_len.
  set (step := match s_step s with Some k => k | None => 1 end) in *.
  assert (Hst : 0 < step) by (unfold step; destruct (s_step s); lia).
  replace (step =? 0) with false in * by lia. replace (step <? 0) with false in * by lia.
  cbv zeta in H. injection H as H.
  set (start := match s_start s with Some v => v | None => 0 end).
  set (stop := match s_stop s with Some v => Z.min v n | None => n end).
  assert (Hrange : l = py_range (if start >? n then n else start) stop step).
  { rewrite <- H. f_equal.
    - unfold start. destruct (s_start s) as [v|].
      + replace (v <? 0) with false by lia. cbv iota. replace (v <? 0) with false by lia. reflexivity.
      + replace (0 >? n) with false by lia. reflexivity.
    - unfold stop. destruct (s_stop s) as [v|]; [|reflexivity].
      replace (v <? 0) with false by lia. cbv iota. replace (v <? 0) with false by lia.
      destruct (v >? n) eqn:E; lia. }
  unfold py_range, range_len in Hrange. replace (step >? 0) with true in Hrange by lia.
  assert (Hstop : stop <= n) by (unfold stop; destruct (s_stop s); lia).
  destruct (start >? n) eqn:Esn.
  { replace (n <? stop) with false in Hrange by lia. subst l. contradiction. }
  destruct (start <? stop) eqn:Ess; [|subst l; contradiction].
  rewrite Hrange, arith_length. f_equal.
  rewrite Z2Nat.id. 2:{ pose proof (Z.div_pos (stop - start - 1) step). lia. }
  f_equal. f_equal. lia.
Qed.

Lemma get_slice_len_empty_wrong :
  exists s, slice_indices s 10 = Ok [] /\ get_slice_len s 10 = Ok (-5).
Proof. exists (mk 7 2 (Some 1)). split; reflexivity. Qed.

(** ** sorted-unique *)
Lemma union_spec o1 o2 :
  StronglySorted Z.lt (sorted_unique_union o1 o2) /\
  forall x, In x (sorted_unique_union o1 o2) <-> In x o1 \/ match o2 with Some l => In x l | None => False end.
Proof.
  unfold sorted_unique_union. destruct o2 as [l|]; (split; [apply uniqueZ_sorted|]; intros x; rewrite uniqueZ_In).
  - apply in_app_iff.
  - tauto.
Qed.
Lemma inter_spec o1 o2 :
  StronglySorted Z.lt (sorted_unique_intersection o1 o2) /\
  forall x, In x (sorted_unique_intersection o1 o2) <-> In x o1 /\ match o2 with Some l => In x l | None => True end.
Proof.
  unfold sorted_unique_intersection. destruct o2 as [l|]; (split; [apply uniqueZ_sorted|]; intros x; rewrite uniqueZ_In).
  - rewrite filter_In, isinZ_spec. tauto.
  - tauto.
Qed.
Lemma diff_spec o1 o2 :
  StronglySorted Z.lt (sorted_unique_difference o1 o2) /\
  forall x, In x (sorted_unique_difference o1 o2) <-> In x o1 /\ match o2 with Some l => ~ In x l | None => True end.
Proof.
  unfold sorted_unique_difference. destruct o2 as [l|]; (split; [apply uniqueZ_sorted|]; intros x; rewrite uniqueZ_In).
  - rewrite filter_In, negb_true_iff, isinZ_false. tauto.
  - tauto.
Qed.

(** ** filenames *)

Lemma ascii_compare_refl c : Ascii.compare c c = Eq.
Proof. unfold Ascii.compare. apply N.compare_refl. Qed.

Lemma scompare_refl x : String.compare x x = Eq.
Proof. induction x as [|c x IH]; simpl; [reflexivity|]. rewrite ascii_compare_refl. exact IH. Qed.

Lemma acompare_eq a b : Ascii.compare a b = Eq -> a = b.
Proof.
  unfold Ascii.compare. intros H. apply N.compare_eq_iff in H.
  rewrite <- (Ascii.ascii_N_embedding a), <- (Ascii.ascii_N_embedding b), H. reflexivity.
Qed.

Lemma acompare_lt_trans a b c : Ascii.compare a b = Lt -> Ascii.compare b c = Lt -> Ascii.compare a c = Lt.
Proof. unfold Ascii.compare. rewrite !N.compare_lt_iff. lia. Qed.

Lemma scompare_eq x y : String.compare x y = Eq -> x = y.
Proof.
  revert y; induction x as [|a x IH]; intros [|b y]; simpl; try discriminate; [reflexivity|].
  destruct (Ascii.compare a b) eqn:E; try discriminate. intros H. apply acompare_eq in E. subst.
  f_equal. auto.
Qed.

Lemma slt_irrefl x : ~ slt x x.
Proof. unfold slt. rewrite scompare_refl. discriminate. Qed.

Lemma slt_trans x y z : slt x y -> slt y z -> slt x z.
Proof.
  unfold slt. revert y z; induction x as [|a x IH]; intros [|b y] [|c z]; simpl; try discriminate; try reflexivity.
  destruct (Ascii.compare a b) eqn:E1; try discriminate.
  - apply acompare_eq in E1. subst b. destruct (Ascii.compare a c) eqn:E2; try discriminate; [|reflexivity].
    intros. eauto.
  - intros _. destruct (Ascii.compare b c) eqn:E2; try discriminate.
    + apply acompare_eq in E2. subst c. rewrite E1. reflexivity.
    + intros _. rewrite (acompare_lt_trans _ _ _ E1 E2). reflexivity.
Qed.

Lemma scompare_gt x y : String.compare x y = Gt -> slt y x.
Proof.
  unfold slt. intros H. rewrite String.compare_antisym, H. reflexivity.
Qed.

Lemma insert_uniqS_In x y l : In y (insert_uniqS x l) <-> y = x \/ In y l.
Proof.
  induction l as [|z t IH]; simpl; [intuition|].
  destruct (String.compare x z) eqn:E; simpl.
  - apply scompare_eq in E. subst. intuition.
  - intuition.
  - rewrite IH. intuition.
Qed.
Lemma uniqueS_In x l : In x (uniqueS l) <-> In x l.
Proof. induction l as [|y t IH]; simpl; [tauto|]. rewrite insert_uniqS_In, IH. intuition. Qed.
Lemma insert_uniqS_sorted x l : StronglySorted slt l -> StronglySorted slt (insert_uniqS x l).
Proof.
  induction 1 as [|y t Hs IH Hall]; simpl; [repeat constructor|].
  destruct (String.compare x y) eqn:E.
  - constructor; assumption.
  - constructor; [constructor; assumption|]. constructor; [exact E|].
    eapply Forall_impl; [|exact Hall]. intros z Hz. eapply slt_trans; eauto.
  - constructor; [exact IH|]. apply Forall_forall. intros z Hz.
    apply insert_uniqS_In in Hz as [->|Hz]; [apply scompare_gt, E|]. rewrite Forall_forall in Hall. auto.
Qed.
Lemma uniqueS_sorted l : StronglySorted slt (uniqueS l).
Proof. induction l; simpl; [constructor|]. apply insert_uniqS_sorted; assumption. Qed.
Lemma uniqueS_eq l l' : (forall x, In x l <-> In x l') -> uniqueS l = uniqueS l'.
Proof.
  intros H. apply (sorted_unique slt slt_irrefl slt_trans); auto using uniqueS_sorted.
  intros x. rewrite !uniqueS_In. apply H.
Qed.
Lemma uniqueS_id l : StronglySorted slt l -> uniqueS l = l.
Proof.
  intros H. apply (sorted_unique slt slt_irrefl slt_trans); auto using uniqueS_sorted.
  intros x. apply uniqueS_In.
Qed.

Lemma combine_filenames_spec f1 f2 :
  (combine_filenames f1 f2 = None <-> f1 = None /\ f2 = None) /\
  (forall a, f1 = Some a -> f2 = None -> combine_filenames f1 f2 = Some a) /\
  (forall b, f1 = None -> f2 = Some b -> combine_filenames f1 f2 = Some b) /\
  (forall a b, f1 = Some a -> f2 = Some b ->
     exists c, combine_filenames f1 f2 = Some c /\ StronglySorted slt c /\
       forall x, In x c <-> In x a \/ In x b).
Proof.
  destruct f1 as [a|], f2 as [b|]; simpl; repeat split; intros; try discriminate; try tauto; try congruence;
    try (destruct H; discriminate).
  injection H as <-. injection H0 as <-. eexists. split; [reflexivity|]. split; [apply uniqueS_sorted|].
  intros x. rewrite uniqueS_In. apply in_app_iff.
Qed.


Lemma combine_filenames_algebra f1 f2 f3 : norm f1 -> norm f2 -> norm f3 ->
  combine_filenames f1 f2 = combine_filenames f2 f1 /\
  combine_filenames (combine_filenames f1 f2) f3 = combine_filenames f1 (combine_filenames f2 f3) /\
  combine_filenames f1 f1 = f1 /\ norm (combine_filenames f1 f2).
Proof.
  intros H1 H2 H3. split; [|split; [|split]].
  - destruct f1, f2; simpl; try reflexivity. f_equal. apply uniqueS_eq. intros x. rewrite !in_app_iff. tauto.
  - destruct f1, f2, f3; simpl; try reflexivity; f_equal; apply uniqueS_eq; intros x;
      rewrite ?in_app_iff, ?uniqueS_In, ?in_app_iff; tauto.
  - destruct f1 as [l|]; simpl; [|reflexivity]. f_equal. rewrite <- (uniqueS_id l H1) at 3.
    apply uniqueS_eq. intros x. rewrite in_app_iff. tauto.
  - destruct f1, f2; simpl; auto. apply uniqueS_sorted.
Qed.

(** ** range overlap *)

Lemma adjacent_overlap_false l :
  StronglySorted (fun a b : Z * Z => fst a <= fst b) l -> Forall (fun r => fst r <= snd r) l ->
  (adjacent_overlap l = false <-> StronglySorted (fun a b => snd a <= fst b) l).
Proof.
  induction l as [|r1 l IH]; intros Hs Hw; [split; [constructor|reflexivity]|].
  destruct l as [|r2 l].
  { split; [repeat constructor|reflexivity]. }
  inversion Hs as [|? ? Hs' Hall]; subst. inversion Hw as [|? ? Hw1 Hw']; subst.
  specialize (IH Hs' Hw'). cbn [adjacent_overlap]. rewrite orb_false_iff.
  split.
  - intros [Ha Hb]. apply IH in Hb. constructor; [exact Hb|].
    inversion Hs' as [|? ? _ Hall']; subst. constructor; [lia|].
    eapply Forall_impl; [|exact Hall']. simpl. intros. lia.
  - intros H. inversion H as [|? ? H1 H2]; subst. split; [inversion H2; lia|]. apply IH; exact H1.
Qed.

Lemma adjacent_overlap_true l : adjacent_overlap l = true ->
  exists i, (S i < length l)%nat /\ fst (nth (S i) l (0, 0)) < snd (nth i l (0, 0)).
Proof.
  induction l as [|r1 l IH]; [discriminate|]. destruct l as [|r2 l]; [discriminate|].
  cbn [adjacent_overlap]. intros H. apply orb_prop in H as [H|H].
  - exists 0%nat. simpl. split; [lia|]. lia.
  - destruct (IH H) as (i & Hi & Hlt). exists (S i). simpl in *. split; [lia|exact Hlt].
Qed.

Lemma check_range_overlap_exact ranges : Forall (fun r => fst r < snd r) ranges ->
  exists b, check_range_overlap ranges = Ok b /\
  (b = true <-> exists i j, (i < length ranges)%nat /\ (j < length ranges)%nat /\ i <> j /\
     share_interior (nth i ranges (0, 0)) (nth j ranges (0, 0))).
Proof.
  intros Hw. unfold check_range_overlap.
  replace (existsb (fun r => snd r - fst r <? 0) ranges) with false.
  2:{ symmetry. apply not_true_iff_false. rewrite existsb_exists. intros (r & Hin & Hr).
      rewrite Forall_forall in Hw. apply Hw in Hin. lia. }
  eexists. split; [reflexivity|].
  set (sl := isort (fun a b : Z * Z => fst a <=? fst b) ranges).
  assert (Hperm : Permutation ranges sl) by apply isort_perm.
  assert (Hsort : StronglySorted (fun a b : Z * Z => fst a <= fst b) sl).
  { eapply StronglySorted_impl; [|apply isort_sorted]; unfold le; simpl; intros; lia. }
  assert (Hw' : Forall (fun r => fst r < snd r) sl) by (eapply Permutation_Forall; eauto).
  assert (Hw'' : Forall (fun r => fst r <= snd r) sl) by (eapply Forall_impl; [|exact Hw']; simpl; intros; lia).
  pose proof (Permutation_length Hperm) as Hlen.
  split.
  - intros Hov. destruct (adjacent_overlap_true _ Hov) as (i & Hi & Hlt).
    assert (Hle : fst (nth i sl (0, 0)) <= fst (nth (S i) sl (0, 0))).
    { apply (proj1 (StronglySorted_nth (fun a b : Z * Z => fst a <= fst b) (0, 0) sl) Hsort); lia. }
    assert (Hwf : fst (nth (S i) sl (0, 0)) < snd (nth (S i) sl (0, 0))).
    { rewrite Forall_forall in Hw'. apply Hw', nth_In. exact Hi. }
    destruct (proj1 (Permutation_nth _ _ (0, 0)) Hperm) as (_ & f & Hf & Hinj & Hnth).
    exists (f i), (f (S i)).
    split; [apply Hf; lia|]. split; [apply Hf; lia|].
    split; [intros He; apply Hinj in He; lia|].
    rewrite <- !Hnth by lia. unfold share_interior. lia.
  - intros (i & j & Hi & Hj & Hij & Hsh).
    destruct (adjacent_overlap sl) eqn:E; [reflexivity|exfalso].
    apply (proj1 (adjacent_overlap_false sl Hsort Hw'')) in E.
    pose proof (proj1 (StronglySorted_nth (fun a b : Z * Z => snd a <= fst b) (0, 0) sl) E) as Hnth_sl.
    cbv beta in Hnth_sl.
    destruct (proj1 (Permutation_nth _ _ (0, 0)) (Permutation_sym Hperm)) as (_ & f & Hf & Hinj & Hnth).
    rewrite !Hnth in Hsh by lia. unfold share_interior in Hsh.
    assert (f i <> f j) by (intros He; apply Hinj in He; lia).
    assert (f i < length sl)%nat by (apply Hf; lia). assert (f j < length sl)%nat by (apply Hf; lia).
    destruct (Nat.lt_ge_cases (f i) (f j)) as [Hc|Hc].
    + specialize (Hnth_sl (f i) (f j) Hc ltac:(lia)). lia.
    + specialize (Hnth_sl (f j) (f i) ltac:(lia) ltac:(lia)). lia.
Qed.

Lemma check_range_overlap_malformed ranges :
  check_range_overlap ranges = Err ValueError <-> exists r, In r ranges /\ snd r < fst r.
Proof.
  unfold check_range_overlap. destruct (existsb (fun r => snd r - fst r <? 0) ranges) eqn:E.
  - split; [intros _|reflexivity]. apply existsb_exists in E as (r & Hin & Hr). exists r. split; [assumption|lia].
  - split; [discriminate|]. intros (r & Hin & Hr). exfalso.
    assert (existsb (fun r => snd r - fst r <? 0) ranges = true); [|congruence].
    apply existsb_exists. exists r. split; [assumption|lia].
Qed.
