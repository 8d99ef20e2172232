From Coq Require Import List ZArith Bool QArith Qabs Lia Sorted.
From Verif Require Import Lib.Py Lib.Np Model.Tools Model.Times Spec.TimesSpec Proofs.ToolsProofs.
Import ListNotations.
Notation length := List.length.
Open Scope Z_scope.

Lemma qabs_Qabs q : (qabs q == Qabs q)%Q.
Proof.
  unfold qabs. destruct (Qle_bool 0 q) eqn:E.
  - apply Qle_bool_iff in E. rewrite Qabs_pos; [reflexivity | exact E].
  - rewrite Qabs_neg; [reflexivity|]. apply Qlt_le_weak, Qnot_le_lt. intros H. apply Qle_bool_iff in H. congruence.
Qed.

Lemma closeZ_spec tols a b : closeZ tols a b = true <-> agree tols a b.
Proof. unfold closeZ, isclose, agree. rewrite Qle_bool_iff, !qabs_Qabs. reflexivity. Qed.

Lemma times_in_array_Ok tols arr vals inds : times_in_array tols arr vals = Ok inds -> forall i,
  In i inds <-> (i < length arr)%nat /\ exists v, In v vals /\ agree tols (nth i arr 0) v.
Proof.
  revert inds. induction vals as [|v vals IH]; cbn [times_in_array]; intros inds H i.
  - injection H as <-. split; [intros [] | intros (_ & v & [] & _)].
  - set (N := nonzero _ arr) in *.
    assert (S : forall i, In i N <-> (i < length arr)%nat /\ agree tols (nth i arr 0) v).
    { intros j. unfold N. rewrite (nonzero_spec 0). rewrite closeZ_spec. reflexivity. }
    clearbody N. destruct N as [|x N]; [discriminate|].
    apply bind_Ok in H as (rest & Hr & H). injection H as <-.
    change (x :: N ++ rest) with ((x :: N) ++ rest).
    rewrite in_app_iff, S, (IH _ Hr i). split.
    + intros [(L & A) | (L & w & I & A)]; (split; [exact L|]); [exists v | exists w]; simpl; auto.
    + intros (L & w & [<- | I] & A); [left | right]; eauto.
Qed.

Lemma times_in_array_total tols arr vals :
  (exists inds, times_in_array tols arr vals = Ok inds) <-> forall v, In v vals -> exists t, In t arr /\ agree tols t v.
Proof.
  induction vals as [|v vals IH]; cbn [times_in_array].
  - split; [intros _ v [] | eauto].
  - set (N := nonzero _ arr).
    assert (S : forall i, In i N <-> (i < length arr)%nat /\ agree tols (nth i arr 0) v).
    { intros j. unfold N. rewrite (nonzero_spec 0). rewrite closeZ_spec. reflexivity. }
    assert (E : N <> [] <-> exists t, In t arr /\ agree tols t v).
    { split.
      - destruct N as [|x N]; [congruence|]. intros _. destruct (proj1 (S x)) as [L A]; [left; reflexivity|].
        exists (nth x arr 0). split; [apply nth_In, L | exact A].
      - intros (t & I & A). apply (In_nth _ _ 0) in I as (i & L & <-). intros Z. rewrite Z in S. apply (proj2 (S i)); auto. }
    clearbody N. destruct N as [|x N].
    + split.
      * intros (inds & H). discriminate.
      * intros H. exfalso. apply (proj2 E); [|reflexivity]. apply H. left; reflexivity.
    + split.
      * intros (inds & H). apply bind_Ok in H as (rest & Hr & H). intros w [<- | I].
        -- apply (proj1 E). discriminate.
        -- apply (proj1 IH); eauto.
      * intros H. destruct (proj2 IH) as (rest & Hr); [intros w I; apply H; right; exact I|].
        rewrite Hr. cbn [bind]. eauto.
Qed.

Lemma nonempty_Ok l l' : nonempty l = Ok l' -> l' = l /\ l <> [].
Proof. destruct l; simpl; intros H; [discriminate|]. injection H as <-. split; [reflexivity | discriminate]. Qed.

Lemma between_spec lo hi l i : In i (nonzero (fun t => (t <=? hi) && (t >=? lo)) l) <-> (i < length l)%nat /\ lo <= nth i l 0 <= hi.
Proof. rewrite (nonzero_spec 0). rewrite andb_true_iff, Z.geb_leb, !Z.leb_le. intuition. Qed.

Lemma lst_array_Ok two_pi l l0 l1 inds : lst_range_inds two_pi (TimeArray l) [l0; l1] = Ok inds ->
  forall i, In i inds <-> (i < length l)%nat /\ in_lst_range two_pi l0 l1 (nth i l 0).
Proof.
  unfold lst_range_inds, in_lst_range. destruct (l1 <? l0); intros H i; apply nonempty_Ok in H as [-> _].
  - rewrite uniqueN_In, in_app_iff, !between_spec. intuition.
  - apply between_spec.
Qed.

Lemma nonempty_total l : (exists l', nonempty l = Ok l') <-> exists i : nat, In i l.
Proof.
  destruct l as [|x l]; simpl; split.
  - intros (l' & H). discriminate.
  - intros (i & []).
  - intros _. exists x. left; reflexivity.
  - eauto.
Qed.

Lemma nth_ex (P : Z -> Prop) (l : list Z) : (exists i, (i < length l)%nat /\ P (nth i l 0)) <-> exists t, In t l /\ P t.
Proof.
  split.
  - intros (i & L & H). exists (nth i l 0). split; [apply nth_In, L | exact H].
  - intros (t & I & H). apply (In_nth _ _ 0) in I as (i & L & <-). eauto.
Qed.

Lemma time_array_total l t0 t1 : (exists inds, time_range_inds (TimeArray l) [t0; t1] = Ok inds) <-> exists t, In t l /\ t0 <= t <= t1.
Proof.
  cbn [time_range_inds]. rewrite nonempty_total, <- (nth_ex (fun t => t0 <= t <= t1)). split; intros (i & H); exists i; apply between_spec; exact H.
Qed.

Lemma lst_array_total two_pi l l0 l1 : (exists inds, lst_range_inds two_pi (TimeArray l) [l0; l1] = Ok inds) <-> exists t, In t l /\ in_lst_range two_pi l0 l1 t.
Proof.
  rewrite <- (nth_ex (in_lst_range two_pi l0 l1)). unfold lst_range_inds, in_lst_range. destruct (l1 <? l0).
  - rewrite nonempty_total. split; intros (i & H); exists i.
    + rewrite uniqueN_In, in_app_iff, !between_spec in H. intuition.
    + rewrite uniqueN_In, in_app_iff, !between_spec. intuition.
  - rewrite nonempty_total. split; intros (i & H); exists i; apply between_spec; exact H.
Qed.

(** The form of a successful request. *)
Lemma helper_cases two_pi rq times lsts tt lt r : select_times_helper two_pi rq times lsts tt lt = Ok r ->
  (no_time_criterion rq /\ r = None) \/
  (exists v inds, rq = mkTimeRequest (Some v) None None None /\ r = Some inds /\
     match times with TimeRanges l => times_in_ranges l v | TimeArray l => times_in_array tt l v end = Ok inds) \/
  (exists v inds, rq = mkTimeRequest None (Some v) None None /\ r = Some inds /\ time_range_inds times v = Ok inds) \/
  (exists v inds, rq = mkTimeRequest None None (Some v) None /\ r = Some inds /\
     match lsts with TimeRanges l => lsts_in_ranges two_pi l v | TimeArray l => times_in_array lt l v end = Ok inds) \/
  (exists v inds, rq = mkTimeRequest None None None (Some v) /\ r = Some inds /\ lst_range_inds two_pi lsts v = Ok inds).
Proof.
  destruct rq as [[a|] [b|] [c|] [d|]]; unfold select_times_helper; cbn [given Nat.add Nat.ltb Nat.leb rq_times rq_time_range rq_lsts rq_lst_range];
    try discriminate; intros H.
  - apply bind_Ok in H as (inds & H & E). injection E as <-. right; left. eauto 10.
  - apply bind_Ok in H as (inds & H & E). injection E as <-. right; right; left. eauto 10.
  - apply bind_Ok in H as (inds & H & E). injection E as <-. right; right; right; left. eauto 10.
  - apply bind_Ok in H as (inds & H & E). injection E as <-. right; right; right; right. eauto 10.
  - injection H as <-. left. repeat split.
Qed.

Lemma range_two axis v inds : time_range_inds axis v = Ok inds -> exists t0 t1, v = [t0; t1].
Proof. destruct v as [|a [|b [|c v]]]; simpl; try discriminate; eauto. Qed.
Lemma lst_range_two two_pi axis v inds : lst_range_inds two_pi axis v = Ok inds -> exists t0 t1, v = [t0; t1].
Proof. destruct v as [|a [|b [|c v]]]; simpl; try discriminate; eauto. Qed.

Theorem times_exact two_pi rq times lsts tt lt inds : length lsts = length times ->
  select_times_helper two_pi rq (TimeArray times) (TimeArray lsts) tt lt = Ok (Some inds) ->
  forall i, In i inds <-> (i < length times)%nat /\ wanted_time two_pi rq tt lt (nth i times 0) (nth i lsts 0).
Proof.
  intros L H i. apply helper_cases in H. unfold wanted_time.
  destruct H as [(_ & E) | [(v & x & -> & E & H) | [(v & x & -> & E & H) | [(v & x & -> & E & H) | (v & x & -> & E & H)]]]];
    [discriminate| | | |]; injection E as <-; cbn [rq_times rq_time_range rq_lsts rq_lst_range].
  - rewrite (times_in_array_Ok _ _ _ _ H i). split.
    + intros (Li & A). split; [exact Li|]. repeat split; try discriminate; try (intros; discriminate). intros w E. injection E as <-. exact A.
    + intros (Li & A & _). split; [exact Li | apply A; reflexivity].
  - destruct (range_two _ _ _ H) as (t0 & t1 & ->). cbn [time_range_inds] in H. apply nonempty_Ok in H as [-> _].
    rewrite between_spec. split.
    + intros (Li & A). split; [exact Li|]. split; [discriminate|]. split; [|split; discriminate]. intros a b E. injection E as <- <-. exact A.
    + intros (Li & _ & A & _). split; [exact Li | apply A; reflexivity].
  - rewrite (times_in_array_Ok _ _ _ _ H i), L. split.
    + intros (Li & A). split; [exact Li|]. split; [discriminate|]. split; [discriminate|]. split; [|discriminate]. intros w E. injection E as <-. exact A.
    + intros (Li & _ & _ & A & _). split; [exact Li | apply A; reflexivity].
  - destruct (lst_range_two _ _ _ _ H) as (t0 & t1 & ->). rewrite (lst_array_Ok _ _ _ _ _ H i), L. split.
    + intros (Li & A). split; [exact Li|]. split; [discriminate|]. split; [discriminate|]. split; [discriminate|]. intros a b E. injection E as <- <-. exact A.
    + intros (Li & _ & _ & _ & A). split; [exact Li | apply A; reflexivity].
Qed.

Theorem times_none two_pi rq times lsts tt lt :
  select_times_helper two_pi rq times lsts tt lt = Ok None <-> no_time_criterion rq.
Proof.
  split.
  - intros H. apply helper_cases in H.
    destruct H as [(N & _) | [(v & x & _ & E & _) | [(v & x & _ & E & _) | [(v & x & _ & E & _) | (v & x & _ & E & _)]]]]; [exact N| | | |]; discriminate.
  - destruct rq as [a b c d]. intros (A & B & C & D). simpl in *. subst. reflexivity.
Qed.

Theorem times_total two_pi rq times lsts tt lt :
  (exists inds, select_times_helper two_pi rq (TimeArray times) (TimeArray lsts) tt lt = Ok (Some inds)) <->
  one_time_criterion rq /\ request_met two_pi rq tt lt times lsts.
Proof.
  unfold request_met. split.
  - intros (inds & H). apply helper_cases in H.
    destruct H as [(_ & E) | [(v & x & -> & E & H) | [(v & x & -> & E & H) | [(v & x & -> & E & H) | (v & x & -> & E & H)]]]];
      [discriminate| | | |]; injection E as <-; cbn [rq_times rq_time_range rq_lsts rq_lst_range].
    + split; [left; eauto|]. split; [|split; [|split]]; try discriminate. intros w y E I. injection E as <-.
      apply (proj1 (times_in_array_total tt times v)); eauto.
    + split; [right; left; eauto|]. split; [discriminate|]. split; [|split; discriminate]. intros r E. injection E as <-.
      destruct (range_two _ _ _ H) as (t0 & t1 & ->). destruct (proj1 (time_array_total times t0 t1)) as (t & A); eauto.
    + split; [right; right; left; eauto|]. split; [discriminate|]. split; [discriminate|]. split; [|discriminate]. intros w y E I. injection E as <-.
      apply (proj1 (times_in_array_total lt lsts v)); eauto.
    + split; [right; right; right; eauto|]. split; [discriminate|]. split; [discriminate|]. split; [discriminate|]. intros r E. injection E as <-.
      destruct (lst_range_two _ _ _ _ H) as (t0 & t1 & ->). destruct (proj1 (lst_array_total two_pi lsts t0 t1)) as (t & A); eauto.
  - intros ([(v & ->) | [(v & ->) | [(v & ->) | (v & ->)]]] & A & B & C & D); unfold select_times_helper;
      cbn [given Nat.add Nat.ltb Nat.leb rq_times rq_time_range rq_lsts rq_lst_range] in *.
    + destruct (proj2 (times_in_array_total tt times v)) as (x & H); [intros w I; apply (A v); auto|]. rewrite H. cbn [bind]. eauto.
    + destruct (B v eq_refl) as (t0 & t1 & t & -> & I & R). destruct (proj2 (time_array_total times t0 t1)) as (x & H); [eauto|]. rewrite H. cbn [bind]. eauto.
    + destruct (proj2 (times_in_array_total lt lsts v)) as (x & H); [intros w I; apply (C v); auto|]. rewrite H. cbn [bind]. eauto.
    + destruct (D v eq_refl) as (t0 & t1 & t & -> & I & R). destruct (proj2 (lst_array_total two_pi lsts t0 t1)) as (x & H); [eauto|]. rewrite H. cbn [bind]. eauto.
Qed.

(** Arrays of ranges *)
Lemma in_range_spec v r : in_range v r = true <-> fst r <= v <= snd r.
Proof. unfold in_range. rewrite andb_true_iff, Z.geb_leb, !Z.leb_le. tauto. Qed.

Lemma times_in_ranges_Ok ranges vals inds : times_in_ranges ranges vals = Ok inds -> forall i,
  In i inds <-> (i < length ranges)%nat /\ exists v, In v vals /\ fst (nth i ranges (0, 0)) <= v <= snd (nth i ranges (0, 0)).
Proof.
  revert inds. induction vals as [|v vals IH]; cbn [times_in_ranges]; intros inds H i.
  - injection H as <-. split; [intros [] | intros (_ & v & [] & _)].
  - set (N := nonzero _ ranges) in *.
    assert (S : forall i, In i N <-> (i < length ranges)%nat /\ fst (nth i ranges (0, 0)) <= v <= snd (nth i ranges (0, 0))).
    { intros j. unfold N. rewrite (nonzero_spec (0, 0)). rewrite in_range_spec. reflexivity. }
    clearbody N. destruct N as [|x N]; [discriminate|].
    apply bind_Ok in H as (rest & Hr & H). injection H as <-.
    change (x :: N ++ rest) with ((x :: N) ++ rest).
    rewrite in_app_iff, S, (IH _ Hr i). split.
    + intros [(L & A) | (L & w & I & A)]; (split; [exact L|]); [exists v | exists w]; simpl; auto.
    + intros (L & w & [<- | I] & A); [left | right]; eauto.
Qed.

Lemma overlap2 r t0 t1 : fst r < snd r -> t0 < t1 -> exists b, check_range_overlap [r; (t0, t1)] = Ok b /\ (b = true <-> ranges_meet r (t0, t1)).
Proof.
  intros W W'. unfold check_range_overlap, ranges_meet. cbn [existsb fst snd].
  replace (snd r - fst r <? 0) with false by (symmetry; apply Z.ltb_ge; lia).
  replace (t1 - t0 <? 0) with false by (symmetry; apply Z.ltb_ge; lia). cbn [orb].
  eexists. split; [reflexivity|]. unfold Sorting.isort. simpl. destruct (fst r <=? t0) eqn:E; simpl; rewrite orb_false_r, Z.ltb_lt; [apply Z.leb_le in E | apply Z.leb_gt in E]; lia.
Qed.

Lemma hits_spec (f : Z * Z -> result bool) (P : Z * Z -> Prop) ranges hits :
  (forall r, In r ranges -> forall b, f r = Ok b -> (b = true <-> P r)) -> mapM f ranges = Ok hits ->
  forall i, In i (nonzero (fun b : bool => b) hits) <-> (i < length ranges)%nat /\ P (nth i ranges (0, 0)).
Proof.
  intros F H i. rewrite (nonzero_spec false). rewrite (mapM_Ok_length _ _ _ H).
  split; intros (L & A); (split; [exact L|]);
    pose proof (mapM_Ok_nth f _ _ (0, 0) false H i L) as E; eapply F; try exact E; try (apply nth_In; exact L); exact A.
Qed.

Theorem ranges_exact two_pi rq times lsts tt lt inds : length lsts = length times ->
  (forall r, In r times -> fst r < snd r) -> (forall t0 t1, rq_time_range rq = Some [t0; t1] -> t0 < t1) -> nothing_wraps rq lsts ->
  select_times_helper two_pi rq (TimeRanges times) (TimeRanges lsts) tt lt = Ok (Some inds) ->
  forall i, In i inds <-> (i < length times)%nat /\ wanted_range rq (nth i times (0, 0)) (nth i lsts (0, 0)).
Proof.
  intros L W W' [WL WL'] H i. apply helper_cases in H. unfold wanted_range.
  destruct H as [(_ & E) | [(v & x & -> & E & H) | [(v & x & -> & E & H) | [(v & x & -> & E & H) | (v & x & -> & E & H)]]]];
    [discriminate| | | |]; injection E as <-; cbn [rq_times rq_time_range rq_lsts rq_lst_range] in *.
  - rewrite (times_in_ranges_Ok _ _ _ H i). split.
    + intros (Li & A). split; [exact Li|]. split; [|split; [|split]]; try discriminate. intros w E. injection E as <-. exact A.
    + intros (Li & A & _). split; [exact Li | apply A; reflexivity].
  - destruct (range_two _ _ _ H) as (t0 & t1 & ->). cbn [time_range_inds] in H. apply bind_Ok in H as (y & H & N). apply nonempty_Ok in N as [-> _].
    unfold overlap_inds in H. apply bind_Ok in H as (hits & H & E). injection E as <-.
    assert (F : forall r, In r times -> forall b, check_range_overlap [r; (t0, t1)] = Ok b -> (b = true <-> ranges_meet r (t0, t1))).
    { intros r I b E. destruct (overlap2 r t0 t1 (W r I) (W' _ _ eq_refl)) as (b' & E' & S). rewrite E' in E. injection E as <-. exact S. }
    rewrite (hits_spec _ _ _ _ F H i).
    split.
    + intros (Li & A). split; [exact Li|]. split; [discriminate|]. split; [|split; discriminate]. intros a b E. injection E as <- <-. exact A.
    + intros (Li & _ & A & _). split; [exact Li | apply A; reflexivity].
  - assert (E : lsts_in_ranges two_pi lsts v = times_in_ranges lsts v).
    { clear H. induction v as [|y v IH]; simpl; [reflexivity|]. rewrite IH. unfold lst_ind.
      destruct (nonzero (in_range y) lsts); [|reflexivity].
      assert (NW : nonzero wraps lsts = []).
      { destruct (nonzero wraps lsts) as [|k ks] eqn:EW; [reflexivity|]. exfalso.
        destruct (proj1 (nonzero_spec (0, 0) wraps lsts k)) as [Lk Wk]; [rewrite EW; left; reflexivity|].
        unfold wraps in Wk. rewrite Z.gtb_lt in Wk. specialize (WL (nth k lsts (0, 0)) (nth_In _ _ Lk)). lia. }
      rewrite NW. reflexivity. }
    rewrite E in H. rewrite (times_in_ranges_Ok _ _ _ H i), L. split.
    + intros (Li & A). split; [exact Li|]. split; [discriminate|]. split; [discriminate|]. split; [|discriminate]. intros w E'. injection E' as <-. exact A.
    + intros (Li & _ & _ & A & _). split; [exact Li | apply A; reflexivity].
  - destruct (lst_range_two _ _ _ _ H) as (t0 & t1 & ->). cbn [lst_range_inds] in H. apply bind_Ok in H as (y & H & N). apply nonempty_Ok in N as [-> _].
    rewrite (hits_spec _ (fun r => ranges_meet r (t0, t1)) lsts y) with (2 := H).
    + rewrite L. split.
      * intros (Li & A). split; [exact Li|]. split; [discriminate|]. split; [discriminate|]. split; [discriminate|]. intros a b E. injection E as <- <-. exact A.
      * intros (Li & _ & _ & _ & A). split; [exact Li | apply A; reflexivity].
    + intros r I b E. unfold lst_overlap in E. specialize (WL r I). specialize (WL' _ _ eq_refl).
      replace (wraps r) with false in E by (symmetry; unfold wraps; rewrite Z.gtb_ltb; apply Z.ltb_ge; lia).
      replace (t0 <? t1) with true in E by (symmetry; apply Z.ltb_lt; lia). cbn [negb andb] in E.
      destruct (overlap2 r t0 t1 WL WL') as (b' & E' & S). rewrite E' in E. injection E as <-. exact S.
Qed.
