From Coq Require Import List ZArith QArith Qround Qcanon Bool Arith Lia Lqa Sorted Permutation.
From Verif Require Import Lib.Py Lib.Np Lib.Sorting Lib.QSum Model.FreqAvg Model.Resample Spec.ResampleSpec Proofs.ResampleBase Proofs.UpsampleProofs Proofs.DownsampleProofs Proofs.DownsampleTop Proofs.DownsampleTotal.
Import ListNotations.
Open Scope Qc_scope.

(** A row of constant data; times in days, integrations in seconds. *)
Definition cell (bl : Z) (t i : Q) : trow :=
  mkTrow bl 0 (Q2Qc t) (Q2Qc i) (fun _ _ => (1, 0)) (fun _ _ => false) (fun _ _ => 1).
Definition shown (r : trow) : Z * Q * Q := (t_bl r, this (t_time r), this (t_int r)).
Definition view (r : result tobj) : option (list (Z * Q * Q)) :=
  match r with Ok o => Some (map shown (o_rows o)) | Err _ => None end.

Lemma cells_nbls rows n p : length (uniqueZ (map t_bl rows)) = n -> nbls_ok (mkTobj rows n p).
Proof.
  intros E. exists (uniqueZ (map t_bl rows)). split; [apply uniqueZ_NoDup|]. split; [|exact E].
  intros b. rewrite uniqueZ_In, in_map_iff. cbn [o_rows]. split; intros [r [A B]]; exists r; auto.
Qed.

Definition got (r : result tobj) : tobj := match r with Ok o => o | Err _ => mkTobj [] 0 0 end.
Definition fine (r : result tobj) : bool := match r with Ok _ => true | Err _ => false end.
Lemma fine_got r : fine r = true -> r = Ok (got r).
Proof. destruct r; [reflexivity|discriminate]. Qed.
Definition failed (r : result tobj) : option exn := match r with Ok _ => None | Err e => Some e end.
Lemma failed_with r e : failed r = Some e -> r = Err e.
Proof. destruct r; cbn; congruence. Qed.

(** ** Upsampling *)

(** 5 ms more than 1000 s count as 1000 s: one piece, too long. *)
Lemma piece_too_long : exists m o o' p,
  0 < m /\ upsample_in_time m false by_time o = Ok o' /\ In p (o_rows o') /\ m + milli < t_int p.
Proof.
  set (o := mkTobj [cell 1 0 (1000005 # 1000); cell 1 1 10] 1 1).
  set (r := upsample_in_time (Q2Qc 1000) false by_time o).
  assert (E : existsb (fun p => qlt (Q2Qc 1000 + milli) (t_int p)) (o_rows (got r)) = true) by (vm_compute; reflexivity).
  apply existsb_exists in E. destruct E as [p [I L]]. apply qlt_spec in L.
  exists (Q2Qc 1000), o, (got r), p. split; [reflexivity|]. split; [apply fine_got; vm_compute; reflexivity|].
  split; assumption.
Qed.

Lemma just_above_lost : exists m o o' r,
  0 < m /\ nbls_ok o /\ upsample_in_time m false by_time o = Ok o' /\
  In r (o_rows o) /\ ~ is_long m r /\
  ~ (exists p, In p (o_rows o') /\ t_bl p = t_bl r /\ begins p <= t_time r /\ t_time r <= ends p).
Proof.
  set (o := mkTobj [cell 1 0 (100005 # 10000); cell 1 1 10; cell 2 0 20] 2 1).
  set (r := upsample_in_time (Q2Qc 10) false by_time o).
  exists (Q2Qc 10), o, (got r), (cell 1 0 (100005 # 10000)).
  split; [reflexivity|]. split; [apply cells_nbls; reflexivity|]. split; [apply fine_got; vm_compute; reflexivity|].
  split; [left; reflexivity|]. split; [intros H; vm_compute in H; discriminate H|].
  intros [p [I [B [L U]]]].
  assert (E : existsb (fun p => Z.eqb (t_bl p) 1 && qle (begins p) 0 && qle 0 (ends p)) (o_rows (got r)) = false) by (vm_compute; reflexivity).
  assert (F : existsb (fun p => Z.eqb (t_bl p) 1 && qle (begins p) 0 && qle 0 (ends p)) (o_rows (got r)) = true); [|congruence].
  apply existsb_exists. exists p. split; [exact I|]. rewrite !andb_true_iff, Z.eqb_eq, !qle_spec. split; [split; [exact B|exact L]|exact U].
Qed.

(** ** Downsampling *)

Lemma lone_integration : exists o, nbls_ok o /\ several_times o /\ positive_times o /\
  downsample_in_time (Some (Q2Qc 10)) None true false by_time o = Err IndexError /\
  downsample_in_time None (Some 2%Z) true false by_time o = Err IndexError.
Proof.
  exists (mkTobj [cell 1 0 5; cell 1 1 5; cell 2 0 5] 2 1).
  split; [apply cells_nbls; reflexivity|].
  split; [exists (cell 1 0 5), (cell 1 1 5); cbn; repeat split; auto; discriminate|].
  split; [intros r [<-|[<-|[<-|[]]]]; reflexivity|]. split; apply failed_with; vm_compute; reflexivity.
Qed.

Lemma baseline_lost : exists o, nbls_ok o /\ several_times o /\ positive_times o /\
  downsample_in_time (Some (Q2Qc 12)) None false false by_time o = Err ValueError.
Proof.
  exists (mkTobj [cell 1 0 6; cell 1 1 6; cell 2 0 5; cell 2 1 5] 2 1).
  split; [apply cells_nbls; reflexivity|].
  split; [exists (cell 1 0 6), (cell 1 1 6); cbn; repeat split; auto; discriminate|].
  split; [intros r [<-|[<-|[<-|[<-|[]]]]]; reflexivity|]. apply failed_with. vm_compute. reflexivity.
Qed.

(** The number of output rows is wrong for long baselines. *)
Lemma write_index summing nphase size ws : (nphase <= 1)%nat -> forall k,
  (0 <= size)%Z -> (size < Z.of_nat (k + length ws))%Z -> (Z.of_nat k <= size)%Z ->
  mapM (write_row summing nphase size) (combine (seq k (length ws)) ws) = Err IndexError.
Proof.
  intros N. induction ws as [|[[bl w] running] ws IH]; intros k S0 L K; [cbn in L; lia|].
  cbn [length seq combine mapM write_row]. cbn [length] in L.
  destruct (Z.leb_spec size (Z.of_nat k)) as [A|A]; [reflexivity|].
  replace (1 <? nphase)%nat with false by (symmetry; apply Nat.ltb_ge; lia). cbn [andb bind].
  rewrite (IH (S k)) by lia. reflexivity.
Qed.

Lemma rows_all bl rows : (forall r, In r rows -> t_bl r = bl) -> rows_of bl rows = rows.
Proof.
  intros H. unfold rows_of. induction rows as [|r l IH]; [reflexivity|]. cbn [filter].
  rewrite (H r) by (left; reflexivity). rewrite Z.eqb_refl, IH; [reflexivity|]. intros x Hx. apply H. right. exact Hx.
Qed.
Lemma uniqueZ_const (l : list Z) b : l <> [] -> (forall x, In x l -> x = b) -> uniqueZ l = [b].
Proof.
  intros N H. induction l as [|x l IH]; [elim N; reflexivity|].
  assert (E : x = b) by (apply H; left; reflexivity). subst x.
  destruct l as [|y l]; [reflexivity|].
  change (uniqueZ (b :: y :: l)) with (insert_uniqZ b (uniqueZ (y :: l))).
  rewrite IH; [|discriminate|intros z Hz; apply H; right; exact Hz]. cbn. rewrite Z.ltb_irrefl, Z.eqb_refl. reflexivity.
Qed.

Lemma hundred_thousand bl summing leb o :
  (forall r, In r (o_rows o) -> t_bl r = bl) -> Z.of_nat (length (o_rows o)) = 100001%Z ->
  (o_nphase o <= 1)%nat -> several_times o ->
  downsample_in_time None (Some 2%Z) true summing leb o = Err IndexError.
Proof.
  intros B L P T. unfold downsample_in_time. rewrite (not_one_time o T). unfold downsample_rows.
  set (rows := reorder by_time (o_rows o)).
  assert (LR : Z.of_nat (length rows) = 100001%Z) by (unfold rows, reorder; rewrite isort_length; exact L).
  assert (BR : forall r, In r rows -> t_bl r = bl) by (intros r Hr; apply isort_In in Hr; apply B, Hr).
  rewrite (uniqueZ_const (map t_bl rows) bl).
  2: { intros E. apply map_eq_nil in E. rewrite E in LR. discriminate LR. }
  2: { intros x Hx. apply in_map_iff in Hx. destruct Hx as [r [<- Hr]]. apply BR, Hr. }
  cbn [mapM flat_map]. rewrite app_nil_r. unfold predicted. rewrite (rows_all bl rows BR).
  assert (C : count_n_times 2 true (length rows) = Ok 50000%Z).
  { unfold count_n_times. cbn [Z.eqb]. unfold qnat. rewrite LR. vm_compute. reflexivity. }
  rewrite C. cbn [bind]. replace (length rows <=? 1)%nat with false by (symmetry; apply Nat.leb_gt; lia). cbn [bind].
  replace (sumZ [50000%Z]) with 50000%Z by reflexivity. replace (Z.ltb 50000 0) with false by reflexivity.
  rewrite write_index; [reflexivity|exact P|lia| |lia].
  rewrite bl_windows_eq, map_length. unfold the_windows, over_of. rewrite (rows_all bl rows BR).
  change 2%Z with (Z.of_nat 2). rewrite wins_count by (cbn; lia). cbn [length Nat.add andb].
  assert (D := Nat.div_mod (length rows) 2 ltac:(lia)).
  assert (M := Nat.mod_upper_bound (length rows) 2 ltac:(lia)).
  replace (length rows =? 0)%nat with false by (symmetry; apply Nat.eqb_neq; lia). cbn [negb].
  destruct (Nat.eqb_spec (length rows mod 2) 0) as [E|E]; cbn [negb andb]; lia.
Qed.

Definition long_track : tobj :=
  mkTobj (map (fun i => cell 1 (inject_Z (Z.of_nat i)) 1) (seq 0 (Z.to_nat 100001))) 1 1.
Lemma long_track_ok : (forall r, In r (o_rows long_track) -> t_bl r = 1%Z) /\
  Z.of_nat (length (o_rows long_track)) = 100001%Z /\ several_times long_track.
Proof.
  split; [intros r Hr; cbn [o_rows long_track] in Hr; apply in_map_iff in Hr; destruct Hr as [i [<- _]]; reflexivity|].
  split; [cbn [o_rows long_track]; rewrite map_length, seq_length, Z2Nat.id by lia; reflexivity|].
  exists (cell 1 0 1), (cell 1 1 1). cbn [o_rows long_track]. repeat split.
  - apply in_map_iff. exists 0%nat. split; [reflexivity|]. apply in_seq. lia.
  - apply in_map_iff. exists 1%nat. split; [reflexivity|]. apply in_seq. lia.
  - discriminate.
Qed.

(** ** Resampling *)

Lemma qc_max_ge l d x : In x (d :: l) -> x <= qc_max l d.
Proof.
  revert x. induction l as [|y l IH]; intros x H;
    [|change (qc_max (y :: l) d) with (if qle (qc_max l d) y then y else qc_max l d)].
  - destruct H as [<-|[]]. apply Qcle_refl.
  - destruct (qle (qc_max l d) y) eqn:E.
    + apply qle_spec in E. destruct H as [<-|[<-|H]]; [|apply Qcle_refl|].
      * eapply Qcle_trans; [apply IH; left; reflexivity|exact E].
      * eapply Qcle_trans; [apply IH; right; exact H|exact E].
    + apply qle_false, Qclt_le_weak in E. destruct H as [<-|[<-|H]]; [apply IH; left; reflexivity|exact E|apply IH; right; exact H].
Qed.
Lemma qc_max_in l d : In (qc_max l d) (d :: l).
Proof.
  induction l as [|y l IH]; [left; reflexivity|]. cbn [qc_max fold_right].
  destruct (qle _ y); [right; left; reflexivity|]. destruct IH as [E|H]; [left; exact E|right; right; exact H].
Qed.
Lemma qc_min_in l d : In (qc_min l d) (d :: l).
Proof.
  induction l as [|y l IH]; [left; reflexivity|]. cbn [qc_min fold_right].
  destruct (qle y _); [right; left; reflexivity|]. destruct IH as [E|H]; [left; exact E|right; right; exact H].
Qed.
Lemma not_twice a b : 0 < b -> a < Q2Qc 2 * b -> at_least_twice a b = false.
Proof.
  intros P H. unfold at_least_twice. apply Z.leb_gt.
  assert (L : (this (a / b) < 2)%Q).
  { destruct (Qlt_le_dec (this (a / b)) 2) as [L|L]; [exact L|]. exfalso.
    assert (L' : Q2Qc 2 <= a / b) by exact L.
    apply (Qcmult_le_compat_r _ _ b) in L'; [|apply Qclt_le_weak; exact P]. rewrite Qc_div_mul in L' by exact P.
    exact (Qclt_not_le _ _ H L'). }
  pose proof (Qfloor_le (this (a / b))) as F.
  assert (G : (inject_Z (Qfloor (this (a / b))) < inject_Z 2)%Q) by (eapply Qle_lt_trans; [exact F|exact L]).
  rewrite <- Zlt_Qlt in G. exact G.
Qed.

Lemma resample_unchanged target only_down only_up keep summing leb o :
  0 < target -> o_rows o <> [] ->
  (forall r, In r (o_rows o) -> 0 < t_int r /\ target < Q2Qc 2 * t_int r /\ t_int r < Q2Qc 2 * target) ->
  resample_in_time target only_down only_up keep summing leb o = Ok o.
Proof.
  intros P N H. unfold resample_in_time. destruct (map t_int (o_rows o)) as [|x rest] eqn:E; [apply map_eq_nil in E; elim N; exact E|].
  assert (G : forall i, In i (x :: rest) -> 0 < i /\ target < Q2Qc 2 * i /\ i < Q2Qc 2 * target).
  { intros i Hi. rewrite <- E in Hi. apply in_map_iff in Hi. destruct Hi as [r [<- Hr]]. apply H, Hr. }
  destruct (G _ (qc_min_in rest x)) as [M1 [M2 _]]. destruct (G _ (qc_max_in rest x)) as [_ [_ M3]].
  rewrite (not_twice target) by assumption. rewrite (not_twice (qc_max rest x) target) by assumption. reflexivity.
Qed.

(** Nothing longer than the target is left where splitting was needed. *)
Lemma resample_short_enough target only_up keep summing leb o o' :
  0 < target -> resample_in_time target false only_up keep summing leb o = Ok o' ->
  (exists r, In r (o_rows o) /\ Q2Qc 2 * target <= t_int r) ->
  forall p, In p (o_rows o') -> t_int p <= target * Q2Qc (100001001 # 100000000) + milli.
Proof.
  intros P H [r [Ir Lr]] p Hp. unfold resample_in_time in H.
  destruct (map t_int (o_rows o)) as [|x rest] eqn:E; [discriminate|].
  apply bind_Ok in H. destruct H as [o1 [_ H]].
  assert (Tw : at_least_twice (qc_max rest x) target = true).
  { unfold at_least_twice. apply Z.leb_le.
    assert (M : Q2Qc 2 * target <= qc_max rest x).
    { eapply Qcle_trans; [exact Lr|]. apply qc_max_ge. rewrite <- E. apply in_map, Ir. }
    assert (L : Q2Qc 2 <= qc_max rest x / target).
    { apply (Qcmult_lt_0_le_reg_r _ _ target P). rewrite Qc_div_mul by exact P. exact M. }
    change 2%Z with (Qfloor (this (Q2Qc 2))). apply Qfloor_resp_le. exact L. }
  rewrite Tw in H. cbn [andb negb] in H.
  assert (T0 : target <= target * Q2Qc (100001001 # 100000000)).
  { setoid_replace target with (target * 1) at 1 by ring. rewrite !(Qcmult_comm target).
    apply Qcmult_le_compat_r; [discriminate|apply Qclt_le_weak; exact P]. }
  assert (M0 : 0 <= milli) by discriminate.
  unfold upsample_in_time in H. destruct (forallb _ _); [discriminate|].
  destruct (filter (too_long target) (o_rows o1)) as [|a l] eqn:F.
  - injection H as <-.
    destruct (Qclt_le_dec (target + milli) (t_int p)) as [L|L].
    + exfalso. assert (J : In p (filter (too_long target) (o_rows o1))) by (apply filter_In; split; [exact Hp|apply too_long_spec; exact L]).
      rewrite F in J. destruct J.
    + eapply Qcle_trans; [exact L|]. apply Qcplus_le_compat; [exact T0|apply Qcle_refl].
  - apply harmonize_inv in H. destruct H as [Q _]. apply (Permutation_in _ Q) in Hp. apply in_app_or in Hp. destruct Hp as [J|J].
    + apply filter_In in J. destruct J as [_ J]. apply qle_spec in J. eapply Qcle_trans; [exact J|].
      setoid_replace target with (target + 0) at 1 by ring. apply Qcplus_le_compat; assumption.
    + apply in_flat_map in J. destruct J as [z [Jz Jp]]. rewrite <- F in Jz. apply filter_In in Jz. destruct Jz as [_ Tz].
      apply too_long_spec in Tz. destruct (pieces_tile summing target z P Tz) as [_ [_ [_ [_ [_ [_ [_ [_ [_ [B _]]]]]]]]]].
      eapply Qcle_trans; [apply (B p Jp)|]. setoid_replace (target * Q2Qc (100001001 # 100000000)) with (target * Q2Qc (100001001 # 100000000) + 0) at 1 by ring.
      apply Qcplus_le_compat; [apply Qcle_refl|exact M0].
Qed.

Lemma resample_loses : exists target o o', nbls_ok o /\ several_times o /\ positive_times o /\ 0 < target /\
  resample_in_time target false false true false by_time o = Ok o' /\
  total_time (on_baseline 1 (o_rows o)) = Q2Qc (150005 # 10000) /\ total_time (on_baseline 1 (o_rows o')) = Q2Qc 5.
Proof.
  set (o := mkTobj [cell 1 0 5; cell 1 1 (50005 # 10000); cell 1 2 5; cell 2 0 20] 2 1).
  exists (Q2Qc 10), o, (got (resample_in_time (Q2Qc 10) false false true false by_time o)).
  split; [apply cells_nbls; reflexivity|].
  split; [exists (cell 1 0 5), (cell 1 1 (50005 # 10000)); cbn; repeat split; auto; discriminate|].
  split; [intros r [<-|[<-|[<-|[<-|[]]]]]; reflexivity|]. split; [reflexivity|].
  split; [apply fine_got; vm_compute; reflexivity|].
  split; apply Qc_is_canon; apply Qeq_bool_iff; vm_compute; reflexivity.
Qed.

Lemma resample_lengthens : exists target o o' p, nbls_ok o /\ several_times o /\ positive_times o /\ 0 < target /\
  (forall r, In r (o_rows o) -> t_int r < Q2Qc 2 * target) /\
  resample_in_time target false false true false by_time o = Ok o' /\ In p (o_rows o') /\ Q2Qc 2 * target <= t_int p.
Proof.
  set (o := mkTobj [cell 1 0 1; cell 1 1 (195 # 10)] 1 1).
  set (r := resample_in_time (Q2Qc 10) false false true false by_time o).
  assert (E : existsb (fun p => qle (Q2Qc 2 * Q2Qc 10) (t_int p)) (o_rows (got r)) = true) by (vm_compute; reflexivity).
  apply existsb_exists in E. destruct E as [p [I L]]. apply qle_spec in L.
  exists (Q2Qc 10), o, (got r), p. split; [apply cells_nbls; reflexivity|].
  split; [exists (cell 1 0 1), (cell 1 1 (195 # 10)); cbn; repeat split; auto; discriminate|].
  split; [intros x [<-|[<-|[]]]; reflexivity|]. split; [reflexivity|].
  split; [intros x [<-|[<-|[]]]; reflexivity|]. split; [apply fine_got; vm_compute; reflexivity|].
  split; assumption.
Qed.

(** ** Further corollaries *)

Lemma upsample_kept m summing leb o o' :
  0 < m -> upsample_in_time m summing leb o = Ok o' ->
  exists others, Permutation (o_rows o') (filter (fun r => qle (t_int r) m) (o_rows o) ++ others) /\
    forall p, In p others -> exists r, In r (o_rows o) /\ m < t_int r /\ t_bl p = t_bl r.
Proof.
  intros Hm H. unfold upsample_in_time in H. destruct (forallb _ _); [discriminate|].
  destruct (filter (too_long m) (o_rows o)) as [|a l] eqn:F.
  - injection H as <-. exists (filter (fun r => negb (qle (t_int r) m)) (o_rows o)). split.
    + clear F. induction (o_rows o) as [|r rs IH]; [constructor|]. cbn [filter]. destruct (qle (t_int r) m); cbn [negb app].
      * constructor. exact IH.
      * etransitivity; [apply perm_skip; exact IH|]. apply Permutation_middle.
    + intros p Hp. apply filter_In in Hp. destruct Hp as [I N]. apply negb_true_iff, qle_false in N. exists p. auto.
  - apply harmonize_inv in H. destruct H as [P _]. exists (flat_map (pieces summing m) (a :: l)). split; [exact P|].
    intros p Hp. apply in_flat_map in Hp. destruct Hp as [r [Ir Ip]]. rewrite <- F in Ir. apply filter_In in Ir. destruct Ir as [Ir T].
    exists r. split; [exact Ir|]. apply too_long_spec in T. split; [unfold is_long, milli in T; qlra|].
    destruct (pieces_tile summing m r Hm T) as [_ [Q _]]. apply (Q p Ip).
Qed.

Lemma short_dec m r : is_short m r \/ ~ is_short m r.
Proof. unfold is_short. destruct (Qclt_le_dec (t_int r + milli) m) as [L|L]; [left; exact L|right; intros H; exact (Qclt_not_le _ _ H L)]. Qed.
Lemma exists_dec {A} (P : A -> Prop) (l : list A) : (forall x, P x \/ ~ P x) -> (exists x, In x l /\ P x) \/ (forall x, In x l -> ~ P x).
Proof.
  intros D. induction l as [|x l [IH|IH]]; [right; intros x []|left; destruct IH as [y [I H]]; exists y; split; [right; exact I|exact H]|].
  destruct (D x) as [H|H]; [left; exists x; split; [left; reflexivity|exact H]|right]. intros y [<-|Hy]; [exact H|apply IH, Hy].
Qed.

Lemma downsample_modes m n keep summing leb o o' : downsample_in_time m n keep summing leb o = Ok o' ->
  forall bl, (exists complete, downsampled complete keep summing (o_nphase o) (on_baseline bl (o_rows o)) (on_baseline bl (o_rows o'))) \/
    Permutation (on_baseline bl (o_rows o')) (on_baseline bl (o_rows o)).
Proof.
  intros H bl. destruct m as [m|], n as [n|]; try discriminate H.
  - pose proof (downsample_min_spec _ _ _ _ _ _ H bl) as [A B].
    destruct (exists_dec (fun r => t_bl r = bl /\ is_short m r) (o_rows o)) as [E|E].
    { intros r. destruct (Z.eq_dec (t_bl r) bl) as [Eb|Eb]; [|right; intros [X _]; exact (Eb X)].
      destruct (short_dec m r) as [S|S]; [left; auto|right; intros [_ X]; exact (S X)]. }
    + left. exists (reaches m). apply A. exact E.
    + right. apply B. intros r I Eb S. exact (E r I (conj Eb S)).
  - destruct (exists_dec (fun r => t_bl r = bl) (o_rows o)) as [E|E].
    { intros r. destruct (Z.eq_dec (t_bl r) bl); auto. }
    + left. exists (numbers n). exact (downsample_n_spec _ _ _ _ _ _ H bl E).
    + right. unfold downsample_in_time in H. destruct (one_time _); [discriminate|].
      apply (proj2 (downsample_rows_spec _ _ _ _ _ _ _ H bl)). intros [r [I [Eb _]]]. exact (E r I Eb).
Qed.

Lemma downsample_conserved m n summing leb o o' :
  downsample_in_time m n true summing leb o = Ok o' ->
  forall bl, total_time (on_baseline bl (o_rows o')) = total_time (on_baseline bl (o_rows o)).
Proof.
  intros H bl. destruct (downsample_modes _ _ _ _ _ _ _ H bl) as [[c D]|P]; [exact (conserved _ _ _ _ _ D)|apply total_perm, P].
Qed.

Lemma Forall2_In_r {A B} (R : A -> B -> Prop) la lb b : Forall2 R la lb -> In b lb -> exists a, In a la /\ R a b.
Proof.
  induction 1 as [|x y la lb H _ IH]; intros I; [destruct I|]. destruct I as [<-|I]; [exists x; split; [left; reflexivity|exact H]|].
  destruct (IH I) as [a [Ia Ra]]. exists a. split; [right; exact Ia|exact Ra].
Qed.

Lemma downsample_averages m n keep summing leb o o' p :
  downsample_in_time m n keep summing leb o = Ok o' -> In p (o_rows o') ->
  In p (o_rows o) \/ exists w, w <> [] /\ (forall x, In x w -> In x (o_rows o)) /\ averages summing w p.
Proof.
  intros H I.
  assert (J : In p (on_baseline (t_bl p) (o_rows o'))) by (apply filter_In; split; [exact I|apply Z.eqb_refl]).
  destruct (downsample_modes _ _ _ _ _ _ _ H (t_bl p)) as [[c D]|P].
  - right. destruct D as [sorted [ws [dropped [outs [P [_ [[C [Ne _]] [F [_ Q]]]]]]]]].
    apply (Permutation_in _ Q) in J. destruct (Forall2_In_r _ _ _ _ F J) as [w [Iw A]]. exists w.
    split; [apply Ne, Iw|]. split; [|exact A]. intros x Hx.
    assert (K : In x sorted) by (rewrite C; apply in_or_app; left; apply in_concat; exists w; auto).
    apply (Permutation_in _ P) in K. apply filter_In in K. apply K.
  - left. apply (Permutation_in _ P) in J. apply filter_In in J. apply J.
Qed.

Lemma resample_only_up target keep summing leb o o' :
  resample_in_time target false true keep summing leb o = Ok o' ->
  ((forall r, In r (o_rows o) -> t_int r < Q2Qc 2 * target) /\ 0 < target -> o' = o) /\
  (o' = o \/ upsample_in_time target summing leb o = Ok o').
Proof.
  unfold resample_in_time. destruct (map t_int (o_rows o)) as [|x rest] eqn:E; [discriminate|].
  rewrite andb_false_r, andb_true_r. cbn [bind]. intros H. split.
  - intros [G P]. rewrite (not_twice (qc_max rest x) target P) in H; [congruence|].
    pose proof (qc_max_in rest x) as M. rewrite <- E in M. apply in_map_iff in M. destruct M as [r [<- Hr]]. apply G, Hr.
  - destruct (at_least_twice _ _); [right; exact H|left; congruence].
Qed.
Lemma resample_only_down target keep summing leb o o' :
  resample_in_time target true false keep summing leb o = Ok o' ->
  ((forall r, In r (o_rows o) -> 0 < t_int r /\ target < Q2Qc 2 * t_int r) -> o' = o) /\
  (o' = o \/ downsample_in_time (Some target) None keep summing leb o = Ok o').
Proof.
  unfold resample_in_time. destruct (map t_int (o_rows o)) as [|x rest] eqn:E; [discriminate|].
  cbn [negb]. rewrite andb_false_r, andb_true_r. intros H. apply bind_Ok in H. destruct H as [o1 [H1 H2]].
  injection H2 as <-. split.
  - intros G. pose proof (qc_min_in rest x) as M. rewrite <- E in M. apply in_map_iff in M. destruct M as [r [Er Hr]].
    destruct (G r Hr) as [G1 G2]. rewrite Er in G1, G2. rewrite (not_twice target (qc_min rest x) G1 G2) in H1. congruence.
  - destruct (at_least_twice _ _); [right; exact H1|left; congruence].
Qed.
Lemma resample_neither target keep summing leb o o' :
  resample_in_time target true true keep summing leb o = Ok o' -> o' = o.
Proof.
  unfold resample_in_time. destruct (map t_int (o_rows o)) as [|x rest]; [discriminate|].
  rewrite !andb_false_r. cbn [bind]. congruence.
Qed.
