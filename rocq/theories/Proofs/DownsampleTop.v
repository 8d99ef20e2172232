From Coq Require Import List ZArith QArith Qround Qcanon Bool Arith Lia Lqa Sorted Permutation.
From Verif Require Import Lib.Py Lib.Np Lib.Sorting Lib.QSum Model.FreqAvg Model.Resample Spec.ResampleSpec Proofs.ResampleBase Proofs.UpsampleProofs Proofs.DownsampleProofs.
From Verif Require Import Proofs.SelectTotal.
Import ListNotations.
Open Scope Qc_scope.

Definition over_of (mi : option Qc) (n : Z) (w : list trow) : bool :=
  match mi with Some m => over_min m (total_time w) | None => Z.leb n (Z.of_nat (length w)) end.
Definition complete_of (mi : option Qc) (n : Z) (w : list trow) : Prop :=
  match mi with Some m => reaches m w | None => numbers n w end.
Lemma over_of_spec mi n w : over_of mi n w = true <-> complete_of mi n w.
Proof. destruct mi; cbn; [apply over_min_spec|]. unfold numbers. apply Z.leb_le. Qed.
Lemma complete_perm mi n w w' : Permutation w w' -> complete_of mi n w -> complete_of mi n w'.
Proof.
  intros P. destruct mi; cbn.
  - unfold reaches, total_time. rewrite (qsum_perm _ _ (Permutation_map t_int P)). exact (fun H => H).
  - unfold numbers. rewrite (Permutation_length P). exact (fun H => H).
Qed.

Lemma wins_ext {A} (f g : list A -> bool) keep l : (forall w, f w = g w) -> forall cur, wins f keep cur l = wins g keep cur l.
Proof.
  intros H. induction l as [|x rest IH]; intros cur; [reflexivity|]. cbn [wins]. rewrite H. rewrite !IH. reflexivity.
Qed.

Definition the_windows mi n keep rows bl : list (list trow) := wins (over_of mi n) keep [] (rows_of bl rows).
Lemma bl_windows_eq mi n keep rows bl :
  bl_windows mi n keep rows bl = map (fun w => (bl, w, total_time w)) (the_windows mi n keep rows bl).
Proof.
  unfold bl_windows, the_windows. set (here := rows_of bl rows).
  set (over := fun running n_sum => match mi with Some m => over_min m running | None => Z.leb n (Z.of_nat n_sum) end).
  pose proof (scan_wins over keep here [] []) as H. cbn [app length] in H. change (total_time []) with 0 in H.
  rewrite (wins_ext _ (over_of mi n)) in H by (intros w; unfold over, over_of; destruct mi; reflexivity).
  apply (f_equal (map (fun x => (bl, fst x, snd x)))) in H. rewrite !map_map in H. cbn [fst snd] in H. rewrite <- H.
  apply map_ext. intros [[s k] r]. reflexivity.
Qed.

Lemma predicted_min m n keep rows bl c : predicted (Some m) n keep rows bl = Ok c ->
  c = Z.of_nat (length (the_windows (Some m) n keep rows bl)).
Proof.
  unfold predicted. cbn [bind]. destruct (_ <=? _)%nat; [discriminate|]. intros H. injection H as <-. f_equal.
  unfold the_windows. pose proof (count_wins (over_min m) keep (rows_of bl rows) []) as E.
  change (total_time []) with 0 in E. exact E.
Qed.

Lemma sumZ_windows mi n keep rows bls : forall counts,
  Forall2 (fun bl c => c = Z.of_nat (length (the_windows mi n keep rows bl))) bls counts ->
  sumZ counts = Z.of_nat (length (flat_map (bl_windows mi n keep rows) bls)).
Proof.
  intros counts H. induction H as [|bl c bls counts E _ IH]; [reflexivity|].
  cbn [sumZ fold_right flat_map]. unfold sumZ in IH. rewrite IH, E, app_length, bl_windows_eq, map_length. lia.
Qed.

Definition made (summing : bool) (x : Z * list trow * Qc) : trow :=
  match x with (bl, w, running) => average_rows summing bl w running end.
Lemma mapM_write summing nphase size ws : forall k new,
  mapM (write_row summing nphase size) (combine (seq k (length ws)) ws) = Ok new ->
  new = map (made summing) ws /\
  forall bl w running, In (bl, w, running) ws -> (1 < nphase)%nat -> (length (uniqueZ (map t_id w)) <= 1)%nat.
Proof.
  induction ws as [|[[bl w] running] ws IH]; intros k new H; cbn [length seq combine mapM] in H.
  - injection H as <-. split; [reflexivity|]. intros ? ? ? [].
  - apply bind_Ok in H. destruct H as [r [E H]]. apply bind_Ok in H. destruct H as [rs [E2 H]]. injection H as <-.
    apply IH in E2. destruct E2 as [-> Hp]. cbn [write_row] in E.
    destruct (Z.leb _ _); [discriminate|]. destruct (_ && _) eqn:P; [discriminate|]. injection E as <-.
    split; [reflexivity|]. intros bl' w' r' [Eq|I] N; [|exact (Hp _ _ _ I N)].
    injection Eq as <- <- <-. apply andb_false_iff in P. destruct P as [P|P]; apply Nat.ltb_ge in P; lia.
Qed.
Lemma mapM_write_ok summing nphase size ws : forall k,
  (Z.of_nat (k + length ws) <= size)%Z ->
  (forall bl w running, In (bl, w, running) ws -> (1 < nphase)%nat -> (length (uniqueZ (map t_id w)) <= 1)%nat) ->
  mapM (write_row summing nphase size) (combine (seq k (length ws)) ws) = Ok (map (made summing) ws).
Proof.
  induction ws as [|[[bl w] running] ws IH]; intros k S P; [reflexivity|].
  cbn [length seq combine mapM write_row]. cbn [length] in S.
  replace (Z.leb size (Z.of_nat k)) with false by (symmetry; apply Z.leb_gt; lia).
  replace ((1 <? nphase)%nat && (1 <? length (uniqueZ (map t_id w)))%nat) with false.
  2: { symmetry. apply andb_false_iff. destruct (Nat.ltb_spec 1 nphase) as [L|L]; [right|left; reflexivity].
       apply Nat.ltb_ge. apply (P bl w running); [left; reflexivity|exact L]. }
  cbn [bind]. rewrite IH; [reflexivity|lia|]. intros bl' w' r' I. apply P with (bl := bl') (running := r'). right. exact I.
Qed.

Lemma unique_one (l : list Z) x y : (length (uniqueZ l) <= 1)%nat -> In x l -> In y l -> x = y.
Proof.
  intros L Hx Hy. apply uniqueZ_In in Hx. apply uniqueZ_In in Hy.
  destruct (uniqueZ l) as [|a [|b u]]; [destruct Hx| |cbn in L; lia].
  destruct Hx as [<-|[]]. destruct Hy as [<-|[]]. reflexivity.
Qed.

Lemma filter_flat (f : Z -> list trow) bls bl : NoDup bls -> (forall b r, In r (f b) -> t_bl r = b) ->
  filter (fun r => Z.eqb (t_bl r) bl) (flat_map f bls) = if isinZ bl bls then f bl else [].
Proof.
  intros N H.
  assert (Same : forall b, filter (fun r => Z.eqb (t_bl r) bl) (f b) = if Z.eqb bl b then f b else []).
  { intros b. assert (G : forall r, In r (f b) -> Z.eqb (t_bl r) bl = Z.eqb bl b) by (intros r Hr; rewrite (H b r Hr); apply Z.eqb_sym).
    clear H N. induction (f b) as [|r l IH]; [destruct (Z.eqb bl b); reflexivity|]. cbn [filter].
    rewrite (G r) by (left; reflexivity). rewrite IH by (intros r' Hr'; apply G; right; exact Hr').
    destruct (Z.eqb bl b); reflexivity. }
  induction N as [|b bls Hn N IH]; [reflexivity|]. cbn [flat_map]. rewrite filter_app, Same, IH.
  destruct (Z.eqb bl b) eqn:E.
  - apply Z.eqb_eq in E. subst b. replace (isinZ bl bls) with false by (symmetry; apply isinZ_false; exact Hn).
    replace (isinZ bl (bl :: bls)) with true by (symmetry; apply isinZ_spec; left; reflexivity). apply app_nil_r.
  - cbn [app]. replace (isinZ bl (b :: bls)) with (isinZ bl bls); [reflexivity|].
    apply eq_true_iff_eq. rewrite !isinZ_spec. apply Z.eqb_neq in E. cbn. intuition congruence.
Qed.

Definition the_bls (mi : option Qc) (rows : list trow) : list Z :=
  match mi with
  | Some m => uniqueZ (map t_bl (filter (too_short m) rows))
  | None => uniqueZ (map t_bl rows) end.
Definition treated (mi : option Qc) (o : tobj) (bl : Z) : Prop :=
  exists r, In r (o_rows o) /\ t_bl r = bl /\ match mi with Some m => is_short m r | None => True end.
Lemma the_bls_spec mi o bl : In bl (the_bls mi (reorder by_time (o_rows o))) <-> treated mi o bl.
Proof.
  unfold the_bls, treated. destruct mi as [m|]; rewrite uniqueZ_In, in_map_iff; split.
  - intros [r [E I]]. apply filter_In in I. destruct I as [I S]. apply isort_In in I. apply too_short_spec in S. exists r. auto.
  - intros [r [I [E S]]]. exists r. split; [exact E|]. apply filter_In. split; [apply isort_In; exact I|apply too_short_spec; exact S].
  - intros [r [E I]]. apply isort_In in I. exists r. auto.
  - intros [r [I [E _]]]. exists r. split; [exact E|]. apply isort_In. exact I.
Qed.
Lemma the_bls_NoDup mi rows : NoDup (the_bls mi rows).
Proof. destruct mi; apply uniqueZ_NoDup. Qed.

Definition outs_of mi n keep summing rows bl : list trow :=
  map (fun w => average_rows summing bl w (total_time w)) (the_windows mi n keep rows bl).
Lemma made_all summing mi n keep rows bls :
  map (made summing) (flat_map (bl_windows mi n keep rows) bls) = flat_map (outs_of mi n keep summing rows) bls.
Proof.
  induction bls as [|bl bls IH]; [reflexivity|]. cbn [flat_map]. rewrite map_app, IH, bl_windows_eq, map_map. reflexivity.
Qed.

Definition kept_of mi rows : list trow :=
  match mi with Some _ => filter (fun r => negb (isinZ (t_bl r) (the_bls mi rows))) rows | None => [] end.

Lemma downsample_rows_inv mi n keep summing leb o o' :
  downsample_rows mi n keep summing leb o = Ok o' ->
  let rows := reorder by_time (o_rows o) in
  Permutation (o_rows o') (kept_of mi rows ++ flat_map (outs_of mi n keep summing rows) (the_bls mi rows)) /\
  (forall bl w, In bl (the_bls mi rows) -> In w (the_windows mi n keep rows bl) -> (1 < o_nphase o)%nat ->
     (length (uniqueZ (map t_id w)) <= 1)%nat).
Proof.
  intros H rows. unfold downsample_rows in H. fold rows in H.
  change (match mi with Some m => uniqueZ (map t_bl (filter (too_short m) rows)) | None => uniqueZ (map t_bl rows) end)
    with (the_bls mi rows) in H.
  apply bind_Ok in H. destruct H as [counts [_ H]].
  destruct (Z.ltb _ _); [discriminate|]. apply bind_Ok in H. destruct H as [new [W H]].
  apply mapM_write in W. destruct W as [-> P]. destruct (negb _); [discriminate|].
  apply harmonize_inv in H. destruct H as [Q _]. rewrite made_all in Q. split.
  - rewrite Q. apply Permutation_app_tail. unfold kept_of. destruct mi; reflexivity.
  - intros bl w Hb Hw N. apply (P bl w (total_time w)); [|exact N]. apply in_flat_map. exists bl. split; [exact Hb|].
    rewrite bl_windows_eq. apply in_map_iff. exists w. split; [reflexivity|exact Hw].
Qed.

Lemma in_the_windows mi n keep rows bl w x : In w (the_windows mi n keep rows bl) -> In x w -> In x (rows_of bl rows).
Proof.
  intros Hw Hx. unfold the_windows in Hw.
  destruct (rows_of bl rows) as [|r l] eqn:E; [destruct Hw|]. rewrite <- E in *.
  pose proof (wins_concat (over_of mi n) keep (rows_of bl rows) []) as C. cbn [app] in C. rewrite <- C by (rewrite E; discriminate).
  apply in_or_app. left. apply in_concat. exists w. split; assumption.
Qed.

Lemma Forall2_map_r {A B} (R : A -> B -> Prop) (f : A -> B) l : (forall x, In x l -> R x (f x)) -> Forall2 R l (map f l).
Proof.
  induction l as [|x l IH]; intros H; [constructor|]. cbn [map]. constructor; [apply H; left; reflexivity|].
  apply IH. intros y Hy. apply H. right. exact Hy.
Qed.

Theorem downsample_rows_spec mi n keep summing leb o o' :
  downsample_rows mi n keep summing leb o = Ok o' ->
  forall bl,
    (treated mi o bl -> downsampled (complete_of mi n) keep summing (o_nphase o) (on_baseline bl (o_rows o)) (on_baseline bl (o_rows o'))) /\
    (~ treated mi o bl -> Permutation (on_baseline bl (o_rows o')) (on_baseline bl (o_rows o))).
Proof.
  intros H bl. apply downsample_rows_inv in H. cbn zeta in H. set (rows := reorder by_time (o_rows o)) in *.
  destruct H as [P Ids].
  assert (Q : Permutation (on_baseline bl (o_rows o'))
     (filter (fun r => Z.eqb (t_bl r) bl) (kept_of mi rows) ++ (if isinZ bl (the_bls mi rows) then outs_of mi n keep summing rows bl else []))).
  { etransitivity; [apply filter_perm; exact P|]. rewrite filter_app, filter_flat; [reflexivity|apply the_bls_NoDup|].
    intros b r Hr. unfold outs_of in Hr. apply in_map_iff in Hr. destruct Hr as [w [<- _]]. reflexivity. }
  destruct (rows_of_sorted bl (o_rows o)) as [Sorted Perm]. fold rows in Sorted, Perm.
  split.
  - intros T. pose proof (proj2 (the_bls_spec mi o bl) T) as Hin. fold rows in Hin.
    replace (isinZ bl (the_bls mi rows)) with true in Q by (symmetry; apply isinZ_spec; exact Hin).
    assert (K : filter (fun r => Z.eqb (t_bl r) bl) (kept_of mi rows) = []).
    { unfold kept_of. destruct mi as [m|]; [|reflexivity].
      destruct (filter _ _) as [|r l] eqn:E; [reflexivity|]. exfalso.
      assert (Hr : In r (r :: l)) by (left; reflexivity). rewrite <- E in Hr. apply filter_In in Hr. destruct Hr as [Hr Eb].
      apply filter_In in Hr. destruct Hr as [_ N]. apply Z.eqb_eq in Eb. rewrite Eb in N. apply negb_true_iff, isinZ_false in N. exact (N Hin). }
    rewrite K in Q. cbn [app] in Q.
    assert (Hne : rows_of bl rows <> []).
    { destruct T as [r [Ir [Er _]]]. intros E.
      assert (I : In r (rows_of bl rows)) by (apply filter_In; split; [apply isort_In; exact Ir|apply Z.eqb_eq; exact Er]).
      rewrite E in I. destruct I. }
    exists (rows_of bl rows), (the_windows mi n keep rows bl), (left_over (over_of mi n) keep [] (rows_of bl rows)), (outs_of mi n keep summing rows bl).
    split; [exact Perm|]. split; [exact Sorted|].
    split; [apply wins_cut; [intros w; apply over_of_spec|exact Hne]|].
    split; [|split; [|exact Q]].
    + apply Forall2_map_r. intros w Hw. apply average_spec; [eapply wins_nonempty, Hw|].
      intros x Hx. pose proof (in_the_windows _ _ _ _ _ _ _ Hw Hx) as I. apply filter_In in I. apply Z.eqb_eq. apply I.
    + intros N. apply Forall2_map_r. intros w Hw x Hx. pose proof (Ids bl w Hin Hw N) as U.
      destruct w as [|y w]; [destruct Hx|]. cbn [average_rows t_id].
      apply (unique_one _ _ _ U); [apply in_map; exact Hx|left; reflexivity].
  - intros T.
    replace (isinZ bl (the_bls mi rows)) with false in Q.
    2: { symmetry. apply isinZ_false. intros I. apply T. apply (the_bls_spec mi o bl). exact I. }
    rewrite app_nil_r in Q. etransitivity; [exact Q|]. etransitivity; [|exact Perm].
    unfold kept_of. destruct mi as [m|].
    + unfold rows_of. assert (E : filter (fun r => Z.eqb (t_bl r) bl) (filter (fun r => negb (isinZ (t_bl r) (the_bls (Some m) rows))) rows)
         = filter (fun r => Z.eqb (t_bl r) bl) rows); [|rewrite E; reflexivity].
      assert (N : isinZ bl (the_bls (Some m) rows) = false) by (apply isinZ_false; intros I; apply T, (the_bls_spec (Some m) o bl), I).
      clear -N. generalize dependent (the_bls (Some m) rows). intros bls N.
      induction rows as [|r l IH]; [reflexivity|]. cbn [filter]. destruct (Z.eqb (t_bl r) bl) eqn:E.
      * apply Z.eqb_eq in E. rewrite E, N. cbn [negb filter]. rewrite E, Z.eqb_refl, IH. reflexivity.
      * destruct (negb _); cbn [filter]; [rewrite E|]; exact IH.
    + cbn [filter]. destruct (rows_of bl rows) as [|r l] eqn:E; [constructor|]. exfalso. apply T.
      assert (I : In r (rows_of bl rows)) by (rewrite E; left; reflexivity). apply filter_In in I. destruct I as [I B].
      exists r. split; [apply isort_In in I; exact I|]. split; [apply Z.eqb_eq; exact B|exact Logic.I].
Qed.
