From Coq Require Import List ZArith QArith Qround Qcanon Bool Arith Lia Lqa Sorted Permutation.
From Verif Require Import Lib.Py Lib.Np Lib.Sorting Lib.QSum Model.FreqAvg Model.Resample Spec.ResampleSpec Proofs.ResampleBase Proofs.UpsampleProofs.
Import ListNotations.
Open Scope Qc_scope.

(** The windows as lists of rows, and what is left at the end. *)
Fixpoint wins {A} (over : list A -> bool) (keep : bool) (cur l : list A) : list (list A) :=
  match l with
  | [] => []
  | x :: rest =>
      let cur := cur ++ [x] in
      if over cur then cur :: wins over keep [] rest
      else match rest with [] => if keep then [cur] else [] | _ => wins over keep cur rest end
  end.
Fixpoint left_over {A} (over : list A -> bool) (keep : bool) (cur l : list A) : list A :=
  match l with
  | [] => cur
  | x :: rest =>
      let cur := cur ++ [x] in
      if over cur then left_over over keep [] rest
      else match rest with [] => if keep then [] else cur | _ => left_over over keep cur rest end
  end.

Lemma slice_here {A} (a b c : list A) : slice (length a) (length b) (a ++ b ++ c) = b.
Proof.
  unfold slice. rewrite skipn_app, skipn_all, Nat.sub_diag. cbn [app skipn].
  rewrite firstn_app, firstn_all, Nat.sub_diag. cbn. apply app_nil_r.
Qed.

Lemma total_app a b : total_time (a ++ b) = total_time a + total_time b.
Proof. unfold total_time. rewrite map_app, qsum_app. reflexivity. Qed.
Lemma total_one x : total_time [x] = t_int x.
Proof. unfold total_time. cbn. ring. Qed.

Lemma scan_wins over keep l : forall pre cur,
  map (fun x => match x with (start, n, running) => (slice start n (pre ++ cur ++ l), running) end)
    (scan over keep (total_time cur) (length cur) (length pre) (map t_int l)) =
  map (fun w => (w, total_time w)) (wins (fun w => over (total_time w) (length w)) keep cur l).
Proof.
  induction l as [|x rest IH]; intros pre cur; [reflexivity|].
  cbn [map scan wins].
  assert (ER : total_time cur + t_int x = total_time (cur ++ [x])) by (rewrite total_app, total_one; reflexivity).
  assert (EN : S (length cur) = length (cur ++ [x])) by (rewrite app_length; cbn; lia).
  rewrite ER, EN.
  assert (EL : pre ++ cur ++ x :: rest = pre ++ (cur ++ [x]) ++ rest) by (rewrite <- !app_assoc; reflexivity).
  rewrite EL. set (cur' := cur ++ [x]) in *.
  assert (Closed : map (fun x0 => match x0 with (start, n, running) => (slice start n (pre ++ cur' ++ rest), running) end)
      ((length pre, length cur', total_time cur') :: scan over keep 0 0 (length pre + length cur') (map t_int rest)) =
      (cur', total_time cur') :: map (fun w => (w, total_time w)) (wins (fun w => over (total_time w) (length w)) keep [] rest)).
  { cbn [map]. rewrite slice_here. f_equal.
    specialize (IH (pre ++ cur') []). rewrite app_length in IH. cbn [app length] in IH.
    change (total_time []) with 0 in IH. rewrite <- IH. rewrite <- app_assoc. reflexivity. }
  destruct (over (total_time cur') (length cur')) eqn:O; cbn [orb].
  - destruct rest as [|y rest].
    + exact Closed.
    + exact Closed.
  - destruct rest as [|y rest].
    + cbn [map andb negb orb]. destruct keep.
      * exact Closed.
      * reflexivity.
    + cbn [map]. cbn [orb]. rewrite <- (IH pre). reflexivity.
Qed.

Lemma count_wins over keep l : forall cur,
  count_windows over keep (total_time cur) (map t_int l) = length (wins (fun w => over (total_time w)) keep cur l).
Proof.
  induction l as [|x rest IH]; intros cur; [reflexivity|].
  cbn [map count_windows wins].
  assert (ER : total_time cur + t_int x = total_time (cur ++ [x])) by (rewrite total_app, total_one; reflexivity).
  rewrite ER. set (cur' := cur ++ [x]) in *.
  pose proof (IH []) as IH0. change (total_time []) with 0 in IH0.
  destruct (over (total_time cur')) eqn:O; cbn [orb].
  - destruct rest as [|y rest]; cbn [map andb negb orb]; [reflexivity|].
    cbn [length]. f_equal. exact IH0.
  - destruct rest as [|y rest]; cbn [map andb negb orb].
    + destruct keep; reflexivity.
    + apply IH.
Qed.

Lemma wins_concat {A} (over : list A -> bool) keep l : forall cur, l <> [] ->
  concat (wins over keep cur l) ++ left_over over keep cur l = cur ++ l.
Proof.
  induction l as [|x rest IH]; intros cur Hne; [elim Hne; reflexivity|].
  cbn [wins left_over]. destruct (over (cur ++ [x])).
  - cbn [concat]. rewrite <- app_assoc. destruct rest as [|y rest].
    + cbn. rewrite app_nil_r. reflexivity.
    + rewrite IH by discriminate. cbn. rewrite <- app_assoc. reflexivity.
  - destruct rest as [|y rest].
    + destruct keep; cbn; rewrite ?app_nil_r; reflexivity.
    + rewrite IH by discriminate. rewrite <- app_assoc. reflexivity.
Qed.

Lemma wins_nonempty {A} (over : list A -> bool) keep l : forall cur w, In w (wins over keep cur l) -> w <> [].
Proof.
  induction l as [|x rest IH]; intros cur w H; [destruct H|].
  cbn [wins] in H. destruct (over (cur ++ [x])).
  - destruct H as [<-|H]; [destruct cur; discriminate|]. eapply IH, H.
  - destruct rest as [|y rest]; [|eapply IH, H]. destruct keep; [|destruct H].
    destruct H as [<-|[]]. destruct cur; discriminate.
Qed.

Lemma wins_complete {A} (over : list A -> bool) keep l : forall cur w,
  In w (removelast (wins over keep cur l)) -> over w = true.
Proof.
  induction l as [|x rest IH]; intros cur w H; [destruct H|].
  cbn [wins] in H. destruct (over (cur ++ [x])) eqn:O.
  - destruct (wins over keep [] rest) as [|v vs] eqn:E; [destruct H|].
    change (removelast ((cur ++ [x]) :: v :: vs)) with ((cur ++ [x]) :: removelast (v :: vs)) in H.
    destruct H as [<-|H]; [exact O|]. apply (IH []). rewrite E. exact H.
  - destruct rest as [|y rest]; [destruct keep; destruct H|]. eapply IH, H.
Qed.

Lemma wins_complete_all {A} (over : list A -> bool) l : forall cur w,
  In w (wins over false cur l) -> over w = true.
Proof.
  induction l as [|x rest IH]; intros cur w H; [destruct H|].
  cbn [wins] in H. destruct (over (cur ++ [x])) eqn:O.
  - destruct H as [<-|H]; [exact O|]. eapply IH, H.
  - destruct rest as [|y rest]; [destruct H|]. eapply IH, H.
Qed.

Definition fresh {A} (over : list A -> bool) (cur : list A) : Prop :=
  forall a b, cur = a ++ b -> a <> [] -> over a = false.
Lemma fresh_nil {A} (over : list A -> bool) : fresh over [].
Proof. intros a b E N. symmetry in E. apply app_eq_nil in E. destruct E as [E _]. elim N. exact E. Qed.
Lemma app_snoc_inv {A} (c a b : list A) x : c ++ [x] = a ++ b -> b <> [] -> exists b', c = a ++ b'.
Proof.
  intros E N. destruct (exists_last N) as [b' [y ->]]. rewrite app_assoc in E. apply app_inj_tail in E. exists b'. apply E.
Qed.
Lemma fresh_snoc {A} (over : list A -> bool) cur x : fresh over cur -> over (cur ++ [x]) = false -> fresh over (cur ++ [x]).
Proof.
  intros F O a b E N. destruct b as [|y b].
  - rewrite app_nil_r in E. rewrite <- E. exact O.
  - destruct (app_snoc_inv _ _ _ _ E) as [b' Eb]; [discriminate|]. exact (F a b' Eb N).
Qed.

Lemma wins_minimal {A} (over : list A -> bool) keep l : forall cur w a b, fresh over cur ->
  In w (wins over keep cur l) -> w = a ++ b -> a <> [] -> b <> [] -> over a = false.
Proof.
  induction l as [|x rest IH]; intros cur w a b F H E Na Nb; [destruct H|].
  cbn [wins] in H. destruct (over (cur ++ [x])) eqn:O.
  - destruct H as [<-|H].
    + destruct (app_snoc_inv _ _ _ _ E Nb) as [b' Eb]. exact (F a b' Eb Na).
    + exact (IH [] w a b (fresh_nil over) H E Na Nb).
  - destruct rest as [|y rest].
    + destruct keep; [|destruct H]. destruct H as [<-|[]].
      destruct (app_snoc_inv _ _ _ _ E Nb) as [b' Eb]. exact (F a b' Eb Na).
    + exact (IH _ w a b (fresh_snoc _ _ _ F O) H E Na Nb).
Qed.

Lemma left_over_keep {A} (over : list A -> bool) l : forall cur, l <> [] -> left_over over true cur l = [].
Proof.
  induction l as [|x rest IH]; intros cur N; [elim N; reflexivity|].
  cbn [left_over]. destruct (over (cur ++ [x])).
  - destruct rest as [|y rest]; [reflexivity|]. apply IH. discriminate.
  - destruct rest as [|y rest]; [reflexivity|]. apply IH. discriminate.
Qed.
Lemma left_over_fresh {A} (over : list A -> bool) l : forall cur, fresh over cur -> fresh over (left_over over false cur l).
Proof.
  induction l as [|x rest IH]; intros cur F; [exact F|].
  cbn [left_over]. destruct (over (cur ++ [x])) eqn:O; [apply IH, fresh_nil|].
  destruct rest as [|y rest]; [apply fresh_snoc; assumption|]. apply IH, fresh_snoc; assumption.
Qed.

Lemma wins_cut (complete : list trow -> Prop) (over : list trow -> bool) (keep : bool) l :
  (forall w, over w = true <-> complete w) -> l <> [] ->
  is_cut complete keep l (wins over keep [] l) (left_over over keep [] l).
Proof.
  intros Ho Hne.
  assert (Hf : forall w, over w = false -> ~ complete w) by (intros w Hw Hc; apply Ho in Hc; congruence).
  unfold is_cut. split; [symmetry; apply (wins_concat over keep l []); exact Hne|].
  split; [intros w; apply wins_nonempty|].
  split; [intros w H; apply Ho; eapply wins_complete, H|].
  split; [intros w a b H E Na Nb; apply Hf; exact (wins_minimal over keep l [] w a b (fresh_nil over) H E Na Nb)|].
  destruct keep; [apply left_over_keep; exact Hne|]. split.
  - intros w H. apply Ho. eapply wins_complete_all, H.
  - intros a b E Na. apply Hf. exact (left_over_fresh over l [] (fresh_nil over) a b E Na).
Qed.

(** ** The value of a window *)

Lemma unmasked_counted w j k : counted w j k (unmasked_rows w j k).
Proof. unfold counted, unmasked_rows. destruct (forallb _ w); reflexivity. Qed.

Lemma average_spec summing bl w : w <> [] -> (forall x, In x w -> t_bl x = bl) ->
  averages summing w (average_rows summing bl w (total_time w)).
Proof.
  intros Hne Hb. unfold averages. cbn [average_rows t_bl t_id t_int t_time t_flag t_ns t_data].
  split; [intros x Hx; symmetry; apply Hb; exact Hx|].
  split; [destruct w as [|x w]; [elim Hne; reflexivity|]; exists x; split; [left; reflexivity|reflexivity]|].
  split; [reflexivity|]. split; [reflexivity|]. intros j k.
  split; [rewrite forallb_forall; reflexivity|].
  exists (unmasked_rows w j k). split; [apply unmasked_counted|]. unfold weight. cbn zeta.
  split; [reflexivity|]. destruct summing.
  - unfold csum. cbn [fst snd]. rewrite !map_map. split; reflexivity.
  - intros Hw. unfold cdiv. destruct (Qc_eq_dec _ 0) as [E|_]; [elim Hw; exact E|].
    unfold csum, cscale. cbn [fst snd]. rewrite !map_map. cbn [fst snd]. split; reflexivity.
Qed.

(** ** Rows of a baseline *)

Lemma by_time_total x y : by_time x y = true \/ by_time y x = true.
Proof.
  unfold by_time. rewrite !orb_true_iff, !andb_true_iff, !qlt_spec, !qceq_spec, !Z.leb_le.
  destruct (Q_dec (this (t_time x)) (this (t_time y))) as [[L|L]|E].
  - left. left. exact L.
  - right. left. exact L.
  - apply Qc_is_canon in E. destruct (Z.le_ge_cases (t_bl x) (t_bl y)); [left|right]; right; split; auto.
Qed.
Lemma by_time_le x y : by_time x y = true -> t_time x <= t_time y.
Proof.
  unfold by_time. rewrite orb_true_iff, andb_true_iff, qlt_spec, qceq_spec.
  intros [L|[E _]]; [apply Qclt_le_weak; exact L|rewrite E; apply Qcle_refl].
Qed.
Lemma by_time_trans x y z : by_time x y = true -> by_time y z = true -> by_time x z = true.
Proof.
  unfold by_time. rewrite !orb_true_iff, !andb_true_iff, !qlt_spec, !qceq_spec, !Z.leb_le.
  intros [A|[A A']] [B|[B B']].
  - left. eapply Qclt_trans; eassumption.
  - left. rewrite <- B. exact A.
  - left. rewrite A. exact B.
  - right. split; [congruence|lia].
Qed.
Lemma reordered_sorted rows : in_time_order (reorder by_time rows).
Proof.
  eapply StronglySorted_impl; [|apply isort_sorted; [apply by_time_total|intros x y z; apply by_time_trans]].
  intros a b _ _ H. apply by_time_le. exact H.
Qed.

Lemma filter_perm {A} (f : A -> bool) l l' : Permutation l l' -> Permutation (filter f l) (filter f l').
Proof.
  induction 1 as [|x l l' H IH|x y l|l1 l2 l3 H1 IH1 H2 IH2]; cbn; [constructor| | |].
  - destruct (f x); [constructor|]; exact IH.
  - destruct (f x), (f y); try reflexivity. constructor.
  - etransitivity; eassumption.
Qed.

Lemma rows_of_sorted bl rows : in_time_order (rows_of bl (reorder by_time rows)) /\
  Permutation (rows_of bl (reorder by_time rows)) (on_baseline bl rows).
Proof.
  split; [apply StronglySorted_filter, reordered_sorted|].
  apply filter_perm. symmetry. apply isort_perm.
Qed.
