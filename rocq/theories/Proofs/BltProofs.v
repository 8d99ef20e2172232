(** Lemmas about the baseline-time axis. *)
From Coq Require Import List ZArith Bool Arith Lia Sorted Permutation ZifyBool ZifyNat.
From Verif Require Import Lib.Py Lib.Np Lib.Sorting Spec.BltSpec Model.BltAxis.
Import ListNotations.
Open Scope Z_scope.

(** ** determine_blt_order *)
Lemma lex_le_trans ks r s t : lex_le ks r s -> lex_le ks s t -> lex_le ks r t.
Proof.
  induction ks as [|k ks IH]; simpl; [auto|]. intros [H|[H H']] [G|[G G']]; try (left; lia).
  right. split; [lia|auto].
Qed.

(** Every flag is only ever lowered, and stays up only if the pair is in order. *)
Definition flag_le (g f : bool) : Prop := g = true -> f = true.

Ltac fl := intros; repeat match goal with
  | H : context [if ?c then _ else _] |- _ => destruct c eqn:?; cbn [negb time_bl time_a time_b bl_time a_time b_time bl_order a_order b_order time_order] in H; try discriminate end;
  simpl; lia.

Lemma step_time_time_bl o p c f : time_bl (step_time o p c f) = true -> time_bl f = true /\ (r_time p < r_time c \/ (r_time p = r_time c /\ r_bl p <= r_bl c)).
Proof. unfold step_time. fl. Qed.
Lemma step_bl_time_bl o p c f : time_bl (step_bl o p c f) = true -> time_bl f = true.
Proof. unfold step_bl. fl. Qed.
Lemma step_a_time_bl o p c f : time_bl (step_a o p c f) = true -> time_bl f = true.
Proof. unfold step_a. fl. Qed.
Lemma step_b_time_bl o p c f : time_bl (step_b o p c f) = true -> time_bl f = true.
Proof. unfold step_b. fl. Qed.
Lemma st_time_bl Nb Nt i p c f : time_bl (blt_step Nb Nt i p c f) = true -> time_bl f = true /\ lex_le [KTime; KBaseline] p c.
Proof.
  unfold blt_step. cbv zeta. intros H. apply step_b_time_bl in H.
  apply step_a_time_bl in H.
  apply step_bl_time_bl in H.
  apply step_time_time_bl in H. destruct H as [H ?].
  split; [assumption|simpl; lia].
Qed.

Lemma step_time_time_a o p c f : time_a (step_time o p c f) = true -> time_a f = true /\ (r_time p < r_time c \/ (r_time p = r_time c /\ r_ant1 p <= r_ant1 c)).
Proof. unfold step_time. fl. Qed.
Lemma step_bl_time_a o p c f : time_a (step_bl o p c f) = true -> time_a f = true.
Proof. unfold step_bl. fl. Qed.
Lemma step_a_time_a o p c f : time_a (step_a o p c f) = true -> time_a f = true.
Proof. unfold step_a. fl. Qed.
Lemma step_b_time_a o p c f : time_a (step_b o p c f) = true -> time_a f = true.
Proof. unfold step_b. fl. Qed.
Lemma st_time_a Nb Nt i p c f : time_a (blt_step Nb Nt i p c f) = true -> time_a f = true /\ lex_le [KTime; KAnt1] p c.
Proof.
  unfold blt_step. cbv zeta. intros H. apply step_b_time_a in H.
  apply step_a_time_a in H.
  apply step_bl_time_a in H.
  apply step_time_time_a in H. destruct H as [H ?].
  split; [assumption|simpl; lia].
Qed.

Lemma step_time_time_b o p c f : time_b (step_time o p c f) = true -> time_b f = true /\ (r_time p < r_time c \/ (r_time p = r_time c /\ r_ant2 p <= r_ant2 c)).
Proof. unfold step_time. fl. Qed.
Lemma step_bl_time_b o p c f : time_b (step_bl o p c f) = true -> time_b f = true.
Proof. unfold step_bl. fl. Qed.
Lemma step_a_time_b o p c f : time_b (step_a o p c f) = true -> time_b f = true.
Proof. unfold step_a. fl. Qed.
Lemma step_b_time_b o p c f : time_b (step_b o p c f) = true -> time_b f = true.
Proof. unfold step_b. fl. Qed.
Lemma st_time_b Nb Nt i p c f : time_b (blt_step Nb Nt i p c f) = true -> time_b f = true /\ lex_le [KTime; KAnt2] p c.
Proof.
  unfold blt_step. cbv zeta. intros H. apply step_b_time_b in H.
  apply step_a_time_b in H.
  apply step_bl_time_b in H.
  apply step_time_time_b in H. destruct H as [H ?].
  split; [assumption|simpl; lia].
Qed.

Lemma step_time_bl_time o p c f : bl_time (step_time o p c f) = true -> bl_time f = true /\ ((r_time c < r_time p -> r_bl p <> r_bl c)).
Proof. unfold step_time. fl. Qed.
Lemma step_bl_bl_time o p c f : bl_time (step_bl o p c f) = true -> bl_time f = true /\ (r_bl p <= r_bl c).
Proof. unfold step_bl. fl. Qed.
Lemma step_a_bl_time o p c f : bl_time (step_a o p c f) = true -> bl_time f = true.
Proof. unfold step_a. fl. Qed.
Lemma step_b_bl_time o p c f : bl_time (step_b o p c f) = true -> bl_time f = true.
Proof. unfold step_b. fl. Qed.
Lemma st_bl_time Nb Nt i p c f : bl_time (blt_step Nb Nt i p c f) = true -> bl_time f = true /\ lex_le [KBaseline; KTime] p c.
Proof.
  unfold blt_step. cbv zeta. intros H. apply step_b_bl_time in H.
  apply step_a_bl_time in H.
  apply step_bl_bl_time in H. destruct H as [H ?].
  apply step_time_bl_time in H. destruct H as [H ?].
  split; [assumption|simpl; lia].
Qed.

Lemma step_time_a_time o p c f : a_time (step_time o p c f) = true -> a_time f = true /\ ((r_time c < r_time p -> r_ant1 p <> r_ant1 c)).
Proof. unfold step_time. fl. Qed.
Lemma step_bl_a_time o p c f : a_time (step_bl o p c f) = true -> a_time f = true.
Proof. unfold step_bl. fl. Qed.
Lemma step_a_a_time o p c f : a_time (step_a o p c f) = true -> a_time f = true /\ (r_ant1 p <= r_ant1 c).
Proof. unfold step_a. fl. Qed.
Lemma step_b_a_time o p c f : a_time (step_b o p c f) = true -> a_time f = true.
Proof. unfold step_b. fl. Qed.
Lemma st_a_time Nb Nt i p c f : a_time (blt_step Nb Nt i p c f) = true -> a_time f = true /\ lex_le [KAnt1; KTime] p c.
Proof.
  unfold blt_step. cbv zeta. intros H. apply step_b_a_time in H.
  apply step_a_a_time in H. destruct H as [H ?].
  apply step_bl_a_time in H.
  apply step_time_a_time in H. destruct H as [H ?].
  split; [assumption|simpl; lia].
Qed.

Lemma step_time_b_time o p c f : b_time (step_time o p c f) = true -> b_time f = true /\ ((r_time c < r_time p -> r_ant2 p <> r_ant2 c)).
Proof. unfold step_time. fl. Qed.
Lemma step_bl_b_time o p c f : b_time (step_bl o p c f) = true -> b_time f = true.
Proof. unfold step_bl. fl. Qed.
Lemma step_a_b_time o p c f : b_time (step_a o p c f) = true -> b_time f = true.
Proof. unfold step_a. fl. Qed.
Lemma step_b_b_time o p c f : b_time (step_b o p c f) = true -> b_time f = true /\ (r_ant2 p <= r_ant2 c).
Proof. unfold step_b. fl. Qed.
Lemma st_b_time Nb Nt i p c f : b_time (blt_step Nb Nt i p c f) = true -> b_time f = true /\ lex_le [KAnt2; KTime] p c.
Proof.
  unfold blt_step. cbv zeta. intros H. apply step_b_b_time in H. destruct H as [H ?].
  apply step_a_b_time in H.
  apply step_bl_b_time in H.
  apply step_time_b_time in H. destruct H as [H ?].
  split; [assumption|simpl; lia].
Qed.

Lemma step_time_bl_order o p c f : bl_order (step_time o p c f) = true -> bl_order f = true.
Proof. unfold step_time. fl. Qed.
Lemma step_bl_bl_order o p c f : bl_order (step_bl o p c f) = true -> bl_order f = true /\ (r_bl p <= r_bl c).
Proof. unfold step_bl. fl. Qed.
Lemma step_a_bl_order o p c f : bl_order (step_a o p c f) = true -> bl_order f = true.
Proof. unfold step_a. fl. Qed.
Lemma step_b_bl_order o p c f : bl_order (step_b o p c f) = true -> bl_order f = true.
Proof. unfold step_b. fl. Qed.
Lemma st_bl_order Nb Nt i p c f : bl_order (blt_step Nb Nt i p c f) = true -> bl_order f = true /\ lex_le [KBaseline] p c.
Proof.
  unfold blt_step. cbv zeta. intros H. apply step_b_bl_order in H.
  apply step_a_bl_order in H.
  apply step_bl_bl_order in H. destruct H as [H ?].
  apply step_time_bl_order in H.
  split; [assumption|simpl; lia].
Qed.

Lemma step_time_a_order o p c f : a_order (step_time o p c f) = true -> a_order f = true.
Proof. unfold step_time. fl. Qed.
Lemma step_bl_a_order o p c f : a_order (step_bl o p c f) = true -> a_order f = true.
Proof. unfold step_bl. fl. Qed.
Lemma step_a_a_order o p c f : a_order (step_a o p c f) = true -> a_order f = true /\ (r_ant1 p <= r_ant1 c).
Proof. unfold step_a. fl. Qed.
Lemma step_b_a_order o p c f : a_order (step_b o p c f) = true -> a_order f = true.
Proof. unfold step_b. fl. Qed.
Lemma st_a_order Nb Nt i p c f : a_order (blt_step Nb Nt i p c f) = true -> a_order f = true /\ lex_le [KAnt1] p c.
Proof.
  unfold blt_step. cbv zeta. intros H. apply step_b_a_order in H.
  apply step_a_a_order in H. destruct H as [H ?].
  apply step_bl_a_order in H.
  apply step_time_a_order in H.
  split; [assumption|simpl; lia].
Qed.

Lemma step_time_b_order o p c f : b_order (step_time o p c f) = true -> b_order f = true.
Proof. unfold step_time. fl. Qed.
Lemma step_bl_b_order o p c f : b_order (step_bl o p c f) = true -> b_order f = true.
Proof. unfold step_bl. fl. Qed.
Lemma step_a_b_order o p c f : b_order (step_a o p c f) = true -> b_order f = true.
Proof. unfold step_a. fl. Qed.
Lemma step_b_b_order o p c f : b_order (step_b o p c f) = true -> b_order f = true /\ (r_ant2 p <= r_ant2 c).
Proof. unfold step_b. fl. Qed.
Lemma st_b_order Nb Nt i p c f : b_order (blt_step Nb Nt i p c f) = true -> b_order f = true /\ lex_le [KAnt2] p c.
Proof.
  unfold blt_step. cbv zeta. intros H. apply step_b_b_order in H. destruct H as [H ?].
  apply step_a_b_order in H.
  apply step_bl_b_order in H.
  apply step_time_b_order in H.
  split; [assumption|simpl; lia].
Qed.

Lemma step_time_time_order o p c f : time_order (step_time o p c f) = true -> time_order f = true /\ (r_time p <= r_time c).
Proof. unfold step_time. fl. Qed.
Lemma step_bl_time_order o p c f : time_order (step_bl o p c f) = true -> time_order f = true.
Proof. unfold step_bl. fl. Qed.
Lemma step_a_time_order o p c f : time_order (step_a o p c f) = true -> time_order f = true.
Proof. unfold step_a. fl. Qed.
Lemma step_b_time_order o p c f : time_order (step_b o p c f) = true -> time_order f = true.
Proof. unfold step_b. fl. Qed.
Lemma st_time_order Nb Nt i p c f : time_order (blt_step Nb Nt i p c f) = true -> time_order f = true /\ lex_le [KTime] p c.
Proof.
  unfold blt_step. cbv zeta. intros H. apply step_b_time_order in H.
  apply step_a_time_order in H.
  apply step_bl_time_order in H.
  apply step_time_time_order in H. destruct H as [H ?].
  split; [assumption|simpl; lia].
Qed.

Lemma blt_loop_inv (proj : flags -> bool) ks
  (Hany : forall f, proj f = true -> any_flag f = true)
  (Hstep : forall Nb Nt i p c f, proj (blt_step Nb Nt i p c f) = true -> proj f = true /\ lex_le ks p c) :
  forall Nb Nt rest i p f, proj (blt_loop Nb Nt i p rest f) = true ->
  Sorted (lex_le ks) (p :: rest).
Proof.
  intros Nb Nt rest. induction rest as [|c rest IH]; intros i p f H; [repeat constructor|].
  assert (Hback : forall rest i p f, proj (blt_loop Nb Nt i p rest f) = true -> proj f = true).
  { clear - Hstep. induction rest as [|c rest IH]; intros i p f H; simpl in H; [exact H|].
    destruct (any_flag _); [apply IH in H|]; apply Hstep in H; tauto. }
  cbn [blt_loop] in H. cbv zeta in H.
  destruct (any_flag (blt_step Nb Nt i p c f)) eqn:E.
  - constructor; [eapply IH; exact H|]. constructor. apply Hback in H. apply Hstep in H. tauto.
  - apply Hany in H. congruence.
Qed.

Lemma nodup_len1 (l : list Z) : length (uniqueZ l) = 1%nat -> exists v, Forall (eq v) l.
Proof.
  intros H. destruct (uniqueZ l) as [|v [|]] eqn:E; try discriminate. exists v.
  apply Forall_forall. intros x Hx. apply uniqueZ_In in Hx. rewrite E in Hx. simpl in Hx. intuition.
Qed.

Lemma StronglySorted_all {A} (R : A -> A -> Prop) l : (forall x y, In x l -> In y l -> R x y) -> StronglySorted R l.
Proof.
  induction l as [|a l IH]; intros H; constructor.
  - apply IH. intros; apply H; right; assumption.
  - apply Forall_forall. intros x Hx. apply H; [left; reflexivity|right; exact Hx].
Qed.

Lemma determine_order_sorted rows ks :
  let nb := length (uniqueZ (map r_bl rows)) in
  let nt := length (uniqueZ (map r_time rows)) in
  determine_blt_order rows nb nt = Ok (Some ks) -> sorted_by ks rows.
Proof.
  intros nb nt. unfold determine_blt_order.
  destruct ((nb =? 1) && (nt =? 1))%nat eqn:E1.
  { intros H. injection H as <-. apply andb_true_iff in E1 as [Hb Ht].
    apply Nat.eqb_eq in Hb, Ht. apply nodup_len1 in Hb as (b & Hb), Ht as (t & Ht).
    rewrite Forall_map, Forall_forall in Hb, Ht. apply StronglySorted_all.
    intros x y Hx Hy. simpl. right. split; [rewrite <- (Hb x Hx), <- (Hb y Hy); reflexivity|].
    right. split; [rewrite <- (Ht x Hx), <- (Ht y Hy); reflexivity|exact I]. }
  cbv zeta. match goal with |- (if ?c then _ else _) = _ -> _ => destruct c; [discriminate|] end.
  intros H. unfold sorted_by. apply Sorted_StronglySorted; [intros x y z; apply lex_le_trans|].
  destruct rows as [|p rest]; [constructor|].
  set (f := blt_loop _ _ _ _ _ _) in H.
  Ltac fin st k := eapply (blt_loop_inv k); [let ff := fresh in let Hff := fresh in intros ff Hff; unfold any_flag; rewrite Hff, ?orb_true_r; reflexivity| intros *; apply st|eassumption].
  destruct (time_bl f) eqn:F1; [injection H as <-; fin st_time_bl time_bl|].
  destruct (bl_time f) eqn:F2; [injection H as <-; fin st_bl_time bl_time|].
  destruct (time_a f) eqn:F3; [injection H as <-; fin st_time_a time_a|].
  destruct (a_time f) eqn:F4; [injection H as <-; fin st_a_time a_time|].
  destruct (time_b f) eqn:F5; [injection H as <-; fin st_time_b time_b|].
  destruct (b_time f) eqn:F6; [injection H as <-; fin st_b_time b_time|].
  destruct (bl_order f) eqn:F7; [injection H as <-; fin st_bl_order bl_order|].
  destruct (a_order f) eqn:F8; [injection H as <-; fin st_a_order a_order|].
  destruct (b_order f) eqn:F9; [injection H as <-; fin st_b_order b_order|].
  destruct (time_order f) eqn:F10; [injection H as <-; fin st_time_order time_order|].
  discriminate.
Qed.

(** ** determine_rectangularity *)
Lemma NoDup_of_count (l : list Z) bs : (forall x, In x l -> In x bs) ->
  length (uniqueZ l) = length bs -> NoDup bs.
Proof.
  intros Hi Hl. apply (NoDup_incl_NoDup (l := uniqueZ l)); [apply uniqueZ_NoDup|lia|].
  intros x Hx. apply Hi. rewrite <- uniqueZ_In. exact Hx.
Qed.

Lemma count_all_nodup (l : list Z) : length (uniqueZ l) = length l -> NoDup l.
Proof. intros H. apply (NoDup_of_count l l); auto. Qed.

Lemma all_equal_repeat {A} (v : A) l : Forall (eq v) l -> l = repeat v (length l).
Proof. induction 1 as [|x l <- _ IH]; simpl; congruence. Qed.

Lemma concat_singletons {A} (l : list A) : concat (map (fun b => [b]) l) = l.
Proof. induction l; simpl; congruence. Qed.

Lemma concat_reshape {A} n m (l : list A) : length l = (n * m)%nat -> concat (reshape n m l) = l.
Proof.
  revert l; induction n as [|n IH]; intros l H; simpl; [destruct l; [reflexivity|discriminate]|].
  rewrite IH; [apply firstn_skipn|]. rewrite skipn_length. simpl in H. lia.
Qed.

Lemma reshape_rows {A} n m (l : list A) : length l = (n * m)%nat ->
  length (reshape n m l) = n /\ Forall (fun r => length r = m) (reshape n m l).
Proof.
  revert l; induction n as [|n IH]; intros l H; simpl; [auto|]. simpl in H.
  destruct (IH (skipn m l)) as [H1 H2]; [rewrite skipn_length; lia|].
  split; [lia|]. constructor; [rewrite firstn_length; lia|exact H2].
Qed.

Lemma sum_abs_zero m : sum_abs m = 0 <-> Forall (fun x => x = 0) (concat m).
Proof.
  unfold sum_abs. induction (concat m) as [|x l IH]; simpl; [split; [constructor|reflexivity]|].
  assert (0 <= fold_right (fun x s => Z.abs x + s) 0 l) by (clear; induction l; simpl; lia).
  split.
  - intros E. constructor; [lia|]. apply IH. lia.
  - intros E. inversion_clear E. apply IH in H1. lia.
Qed.

Lemma any_nonzero_false m : any_nonzero m = false <-> Forall (fun x => x = 0) (concat m).
Proof.
  unfold any_nonzero. induction (concat m) as [|x l IH]; simpl; [split; [constructor|reflexivity]|].
  rewrite orb_false_iff, IH. split.
  - intros [E1 E2]. constructor; [lia|exact E2].
  - intros E. inversion_clear E. subst x. auto.
Qed.

Lemma diff_zero l : Forall (fun x => x = 0) (diff l) <-> match l with [] => True | v :: _ => Forall (eq v) l end.
Proof.
  destruct l as [|v l]; [simpl; split; constructor|]. revert v. induction l as [|b l IH]; intros v.
  - simpl. split; repeat constructor.
  - cbn [diff]. split.
    + intros E. inversion_clear E. assert (b = v) by lia. subst b. apply IH in H0. constructor; auto.
    + intros E. inversion_clear E. inversion_clear H0. subst b. constructor; [lia|]. apply IH. constructor; auto.
Qed.

Lemma diff0_zero m M : Forall (fun r => length r = m) M ->
  (Forall (fun x => x = 0) (concat (diff_axis0 M)) <-> match M with [] => True | v :: _ => Forall (eq v) M end).
Proof.
  destruct M as [|v M]; [simpl; split; constructor|]. intros H. revert v H.
  induction M as [|b M IH]; intros v H.
  - simpl. split; repeat constructor.
  - change (concat (diff_axis0 (v :: b :: M))) with (map (fun p => snd p - fst p) (combine v b) ++ concat (diff_axis0 (b :: M))).
    assert (Hvb : length v = length b) by (rewrite (Forall_inv H), (Forall_inv (Forall_inv_tail H)); reflexivity).
    rewrite Forall_app, IH by (exact (Forall_inv_tail H)).
    assert (E : Forall (fun x => x = 0) (map (fun p => snd p - fst p) (combine v b)) <-> v = b).
    { clear - Hvb. revert b Hvb. induction v as [|x v IHv]; intros [|y b] Hl; try discriminate; simpl; [split; [reflexivity|constructor]|].
      split.
      - intros E. inversion_clear E. f_equal; [lia|]. apply IHv; [simpl in Hl; lia|assumption].
      - intros E. injection E as <- <-. constructor; [lia|]. apply IHv; auto. }
    rewrite E. split.
    + intros [<- E2]. constructor; auto.
    + intros E2. inversion_clear E2 as [|? ? Ha Hb]. inversion_clear Hb as [|? ? Hc Hd]. split; [assumption|]. subst. constructor; auto.
Qed.

Lemma diff1_zero M :
  (Forall (fun x => x = 0) (concat (diff_axis1 M)) <-> Forall (fun r => match r with [] => True | v :: _ => Forall (eq v) r end) M).
Proof.
  unfold diff_axis1. induction M as [|r M IH]; simpl; [split; constructor|].
  rewrite Forall_app, diff_zero, IH. split.
  - intros [H1 H2]. constructor; assumption.
  - intros H. inversion_clear H. auto.
Qed.

Lemma const_rows m M : m <> 0%nat -> Forall (fun r => length r = m) M ->
  Forall (fun r => match r with [] => True | v :: _ => Forall (eq v) r end) M ->
  M = map (fun b => repeat b m) (map (hd 0) M).
Proof.
  intros Hm H1 H2. induction M as [|r M IH]; simpl; [reflexivity|].
  inversion_clear H1. inversion_clear H2. rewrite <- IH by assumption. f_equal.
  destruct r as [|v r]; [simpl in H; lia|]. apply all_equal_repeat in H1. rewrite H1 at 1. simpl hd. congruence.
Qed.

Lemma same_rows {A} (v : list A) M : Forall (eq v) M -> M = map (fun _ => v) M.
Proof. induction 1 as [|x M <- _ IH]; simpl; congruence. Qed.

Lemma in_concat_repeat (ts bs : list Z) x : In x (concat (map (fun b => repeat b (length ts)) bs)) -> In x bs.
Proof.
  intros H. apply in_concat in H as (r & Hr & Hx). apply in_map_iff in Hr as (b & <- & Hb).
  apply repeat_spec in Hx. subst. exact Hb.
Qed.
Lemma in_concat_same {A} (ts : list Z) (bs : list A) x : In x (concat (map (fun _ => ts) bs)) -> In x ts.
Proof. intros H. apply in_concat in H as (r & Hr & Hx). apply in_map_iff in Hr as (b & <- & Hb). exact Hx. Qed.

(** The checked layout of one pair of arrays: [A] has equal rows, [B] constant rows. *)
Lemma layout_of_checks n m A B : n <> 0%nat -> m <> 0%nat ->
  length A = (n * m)%nat -> length B = (n * m)%nat ->
  Forall (fun x => x = 0) (concat (diff_axis0 (reshape n m A))) ->
  Forall (fun x => x = 0) (concat (diff_axis1 (reshape n m B))) ->
  exists va vb, length va = m /\ length vb = n /\
    A = concat (map (fun _ => va) vb) /\ B = concat (map (fun b => repeat b (length va)) vb).
Proof.
  intros Hn Hm HA HB H1 H2.
  destruct (reshape_rows n m A HA) as [LA RA]. destruct (reshape_rows n m B HB) as [LB RB].
  rewrite (diff0_zero m) in H1 by assumption. apply diff1_zero in H2.
  destruct (reshape n m A) as [|va MA] eqn:EA; [simpl in LA; lia|].
  pose proof (const_rows m _ Hm RB H2) as EB.
  exists va, (map (hd 0) (reshape n m B)).
  assert (Lva : length va = m) by (inversion_clear RA; assumption).
  split; [exact Lva|]. split; [rewrite map_length; exact LB|]. split.
  - rewrite <- (concat_reshape n m A HA) at 1. rewrite EA. rewrite (same_rows va (va :: MA) H1). f_equal.
    rewrite map_map.
    assert (G : forall (T U : Type) (l : list T) (l' : list U), length l = length l' -> map (fun _ => va) l = map (fun _ => va) l').
    { induction l as [|? ? IHl]; intros [|? l'] Hl; simpl in *; try discriminate; [reflexivity|]. f_equal. apply IHl. lia. }
    apply G. lia.
  - rewrite <- (concat_reshape n m B HB) at 1. rewrite Lva. rewrite EB at 1. reflexivity.
Qed.

Lemma order_is_pair o k1 k2 : order_is o k1 k2 = true -> o = Some [k1; k2].
Proof.
  destruct o as [[|a [|b [|]]]|]; try discriminate. simpl. intros H. apply andb_true_iff in H as [H1 H2].
  destruct a, k1; try discriminate; destruct b, k2; try discriminate; reflexivity.
Qed.

Lemma rect_from_checks times bls nb nt :
  let nbls := length (uniqueZ bls) in
  let ntimes := length (uniqueZ times) in
  nb = nbls -> nt = ntimes -> nb <> 0%nat -> nt <> 0%nat ->
  length times = (nb * nt)%nat -> length bls = (nb * nt)%nat ->
  Forall (fun x => x = 0) (concat (diff_axis0 (reshape nb nt times))) ->
  Forall (fun x => x = 0) (concat (diff_axis1 (reshape nb nt bls))) ->
  exists ts bs, length ts = ntimes /\ length bs = nbls /\ product_layout times bls ts bs true.
Proof.
  intros nbls ntimes -> -> Hb Ht Lt Lb H1 H2.
  destruct (layout_of_checks nbls ntimes times bls Hb Ht Lt Lb H1 H2) as (ts & bs & L1 & L2 & E1 & E2).
  exists ts, bs. split; [exact L1|]. split; [exact L2|]. unfold product_layout.
  split; [|split; [|auto]].
  - apply (NoDup_of_count times); [|symmetry; exact L1]. intros x Hx. rewrite E1 in Hx. eapply in_concat_same; exact Hx.
  - apply (NoDup_of_count bls); [|symmetry; exact L2]. intros x Hx. rewrite E2 in Hx. eapply in_concat_repeat; exact Hx.
Qed.
Lemma rect_from_checks' times bls nb nt :
  let nbls := length (uniqueZ bls) in
  let ntimes := length (uniqueZ times) in
  nb = nbls -> nt = ntimes -> nb <> 0%nat -> nt <> 0%nat ->
  length times = (nb * nt)%nat -> length bls = (nb * nt)%nat ->
  Forall (fun x => x = 0) (concat (diff_axis0 (reshape nt nb bls))) ->
  Forall (fun x => x = 0) (concat (diff_axis1 (reshape nt nb times))) ->
  exists ts bs, length ts = ntimes /\ length bs = nbls /\ product_layout times bls ts bs false.
Proof.
  intros nbls ntimes -> -> Hb Ht Lt Lb H1 H2.
  assert (Lb' : length bls = (ntimes * nbls)%nat) by lia. assert (Lt' : length times = (ntimes * nbls)%nat) by lia.
  destruct (layout_of_checks ntimes nbls bls times Ht Hb Lb' Lt' H1 H2) as (bs & ts & L1 & L2 & E1 & E2).
  exists ts, bs. split; [exact L2|]. split; [exact L1|]. unfold product_layout.
  split; [|split; [|auto]].
  - apply (NoDup_of_count times); [|symmetry; exact L2]. intros x Hx. rewrite E2 in Hx. eapply in_concat_repeat; exact Hx.
  - apply (NoDup_of_count bls); [|symmetry; exact L1]. intros x Hx. rewrite E1 in Hx. eapply in_concat_same; exact Hx.
Qed.

Lemma repeat_concat {A B} (v : A) (l : list B) : concat (map (fun _ => [v]) l) = repeat v (length l).
Proof. induction l; simpl; congruence. Qed.

Lemma layout_one_bl times bls : length (uniqueZ bls) = 1%nat ->
  length times = length bls -> length times = length (uniqueZ times) ->
  exists ts bs, length ts = length (uniqueZ times) /\ length bs = 1%nat /\ product_layout times bls ts bs true.
Proof.
  intros Hb Hl Ht. destruct (nodup_len1 bls Hb) as (b & Eb). apply all_equal_repeat in Eb.
  exists times, [b]. split; [exact Ht|]. split; [reflexivity|]. unfold product_layout.
  split; [apply count_all_nodup; congruence|]. split; [repeat constructor; simpl; tauto|].
  simpl. rewrite !app_nil_r. split; [reflexivity|]. rewrite Eb at 1. rewrite Hl. reflexivity.
Qed.

Lemma layout_one_time times bls : length (uniqueZ times) = 1%nat ->
  length times = length bls -> length bls = length (uniqueZ bls) ->
  exists ts bs, length ts = 1%nat /\ length bs = length (uniqueZ bls) /\ product_layout times bls ts bs false.
Proof.
  intros Ht Hl Hb. destruct (nodup_len1 times Ht) as (t & Et). apply all_equal_repeat in Et.
  exists [t], bls. split; [reflexivity|]. split; [exact Hb|]. unfold product_layout.
  split; [repeat constructor; simpl; tauto|]. split; [apply count_all_nodup; congruence|].
  simpl. rewrite !app_nil_r. split; [|reflexivity]. rewrite Et at 1. rewrite Hl. reflexivity.
Qed.

(** *** The short cut through the declared order *)
Definition ltpair (x y : Z * Z) : Prop := fst x < fst y \/ (fst x = fst y /\ snd x < snd y).

Lemma list_prod_sorted B T : StronglySorted Z.lt B -> StronglySorted Z.lt T -> StronglySorted ltpair (list_prod B T).
Proof.
  intros HB HT. induction HB as [|b B HB IH Hall]; simpl; [constructor|].
  apply StronglySorted_app. repeat split.
  - apply (proj1 (StronglySorted_map ltpair (fun y => (b, y)) T)). eapply StronglySorted_impl; [|exact HT].
    intros x y _ _ Hlt. right. simpl. auto.
  - exact IH.
  - intros x y Hx Hy. apply in_map_iff in Hx as (t & <- & _). destruct y as [b' t']. apply in_prod_iff in Hy as [Hy _].
    rewrite Forall_forall in Hall. left. simpl. auto.
Qed.

Lemma combine_fst {A B} (l : list A) (m : list B) : length l = length m -> map fst (combine l m) = l.
Proof. revert m; induction l; intros [|] H; simpl in *; try discriminate; [reflexivity|]. f_equal. auto. Qed.
Lemma combine_snd {A B} (l : list A) (m : list B) : length l = length m -> map snd (combine l m) = m.
Proof. revert m; induction l; intros [|] H; simpl in *; try discriminate; [reflexivity|]. f_equal. auto. Qed.

Lemma list_prod_fst (B T : list Z) : map fst (list_prod B T) = concat (map (fun b => repeat b (length T)) B).
Proof.
  induction B as [|b B IH]; simpl; [reflexivity|]. rewrite map_app, IH, map_map. simpl. f_equal.
  clear. induction T; simpl; congruence.
Qed.
Lemma list_prod_snd (B T : list Z) : map snd (list_prod B T) = concat (map (fun _ => T) B).
Proof.
  induction B as [|b B IH]; simpl; [reflexivity|]. rewrite map_app, IH, map_map. simpl. f_equal. apply map_id.
Qed.

Lemma sorted_product X Y : length X = length Y ->
  length X = (length (uniqueZ X) * length (uniqueZ Y))%nat ->
  NoDup (combine X Y) ->
  StronglySorted (fun p q => fst p < fst q \/ (fst p = fst q /\ snd p <= snd q)) (combine X Y) ->
  combine X Y = list_prod (uniqueZ X) (uniqueZ Y).
Proof.
  intros HL HN Hnd Hs.
  assert (Hs' : StronglySorted ltpair (combine X Y)).
  { clear HN. induction Hs as [|p l Hs IH Hall]; [constructor|]. inversion_clear Hnd.
    constructor; [auto|]. rewrite Forall_forall in *. intros q Hq. specialize (Hall q Hq).
    destruct Hall as [H1|[H1 H2]]; [left; exact H1|]. right. split; [exact H1|].
    assert (snd p <> snd q); [|lia]. intros E. apply H. destruct p, q; simpl in *; subst. exact Hq. }
  apply (sorted_unique ltpair); unfold ltpair; [intros; lia|intros; lia|exact Hs'| |].
  - apply list_prod_sorted; apply uniqueZ_sorted.
  - intros p. 
    assert (I : incl (combine X Y) (list_prod (uniqueZ X) (uniqueZ Y))).
    { intros [x y] H. apply in_prod_iff. rewrite !uniqueZ_In. split; [eapply in_combine_l; exact H|eapply in_combine_r; exact H]. }
    split; [apply I|]. revert p. apply NoDup_length_incl; [exact Hnd| |exact I].
    rewrite prod_length, combine_length. lia.
Qed.

Lemma layout_bl_time times bls : length times = length bls ->
  length times = (length (uniqueZ bls) * length (uniqueZ times))%nat ->
  NoDup (combine bls times) ->
  StronglySorted (fun p q => fst p < fst q \/ (fst p = fst q /\ snd p <= snd q)) (combine bls times) ->
  product_layout times bls (uniqueZ times) (uniqueZ bls) true.
Proof.
  intros HL HN Hnd Hs. pose proof (sorted_product bls times (eq_sym HL) ltac:(lia) Hnd Hs) as E.
  unfold product_layout. split; [apply uniqueZ_NoDup|]. split; [apply uniqueZ_NoDup|]. split.
  - rewrite <- list_prod_snd, <- E. symmetry. apply combine_snd. lia.
  - rewrite <- list_prod_fst, <- E. symmetry. apply combine_fst. lia.
Qed.
Lemma layout_time_bl times bls : length times = length bls ->
  length times = (length (uniqueZ bls) * length (uniqueZ times))%nat ->
  NoDup (combine times bls) ->
  StronglySorted (fun p q => fst p < fst q \/ (fst p = fst q /\ snd p <= snd q)) (combine times bls) ->
  product_layout times bls (uniqueZ times) (uniqueZ bls) false.
Proof.
  intros HL HN Hnd Hs. pose proof (sorted_product times bls HL ltac:(lia) Hnd Hs) as E.
  unfold product_layout. split; [apply uniqueZ_NoDup|]. split; [apply uniqueZ_NoDup|]. split.
  - rewrite <- list_prod_fst, <- E. symmetry. apply combine_fst. lia.
  - rewrite <- list_prod_snd, <- E. symmetry. apply combine_snd. lia.
Qed.

Lemma rect_sound times bls o faster :
  let nbls := length (uniqueZ bls) in
  let ntimes := length (uniqueZ times) in
  length times = length bls -> declared_order_true times bls o ->
  determine_rectangularity times bls nbls ntimes o = Ok (true, faster) ->
  exists ts bs, length ts = ntimes /\ length bs = nbls /\ product_layout times bls ts bs faster.
Proof.
  intros nbls ntimes HL [Hbt Htb]. unfold determine_rectangularity.
  destruct (length times =? nbls * ntimes)%nat eqn:E0; [|discriminate]. apply Nat.eqb_eq in E0. cbn [negb].
  destruct (nbls * ntimes =? 1)%nat eqn:E1.
  { intros H. injection H as <-. apply Nat.eqb_eq, Nat.eq_mul_1 in E1 as [Eb Et].
    rewrite Eb. apply layout_one_bl; auto. fold ntimes. rewrite Et. rewrite E0, Eb, Et. reflexivity. }
  destruct (nbls =? 1)%nat eqn:E2.
  { intros H. injection H as <-. apply Nat.eqb_eq in E2. rewrite E2. apply layout_one_bl; auto.
    fold ntimes. lia. }
  destruct (ntimes =? 1)%nat eqn:E3.
  { intros H. injection H as <-. apply Nat.eqb_eq in E3. rewrite E3. apply layout_one_time; auto.
    fold nbls. lia. }
  destruct (order_is o KBaseline KTime) eqn:E4.
  { intros H. injection H as <-. apply order_is_pair in E4. destruct (Hbt E4) as [H1 H2].
    exists (uniqueZ times), (uniqueZ bls). split; [reflexivity|]. split; [reflexivity|]. apply layout_bl_time; auto. }
  destruct (order_is o KTime KBaseline) eqn:E5.
  { intros H. injection H as <-. apply order_is_pair in E5. destruct (Htb E5) as [H1 H2].
    exists (uniqueZ times), (uniqueZ bls). split; [reflexivity|]. split; [reflexivity|]. apply layout_time_bl; auto. }
  assert (Hnb : nbls = length (uniqueZ bls)) by reflexivity. assert (Hnt : ntimes = length (uniqueZ times)) by reflexivity.
  clearbody nbls ntimes.
  destruct times as [|t0 [|t1 tr]] eqn:Et; try discriminate. destruct bls as [|b0 [|b1 br]] eqn:Eb; try discriminate.
  assert (Hn0 : nbls <> 0%nat /\ ntimes <> 0%nat) by (simpl in E0; nia).
  rewrite <- Et, <- Eb in *. clear Et Eb tr br. cbv zeta. destruct Hn0 as [Hn0 Hn1].
  destruct (t1 =? t0).
  - cbn [negb andb]. destruct (b1 =? b0); [discriminate|]. cbn [negb].
    destruct (sum_abs (diff_axis1 (reshape ntimes nbls times)) =? 0) eqn:E6; [|discriminate]. cbn [negb].
    destruct (any_nonzero (diff_axis0 (reshape ntimes nbls bls))) eqn:E7; [discriminate|].
    intros H. injection H as <-. apply Z.eqb_eq, sum_abs_zero in E6. apply any_nonzero_false in E7.
    rewrite Hnb, Hnt. apply rect_from_checks' with (nb := nbls) (nt := ntimes); auto; congruence.
  - cbn [negb andb].
    destruct (sum_abs (diff_axis0 (reshape nbls ntimes times)) =? 0) eqn:E6; [|discriminate]. cbn [negb].
    destruct (any_nonzero (diff_axis1 (reshape nbls ntimes bls))) eqn:E7; [discriminate|].
    intros H. injection H as <-. apply Z.eqb_eq, sum_abs_zero in E6. apply any_nonzero_false in E7.
    rewrite Hnb, Hnt. apply rect_from_checks with (nb := nbls) (nt := ntimes); auto; congruence.
Qed.

Lemma reshape_concat {A} m (M : list (list A)) : Forall (fun r => length r = m) M ->
  reshape (length M) m (concat M) = M.
Proof.
  induction 1 as [|r M Hr _ IH]; simpl; [reflexivity|].
  rewrite firstn_app, skipn_app, <- Hr, Nat.sub_diag, firstn_all, skipn_all. simpl. rewrite app_nil_r, Hr, IH. reflexivity.
Qed.

Lemma unique_same {A} (ts : list Z) (bs : list A) : NoDup ts -> bs <> [] ->
  length (uniqueZ (concat (map (fun _ => ts) bs))) = length ts.
Proof.
  intros Hnd Hbs. apply Permutation_length. apply NoDup_Permutation; [apply uniqueZ_NoDup|exact Hnd|].
  intros x. rewrite uniqueZ_In. split; [apply in_concat_same|]. intros H. destruct bs as [|b bs]; [contradiction|].
  simpl. apply in_or_app. left. exact H.
Qed.
Lemma unique_repeat (bs : list Z) n : NoDup bs -> n <> 0%nat ->
  length (uniqueZ (concat (map (fun b => repeat b n) bs))) = length bs.
Proof.
  intros Hnd Hn. apply Permutation_length. apply NoDup_Permutation; [apply uniqueZ_NoDup|exact Hnd|].
  intros x. rewrite uniqueZ_In, in_concat. split.
  - intros (r & Hr & Hx). apply in_map_iff in Hr as (b & <- & Hb). apply repeat_spec in Hx. subst. exact Hb.
  - intros H. exists (repeat x n). split; [apply in_map_iff; eauto|]. destruct n; [congruence|]. left. reflexivity.
Qed.
Lemma length_concat_const {A B} m (f : B -> list A) l : (forall b, length (f b) = m) -> length (concat (map f l)) = (length l * m)%nat.
Proof. intros H. induction l; simpl; [reflexivity|]. rewrite app_length, H, IHl. reflexivity. Qed.

(** Every rectangular axis is recognised, with the right orientation. *)
Lemma rect_complete times bls ts bs faster o :
  (2 <= length ts)%nat -> (2 <= length bs)%nat -> product_layout times bls ts bs faster ->
  o <> Some [KBaseline; KTime] -> o <> Some [KTime; KBaseline] ->
  determine_rectangularity times bls (length (uniqueZ bls)) (length (uniqueZ times)) o = Ok (true, faster).
Proof.
  intros Ht Hb (Hnt & Hnb & H) Ho1 Ho2.
  assert (Eo1 : order_is o KBaseline KTime = false) by (destruct (order_is o KBaseline KTime) eqn:E; [apply order_is_pair in E; congruence|reflexivity]).
  assert (Eo2 : order_is o KTime KBaseline = false) by (destruct (order_is o KTime KBaseline) eqn:E; [apply order_is_pair in E; congruence|reflexivity]).
  assert (Hts : ts <> []) by (intros ->; simpl in Ht; lia). assert (Hbs : bs <> []) by (intros ->; simpl in Hb; lia).
  destruct faster; destruct H as [Et Eb].
  - assert (Lt : length (uniqueZ times) = length ts) by (rewrite Et; apply unique_same; assumption).
    assert (Lb : length (uniqueZ bls) = length bs) by (rewrite Eb; apply unique_repeat; [assumption|lia]).
    assert (LL : length times = (length bs * length ts)%nat) by (rewrite Et; apply length_concat_const; reflexivity).
    unfold determine_rectangularity. rewrite Lt, Lb, LL, Nat.eqb_refl. cbn [negb].
    replace (length bs * length ts =? 1)%nat with false by (symmetry; apply Nat.eqb_neq; nia).
    replace (length bs =? 1)%nat with false by (symmetry; apply Nat.eqb_neq; lia).
    replace (length ts =? 1)%nat with false by (symmetry; apply Nat.eqb_neq; lia).
    rewrite Eo1, Eo2.
    assert (R1 : reshape (length bs) (length ts) times = map (fun _ => ts) bs).
    { rewrite Et. rewrite <- (map_length (fun _ : Z => ts) bs) at 1. apply reshape_concat. apply Forall_map, Forall_forall. reflexivity. }
    assert (R2 : reshape (length bs) (length ts) bls = map (fun b => repeat b (length ts)) bs).
    { rewrite Eb. rewrite <- (map_length (fun b => repeat b (length ts)) bs) at 1. apply reshape_concat.
      apply Forall_map, Forall_forall. intros; apply repeat_length. }
    assert (Z1 : sum_abs (diff_axis0 (map (fun _ => ts) bs)) = 0).
    { apply sum_abs_zero. apply (diff0_zero (length ts)); [apply Forall_map, Forall_forall; reflexivity|].
      destruct bs as [|b bs]; [exact I|]. apply (Forall_map (fun _ : Z => ts) (eq ts) (b :: bs)). apply Forall_forall. reflexivity. }
    assert (Z2 : any_nonzero (diff_axis1 (map (fun b => repeat b (length ts)) bs)) = false).
    { apply any_nonzero_false, diff1_zero. apply Forall_map, Forall_forall. intros b _.
      destruct (repeat b (length ts)) eqn:E; [exact I|].
      assert (z = b) by (apply (repeat_spec (length ts)); rewrite E; left; reflexivity). subst z. rewrite <- E.
      apply Forall_forall. intros x Hx. apply repeat_spec in Hx. auto. }
    destruct ts as [|t0 [|t1 ts]]; try (simpl in Ht; lia). destruct bs as [|b0 bs]; [congruence|].
    assert (Xt : exists r, times = t0 :: t1 :: r) by (rewrite Et; simpl; eauto).
    assert (Xb : exists r, bls = b0 :: b0 :: r) by (rewrite Eb; simpl; eauto).
    destruct Xt as (rt & Xt), Xb as (rb & Xb).
    replace (t1 =? t0) with false in * by (inversion_clear Hnt; simpl in *; lia).
    rewrite Xt at 1. rewrite Xb at 1. cbv zeta.
    assert (t1 =? t0 = false) as -> by (inversion_clear Hnt; simpl in *; lia).
    rewrite R1, R2, Z1, Z2. cbn [negb andb Z.eqb]. reflexivity.
  - assert (Lt : length (uniqueZ times) = length ts) by (rewrite Et; apply unique_repeat; [assumption|lia]).
    assert (Lb : length (uniqueZ bls) = length bs) by (rewrite Eb; apply unique_same; assumption).
    assert (LL : length times = (length bs * length ts)%nat) by (rewrite Et, Nat.mul_comm; apply length_concat_const; intros; apply repeat_length).
    unfold determine_rectangularity. rewrite Lt, Lb, LL, Nat.eqb_refl. cbn [negb].
    replace (length bs * length ts =? 1)%nat with false by (symmetry; apply Nat.eqb_neq; nia).
    replace (length bs =? 1)%nat with false by (symmetry; apply Nat.eqb_neq; lia).
    replace (length ts =? 1)%nat with false by (symmetry; apply Nat.eqb_neq; lia).
    rewrite Eo1, Eo2.
    assert (R1 : reshape (length ts) (length bs) bls = map (fun _ => bs) ts).
    { rewrite Eb. rewrite <- (map_length (fun _ : Z => bs) ts) at 1. apply reshape_concat. apply Forall_map, Forall_forall. reflexivity. }
    assert (R2 : reshape (length ts) (length bs) times = map (fun b => repeat b (length bs)) ts).
    { rewrite Et. rewrite <- (map_length (fun b => repeat b (length bs)) ts) at 1. apply reshape_concat.
      apply Forall_map, Forall_forall. intros; apply repeat_length. }
    assert (Z1 : any_nonzero (diff_axis0 (map (fun _ => bs) ts)) = false).
    { apply any_nonzero_false. apply (diff0_zero (length bs)); [apply Forall_map, Forall_forall; reflexivity|].
      destruct ts as [|b ts]; [exact I|]. apply (Forall_map (fun _ : Z => bs) (eq bs) (b :: ts)). apply Forall_forall. reflexivity. }
    assert (Z2 : sum_abs (diff_axis1 (map (fun b => repeat b (length bs)) ts)) = 0).
    { apply sum_abs_zero, diff1_zero. apply Forall_map, Forall_forall. intros b _.
      destruct (repeat b (length bs)) eqn:E; [exact I|].
      assert (z = b) by (apply (repeat_spec (length bs)); rewrite E; left; reflexivity). subst z. rewrite <- E.
      apply Forall_forall. intros x Hx. apply repeat_spec in Hx. auto. }
    destruct bs as [|b0 [|b1 bs]]; try (simpl in Hb; lia). destruct ts as [|t0 ts]; [congruence|].
    assert (Xb : exists r, bls = b0 :: b1 :: r) by (rewrite Eb; simpl; eauto).
    assert (Xt : exists r, times = t0 :: t0 :: r) by (rewrite Et; simpl; eauto).
    destruct Xt as (rt & Xt), Xb as (rb & Xb).
    rewrite Xt at 1. rewrite Xb at 1. cbv zeta. rewrite Z.eqb_refl.
    assert (b1 =? b0 = false) as -> by (inversion_clear Hnb; simpl in *; lia).
    rewrite R1, R2, Z1, Z2. cbn [negb andb Z.eqb]. reflexivity.
Qed.

(** With one baseline or one time every axis is rectangular. *)
Lemma rect_size times bls nbls ntimes o :
  length times <> (nbls * ntimes)%nat -> determine_rectangularity times bls nbls ntimes o = Ok (false, false).
Proof.
  intros H. unfold determine_rectangularity. replace (length times =? nbls * ntimes)%nat with false; [reflexivity|].
  symmetry. apply Nat.eqb_neq. exact H.
Qed.
