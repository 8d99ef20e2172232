(** C82: windows with Jones terms of their own. *)
From Coq Require Import List ZArith QArith Bool Arith Lia Permutation Sorted.
From Verif Require Import Lib.Py Lib.Np Lib.Cube Lib.Sorting Spec.AddSpec Spec.CalSpec Spec.FlexJonesSpec
  Model.Times Model.UVCal Model.FlexJones Proofs.CalArrange Proofs.CalMove.
Import ListNotations.
Notation length := List.length.
Open Scope list_scope.
Open Scope Z_scope.
Notation Ntimes := UVCal.Ntimes.

(** ** The windows of the frequency axis *)
Lemma windex_length u : cal_ok u -> length (windex u) = Nchans u.
Proof. intros (_ & H & _). unfold windex, Nchans. destruct (c_wide u); [reflexivity|lia]. Qed.
Lemma windex_nth u f : fst (chan_at u f) = nth f (windex u) 0.
Proof. unfold windex, chan_at. destruct (c_wide u); reflexivity. Qed.
Lemma chans_fst u : cal_ok u -> map fst (chans u) = windex u.
Proof.
  intros (_ & H & _). unfold windex, chans. destruct (c_wide u).
  - rewrite map_map. cbn [fst]. apply map_id.
  - destruct H as (_ & H & _). clear -H. revert H. generalize (c_freqs u). induction (c_flex u) as [|x l IH]; intros [|y m] H; try discriminate; [reflexivity|].
    cbn [combine map fst]. f_equal. apply IH. now injection H.
Qed.

Lemma filter_sorted {A} (R : A -> A -> Prop) p l : StronglySorted R l -> StronglySorted R (filter p l).
Proof.
  induction 1 as [|x l H IH F]; [constructor|]. cbn [filter]. destruct (p x); [|exact IH]. constructor; [exact IH|].
  apply Forall_forall. intros y Hy. apply filter_In in Hy. rewrite Forall_forall in F. apply F, Hy.
Qed.
Lemma seq_sorted s n : StronglySorted lt (seq s n).
Proof. revert s. induction n as [|n IH]; intros s; cbn [seq]; [constructor|]. constructor; [apply IH|]. apply Forall_forall. intros x Hx. apply in_seq in Hx. lia. Qed.

Lemma chans_of_filter u w : cal_ok u -> filter (fun i => fst (chan_at u i) =? w) (seq 0 (Nchans u)) = chans_of u w.
Proof.
  intros H. unfold chans_of. apply (nonzero_unique 0).
  - apply filter_sorted, seq_sorted.
  - intros i. rewrite filter_In, in_seq, windex_nth, (windex_length u H), Z.eqb_sym. intuition lia.
Qed.
Lemma kth_chans u w k f : cal_ok u -> kth u w k f <-> nth_error (chans_of u w) k = Some f.
Proof. intros H. unfold kth. rewrite (chans_of_filter u w H). reflexivity. Qed.
Lemma kth_some u w k : cal_ok u -> (exists f, kth u w k f) <-> (k < length (chans_of u w))%nat.
Proof.
  intros H. split.
  - intros [f E]. apply (kth_chans u w k f H) in E. apply nth_error_Some. congruence.
  - intros L. destruct (nth_error (chans_of u w) k) as [f|] eqn:E; [exists f; apply (kth_chans u w k f H), E|].
    apply nth_error_None in E. lia.
Qed.
Lemma chans_of_In u w f : cal_ok u -> In f (chans_of u w) <-> (f < Nchans u)%nat /\ nth f (windex u) 0 = w.
Proof.
  intros H. unfold chans_of. rewrite (nonzero_spec 0), (windex_length u H), Z.eqb_eq. intuition congruence.
Qed.
Lemma in_windex u w : cal_ok u -> In w (windex u) <-> In w (c_spws u).
Proof. intros (_ & H & _). unfold windex. destruct (c_wide u); [reflexivity|]. apply H. Qed.
Lemma chans_of_nonempty u w : cal_ok u -> In w (c_spws u) -> (0 < length (chans_of u w))%nat.
Proof.
  intros H I. apply (in_windex u w H) in I. destruct (In_nth _ _ 0 I) as (f & L & E).
  assert (J : In f (chans_of u w)) by (apply (chans_of_In u w f H); rewrite <- (windex_length u H); auto).
  destruct (chans_of u w); [destruct J|cbn; lia].
Qed.
Lemma chans_of_empty u w : cal_ok u -> ~ In w (c_spws u) -> chans_of u w = [].
Proof.
  intros H N. destruct (chans_of u w) as [|f l] eqn:E; [reflexivity|]. exfalso. apply N, (in_windex u w H).
  assert (J : In f (chans_of u w)) by (rewrite E; left; reflexivity). apply (chans_of_In u w f H) in J. destruct J as [L <-].
  apply nth_In. rewrite (windex_length u H). exact L.
Qed.

Lemma nonzero_app {A} (f : A -> bool) l l' n : where_from n f (l ++ l') = where_from n f l ++ where_from (n + length l) f l'.
Proof.
  revert n. induction l as [|x l IH]; intros n; cbn [app where_from length]; [now rewrite Nat.add_0_r|].
  rewrite IH, Nat.add_succ_r. destruct (f x); reflexivity.
Qed.
Lemma where_from_shift {A} (f : A -> bool) l n : where_from n f l = map (fun i => (n + i)%nat) (nonzero f l).
Proof.
  unfold nonzero. revert n. induction l as [|x l IH]; intros n; [reflexivity|]. cbn [where_from].
  rewrite (IH (S n)), (IH 1%nat). destruct (f x); cbn [map]; rewrite ?map_map.
  - f_equal; [lia|]. apply map_ext. intros i. lia.
  - apply map_ext. intros i. lia.
Qed.
Lemma nonzero_none {A} (f : A -> bool) l : (forall x, In x l -> f x = false) -> nonzero f l = [].
Proof.
  intros H. destruct (nonzero f l) as [|i r] eqn:E; [reflexivity|]. exfalso. destruct l as [|d l]; [discriminate|].
  assert (J : In i (nonzero f (d :: l))) by (rewrite E; left; reflexivity). apply (nonzero_spec d) in J.
  destruct J as [L J]. rewrite H in J; [discriminate|]. apply nth_In, L.
Qed.
Lemma nonzero_repeat v n : nonzero (Z.eqb v) (repeat v n) = seq 0 n.
Proof.
  symmetry. apply (nonzero_unique v); [apply seq_sorted|]. intros i. rewrite in_seq, repeat_length, Z.eqb_eq.
  split; [|lia]. intros H. split; [lia|]. symmetry. assert (I : In (nth i (repeat v n) v) (repeat v n)) by (apply nth_In; rewrite repeat_length; lia).
  apply repeat_spec in I. exact I.
Qed.
Lemma filter_repeat v l : filter (Z.eqb v) l = repeat v (length (filter (Z.eqb v) l)).
Proof. induction l as [|x l IH]; [reflexivity|]. cbn [filter]. destruct (Z.eqb_spec v x) as [<-|N]; [cbn [length repeat]; f_equal; exact IH|exact IH]. Qed.

(** Windows one after the other: entry [f] is the [k]th of its window. *)
Definition runs (n : Z -> nat) (S : list Z) : list Z := flat_map (fun v => repeat v (n v)) S.
Lemma index_of_nth l k : NoDup l -> (k < length l)%nat -> index_of Nat.eqb (nth k l O) l = Some k.
Proof.
  intros N. revert k. induction N as [|x l N1 N2 IH]; intros k L; [cbn in L; lia|]. destruct k as [|k].
  - cbn [nth index_of]. now rewrite Nat.eqb_refl.
  - cbn [nth index_of length] in *. destruct (Nat.eqb_spec (nth k l O) x) as [E|_].
    + exfalso. apply N1. rewrite <- E. apply nth_In. lia.
    + rewrite IH by lia. reflexivity.
Qed.

Lemma runs_in n S v : In v (runs n S) -> In v S.
Proof. unfold runs. intros H. apply in_flat_map in H. destruct H as (w & Hw & H). apply repeat_spec in H. congruence. Qed.

Lemma runs_segment n S : NoDup S -> forall v, In v S -> exists o, nonzero (Z.eqb v) (runs n S) = seq o (n v) /\
  forall P : Z -> list nat, (forall w, In w S -> length (P w) = n w) -> forall k, (k < n v)%nat -> nth (o + k) (flat_map P S) O = nth k (P v) O.
Proof.
  induction 1 as [|x S N1 N2 IH]; intros v H; [destruct H|]. unfold nonzero, runs. cbn [flat_map]. fold (runs n S).
  rewrite nonzero_app, repeat_length, where_from_shift. rewrite (where_from_shift (Z.eqb v) (runs n S)).
  destruct H as [->|H].
  - exists O. rewrite nonzero_repeat. rewrite (nonzero_none (Z.eqb v) (runs n S)).
    + cbn [map]. rewrite app_nil_r. split; [rewrite <- (map_id (seq 0 (n v))) at 2; apply map_ext; reflexivity|].
      intros P HP k Hk. cbn [flat_map Nat.add]. apply app_nth1. rewrite HP by (left; reflexivity). exact Hk.
    + intros w Hw. apply Z.eqb_neq. intros ->. apply N1. eapply runs_in, Hw.
  - destruct (IH v H) as (o & E & F). exists (n x + o)%nat. rewrite E. rewrite (nonzero_none (Z.eqb v) (repeat x (n x))).
    + cbn [map app]. split.
      * clear. cbn [Nat.add]. generalize (n v) as c, (n x) as d. intros c d. revert o. induction c as [|c IHc]; intros o; [reflexivity|].
        cbn [seq map]. f_equal. rewrite IHc. f_equal. lia.
      * intros P HP k Hk. cbn [flat_map]. rewrite app_nth2 by (rewrite HP by (left; reflexivity); lia).
        rewrite HP by (left; reflexivity). replace (n x + o + k - n x)%nat with (o + k)%nat by lia.
        apply F; [intros w Hw; apply HP; right; exact Hw|exact Hk].
    + intros w Hw. apply repeat_spec in Hw. subst w. apply Z.eqb_neq. intros ->. contradiction.
Qed.
Lemma runs_length n S (P : Z -> list nat) : (forall w, In w S -> length (P w) = n w) -> length (flat_map P S) = length (runs n S).
Proof.
  induction S as [|x S IH]; intros H; [reflexivity|]. unfold runs. cbn [flat_map]. rewrite !app_length, repeat_length.
  rewrite H by (left; reflexivity). f_equal. apply IH. intros w Hw. apply H. right. exact Hw.
Qed.

(** ** Assignments in turn *)
Lemma fold_none {A B} (p : B -> bool) (g : B -> A) l d : (forall x, In x l -> p x = false) ->
  fold_left (fun cur x => if p x then g x else cur) l d = d.
Proof.
  revert d. induction l as [|x l IH]; intros d H; [reflexivity|]. cbn [fold_left]. rewrite H by (left; reflexivity).
  apply IH. intros y Hy. apply H. right. exact Hy.
Qed.
Lemma fold_kept {A B} (p : B -> bool) (g : B -> A) l c : (forall y, In y l -> p y = true -> g y = c) ->
  fold_left (fun cur x => if p x then g x else cur) l c = c.
Proof.
  induction l as [|y l IH]; intros H; [reflexivity|]. cbn [fold_left].
  replace (if p y then g y else c) with c; [apply IH; intros z Hz; apply H; right; exact Hz|].
  destruct (p y) eqn:E; [|reflexivity]. symmetry. apply H; [left; reflexivity|exact E].
Qed.
Lemma fold_one {A B} (p : B -> bool) (g : B -> A) l d x : In x l -> p x = true -> (forall y, In y l -> p y = true -> g y = g x) ->
  fold_left (fun cur x => if p x then g x else cur) l d = g x.
Proof.
  revert d. induction l as [|y l IH]; intros d H P U; [destruct H|]. cbn [fold_left]. destruct H as [->|H].
  - rewrite P. apply fold_kept. intros z Hz. apply U. right. exact Hz.
  - apply IH; [exact H|exact P|]. intros z Hz. apply U. right. exact Hz.
Qed.
