(** C82: an ordinary Jones axis again. *)
From Coq Require Import List ZArith QArith Bool Arith Lia Permutation Sorted.
From Verif Require Import Lib.Py Lib.Np Lib.Cube Lib.Sorting Spec.AddSpec Spec.CalSpec Spec.FlexJonesSpec
  Model.Times Model.UVCal Model.FlexJones Proofs.CalArrange Proofs.CalMove Proofs.FlexJonesBase.
Import ListNotations.
Notation length := List.length.
Open Scope list_scope.
Open Scope Z_scope.
Notation Ntimes := UVCal.Ntimes.

Lemma take_flat {A} (d : A) l (P : Z -> list nat) S : flat_map (fun w => take d l (P w)) S = take d l (flat_map P S).
Proof. unfold take. induction S as [|x S IH]; [reflexivity|]. cbn [flat_map]. now rewrite map_app, IH. Qed.
Lemma combine_take {A B} (d : A) (e : B) l m idx : length l = length m -> combine (take d l idx) (take e m idx) = take (d, e) (combine l m) idx.
Proof.
  intros H. unfold take. induction idx as [|i idx IH]; [reflexivity|]. cbn [map combine]. rewrite combine_nth by exact H. now rewrite IH.
Qed.
Lemma map_fst_combine {A B} (l : list A) (m : list B) : length l = length m -> map fst (combine l m) = l.
Proof. revert m. induction l as [|x l IH]; intros [|y m] H; try discriminate; [reflexivity|]. cbn [combine map fst]. f_equal. apply IH. now injection H. Qed.
Lemma map_snd_combine {A B} (l : list A) (m : list B) : length l = length m -> map snd (combine l m) = m.
Proof. revert m. induction l as [|x l IH]; intros [|y m] H; try discriminate; [reflexivity|]. cbn [combine map snd]. f_equal. apply IH. now injection H. Qed.
Lemma in_combine_nth {A B} (l : list A) (m : list B) x y d : length l = length m ->
  In (x, y) (combine l m) <-> exists k, (k < length l)%nat /\ nth k l d = x /\ nth_error m k = Some y.
Proof.
  revert m. induction l as [|a l IH]; intros [|b m] H; try discriminate.
  - split; [intros []|]. intros (k & L & _). cbn in L. lia.
  - cbn [combine In]. injection H as H. rewrite (IH m H). split.
    + intros [E|(k & L & E1 & E2)]; [injection E as -> ->; exists O; cbn; split; [lia|auto]|]. exists (S k). cbn. split; [lia|auto].
    + intros ([|k] & L & E1 & E2); cbn in *; [left; congruence|right]. exists k. split; [lia|auto].
Qed.
Lemma NoDup_flat (P : Z -> list nat) S : NoDup S -> (forall v, In v S -> NoDup (P v)) ->
  (forall v w i, In i (P v) -> In i (P w) -> v = w) -> NoDup (flat_map P S).
Proof.
  intros N H D. induction N as [|x S N1 N2 IH]; [constructor|]. cbn [flat_map].
  apply AddAxis.NoDup_app_intro; [apply H; left; reflexivity|apply IH; intros v Hv; apply H; right; exact Hv|].
  intros i Hi Hi'. apply in_flat_map in Hi'. destruct Hi' as (w & Hw & Hi'). rewrite <- (D _ _ _ Hi Hi') in Hw. contradiction.
Qed.

Section Removal.
Variables (ftol ctol : Q * Q) (u : ucal) (fj : list Z) (maps : list (Z * Z * Z)) (jones : list Z).
Hypothesis Hu : cal_ok u.
Hypothesis HF : c_flex_jones u = Some fj.
Hypothesis M1 : map (fun x => (fst (fst x), snd x)) maps = combine (c_spws u) fj.
Hypothesis M2 : forall w v p, In (w, v, p) maps -> exists p', In (v, v, p') maps.
Hypothesis M3 : forall w w' v p, In (w, v, p) maps -> In (w', v, p) maps -> w = w'.
Hypothesis M4 : forall w v p, In (w, v, p) maps -> length (chans_of u w) = length (chans_of u v) /\
  forall k, (k < length (chans_of u w))%nat -> near ftol ctol u (nth k (chans_of u w) O) u (nth k (chans_of u v) O).
Hypothesis HJ : forall p, In p jones <-> In p fj.
Hypothesis HN : NoDup jones.

Definition goal_of (w : Z) : Z := match find (fun x => fst (fst x) =? w) maps with Some x => snd (fst x) | None => w end.

Lemma fj_length : length fj = length (c_spws u).
Proof. destruct Hu as (_ & _ & _ & J & _). apply J, HF. Qed.
Lemma maps_spws : map (fun x => fst (fst x)) maps = c_spws u.
Proof.
  transitivity (map fst (map (fun x : Z * Z * Z => (fst (fst x), snd x)) maps)); [rewrite map_map; reflexivity|].
  rewrite M1. apply map_fst_combine. symmetry. apply fj_length.
Qed.
Lemma maps_jones : map (fun x => snd x) maps = fj.
Proof.
  transitivity (map snd (map (fun x : Z * Z * Z => (fst (fst x), snd x)) maps)); [rewrite map_map; reflexivity|].
  rewrite M1. apply map_snd_combine. symmetry. apply fj_length.
Qed.
Lemma maps_fun w v p v' p' : In (w, v, p) maps -> In (w, v', p') maps -> v = v' /\ p = p'.
Proof.
  intros H H'. assert (N : NoDup (map (fun x => fst (fst x)) maps)) by (rewrite maps_spws; destruct Hu as (_ & _ & N & _); exact N).
  clear -H H' N. induction maps as [|x l IH]; [destruct H|]. cbn [map] in N. inversion N as [|? ? N1 N2]. subst.
  destruct H as [->|H], H' as [E|H'].
  - injection E as -> ->. auto.
  - exfalso. apply N1. apply (in_map (fun x => fst (fst x))) in H'. exact H'.
  - subst x. exfalso. apply N1. apply (in_map (fun x => fst (fst x))) in H. exact H.
  - apply IH; assumption.
Qed.
Lemma in_window w p : (exists v, In (w, v, p) maps) <-> window_jones u w p.
Proof.
  unfold window_jones. split.
  - intros (v & H). apply (in_map (fun x => (fst (fst x), snd x))) in H. rewrite M1 in H. cbn [fst snd] in H.
    apply (in_combine_nth _ _ _ _ 0) in H; [|symmetry; apply fj_length]. destruct H as (k & L & E1 & E2). exists fj, k. auto.
  - intros (l & k & E & L & E1 & E2). rewrite HF in E. injection E as <-.
    assert (H : In (w, p) (combine (c_spws u) fj)) by (apply (in_combine_nth _ _ _ _ 0); [symmetry; apply fj_length|exists k; auto]).
    rewrite <- M1 in H. apply in_map_iff in H. destruct H as ([[w0 v] p0] & E & H). cbn [fst snd] in E. injection E as -> ->. exists v. exact H.
Qed.
Lemma goal_maps w v p : In (w, v, p) maps -> goal_of w = v.
Proof.
  intros H. unfold goal_of. destruct (find _ maps) as [[[w0 v0] p0]|] eqn:E.
  - apply find_some in E. destruct E as [I E]. cbn [fst] in E. apply Z.eqb_eq in E. subst w0. cbn [fst snd]. apply (maps_fun _ _ _ _ _ I H).
  - apply (find_none _ _ E) in H. cbn [fst] in H. rewrite Z.eqb_refl in H. discriminate.
Qed.
Lemma window_maps w p : window_jones u w p <-> In (w, goal_of w, p) maps.
Proof.
  rewrite <- in_window. split; [intros (v & H); rewrite (goal_maps _ _ _ H); exact H|eauto].
Qed.
Lemma spw_maps w : In w (c_spws u) <-> exists v p, In (w, v, p) maps.
Proof.
  rewrite <- maps_spws, in_map_iff. split.
  - intros ([[w0 v] p] & E & H). cbn [fst] in E. subst. eauto.
  - intros (v & p & H). exists (w, v, p). auto.
Qed.

Let S := uniqueZ (map (fun x => snd (fst x)) maps).
Let n (v : Z) : nat := length (chans_of u v).
Let home : list nat := flat_map (chans_of u) S.
Let new := new_axes maps jones u.

Lemma in_S v : In v S <-> exists w p, In (w, v, p) maps.
Proof.
  unfold S. rewrite uniqueZ_In, in_map_iff. split.
  - intros ([[w v0] p] & E & H). cbn [fst snd] in E. subst. eauto.
  - intros (w & p & H). exists (w, v, p). auto.
Qed.
Lemma S_spws v : In v S -> In v (c_spws u).
Proof. intros H. apply in_S in H. destruct H as (w & p & H). destruct (M2 _ _ _ H) as (p' & H'). apply spw_maps. eauto. Qed.
Lemma S_nodup : NoDup S.
Proof. apply uniqueZ_NoDup. Qed.
Lemma home_lt i : In i home -> (i < Nchans u)%nat.
Proof. intros H. apply in_flat_map in H. destruct H as (v & _ & H). apply (chans_of_In u v i Hu) in H. apply H. Qed.
Lemma home_nodup : NoDup home.
Proof.
  apply NoDup_flat; [apply S_nodup|intros v _; apply nonzero_NoDup|].
  intros v w i H H'. apply (chans_of_In u _ _ Hu) in H, H'. destruct H, H'. congruence.
Qed.

Lemma wide_one v : c_wide u = true -> In v S -> exists i, chans_of u v = [i] /\ nth i (c_spws u) 0 = v.
Proof.
  intros W H. apply S_spws in H. pose proof Hu as (_ & _ & N & _).
  destruct (In_nth _ _ 0 H) as (i & L & E). exists i. split; [|exact E].
  unfold chans_of, windex. rewrite W. symmetry. apply (nonzero_unique 0).
  - constructor; [constructor|constructor].
  - intros j. rewrite Z.eqb_eq. split.
    + intros [<-|[]]. auto.
    + intros [L' E']. left. apply (proj1 (NoDup_nth _ 0) N i j L L'). congruence.
Qed.

Lemma windex_new : windex new = runs n S.
Proof.
  unfold windex, new, new_axes. cbn [c_wide c_spws c_flex]. fold S. destruct (c_wide u) eqn:W.
  - unfold runs, n. assert (K : forall v, In v S -> length (chans_of u v) = 1%nat).
    { intros v Hv. destruct (wide_one v W Hv) as (i & -> & _). reflexivity. }
    clear -K. induction S as [|v l IH]; [reflexivity|]. cbn [flat_map]. rewrite K by (left; reflexivity). cbn [repeat app]. f_equal.
    apply IH. intros w Hw. apply K. right. exact Hw.
  - unfold runs, n, chans_of, windex. rewrite W. clear. induction S as [|v l IH]; [reflexivity|]. cbn [flat_map]. f_equal; [|exact IH].
    rewrite take_nonzero_filter, filter_repeat. f_equal. rewrite <- (take_nonzero_filter 0). apply take_length.
Qed.
Lemma chans_new : chans new = take (0, 0) (chans u) home.
Proof.
  unfold chans, new, new_axes. cbn [c_wide c_spws c_flex c_freqs]. fold S. pose proof Hu as (_ & HC & _). destruct (c_wide u) eqn:W.
  - unfold home. assert (K : forall v, In v S -> exists i, chans_of u v = [i] /\ nth i (c_spws u) 0 = v) by (intros v Hv; apply wide_one; assumption).
    clear -K. induction S as [|v l IH]; [reflexivity|]. cbn [map flat_map]. destruct (K v (or_introl eq_refl)) as (i & E1 & E2).
    rewrite E1. cbn [app]. unfold take. cbn [map]. f_equal.
    + symmetry. etransitivity; [apply (map_nth (fun w => (w, 0)) (c_spws u) 0 i)|]. now rewrite E2.
    + apply IH. intros w Hw. apply K. right. exact Hw.
  - rewrite !take_flat. apply combine_take. lia.
Qed.
Lemma infos_new : infos new = take (0, 0) (infos u) home.
Proof.
  unfold infos, new, new_axes. cbn [c_wide c_freq_range c_widths]. fold S. destruct (c_wide u) eqn:W.
  - unfold home. apply take_flat.
  - unfold home. rewrite take_flat. unfold take. rewrite map_map. apply map_ext. intros i.
    symmetry. apply (map_nth (fun w => (w, 0)) (c_widths u) 0 i).
Qed.
Lemma home_length : length home = length (runs n S).
Proof. unfold home. apply runs_length. reflexivity. Qed.

Lemma new_ok : cal_ok new.
Proof.
  apply cal_ok_lists. pose proof Hu as HU. apply cal_ok_lists in HU. destruct HU as ((A & B & C & D) & E & F & G & I).
  split; [|split; [exact E|split; [|split; [exact G|exact HN]]]].
  - split; [exact A|]. split; [|split; [exact S_nodup|intros l H; discriminate]].
    unfold new, new_axes. cbn [c_wide c_freq_range c_spws c_widths c_freqs c_flex]. fold S. destruct (c_wide u) eqn:W.
    + rewrite take_flat, take_length. fold home. rewrite home_length, <- windex_new. unfold windex, new, new_axes. cbn [c_wide c_spws]. now rewrite W.
    + rewrite !take_flat, !take_length. split; [reflexivity|]. split; [reflexivity|]. intros w.
      rewrite <- take_flat. assert (EW : flat_map (fun v => take 0 (c_flex u) (chans_of u v)) S = runs n S).
      { rewrite <- windex_new. unfold windex, new, new_axes. cbn [c_wide c_flex]. now rewrite W. }
      rewrite EW. split; [apply runs_in|]. intros H. unfold runs. apply in_flat_map. exists w. split; [exact H|].
      pose proof (chans_of_nonempty u w Hu (S_spws _ H)) as L. fold (n w) in L. destruct (n w); [lia|left; reflexivity].
  - rewrite chans_new. unfold take.
    assert (K : forall l : list nat, NoDup l -> (forall i, In i l -> (i < length (chans u))%nat) -> NoDup (map (fun i => nth i (chans u) (0, 0)) l)).
    { intros l Nl. induction Nl as [|i l N1 N2 IH]; intros Hl; [constructor|]. cbn [map]. constructor.
      - intros X. apply in_map_iff in X. destruct X as (j & E1 & Hj).
        apply (proj1 (NoDup_nth _ (0, 0)) F) in E1; [subst; contradiction|apply Hl; right; exact Hj|apply Hl; left; reflexivity].
      - apply IH. intros j Hj. apply Hl. right. exact Hj. }
    apply K; [apply home_nodup|]. intros i Hi. rewrite (chans_length u Hu). apply home_lt, Hi.
Qed.

Lemma Nchans_new : Nchans new = length home.
Proof. rewrite <- (windex_length new new_ok), windex_new. symmetry. apply home_length. Qed.
Lemma chan_new f : (f < Nchans new)%nat -> chan_at new f = chan_at u (nth f home O) /\ chan_info new f = chan_info u (nth f home O).
Proof.
  intros L. rewrite Nchans_new in L. rewrite (chans_nth new f new_ok), (chans_nth u _ Hu), !infos_nth, chans_new, infos_new.
  rewrite !nth_take by exact L. auto.
Qed.

(** the [k]th entry of window [v] of the result was the [k]th entry of [v] *)
Lemma new_kth v k : In v S -> (k < n v)%nat ->
  length (chans_of new v) = n v /\ nth (nth k (chans_of new v) O) home O = nth k (chans_of u v) O.
Proof.
  intros Hv Hk. destruct (runs_segment n S S_nodup v Hv) as (o & E & F). unfold chans_of at 1 2. rewrite windex_new, E.
  split; [apply seq_length|]. rewrite seq_nth by exact Hk. apply F; [reflexivity|exact Hk].
Qed.
Lemma new_count v : In v S -> length (chans_of new v) = n v.
Proof. intros Hv. apply (new_kth v 0 Hv). apply (chans_of_nonempty u v Hu (S_spws _ Hv)). Qed.

Lemma all_fit : forallb (fits u new) maps = true.
Proof.
  apply forallb_forall. intros [[w v] p] H. unfold fits. cbn [fst snd]. rewrite (new_count v) by (apply in_S; eauto).
  destruct (M4 _ _ _ H) as [-> _]. unfold n. now rewrite Nat.eqb_refl.
Qed.

Lemma kth_lt w k f : kth new w k f -> (f < Nchans new)%nat /\ nth f (windex new) 0 = w.
Proof. intros H. apply (kth_chans _ _ _ _ new_ok) in H. apply nth_error_In in H. apply (chans_of_In _ _ _ new_ok) in H. exact H. Qed.

(** the value of an array of the result *)
Lemma spread_at {A} (d : A) param w p k f a t j : In (w, goal_of w, p) maps -> (k < n w)%nat -> f = nth k (chans_of new (goal_of w)) O ->
  nth j jones 0 = p -> spread d u new maps param a f t j = param a (nth k (chans_of u w) O) t O.
Proof.
  intros H Hk -> Ej. unfold spread.
  assert (HS : In (goal_of w) S) by (apply in_S; eauto). destruct (M4 _ _ _ H) as [EL _]. fold (n w) in EL.
  assert (Lk : (k < length (chans_of new (goal_of w)))%nat) by (rewrite new_count by exact HS; unfold n in *; lia).
  assert (Ew : nth (nth k (chans_of new (goal_of w)) O) (windex new) 0 = goal_of w).
  { assert (J : In (nth k (chans_of new (goal_of w)) O) (chans_of new (goal_of w))) by (apply nth_In; exact Lk).
    apply (chans_of_In _ _ _ new_ok) in J. apply J. }
  assert (IX : index_of Nat.eqb (nth k (chans_of new (goal_of w)) O) (chans_of new (goal_of w)) = Some k)
    by (apply index_of_nth; [apply nonzero_NoDup|exact Lk]).
  set (g := fun x : Z * Z * Z =>
    param a (nth (if (length (chans_of u (fst (fst x))) =? 1)%nat then O
                  else match index_of Nat.eqb (nth k (chans_of new (goal_of w)) O) (chans_of new (snd (fst x))) with Some k => k | None => O end)
                 (chans_of u (fst (fst x))) O) t O).
  change (fold_left (fun cur x => if (nth (nth k (chans_of new (goal_of w)) O) (windex new) 0 =? snd (fst x)) && (nth j (c_jones new) 0 =? snd x) then g x else cur) maps d
    = param a (nth k (chans_of u w) O) t O).
  rewrite (fold_one _ g maps d (w, goal_of w, p) H).
  - unfold g. cbn [fst snd]. rewrite IX. destruct (Nat.eqb_spec (length (chans_of u w)) 1) as [E1|_]; [|reflexivity].
    unfold n in Hk. replace k with O by lia. reflexivity.
  - cbn [fst snd]. rewrite Ew, Z.eqb_refl. cbn [andb]. apply Z.eqb_eq. exact Ej.
  - intros [[w' v'] p'] H' E. cbn [fst snd] in E. apply andb_prop in E. destruct E as [E1 E2]. apply Z.eqb_eq in E1, E2.
    rewrite Ew in E1. change (c_jones new) with jones in E2. rewrite Ej in E2. subst v' p'. rewrite (M3 _ _ _ _ H' H). reflexivity.
Qed.
Lemma spread_none {A} (d : A) param f a t j : (f < Nchans new)%nat ->
  (forall w, window_jones u w (nth j jones 0) -> goal_of w <> nth f (windex new) 0) -> spread d u new maps param a f t j = d.
Proof.
  intros L H. unfold spread.
  set (g := fun x : Z * Z * Z =>
    param a (nth (if (length (chans_of u (fst (fst x))) =? 1)%nat then O
                  else match index_of Nat.eqb f (chans_of new (snd (fst x))) with Some k => k | None => O end)
                 (chans_of u (fst (fst x))) O) t O).
  change (fold_left (fun cur x => if (nth f (windex new) 0 =? snd (fst x)) && (nth j (c_jones new) 0 =? snd x) then g x else cur) maps d = d).
  apply fold_none. intros [[w v] p] I. cbn [fst snd]. change (c_jones new) with jones. apply andb_false_iff.
  destruct (Z.eqb_spec (nth f (windex new) 0) v) as [E|_]; [right|left; reflexivity]. apply Z.eqb_neq. intros E2.
  apply (H w); [rewrite E2; apply in_window; eauto|]. rewrite (goal_maps _ _ _ I). auto.
Qed.

Lemma removal : c_tqual u = None -> exists r, set_windows maps jones u = Ok r /\ flex_jones_removed ftol ctol u r goal_of.
Proof.
  intros TQ. unfold set_windows. fold new. rewrite all_fit, TQ. cbn [negb]. eexists. split; [reflexivity|].
  set (r := set_arrays _ _ _ _ new).
  assert (Nr : Nchans r = Nchans new) by reflexivity.
  assert (Ca : forall f, chan_at r f = chan_at new f) by reflexivity.
  assert (Ci : forall f, chan_info r f = chan_info new f) by reflexivity.
  assert (Kr : forall w k f, kth r w k f <-> kth new w k f) by reflexivity.
  split; [exact new_ok|]. split; [|split; [reflexivity|split; [symmetry; exact TQ|split; [|split; [|split; [|split; [|split; [|split; [|split; [|split]]]]]]]]]].
  - split; [reflexivity|]. split; [reflexivity|]. split; [reflexivity|]. split; [reflexivity|]. split; [repeat split|].
    cbn [r set_arrays c_qual]. destruct (c_qual u); split; intros; try discriminate; reflexivity.
  - intros v. change (c_spws r) with S. rewrite in_S. split.
    + intros (w & p & H). exists w. split; [apply spw_maps; eauto|]. apply (goal_maps _ _ _ H).
    + intros (w & H & <-). apply spw_maps in H. destruct H as (v & p & H). rewrite (goal_maps _ _ _ H). eauto.
  - intros w H. apply spw_maps in H. destruct H as (v & p & H). rewrite (goal_maps _ _ _ H). destruct (M2 _ _ _ H) as (p' & H').
    split; [apply spw_maps; eauto|]. apply (goal_maps _ _ _ H').
  - intros w w' p H H' E. apply window_maps in H, H'. rewrite E in H. apply (M3 _ _ _ _ H H').
  - intros p. unfold has_jones, on_axis, Njones, jones_at. change (c_jones r) with jones. split.
    + intros (j & L & <-). assert (I : In (nth j jones 0) fj) by (apply HJ, nth_In, L). rewrite <- maps_jones in I.
      apply in_map_iff in I. destruct I as ([[w v] p] & E & I). cbn [snd] in E. subst p. exists w. apply in_window. eauto.
    + intros (w & H). apply in_window in H. destruct H as (v & H). assert (I : In p jones).
      { apply HJ. rewrite <- maps_jones. apply in_map_iff. exists (w, v, p). auto. }
      destruct (In_nth _ _ 0 I) as (j & L & E). exists j. auto.
  - intros v y i. change (c_spws r) with S. unfold about_chan. setoid_rewrite Ca. setoid_rewrite Ci. rewrite Nr. split.
    + intros (f & L & E1 & E2). pose proof (windex_nth new f) as WN. rewrite E1 in WN. cbn [fst] in WN.
      split.
      * rewrite <- windex_length in L by exact new_ok. rewrite windex_new in L, WN. apply (runs_in n). rewrite WN. apply nth_In, L.
      * destruct (chan_new f L) as [C1 C2]. exists (nth f home O). split; [apply home_lt, nth_In; rewrite <- Nchans_new; exact L|].
        split; congruence.
    + intros (Hv & f & L & E1 & E2). assert (I : In f (chans_of u v)) by (apply (chans_of_In u v f Hu); split; [exact L|rewrite <- windex_nth, E1; reflexivity]).
      assert (I' : In f home) by (apply in_flat_map; exists v; auto). destruct (In_nth _ _ O I') as (f' & L' & E').
      rewrite <- Nchans_new in L'. destruct (chan_new f' L') as [C1 C2]. rewrite E' in C1, C2. exists f'. split; [exact L'|]. split; congruence.
  - intros w k f f' Kf Kf'. apply Kr in Kf'. pose proof (kth_lt _ _ _ Kf') as [Lf' Wf']. apply (kth_chans u _ _ _ Hu) in Kf. apply (kth_chans new _ _ _ new_ok) in Kf'.
    assert (HS : In w S).
    { apply (runs_in n). rewrite <- windex_new, <- Wf'. apply nth_In. rewrite (windex_length new new_ok). exact Lf'. }
    assert (Lk : (k < n w)%nat) by (apply nth_error_Some; congruence).
    assert (Ef : f = nth k (chans_of u w) O) by (symmetry; apply nth_error_nth, Kf).
    assert (Ef' : f' = nth k (chans_of new w) O) by (symmetry; apply nth_error_nth, Kf').
    destruct (chan_new f' Lf') as [C1 C2]. rewrite Ca, Ci, C1, C2, Ef, Ef'. destruct (new_kth w k HS Lk) as [_ ->]. auto.
  - intros w k Hw. rewrite (kth_some u w k Hu). setoid_rewrite Kr. rewrite (kth_some new _ k new_ok).
    apply spw_maps in Hw. destruct Hw as (v & p & H). rewrite (goal_maps _ _ _ H), (new_count v) by (apply in_S; eauto).
    destruct (M4 _ _ _ H) as [-> _]. reflexivity.
  - intros w p k f f' j HW Kf Kf' Lj Ej. apply window_maps in HW. apply (kth_chans u _ _ _ Hu) in Kf. apply Kr in Kf'. pose proof (kth_lt _ _ _ Kf') as [Lf' _].
    apply (kth_chans new _ _ _ new_ok) in Kf'.
    assert (Lk : (k < n w)%nat) by (apply nth_error_Some; congruence).
    assert (Ef : f = nth k (chans_of u w) O) by (symmetry; apply nth_error_nth, Kf).
    assert (Ef' : f' = nth k (chans_of new (goal_of w)) O) by (symmetry; apply nth_error_nth, Kf').
    assert (HS : In (goal_of w) S) by (apply in_S; eauto). destruct (M4 _ _ _ HW) as [EL ENear]. specialize (ENear k Lk).
    assert (Eh : nth f' home O = nth k (chans_of u (goal_of w)) O) by (rewrite Ef'; apply new_kth; [exact HS|unfold n in *; lia]).
    split.
    + destruct (chan_new f' Lf') as [C1 C2]. rewrite Eh in C1, C2. rewrite <- Ef in ENear. unfold near in *. rewrite Ca, Ci, C1, C2. exact ENear.
    + intros a t. change (jones_at r j) with (nth j jones 0) in Ej. unfold entry. cbn [r set_arrays c_sol c_flags c_qual].
      rewrite !(spread_at _ _ w p k f' a t j HW Lk Ef' Ej), <- Ef. destruct (c_qual u) as [q|]; cbn [option_map]; [|reflexivity].
      rewrite (spread_at _ _ w p k f' a t j HW Lk Ef' Ej), <- Ef. reflexivity.
  - intros f j Lf Lj H a t. rewrite Nr in Lf. assert (H' : forall w, window_jones u w (nth j jones 0) -> goal_of w <> nth f (windex new) 0).
    { intros w Hw. rewrite <- windex_nth. rewrite <- Ca. apply H. exact Hw. }
    unfold entry. cbn [r set_arrays c_sol c_flags c_qual]. rewrite !spread_none by assumption.
    destruct (c_qual u); cbn [option_map]; rewrite ?spread_none by assumption; reflexivity.
Qed.
End Removal.
