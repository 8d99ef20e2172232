(** Proofs about UVBeam.__add__. *)
From Coq Require Import List ZArith Bool Arith String Lia Sorting.Sorted Permutation.
From Verif Require Import Lib.Py Lib.Np Lib.Sorting Model.BeamSelect Model.BeamAdd Spec.BeamSelectSpec Spec.BeamAddSpec Proofs.AddAxis Proofs.CalReorder Proofs.BeamSelectProofs.
Import ListNotations.
Notation length := List.length.
Open Scope list_scope.
Open Scope Z_scope.

(** * One axis *)
Section Axis.
Context {A : Type} (d : A) (eqb leb : A -> A -> bool).
Hypothesis EQ : forall x y, eqb x y = true <-> x = y.
Hypothesis TOTAL : forall x y, leb x y = true \/ leb y x = true.
Hypothesis TRANS : forall x y z, leb x y = true -> leb y z = true -> leb x z = true.

Lemma order_perm l : Permutation (order_by d leb l) (seq 0 (length l)).
Proof. apply argsort_by_perm. Qed.
Lemma order_sorted l : StronglySorted (fun x y => leb x y = true) (take d l (order_by d leb l)).
Proof.
  unfold take. apply (proj1 (StronglySorted_map _ _ _)). unfold order_by, argsort_by.
  eapply StronglySorted_impl; [|apply isort_sorted].
  - intros x y _ _ H. exact H.
  - intros x y. apply TOTAL.
  - intros x y z. apply TRANS.
Qed.

Variable l m : list A.
Hypothesis Nl : NoDup l.
Hypothesis Nm : NoDup m.
Let fresh := nonzero (fun x => negb (memb eqb x l)) m.
Let padded := l ++ take d m fresh.
Let g := merge d eqb leb l m.

Lemma fresh_In x : In x (take d m fresh) <-> In x m /\ ~ In x l.
Proof.
  unfold fresh. rewrite take_nonzero_filter, filter_In, negb_true_iff. split; intros (I & J); split; auto.
  - intros K. apply (memb_spec eqb EQ) in K. congruence.
  - apply not_true_iff_false. intros K. apply (memb_spec eqb EQ) in K. contradiction.
Qed.
Lemma padded_NoDup : NoDup padded.
Proof.
  apply NoDup_app_intro; [exact Nl | unfold fresh; rewrite take_nonzero_filter; apply NoDup_filter, Nm|].
  intros x I J. apply fresh_In in J. tauto.
Qed.
Lemma padded_In x : In x padded <-> In x l \/ In x m.
Proof.
  unfold padded. rewrite in_app_iff, fresh_In. split; [tauto|]. intros [I|I]; [auto|].
  destruct (memb eqb x l) eqn:M; [apply (memb_spec eqb EQ) in M; auto|]. right. split; [exact I|]. intros K. apply (memb_spec eqb EQ) in K. congruence.
Qed.
Lemma fresh_nil : fresh = [] <-> incl m l.
Proof.
  split.
  - intros E x I. destruct (memb eqb x l) eqn:M; [apply (memb_spec eqb EQ); exact M|]. exfalso.
    assert (K : In x (take d m fresh)) by (apply fresh_In; split; [exact I | intros J; apply (memb_spec eqb EQ) in J; congruence]).
    rewrite E in K. exact K.
  - intros H. destruct fresh as [|i t] eqn:E; [reflexivity|]. exfalso.
    assert (K : In (nth i m d) (take d m fresh)) by (rewrite E; left; reflexivity). apply fresh_In in K as (K & J). apply J, H, K.
Qed.
Lemma labels_cases : (incl m l /\ mg_labels g = l /\ mg_this g = fun i => Some i) \/
  (~ incl m l /\ mg_labels g = take d padded (order_by d leb padded) /\
   mg_this g = fun i => if (at_ (order_by d leb padded) i <? length l)%nat then Some (at_ (order_by d leb padded) i) else None).
Proof.
  unfold g, merge. fold fresh padded. cbn [mg_labels mg_this]. pose proof fresh_nil as FN. destruct fresh as [|i t] eqn:E.
  - left. split; [apply FN; reflexivity|]. auto.
  - right. split; [intros H; apply FN in H; discriminate H|]. split; reflexivity.
Qed.
Lemma labels_union : union_axis leb l m (mg_labels g).
Proof.
  destruct labels_cases as [(H & E & _) | (H & E & _)]; rewrite E.
  - split; [exact Nl|]. split; [intros x; split; [auto | intros [I|I]; auto]|]. split; [auto | contradiction].
  - assert (P : Permutation (take d padded (order_by d leb padded)) padded) by (apply take_perm, order_perm).
    split; [apply (Permutation_NoDup (Permutation_sym P)), padded_NoDup|].
    split; [intros x; rewrite <- padded_In; split; apply Permutation_in; [exact P | apply Permutation_sym, P]|].
    split; [contradiction | intros _; apply order_sorted].
Qed.
Lemma labels_NoDup : NoDup (mg_labels g).
Proof. apply labels_union. Qed.

Lemma this_spec i k : (i < length (mg_labels g))%nat ->
  (mg_this g i = Some k <-> (k < length l)%nat /\ nth k l d = nth i (mg_labels g) d).
Proof.
  intros L. destruct labels_cases as [(_ & E & F) | (_ & E & F)]; rewrite F; rewrite E in *.
  - split; [intros H; injection H as <-; auto|]. intros (Lk & Ek). f_equal. apply (proj1 (NoDup_nth _ d) Nl); auto.
  - rewrite take_length in L. rewrite (nth_take d d) by exact L. unfold at_.
    set (o := nth i (order_by d leb padded) 0%nat).
    assert (Lo : (o < length padded)%nat).
    { pose proof (nth_In (order_by d leb padded) 0%nat L) as I. apply (Permutation_in _ (order_perm padded)) in I. apply in_seq in I. fold o in I. lia. }
    destruct (o <? length l)%nat eqn:B.
    + apply Nat.ltb_lt in B. unfold padded. rewrite app_nth1 by exact B. split; [intros H; injection H as <-; auto|].
      intros (Lk & Ek). f_equal. apply (proj1 (NoDup_nth _ d) Nl); auto.
    + apply Nat.ltb_ge in B. split; [discriminate|]. intros (Lk & Ek). exfalso.
      assert (o = k); [|lia]. apply (proj1 (NoDup_nth _ d) padded_NoDup); [exact Lo | unfold padded; rewrite app_length; lia|].
      unfold padded. rewrite (app_nth1 l _ d Lk). symmetry. exact Ek.
Qed.

Lemma in_step_filter : in_step leb l m -> filter (fun x => memb eqb x m) (mg_labels g) = m.
Proof.
  intros H. destruct labels_cases as [(I & E & _) | (I & E & _)].
  - rewrite E. destruct H as [(_ & b & ->) | (X & _)]; [|contradiction]. clear - EQ. apply filter_ext_in. intros x Ix.
    destruct (b x) eqn:B.
    + apply (memb_spec eqb EQ), filter_In. auto.
    + apply not_true_iff_false. intros M. apply (memb_spec eqb EQ), filter_In in M as (_ & M). congruence.
  - destruct H as [(X & _) | (_ & H)]; [contradiction|].
    destruct labels_union as (N & U & _ & S). specialize (S I).
    apply (sorted_unique (before leb)).
    + intros x X. destruct (TOTAL x x) as [T|T]; unfold before in X; congruence.
    + unfold before. intros x y z P Q. apply not_true_iff_false. intros R.
      assert (leb y x = true); [|congruence]. apply (TRANS _ z); [|exact R]. destruct (TOTAL y z) as [T|T]; [exact T | congruence].
    + assert (G : forall r, StronglySorted (fun x y => leb x y = true) r -> NoDup r -> (forall x, In x r -> In x m) -> StronglySorted (before leb) r).
      { clear - H TOTAL. induction 1 as [|a r S IH F]; intros N B; [constructor|]. inversion N; subst. constructor; [apply IH; [assumption | intros x Ix; apply B; right; exact Ix]|].
        apply Forall_forall. intros y Iy. rewrite Forall_forall in F. specialize (F y Iy).
        assert (X : before leb a y \/ before leb y a).
        { pose proof (B a (or_introl eq_refl)) as Ia. pose proof (B y (or_intror Iy)) as Iy'. assert (a <> y) by (intros ->; contradiction).
          clear - H Ia Iy' H0. induction H as [|c m S IH F]; [destruct Ia|]. rewrite Forall_forall in F. destruct Ia as [-> | Ia], Iy' as [-> | Iy']; auto.
          contradiction. }
        destruct X as [X|X]; [exact X|]. unfold before in X. congruence. }
      apply G.
      * apply StronglySorted_filter. exact S.
      * apply NoDup_filter, N.
      * intros x Ix. apply filter_In in Ix as (_ & Ix). apply (memb_spec eqb EQ), Ix.
    + exact H.
    + intros x. rewrite filter_In, (memb_spec eqb EQ), U. tauto.
Qed.

Lemma other_spec i k : in_step leb l m -> (i < length (mg_labels g))%nat ->
  (mg_other g i = Some k <-> (k < length m)%nat /\ nth k m d = nth i (mg_labels g) d).
Proof.
  intros H L. pose proof (in_step_filter H) as F.
  change (mg_other g i) with (index_of Nat.eqb i (nonzero (fun x => memb eqb x m) (mg_labels g))).
  set (t := nonzero (fun x => memb eqb x m) (mg_labels g)).
  assert (T : take d (mg_labels g) t = m) by (unfold t; rewrite take_nonzero_filter; exact F).
  assert (LT : length t = length m) by (rewrite <- (take_length d (mg_labels g) t), T; reflexivity).
  assert (NT : forall k, (k < length m)%nat -> nth k m d = nth (nth k t 0%nat) (mg_labels g) d).
  { intros j Lj. transitivity (nth j (take d (mg_labels g) t) d); [rewrite T; reflexivity | apply nth_take; lia]. }
  assert (BT : forall k, (k < length m)%nat -> (nth k t 0 < length (mg_labels g))%nat).
  { intros j Lj. apply (nonzero_lt (fun x => memb eqb x m)). fold t. apply nth_In. lia. }
  split.
  - intros E. apply (index_of_Some Nat.eqb Nat.eqb_eq 0%nat) in E as (Lk & Ek & _). split; [lia|]. rewrite NT by lia. rewrite Ek. reflexivity.
  - intros (Lk & Ek). rewrite NT in Ek by exact Lk.
    assert (X : nth k t 0%nat = i) by (apply (proj1 (NoDup_nth _ d) labels_NoDup); auto).
    assert (I : In i t) by (rewrite <- X; apply nth_In; lia).
    destruct (index_of Nat.eqb i t) as [j|] eqn:E; [|apply (index_of_None Nat.eqb Nat.eqb_eq) in E; contradiction].
    apply (index_of_Some Nat.eqb Nat.eqb_eq 0%nat) in E as (Lj & Ej & _). f_equal.
    apply (proj1 (NoDup_nth _ 0%nat) (nonzero_NoDup (fun x => memb eqb x m) (mg_labels g))); fold t; [exact Lj | lia | congruence].
Qed.
End Axis.

Definition axis_facts {A} (d : A) (leb : A -> A -> bool) (l m : list A) (g : merged A) : Prop :=
  union_axis leb l m (mg_labels g) /\
  (forall i k, (i < length (mg_labels g))%nat -> (mg_this g i = Some k <-> (k < length l)%nat /\ nth k l d = nth i (mg_labels g) d)) /\
  (forall i k, (i < length (mg_labels g))%nat -> (mg_other g i = Some k <-> (k < length m)%nat /\ nth k m d = nth i (mg_labels g) d)).

Lemma merge_facts {A} (d : A) (eqb leb : A -> A -> bool) l m : (forall x y, eqb x y = true <-> x = y) ->
  (forall x y, leb x y = true \/ leb y x = true) -> (forall x y z, leb x y = true -> leb y z = true -> leb x z = true) ->
  NoDup l -> NoDup m -> in_step leb l m -> axis_facts d leb l m (merge d eqb leb l m).
Proof.
  intros EQ T TR Nl Nm H. split; [|split].
  - apply labels_union; assumption.
  - intros i k L. apply this_spec; assumption.
  - intros i k L. apply other_spec; assumption.
Qed.
Lemma mergeZ_facts l m : NoDup l -> NoDup m -> in_step Z.leb l m -> axis_facts 0 Z.leb l m (mergeZ l m).
Proof.
  apply merge_facts; [apply Z.eqb_eq | intros x y; rewrite !Z.leb_le; lia | intros x y z; rewrite !Z.leb_le; lia].
Qed.
Lemma merge_pols_facts l m : NoDup l -> NoDup m -> in_step by_abs l m -> axis_facts 0 by_abs l m (merge_pols l m).
Proof.
  apply merge_facts; [apply Z.eqb_eq | intros x y; unfold by_abs; rewrite !Z.leb_le; lia | intros x y z; unfold by_abs; rewrite !Z.leb_le; lia].
Qed.
Lemma merge_feeds_facts l m : NoDup l -> NoDup m -> in_step String.leb l m -> axis_facts EmptyString String.leb l m (merge_feeds l m).
Proof.
  apply merge_facts; [apply String.eqb_eq | intros x y; apply String.leb_total | apply CalReorder.string_leb_trans].
Qed.

Lemma shares_spec {A} (eqb : A -> A -> bool) (EQ : forall x y, eqb x y = true <-> x = y) l m : shares eqb l m = true <-> meet l m.
Proof.
  unfold shares, meet. rewrite existsb_exists. split; intros (x & I & J); exists x; split; auto; apply (memb_spec eqb EQ); exact J.
Qed.

(** * The sum *)
Section Sum.
Variables a b : ubeam.
Hypothesis Oa : beam_ok a.
Hypothesis Ob : beam_ok b.
Hypothesis COMB : combinable a b.
Hypothesis STEP : all_in_step a b.

Let gf := mergeZ (u_freqs a) (u_freqs b).
Let gp := merge_pols (u_pols a) (u_pols b).
Let ge := merge_feeds (u_feeds a) (u_feeds b).
Let tp := if u_power a then mg_this gp else mg_this ge.
Let op := if u_power a then mg_other gp else mg_other ge.

Definition image_axes : merged Z * merged Z :=
  match u_pix a, u_pix b with
  | Grid l1 l2, Grid m1 m2 => (mergeZ l2 m2, mergeZ l1 m1)
  | Healpix l, Healpix m => (no_axis, mergeZ l m)
  | _, _ => (no_axis, no_axis)
  end.
Let gy := fst image_axes.
Let gx := snd image_axes.
Definition sum_pix : pixels := match u_pix a with Healpix _ => Healpix (mg_labels gx) | Grid _ _ => Grid (mg_labels gx) (mg_labels gy) end.
Definition beam_sum : ubeam :=
  {| u_power := u_power a; u_phased := u_phased a; u_nvec := u_nvec a;
     u_pix := sum_pix; u_freqs := mg_labels gf;
     u_feeds := if u_power a then u_feeds a else mg_labels ge;
     u_pols := if u_power a then mg_labels gp else u_pols a;
     u_npols := if u_power a then length (mg_labels gp) else u_npols a;
     u_xo := u_xo a;
     u_data := fun v => fill4 (0, 0) tp (mg_this gf) (mg_this gy) (mg_this gx)
                              op (mg_other gf) (mg_other gy) (mg_other gx) (u_data a v) (u_data b v);
     u_basis :=
       if u_power a then u_basis a
       else match u_basis a, u_basis b with
            | Some x, Some y =>
                Some {| bv_ny := px_ny sum_pix; bv_nx := px_nx sum_pix;
                        bv_at := fun v c => fill2 (mg_this gy) (mg_this gx) (mg_other gy) (mg_other gx) (bv_at x v c) (bv_at y v c) |}
            | x, _ => x
            end;
     u_bandpass := along gf (u_bandpass a) (u_bandpass b);
     u_rx := along_opt gf (u_rx a) (u_rx b);
     u_loss := along_opt gf (u_loss a) (u_loss b);
     u_mismatch := along_opt gf (u_mismatch a) (u_mismatch b);
     u_spar := along_rows gf (u_spar a) (u_spar b);
     u_coupling := if u_phased a
       then fun d e => fill3 (mg_this ge) (mg_this gf) (mg_other ge) (mg_other gf) (u_coupling a d e) (u_coupling b d e)
       else u_coupling a |}.
Notation r := beam_sum.

Lemma gf_facts : axis_facts 0 Z.leb (u_freqs a) (u_freqs b) gf.
Proof. apply mergeZ_facts; [apply (bo_freqs _ Oa) | apply (bo_freqs _ Ob) | apply STEP]. Qed.
Lemma gp_facts : u_power a = true -> axis_facts 0 by_abs (u_pols a) (u_pols b) gp.
Proof. intros W. apply merge_pols_facts; [apply (bo_pols _ Oa) | apply (bo_pols _ Ob)|]. destruct STEP as (S & _). rewrite W in S. exact S. Qed.
Lemma ge_facts : u_power a = false -> axis_facts EmptyString String.leb (u_feeds a) (u_feeds b) ge.
Proof. intros W. apply merge_feeds_facts; [apply (bo_feeds _ Oa) | apply (bo_feeds _ Ob)|]. destruct STEP as (S & _). rewrite W in S. exact S. Qed.
Lemma power_b : u_power b = u_power a.
Proof. symmetry. apply COMB. Qed.

Lemma freq_this f f' : (f' < nfreq r)%nat -> (mg_this gf f' = Some f <-> (f < nfreq a)%nat /\ same_freq a r f f').
Proof. intros L. apply gf_facts. exact L. Qed.
Lemma freq_other f f' : (f' < nfreq r)%nat -> (mg_other gf f' = Some f <-> (f < nfreq b)%nat /\ same_freq b r f f').
Proof. intros L. apply gf_facts. exact L. Qed.
Lemma pol_this p p' : (p' < pol_count r)%nat -> (tp p' = Some p <-> (p < pol_count a)%nat /\ same_pol a r p p').
Proof.
  unfold pol_count, same_pol, tp. cbn [beam_sum u_power u_pols u_feeds]. destruct (u_power a) eqn:W; intros L.
  - apply (gp_facts W). exact L.
  - apply (ge_facts W). exact L.
Qed.
Lemma pol_other p p' : (p' < pol_count r)%nat -> (op p' = Some p <-> (p < pol_count b)%nat /\ same_pol b r p p').
Proof.
  unfold pol_count, same_pol, op. cbn [beam_sum u_power u_pols u_feeds]. rewrite power_b. destruct (u_power a) eqn:W; intros L.
  - apply (gp_facts W). exact L.
  - apply (ge_facts W). exact L.
Qed.
Lemma image_union : match u_pix a, u_pix b, u_pix r with
    | Healpix l, Healpix m, Healpix n => union_axis Z.leb l m n
    | Grid l1 l2, Grid m1 m2, Grid n1 n2 => union_axis Z.leb l1 m1 n1 /\ union_axis Z.leb l2 m2 n2
    | _, _, _ => False
    end.
Proof.
  cbn [beam_sum u_pix]. unfold sum_pix, gx, gy, image_axes. destruct COMB as (_ & _ & _ & K). destruct STEP as (_ & _ & S).
  pose proof (bo_image _ Oa) as Na. pose proof (bo_image _ Ob) as Nb. unfold same_kind in K.
  destruct (u_pix a), (u_pix b); try contradiction; cbn [fst snd].
  - apply (mergeZ_facts _ _ Na Nb S).
  - destruct S as (S1 & S2), Na as (N1 & N2), Nb as (M1 & M2). split; [apply (mergeZ_facts _ _ N1 M1 S1) | apply (mergeZ_facts _ _ N2 M2 S2)].
Qed.
Lemma spot_this y x y' x' : on_image r y' x' ->
  ((mg_this gy y' = Some y /\ mg_this gx x' = Some x) <-> on_image a y x /\ same_spot a r y x y' x').
Proof.
  unfold on_image, same_spot. cbn [beam_sum u_pix]. unfold sum_pix, gx, gy, image_axes. destruct COMB as (_ & _ & _ & K). destruct STEP as (_ & _ & S).
  pose proof (bo_image _ Oa) as Na. pose proof (bo_image _ Ob) as Nb. unfold same_kind in K.
  destruct (u_pix a), (u_pix b); try contradiction; cbn [fst snd px_nx px_ny]; intros (Ly & Lx).
  - destruct (mergeZ_facts _ _ Na Nb S) as (_ & T & _). rewrite (T _ _ Lx). cbn [no_axis mg_this]. split.
    + intros (E & L & F). injection E as <-. auto.
    + intros ((L0 & L) & F). split; [f_equal; lia | auto].
  - destruct S as (S1 & S2), Na as (N1 & N2), Nb as (M1 & M2). destruct (mergeZ_facts _ _ N1 M1 S1) as (_ & T1 & _). destruct (mergeZ_facts _ _ N2 M2 S2) as (_ & T2 & _).
    rewrite (T1 _ _ Lx), (T2 _ _ Ly). tauto.
Qed.
Lemma spot_other y x y' x' : on_image r y' x' ->
  ((mg_other gy y' = Some y /\ mg_other gx x' = Some x) <-> on_image b y x /\ same_spot b r y x y' x').
Proof.
  unfold on_image, same_spot. cbn [beam_sum u_pix]. unfold sum_pix, gx, gy, image_axes. destruct COMB as (_ & _ & _ & K). destruct STEP as (_ & _ & S).
  pose proof (bo_image _ Oa) as Na. pose proof (bo_image _ Ob) as Nb. unfold same_kind in K.
  destruct (u_pix a), (u_pix b); try contradiction; cbn [fst snd px_nx px_ny]; intros (Ly & Lx).
  - destruct (mergeZ_facts _ _ Na Nb S) as (_ & _ & T). rewrite (T _ _ Lx). cbn [no_axis mg_other]. split.
    + intros (E & L & F). injection E as <-. auto.
    + intros ((L0 & L) & F). split; [f_equal; lia | auto].
  - destruct S as (S1 & S2), Na as (N1 & N2), Nb as (M1 & M2). destruct (mergeZ_facts _ _ N1 M1 S1) as (_ & _ & T1). destruct (mergeZ_facts _ _ N2 M2 S2) as (_ & _ & T2).
    rewrite (T1 _ _ Lx), (T2 _ _ Ly). tauto.
Qed.

Lemma cell_this p f y x p' f' y' x' : cell r p' f' y' x' ->
  (same_cell a r p f y x p' f' y' x' <-> tp p' = Some p /\ mg_this gf f' = Some f /\ mg_this gy y' = Some y /\ mg_this gx x' = Some x).
Proof.
  intros (Lp & Lf & Li). rewrite (pol_this _ _ Lp), (freq_this _ _ Lf), (spot_this _ _ _ _ Li). unfold same_cell, cell. tauto.
Qed.
Lemma cell_other p f y x p' f' y' x' : cell r p' f' y' x' ->
  (same_cell b r p f y x p' f' y' x' <-> op p' = Some p /\ mg_other gf f' = Some f /\ mg_other gy y' = Some y /\ mg_other gx x' = Some x).
Proof.
  intros (Lp & Lf & Li). rewrite (pol_other _ _ Lp), (freq_other _ _ Lf), (spot_other _ _ _ _ Li). unfold same_cell, cell. tauto.
Qed.

(** Cells that both have *)
Lemma both_overlap p f y x q g j i p' f' y' x' : same_cell a r p f y x p' f' y' x' -> same_cell b r q g j i p' f' y' x' -> overlap a b.
Proof.
  intros ((Lp & Lf & Ly & Lx) & Ep & Ef & Es) ((Lq & Lg & Lj & Li) & Eq & Eg & Et). unfold overlap.
  unfold same_pol, pol_count, nfreq, same_freq, same_spot in *. rewrite power_b in Lq, Eq.
  split; [|split].
  - clear - Lp Lq Ep Eq. revert Lp Lq Ep Eq. generalize (u_power a). intros [] Lp Lq Ep Eq; eexists; (split; [apply nth_In, Lp|]); rewrite Ep, <- Eq; apply nth_In, Lq.
  - eexists. split; [apply nth_In, Lf|]. rewrite Ef, <- Eg. apply nth_In, Lg.
  - destruct (u_pix a), (u_pix b), (u_pix r); try contradiction; cbn [px_nx px_ny] in *.
    + eexists. split; [apply nth_In, Lx|]. rewrite Es, <- Et. apply nth_In, Li.
    + destruct Es as (E1 & E2), Et as (F1 & F2). split; eexists; (split; [first [apply nth_In, Lx | apply nth_In, Ly]|]).
      * rewrite E1, <- F1. apply nth_In, Li.
      * rewrite E2, <- F2. apply nth_In, Lj.
Qed.

Lemma other_data : data_from b r.
Proof.
  intros v p f y x p' f' y' x' C H. apply (cell_other _ _ _ _ _ _ _ _ C) in H as (E1 & E2 & E3 & E4).
  cbn [beam_sum u_data]. unfold fill4. rewrite E1, E2, E3, E4. reflexivity.
Qed.
Lemma this_data : ~ overlap a b -> data_from a r.
Proof.
  intros NO v p f y x p' f' y' x' C H. pose proof H as H0. apply (cell_this _ _ _ _ _ _ _ _ C) in H as (E1 & E2 & E3 & E4).
  cbn [beam_sum u_data]. unfold fill4. rewrite E1, E2, E3, E4.
  destruct (op p') eqn:O1; [|reflexivity]. destruct (mg_other gf f') eqn:O2; [|reflexivity].
  destruct (mg_other gy y') eqn:O3; [|reflexivity]. destruct (mg_other gx x') eqn:O4; [|reflexivity].
  exfalso. apply NO. eapply both_overlap; [exact H0|]. apply (cell_other _ _ _ _ _ _ _ _ C). eauto.
Qed.
Lemma hole_data v p f y x : cell r p f y x -> lacks_cell a r p f y x -> lacks_cell b r p f y x -> u_data r v p f y x = (0, 0).
Proof.
  intros C A B. cbn [beam_sum u_data]. unfold fill4.
  destruct (op p) eqn:O1; [destruct (mg_other gf f) eqn:O2; [destruct (mg_other gy y) eqn:O3; [destruct (mg_other gx x) eqn:O4; [exfalso|]|]|]|].
  { eapply B. apply (cell_other _ _ _ _ _ _ _ _ C). eauto. }
  all: destruct (tp p) eqn:T1; [|reflexivity]; destruct (mg_this gf f) eqn:T2; [|reflexivity];
       destruct (mg_this gy y) eqn:T3; [|reflexivity]; destruct (mg_this gx x) eqn:T4; [|reflexivity];
       exfalso; eapply A; apply (cell_this _ _ _ _ _ _ _ _ C); eauto.
Qed.

Lemma along_sum x y : freq_sum a b r x y (along gf x y).
Proof.
  assert (LN : nfreq r = length (mg_labels gf)) by reflexivity.
  assert (NT : forall f', (f' < nfreq r)%nat -> nth f' (along gf x y) 0 = filled1 0 (mg_this gf) (mg_other gf) (fun i => nth i x 0) (fun i => nth i y 0) f').
  { intros f' L. unfold along. rewrite LN in L. rewrite (nth_map _ _ _ 0%nat) by (rewrite seq_length; exact L). rewrite seq_nth by exact L. reflexivity. }
  split; [unfold along; rewrite map_length, seq_length; reflexivity|]. split.
  - intros f f' Lf Lf' E. rewrite (NT f' Lf'). unfold filled1. rewrite (proj2 (freq_other f f' Lf')) by auto. reflexivity.
  - intros f f' Lf Lf' E N. rewrite (NT f' Lf'). unfold filled1. destruct (mg_other gf f') as [k|] eqn:O.
    + apply (freq_other _ _ Lf') in O as (Lk & Ek). exfalso. apply N. unfold same_freq in Ek. rewrite <- Ek. apply nth_In, Lk.
    + rewrite (proj2 (freq_this f f' Lf')) by auto. reflexivity.
Qed.
Lemma along_opt_sum x y : freq_sum_opt a b r x y (along_opt gf x y).
Proof. destruct x, y; cbn; auto. apply along_sum. Qed.

Lemma basis_sum : u_power a = false ->
  match u_basis a, u_basis b, u_basis r with
  | Some x, Some y, Some z => bv_ny z = px_ny (u_pix r) /\ bv_nx z = px_nx (u_pix r) /\
      forall v c j' i', on_image r j' i' ->
        (forall j i, on_image b j i -> same_spot b r j i j' i' -> bv_at z v c j' i' = bv_at y v c j i) /\
        ((forall j i, on_image b j i -> ~ same_spot b r j i j' i') ->
         (forall j i, on_image a j i -> same_spot a r j i j' i' -> bv_at z v c j' i' = bv_at x v c j i) /\
         ((forall j i, on_image a j i -> ~ same_spot a r j i j' i') -> bv_at z v c j' i' = 0))
  | _, _, _ => False
  end.
Proof.
  intros W. pose proof (bo_basis _ Oa) as Ba. pose proof (bo_basis _ Ob) as Bb. rewrite power_b in Bb. cbn [beam_sum u_basis]. rewrite W in *.
  destruct (u_basis a) as [x|]; [|discriminate]. destruct (u_basis b) as [y|]; [|discriminate].
  cbn [bv_ny bv_nx bv_at]. split; [reflexivity|]. split; [reflexivity|]. intros v c j' i' L. split; [|intros NB; split].
  - intros j i Lb E. destruct (proj2 (spot_other j i j' i' L) (conj Lb E)) as (E1 & E2). unfold fill2. rewrite E1, E2. reflexivity.
  - intros j i La E. destruct (proj2 (spot_this j i j' i' L) (conj La E)) as (E1 & E2). unfold fill2. rewrite E1, E2.
    destruct (mg_other gy j') eqn:O3; [|reflexivity]. destruct (mg_other gx i') eqn:O4; [|reflexivity].
    exfalso. destruct (proj1 (spot_other _ _ _ _ L) (conj O3 O4)) as (X & Y). exact (NB _ _ X Y).
  - intros NA. unfold fill2. destruct (mg_other gy j') eqn:O3; [destruct (mg_other gx i') eqn:O4; [exfalso|]|].
    { destruct (proj1 (spot_other _ _ _ _ L) (conj O3 O4)) as (X & Y). exact (NB _ _ X Y). }
    all: destruct (mg_this gy j') eqn:T3; [|reflexivity]; destruct (mg_this gx i') eqn:T4; [|reflexivity];
         exfalso; destruct (proj1 (spot_this _ _ _ _ L) (conj T3 T4)) as (X & Y); exact (NA _ _ X Y).
Qed.

Theorem sum_is : ~ overlap a b -> sum_of a b r.
Proof.
  intros NO. constructor.
  - auto.
  - cbn [beam_sum u_pols u_npols u_feeds]. destruct (u_power a) eqn:W; [split; [apply (gp_facts W) | reflexivity] | apply (ge_facts W)].
  - apply gf_facts.
  - apply image_union.
  - apply this_data, NO.
  - apply other_data.
  - apply hole_data.
  - apply along_sum.
  - apply along_opt_sum.
  - apply along_opt_sum.
  - apply along_opt_sum.
  - cbn [beam_sum u_spar]. destruct (u_spar a) as [x|]; [|reflexivity]. destruct (u_spar b) as [y|]; [|reflexivity]. cbn [along_rows].
    rewrite map_length, combine_length. split; [reflexivity|]. intros k Lk.
    rewrite (nth_map _ _ _ ([], [])) by (rewrite combine_length; exact Lk).
    assert (E : fst (nth k (combine x y) ([], [])) = nth k x [] /\ snd (nth k (combine x y) ([], [])) = nth k y []).
    { clear - Lk. revert x y Lk. induction k as [|k IH]; intros [|x0 x] [|y0 y] Lk; cbn in *; try lia; [auto|]. apply IH. lia. }
    destruct E as (-> & ->). apply along_sum.
  - apply basis_sum.
  - intros W. cbn [beam_sum u_basis]. rewrite W. reflexivity.
  - intros W Ph d e g' h' f' Lg Lh Lf.
    assert (PT : forall p p', (p' < pol_count r)%nat -> (mg_this ge p' = Some p <-> (p < pol_count a)%nat /\ same_pol a r p p')).
    { intros p p' L. rewrite <- (pol_this p p' L). unfold tp. rewrite W. reflexivity. }
    assert (PO : forall p p', (p' < pol_count r)%nat -> (mg_other ge p' = Some p <-> (p < pol_count b)%nat /\ same_pol b r p p')).
    { intros p p' L. rewrite <- (pol_other p p' L). unfold op. rewrite W. reflexivity. }
    assert (EU : u_coupling r d e g' h' f' = fill3 (mg_this ge) (mg_this gf) (mg_other ge) (mg_other gf) (u_coupling a d e) (u_coupling b d e) g' h' f').
    { cbn [beam_sum u_coupling]. rewrite Ph. reflexivity. }
    rewrite EU. unfold fill3. split.
    + intros g h f Kg Kh Kf Eg Eh Ef. rewrite (proj2 (PO g g' Lg)), (proj2 (PO h h' Lh)), (proj2 (freq_other f f' Lf)) by auto. reflexivity.
    + intros NB g h f Kg Kh Kf Eg Eh Ef. rewrite (proj2 (PT g g' Lg)), (proj2 (PT h h' Lh)), (proj2 (freq_this f f' Lf)) by auto.
      destruct (mg_other ge g') eqn:O1; [|reflexivity]. destruct (mg_other ge h') eqn:O2; [|reflexivity]. destruct (mg_other gf f') eqn:O3; [|reflexivity].
      exfalso. apply NB. destruct (proj1 (PO _ _ Lg) O1) as (A1 & A2), (proj1 (PO _ _ Lh) O2) as (B1 & B2), (proj1 (freq_other _ _ Lf) O3) as (C1 & C2).
      eexists _, _, _. exact (conj A1 (conj B1 (conj C1 (conj A2 (conj B2 C2))))).
Qed.

Lemma along_opt_len x y : len_ok (nfreq r) (along_opt gf x y).
Proof. destruct x, y; cbn; auto. unfold along. rewrite map_length, seq_length. reflexivity. Qed.
Theorem sum_ok : (u_power a = true -> u_basis a = None) -> beam_ok r.
Proof.
  intros BN. constructor.
  - pose proof image_union as U. destruct (u_pix a), (u_pix b), (u_pix r); try contradiction; [apply U | split; apply U].
  - apply gf_facts.
  - cbn [beam_sum u_feeds]. destruct (u_power a) eqn:W; [apply (bo_feeds _ Oa) | apply (ge_facts W)].
  - cbn [beam_sum u_pols]. destruct (u_power a) eqn:W; [apply (gp_facts W) | apply (bo_pols _ Oa)].
  - cbn [beam_sum u_power u_npols u_pols]. intros ->. reflexivity.
  - pose proof (bo_basis _ Oa) as Ba. pose proof (bo_basis _ Ob) as Bb. rewrite power_b in Bb. cbn [beam_sum u_basis u_power u_pix]. destruct (u_power a) eqn:W.
    + rewrite (BN eq_refl). reflexivity.
    + destruct (u_basis a); [|discriminate]. destruct (u_basis b); [|discriminate]. cbn. auto.
  - unfold nfreq. cbn. unfold along. rewrite map_length, seq_length. reflexivity.
  - apply along_opt_len.
  - apply along_opt_len.
  - apply along_opt_len.
  - cbn [beam_sum u_spar]. destruct (u_spar a); [|exact I]. destruct (u_spar b); [|exact I]. cbn [along_rows]. apply Forall_forall. intros z Iz.
    apply in_map_iff in Iz as (q & <- & _). unfold along. rewrite map_length, seq_length. reflexivity.
Qed.
End Sum.

(** What beam_add does *)
Definition overlapb (a b : ubeam) : bool :=
  (if u_power a then shares Z.eqb (u_pols a) (u_pols b) else shares String.eqb (u_feeds a) (u_feeds b)) &&
  shares Z.eqb (u_freqs a) (u_freqs b) &&
  match u_pix a, u_pix b with
  | Healpix l, Healpix m => shares Z.eqb l m
  | Grid l1 l2, Grid m1 m2 => shares Z.eqb l1 m1 && shares Z.eqb l2 m2
  | _, _ => false
  end.
Lemma overlapb_spec a b : overlapb a b = true <-> overlap a b.
Proof.
  unfold overlapb, overlap. rewrite !andb_true_iff, (shares_spec Z.eqb Z.eqb_eq (u_freqs a)).
  assert (E1 : (if u_power a then shares Z.eqb (u_pols a) (u_pols b) else shares String.eqb (u_feeds a) (u_feeds b)) = true <->
               (if u_power a then meet (u_pols a) (u_pols b) else meet (u_feeds a) (u_feeds b))).
  { destruct (u_power a); [apply shares_spec, Z.eqb_eq | apply shares_spec, String.eqb_eq]. }
  rewrite E1. destruct (u_pix a), (u_pix b); try (intuition discriminate).
  - rewrite (shares_spec Z.eqb Z.eqb_eq). tauto.
  - rewrite andb_true_iff, !(shares_spec Z.eqb Z.eqb_eq). tauto.
Qed.
Definition combinableb (a b : ubeam) : bool :=
  Bool.eqb (u_power a) (u_power b) && Bool.eqb (u_phased a) (u_phased b) && (u_nvec a =? u_nvec b)%nat &&
  match u_pix a, u_pix b with Healpix _, Healpix _ | Grid _ _, Grid _ _ => true | _, _ => false end.
Lemma combinableb_spec a b : combinableb a b = true <-> combinable a b.
Proof.
  unfold combinableb, combinable. rewrite !andb_true_iff, !eqb_true_iff, Nat.eqb_eq. unfold same_kind.
  destruct (u_pix a), (u_pix b); intuition discriminate.
Qed.
Lemma beam_add_eq chk a b : beam_add chk a b =
  if negb (combinableb a b) then Err ValueError
  else if overlapb a b then Err ValueError
  else if chk && negb (shapes_ok (beam_sum a b)) then Err ValueError else Ok (beam_sum a b).
Proof.
  unfold beam_add, combinableb, overlapb, beam_sum, sum_pix, image_axes.
  destruct (Bool.eqb (u_power a) (u_power b) && Bool.eqb (u_phased a) (u_phased b) && (u_nvec a =? u_nvec b)%nat); [|reflexivity].
  cbn [negb andb]. destruct (u_pix a), (u_pix b); reflexivity.
Qed.

Theorem add_sums chk a b : beam_ok a -> beam_ok b -> combinable a b -> ~ overlap a b -> all_in_step a b ->
  (u_power a = true -> u_basis a = None) ->
  exists r, beam_add chk a b = Ok r /\ beam_ok r /\ sum_of a b r.
Proof.
  intros Oa Ob C NO S BN. exists (beam_sum a b). rewrite beam_add_eq. rewrite (proj2 (combinableb_spec a b) C). cbn [negb].
  replace (overlapb a b) with false. 2:{ symmetry. apply not_true_iff_false. intros X. apply NO, overlapb_spec, X. }
  pose proof (sum_ok a b Oa Ob C S BN) as O. rewrite (shapes_fine _ O), andb_false_r.
  split; [reflexivity|]. split; [exact O|]. apply sum_is; assumption.
Qed.
Theorem add_accepts chk a b r : beam_add chk a b = Ok r -> combinable a b /\ ~ overlap a b.
Proof.
  rewrite beam_add_eq. destruct (combinableb a b) eqn:C; cbn [negb]; [|discriminate]. destruct (overlapb a b) eqn:V; [discriminate|]. intros _.
  split; [apply combinableb_spec, C|]. intros X. apply overlapb_spec in X. congruence.
Qed.
Theorem add_refuses chk a b : overlap a b \/ ~ combinable a b -> beam_add chk a b = Err ValueError.
Proof.
  intros H. rewrite beam_add_eq. destruct (combinableb a b) eqn:C; cbn [negb]; [|reflexivity]. destruct H as [H | H].
  - rewrite (proj2 (overlapb_spec a b) H). reflexivity.
  - apply combinableb_spec in C. contradiction.
Qed.

(** Splitting along frequency and adding the parts *)
Lemma keeps_every {A} (P : A -> Prop) l l' : (forall x, P x) -> keeps P l l' -> l' = l.
Proof.
  intros H (b & K & ->). induction l as [|x l IH]; [reflexivity|]. cbn [filter]. rewrite (proj2 (K x (or_introl eq_refl)) (H x)). f_equal. apply IH.
  intros y Iy. apply K. right. exact Iy.
Qed.
Lemma in_step_same {A} (leb : A -> A -> bool) l : in_step leb l l.
Proof. left. split; [apply incl_refl|]. exists (fun _ => true). induction l; cbn; congruence. Qed.
Lemma union_same {A} (leb : A -> A -> bool) l r : union_axis leb l l r -> r = l.
Proof. intros (_ & _ & E & _). apply E, incl_refl. Qed.
Definition on_freqs (l : list Z) : beam_request := mkBeamRequest None None None (Some l) None None None.
Lemma on_freqs_wants l u x : wants_freq (on_freqs l) u x <-> In x l.
Proof.
  unfold wants_freq, on_freqs. cbn. split; [|intros J; right; left; eauto].
  intros [(X & _) | [(m & X & J) | (m & c & j & X & _)]]; [discriminate | injection X as <-; exact J | discriminate].
Qed.
Record freq_part (l : list Z) (u a : ubeam) : Prop := {
  fp_same : u_power a = u_power u /\ u_phased a = u_phased u /\ u_nvec a = u_nvec u;
  fp_pix : u_pix a = u_pix u; fp_feeds : u_feeds a = u_feeds u; fp_pols : u_pols a = u_pols u;
  fp_freqs : exists b, (forall x, In x (u_freqs u) -> (b x = true <-> In x l)) /\ u_freqs a = filter b (u_freqs u);
  fp_num : same_numbers u a }.
Lemma part_of l u a : cut_down (on_freqs l) u a -> freq_part l u a.
Proof.
  intros [S I F E P N]. constructor.
  - tauto.
  - destruct (u_pix u), (u_pix a); try contradiction.
    + apply keeps_every in I; [congruence | exact (fun _ => Logic.I)].
    + destruct I as (I1 & I2). apply keeps_every in I1; [|exact (fun _ => Logic.I)]. apply keeps_every in I2; [|exact (fun _ => Logic.I)]. congruence.
  - apply keeps_every in E; [exact E | exact (fun _ => Logic.I)].
  - apply keeps_every in P; [exact P | exact (fun _ => Logic.I)].
  - destruct F as (b & K & F). exists b. split; [|exact F]. intros x Ix. rewrite (K x Ix). apply on_freqs_wants.
  - exact N.
Qed.
Lemma sorted_lt_filter (b : Z -> bool) l : StronglySorted Z.lt l -> StronglySorted (before Z.leb) (filter b l).
Proof.
  induction 1 as [|x l S IH F]; cbn [filter]; [constructor|]. destruct (b x); [|exact IH]. constructor; [exact IH|].
  apply Forall_forall. intros y Iy. apply filter_In in Iy as (Iy & _). rewrite Forall_forall in F. specialize (F y Iy). unfold before. apply Z.leb_gt. exact F.
Qed.
Lemma sorted_same (l m : list Z) : NoDup l -> StronglySorted (fun x y => (x <=? y) = true) l -> StronglySorted Z.lt m -> (forall x, In x l <-> In x m) -> l = m.
Proof.
  revert m. induction l as [|x l IH]; intros [|y m] N S1 S2 E.
  - reflexivity.
  - exfalso. exact (proj2 (E y) (or_introl eq_refl)).
  - exfalso. exact (proj1 (E x) (or_introl eq_refl)).
  - inversion N as [|? ? NI N']; subst. inversion S1 as [|? ? S1' F1]; subst. inversion S2 as [|? ? S2' F2]; subst. rewrite Forall_forall in F1, F2.
    assert (Q : x = y).
    { destruct (proj1 (E x) (or_introl eq_refl)) as [Q | Q]; [congruence|]. destruct (proj2 (E y) (or_introl eq_refl)) as [Q' | Q']; [exact Q'|].
      specialize (F2 _ Q). specialize (F1 _ Q'). apply Z.leb_le in F1. lia. }
    subst y. f_equal. apply IH; try assumption. intros z. split; intros Iz.
    + destruct (proj1 (E z) (or_intror Iz)) as [<- | Q]; [contradiction | exact Q].
    + destruct (proj2 (E z) (or_intror Iz)) as [<- | Q]; [|exact Q]. specialize (F2 _ Iz). lia.
Qed.

Lemma rows_len {A B} (R : A -> B -> Prop) l m : Forall2 R l m -> length l = length m.
Proof. induction 1; cbn; congruence. Qed.
Lemma rows_nth {A B} (R : A -> B -> Prop) l m d e : Forall2 R l m -> forall k, (k < length l)%nat -> R (nth k l d) (nth k m e).
Proof. induction 1 as [|x y l m H _ IH]; intros [|k] L; cbn in *; try lia; [exact H | apply IH; lia]. Qed.
Lemma rows_intro {A B} (R : A -> B -> Prop) d e l : forall m, length l = length m ->
  (forall k, (k < length l)%nat -> R (nth k l d) (nth k m e)) -> Forall2 R l m.
Proof.
  induction l as [|x l IH]; intros [|y m] E H; try discriminate; constructor; [exact (H 0%nat (Nat.lt_0_succ _))|].
  apply IH; [cbn in E; lia|]. intros k L. apply (H (S k)). cbn. lia.
Qed.

Section Split.
Variables (fs gs : list Z) (u a b r : ubeam).
Hypotheses (Ou : beam_ok u) (PA : freq_part fs u a) (PB : freq_part gs u b) (SF : StronglySorted Z.lt (u_freqs u))
  (Part : forall x, In x (u_freqs u) -> (In x fs <-> ~ In x gs)).

Lemma in_a x : In x (u_freqs a) <-> In x (u_freqs u) /\ In x fs.
Proof. destruct (fp_freqs _ _ _ PA) as (c & K & ->). rewrite filter_In. split; intros (I & J); (split; [exact I|]); apply (K x I), J. Qed.
Lemma in_b x : In x (u_freqs b) <-> In x (u_freqs u) /\ In x gs.
Proof. destruct (fp_freqs _ _ _ PB) as (c & K & ->). rewrite filter_In. split; intros (I & J); (split; [exact I|]); apply (K x I), J. Qed.
Lemma parts_apart : ~ meet (u_freqs a) (u_freqs b).
Proof. intros (x & I & J). apply in_a in I as (I & I'). apply in_b in J as (_ & J). exact (proj1 (Part x I) I' J). Qed.
Lemma parts_combinable : combinable a b.
Proof.
  unfold combinable. destruct (fp_same _ _ _ PA) as (-> & -> & ->), (fp_same _ _ _ PB) as (-> & -> & ->).
  rewrite (fp_pix _ _ _ PA), (fp_pix _ _ _ PB). unfold same_kind. destruct (u_pix u); auto.
Qed.
Lemma parts_no_overlap : ~ overlap a b.
Proof. intros (_ & M & _). exact (parts_apart M). Qed.
Lemma parts_in_step : all_in_step a b.
Proof.
  unfold all_in_step. rewrite (fp_pix _ _ _ PA), (fp_pix _ _ _ PB), (fp_feeds _ _ _ PA), (fp_feeds _ _ _ PB), (fp_pols _ _ _ PA), (fp_pols _ _ _ PB).
  split; [|split].
  - destruct (u_power a); apply in_step_same.
  - destruct (fp_freqs _ _ _ PB) as (c & K & E). destruct (u_freqs b) as [|y l] eqn:Eb.
    + left. split; [intros x []|]. exists (fun _ => false). clear. induction (u_freqs a); [reflexivity | assumption].
    + right. split; [|rewrite E; apply sorted_lt_filter, SF]. intros Q. apply parts_apart. exists y. rewrite Eb. split; [apply Q|]; left; reflexivity.
  - destruct (u_pix u); [|split]; apply in_step_same.
Qed.
Lemma parts_basis : plain_power u -> u_power a = true -> u_basis a = None.
Proof.
  intros P W. destruct (fp_same _ _ _ PA) as (E & _). rewrite E in W. destruct (P W) as (BN & _).
  pose proof (sn_basis _ _ (fp_num _ _ _ PA)) as Q. rewrite BN in Q. destruct (u_basis a); tauto.
Qed.

Hypothesis (SO : sum_of a b r).
Lemma whole_freqs : u_freqs r = u_freqs u.
Proof.
  pose proof (so_freqs _ _ _ SO) as (N & I & Q1 & Q2).
  destruct (u_freqs b) as [|y l] eqn:Eb.
  - rewrite Q1 by (intros x []). destruct (fp_freqs _ _ _ PA) as (c & K & E). rewrite E.
    assert (H : forall x, In x (u_freqs u) -> c x = true).
    { intros x Ix. apply (K x Ix), (Part x Ix). intros G. assert (X : In x (u_freqs b)) by (apply in_b; auto). rewrite Eb in X. destruct X. }
    clear - H. induction (u_freqs u) as [|x l IH]; [reflexivity|]. cbn [filter]. rewrite (H x (or_introl eq_refl)). f_equal. apply IH. intros y Iy. apply H. right. exact Iy.
  - apply sorted_same; try assumption.
    + apply Q2. intros Q. apply parts_apart. exists y. rewrite Eb. split; [apply Q|]; left; reflexivity.
    + intros x. rewrite I, <- Eb, in_a, in_b. split; [tauto|]. intros Ix. destruct (in_dec Z.eq_dec x gs); [tauto|]. left. split; [exact Ix|]. apply Part; assumption.
Qed.
Lemma whole_pix : u_pix r = u_pix u.
Proof.
  pose proof (so_image _ _ _ SO) as I. rewrite (fp_pix _ _ _ PA), (fp_pix _ _ _ PB) in I. destruct (u_pix u), (u_pix r); try contradiction.
  - apply union_same in I. congruence.
  - destruct I as (I1 & I2). apply union_same in I1. apply union_same in I2. congruence.
Qed.
Lemma whole_power : u_power r = u_power u.
Proof. rewrite (proj1 (so_same _ _ _ SO)). apply (fp_same _ _ _ PA). Qed.
Lemma whole_pols : if u_power u then u_pols r = u_pols u else u_feeds r = u_feeds u.
Proof.
  pose proof (so_pol _ _ _ SO) as I. rewrite (fp_pols _ _ _ PA), (fp_pols _ _ _ PB), (fp_feeds _ _ _ PA), (fp_feeds _ _ _ PB), (proj1 (fp_same _ _ _ PA)) in I.
  destruct (u_power u); [exact (union_same _ _ _ (proj1 I)) | exact (union_same _ _ _ I)].
Qed.

(** Each label of the whole is one of a part. *)
Lemma freq_in_a f : (f < nfreq u)%nat -> ~ In (nth f (u_freqs u) 0) (u_freqs b) -> exists f1, (f1 < nfreq a)%nat /\ same_freq u a f f1.
Proof.
  intros L NB. assert (Ix : In (nth f (u_freqs u) 0) (u_freqs u)) by (apply nth_In, L).
  assert (X : In (nth f (u_freqs u) 0) (u_freqs a)). { apply in_a. split; [exact Ix|]. apply (Part _ Ix). intros G. apply NB, in_b. auto. }
  apply In_nth with (d := 0) in X as (k & Lk & E). exists k. split; [exact Lk|]. unfold same_freq. congruence.
Qed.
Lemma freq_in_b f : In (nth f (u_freqs u) 0) (u_freqs b) -> exists f1, (f1 < nfreq b)%nat /\ same_freq u b f f1.
Proof. intros X. apply In_nth with (d := 0) in X as (k & Lk & E). exists k. split; [exact Lk|]. unfold same_freq. congruence. Qed.
Lemma parts_pol v : (v = a \/ v = b) -> forall p p', same_pol u r p p' -> same_pol u v p p /\ same_pol v r p p'.
Proof.
  intros V p p' E. unfold same_pol in *. destruct V as [-> | ->].
  - rewrite (proj1 (fp_same _ _ _ PA)), (fp_pols _ _ _ PA), (fp_feeds _ _ _ PA). destruct (u_power u); auto.
  - rewrite (proj1 (fp_same _ _ _ PB)), (fp_pols _ _ _ PB), (fp_feeds _ _ _ PB). destruct (u_power u); auto.
Qed.
Lemma parts_count v : (v = a \/ v = b) -> pol_count v = pol_count u.
Proof.
  unfold pol_count. intros [-> | ->].
  - rewrite (proj1 (fp_same _ _ _ PA)), (fp_pols _ _ _ PA), (fp_feeds _ _ _ PA). reflexivity.
  - rewrite (proj1 (fp_same _ _ _ PB)), (fp_pols _ _ _ PB), (fp_feeds _ _ _ PB). reflexivity.
Qed.
Lemma parts_spot v : (v = a \/ v = b) -> u_pix v = u_pix u.
Proof. intros [-> | ->]; [apply (fp_pix _ _ _ PA) | apply (fp_pix _ _ _ PB)]. Qed.
Lemma spot_refl (v w : ubeam) y x : u_pix v = u_pix w -> same_spot v w y x y x.
Proof. unfold same_spot. intros ->. destruct (u_pix w); auto. Qed.
Lemma spot_pix (v w : ubeam) y x y' x' : u_pix v = u_pix u -> same_spot u w y x y' x' -> same_spot v w y x y' x'.
Proof. unfold same_spot. intros ->. auto. Qed.
Lemma whole_count : pol_count r = pol_count u.
Proof. unfold pol_count. rewrite whole_power. pose proof whole_pols as E. destruct (u_power u); rewrite E; reflexivity. Qed.

Lemma whole_along l l1 l2 l' : same_along_freq u a (Some l) (Some l1) -> same_along_freq u b (Some l) (Some l2) -> freq_sum a b r l1 l2 l' ->
  same_along_freq u r (Some l) (Some l').
Proof.
  intros (_ & A) (_ & B) (L & S2 & S1). split; [exact L|]. intros f f' Lf Lf' E.
  destruct (in_dec Z.eq_dec (nth f (u_freqs u) 0) (u_freqs b)) as [I | I].
  - destruct (freq_in_b f I) as (k & Lk & Ek). rewrite (S2 k f' Lk Lf'); [exact (B f k Lf Lk Ek)|]. unfold same_freq in *. congruence.
  - destruct (freq_in_a f Lf I) as (k & Lk & Ek). rewrite (S1 k f' Lk Lf'); [exact (A f k Lf Lk Ek)| |]; unfold same_freq in *; congruence.
Qed.
Lemma whole_along_opt o o1 o2 o' : same_along_freq u a o o1 -> same_along_freq u b o o2 -> freq_sum_opt a b r o1 o2 o' -> same_along_freq u r o o'.
Proof.
  intros A B S. destruct o as [l|], o1 as [l1|]; try contradiction; destruct o2 as [l2|]; try contradiction.
  - destruct o' as [l'|]; [|contradiction]. exact (whole_along _ _ _ _ A B S).
  - cbn in S. rewrite S. exact I.
Qed.

Lemma whole_data v p f y x p' f' y' x' : (v < u_nvec u)%nat -> cell u p f y x -> cell r p' f' y' x' -> same_pol u r p p' -> same_freq u r f f' -> same_spot u r y x y' x' ->
  u_data r v p' f' y' x' = u_data u v p f y x.
Proof.
  intros Lv (Lp & Lf & Li) C' Ep Ef Es.
  assert (G : forall w k, (w = a \/ w = b) -> same_numbers u w -> data_from w r -> (k < nfreq w)%nat -> same_freq u w f k -> u_data r v p' f' y' x' = u_data u v p f y x).
  { intros w k V N D Lk Ek. destruct (parts_pol w V p p' Ep) as (P1 & P2).
    assert (Cw : cell w p k y x). { split; [rewrite (parts_count w V); exact Lp|]. split; [exact Lk|]. unfold on_image. rewrite (parts_spot w V). exact Li. }
    rewrite (D v p k y x p' f' y' x' C').
    - destruct Cw as (Cp & _ & Ci). apply (sn_data _ _ N); try assumption. apply spot_refl. symmetry. apply (parts_spot w V).
    - split; [exact Cw|]. split; [exact P2|]. split; [unfold same_freq in *; congruence|]. apply spot_pix; [apply (parts_spot w V) | exact Es]. }
  destruct (in_dec Z.eq_dec (nth f (u_freqs u) 0) (u_freqs b)) as [I | I].
  - destruct (freq_in_b f I) as (k & Lk & Ek). exact (G b k (or_intror eq_refl) (fp_num _ _ _ PB) (so_other _ _ _ SO) Lk Ek).
  - destruct (freq_in_a f Lf I) as (k & Lk & Ek). exact (G a k (or_introl eq_refl) (fp_num _ _ _ PA) (so_this _ _ _ SO) Lk Ek).
Qed.

Theorem whole_again : plain_power u -> same_numbers u r.
Proof.
  intros PP. constructor.
  - intros v p f y x p' f' y' x' Lv Lp Lp' Lf Lf' Li Li' Ep Ef Es. apply whole_data; try assumption; split; auto.
  - destruct (u_power u) eqn:W.
    + destruct (PP W) as (BN & _). assert (Wa : u_power a = true) by (rewrite (proj1 (fp_same _ _ _ PA)); exact W).
      rewrite (so_basis_power _ _ _ SO Wa), (parts_basis PP Wa), BN. exact I.
    + assert (Wa : u_power a = false) by (rewrite (proj1 (fp_same _ _ _ PA)); exact W). pose proof (so_basis _ _ _ SO Wa) as Q.
      pose proof (sn_basis _ _ (fp_num _ _ _ PB)) as QB. pose proof (sn_basis _ _ (fp_num _ _ _ PA)) as QA.
      destruct (u_basis u); destruct (u_basis a); try contradiction; destruct (u_basis b); try contradiction; destruct (u_basis r); try contradiction.
      destruct Q as (E1 & E2 & Q). split; [exact E1|]. split; [exact E2|]. intros v c y x y' x' Li Li' Es.
      assert (Lb : on_image b y x) by (unfold on_image; rewrite (fp_pix _ _ _ PB); exact Li).
      rewrite (proj1 (Q v c y' x' Li') y x Lb).
      * destruct QB as (_ & _ & QB). apply QB; try assumption. apply spot_refl. symmetry. apply (fp_pix _ _ _ PB).
      * apply spot_pix; [apply (fp_pix _ _ _ PB) | exact Es].
  - exact (whole_along _ _ _ _ (sn_bandpass _ _ (fp_num _ _ _ PA)) (sn_bandpass _ _ (fp_num _ _ _ PB)) (so_bandpass _ _ _ SO)).
  - exact (whole_along_opt _ _ _ _ (sn_rx _ _ (fp_num _ _ _ PA)) (sn_rx _ _ (fp_num _ _ _ PB)) (so_rx _ _ _ SO)).
  - exact (whole_along_opt _ _ _ _ (sn_loss _ _ (fp_num _ _ _ PA)) (sn_loss _ _ (fp_num _ _ _ PB)) (so_loss _ _ _ SO)).
  - exact (whole_along_opt _ _ _ _ (sn_mismatch _ _ (fp_num _ _ _ PA)) (sn_mismatch _ _ (fp_num _ _ _ PB)) (so_mismatch _ _ _ SO)).
  - pose proof (sn_spar _ _ (fp_num _ _ _ PA)) as A. pose proof (sn_spar _ _ (fp_num _ _ _ PB)) as B. pose proof (so_spar _ _ _ SO) as S.
    destruct (u_spar u) as [s|], (u_spar a) as [s1|]; try contradiction; destruct (u_spar b) as [s2|]; try contradiction.
    + destruct (u_spar r) as [s'|]; [|contradiction]. destruct S as (L & S).
      pose proof (rows_len _ _ _ A) as L1. pose proof (rows_len _ _ _ B) as L2.
      apply (rows_intro _ [] []); [lia|]. intros k Lk.
      apply (whole_along _ (nth k s1 []) (nth k s2 [])); [apply (rows_nth _ _ _ [] [] A k Lk) | apply (rows_nth _ _ _ [] [] B k Lk) | apply S; lia].
    + rewrite S. exact I.
  - intros Ph W d e g h f g' h' f' Lg Lg' Lh Lh' Lf Lf' Eg Eh Ef.
    assert (Wa : u_power a = false) by (rewrite (proj1 (fp_same _ _ _ PA)); exact W). assert (Pa : u_phased a = true) by (rewrite (proj1 (proj2 (fp_same _ _ _ PA))); exact Ph).
    destruct (so_coupling _ _ _ SO Wa Pa d e g' h' f' Lg' Lh' Lf') as (S2 & S1).
    destruct (in_dec Z.eq_dec (nth f (u_freqs u) 0) (u_freqs b)) as [I | I].
    + destruct (freq_in_b f I) as (k & Lk & Ek). destruct (parts_pol b (or_intror eq_refl) g g' Eg) as (G1 & G2), (parts_pol b (or_intror eq_refl) h h' Eh) as (H1 & H2).
      pose proof (parts_count b (or_intror eq_refl)) as Cb.
      rewrite (S2 g h k); try assumption; try (rewrite Cb; assumption); [|unfold same_freq in *; congruence].
      apply (sn_coupling _ _ (fp_num _ _ _ PB) Ph W); try assumption; rewrite Cb; assumption.
    + destruct (freq_in_a f Lf I) as (k & Lk & Ek). destruct (parts_pol a (or_introl eq_refl) g g' Eg) as (G1 & G2), (parts_pol a (or_introl eq_refl) h h' Eh) as (H1 & H2).
      pose proof (parts_count a (or_introl eq_refl)) as Ca.
      rewrite (S1) with (g := g) (h := h) (f := k); try assumption; try (rewrite Ca; assumption); [| |unfold same_freq in *; congruence].
      * apply (sn_coupling _ _ (fp_num _ _ _ PA) Ph W); try assumption; rewrite Ca; assumption.
      * intros (g0 & h0 & f0 & _ & _ & L0 & _ & _ & E0). apply I. unfold same_freq in *. rewrite Ef, <- E0. apply nth_In, L0.
Qed.
End Split.
