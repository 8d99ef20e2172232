(** Proofs about interpolation of beams in frequency. *)
From Coq Require Import List ZArith QArith Qcanon Bool Arith Lia Lqa Permutation Sorted.
From Verif Require Import Lib.Py Lib.Np Lib.Dict Lib.Sorting Model.BeamInterp Spec.BeamInterpSpec.
Import ListNotations.
Notation length := List.length.
Open Scope list_scope.
Open Scope Qc_scope.

Lemma qle_iff x y : qle x y = true <-> x <= y.
Proof. unfold qle. rewrite Qle_bool_iff. reflexivity. Qed.
Lemma qlt_iff x y : qlt x y = true <-> x < y.
Proof.
  unfold qlt. rewrite negb_true_iff. split.
  - intros H. apply Qcnot_le_lt. intros H'. apply qle_iff in H'. congruence.
  - intros H. destruct (qle y x) eqn:E; [|reflexivity]. apply qle_iff in E. exfalso. exact (Qclt_not_le _ _ H E).
Qed.
Lemma qle_false x y : qle x y = false <-> y < x.
Proof. rewrite <- qlt_iff. unfold qlt. rewrite negb_true_iff. reflexivity. Qed.
Lemma qlt_false x y : qlt x y = false <-> y <= x.
Proof. rewrite <- qle_iff. unfold qlt. rewrite negb_false_iff. reflexivity. Qed.

Lemma this_minus (x y : Qc) : (this (x - y) == this x - this y)%Q.
Proof. unfold Qcminus, Qcplus, Qcopp. cbn [this Q2Qc]. rewrite !Qred_correct. reflexivity. Qed.
Lemma this_opp (x : Qc) : (this (- x) == - this x)%Q.
Proof. unfold Qcopp. cbn [this Q2Qc]. rewrite !Qred_correct. reflexivity. Qed.
Lemma this_0 : (this 0 == 0)%Q.
Proof. reflexivity. Qed.

Lemma qle_total x y : qle x y = true \/ qle y x = true.
Proof. rewrite !qle_iff. unfold Qcle. destruct (Qlt_le_dec (this x) (this y)); lra. Qed.
Lemma qle_trans x y z : qle x y = true -> qle y z = true -> qle x z = true.
Proof. rewrite !qle_iff. apply Qcle_trans. Qed.

Lemma abs_within x f d : qabs (x - f) < d <-> within d x f.
Proof.
  unfold qabs, within. destruct (qle 0 (x - f)) eqn:E.
  - apply qle_iff in E. unfold Qcle, Qclt in *. rewrite ?this_minus in *. rewrite this_0 in E. split; [intros H; split; lra|intros [H _]; exact H].
  - apply qle_false in E. unfold Qcle, Qclt in *. rewrite ?this_opp, ?this_minus in *. rewrite this_0 in E. split; [intros H; split; lra|intros [_ H]; lra].
Qed.

Lemma argmin_spec l : l <> [] -> (argmin l < length l)%nat /\ forall j, (j < length l)%nat -> nth (argmin l) l 0 <= nth j l 0.
Proof.
  intros NE. unfold argmin.
  set (P := fun i => forallb (fun y => qle (nth i l 0) y) l).
  assert (X : exists i, (i < length l)%nat /\ P i = true).
  { assert (Y : exists m, In m l /\ forall y, In y l -> m <= y).
    { clear P. induction l as [|x t IH]; [contradiction|]. destruct t as [|y t].
      - exists x. split; [left; reflexivity|]. intros y [<-|[]]. apply Qcle_refl.
      - destruct IH as (m & I & H); [discriminate|]. destruct (qle_total x m) as [L|L]; apply qle_iff in L.
        + exists x. split; [left; reflexivity|]. intros z [<-|Z]; [apply Qcle_refl|]. apply (Qcle_trans _ m); [exact L|apply H, Z].
        + exists m. split; [right; exact I|]. intros z [<-|Z]; [exact L|apply H, Z]. }
    destruct Y as (m & I & H). destruct (In_nth _ _ 0 I) as (i & L & E). exists i. split; [exact L|].
    unfold P. apply forallb_forall. intros y Y. apply qle_iff. rewrite E. apply H, Y. }
  destruct X as (i & L & Pi).
  destruct (filter P (seq 0 (length l))) as [|h t] eqn:E.
  - exfalso. assert (I : In i (filter P (seq 0 (length l)))) by (apply filter_In; split; [apply in_seq; lia|exact Pi]). rewrite E in I. exact I.
  - assert (I : In h (filter P (seq 0 (length l)))) by (rewrite E; left; reflexivity). apply filter_In in I as [I Ph]. apply in_seq in I.
    cbn [hd]. split; [lia|]. intros j J. unfold P in Ph. rewrite forallb_forall in Ph. apply qle_iff, Ph, nth_In, J.
Qed.

Lemma nearest_ind_spec fs f : fs <> [] -> nearest fs f (nearest_ind fs f).
Proof.
  intros NE. unfold nearest_ind. set (l := map (fun x => qabs (x - f)) fs).
  destruct (argmin_spec l) as [L M]; [unfold l; destruct fs; [contradiction|discriminate]|].
  unfold l in L at 2. rewrite map_length in L. split; [exact L|].
  intros j d J W. apply abs_within in W. apply abs_within.
  assert (H : nth (argmin l) l 0 <= nth j l 0) by (apply M; unfold l; rewrite map_length; exact J).
  unfold l in H at 2 3. rewrite (nth_map (fun x => qabs (x - f)) fs (argmin l) 0 0), (nth_map (fun x => qabs (x - f)) fs j 0 0) in H by assumption.
  exact (Qcle_lt_trans _ _ _ H W).
Qed.

Lemma nearest_own fs i : NoDup fs -> (i < length fs)%nat -> nearest_ind fs (nth i fs 0) = i.
Proof.
  intros ND L. assert (NE : fs <> []) by (destruct fs; [cbn in L; lia|discriminate]).
  destruct (nearest_ind_spec fs (nth i fs 0) NE) as [L' M]. set (k := nearest_ind fs (nth i fs 0)) in *.
  apply (proj1 (NoDup_nth fs 0) ND); [exact L'|exact L|].
  destruct (Qc_dec (nth k fs 0) (nth i fs 0)) as [[X|X]|X]; [exfalso|exfalso|exact X].
  - destruct (M i (nth i fs 0 - nth k fs 0) L) as [_ W].
    + split; unfold Qclt in *; rewrite ?this_minus in *; lra.
    + unfold Qclt in W. lra.
  - destruct (M i (nth k fs 0 - nth i fs 0) L) as [W _].
    + split; unfold Qclt in *; rewrite ?this_minus in *; lra.
    + unfold Qclt in W. lra.
Qed.

Lemma filter_prefix {A} (R : A -> A -> Prop) (P : A -> bool) (d : A) l :
  StronglySorted R l -> (forall x y, R x y -> P y = true -> P x = true) ->
  forall m, (m < length l)%nat -> P (nth m l d) = (m <? length (filter P l))%nat.
Proof.
  intros S' M. induction S' as [|x t S' IH F]; cbn; intros m L; [lia|].
  destruct (P x) eqn:E.
  - destruct m as [|m]; [rewrite E; reflexivity|]. cbn. rewrite IH by lia. reflexivity.
  - assert (Z : filter P t = []).
    { destruct (filter P t) as [|y u] eqn:Ef; [reflexivity|]. exfalso.
      assert (I : In y (filter P t)) by (rewrite Ef; left; reflexivity). apply filter_In in I as [I Py].
      rewrite Forall_forall in F. rewrite (M _ _ (F _ I) Py) in E. discriminate. }
    rewrite Z. cbn. destruct m as [|m]; [exact E|].
    destruct (P (nth m t d)) eqn:Q; [|reflexivity]. exfalso. rewrite Forall_forall in F.
    assert (I : In (nth m t d) t) by (apply nth_In; lia). rewrite (M _ _ (F _ I) Q) in E. discriminate.
Qed.

Lemma bracket_spec fs f : NoDup fs -> length fs <> 1%nat -> in_range fs f ->
  neighbours fs f (fst (bracket fs f)) (snd (bracket fs f)).
Proof.
  intros ND N1 [(x0 & I0 & L0) (x1 & I1 & L1)].
  unfold bracket. set (leb := fun i j => qle (nth i fs 0) (nth j fs 0)). set (ord := argsort_by leb (length fs)).
  set (k := length (filter (fun i => qlt (nth i fs 0) f) ord)). cbn zeta. cbn [fst snd].
  assert (S' : StronglySorted (Sorting.le leb) ord).
  { apply isort_sorted; unfold leb; [intros; apply qle_total|intros x y z; apply qle_trans]. }
  assert (LO : length ord = length fs) by apply argsort_by_length.
  assert (RO : forall m, (m < length fs)%nat -> (nth m ord 0 < length fs)%nat).
  { intros m M. apply (argsort_by_In leb). apply nth_In. fold ord. lia. }
  assert (N2 : (2 <= length fs)%nat) by (destruct fs as [|? [|? ?]]; cbn in *; [contradiction|lia|lia]).
  assert (P : forall m, (m < length fs)%nat -> qlt (nth (nth m ord 0%nat) fs 0) f = (m <? k)%nat).
  { intros m M. apply (filter_prefix (Sorting.le leb) (fun i => qlt (nth i fs 0) f) 0%nat ord S'); [|lia].
    intros x y R Q. unfold Sorting.le, leb in R. apply qle_iff in R. apply qlt_iff in Q. apply qlt_iff. exact (Qcle_lt_trans _ _ _ R Q). }
  assert (SN : forall m m', (m <= m')%nat -> (m' < length fs)%nat -> nth (nth m ord 0%nat) fs 0 <= nth (nth m' ord 0%nat) fs 0).
  { intros m m' M M'. destruct (Nat.eq_dec m m') as [->|D]; [apply Qcle_refl|]. apply qle_iff.
    apply (proj1 (StronglySorted_nth (Sorting.le leb) 0%nat ord) S'); lia. }
  assert (ALL : forall j, (j < length fs)%nat -> exists m, (m < length fs)%nat /\ nth m ord 0%nat = j).
  { intros j J. apply (argsort_by_In leb) in J. fold ord in J. destruct (In_nth _ _ 0%nat J) as (m & M & E). exists m. split; [lia|exact E]. }
  assert (NDo : NoDup ord).
  { apply (Permutation_NoDup (l := seq 0 (length fs))); [symmetry; apply argsort_by_perm|apply seq_NoDup]. }
  assert (ST : forall m m', (m < m')%nat -> (m' < length fs)%nat -> nth (nth m ord 0%nat) fs 0 < nth (nth m' ord 0%nat) fs 0).
  { intros m m' M M'. destruct (Qcle_lt_or_eq _ _ (SN m m' ltac:(lia) M')) as [H|H]; [exact H|]. exfalso.
    apply (proj1 (NoDup_nth fs 0) ND) in H; [|apply RO; lia|apply RO; lia].
    apply (proj1 (NoDup_nth ord 0%nat) NDo) in H; lia. }
  destruct (In_nth _ _ 0 I0) as (i0 & J0 & E0). destruct (ALL i0 J0) as (m0 & M0 & Em0).
  destruct (In_nth _ _ 0 I1) as (i1 & J1 & E1). destruct (ALL i1 J1) as (m1 & M1 & Em1).
  assert (K : (k < length fs)%nat).
  { assert (H := P m1 M1). rewrite Em1, E1 in H. rewrite (proj2 (qlt_false _ _) L1) in H. symmetry in H. apply Nat.ltb_ge in H. lia. }
  set (hi := Nat.min (Nat.max k 1) (length fs - 1)).
  assert (HI : (hi = Nat.max k 1)%nat) by (unfold hi; lia).
  assert (HB : (1 <= hi < length fs)%nat) by (unfold hi; lia).
  split; [apply RO; lia|]. split; [apply RO; lia|]. split; [apply ST; lia|].
  split; [|split].
  - destruct (Nat.eq_dec k 0) as [Z|Z].
    + replace (hi - 1)%nat with 0%nat by lia.
      apply (Qcle_trans _ x0); [|exact L0]. rewrite <- E0, <- Em0. apply SN; lia.
    + assert (H := P (hi - 1)%nat ltac:(lia)). rewrite (proj2 (Nat.ltb_lt (hi - 1) k)) in H by lia. apply qlt_iff in H. apply Qclt_le_weak, H.
  - assert (H := P hi ltac:(lia)). rewrite (proj2 (Nat.ltb_ge hi k)) in H by lia. apply qlt_false in H. exact H.
  - intros j J. destruct (ALL j J) as (m & M & <-). destruct (le_lt_dec m (hi - 1)) as [D|D]; [left|right]; apply SN; lia.
Qed.

Lemma diff_neq (x y : Qc) : x < y -> y - x <> 0.
Proof. intros H E. assert (F : (this (y - x) == 0)%Q) by (rewrite E; reflexivity). rewrite this_minus in F. unfold Qclt in H. lra. Qed.

Lemma lin_on_line fs series f : NoDup fs -> length fs <> 1%nat -> in_range fs f ->
  on_line (nth (fst (bracket fs f)) fs 0) (series (fst (bracket fs f))) (nth (snd (bracket fs f)) fs 0) (series (snd (bracket fs f))) f (lin fs series f).
Proof.
  intros ND N1 R. destruct (bracket_spec fs f ND N1 R) as (_ & _ & L & _). unfold lin. destruct (bracket fs f) as [lo hi]. cbn [fst snd] in *.
  unfold on_line, line. field. apply diff_neq, L.
Qed.

Lemma lin_own fs series i : NoDup fs -> (i < length fs)%nat -> lin fs series (nth i fs 0) = series i.
Proof.
  intros ND L. destruct (Nat.eq_dec (length fs) 1) as [E|E].
  - destruct fs as [|x [|? ?]]; try discriminate. assert (i = 0%nat) by (cbn in L; lia). subst i.
    unfold lin, bracket. cbn [nth length Nat.sub]. rewrite Nat.min_0_r. cbn -[Qcplus Qcmult Qcdiv Qcminus]. unfold line. unfold Qcdiv.
    replace (series 0%nat - series 0%nat) with 0 by ring. ring.
  - set (f := nth i fs 0).
    assert (R : in_range fs f) by (split; exists f; (split; [apply nth_In; exact L|apply Qcle_refl])).
    destruct (bracket_spec fs f ND E R) as (A & B & X & Y & Z & W). unfold lin. destruct (bracket fs f) as [lo hi]. cbn [fst snd] in *. unfold line.
    assert (D : nth hi fs 0 - nth lo fs 0 <> 0).
    { apply diff_neq, X. }
    destruct (W i L) as [V|V].
    + assert (Q : nth lo fs 0 = nth i fs 0) by (apply Qcle_antisym; [exact Y|exact V]).
      assert (lo = i) by (apply (proj1 (NoDup_nth fs 0) ND); assumption). subst lo. fold f. unfold f. field. exact D.
    + assert (Q : nth hi fs 0 = nth i fs 0) by (apply Qcle_antisym; [exact V|exact Z]).
      assert (hi = i) by (apply (proj1 (NoDup_nth fs 0) ND); assumption). subst hi. unfold f. field. exact D.
Qed.

Lemma effective b k tol freqs :
  (all_close (b_freqs b) tol freqs -> effective_kind b k tol freqs = Nearest) /\
  (~ all_close (b_freqs b) tol freqs -> effective_kind b k tol freqs = k).
Proof.
  unfold effective_kind. split; intros H.
  - destruct (existsb _ freqs) eqn:E; [|reflexivity]. exfalso. apply existsb_exists in E as (f & I & F). rewrite forallb_forall in F.
    destruct (H f I) as (x & Ix & W). apply abs_within in W. specialize (F x Ix). apply qle_iff in F. exact (Qclt_not_le _ _ W F).
  - destruct (existsb _ freqs) eqn:E; [reflexivity|]. exfalso. apply H. intros f I.
    destruct (forallb (fun x => qle tol (qabs (x - f))) (b_freqs b)) eqn:F.
    + assert (existsb (fun f => forallb (fun x => qle tol (qabs (x - f))) (b_freqs b)) freqs = true) by (apply existsb_exists; exists f; auto). congruence.
    + assert (G : exists x, In x (b_freqs b) /\ qle tol (qabs (x - f)) = false).
      { clear - F. induction (b_freqs b) as [|y t IH]; [discriminate|]. cbn in F. apply andb_false_iff in F as [F|F]; [exists y; split; [left; reflexivity|exact F]|].
        destruct (IH F) as (x & I & Q). exists x. split; [right; exact I|exact Q]. }
      destruct G as (x & Ix & Q). exists x. split; [exact Ix|]. apply abs_within. apply qle_false, Q.
Qed.

Lemma forallb_false_exists {A} (p : A -> bool) l : forallb p l = false -> exists x, In x l /\ p x = false.
Proof.
  induction l as [|y t IH]; cbn; [discriminate|]. intros H. apply andb_false_iff in H as [H|H]; [exists y; auto|].
  destruct (IH H) as (x & I & Q). exists x. auto.
Qed.

Lemma range_check fs freqs : (forall f, In f freqs -> in_range fs f) ->
  existsb (fun f => forallb (fun x => qlt f x) fs) freqs || existsb (fun f => forallb (fun x => qlt x f) fs) freqs = false.
Proof.
  intros H. apply orb_false_iff. split.
  - destruct (existsb _ freqs) eqn:E; [|reflexivity]. exfalso. apply existsb_exists in E as (f & I & F). rewrite forallb_forall in F.
    destruct (H f I) as [(x & Ix & L) _]. specialize (F x Ix). apply qlt_iff in F. exact (Qclt_not_le _ _ F L).
  - destruct (existsb _ freqs) eqn:E; [|reflexivity]. exfalso. apply existsb_exists in E as (f & I & F). rewrite forallb_forall in F.
    destruct (H f I) as [_ (x & Ix & L)]. specialize (F x Ix). apply qlt_iff in F. exact (Qclt_not_le _ _ F L).
Qed.

Lemma range_check_in fs freqs :
  existsb (fun f => forallb (fun x => qlt f x) fs) freqs || existsb (fun f => forallb (fun x => qlt x f) fs) freqs = false ->
  forall f, In f freqs -> in_range fs f.
Proof.
  intros H f I. apply orb_false_iff in H as [H1 H2]. split.
  - destruct (forallb (fun x => qlt f x) fs) eqn:F.
    + assert (existsb (fun f => forallb (fun x => qlt f x) fs) freqs = true) by (apply existsb_exists; exists f; auto). congruence.
    + destruct (forallb_false_exists _ _ F) as (x & Ix & Q). exists x. split; [exact Ix|]. apply qlt_false, Q.
  - destruct (forallb (fun x => qlt x f) fs) eqn:F.
    + assert (existsb (fun f => forallb (fun x => qlt x f) fs) freqs = true) by (apply existsb_exists; exists f; auto). congruence.
    + destruct (forallb_false_exists _ _ F) as (x & Ix & Q). exists x. split; [exact Ix|]. apply qlt_false, Q.
Qed.
