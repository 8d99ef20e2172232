(** C95: normalization of visibilities by the autocorrelations. *)
From Coq Require Import List ZArith Bool Arith Lia Reals Lra.
From Verif Require Import Lib.Py Model.Normalize Spec.NormalizeSpec Proofs.NormalizeProofs.
Import ListNotations.
Open Scope nat_scope.

(** The method works exactly if some record is an autocorrelation and, for every polarization of two
    feeds, the data contain both feeds' own polarizations; otherwise it is refused with a ValueError. *)
Theorem C95_when : forall tol skip invert x,
  ((exists y, normalize_by_autos tol skip invert x = Ok y) <->
   (exists r, r < v_n x /\ ant1 x r = ant2 x r) /\
   (forall q, In q (v_pol x) -> In (fst (hands q)) (v_pol x) /\ In (snd (hands q)) (v_pol x))) /\
  (forall e, normalize_by_autos tol skip invert x = Err e -> e = ValueError).
Proof. intros. split; [apply normalize_when|apply normalize_err]. Qed.
Print Assumptions C95_when.

(** Every visibility is divided by (with invert: multiplied by) the geometric mean of the two
    autocorrelations of its antennas in its integration, channel by channel and in the polarizations of
    its feeds.  If one of these is flagged or not positive, the visibility is zero and flagged.  If an
    antenna has no autocorrelation in the integration, the visibility is as before and flagged.  With
    skip_autos the autocorrelations of one feed are as before.  No other flag is set. *)
Theorem C95_normalized : forall tol skip invert x y,
  in_order x -> distinct tol x -> single_autos x -> NoDup (v_pol x) ->
  normalize_by_autos tol skip invert x = Ok y ->
  same_axes x y /\
  forall r f p i j, r < v_n x -> p < length (v_pol x) ->
    holds x i (fst (hands (nth p (v_pol x) 0%Z))) -> holds x j (snd (hands (nth p (v_pol x) 0%Z))) ->
    (skip = true /\ ant1 x r = ant2 x r /\ i = j ->
       v_data y r f p = v_data x r f p /\ v_flag y r f p = v_flag x r f p) /\
    (~ (skip = true /\ ant1 x r = ant2 x r /\ i = j) ->
       forall s1 s2, auto_of x (ant1 x r) r s1 -> auto_of x (ant2 x r) r s2 ->
       (usable x s1 f i /\ usable x s2 f j ->
          v_data y r f p = times_real (v_data x r f p)
            (if invert then geo_mean x s1 i s2 j f else / geo_mean x s1 i s2 j f)%R /\
          v_flag y r f p = v_flag x r f p) /\
       (~ (usable x s1 f i /\ usable x s2 f j) -> v_data y r f p = (0%R, 0%R) /\ v_flag y r f p = true)) /\
    ((forall s, ~ auto_of x (ant1 x r) r s) \/ (forall s, ~ auto_of x (ant2 x r) r s) ->
       v_data y r f p = v_data x r f p /\ v_flag y r f p = true).
Proof. exact normalized. Qed.
Print Assumptions C95_normalized.

(** Normalization with skip_autos is undone by normalization with skip_autos and invert: it is not
    refused, changes no flag, and gives the data before for everything that is not flagged. *)
Theorem C95_undone : forall tol x y,
  in_order x -> distinct tol x -> single_autos x -> NoDup (v_pol x) ->
  normalize_by_autos tol true false x = Ok y ->
  exists z, normalize_by_autos tol true true y = Ok z /\ same_axes x z /\
  forall r f p, r < v_n x -> p < length (v_pol x) ->
    v_flag z r f p = v_flag y r f p /\ (v_flag x r f p = true -> v_flag y r f p = true) /\
    (v_flag y r f p = false -> v_data z r f p = v_data x r f p).
Proof. exact undone. Qed.
Print Assumptions C95_undone.

(** Without skip_autos, usable autocorrelations become one. *)
Theorem C95_autos_one : forall tol x y r f p,
  in_order x -> distinct tol x -> single_autos x -> NoDup (v_pol x) ->
  normalize_by_autos tol false false x = Ok y -> r < v_n x -> p < length (v_pol x) ->
  ant1 x r = ant2 x r -> hands (nth p (v_pol x) 0%Z) = (nth p (v_pol x) 0%Z, nth p (v_pol x) 0%Z) ->
  usable x r f p -> fst (v_data y r f p) = 1%R /\ (snd (v_data x r f p) = 0%R -> snd (v_data y r f p) = 0%R).
Proof. exact autos_one. Qed.
Print Assumptions C95_autos_one.

(** ** Examples *)
Ltac small := repeat match goal with
  | H : ?r < 0 |- _ => exfalso; exact (Nat.nlt_0_r _ H)
  | H : ?r < S _ |- _ => is_var r; destruct r; [clear H|apply Nat.succ_lt_mono in H] end.

(** Two antennas, two integrations of two autocorrelations and one cross-correlation, polarizations xx,
    yy and xy; the second integration lacks the autocorrelation of antenna 7 *)
Definition case : vobj := {|
  v_ant1 := [3; 3; 7; 3; 3]%Z; v_ant2 := [3; 7; 7; 3; 7]%Z; v_time := [10; 10; 10; 20; 20]%Z; v_pol := [-5; -6; -7]%Z;
  v_data := fun r f p => match r with 0 => (4, 0) | 1 => (6, 2) | 2 => (9, 0) | 3 => (16, 0) | _ => (5, 5) end%R;
  v_flag := fun _ _ _ => false |}.

Lemma case_order : in_order case.
Proof.
  intros r s L H. change (v_n case) with 5 in H. assert (r < 5) by lia. unfold time.
  small; cbn in L |- *; try lia.
Qed.
Lemma case_distinct : distinct 3 case.
Proof.
  split; [lia|]. intros r s. change (v_n case) with 5. intros H H'. unfold time. small; cbn; lia.
Qed.
Lemma case_single : single_autos case.
Proof.
  intros a r s s' (L & T & A & B) (L' & T' & A' & B'). change (v_n case) with 5 in *.
  rewrite <- A in A', B, B'. clear A. rewrite <- T in T'. clear T. unfold time, ant1, ant2 in *.
  small; cbn in *; try reflexivity; try discriminate; lia.
Qed.
Lemma case_pols : NoDup (v_pol case).
Proof. cbn. repeat (apply NoDup_cons; [cbn; intuition discriminate|]). apply NoDup_nil. Qed.

Example C95_when_example : exists y, normalize_by_autos 3 true false case = Ok y.
Proof.
  apply C95_when. split; [exists 0; cbn; split; [lia|reflexivity]|].
  intros q [<-|[<-|[<-|[]]]]; cbn; auto.
Qed.

(** The cross-correlation (6, 2) of antennas with 4 and 9 becomes (1, 1/3), that without
    autocorrelation is flagged *)
Example C95_normalized_example : exists y, normalize_by_autos 3 true false case = Ok y /\
  v_data y 1 0 2 = (1, /3)%R /\ v_flag y 1 0 2 = false /\ v_flag y 4 0 2 = true.
Proof.
  destruct C95_when_example as [y Y]. exists y. split; [exact Y|].
  destruct (C95_normalized _ _ _ _ _ case_order case_distinct case_single case_pols Y) as [_ V].
  assert (H0 : holds case 0 (-5)%Z) by (split; [cbn; lia|reflexivity]).
  assert (H1 : holds case 1 (-6)%Z) by (split; [cbn; lia|reflexivity]).
  destruct (V 1 0 2 0 1) as (_ & V2 & _); [cbn; lia|cbn; lia|exact H0|exact H1|].
  destruct (V2 (fun X => Nat.neq_0_succ 0 (proj2 (proj2 X))) 0 2) as [W _].
  { repeat split; cbn; lia. } { repeat split; cbn; lia. }
  destruct W as [-> ->]. { unfold usable. cbn. repeat split; lra. }
  unfold geo_mean, times_real. cbn [case v_data v_flag fst snd].
  replace 4%R with (2 * 2)%R by lra. replace 9%R with (3 * 3)%R by lra. rewrite !sqrt_square by lra.
  split; [f_equal; lra|split; [reflexivity|]].
  destruct (V 4 0 2 0 1) as (_ & _ & V3); [cbn; lia|cbn; lia|exact H0|exact H1|].
  apply V3. right. intros s (L & T & A & B). change (v_n case) with 5 in L. unfold time, ant1, ant2 in *.
  clear - L T A B. small; cbn in T, A, B; discriminate.
Qed.

Example C95_undone_example : exists y z,
  normalize_by_autos 3 true false case = Ok y /\ normalize_by_autos 3 true true y = Ok z /\ v_data z 1 0 2 = (6, 2)%R.
Proof.
  destruct C95_normalized_example as (y & Y & _ & F & _).
  destruct (C95_undone _ _ _ case_order case_distinct case_single case_pols Y) as (z & Z & _ & V).
  exists y, z. repeat split; auto. destruct (V 1 0 2) as (_ & _ & W); [cbn; lia|cbn; lia|]. exact (W F).
Qed.

Example C95_autos_one_example : exists y, normalize_by_autos 3 false false case = Ok y /\ fst (v_data y 3 0 1) = 1%R.
Proof.
  destruct (proj2 (proj1 (C95_when 3 false false case))) as [y Y].
  { split; [exists 0; cbn; split; [lia|reflexivity]|]. intros q [<-|[<-|[<-|[]]]]; cbn; auto. }
  exists y. split; [exact Y|].
  apply (C95_autos_one 3 case y 3 0 1 case_order case_distinct case_single case_pols Y); try (cbn; lia); try reflexivity.
  split; [cbn; lra|reflexivity].
Qed.

(** ** The exception: times that are not in order *)

(** With times that decrease somewhere, autocorrelations of another integration are used: here of two
    integrations of one antenna that follow each other in the wrong order, the second is divided by the
    first, and its autocorrelation does not become one. *)
Theorem C95_unordered_refuted : exists tol x y,
  distinct tol x /\ single_autos x /\ NoDup (v_pol x) /\
  normalize_by_autos tol false false x = Ok y /\
  v_n x = 2 /\ ant1 x 1 = ant2 x 1 /\ usable x 1 0 0 /\ usable x 0 0 0 /\
  v_data x 1 0 0 = (4, 0)%R /\ v_data y 1 0 0 = (4, 0)%R.
Proof.
  set (x := {| v_ant1 := [3; 3]%Z; v_ant2 := [3; 3]%Z; v_time := [20; 10]%Z; v_pol := [-5]%Z;
       v_data := fun r f p => match r with 0 => (1, 0) | _ => (4, 0) end%R; v_flag := fun _ _ _ => false |}).
  destruct (normalize_by_autos 3 false false x) as [y|] eqn:E;
    [|pose proof (proj2 (proj1 (C95_when 3 false false x))) as [y Y];
      [split; [exists 0; cbn; split; [lia|reflexivity]|intros q [<-|[]]; cbn; auto]|congruence]].
  exists 3%Z, x, y. split.
  { split; [lia|]. intros r s. change (v_n x) with 2. intros H H'. unfold time. small; cbn; lia. }
  split.
  { intros a r s s' (L & T & _) (L' & T' & _). change (v_n x) with 2 in *. rewrite <- T in T'. clear T. unfold time in T'.
    small; cbn in *; try reflexivity; discriminate. }
  split; [cbn; repeat constructor; intros []|]. split; [exact E|].
  split; [reflexivity|]. split; [reflexivity|].
  split; [split; [cbn; lra|reflexivity]|]. split; [split; [cbn; lra|reflexivity]|]. split; [reflexivity|].
  destruct (normalize_form _ _ _ _ _ E) as (gs & G & _ & F).
  assert (Gs : gs = [(0, 0)]) by (vm_compute in G; congruence). subst gs. clear G.
  replace (groups_of 3 (v_time x)) with [[1; 0]] in F by (vm_compute; reflexivity).
  assert (P : v_data y 1 0 0 = rscale (auto_norm false (1, 0)%R false * auto_norm false (1, 0)%R false) (4, 0)%R).
  { change (v_data y 1 0 0) with (fst (v_data y, v_flag y) 1 0 0). rewrite F. reflexivity. }
  rewrite P. rewrite norm_good by (apply flag_false; cbn; split; [lra|reflexivity]).
  cbn [fst]. rewrite sqrt_1, Rinv_1. unfold rscale. cbn [fst snd]. f_equal; lra.
Qed.
Print Assumptions C95_unordered_refuted.
