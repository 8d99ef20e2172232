(** fast_concat: acceptance, phase centers, rectangularity *)
From Coq Require Import List ZArith Bool Arith QArith Lia String.
From Verif Require Import Lib.Py Lib.Np Lib.Cube Lib.Dict Model.UVData Model.Reorder Model.Freq Model.Tools Model.Times Model.PhaseCenter Model.Param Model.Add Model.Concat
  Spec.UVDataSpec Spec.BltSpec Spec.FreqSpec Spec.PhaseSpec Spec.AddSpec Spec.ConcatSpec
  Proofs.PhaseProofs Proofs.PhaseOps Proofs.PhaseConsolidate Proofs.ReorderProofs Proofs.FreqReorder Proofs.ConcatCatalog Proofs.ConcatProofs Proofs.AddTotal.
Import ListNotations.
Notation length := List.length.
Open Scope Z_scope.

Lemma concat_fits pop t ign axis a others r b : fast_concat pop t ign axis a others = Ok r -> In b others -> fits t axis a b.
Proof.
  intros H Hb. destruct (concat_inv _ _ _ _ _ _ _ H) as (s & ss & w & _ & _ & K & C & _).
  assert (M : exists s', In (with_pc b s') (map moved (combine others ss))).
  { clear -K Hb. induction K as [|o s0 os ss H1 H2 IH]; [destruct Hb|]. cbn [combine map]. destruct Hb as [->|Hb].
    - exists s0. left. reflexivity.
    - destruct (IH Hb) as (s' & Hs). exists s'. right. exact Hs. }
  destruct M as (s' & M). apply C in M. apply compatible_fits in M as [M _]. exact M.
Qed.
Lemma concat_refused pop t ign axis a others b : In b others -> ~ fits t axis a b -> exists e, fast_concat pop t ign axis a others = Err e.
Proof.
  intros Hb Hn. destruct (fast_concat pop t ign axis a others) as [r|e] eqn:E; [|exists e; reflexivity].
  exfalso. apply Hn. apply (concat_fits _ _ _ _ _ _ _ _ E Hb).
Qed.

(** ** Objects with the same catalog *)
Section Same.
Variables (pop : list Z -> Z) (ign : bool) (c : catalog).
Hypothesis Hp : picks pop.
Hypothesis Hclear : clear_catalog ign c.
Definition with_ids (o : addobj) (s : pcobj) : Prop :=
  pc_consistent s /\ same_catalog (pc_cat s) c /\ pc_ids s = phase_center_id_array (ad_uvd o).

Lemma with_ids_step x y a b : with_ids x a -> with_ids y b -> exists a', consolidate pop (pc_cat b) ign a = Ok a' /\ with_ids x a'.
Proof.
  intros (A1 & A2 & A3) (B1 & B2 & _).
  destruct (consolidate_same pop (pc_cat b) ign a Hp A1) as (a' & E & C & I & S).
  - apply B1.
  - intros k e. rewrite (B2 k e). symmetry. apply A2.
  - intros k1 e1 k2 e2 H1 H2. apply A2 in H1, H2. apply (Hclear _ _ _ _ H1 H2).
  - exists a'. split; [exact E|]. split; [exact C|]. split; [|congruence]. intros k e. rewrite (S k e). apply A2.
Qed.
Lemma with_ids_keep x y a b a' : with_ids x a -> with_ids y b -> consolidate pop (pc_cat b) ign a = Ok a' -> with_ids x a'.
Proof. intros H1 H2 E. destruct (with_ids_step _ _ _ _ H1 H2) as (a1 & E1 & H). congruence. Qed.
Lemma with_ids_start objs : (forall o, In o objs -> pc_consistent (centers o) /\ same_catalog (ad_catalog o) c) -> Forall2 with_ids objs (map pc_of objs).
Proof.
  induction objs as [|o objs IH]; intros H; cbn [map]; constructor.
  - destruct (H o (or_introl eq_refl)) as [H1 H2]. split; [exact H1|]. split; [exact H2|reflexivity].
  - apply IH. intros x Hx. apply H. right. exact Hx.
Qed.
End Same.

Lemma with_pc_ids o s : pc_ids s = phase_center_id_array (ad_uvd o) -> ad_uvd (with_pc o s) = ad_uvd o.
Proof. intros E. unfold with_pc, ad_uvd in *. cbn. rewrite E. destruct (fo_uvd (ad_freq o)). reflexivity. Qed.
Lemma moved_same c others ss : Forall2 (with_ids c) others ss -> map ad_uvd (map moved (combine others ss)) = map ad_uvd others.
Proof.
  induction 1 as [|o s os ss H1 H2 IH]; [reflexivity|]. cbn [combine map]. rewrite IH. f_equal. apply with_pc_ids. apply H1.
Qed.

Lemma near_self t x : nonneg t -> arrays_near t x x.
Proof. intros H. induction x; constructor; [|assumption]. apply closeZ_near, closeZ_refl, H. Qed.

Section SameObjects.
Variables (pop : list Z -> Z) (t : concat_tols) (ign : bool) (axis : concat_axis) (a : addobj) (others : list addobj).
Hypothesis Hp : picks pop.
Hypothesis Hcat : forall o, In o (a :: others) -> pc_consistent (centers o) /\ same_catalog (ad_catalog o) (ad_catalog a).
Hypothesis Hclear : clear_catalog ign (ad_catalog a).
Let c := ad_catalog a.

Lemma concat_same_inv r : fast_concat pop t ign axis a others = Ok r ->
  exists s, set_rectangularity true (join axis (ad_uvd a) (map ad_uvd (a :: others))) = Ok (ad_uvd r) /\
    with_ids c a s /\ centers r = mkpc (pc_cat s) (pc_n s) (phase_center_id_array (ad_uvd r)).
Proof.
  intros H. destruct (concat_inv _ _ _ _ _ _ _ H) as (s & ss & w & E & _ & _ & _ & W & <- & Hr & _).
  assert (R : Forall2 (with_ids c) (a :: others) (s :: ss)).
  { refine (merge_all_rel _ _ pop ign _ _ _ _ _ (with_ids_start c _ Hcat) E). exact (with_ids_keep pop ign c Hp Hclear). }
  inversion R as [|? ? ? ? R1 R2]; subst. exists s. split; [|split; [exact R1|exact Hr]].
  cbn [map] in W. rewrite (moved_same c _ _ R2), (with_pc_ids a s) in W by apply R1. exact W.
Qed.

Lemma concat_succeeds : blt_shaped (ad_uvd a) -> (forall o, In o others -> blt_shaped (ad_uvd o)) -> (0 < Nblts (ad_uvd a))%nat -> ctols_ok t ->
  (forall b, In b others -> fits t axis a b /\ (axis = AxBlt \/ phase_center_id_array (ad_uvd b) = phase_center_id_array (ad_uvd a))) ->
  exists r, fast_concat pop t ign axis a others = Ok r.
Proof.
  intros Sa Sh Hn Ht Hf. unfold fast_concat.
  destruct (merge_all_ok _ _ pop ign (fun x y a b => with_ids_step pop ign c Hp Hclear x y a b) (length (a :: others)) _ _ (with_ids_start c _ Hcat)) as (cats & E).
  rewrite E. cbn [bind].
  assert (R : Forall2 (with_ids c) (a :: others) cats).
  { refine (merge_all_rel _ _ pop ign _ _ _ _ _ (with_ids_start c _ Hcat) E). exact (with_ids_keep pop ign c Hp Hclear). }
  inversion R as [|? s ? ss R1 R2]; subst. cbn [combine map fst snd].
  change (map (fun p : addobj * pcobj => with_pc (fst p) (snd p)) (combine others ss)) with (map moved (combine others ss)).
  assert (F : forallb (concat_compatible t axis (with_pc a s)) (map moved (combine others ss)) = true).
  { apply forallb_forall. intros x Hx. apply in_map_iff in Hx as ([o s'] & <- & Hx). unfold moved. cbn [fst snd].
    assert (Ho : In o others /\ pc_ids s' = phase_center_id_array (ad_uvd o)).
    { clear -R2 Hx. induction R2 as [|o0 s0 os ss H1 H2 IH]; [destruct Hx|]. cbn [combine] in Hx. destruct Hx as [Hx|Hx].
      - injection Hx as -> ->. split; [left; reflexivity|apply H1].
      - destruct (IH Hx). split; [right|]; assumption. }
    destruct Ho as [Ho Ei]. destruct (Hf o Ho) as [F1 F2]. apply compatible_fits. split; [exact F1|]. destruct F2 as [F2|F2]; [left; exact F2|]. right.
    cbn. rewrite Ei. replace (pc_ids s) with (phase_center_id_array (ad_uvd o)) by (rewrite F2; symmetry; apply R1). apply near_self. exact Ht. }
  rewrite F. cbn [negb map]. rewrite (moved_same c _ _ R2), (with_pc_ids a s) by apply R1.
  destruct (set_rect_total true (join axis (ad_uvd a) (ad_uvd a :: map ad_uvd others))) as (w & W).
  - assert (LB : forall v, In v (ad_uvd a :: map ad_uvd others) -> length (baseline_array v) = Nblts v).
    { intros v [<-|Hv]; [apply Sa|]. apply in_map_iff in Hv as (o & <- & Ho). apply (Sh o Ho). }
    destruct axis; cbn [join join_blt join_freq join_pol time_array baseline_array]; try (symmetry; apply Sa).
    rewrite (cat_length time_array Nblts) by reflexivity. rewrite (cat_length baseline_array Nblts) by exact LB. reflexivity.
  - unfold Nblts in Hn. destruct axis; cbn [join join_blt join_freq join_pol time_array]; try (intros Z; rewrite Z in Hn; cbn in Hn; lia).
    unfold cat. cbn [map List.concat]. destruct (time_array (ad_uvd a)); [cbn in Hn; lia|discriminate].
  - change (match axis with AxBlt => join_blt (ad_uvd a) (ad_uvd a :: map ad_uvd others) | AxFreq => join_freq (ad_uvd a) (ad_uvd a :: map ad_uvd others)
      | AxPol => join_pol (ad_uvd a) (ad_uvd a :: map ad_uvd others) end) with (join axis (ad_uvd a) (ad_uvd a :: map ad_uvd others)).
    rewrite W. eexists. reflexivity.
Qed.

Lemma concat_same_ids r : (forall o, In o (a :: others) -> blt_shaped (ad_uvd o)) -> fast_concat pop t ign axis a others = Ok r ->
  pc_consistent (centers r) /\ same_catalog (ad_catalog r) (ad_catalog a) /\
  match axis with
  | AxBlt => forall b v i, nth_error (map ad_uvd (a :: others)) b = Some v -> (i < Nblts v)%nat ->
      nth (start Nblts (map ad_uvd (a :: others)) b + i) (phase_center_id_array (ad_uvd r)) 0 = nth i (phase_center_id_array v) 0
  | _ => phase_center_id_array (ad_uvd r) = phase_center_id_array (ad_uvd a)
  end.
Proof.
  intros Sh H. destruct (concat_same_inv r H) as (s & W & (S1 & S2 & S3) & Hr).
  destruct (set_rect_fields _ _ W) as ((_ & _ & _ & _ & _ & _ & _ & A8 & _) & _).
  assert (Hcat_r : ad_catalog r = pc_cat s) by (apply (f_equal pc_cat) in Hr; exact Hr).
  split; [|split].
  - rewrite Hr. apply consistent_keys. apply consistent_keys in S1 as (C1 & C2 & C3). cbn [pc_cat pc_n pc_ids]. split; [exact C1|]. split; [exact C2|].
    assert (Hk : forall o k, In o (a :: others) -> In k (phase_center_id_array (ad_uvd o)) -> In k (map fst (pc_cat s))).
    { intros o k Ho Hk. destruct (Hcat o Ho) as [H1 H2]. apply consistent_keys in H1 as (_ & _ & H1). specialize (H1 k Hk).
      apply in_keys in H1 as (e & He). apply in_keys. exists e. apply S2. apply H2. exact He. }
    rewrite A8. intros k Hk'. destruct axis; cbn [join join_blt join_freq join_pol phase_center_id_array] in Hk'.
    + unfold cat in Hk'. apply in_concat in Hk' as (l & H1 & H2). apply in_map_iff in H1 as (v & <- & H1).
      apply in_map_iff in H1 as (o & <- & Ho). apply (Hk o k Ho H2).
    + apply (Hk a k (or_introl eq_refl) Hk').
    + apply (Hk a k (or_introl eq_refl) Hk').
  - rewrite Hcat_r. exact S2.
  - destruct axis; rewrite A8; [|reflexivity..]. cbn [join join_blt phase_center_id_array]. intros b v i Hb Hi.
    apply (nth_block phase_center_id_array Nblts); [|exact Hb|exact Hi].
    intros q Hq. apply in_map_iff in Hq as (o & <- & Ho). apply (Sh o Ho).
Qed.
End SameObjects.

(** ** Two objects with different catalogs *)
Lemma concat_two pop t ign axis a b r : picks pop ->
  blt_shaped (ad_uvd a) -> pc_consistent (centers a) -> pc_consistent (centers b) -> distinguishable ign (centers a) (ad_catalog b) ->
  fast_concat pop t ign axis a [b] = Ok r ->
  pc_consistent (centers r) /\
  (forall i e, points (centers a) i e -> exists e', points (centers r) i e' /\ alike ign e e') /\
  (axis = AxBlt -> forall i e, points (centers b) i e -> exists e', points (centers r) (Nblts (ad_uvd a) + i) e' /\ matches ign e e').
Proof.
  intros Hp Sa Ca Cb Hd H. destruct (concat_inv _ _ _ _ _ _ _ H) as (s & ss & w & E & Ks & K & _ & W & Ew & Hr & _).
  cbn [length map] in E. cbn [merge_all merge_pairs] in E.
  destruct (consolidate_effect pop (ad_catalog b) ign (centers a) Hp Ca (proj1 Cb) Hd) as (s' & E' & Cs & (_ & Ca' & _) & _ & Cr).
  change (pc_of a) with (centers a) in E. change (pc_cat (pc_of b)) with (ad_catalog b) in E. rewrite E' in E. cbn in E. injection E as <- <-.
  destruct (set_rect_fields _ _ W) as ((_ & _ & _ & _ & _ & _ & _ & A8 & _) & _).
  assert (I : phase_center_id_array w = pc_ids s' ++ match axis with AxBlt => phase_center_id_array (ad_uvd b) | _ => [] end).
  { rewrite A8. destruct axis; cbn [join join_blt join_freq join_pol phase_center_id_array]; [|rewrite app_nil_r; reflexivity..].
    unfold cat. cbn. rewrite app_nil_r. reflexivity. }
  assert (La : length (pc_ids s') = Nblts (ad_uvd a)).
  { rewrite Ks. apply Sa. }
  assert (P : forall i e, points s' i e -> points (centers r) i e).
  { intros i e (k & H1 & H2). exists k. rewrite Hr. cbn [pc_ids]. split; [|exact H2]. rewrite I. rewrite nth_error_app1; [exact H1|]. apply nth_error_Some. congruence. }
  split; [|split].
  - rewrite Hr. apply consistent_keys. apply consistent_keys in Cs as (C1 & C2 & C3). split; [exact C1|]. split; [exact C2|]. cbn [pc_ids pc_cat].
    rewrite I. intros k Hk. apply in_app_or in Hk as [Hk|Hk]; [apply C3, Hk|]. destruct axis; try destruct Hk.
    apply consistent_keys in Cb as (_ & _ & C4). apply C4 in Hk. apply in_keys in Hk as (e & He). destruct (Cr k e He) as (e' & H1 & _).
    apply in_keys. exists e'. exact H1.
  - intros i e Hi. destruct (Ca' i e Hi) as (e' & H1 & H2). exists e'. split; [apply P, H1|exact H2].
  - intros -> i e (k & H1 & H2). destruct (Cr k e H2) as (e' & H3 & H4). exists e'. split; [|exact H4]. exists k. rewrite Hr. cbn [pc_ids].
    split; [|exact H3]. rewrite I, nth_error_app2, La by lia. replace (Nblts (ad_uvd a) + i - Nblts (ad_uvd a))%nat with i by lia. exact H1.
Qed.

(** ** Rectangularity *)
Lemma concat_rect pop t ign axis a others r : (forall o, In o (a :: others) -> blt_shaped (ad_uvd o)) -> counts_ok (ad_uvd a) ->
  fast_concat pop t ign axis a others = Ok r ->
  declared_order_true (time_array (ad_uvd r)) (baseline_array (ad_uvd r)) (blt_order (ad_uvd a)) ->
  rect_truthful (ad_uvd r).
Proof.
  intros Sh Ca H D. destruct (concat_inv _ _ _ _ _ _ _ H) as (s & ss & w & _ & K0 & K & _ & W & Ew & _).
  rewrite Ew in *. pose proof (set_rect_fields _ _ W) as (F1 & _). destruct F1 as (A1 & _ & _ & _ & A5 & _). rewrite A1, A5 in D.
  refine (set_rect_truthful _ _ _ _ _ W).
  - assert (LB : forall v, In v (map ad_uvd (with_pc a s :: map moved (combine others ss))) -> length (baseline_array v) = Nblts v).
    { intros v [<-|Hv]; [apply (Sh a (or_introl eq_refl))|]. destruct (moved_In _ _ _ K Hv) as (ids & v0 & H1 & -> & _).
      apply in_map_iff in H1 as (o & <- & Ho). apply (Sh o (or_intror Ho)). }
    destruct axis; cbn [join join_blt join_freq join_pol time_array baseline_array]; try (symmetry; apply (Sh a (or_introl eq_refl))).
    rewrite (cat_length time_array Nblts) by reflexivity. rewrite (cat_length baseline_array Nblts) by exact LB. reflexivity.
  - destruct axis; cbn [join]; [|exact Ca..]. unfold counts_ok, join_blt. cbn [time_array baseline_array Nbls Ntimes].
    split; (eexists; split; [|split; [|reflexivity]]); [apply uniqueZ_NoDup|intros y; apply uniqueZ_In|apply uniqueZ_NoDup|intros y; apply uniqueZ_In].
  - destruct axis; exact D.
Qed.
