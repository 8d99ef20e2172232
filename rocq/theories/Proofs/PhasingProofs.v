(** Phasing keeps what was measured. *)
From Coq Require Import List ZArith Reals Bool Arith String QArith Lia Lra.
From Verif Require Import Lib.Py Lib.Np Lib.Dict Lib.Cube Model.PhaseCenter Model.Coordinates Model.Rotation Model.Phase
  Spec.PhaseSpec Spec.CoordinatesSpec Spec.PhasingSpec Proofs.PhaseProofs Proofs.PhaseOps Proofs.PhaseSplit Proofs.PhasePhase.
Import ListNotations.
Open Scope list_scope.
Open Scope R_scope.
Notation length := List.length.

(** * Complex numbers *)
Lemma turn_add v a b : cx_mul (cx_mul v (turn_back a)) (turn_back b) = cx_mul v (turn_back (a + b)).
Proof.
  destruct v as [x y]. unfold cx_mul, turn_back. cbn [fst snd].
  replace (2 * PI * (a + b)) with (2 * PI * a + 2 * PI * b) by ring. rewrite cos_plus, sin_plus. f_equal; ring.
Qed.
Lemma turn_zero v : cx_mul v (turn_back 0) = v.
Proof.
  destruct v as [x y]. unfold cx_mul, turn_back. cbn [fst snd]. rewrite Rmult_0_r, cos_0, sin_0. f_equal; ring.
Qed.
Lemma turn_inj v v' a : cx_mul v (turn_back a) = cx_mul v' (turn_back a) -> v = v'.
Proof.
  intros H. rewrite <- (turn_zero v), <- (turn_zero v'). replace 0 with (a + - a) by ring. rewrite <- !turn_add, H. reflexivity.
Qed.
Lemma exp_turn x : exp_i (-1 * 2 * PI * x) = turn_back x.
Proof.
  unfold exp_i, turn_back. replace (-1 * 2 * PI * x) with (- (2 * PI * x)) by ring. rewrite cos_neg, sin_neg. reflexivity.
Qed.

(** * Masks *)
Lemma count_cons b sel : count (b :: sel) = ((if b then 1 else 0) + count sel)%nat.
Proof. unfold count. simpl. destruct b; reflexivity. Qed.
Lemma put_length {A} sel : forall (new old : list A), length (put sel new old) = length old.
Proof.
  induction sel as [|b sel IH]; intros new old; [reflexivity|]. destruct old as [|x old]; [reflexivity|].
  destruct b; [destruct new|]; simpl; rewrite IH; reflexivity.
Qed.
Lemma put_false {A} sel (d : A) : forall new old i, nth i sel false = false -> nth i (put sel new old) d = nth i old d.
Proof.
  induction sel as [|b sel IH]; intros new old i H; [reflexivity|]. destruct old as [|x old]; [reflexivity|].
  destruct i as [|i]; simpl in H.
  - subst b. reflexivity.
  - destruct b; [destruct new|]; simpl; apply IH; exact H.
Qed.
Lemma put_true {A B} sel (f : A -> B) (d : A) (d' : B) : forall new old old' i,
  nth i sel false = true -> length old = length sel -> length old' = length sel -> (count sel <= length new)%nat ->
  nth i (put sel (map f new) old') d' = f (nth i (put sel new old) d).
Proof.
  induction sel as [|b sel IH]; intros new old old' i H L L' Hc; [destruct i; discriminate|].
  destruct old as [|x old]; [discriminate|]. destruct old' as [|x' old']; [discriminate|].
  rewrite count_cons in Hc. simpl in L, L'.
  destruct i as [|i]; simpl in H.
  - subst b. destruct new as [|y new]; [simpl in Hc; lia|]. reflexivity.
  - destruct b; [destruct new as [|y new]; [simpl in Hc; lia|]|]; simpl; apply IH; try assumption; simpl in Hc; lia.
Qed.

Lemma assign_rows_cases {A} sel (new old out : list A) : assign_rows sel new old = Ok out ->
  exists new', out = put sel new' old /\ length new' = count sel /\ (new' = new \/ exists x, new = [x] /\ new' = repeat x (count sel)).
Proof.
  unfold assign_rows. destruct (Nat.eqb (length new) (count sel)) eqn:E.
  - intros [= <-]. apply Nat.eqb_eq in E. exists new. auto.
  - destruct new as [|x [|y t]]; try discriminate. intros [= <-]. exists (repeat x (count sel)). rewrite repeat_length.
    split; [reflexivity|]. split; [reflexivity|]. right. exists x. auto.
Qed.
Lemma map_repeat' {A B} (f : A -> B) x n : map f (repeat x n) = repeat (f x) n.
Proof. induction n; simpl; congruence. Qed.
Lemma assign_rows_map {A B} (f : A -> B) sel (new old : list A) (old' : list B) out out' (d : A) (d' : B) i :
  assign_rows sel new old = Ok out -> assign_rows sel (map f new) old' = Ok out' ->
  length old = length sel -> length old' = length sel -> nth i sel false = true ->
  nth i out' d' = f (nth i out d).
Proof.
  intros H H' L L' Hi. unfold assign_rows in *. rewrite map_length in H'.
  destruct (Nat.eqb (length new) (count sel)) eqn:E.
  - injection H as <-. injection H' as <-. apply Nat.eqb_eq in E. apply put_true; auto. lia.
  - destruct new as [|x [|y t]]; try discriminate. injection H as <-. injection H' as <-.
    rewrite <- map_repeat'. apply put_true; auto. rewrite repeat_length. lia.
Qed.
Lemma assign_rows_length {A} sel (new old out : list A) : assign_rows sel new old = Ok out -> length out = length old.
Proof. intros H. apply assign_rows_cases in H as (new' & -> & _). apply put_length. Qed.
Lemma assign_rows_false {A} sel (new old out : list A) d i : assign_rows sel new old = Ok out -> nth i sel false = false ->
  nth i out d = nth i old d.
Proof. intros H Hi. apply assign_rows_cases in H as (new' & -> & _). apply put_false. exact Hi. Qed.

Lemma mask_rows_bools n mask : mask_rows n mask = row_bools n (mask_of mask).
Proof. destruct mask; reflexivity. Qed.

(** * The w-projection *)
Lemma w_at_num r i : w_at (ANum r) i = r.
Proof. reflexivity. Qed.
Lemma w_at_arr l n i : length l = n -> (i < n)%nat -> w_at (AArr l) i = nth i l 0.
Proof.
  intros L H. destruct l as [|r [|r' t]]; try reflexivity. simpl in L. destruct i as [|i]; [reflexivity|lia].
Qed.

Lemma apply_w_proj_spec new old mask s out : apply_w_proj new old mask s = Ok out ->
  (o_data s = None /\ out = None) \/
  exists d d' sel, o_data s = Some d /\ out = Some d' /\ row_bools (o_Nblts s) mask = Ok sel /\
    forall i j p, d' i j p = if nth i sel false
      then cx_mul (d i j p) (turn_back ((w_at new i - w_at old i) * nth j (o_freq s) 0 / speed_of_light)) else d i j p.
Proof.
  unfold apply_w_proj. destruct (o_data s) as [d|]; [|intros [= <-]; left; auto].
  intros H. right. apply bind_Ok in H as (sel & Hsel & H).
  destruct (forallb negb sel) eqn:Ef.
  - injection H as <-. exists d, d, sel. repeat (split; [auto|]). intros i j p.
    destruct (nth i sel false) eqn:E; [|reflexivity]. exfalso. rewrite forallb_forall in Ef.
    assert (Hin : In true sel).
    { rewrite <- E. apply nth_In. destruct (Nat.lt_ge_cases i (length sel)); [assumption|]. rewrite nth_overflow in E by assumption. discriminate. }
    specialize (Ef _ Hin). discriminate.
  - destruct (negb _); [discriminate|]. injection H as <-. eexists d, _, sel. split; [reflexivity|]. split; [reflexivity|]. split; [exact Hsel|].
    intros i j p. cbv beta. destruct (nth i sel false); [|reflexivity]. f_equal. rewrite <- exp_turn. f_equal.
    unfold const_c, speed_of_light. field.
Qed.

(** * What was measured *)
Lemma points_unique s i e e' : pc_consistent s -> points s i e -> points s i e' -> e = e'.
Proof.
  intros Hc (k & Hk & He) (k' & Hk' & He'). rewrite Hk in Hk'. injection Hk' as <-.
  apply consistent_keys in Hc as ((Hnd & _) & _). eapply cat_unique; eassumption.
Qed.

(** The w-projection row [i] has: in wavelengths, zero for unprojected rows *)
Definition w_has (s : pobj) (i j : nat) (w : R) : Prop :=
  (unprojected s i /\ w = 0) \/ (projected s i /\ w = w_waves s i j).

Lemma not_both s i : pc_consistent (o_pc s) -> unprojected s i -> projected s i -> False.
Proof. intros Hc (e & He & Hu) (e' & He' & Hn). assert (e = e') by (eapply points_unique; eassumption). subst. contradiction. Qed.
Lemma w_has_unique s i j w w' : pc_consistent (o_pc s) -> w_has s i j w -> w_has s i j w' -> w = w'.
Proof.
  intros Hc [[H ->]|[H ->]] [[H' ->]|[H' ->]]; try reflexivity; exfalso; eapply not_both; eassumption.
Qed.
Lemma measured_w s i j p v d w : pc_consistent (o_pc s) -> o_data s = Some d -> w_has s i j w ->
  measured s i j p v <-> d i j p = cx_mul v (turn_back w).
Proof.
  intros Hc Hd Hw. unfold measured. split.
  - intros (d' & Hd' & H). rewrite Hd in Hd'. injection Hd' as <-.
    destruct H as [[Hu ->]|[Hp ->]].
    + assert (w = 0) by (eapply w_has_unique; [exact Hc|exact Hw|left; auto]). subst. rewrite turn_zero. reflexivity.
    + assert (w = w_waves s i j) by (eapply w_has_unique; [exact Hc|exact Hw|right; auto]). subst. reflexivity.
  - intros H. exists d. split; [exact Hd|]. destruct Hw as [[Hu ->]|[Hp ->]].
    + left. split; [exact Hu|]. rewrite turn_zero in H. exact H.
    + right. split; [exact Hp|exact H].
Qed.
Lemma measured_kept s s' i j p v d d' w w' : pc_consistent (o_pc s) -> pc_consistent (o_pc s') ->
  o_data s = Some d -> o_data s' = Some d' -> w_has s i j w -> w_has s' i j w' ->
  d' i j p = cx_mul (d i j p) (turn_back (w' - w)) -> measured s' i j p v <-> measured s i j p v.
Proof.
  intros Hc Hc' Hd Hd' Hw Hw' H. rewrite (measured_w s i j p v d w) by assumption. rewrite (measured_w s' i j p v d' w') by assumption.
  rewrite H. split; intros E.
  - apply (turn_inj _ _ (w' - w)). rewrite E, turn_add. f_equal. f_equal. ring.
  - rewrite E, turn_add. f_equal. f_equal. ring.
Qed.
Lemma measured_none s s' i j p v : o_data s = None -> o_data s' = None -> measured s' i j p v <-> measured s i j p v.
Proof. intros H H'. split; intros (d & Hd & _); congruence. Qed.

Lemma is_unprojected_dec e : {is_unprojected e} + {~ is_unprojected e}.
Proof. unfold is_unprojected. decide equality. apply string_dec. Defined.
Lemma row_cases s i : pc_consistent (o_pc s) -> (i < o_Nblts s)%nat -> unprojected s i \/ projected s i.
Proof.
  intros (_ & _ & H) Hi. destruct (H i Hi) as (e & He).
  destruct (is_unprojected_dec e); [left|right]; exists e; auto.
Qed.
Lemma check_unprojected s i : pc_consistent (o_pc s) -> (i < o_Nblts s)%nat ->
  (nth i (check_for_cat_type "unprojected" (o_pc s)) false = true <-> unprojected s i).
Proof.
  intros Hc Hi. destruct Hc as (H1 & H2 & H3). destruct (H3 i Hi) as (e & He). assert (Hc : pc_consistent (o_pc s)) by (split; auto).
  rewrite (check_type_nth _ _ _ Hc He). split; [intros H; exists e; auto|]. intros (e' & He' & Hu).
  assert (e = e') by (eapply points_unique; eassumption). subst. exact Hu.
Qed.
Lemma check_length t s : length (check_for_cat_type t s) = length (pc_ids s).
Proof. unfold check_for_cat_type. cbn zeta. apply map_length. Qed.

Lemma nth_combine_pair {A B C} (f : A * B -> C) (a : list A) (b : list B) i da db dc :
  length a = length b -> (i < length a)%nat -> nth i (map f (combine a b)) dc = f (nth i a da, nth i b db).
Proof.
  intros L Hi. rewrite (nth_indep _ dc (f (da, db))) by (rewrite map_length, combine_length; lia).
  rewrite map_nth, combine_nth by exact L. reflexivity.
Qed.
Lemma zero_where_nth sel l i : length sel = length l -> (i < length l)%nat ->
  nth i (zero_where sel l) 0 = if nth i sel false then 0 else nth i l 0.
Proof. intros L H. unfold zero_where. rewrite (nth_combine_pair _ _ _ _ false 0) by lia. reflexivity. Qed.
Lemma zero_where_length sel l : length sel = length l -> length (zero_where sel l) = length l.
Proof. intros L. unfold zero_where. rewrite map_length, combine_length. lia. Qed.

(** The old w-values as the methods compute them *)
Lemma old_w_has s i j : whole s -> (i < o_Nblts s)%nat ->
  w_has s i j (w_at (AArr (zero_where (check_for_cat_type "unprojected" (o_pc s)) (map w_of (o_uvw s)))) i
               * nth j (o_freq s) 0 / speed_of_light).
Proof.
  intros (Hc & _ & _ & _ & _ & _ & Hu & _) Hi.
  assert (Lc : length (check_for_cat_type "unprojected" (o_pc s)) = length (map w_of (o_uvw s)))
    by (rewrite check_length, map_length; symmetry; exact Hu).
  assert (Lz : length (zero_where (check_for_cat_type "unprojected" (o_pc s)) (map w_of (o_uvw s))) = o_Nblts s)
    by (rewrite zero_where_length by exact Lc; rewrite map_length; exact Hu).
  rewrite (w_at_arr _ _ _ Lz Hi).
  rewrite zero_where_nth; [|exact Lc|rewrite map_length, Hu; exact Hi].
  destruct (nth i (check_for_cat_type "unprojected" (o_pc s)) false) eqn:E.
  - left. split; [apply check_unprojected; assumption|]. unfold Rdiv. ring.
  - right. split; [|unfold w_waves; rewrite (nth_indep _ 0 (w_of origin)) by (rewrite map_length, Hu; exact Hi); rewrite map_nth; reflexivity].
    destruct (row_cases s i Hc Hi) as [H|H]; [|exact H]. apply check_unprojected in H; try assumption. congruence.
Qed.

(** * phase *)
Lemma asked_unprojected p : c_type p = Some "unprojected"%string <-> is_type "unprojected" p = true.
Proof.
  unfold is_type, type_in, str_in. destruct (c_type p) as [t|]; [|split; discriminate]. cbn [existsb]. rewrite orb_false_r, String.eqb_eq.
  split; [intros [= ->]; reflexivity|intros ->; reflexivity].
Qed.
Lemma asked_type_unprojected p : asked_type p = "unprojected"%string <-> is_type "unprojected" p = true.
Proof.
  rewrite <- asked_unprojected. unfold asked_type. destruct (c_type p) as [t|]; [|split; discriminate].
  split; [intros ->; reflexivity|intros [= ->]; reflexivity].
Qed.

Lemma catalog_rows pop name p mask cleanup s pc' : picks pop -> pc_consistent (o_pc s) -> name_fits s name p ->
  phase_catalog pop name p mask cleanup (o_pc s) = Ok pc' ->
  pc_consistent pc' /\ length (pc_ids pc') = o_Nblts s /\
  forall r, (r < o_Nblts s)%nat ->
    (in_mask s mask r -> exists e', points pc' r e' /\ (is_unprojected e' <-> is_type "unprojected" p = true)) /\
    (~ in_mask s mask r -> forall e, points (o_pc s) r e -> points pc' r e).
Proof.
  intros Hp Hc Hf H. pose proof Hc as (_ & _ & Hpts). destruct Hf as [Hf|(k0 & e0 & H0 & Hn & Hs & He)].
  - destruct (phase_new_name _ _ _ _ _ _ _ Hp Hc Hf H) as (Hc' & Hl & Hr). split; [exact Hc'|]. split; [exact Hl|].
    intros r Hrl. destruct (Hpts r Hrl) as (e & Hpt). destruct (Hr r e Hpt) as [H1 H2]. split.
    + intros Hm. destruct (H1 Hm) as (e' & He' & _ & Ha). exists e'. split; [exact He'|]. destruct Ha as [Ha _].
      unfold is_unprojected. rewrite Ha, <- asked_type_unprojected. split; [intros [= ->]; reflexivity|intros ->; reflexivity].
    + intros Hm e1 He1. apply (Hr r e1 He1). exact Hm.
  - destruct (phase_stored_place _ _ _ _ _ _ _ _ _ Hp Hc H0 Hn Hs He H) as (Hc' & Hl & Hr). split; [exact Hc'|]. split; [exact Hl|].
    intros r Hrl. destruct (Hpts r Hrl) as (e & Hpt). destruct (Hr r e Hpt) as [H1 H2]. split.
    + intros Hm. destruct (H1 Hm) as (k1 & e1 & e2 & He2 & _ & _ & _ & [Ht1 _] & [Ht2 _]). exists e2. split; [exact He2|].
      unfold is_unprojected. rewrite <- Ht2, <- Ht1. apply asked_unprojected.
    + intros Hm e1 He1. apply (Hr r e1 He1). exact Hm.
Qed.

(** The parts of a successful call *)
Lemma phase_parts sky junk pop name p lookup ant mask cleanup s s' :
  phase sky junk pop name p lookup ant mask cleanup s = Ok s' ->
  exists id q info sel new_uvw new_ra new_dec new_pa new_w,
    (if lookup then lookup_request else phase_request) name p (o_pc s) = Ok (id, q, info) /\
    mask_rows (o_Nblts s) mask = Ok sel /\ count sel <> 0%nat /\
    new_ra = map fst (calc_app_coords sky (o_lat s) q (masked sel (o_time s)) (masked sel (o_lst s))) /\
    new_dec = map snd (calc_app_coords sky (o_lat s) q (masked sel (o_time s)) (masked sel (o_lst s))) /\
    new_pa = (if type_in (c_frame p) ["altaz"%string] then repeat 0 (length (masked sel (o_time s)))
              else map (fun t => pa_of sky (c_frame p) (c_epoch p) (fst t) (fst (snd t)) (snd (snd t)))
                     (combine (masked sel (o_time s)) (calc_app_coords sky (o_lat s) q (masked sel (o_time s)) (masked sel (o_lst s))))) /\
    (ant = true \/ count sel = o_Nblts s) /\
    calc_uvw junk ant false false
      (uvw_call (Some new_ra) (Some new_dec) (Some new_pa) (masked sel (o_lst s)) (masked sel (o_uvw s)) (o_pos s)
                (masked sel (o_ant1 s)) (masked sel (o_ant2 s)) s) = Ok new_uvw /\
    (if lookup then lookup_catalog else phase_catalog) pop name p mask cleanup (o_pc s) = Ok (o_pc s') /\
    ((is_type "unprojected" p = true /\ new_w = ANum 0) \/
     (is_type "unprojected" p = false /\ exists l, assign_rows sel (map w_of new_uvw) (repeat 0 (o_Nblts s)) = Ok l /\ new_w = AArr l)) /\
    apply_w_proj new_w (AArr (zero_where (check_for_cat_type "unprojected" (o_pc s)) (map w_of (o_uvw s)))) (mask_of mask) s = Ok (o_data s') /\
    assign_rows sel new_uvw (o_uvw s) = Ok (o_uvw s') /\ assign_rows sel new_ra (o_ra s) = Ok (o_ra s') /\
    assign_rows sel new_dec (o_dec s) = Ok (o_dec s') /\ assign_rows sel new_pa (o_pa s) = Ok (o_pa s') /\
    o_time s' = o_time s /\ o_lst s' = o_lst s /\ o_ant1 s' = o_ant1 s /\ o_ant2 s' = o_ant2 s /\ o_freq s' = o_freq s /\
    o_pos s' = o_pos s /\ o_nums s' = o_nums s /\ o_lat s' = o_lat s /\ o_lon s' = o_lon s.
Proof.
  unfold phase. intros H. destruct (negb _ && _); [discriminate|].
  apply bind_Ok in H as ((req & info) & Hreq & H). destruct req as [id q]. cbn [snd] in H.
  apply bind_Ok in H as (sel & Hsel & H). destruct (Nat.eqb (count sel) 0) eqn:E0; [discriminate|]. apply Nat.eqb_neq in E0.
  cbn zeta in H. apply bind_Ok in H as (new_uvw & Hu & H). apply bind_Ok in H as (pc & Hpc & H).
  apply bind_Ok in H as (new_w & Hw & H). apply bind_Ok in H as (data & Hd & H).
  apply bind_Ok in H as (uvw & Huvw & H). apply bind_Ok in H as (ra & Hra & H).
  apply bind_Ok in H as (dec & Hdec & H). apply bind_Ok in H as (pa & Hpa & H). injection H as <-.
  cbn [o_pc o_time o_lst o_ant1 o_ant2 o_uvw o_ra o_dec o_pa o_freq o_data o_pos o_nums o_lat o_lon].
  set (app := calc_app_coords sky (o_lat s) q (masked sel (o_time s)) (masked sel (o_lst s))) in *.
  exists id, q, info, sel, new_uvw, (map fst app), (map snd app). eexists _, new_w.
  split; [exact Hreq|]. split; [exact Hsel|]. split; [exact E0|].
  split; [reflexivity|]. split; [reflexivity|].
  split; [reflexivity|].
  destruct (negb ant && negb (Nat.eqb (count sel) (o_Nblts s))) eqn:En; [discriminate|].
  split; [destruct ant; [left; reflexivity|right]; simpl in En; apply negb_false_iff, Nat.eqb_eq in En; exact En|].
  split; [exact Hu|]. split; [exact Hpc|]. split.
  { destruct (is_type "unprojected" p); [left|right]; (split; [reflexivity|]); [injection Hw as <-; reflexivity|].
    apply bind_Ok in Hw as (l & Hl & Hw). injection Hw as <-. exists l. auto. }
  split; [exact Hd|]. repeat (split; [assumption || reflexivity|]). reflexivity.
Qed.

Lemma mask_chosen s mask sel r : mask_rows (o_Nblts s) mask = Ok sel ->
  length sel = o_Nblts s /\ (in_mask s mask r <-> nth r sel false = true).
Proof.
  rewrite mask_rows_bools. intros H. destruct (row_bools_spec _ _ _ H) as [Hl Hch]. split; [exact Hl|]. unfold in_mask. rewrite Hch. reflexivity.
Qed.

Lemma phase_whole sky junk pop name p ant mask cleanup s s' : picks pop -> whole s -> name_fits s name p ->
  phase sky junk pop name p false ant mask cleanup s = Ok s' -> whole s' /\ same_setting s s'.
Proof.
  intros Hp (Hc & L0 & L1 & L2 & L3 & L4 & L5 & L6 & L7 & L8) Hf H.
  apply phase_parts in H as (id & q & info & sel & new_uvw & nra & ndec & npa & new_w & Hreq & Hsel & _ & _ & _ & _ & _ & _ & Hpc & _ & Hd & Hu & Hra & Hdec & Hpa &
    E1 & E2 & E3 & E4 & E5 & E6 & E7 & E8 & E9).
  destruct (catalog_rows _ _ _ _ _ _ _ Hp Hc Hf Hpc) as (Hc' & Hl & _).
  split.
  - unfold whole, o_Nblts in *. rewrite E1, E2, E3, E4, Hl. rewrite (assign_rows_length _ _ _ _ Hu), (assign_rows_length _ _ _ _ Hra),
      (assign_rows_length _ _ _ _ Hdec), (assign_rows_length _ _ _ _ Hpa). repeat (split; [assumption|]). assumption.
  - unfold same_setting. do 8 (split; [assumption|]). split; [exact Hl|].
    apply apply_w_proj_spec in Hd as [[Hn Hn']|(d & d' & sel' & Hd & Hd' & _)]; [tauto|]. rewrite Hd, Hd'. split; discriminate.
Qed.

Lemma phase_keeps sky junk pop name p ant mask cleanup s s' : picks pop -> whole s -> name_fits s name p ->
  phase sky junk pop name p false ant mask cleanup s = Ok s' ->
  forall i j k v, (i < o_Nblts s)%nat -> measured s' i j k v <-> measured s i j k v.
Proof.
  intros Hp Hw Hf H i j k v Hi. destruct (phase_whole _ _ _ _ _ _ _ _ _ _ Hp Hw Hf H) as [Hw' Hs].
  pose proof Hw as (Hc & L0 & L1 & L2 & L3 & L4 & L5 & L6 & L7 & L8).
  apply phase_parts in H as (id & q & info & sel & new_uvw & nra & ndec & npa & new_w & Hreq & Hsel & _ & _ & _ & _ & _ & _ & Hpc & Hnw & Hd & Hu & Hra & Hdec & Hpa &
    E1 & E2 & E3 & E4 & E5 & E6 & E7 & E8 & E9).
  destruct (catalog_rows _ _ _ _ _ _ _ Hp Hc Hf Hpc) as (Hc' & Hl & Hrows).
  destruct (mask_chosen s mask sel i Hsel) as [Ls Hch].
  destruct (Hrows i Hi) as [Hin Hout].
  apply apply_w_proj_spec in Hd as [[Hn Hn']|(d & d' & sel' & Hd & Hd' & Hb & Hval)]; [apply measured_none; assumption|].
  rewrite mask_rows_bools in Hsel. rewrite Hsel in Hb. injection Hb as <-.
  pose proof (old_w_has s i j Hw Hi) as Hold. specialize (Hval i j k).
  set (old_w := w_at (AArr _) i) in *. destruct (nth i sel false) eqn:Ei.
  - destruct (Hin (proj2 Hch eq_refl)) as (e' & He' & Ht).
    eapply (measured_kept s s' i j k v d d' _ (w_at new_w i * nth j (o_freq s) 0 / speed_of_light)); try eassumption.
    + destruct Hnw as [[Hty ->]|[Hty (l & Hl' & ->)]].
      * left. split; [exists e'; split; [exact He'|apply Ht; exact Hty]|]. simpl. unfold Rdiv. ring.
      * right. split; [exists e'; split; [exact He'|rewrite Ht, Hty; discriminate]|].
        assert (Ll : length l = o_Nblts s) by (rewrite (assign_rows_length _ _ _ _ Hl'); apply repeat_length).
        rewrite (w_at_arr _ _ _ Ll Hi).
        unfold w_waves. rewrite E5. do 2 f_equal.
        rewrite (assign_rows_map w_of sel new_uvw (o_uvw s) (repeat 0 (o_Nblts s)) (o_uvw s') l origin 0 i); try assumption; try reflexivity.
        -- rewrite L5, Ls. reflexivity.
        -- rewrite repeat_length, Ls. reflexivity.
    + rewrite Hval. do 2 f_equal. unfold Rdiv. ring.
  - assert (Hnm : ~ in_mask s mask i) by (rewrite Hch; discriminate).
    eapply (measured_kept s s' i j k v d d' _ (old_w * nth j (o_freq s) 0 / speed_of_light)); try eassumption.
    + assert (Hww : w_waves s' i j = w_waves s i j).
      { unfold w_waves. rewrite E5. do 2 f_equal. apply (f_equal snd). exact (assign_rows_false _ _ _ _ origin i Hu Ei). }
      destruct Hold as [[(e & He & Hue) Hz]|[(e & He & Hue) Hz]]; [left|right]; (split; [exists e; split; [apply Hout; assumption|exact Hue]|]); congruence.
    + rewrite Hval. replace (_ - _) with 0 by ring. rewrite turn_zero. reflexivity.
Qed.

Lemma phase_others sky junk pop name p ant mask cleanup s s' : picks pop -> whole s -> name_fits s name p ->
  phase sky junk pop name p false ant mask cleanup s = Ok s' ->
  forall i, (i < o_Nblts s)%nat -> ~ in_mask s mask i -> same_row s s' i.
Proof.
  intros Hp Hw Hf H i Hi Hm. pose proof Hw as (Hc & _).
  apply phase_parts in H as (id & q & info & sel & new_uvw & nra & ndec & npa & new_w & Hreq & Hsel & _ & _ & _ & _ & _ & _ & Hpc & Hnw & Hd & Hu & Hra & Hdec & Hpa & _).
  destruct (catalog_rows _ _ _ _ _ _ _ Hp Hc Hf Hpc) as (Hc' & Hl & Hrows).
  destruct (mask_chosen s mask sel i Hsel) as [Ls Hch].
  assert (Ei : nth i sel false = false) by (destruct (nth i sel false); [exfalso; apply Hm, Hch; reflexivity|reflexivity]).
  split.
  - intros j k. unfold vis_of. apply apply_w_proj_spec in Hd as [[Hn Hn']|(d & d' & sel' & Hd & Hd' & Hb & Hval)]; [rewrite Hn, Hn'; reflexivity|].
    rewrite mask_rows_bools in Hsel. rewrite Hsel in Hb. injection Hb as <-. rewrite Hd, Hd', Hval, Ei. reflexivity.
  - split; [apply (assign_rows_false _ _ _ _ _ _ Hu Ei)|]. split; [apply (assign_rows_false _ _ _ _ _ _ Hra Ei)|].
    split; [apply (assign_rows_false _ _ _ _ _ _ Hdec Ei)|]. split; [apply (assign_rows_false _ _ _ _ _ _ Hpa Ei)|].
    apply (Hrows i Hi). exact Hm.
Qed.
