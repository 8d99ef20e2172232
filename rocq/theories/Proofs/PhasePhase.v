(** Phasing and unprojecting: the catalog *)
From Coq Require Import List ZArith Bool Arith String QArith Lia.
From Verif Require Import Lib.Py Lib.Np Lib.Slice Lib.Cube Lib.Dict Model.Tools Model.Hdf5 Model.PhaseCenter
  Spec.PhaseSpec Proofs.PhaseProofs Proofs.PhaseOps Proofs.PhaseSplit.
Import ListNotations.
Open Scope Z_scope.
Open Scope list_scope.
Notation length := List.length.

Lemma clear_points s s' : pc_consistent s -> clear_unused_phase_centers s = Ok s' ->
  pc_ids s' = pc_ids s /\ forall i e, points s' i e <-> points s i e.
Proof.
  intros Hc H. destruct (clear_spec s Hc) as (s1 & H1 & Hids & Hcat & _). rewrite H in H1. injection H1 as <-.
  split; [exact Hids|]. intros i e. unfold points, stored. rewrite Hids, Hcat. split.
  - intros (k & Hk & He). apply filter_In in He as [He _]. exists k. auto.
  - intros (k & Hk & He). exists k. split; [exact Hk|]. apply filter_In. split; [exact He|]. simpl. apply isinZ_spec.
    eapply nth_error_In. exact Hk.
Qed.

Lemma assign_consistent s sel k : pc_consistent s -> length sel = length (pc_ids s) -> In k (map fst (pc_cat s)) ->
  pc_consistent (mkpc (pc_cat s) (pc_n s) (assign_ids sel k (pc_ids s))).
Proof.
  intros Hc Hl Hk. apply consistent_keys in Hc as ((Hnd & Hst) & Hn & Hids). apply consistent_keys. cbn [pc_cat pc_n pc_ids].
  split; [split; assumption|]. split; [exact Hn|]. intros j Hj. apply assign_ids_In in Hj as [->|Hj]; [exact Hk| |exact Hl].
  apply Hids. exact Hj.
Qed.


Lemma mask_bools n mask :
  match mask with None => Ok (repeat true n) | Some m => if (length m =? n)%nat then Ok m else Err IndexError end
  = row_bools n (mask_of mask).
Proof. destruct mask; reflexivity. Qed.

(** what phasing does to the rows, given what was asked of the catalog *)
Lemma phase_unfold pop name p mask cleanup s s' : picks pop -> pc_consistent s ->
  phase_catalog pop name p mask cleanup s = Ok s' ->
  exists id q info s1 k,
    phase_request name p s = Ok (id, q, info) /\ add_phase_center pop name info q true id s = Ok (s1, k) /\
    pc_consistent s' /\ length (pc_ids s') = length (pc_ids s) /\
    (forall r e, (r < length (pc_ids s))%nat -> chosen (length (pc_ids s)) (mask_of mask) r ->
       In (k, e) (pc_cat s1) -> points s' r e) /\
    (forall r e, ~ chosen (length (pc_ids s)) (mask_of mask) r -> points s1 r e -> points s' r e).
Proof.
  intros Hp Hc H. unfold phase_catalog in H. apply bind_Ok in H as ((req & info) & Hreq & H). destruct req as [id q].
  cbn zeta in H. rewrite mask_bools in H. apply bind_Ok in H as (sel & Hsel & H). apply bind_Ok in H as ((s1 & k) & Hadd & H).
  exists id, q, info, s1, k. split; [exact Hreq|]. split; [exact Hadd|].
  destruct (row_bools_spec _ _ _ Hsel) as [Hl Hch].
  destruct (add_consistent _ _ _ _ _ _ _ _ _ Hp Hc Hadd) as (Hc1 & Hi1 & Hk1).
  set (s2 := mkpc (pc_cat s1) (pc_n s1) (assign_ids sel k (pc_ids s1))) in *.
  assert (Hl1 : length sel = length (pc_ids s1)) by (rewrite Hi1; exact Hl).
  assert (Hc2 : pc_consistent s2) by (apply assign_consistent; assumption).
  assert (Hlen2 : length (pc_ids s2) = length (pc_ids s)) by (unfold s2; cbn [pc_ids]; rewrite assign_ids_length by exact Hl1; rewrite Hi1; reflexivity).
  assert (Hsel2 : forall r e, (r < length (pc_ids s))%nat -> chosen (length (pc_ids s)) (mask_of mask) r ->
       In (k, e) (pc_cat s1) -> points s2 r e).
  { intros r e Hr Hcr He. exists k. split; [|exact He]. unfold s2. cbn [pc_ids]. rewrite assign_ids_nth by exact Hl1.
    rewrite Hi1. destruct (nth_error (pc_ids s) r) as [j|] eqn:Ej.
    - apply Hch in Hcr. rewrite Hcr. reflexivity.
    - apply nth_error_None in Ej. lia. }
  assert (Hun2 : forall r e, ~ chosen (length (pc_ids s)) (mask_of mask) r -> points s1 r e -> points s2 r e).
  { intros r e Hr (j & Hj & He). exists j. split; [|exact He]. unfold s2. cbn [pc_ids]. rewrite assign_ids_nth by exact Hl1.
    rewrite Hj. destruct (nth r sel false) eqn:E; [|reflexivity]. exfalso. apply Hr, Hch. exact E. }
  destruct cleanup.
  - destruct (clear_points _ _ Hc2 H) as [Hids Hpts]. split; [apply (clear_consistent _ _ Hc2 H)|].
    split; [rewrite Hids; exact Hlen2|]. split.
    + intros r e Hr Hcr He. apply Hpts. apply Hsel2; assumption.
    + intros r e Hr Hpt. apply Hpts. apply Hun2; assumption.
  - injection H as <-. split; [exact Hc2|]. split; [exact Hlen2|]. split; assumption.
Qed.

Lemma given_refl {A} (R : A -> A -> Prop) a : (forall x, R x x) -> given R a a.
Proof. intros H. destruct a; simpl; [|exact I]. eexists. split; [reflexivity|apply H]. Qed.

Lemma values_float v w : as_float v = Ok w -> values w = values v.
Proof. destruct v as [[q|[|q [|q' l]]]|]; simpl; intros H; try discriminate; injection H as <-; reflexivity. Qed.
Lemma values_array n v w : as_array n v = Ok w -> values w = values v.
Proof.
  destruct v as [[q|l]|]; simpl; [destruct (n =? 1)%nat|destruct (length l =? n)%nat|]; intros H; try discriminate;
    injection H as <-; reflexivity.
Qed.

Lemma finish_values ty q r : finish ty q = Ok r -> is_none (c_times q) = negb (type_in ty ["ephem"%string]) ->
  values (c_lon r) = values (c_lon q) /\ values (c_lat r) = values (c_lat q) /\ c_frame r = c_frame q /\
  c_epoch r = c_epoch q /\ values (c_times r) = values (c_times q) /\ values (c_pm_ra r) = values (c_pm_ra q) /\
  values (c_pm_dec r) = values (c_pm_dec q) /\ values (c_dist r) = values (c_dist q) /\ values (c_vrad r) = values (c_vrad q).
Proof.
  unfold finish. destruct (type_in ty ["ephem"%string]).
  - intros H Ht. apply bind_Ok in H as (lon & H1 & H). apply bind_Ok in H as (lat & H2 & H).
    apply bind_Ok in H as (di & H3 & H). apply bind_Ok in H as (vr & H4 & H). injection H as <-. cbn [c_lon c_lat c_frame c_epoch c_times c_pm_ra c_pm_dec c_dist c_vrad].
    apply values_array in H1, H2, H3, H4. repeat split; try assumption.
    destruct (c_times q) as [[|]|]; try reflexivity. discriminate.
  - intros H Ht. apply bind_Ok in H as (lon & H1 & H). apply bind_Ok in H as (lat & H2 & H).
    apply bind_Ok in H as (ra & H5 & H). apply bind_Ok in H as (de & H6 & H).
    apply bind_Ok in H as (di & H3 & H). apply bind_Ok in H as (vr & H4 & H). injection H as <-. cbn [c_lon c_lat c_frame c_epoch c_times c_pm_ra c_pm_dec c_dist c_vrad].
    apply values_float in H1, H2, H3, H4, H5, H6. repeat split; assumption.
Qed.

Lemma near_list_refl tol (l : list Q) : (0 <= fst tol)%Q -> (0 <= snd tol)%Q -> Forall2 (near tol) l l.
Proof. intros H1 H2. induction l; constructor; [apply near_refl; assumption|assumption]. Qed.

Lemma given_some {A B} (R : B -> B -> Prop) (f : option A -> option B) (a b : option A) :
  (forall x, R x x) -> (a = None -> f a = None) -> (a <> None -> f b = f a) -> given R (f a) (f b).
Proof.
  intros HR Hn Hs. destruct a as [x|].
  - rewrite Hs by discriminate. apply given_refl. exact HR.
  - rewrite Hn by reflexivity. exact I.
Qed.

Lemma generated_place name info p e : generate_entry name info p = Ok e -> c_type p <> None -> place_asked p (e_coords e).
Proof.
  intros H Hty. apply generate_entry_inv in H as (q & Hq & Hf & _ & _ & _ & E3 & _).
  destruct (query_defaults_cases _ _ Hq) as (Q1 & Q2 & Q3 & Q4 & Q5 & Q6 & Q7 & Q8 & Q9 & Q10).
  pose proof (finish_facts _ _ _ Hf) as (F1 & _).
  destruct (finish_values _ _ _ Hf E3) as (V1 & V2 & V3 & V4 & V5 & V6 & V7 & V8 & V9).
  assert (Hr : forall l, Forall2 (near radian_tols) l l) by (intros l; apply near_list_refl; discriminate).
  assert (Hd : forall l, Forall2 (near default_tols) l l) by (intros l; apply near_list_refl; discriminate).
  unfold place_asked. rewrite V5, V6, V7, V8, V9, Q3, Q4, Q5, Q6, Q7, V4, Q2, V3.
  split; [rewrite F1; unfold asked_type; destruct (c_type p); [reflexivity|contradiction]|].
  split; [apply given_some; [exact Hr|intros ->; reflexivity|intros Hn; rewrite V1, (Q8 Hn); reflexivity]|].
  split; [apply given_some; [exact Hr|intros ->; reflexivity|intros Hn; rewrite V2, (Q9 Hn); reflexivity]|].
  split; [apply (given_some _ (fun x => x)); [reflexivity|auto|intros Hn; apply Q10; exact Hn]|].
  split; [apply given_refl; reflexivity|].
  repeat (split; [apply given_refl; exact Hd|]). apply given_refl. exact Hd.
Qed.

Lemma phase_new_name pop name p mask cleanup s s' : picks pop -> pc_consistent s ->
  (forall k e, stored s k e -> e_name e <> name) ->
  phase_catalog pop name p mask cleanup s = Ok s' ->
  pc_consistent s' /\ length (pc_ids s') = length (pc_ids s) /\
  forall r e, points s r e ->
    (chosen (length (pc_ids s)) (mask_of mask) r ->
       exists e', points s' r e' /\ e_name e' = name /\ place_asked p (e_coords e')) /\
    (~ chosen (length (pc_ids s)) (mask_of mask) r -> points s' r e).
Proof.
  intros Hp Hc Hnew H. destruct (phase_unfold _ _ _ _ _ _ _ Hp Hc H) as (id & q & info & s1 & k & Hreq & Hadd & Hc' & Hlen & Hsel & Huns).
  split; [exact Hc'|]. split; [exact Hlen|].
  assert (Hnil : look_for_name (pc_cat s) name = []).
  { unfold look_for_name. destruct (filter _ (pc_cat s)) as [|[k0 e0] l] eqn:E; [reflexivity|]. exfalso.
    assert (Hin : In (k0, e0) (filter (fun p0 : Z * pentry => String.eqb (e_name (snd p0)) name) (pc_cat s))) by (rewrite E; left; reflexivity).
    apply filter_In in Hin as [Hin Hn]. apply String.eqb_eq in Hn. apply (Hnew k0 e0 Hin Hn). }
  unfold phase_request in Hreq. cbn zeta in Hreq. rewrite Hnil in Hreq. injection Hreq as <- <- <-.
  apply add_spec in Hadd as (e1 & He1 & Hn1 & Hadd); [|exact Hp].
  destruct Hadd as [[-> (e0 & Hin & Hn0 & _)]|(_ & -> & _ & Hfresh)]; [exfalso; apply (Hnew k e0 Hin Hn0)|].
  specialize (Hfresh (or_introl eq_refl)). pose proof Hc as Hcons. apply consistent_keys in Hc as ((Hnd & _) & _ & Hids).
  intros r e (j & Hj & He). assert (Hrl : (r < length (pc_ids s))%nat) by (apply nth_error_Some; congruence). split; intros Hr.
  - exists e1. split; [apply Hsel; [exact Hrl|exact Hr|]; cbn [pc_cat]; apply in_dset; [exact Hnd|left; auto]|]. split; [exact Hn1|].
    pose proof (generated_place _ _ _ _ He1) as Hpl. cbn [c_type] in Hpl.
    specialize (Hpl ltac:(destruct (c_type p); discriminate)).
    destruct Hpl as (P1 & P2 & P3 & P4 & P5 & P6). cbn [c_lon c_lat c_frame c_epoch c_times c_pm_ra c_pm_dec c_dist c_vrad] in *.
    unfold place_asked. split; [rewrite P1; unfold asked_type; cbn [c_type]; destruct (c_type p); reflexivity|].
    split; [exact P2|]. split; [exact P3|]. split; [exact P4|]. split; [|exact P6].
    destruct (c_epoch p); [exact P5|exact I].
  - apply Huns; [exact Hr|]. exists j. split; [exact Hj|]. unfold stored. cbn [pc_cat]. apply in_dset; [exact Hnd|]. right.
    split; [|exact He]. intros ->. apply Hfresh. apply in_keys. exists e. exact He.
Qed.

Lemma both_some {A} (R : A -> A -> Prop) a b : both R a b -> b <> None -> a <> None.
Proof. destruct a, b; simpl; congruence || tauto. Qed.
Lemma both_some' {A} (R : A -> A -> Prop) a b : both R a b -> a <> None -> b <> None.
Proof. destruct a, b; simpl; congruence || tauto. Qed.

Lemma storable_full e : storable e ->
  match c_type (e_coords e) with Some t => str_in t allowed_cat_types = true | None => False end /\
  c_lon (e_coords e) <> None /\ c_lat (e_coords e) <> None /\ c_frame (e_coords e) <> None.
Proof.
  intros H. unfold storable in H. pose proof H as H0.
  apply generate_entry_inv in H as (q & Hq & Hf & _ & E1 & _ & _ & E4 & E5 & E6 & _).
  pose proof (finish_facts _ _ _ Hf) as (_ & F2 & _ & F4 & F5 & _). split; [|].
  - destruct (c_type (e_coords e)); [exact E1|discriminate].
  - rewrite <- !is_none_neq. rewrite F4, F5, F2. auto.
Qed.

Lemma phase_stored_place pop name p mask cleanup s s' k0 e0 : picks pop -> pc_consistent s ->
  stored s k0 e0 -> e_name e0 = name -> same_place p (e_coords e0) -> c_epoch p <> None ->
  phase_catalog pop name p mask cleanup s = Ok s' ->
  pc_consistent s' /\ length (pc_ids s') = length (pc_ids s) /\
  forall r e, points s r e ->
    (chosen (length (pc_ids s)) (mask_of mask) r ->
       exists k1 e1 e2, points s' r e2 /\ e_name e2 = name /\
         stored s k1 e1 /\ e_name e1 = name /\ same_place p (e_coords e1) /\ same_place (e_coords e1) (e_coords e2)) /\
    (~ chosen (length (pc_ids s)) (mask_of mask) r -> points s' r e).
Proof.
  intros Hp Hc Hst0 Hn0 Hsame Hep H.
  destruct (phase_unfold _ _ _ _ _ _ _ Hp Hc H) as (id & q & info & s1 & k & Hreq & Hadd & Hc' & Hlen & Hsel & Huns).
  split; [exact Hc'|]. split; [exact Hlen|]. pose proof Hc as Hcons. apply consistent_keys in Hc as ((Hnd & _) & _ & Hids).
  pose proof (storable_In _ _ _ Hcons Hst0) as Hse. destruct (storable_full _ Hse) as (T1 & T2 & T3 & T4).
  pose proof Hsame as (S1 & S2 & S3 & S4 & _).
  assert (Hqd : query_defaults p = Ok p).
  { apply query_defaults_full.
    - rewrite S1. destruct (c_type (e_coords e0)); [exact T1|exact I].
    - apply (both_some _ _ _ S2 T2).
    - apply (both_some _ _ _ S3 T3).
    - rewrite S4. exact T4. }
  unfold phase_request in Hreq. cbn zeta in Hreq.
  assert (Hin : In k0 (look_for_name (pc_cat s) name)).
  { unfold look_for_name. apply in_keys. exists e0. apply filter_In. split; [exact Hst0|]. apply String.eqb_eq. exact Hn0. }
  destruct (look_for_name (pc_cat s) name) as [|x l]; [destruct Hin|]. rewrite Hqd in Hreq. cbn [bind] in Hreq.
  destruct (look_cases (Some name) p (pc_cat s)) as [(m & e1 & Hl & Hin1 & Hname & Hs1)|(mid & md & Hl & Hne & Hno & _)]; rewrite Hl in Hreq.
  2:{ exfalso. apply (Hno k0 e0 Hst0); [simpl; congruence|exact Hsame]. }
  simpl in Hreq. rewrite (cat_In_get _ _ _ Hnd Hin1) in Hreq. cbn [bind] in Hreq. injection Hreq as <- <- <-.
  assert (Hepoch : c_epoch (e_coords e1) <> None).
  { destruct Hs1 as (_ & _ & _ & _ & S5 & _). apply (both_some' _ _ _ S5 Hep). }
  set (q1 := mkcoords _ _ _ _ _ _ _ _ _ _) in Hadd.
  assert (Hq1 : q1 = e_coords e1).
  { unfold q1. destruct (e_coords e1) as [a b c d ee f g h i j]. simpl in *. destruct ee; [reflexivity|contradiction]. }
  rewrite Hq1 in Hadd. clear Hq1. clearbody q1. clear q1.
  simpl in Hname.
  apply add_spec in Hadd as (e2 & He2 & Hn2 & Hadd); [|exact Hp].
  assert (Hco : e_coords e2 = e_coords e1).
  { apply generate_entry_inv in He2 as (q & Hq & Hf & _). pose proof (storable_In _ _ _ Hcons Hin1) as Hs'. unfold storable in Hs'.
    apply generate_entry_inv in Hs' as (q' & Hq' & Hf' & _). congruence. }
  destruct Hadd as [[-> (e3 & Hin3 & Hn3 & Hs3)]|(Hno & _)].
  2:{ exfalso. apply (Hno m e1 Hin1 (eq_sym Hname)). rewrite Hco. apply same_place_refl. }
  intros r e Hpt. assert (Hrl : (r < length (pc_ids s))%nat) by (destruct Hpt as (j & Hj & _); apply nth_error_Some; congruence).
  split; intros Hr.
  - exists m, e1, e3. split; [apply Hsel; assumption|]. split; [exact Hn3|]. split; [exact Hin1|]. split; [congruence|].
    split; [exact Hs1|]. rewrite <- Hco. exact Hs3.
  - apply Huns; assumption.
Qed.

Lemma phase_consistent pop name p mask cleanup s s' : picks pop -> pc_consistent s ->
  phase_catalog pop name p mask cleanup s = Ok s' -> pc_consistent s'.
Proof.
  intros Hp Hc H. destruct (phase_unfold _ _ _ _ _ _ _ Hp Hc H) as (id & q & info & s1 & k & _ & _ & Hc' & _). exact Hc'.
Qed.

(** * Unprojecting *)

Lemma check_type_nth s r e : pc_consistent s -> points s r e ->
  nth r (check_for_cat_type "unprojected"%string s) false = true <-> is_unprojected e.
Proof.
  intros Hc (k & Hk & He). apply consistent_keys in Hc as ((Hnd & _) & _ & _).
  unfold check_for_cat_type. cbn zeta. set (ids := map fst _).
  assert (Hn : nth r (map (fun j => isinZ j ids) (pc_ids s)) false = isinZ k ids).
  { erewrite nth_error_nth; [reflexivity|]. rewrite nth_error_map, Hk. reflexivity. }
  rewrite Hn, isinZ_spec. unfold ids. rewrite in_keys. unfold is_unprojected. split.
  - intros (e' & He'). apply filter_In in He' as [He' Ht]. simpl in Ht.
    assert (e' = e) by (eapply cat_unique; eassumption). subst e'.
    destruct (c_type (e_coords e)) as [t|]; [|discriminate]. unfold type_in, str_in in Ht. simpl in Ht. rewrite orb_false_r in Ht.
    apply String.eqb_eq in Ht. congruence.
  - intros Ht. exists e. apply filter_In. split; [exact He|]. simpl. rewrite Ht. reflexivity.
Qed.

Lemma unproject_effect pop name mask s s' : picks pop -> pc_consistent s ->
  unproject_catalog pop name mask s = Ok s' ->
  pc_consistent s' /\ length (pc_ids s') = length (pc_ids s) /\
  forall r e, points s r e ->
    (chosen (length (pc_ids s)) (mask_of mask) r /\ ~ is_unprojected e ->
       exists e', points s' r e' /\ e_name e' = name /\ is_unprojected e') /\
    (~ (chosen (length (pc_ids s)) (mask_of mask) r /\ ~ is_unprojected e) -> points s' r e).
Proof.
  intros Hp Hc H. unfold unproject_catalog in H. cbn zeta in H. rewrite mask_bools in H.
  apply bind_Ok in H as (m & Hm & H). destruct (row_bools_spec _ _ _ Hm) as [Hl Hch].
  set (chk := check_for_cat_type "unprojected"%string s) in *.
  assert (Hlc : length chk = length (pc_ids s)) by (unfold chk, check_for_cat_type; cbn zeta; apply map_length).
  set (sel := map (fun p : bool * bool => negb (fst p) && snd p) (combine chk m)) in *.
  assert (Hls : length sel = length (pc_ids s)) by (unfold sel; rewrite map_length, combine_length; lia).
  assert (Hsel : forall r, (r < length (pc_ids s))%nat -> nth r sel false = negb (nth r chk false) && nth r m false).
  { intros r Hr. unfold sel. rewrite (nth_indep _ false ((fun p : bool * bool => negb (fst p) && snd p) (false, false)))
      by (rewrite map_length, combine_length; lia).
    rewrite (map_nth (fun p : bool * bool => negb (fst p) && snd p)). rewrite combine_nth by lia. reflexivity. }
  clearbody sel.
  apply bind_Ok in H as (q & Hq & H). vm_compute in Hq. injection Hq as Hq.
  assert (Hchoice : exists s1 k e1, pc_consistent s1 /\ pc_ids s1 = pc_ids s /\ In (k, e1) (pc_cat s1) /\
     e_name e1 = name /\ is_unprojected e1 /\ (forall j e, In (j, e) (pc_cat s) -> In (j, e) (pc_cat s1)) /\
     clear_unused_phase_centers (mkpc (pc_cat s1) (pc_n s1) (assign_ids sel k (pc_ids s1))) = Ok s').
  { destruct (look_loop (Some name) q (pc_cat s) None 99999) as [mid md] eqn:El.
    apply bind_Ok in H as ((s1 & k) & Hk & H). exists s1, k.
    assert (Hcase : (s1 = s /\ mid = Some k /\ md = 0) \/
       add_phase_center pop name "user"%string unprojected_coords false None s = Ok (s1, k)).
    { destruct mid as [k0|]; [destruct (md =? 0) eqn:E|]; [|right; exact Hk|right; exact Hk].
      left. injection Hk as <- <-. split; [reflexivity|]. split; [reflexivity|]. lia. }
    destruct Hcase as [(-> & -> & ->)|Hadd].
    - destruct (look_cases (Some name) q (pc_cat s)) as [(j & e1 & Hl1 & Hin & Hname & Hs1)|(mid & md & Hl1 & Hne & _)]; rewrite El in Hl1.
      + injection Hl1 as <-. exists e1. split; [exact Hc|]. split; [reflexivity|]. split; [exact Hin|].
        split; [symmetry; exact Hname|]. split; [|split; [auto|exact H]]. destruct Hs1 as [Ht _]. unfold is_unprojected. rewrite <- Ht, <- Hq. reflexivity.
      + injection Hl1 as <- <-. contradiction.
    - pose proof (add_consistent _ _ _ _ _ _ _ _ _ Hp Hc Hadd) as (Hc1 & Hi1 & _).
      pose proof Hc as Hcons. apply consistent_keys in Hc as ((Hnd & _) & _ & _).
      apply add_spec in Hadd as (e1 & He1 & Hn1 & Hadd); [|exact Hp].
      assert (Ht1 : is_unprojected e1).
      { apply generate_entry_inv in He1 as (q1 & _ & Hf & _). apply finish_facts in Hf as (Hf & _). exact Hf. }
      destruct Hadd as [[-> (e0 & Hin & Hn0 & Hs0)]|(_ & -> & _ & Hfresh)].
      + exists e0. split; [exact Hcons|]. split; [reflexivity|]. split; [exact Hin|]. split; [exact Hn0|].
        split; [|split; [auto|exact H]]. destruct Hs0 as [Ht _]. unfold is_unprojected. rewrite <- Ht. exact Ht1.
      + exists e1. split; [exact Hc1|]. split; [exact Hi1|]. cbn [pc_cat]. split; [apply in_dset; [exact Hnd|left; auto]|].
        split; [exact Hn1|]. split; [exact Ht1|]. split; [|exact H]. intros j e Hj. apply in_dset; [exact Hnd|]. right. split; [|exact Hj].
        intros ->. apply Hfresh; [left; reflexivity|]. apply in_keys. exists e. exact Hj. }
  clear H. destruct Hchoice as (s1 & k & e1 & Hc1 & Hi1 & Hin1 & Hn1 & Ht1 & Hkeep & H).
  assert (Hl1 : length sel = length (pc_ids s1)) by (rewrite Hi1; exact Hls).
  set (s2 := mkpc (pc_cat s1) (pc_n s1) (assign_ids sel k (pc_ids s1))) in *.
  assert (Hc2 : pc_consistent s2) by (apply assign_consistent; [exact Hc1|exact Hl1|apply in_keys; exists e1; exact Hin1]).
  destruct (clear_points _ _ Hc2 H) as [Hids Hpts]. split; [apply (clear_consistent _ _ Hc2 H)|].
  split; [rewrite Hids; unfold s2; cbn [pc_ids]; rewrite assign_ids_length by exact Hl1; rewrite Hi1; reflexivity|].
  intros r e Hpt. pose proof (check_type_nth s r e Hc Hpt) as Hchk. fold chk in Hchk. destruct Hpt as (j & Hj & He).
  assert (Hrl : (r < length (pc_ids s))%nat) by (apply nth_error_Some; congruence).
  assert (Hnth : nth_error (pc_ids s2) r = Some (if nth r sel false then k else j)).
  { unfold s2. cbn [pc_ids]. rewrite assign_ids_nth by exact Hl1. rewrite Hi1, Hj. reflexivity. }
  specialize (Hsel r Hrl). split.
  - intros [Hr Hun]. exists e1. split; [|auto]. apply Hpts. exists k. split; [|exact Hin1]. rewrite Hnth, Hsel.
    apply Hch in Hr. rewrite Hr. destruct (nth r chk false); [exfalso; apply Hun, Hchk; reflexivity|]. reflexivity.
  - intros Hr. apply Hpts. exists j. split; [|apply Hkeep; exact He]. rewrite Hnth, Hsel.
    destruct (nth r chk false) eqn:E1; [reflexivity|]. destruct (nth r m false) eqn:E2; [|reflexivity]. exfalso. apply Hr.
    split; [apply Hch; exact E2|]. intros Hun. apply Hchk in Hun. discriminate.
Qed.
