(** Consolidating a catalog with a reference catalog *)
From Coq Require Import List ZArith Bool Arith String QArith Lia.
From Verif Require Import Lib.Py Lib.Np Lib.Slice Lib.Cube Lib.Dict Model.Tools Model.Hdf5 Model.PhaseCenter
  Spec.PhaseSpec Proofs.PhaseProofs Proofs.PhaseOps Proofs.PhaseSplit.
Import ListNotations.
Open Scope Z_scope.
Open Scope list_scope.
Notation length := List.length.

(** every row keeps its description, and two rows share an id iff they did *)
Definition carries (ign : bool) (s s' : pcobj) : Prop :=
  length (pc_ids s') = length (pc_ids s) /\
  (forall r e, points s r e -> exists e', points s' r e' /\ alike ign e e') /\
  (forall r r', nth_error (pc_ids s') r = nth_error (pc_ids s') r' <-> nth_error (pc_ids s) r = nth_error (pc_ids s) r').

(** the entries come from the object or from the reference *)
Definition comes_from (ign : bool) (s : pcobj) (ref : catalog) (s' : pcobj) : Prop :=
  forall k e', stored s' k e' -> exists k0 e0, In (k0, e0) (pc_cat s ++ ref) /\ alike ign e0 e'.

Lemma alike_refl ign e : alike ign e e.
Proof. split; reflexivity. Qed.
Lemma alike_trans ign a b c : alike ign a b -> alike ign b c -> alike ign a c.
Proof. intros [H1 H2] [H3 H4]. split; [congruence|]. intros H. rewrite H4, H2 by exact H. reflexivity. Qed.

Lemma carries_refl ign s : carries ign s s.
Proof. split; [reflexivity|]. split; [intros r e H; exists e; split; [exact H|apply alike_refl]|reflexivity]. Qed.
Lemma carries_trans ign a b c : carries ign a b -> carries ign b c -> carries ign a c.
Proof.
  intros (H1 & H2 & H3) (H4 & H5 & H6). split; [congruence|]. split.
  - intros r e H. destruct (H2 _ _ H) as (e1 & Hp & Ha). destruct (H5 _ _ Hp) as (e2 & Hp2 & Ha2). exists e2.
    split; [exact Hp2|]. eapply alike_trans; eassumption.
  - intros r r'. rewrite H6. apply H3.
Qed.

Lemma matches_alike ign r e e' : alike ign e e' -> (matches ign r e' <-> matches ign r e).
Proof.
  intros [H1 H2]. unfold matches. rewrite H1. split; intros [Hs Hn]; (split; [exact Hs|]); intros H; specialize (H2 H); specialize (Hn H); congruence.
Qed.

(** changing an id *)
Lemma moved_carries ign s k m e : pc_consistent s -> In (k, e) (pc_cat s) -> ~ In m (map fst (ddel Z.eqb k (pc_cat s))) ->
  carries ign s (mkpc (dset Z.eqb m e (ddel Z.eqb k (pc_cat s))) (pc_n s) (map (fun j => if j =? k then m else j) (pc_ids s))).
Proof.
  intros Hc He Hm. apply consistent_keys in Hc as ((Hnd & _) & _ & Hids). split; [apply map_length|]. split.
  - intros r e0 (j & Hj & He0). exists e0. split; [|apply alike_refl]. exists (if j =? k then m else j). cbn [pc_ids].
    rewrite nth_error_map, Hj. split; [reflexivity|]. unfold stored. cbn [pc_cat]. apply moved_In; [exact Hnd|exact He|].
    destruct (Z.eqb_spec j k) as [->|Hne].
    + left. split; [reflexivity|]. eapply cat_unique; eassumption.
    + right. split; [|split; [exact Hne|exact He0]]. intros ->. apply Hm. apply (ddel_keys Z.eqb Z.eqb_eq). split; [exact Hne|].
      apply in_keys. exists e0. exact He0.
  - assert (Hm' : forall j, In j (pc_ids s) -> j = m -> j = k).
    { intros j Hj ->. destruct (Z.eq_dec m k); [assumption|]. exfalso. apply Hm. apply (ddel_keys Z.eqb Z.eqb_eq). split; [assumption|].
      apply Hids. exact Hj. }
    intros r r'. cbn [pc_ids]. rewrite !nth_error_map.
    destruct (nth_error (pc_ids s) r) as [j|] eqn:E1, (nth_error (pc_ids s) r') as [j'|] eqn:E2; simpl; try (split; congruence).
    apply nth_error_In in E1, E2. pose proof (Hm' _ E1) as M1. pose proof (Hm' _ E2) as M2.
    destruct (Z.eqb_spec j k), (Z.eqb_spec j' k); split; intros H; (assert (H' := H); apply (f_equal (fun o => match o with Some x => x | None => 0 end)) in H'; simpl in H'); f_equal; subst; auto; exfalso; auto.
Qed.

Lemma moved_keys s k m e j : NoDup (map fst (pc_cat s)) -> In (k, e) (pc_cat s) ->
  In j (map fst (dset Z.eqb m e (ddel Z.eqb k (pc_cat s)))) <-> j = m \/ (j <> k /\ In j (map fst (pc_cat s))).
Proof.
  intros Hnd He. rewrite in_keys. split.
  - intros (e' & H). apply moved_In in H as [[H _]|(H1 & H2 & H3)]; [auto| |exact Hnd|exact He].
    right. split; [exact H2|]. apply in_keys. exists e'. exact H3.
  - intros [->|[H1 H2]].
    + exists e. apply moved_In; [exact Hnd|exact He|]. auto.
    + apply in_keys in H2 as (e' & He'). destruct (Z.eq_dec j m) as [->|Hne].
      * exists e. apply moved_In; [exact Hnd|exact He|]. auto.
      * exists e'. apply moved_In; [exact Hnd|exact He|]. auto.
Qed.

Definition keep_clear (pop : list Z -> Z) (ref : catalog) :=
  fun (s : pcobj) (k : Z) => update_phase_center_id pop k None (Some (dkeys ref)) s.

Lemma first_loop pop ref ign s0 : picks pop -> forall todo s,
  pc_consistent s -> carries ign s0 s -> comes_from ign s0 ref s ->
  NoDup todo -> (forall k, In k todo -> In k (map fst (pc_cat s))) ->
  (forall k, In k (map fst (pc_cat s)) -> In k todo \/ ~ In k (map fst ref)) ->
  exists s', foldM (keep_clear pop ref) todo s = Ok s' /\ pc_consistent s' /\ carries ign s0 s' /\
    comes_from ign s0 ref s' /\ (forall k, In k (map fst (pc_cat s')) -> ~ In k (map fst ref)).
Proof.
  intros Hp todo. induction todo as [|k todo IH]; intros s Hc Hca Hcf Hnd Hin Hcl.
  - exists s. split; [reflexivity|]. split; [exact Hc|]. split; [exact Hca|]. split; [exact Hcf|].
    intros k Hk. destruct (Hcl k Hk) as [[]|H]. exact H.
  - inversion Hnd as [|? ? Hni Hnd']; subst. pose proof Hc as Hcons. apply consistent_keys in Hc as ((Hndk & _) & _ & _).
    destruct (update_id_ok pop k None (Some (dkeys ref)) s Hp Hndk (Hin k (or_introl eq_refl)) I) as (s1 & Hs1).
    unfold foldM. cbn [fold_left bind]. unfold keep_clear at 2. rewrite Hs1.
    apply update_id_spec in Hs1 as (e & m & He & -> & Hm & _ & Hr); [|exact Hp|exact Hndk]. specialize (Hr _ eq_refl).
    apply IH; clear IH.
    + apply moved_consistent; assumption.
    + eapply carries_trans; [exact Hca|]. apply moved_carries; assumption.
    + intros k0 e0 H. unfold stored in H. cbn [pc_cat] in H. apply moved_In in H; [|exact Hndk|exact He].
      destruct H as [[-> ->]|(_ & _ & H)]; [apply (Hcf k e He)|apply (Hcf k0 e0 H)].
    + exact Hnd'.
    + intros j Hj. cbn [pc_cat]. apply moved_keys; [exact Hndk|exact He|]. right. split; [intros ->; contradiction|]. apply Hin. right. exact Hj.
    + intros j Hj. cbn [pc_cat] in Hj. apply moved_keys in Hj; [|exact Hndk|exact He]. destruct Hj as [->|[Hne Hj]]; [right; exact Hr|].
      destruct (Hcl j Hj) as [[H|H]|H]; [congruence|auto|auto].
Qed.

(** rewriting an entry *)
Lemma update_carries ign s f k : (forall e, alike ign e (f e)) ->
  carries ign s (mkpc (update_entry f k (pc_cat s)) (pc_n s) (pc_ids s)).
Proof.
  intros Hf. split; [reflexivity|]. split; [|reflexivity]. intros r e (j & Hj & He).
  exists (if j =? k then f e else e). split.
  - exists j. split; [exact Hj|]. unfold stored. cbn [pc_cat]. apply in_update. exists e. split; [exact He|]. reflexivity.
  - destruct (j =? k); [apply Hf|apply alike_refl].
Qed.

Lemma update_consistent s f k : pc_consistent s -> (forall e, storable e -> storable (f e)) ->
  pc_consistent (mkpc (update_entry f k (pc_cat s)) (pc_n s) (pc_ids s)).
Proof.
  intros Hc Hf. apply consistent_keys in Hc as ((Hnd & Hst) & Hn & Hids). apply consistent_keys. cbn [pc_cat pc_n pc_ids].
  rewrite update_keys. split; [split; [exact Hnd|]|split; [|exact Hids]].
  - apply Forall_forall. intros [j e] Hj. apply in_update in Hj as (e0 & He0 & ->). rewrite Forall_forall in Hst.
    specialize (Hst _ He0). simpl in *. destruct (j =? k); [apply Hf|]; exact Hst.
  - unfold update_entry. rewrite map_length. exact Hn.
Qed.

(** adding the reference entry under its id *)
Lemma add_new pop s k e : ~ In k (map fst (pc_cat s)) -> storable e ->
  (forall k0 e0, In (k0, e0) (pc_cat s) -> e_name e = e_name e0 -> ~ same_place (e_coords e) (e_coords e0)) ->
  add_phase_center pop (e_name e) (e_info e) (e_coords e) false (Some k) s =
  Ok (mkpc (dset Z.eqb k e (pc_cat s)) (length (dset Z.eqb k e (pc_cat s))) (pc_ids s), k).
Proof.
  intros Hk Hst Hno. unfold add_phase_center. unfold storable in Hst. rewrite Hst. cbn [bind].
  destruct (generate_requested pop (Some (dkeys (pc_cat s))) k None None I) as [[Hg _]|[_ Hu]].
  2:{ exfalso. destruct Hu as [(keys & Hkeys & Hin & _)|(r & Hr & _)]; [|discriminate]. injection Hkeys as <-. apply Hk. exact Hin. }
  rewrite Hg. cbn [bind].
  destruct (look_cases (Some (e_name e)) (e_coords e) (pc_cat s)) as [(m & e1 & _ & Hin1 & Hname & Hs1)|(mid & md & Hl & Hne & _)].
  { exfalso. apply (Hno m e1 Hin1 Hname Hs1). }
  rewrite Hl. destruct mid; [rewrite (proj2 (Z.eqb_neq md 0) Hne)|]; reflexivity.
Qed.

Lemma add_carries ign s k e n : NoDup (map fst (pc_cat s)) -> ~ In k (map fst (pc_cat s)) ->
  carries ign s (mkpc (dset Z.eqb k e (pc_cat s)) n (pc_ids s)).
Proof.
  intros Hnd Hk. split; [reflexivity|]. split; [|reflexivity]. intros r e0 (j & Hj & He0). exists e0.
  split; [|apply alike_refl]. exists j. split; [exact Hj|]. unfold stored. cbn [pc_cat]. apply in_dset; [exact Hnd|]. right.
  split; [|exact He0]. intros ->. apply Hk. apply in_keys. exists e0. exact He0.
Qed.

Definition rewritten (ign : bool) (r : pentry) (x : pentry) : pentry :=
  let x := set_info (e_info r) x in if ign then set_name (e_name r) x else x.

Lemma rewritten_alike ign r e : alike ign e (rewritten ign r e).
Proof. unfold rewritten, alike. destruct ign; split; try reflexivity; discriminate. Qed.
Lemma rewritten_storable ign r e : storable e -> storable (rewritten ign r e).
Proof. intros H. unfold rewritten. cbn zeta. destruct ign; [apply storable_name|]; apply storable_info; exact H. Qed.

Lemma second_loop pop ref ign s0 : picks pop -> catalog_ok ref -> distinguishable ign s0 ref ->
  forall todo done s, ref = done ++ todo ->
  pc_consistent s -> carries ign s0 s -> comes_from ign s0 ref s ->
  (forall k, In k (map fst (pc_cat s)) -> In k (map fst done) \/ ~ In k (map fst ref)) ->
  (forall k r, In (k, r) done -> exists e, stored s k e /\ matches ign r e) ->
  exists s', foldM (consolidate_one pop ign) todo s = Ok s' /\ pc_consistent s' /\ carries ign s0 s' /\
    comes_from ign s0 ref s' /\ (forall k r, In (k, r) ref -> exists e, stored s' k e /\ matches ign r e).
Proof.
  intros Hp [Hrnd Hrst] Hdist todo. induction todo as [|[k r] todo IH]; intros done s Href Hc Hca Hcf Hkeys Hdone.
  - exists s. split; [reflexivity|]. split; [exact Hc|]. split; [exact Hca|]. split; [exact Hcf|].
    intros k r H. rewrite Href, app_nil_r in H. apply Hdone. exact H.
  - pose proof Hc as Hcons. apply consistent_keys in Hc as ((Hnd & Hst) & _ & _).
    assert (Hkref : In (k, r) ref) by (rewrite Href; apply in_or_app; right; left; reflexivity).
    assert (Hkr : In k (map fst ref)) by (apply in_keys; exists r; exact Hkref).
    assert (Hknd : ~ In k (map fst done)).
    { intros H. rewrite Href, map_app in Hrnd. simpl in Hrnd. apply NoDup_remove_2 in Hrnd. apply Hrnd. apply in_or_app. auto. }
    assert (Hkc : ~ In k (map fst (pc_cat s))).
    { intros H. destruct (Hkeys k H) as [H1|H1]; contradiction. }
    assert (Hrs : storable r) by (rewrite Forall_forall in Hrst; apply (Hrst (k, r) Hkref)).
    assert (Hstep : exists s1, consolidate_one pop ign s (k, r) = Ok s1 /\ pc_consistent s1 /\ carries ign s s1 /\
       comes_from ign s0 ref s1 /\
       (forall j, In j (map fst (pc_cat s1)) -> j = k \/ In j (map fst (pc_cat s))) /\
       (exists e, stored s1 k e /\ matches ign r e) /\
       (forall j e, In j (map fst done) -> stored s j e -> stored s1 j e)).
    { unfold consolidate_one.
      destruct (look_cases (if ign then None else Some (e_name r)) (e_coords r) (pc_cat s))
        as [(m & e & Hl & Hin & Hname & Hs)|(mid & md & Hl & Hne & Hno & _)]; rewrite Hl.
      - assert (Hmat : matches ign r e).
        { split; [exact Hs|]. intros ->. exact Hname. }
        assert (Hmd : ~ In m (map fst done)).
        { intros Hm. apply in_keys in Hm as (r1 & Hr1). destruct (Hdone m r1 Hr1) as (e1 & He1 & Hm1).
          assert (e1 = e) by (eapply cat_unique; eassumption). subst e1.
          destruct (Hcf m e Hin) as (k2 & e2 & H2 & Hal).
          assert (m = k).
          { apply (Hdist m r1 k r e2).
            - rewrite Href. apply in_or_app. left. exact Hr1.
            - exact Hkref.
            - exists k2. exact H2.
            - apply (matches_alike ign r1 e2 e Hal). exact Hm1.
            - apply (matches_alike ign r e2 e Hal). exact Hmat. }
          subst m. apply Hknd. apply in_keys. exists r1. exact Hr1. }
        destruct (update_id_ok pop m (Some k) None s Hp Hnd) as (s1 & Hs1).
        { apply in_keys. exists e. exact Hin. }
        { split; [intros H; contradiction|discriminate]. }
        cbn [Z.eqb]. rewrite Hs1. cbn [bind].
        apply update_id_spec in Hs1 as (e' & m' & He' & -> & Hm' & Hmk & _); [|exact Hp|exact Hnd].
        specialize (Hmk k eq_refl). subst m'. assert (e' = e) by (eapply cat_unique; eassumption). subst e'.
        pose proof (moved_consistent _ _ _ _ Hcons Hin Hm') as Hc1.
        pose proof (moved_carries ign _ _ _ _ Hcons Hin Hm') as Hca1.
        set (s1 := mkpc (dset Z.eqb k e (ddel Z.eqb m (pc_cat s))) (pc_n s) (map (fun j => if j =? m then k else j) (pc_ids s))) in *.
        change (fun x : pentry => let x := set_info (e_info r) x in if ign then set_name (e_name r) x else x) with (rewritten ign r).
        exists (mkpc (update_entry (rewritten ign r) k (pc_cat s1)) (pc_n s1) (pc_ids s1)). split; [reflexivity|].
        split; [apply update_consistent; [exact Hc1|apply rewritten_storable]|].
        split; [eapply carries_trans; [exact Hca1|]; apply update_carries; apply rewritten_alike|].
        assert (Hst1 : forall j e0, stored s1 j e0 <-> (j = k /\ e0 = e) \/ (j <> k /\ j <> m /\ In (j, e0) (pc_cat s))).
        { intros j e0. apply moved_In; assumption. }
        split; [|split; [|split]].
        + intros j e0 H. unfold stored in H. cbn [pc_cat] in H. apply in_update in H as (e1 & H1 & ->). apply Hst1 in H1.
          assert (Hsrc : exists k0 e2, In (k0, e2) (pc_cat s0 ++ ref) /\ alike ign e2 e1).
          { destruct H1 as [[-> ->]|(_ & _ & H1)]; [apply (Hcf m e Hin)|apply (Hcf j e1 H1)]. }
          destruct Hsrc as (k0 & e2 & H2 & Hal). exists k0, e2. split; [exact H2|].
          destruct (j =? k); [eapply alike_trans; [exact Hal|apply rewritten_alike]|exact Hal].
        + intros j Hj. cbn [pc_cat] in Hj. rewrite update_keys in Hj. unfold s1 in Hj. cbn [pc_cat] in Hj.
          apply moved_keys in Hj; [|exact Hnd|exact Hin]. tauto.
        + exists (rewritten ign r e). split.
          * unfold stored. cbn [pc_cat]. apply in_update. exists e. split; [apply Hst1; left; auto|]. rewrite Z.eqb_refl. reflexivity.
          * apply (matches_alike ign r e); [apply rewritten_alike|exact Hmat].
        + intros j e0 Hj He0. unfold stored. cbn [pc_cat]. apply in_update. exists e0. split.
          * apply Hst1. right. split; [intros ->; contradiction|]. split; [intros ->; contradiction|exact He0].
          * destruct (Z.eqb_spec j k) as [->|]; [contradiction|reflexivity].
      - assert (Hadd : add_phase_center pop (e_name r) (e_info r) (e_coords r) false (Some k) s =
           Ok (mkpc (dset Z.eqb k r (pc_cat s)) (length (dset Z.eqb k r (pc_cat s))) (pc_ids s), k)).
        { apply add_new; [exact Hkc|exact Hrs|]. intros k0 e0 Hin0 Hn0 Hs0. apply (Hno k0 e0 Hin0); [|exact Hs0].
          destruct ign; [exact I|exact Hn0]. }
        exists (mkpc (dset Z.eqb k r (pc_cat s)) (length (dset Z.eqb k r (pc_cat s))) (pc_ids s)).
        assert (Hin' : forall j e0, In (j, e0) (dset Z.eqb k r (pc_cat s)) <-> (j = k /\ e0 = r) \/ (j <> k /\ In (j, e0) (pc_cat s))).
        { intros j e0. apply in_dset. exact Hnd. }
        split; [destruct mid; [rewrite (proj2 (Z.eqb_neq md 0) Hne)|]; rewrite Hadd; reflexivity|].
        split; [apply dset_consistent; [exact Hcons|exact Hrs|reflexivity|]; intros j Hj; right; apply consistent_keys in Hcons as (_ & _ & Hids); apply Hids; exact Hj|].
        split; [apply add_carries; assumption|]. split; [|split; [|split]].
        + intros j e0 H. apply Hin' in H as [[-> ->]|[_ H]]; [exists k, r; split; [apply in_or_app; right; exact Hkref|apply alike_refl]|apply (Hcf j e0 H)].
        + intros j Hj. cbn [pc_cat] in Hj. apply in_keys in Hj as (e0 & He0). apply Hin' in He0 as [[-> _]|[_ He0]]; [auto|].
          right. apply in_keys. exists e0. exact He0.
        + exists r. split; [apply Hin'; left; auto|]. split; [apply same_place_refl|reflexivity].
        + intros j e0 Hj He0. apply Hin'. right. split; [intros ->; contradiction|exact He0]. }
    destruct Hstep as (s1 & H1 & Hc1 & Hca1 & Hcf1 & Hk1 & Hnew & Hold).
    unfold foldM. cbn [fold_left bind]. rewrite H1.
    apply (IH (done ++ [(k, r)])).
    + rewrite Href, <- app_assoc. reflexivity.
    + exact Hc1.
    + eapply carries_trans; eassumption.
    + exact Hcf1.
    + intros j Hj. rewrite map_app, in_app_iff. simpl. destruct (Hk1 j Hj) as [->|Hj']; [tauto|]. destruct (Hkeys j Hj'); tauto.
    + intros j r0 Hj. apply in_app_or in Hj as [Hj|[Hj|[]]].
      * destruct (Hdone j r0 Hj) as (e & He & Hm). exists e. split; [|exact Hm]. apply Hold; [|exact He]. apply in_keys. exists r0. exact Hj.
      * injection Hj as <- <-. exact Hnew.
Qed.

Lemma consolidate_effect pop ref ign s : picks pop -> pc_consistent s -> catalog_ok ref -> distinguishable ign s ref ->
  exists s', consolidate pop ref ign s = Ok s' /\ pc_consistent s' /\ carries ign s s' /\ comes_from ign s ref s' /\
    (forall k r, In (k, r) ref -> exists e, stored s' k e /\ matches ign r e).
Proof.
  intros Hp Hc Href Hd. unfold consolidate.
  assert (Hcf : comes_from ign s ref s).
  { intros k e H. exists k, e. split; [apply in_or_app; left; exact H|apply alike_refl]. }
  pose proof Hc as Hcons. apply consistent_keys in Hc as ((Hnd & _) & _ & _).
  destruct (first_loop pop ref ign s Hp (dkeys (pc_cat s)) s Hcons (carries_refl ign s) Hcf) as (s1 & H1 & Hc1 & Hca1 & Hcf1 & Hk1).
  - exact Hnd.
  - intros k Hk. exact Hk.
  - intros k Hk. left. exact Hk.
  - unfold keep_clear in H1. rewrite H1. cbn [bind].
    apply (second_loop pop ref ign s Hp Href Hd ref [] s1 eq_refl Hc1 Hca1 Hcf1).
    + intros k Hk. right. apply Hk1. exact Hk.
    + intros k r [].
Qed.
