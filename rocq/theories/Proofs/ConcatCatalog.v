(** Merging catalogs in fast_concat *)
From Coq Require Import List ZArith Bool Arith QArith Lia String.
From Verif Require Import Lib.Py Lib.Np Lib.Cube Lib.Dict Model.UVData Model.Hdf5 Model.PhaseCenter Model.Add Model.Concat
  Spec.PhaseSpec Spec.AddSpec Spec.ConcatSpec Proofs.PhaseProofs Proofs.PhaseOps Proofs.PhaseConsolidate.
Import ListNotations.
Notation length := List.length.
Open Scope Z_scope.

(** ** The number of rows does not change *)
Lemma update_id_length pop k n r s s' : update_phase_center_id pop k n r s = Ok s' -> length (pc_ids s') = length (pc_ids s).
Proof.
  unfold update_phase_center_id. intros H. apply bind_Ok in H as (m & _ & H). apply bind_Ok in H as (e & _ & H). injection H as <-. apply map_length.
Qed.
Lemma foldM_inv {A B} (P : A -> Prop) (f : A -> B -> result A) l : (forall s x s', P s -> f s x = Ok s' -> P s') ->
  forall s s', P s -> foldM f l s = Ok s' -> P s'.
Proof.
  intros Hf. unfold foldM. induction l as [|x l IH]; intros s s' Hs H; cbn [fold_left bind] in H.
  - injection H as <-. exact Hs.
  - destruct (f s x) as [s1|e] eqn:E.
    + apply (IH s1); [eapply Hf; eassumption|exact H].
    + exfalso. clear -H. induction l as [|y l IH]; cbn [fold_left bind] in H; [discriminate|auto].
Qed.
Lemma add_pc_ids pop nm info p f id s s' k : add_phase_center pop nm info p f id s = Ok (s', k) -> pc_ids s' = pc_ids s.
Proof.
  unfold add_phase_center. intros H.
  repeat (apply bind_Ok in H as (? & ? & H) || (destruct (look_loop _ _ _ _ _) as [? ?]) || match type of H with context [match ?x with _ => _ end] => destruct x end);
    try discriminate; injection H as <- _; reflexivity.
Qed.
Lemma consolidate_length pop ref ign s s' : consolidate pop ref ign s = Ok s' -> length (pc_ids s') = length (pc_ids s).
Proof.
  unfold consolidate. intros H. apply bind_Ok in H as (s1 & H1 & H2).
  apply (foldM_inv (fun x => length (pc_ids x) = length (pc_ids s))) in H1; [|intros a b c Ha Hf; rewrite (update_id_length _ _ _ _ _ _ Hf); exact Ha|reflexivity].
  apply (foldM_inv (fun x => length (pc_ids x) = length (pc_ids s))) in H2; [exact H2| |exact H1].
  intros a [k e] c Ha Hf. unfold consolidate_one in Hf. destruct (look_loop _ _ _ _ _) as [mid md].
  assert (A : forall x, add_phase_center pop (e_name e) (e_info e) (e_coords e) false (Some k) a = Ok x -> length (pc_ids (fst x)) = length (pc_ids s)).
  { intros [x y] Hx. cbn [fst]. rewrite (add_pc_ids _ _ _ _ _ _ _ _ _ Hx). exact Ha. }
  destruct mid as [m|]; [destruct (md =? 0)|].
  - apply bind_Ok in Hf as (x & Hx & Hf). injection Hf as <-. cbn [pc_ids]. rewrite (update_id_length _ _ _ _ _ _ Hx). exact Ha.
  - apply bind_Ok in Hf as ([x y] & Hx & Hf). injection Hf as <-. apply (A _ Hx).
  - apply bind_Ok in Hf as ([x y] & Hx & Hf). injection Hf as <-. apply (A _ Hx).
Qed.

Lemma two_steps {A} (P : list A -> Prop) : P [] -> (forall a, P [a]) -> (forall a b t, P t -> P (a :: b :: t)) -> forall l, P l.
Proof.
  intros H0 H1 H2 l. enough (P l /\ forall a, P (a :: l)) by tauto.
  induction l as [|b l [IH1 IH2]]; split; auto.
Qed.

Section Related.
Variables (X : Type) (R : X -> pcobj -> Prop).
Lemma evens_rel xs l : Forall2 R xs l -> Forall2 R (evens xs) (evens l).
Proof.
  revert l. induction xs as [|a|a b xs IH] using two_steps; intros l H; inversion H as [|? ? ? ? H1 H2]; subst; cbn [evens].
  - constructor.
  - inversion H2; subst. constructor; [assumption|constructor].
  - inversion H2; subst. constructor; auto.
Qed.
Lemma odds_rel xs l : Forall2 R xs l -> Forall2 R (odds xs) (odds l).
Proof.
  revert l. induction xs as [|a|a b xs IH] using two_steps; intros l H; inversion H as [|? ? ? ? H1 H2]; subst; cbn [odds].
  - constructor.
  - inversion H2; subst. constructor.
  - inversion H2; subst. constructor; auto.
Qed.
Lemma weave_rel xs ys l m : Forall2 R xs l -> Forall2 R ys m -> Forall2 R (weave xs ys) (weave l m).
Proof.
  intros H. revert ys m. induction H as [|x s xs l H1 H2 IH]; intros ys m Hm.
  - destruct Hm; cbn; [constructor|constructor; assumption].
  - destruct Hm as [|y s' ys m H3 H4]; cbn; [constructor; assumption|]. constructor; [exact H1|]. constructor; [exact H3|]. apply IH. exact H4.
Qed.
Lemma weave_back (l : list X) : weave (evens l) (odds l) = l.
Proof. induction l as [|a|a b l IH] using two_steps; cbn; [reflexivity..|]. rewrite IH. reflexivity. Qed.

(** A relation that consolidation keeps holds after merging. *)
Lemma merge_pairs_rel pop ign xs l l' : Forall2 R xs l ->
  (forall x y a b a', R x a -> R y b -> consolidate pop (pc_cat b) ign a = Ok a' -> R x a') ->
  merge_pairs pop ign l = Ok l' -> Forall2 R xs l'.
Proof.
  intros H K. revert l l' H. induction xs as [|x|x y xs IH] using two_steps; intros l l' H E; inversion H as [|? ? ? ? H1 H2]; subst.
  - injection E as <-. constructor.
  - inversion H2; subst. injection E as <-. exact H.
  - inversion H2; subst. cbn [merge_pairs] in E. apply bind_Ok in E as (a' & E1 & E). apply bind_Ok in E as (t & E2 & E). injection E as <-.
    constructor; [eapply K; eassumption|]. constructor; [assumption|]. eapply IH; eassumption.
Qed.
Lemma merge_all_rel pop ign : (forall x y a b a', R x a -> R y b -> consolidate pop (pc_cat b) ign a = Ok a' -> R x a') ->
  forall fuel xs l l', Forall2 R xs l -> merge_all fuel pop ign l = Ok l' -> Forall2 R xs l'.
Proof.
  intros K. induction fuel as [|n IH]; intros xs l l' H E; cbn [merge_all] in E.
  - injection E as <-. exact H.
  - destruct l as [|a [|b l]]; try (injection E as <-; exact H).
    apply bind_Ok in E as (m & E1 & E). apply bind_Ok in E as (e & E2 & E). injection E as <-.
    pose proof (merge_pairs_rel _ _ _ _ _ H K E1) as Hm.
    rewrite <- (weave_back xs). apply weave_rel; [|apply odds_rel; exact Hm].
    apply (IH _ _ _ (evens_rel _ _ Hm) E2).
Qed.
(** and, if consolidation succeeds on related objects, merging does. *)
Lemma merge_pairs_ok pop ign xs l : Forall2 R xs l ->
  (forall x y a b, R x a -> R y b -> exists a', consolidate pop (pc_cat b) ign a = Ok a') ->
  exists l', merge_pairs pop ign l = Ok l'.
Proof.
  intros H K. revert l H. induction xs as [|x|x y xs IH] using two_steps; intros l H; inversion H as [|? ? ? ? H1 H2]; subst.
  - eexists; reflexivity.
  - inversion H2; subst. eexists; reflexivity.
  - inversion H2 as [|? ? ? ? H4 H5]; subst. destruct (K _ _ _ _ H1 H4) as (a' & Ea). destruct (IH _ H5) as (t & Et). cbn [merge_pairs]. rewrite Ea. cbn [bind]. rewrite Et.
    eexists; reflexivity.
Qed.
Lemma merge_all_ok pop ign : (forall x y a b, R x a -> R y b -> exists a', consolidate pop (pc_cat b) ign a = Ok a' /\ R x a') ->
  forall fuel xs l, Forall2 R xs l -> exists l', merge_all fuel pop ign l = Ok l'.
Proof.
  intros K. induction fuel as [|n IH]; intros xs l H; cbn [merge_all].
  - eexists; reflexivity.
  - destruct l as [|a [|b l]]; try (eexists; reflexivity).
    destruct (merge_pairs_ok pop ign xs (a :: b :: l) H) as (m & Em).
    { intros x y a0 b0 H1 H2. destruct (K _ _ _ _ H1 H2) as (a' & E & _). exists a'. exact E. }
    rewrite Em. cbn [bind].
    assert (K' : forall x y a b a', R x a -> R y b -> consolidate pop (pc_cat b) ign a = Ok a' -> R x a').
    { intros x y a0 b0 a' H1 H2 E. destruct (K _ _ _ _ H1 H2) as (a1 & E1 & HR). congruence. }
    destruct (IH _ _ (evens_rel _ _ (merge_pairs_rel _ _ _ _ _ H K' Em))) as (e & ->). eexists; reflexivity.
Qed.
End Related.

(** ** Equal catalogs *)
Section Renaming.
Variables (c0 : catalog) (ids0 : list Z).
Hypothesis Hnd0 : NoDup (map fst c0).
Hypothesis Hids0 : forall k, In k ids0 -> In k (map fst c0).

Record renamed (g : Z -> Z) (s : pcobj) : Prop := {
  rn_nodup : NoDup (map fst (pc_cat s));
  rn_cat : forall k e, In (k, e) (pc_cat s) <-> exists k0, In (k0, e) c0 /\ k = g k0;
  rn_ids : pc_ids s = map g ids0;
  rn_inj : forall k1 k2, In k1 (map fst c0) -> In k2 (map fst c0) -> g k1 = g k2 -> k1 = k2 }.

Lemma renamed_move g s k e m : renamed g s -> In (k, e) c0 -> ~ In m (map fst (ddel Z.eqb (g k) (pc_cat s))) ->
  renamed (fun j => if g j =? g k then m else g j)
    (mkpc (dset Z.eqb m e (ddel Z.eqb (g k) (pc_cat s))) (pc_n s) (map (fun j => if j =? g k then m else j) (pc_ids s))).
Proof.
  intros [N C I J] He Hm. pose proof (proj2 (C (g k) e) (ex_intro _ k (conj He eq_refl))) as Hin.
  assert (Kk : In k (map fst c0)) by (apply in_keys; eexists; exact He).
  assert (M : forall j, In j (map fst c0) -> g j <> g k -> g j <> m).
  { intros j Hj Hne E. apply Hm. apply (ddel_keys Z.eqb Z.eqb_eq). split; [congruence|]. apply in_keys in Hj as (ej & Hj).
    apply in_keys. exists ej. apply C. exists j. split; [exact Hj|congruence]. }
  split.
  - cbn [pc_cat]. apply (dset_NoDup Z.eqb Z.eqb_eq). apply (ddel_NoDup Z.eqb). exact N.
  - intros j e1. cbn [pc_cat]. rewrite moved_In by assumption. split.
    + intros [[-> ->]|(H1 & H2 & H3)].
      * exists k. rewrite Z.eqb_refl. auto.
      * apply C in H3 as (j0 & H3 & ->). exists j0. split; [exact H3|]. destruct (Z.eqb_spec (g j0) (g k)); [contradiction|reflexivity].
    + intros (j0 & H3 & ->). assert (K0 : In j0 (map fst c0)) by (apply in_keys; eexists; exact H3).
      destruct (Z.eqb_spec (g j0) (g k)) as [E|E].
      * left. split; [reflexivity|]. apply J in E; [|exact K0|exact Kk]. subst j0. eapply cat_unique; [exact Hnd0|eassumption|eassumption].
      * right. split; [apply M; assumption|]. split; [exact E|]. apply C. eauto.
  - cbn [pc_ids]. rewrite I, map_map. reflexivity.
  - intros k1 k2 H1 H2. destruct (Z.eqb_spec (g k1) (g k)), (Z.eqb_spec (g k2) (g k)); intros E.
    + apply J; congruence.
    + exfalso. eapply M; [exact H2|assumption|symmetry; exact E].
    + exfalso. eapply M; [exact H1|assumption|exact E].
    + apply J; assumption.
Qed.

Lemma keys_c0 g s k : renamed g s -> In k (map fst c0) -> In (g k) (map fst (pc_cat s)).
Proof. intros H Hk. apply in_keys in Hk as (e & He). apply in_keys. exists e. apply (rn_cat _ _ H). eauto. Qed.

Lemma leave pop ref : picks pop -> forall todo g s, renamed g s -> NoDup todo ->
  (forall k, In k todo -> In k (map fst c0) /\ g k = k) ->
  (forall k, In k (map fst c0) -> In k todo \/ ~ In (g k) (map fst ref)) ->
  exists g' s', foldM (keep_clear pop ref) todo s = Ok s' /\ renamed g' s' /\ pc_n s' = pc_n s /\
    forall k, In k (map fst c0) -> ~ In (g' k) (map fst ref).
Proof.
  intros Hp. induction todo as [|k todo IH]; intros g s R N T C.
  - exists g, s. split; [reflexivity|]. split; [exact R|]. split; [reflexivity|]. intros k Hk. destruct (C k Hk) as [[]|H]; exact H.
  - inversion N as [|? ? Nk N']; subst. destruct (T k (or_introl eq_refl)) as [Tk Tg].
    assert (Kk : In k (map fst (pc_cat s))) by (rewrite <- Tg; apply (keys_c0 _ _ _ R Tk)).
    destruct (update_id_ok pop k None (Some (dkeys ref)) s Hp (rn_nodup _ _ R) Kk I) as (s1 & Hs1).
    unfold foldM. cbn [fold_left bind]. unfold keep_clear at 2. rewrite Hs1.
    apply update_id_spec in Hs1 as (e & m & He & -> & Hm & _ & Hr); [|exact Hp|exact (rn_nodup _ _ R)]. specialize (Hr _ eq_refl).
    assert (Hc : In (k, e) c0).
    { apply (rn_cat _ _ R) in He as (k0 & H1 & H2). assert (Ek : k0 = k); [|rewrite <- Ek; exact H1].
      apply (rn_inj _ _ R); [apply in_keys; eauto|exact Tk|congruence]. }
    pose proof (renamed_move g s k e m R Hc) as R'. rewrite Tg in R'. specialize (R' Hm).
    apply (IH _ _ R' N').
    + intros j Hj. destruct (T j (or_intror Hj)) as [H1 H2]. split; [exact H1|]. rewrite H2. destruct (Z.eqb_spec j k); [subst; contradiction|reflexivity].
    + intros j Hj. destruct (Z.eqb_spec (g j) k) as [E|E]; [right; exact Hr|].
      destruct (C j Hj) as [[H|H]|H]; [subst; contradiction|auto|auto].
Qed.

Variable ign : bool.
Hypothesis Hclear : clear_catalog ign c0.

Lemma return_ pop ref : picks pop -> same_catalog ref c0 -> NoDup (map fst ref) -> forall todo done g s, ref = done ++ todo ->
  renamed g s -> (forall k, In k (map fst done) -> g k = k) -> (forall k, In k (map fst todo) -> ~ In (g k) (map fst ref)) ->
  exists s', foldM (consolidate_one pop ign) todo s = Ok s' /\ pc_n s' = pc_n s /\ pc_ids s' = ids0 /\
    NoDup (map fst (pc_cat s')) /\ same_catalog (pc_cat s') c0.
Proof.
  intros Hp Hsame Hndr. induction todo as [|[k r] todo IH]; intros done g s Href R D T.
  - exists s. split; [reflexivity|]. split; [reflexivity|].
    assert (G : forall k, In k (map fst c0) -> g k = k).
    { intros k Hk. apply D. rewrite app_nil_r in Href. subst done. apply in_keys in Hk as (e & He). apply in_keys. exists e. apply Hsame. exact He. }
    split; [|split; [exact (rn_nodup _ _ R)|]].
    + rewrite (rn_ids _ _ R). rewrite <- (map_id ids0) at 2. apply map_ext_in. intros k Hk. apply G, Hids0, Hk.
    + intros k e. rewrite (rn_cat _ _ R). split.
      * intros (k0 & H1 & ->). rewrite G; [exact H1|]. apply in_keys. eauto.
      * intros H. exists k. split; [exact H|]. symmetry. apply G. apply in_keys. eauto.
  - assert (Hkref : In (k, r) ref) by (rewrite Href; apply in_or_app; right; left; reflexivity).
    pose proof (proj1 (Hsame _ _) Hkref) as Hkc.
    assert (Kk : In k (map fst c0)) by (apply in_keys; eauto).
    pose proof (T k (or_introl eq_refl)) as Tk.
    assert (Kfree : ~ In k (map fst (pc_cat s))).
    { intros H. apply in_keys in H as (e & He). apply (rn_cat _ _ R) in He as (k0 & H1 & H2).
      assert (K0 : In k0 (map fst ref)) by (apply in_keys; exists e; apply Hsame; exact H1).
      rewrite Href, map_app in K0. cbn [map fst] in K0. apply in_app_or in K0 as [K0|[K0|K0]].
      - rewrite (D _ K0) in H2. subst k0. rewrite Href, map_app in Hndr. cbn [map fst] in Hndr. apply NoDup_remove_2 in Hndr. apply Hndr.
        apply in_or_app. left. exact K0.
      - subst k0. apply Tk. rewrite <- H2. apply in_keys. eauto.
      - apply (T k0 (or_intror K0)). rewrite <- H2. apply in_keys. eauto. }
    assert (Hstep : exists s1 g1, consolidate_one pop ign s (k, r) = Ok s1 /\ pc_n s1 = pc_n s /\ renamed g1 s1 /\
       (forall j, In j (map fst c0) -> j <> k -> g1 j = g j) /\ g1 k = k).
    { unfold consolidate_one.
      destruct (look_cases (if ign then None else Some (e_name r)) (e_coords r) (pc_cat s))
        as [(m & e & Hl & Hin & Hname & Hs)|(mid & md & Hl & Hne & Hno & _)]; rewrite Hl.
      - assert (Hmat : matches ign r e). { split; [exact Hs|]. intros ->. exact Hname. }
        apply (rn_cat _ _ R) in Hin as Hin'. destruct Hin' as (k0 & H0 & ->).
        assert (k = k0) by (apply (Hclear k r k0 e Hkc H0 Hmat)). subst k0.
        assert (e = r) by (eapply cat_unique; [exact Hnd0|eassumption|eassumption]). subst e.
        destruct (update_id_ok pop (g k) (Some k) None s Hp (rn_nodup _ _ R)) as (s1 & Hs1).
        { apply in_keys. exists r. exact Hin. }
        { split; [intros H; contradiction|discriminate]. }
        cbn [Z.eqb]. rewrite Hs1. cbn [bind].
        apply update_id_spec in Hs1 as (e' & m' & He' & -> & Hm' & Hmk & _); [|exact Hp|exact (rn_nodup _ _ R)].
        specialize (Hmk k eq_refl). subst m'. assert (e' = r) by (eapply cat_unique; [exact (rn_nodup _ _ R)|eassumption..]). subst e'.
        pose proof (renamed_move g s k r k R Hkc Hm') as R1.
        eexists. exists (fun j => if g j =? g k then k else g j). split; [reflexivity|]. split; [reflexivity|]. split; [|split].
        + destruct R1 as [N C I' J]. cbn [pc_cat pc_ids pc_n] in *. split; cbn [pc_cat pc_ids].
          * rewrite update_keys. exact N.
          * intros j e. rewrite <- C. split.
            -- intros H. apply in_update in H as (e1 & H1 & ->). destruct (Z.eqb_spec j k) as [->|]; [|exact H1].
               assert (e1 = r). { eapply cat_unique; [exact N|exact H1|]. apply C. exists k. rewrite Z.eqb_refl. auto. } subst e1.
               replace (if ign then set_name (e_name r) (set_info (e_info r) r) else set_info (e_info r) r) with r; [exact H1|].
               destruct ign, r; reflexivity.
            -- intros H. apply in_update. exists e. split; [exact H|]. destruct (Z.eqb_spec j k) as [->|]; [|reflexivity].
               assert (e = r). { eapply cat_unique; [exact N|exact H|]. apply C. exists k. rewrite Z.eqb_refl. auto. } subst e.
               destruct ign, r; reflexivity.
          * exact I'.
          * exact J.
        + intros j Hj Hne. destruct (Z.eqb_spec (g j) (g k)) as [E|]; [|reflexivity]. exfalso. apply Hne. apply (rn_inj _ _ R); assumption.
        + rewrite Z.eqb_refl. reflexivity.
      - exfalso. apply (Hno (g k) r).
        + apply (rn_cat _ _ R). eauto.
        + destruct ign; [exact I|reflexivity].
        + apply same_place_refl. }
    destruct Hstep as (s1 & g1 & E1 & N1 & R1 & G1 & Gk). unfold foldM. cbn [fold_left bind]. rewrite E1.
    assert (Hn : ~ In k (map fst done) /\ ~ In k (map fst todo)).
    { rewrite Href, map_app in Hndr. cbn [map fst] in Hndr. apply NoDup_remove_2 in Hndr. rewrite in_app_iff in Hndr. tauto. }
    assert (In0 : forall j l, incl l ref -> In j (map fst l) -> In j (map fst c0)).
    { intros j l Hl Hj. apply in_keys in Hj as (e & He). apply in_keys. exists e. apply Hsame, Hl, He. }
    destruct (IH (done ++ [(k, r)]) g1 s1) as (s' & E' & N' & I' & ND' & C').
    + rewrite Href, <- app_assoc. reflexivity.
    + exact R1.
    + intros j Hj. rewrite map_app, in_app_iff in Hj. destruct Hj as [Hj|[<-|[]]]; [|exact Gk].
      rewrite G1; [apply D; exact Hj| |intros ->; tauto]. apply (In0 j done); [|exact Hj]. rewrite Href. apply incl_appl, incl_refl.
    + intros j Hj. rewrite G1; [apply T; right; exact Hj| |intros ->; tauto]. apply (In0 j todo); [|exact Hj]. rewrite Href. apply incl_appr, incl_tl, incl_refl.
    + exists s'. split; [exact E'|]. split; [congruence|]. auto.
Qed.
End Renaming.

(** Consolidating with the same entries changes nothing but their order. *)
Lemma consolidate_same pop ref ign s : picks pop -> pc_consistent s -> catalog_ok ref -> same_catalog ref (pc_cat s) -> clear_catalog ign (pc_cat s) ->
  exists s', consolidate pop ref ign s = Ok s' /\ pc_consistent s' /\ pc_ids s' = pc_ids s /\ same_catalog (pc_cat s') (pc_cat s).
Proof.
  intros Hp Hc Href Hs Hcl.
  assert (Hd : distinguishable ign s ref).
  { intros k1 r1 k2 r2 e H1 H2 (k & H) M1 M2. apply in_app_or in H as [H|H]; [|apply Hs in H]; apply Hs in H1, H2.
    - rewrite (Hcl _ _ _ _ H1 H M1). symmetry. apply (Hcl _ _ _ _ H2 H M2).
    - rewrite (Hcl _ _ _ _ H1 H M1). symmetry. apply (Hcl _ _ _ _ H2 H M2). }
  destruct (consolidate_effect pop ref ign s Hp Hc Href Hd) as (s' & E & Hc' & _).
  exists s'. split; [exact E|]. split; [exact Hc'|].
  pose proof Hc as Hc2. apply consistent_keys in Hc2 as ((Hnd & _) & Hn & Hids).
  unfold consolidate in E.
  assert (R : renamed (pc_cat s) (pc_ids s) (fun k => k) s).
  { split; [exact Hnd| | |].
    - intros k e. split; [intros H; exists k; auto|intros (k0 & H & ->); exact H].
    - symmetry. apply map_id.
    - auto. }
  destruct (leave (pc_cat s) (pc_ids s) Hnd pop ref Hp (dkeys (pc_cat s)) (fun k => k) s R Hnd) as (g & s1 & E1 & R1 & N1 & G1).
  - intros k Hk. split; [exact Hk|reflexivity].
  - intros k Hk. left. exact Hk.
  - unfold keep_clear in E1. rewrite E1 in E. cbn [bind] in E. destruct Href as [Hrn _].
    destruct (return_ (pc_cat s) (pc_ids s) Hnd Hids ign Hcl pop ref Hp Hs Hrn ref [] g s1 eq_refl R1) as (s2 & E2 & N2 & I2 & ND2 & C2).
    + intros k [].
    + intros k Hk. apply G1. apply in_keys in Hk as (e & He). apply in_keys. exists e. apply Hs. exact He.
    + rewrite E2 in E. injection E as <-. auto.
Qed.
