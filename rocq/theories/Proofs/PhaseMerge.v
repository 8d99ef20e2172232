(** Merging phase centers *)
From Coq Require Import List ZArith Bool Arith String QArith Lia.
From Verif Require Import Lib.Py Lib.Np Lib.Slice Lib.Cube Lib.Dict Model.Tools Model.Hdf5 Model.PhaseCenter
  Spec.PhaseSpec Proofs.PhaseProofs Proofs.PhaseOps Proofs.PhaseSplit.
Import ListNotations.
Open Scope Z_scope.
Open Scope list_scope.
Notation length := List.length.

Definition ident_ids (s : pcobj) (i : pc_ident) : result (list Z) :=
  match i with
  | ByName n => match look_for_name (pc_cat s) n with [] => Err ValueError | l => Ok l end
  | ById k => if dmem Z.eqb k (pc_cat s) then Ok [k] else Err ValueError
  | ByIds _ => Err TypeError
  end.

Lemma ident_ids_spec s i l : NoDup (map fst (pc_cat s)) -> ident_ids s i = Ok l ->
  NoDup l /\ l <> [] /\ forall k, In k l <-> named_by s i k.
Proof.
  intros Hnd. unfold ident_ids. destruct i as [n|k|]; [|destruct (dmem Z.eqb k (pc_cat s)) eqn:E|]; try discriminate.
  - assert (Hk : forall j, In j (look_for_name (pc_cat s) n) <-> named_by s (ByName n) j).
    { intros j. unfold look_for_name, named_by, stored. rewrite in_keys. split.
      - intros (e & He). apply filter_In in He as [He H]. apply String.eqb_eq in H. exists e. auto.
      - intros (e & He & H). exists e. apply filter_In. split; [exact He|]. apply String.eqb_eq. exact H. }
    assert (Hn : NoDup (look_for_name (pc_cat s) n)) by (apply filter_keys; exact Hnd).
    destruct (look_for_name (pc_cat s) n) as [|k q]; [discriminate|]. intros H. injection H as <-.
    split; [exact Hn|]. split; [discriminate|exact Hk].
  - intros H. injection H as <-. split; [constructor; [intros []|constructor]|]. split; [discriminate|].
    intros j. simpl. split; [intros [H|[]]; congruence|auto].
Qed.

Lemma concat_NoDup {A B} (P : A -> B -> Prop) (l : list A) (ls : list (list B)) :
  Forall2 (fun i li => NoDup li /\ forall k, In k li <-> P i k) l ls ->
  (forall a b i j k, nth_error l a = Some i -> nth_error l b = Some j -> P i k -> P j k -> a = b) ->
  NoDup (List.concat ls).
Proof.
  intros HF. induction HF as [|i li l ls [Hn Hi] HF IH]; intros Hone; [constructor|]. simpl.
  assert (Hrest : NoDup (List.concat ls)).
  { apply IH. intros a b i0 j0 k Ha Hb H1 H2. specialize (Hone (S a) (S b) i0 j0 k Ha Hb H1 H2). congruence. }
  assert (Hdis : forall k, In k li -> ~ In k (List.concat ls)).
  { intros k Hk Hin. apply in_concat in Hin as (lj & Hlj & Hk'). apply In_nth_error in Hlj as [b Hb].
    assert (Hj : exists j, nth_error l b = Some j /\ forall k, In k lj <-> P j k).
    { clear - HF Hb. revert b Hb. induction HF as [|x y l ls [_ Hxy] HF IH]; intros [|b] Hb; try discriminate; simpl in *.
      - injection Hb as ->. exists x. auto.
      - apply IH. exact Hb. }
    destruct Hj as (j & Hj & HP). apply Hi in Hk. apply HP in Hk'.
    specialize (Hone 0%nat (S b) i j k eq_refl Hj Hk Hk'). discriminate. }
  clear - Hn Hrest Hdis. induction li as [|x li IH]; [exact Hrest|]. inversion Hn; subst. simpl. constructor.
  - intros H. apply in_app_or in H as [H|H]; [contradiction|]. apply (Hdis x (or_introl eq_refl) H).
  - apply IH; [assumption|]. intros k Hk. apply Hdis. right. exact Hk.
Qed.

Lemma merge_ids_spec s l ids : NoDup (map fst (pc_cat s)) -> merge_ids s l = Ok ids ->
  (forall k, In k ids <-> exists i, In i l /\ named_by s i k) /\
  (named_once s l -> NoDup ids) /\
  (forall k ks, ids = k :: ks -> exists i, nth_error l 0 = Some i /\ named_by s i k).
Proof.
  intros Hnd H. unfold merge_ids in H. apply bind_Ok in H as (ls & Hls & H). injection H as <-.
  assert (HF : Forall2 (fun i li => (NoDup li /\ forall k, In k li <-> named_by s i k) /\ li <> []) l ls).
  { apply mapM_Ok_Forall2 in Hls. induction Hls as [|i li l ls H Hls IH]; constructor; [|exact IH].
    destruct (ident_ids_spec s i li Hnd H) as (H1 & H2 & H3). auto. }
  split; [|split].
  - intros k. rewrite in_concat. clear Hls. induction HF as [|i li l ls [[_ H1] _] HF IH].
    + split; [intros (x & [] & _)|intros (x & [] & _)].
    + split.
      * intros (x & [<-|Hx] & Hk); [exists i; split; [left; reflexivity|apply H1; exact Hk]|].
        destruct (proj1 IH (ex_intro _ x (conj Hx Hk))) as (j & Hj & Hn). exists j. split; [right; exact Hj|exact Hn].
      * intros (x & [<-|Hx] & Hk); [exists li; split; [left; reflexivity|apply H1; exact Hk]|].
        destruct (proj2 IH (ex_intro _ x (conj Hx Hk))) as (y & Hy & Hn). exists y. split; [right; exact Hy|exact Hn].
  - intros Hone. apply (concat_NoDup (named_by s) l ls).
    + clear - HF. induction HF as [|i li l ls [H _] HF IH]; constructor; auto.
    + intros a b i j k. apply Hone.
  - intros k ks Heq. destruct HF as [|i li l ls [[_ H1] H2] HF]; [discriminate|]. simpl in *.
    exists i. split; [reflexivity|]. apply H1. destruct li as [|x li]; [contradiction|]. injection Heq as <- _. left. reflexivity.
Qed.

Lemma look_target s nm p first mid md e1 : NoDup (map fst (pc_cat s)) -> In (first, e1) (pc_cat s) ->
  look_in_catalog (pc_cat s) nm p (Some first) = Ok (mid, md) ->
  (match mid with None => false | Some _ => md =? 0 end) = true ->
  same_place p (e_coords e1) /\ (forall n, nm = Some n -> n = e_name e1).
Proof.
  intros Hnd Hin H Hok. unfold look_in_catalog in H. rewrite (cat_In_get _ _ _ Hnd Hin) in H. injection H as H.
  destruct mid as [m|]; [|discriminate]. apply Z.eqb_eq in Hok. subst md.
  simpl in H. destruct nm as [n|].
  - destruct (String.eqb n (e_name e1)) eqn:En; cbn [negb] in H; [|discriminate]. apply String.eqb_eq in En.
    rewrite orb_true_r in H. destruct (Z.of_nat (cat_diffs p (e_coords e1)) <? 99999) eqn:El.
    + destruct (Z.of_nat (cat_diffs p (e_coords e1)) =? 0) eqn:E0.
      * split; [apply cat_diffs_zero; lia|]. intros n' Hn'. congruence.
      * injection H as H1 H2. lia.
    + discriminate.
  - destruct (Z.of_nat (cat_diffs p (e_coords e1)) =? 0) eqn:E0; cbn [orb] in H.
    + split; [apply cat_diffs_zero; lia|]. discriminate.
    + discriminate.
Qed.

Lemma merge_relabels l force ign s s' : pc_consistent s -> named_once s l ->
  merge_phase_centers l force ign s = Ok s' ->
  let listed k := exists i, In i l /\ named_by s i k in
  pc_consistent s' /\
  ((exists first, (exists i, nth_error l 0 = Some i /\ named_by s i first) /\
     length (pc_ids s') = length (pc_ids s) /\
     (forall r k, nth_error (pc_ids s) r = Some k ->
        (listed k -> nth_error (pc_ids s') r = Some first) /\
        (~ listed k -> nth_error (pc_ids s') r = Some k)) /\
     (forall k e, stored s' k e <-> stored s k e /\ (listed k -> k = first)) /\
     (force = false -> forall k e, listed k -> stored s k e ->
        k = first \/ exists e1, stored s first e1 /\ matches ign e e1)) \/
   (s' = s /\ forall k k', listed k -> listed k' -> k = k')).
Proof.
  intros Hc Hone H listed. pose proof Hc as Hcons. apply consistent_keys in Hc as ((Hnd & Hst) & Hn & Hids).
  unfold merge_phase_centers in H. apply bind_Ok in H as (ids & Hm & H).
  destruct (merge_ids_spec _ _ _ Hnd Hm) as (Hlisted & Hnodup & Hfirst). specialize (Hnodup Hone).
  fold (listed) in Hlisted.
  destruct ids as [|first [|second rest]].
  - injection H as <-. split; [exact Hcons|]. right. split; [reflexivity|]. intros k k' Hk.
    apply Hlisted in Hk. destruct Hk.
  - injection H as <-. split; [exact Hcons|]. right. split; [reflexivity|]. intros k k' Hk Hk'.
    apply Hlisted in Hk, Hk'. simpl in *. destruct Hk as [Hk|[]], Hk' as [Hk'|[]]. congruence.
  - apply bind_Ok in H as (oks & Hoks & H). destruct (_ && _) eqn:Ef in H; [discriminate|]. cbn [tl] in *.
    set (ids := first :: second :: rest) in *.
    inversion Hnodup as [|? ? Hnf Hnt]; subst.
    assert (Hin : forall k, In k ids -> In k (map fst (pc_cat s))).
    { intros k Hk. apply Hlisted in Hk as (i & Hi & Hk). clear - Hm Hi Hk Hnd. unfold merge_ids in Hm.
      apply bind_Ok in Hm as (ls & Hls & _). apply mapM_Ok_Forall2 in Hls.
      induction Hls as [|i0 li l ls H Hls IH]; [destruct Hi|]. destruct Hi as [->|Hi]; [|apply IH; exact Hi].
      destruct i as [n|j|]; [|destruct (dmem Z.eqb j (pc_cat s)) eqn:E; [|discriminate]|discriminate].
      - destruct Hk as (e & He & _). apply in_keys. exists e. exact He.
      - simpl in Hk. subst j. apply dmem_keys. exact E. }
    apply remove_all_spec in H as (Hi' & Hcat' & Hn' & _ & _); [|exact Hnt].
    cbn [pc_cat pc_ids] in Hi', Hcat'. specialize (Hn' ltac:(discriminate)).
    assert (Hst' : forall k e, stored s' k e <-> stored s k e /\ (listed k -> k = first)).
    { intros k e. unfold stored. rewrite Hcat', filter_In. cbn [fst]. split.
      - intros [H1 H2]. split; [exact H1|]. intros Hk. apply Hlisted in Hk. destruct Hk as [<-|Hk]; [reflexivity|].
        apply isinZ_spec in Hk. rewrite Hk in H2. discriminate.
      - intros [H1 H2]. split; [exact H1|]. apply negb_true_iff. apply isinZ_false. intros Hk.
        assert (k = first) by (apply H2, Hlisted; right; exact Hk). subst k. contradiction. }
    assert (Hrow : forall r k, nth_error (pc_ids s) r = Some k ->
        (listed k -> nth_error (pc_ids s') r = Some first) /\ (~ listed k -> nth_error (pc_ids s') r = Some k)).
    { intros r k Hr. rewrite Hi', nth_error_map, Hr. cbn [option_map]. split; intros Hk.
      - apply Hlisted, isinZ_spec in Hk. rewrite Hk. reflexivity.
      - destruct (isinZ k ids) eqn:E; [|reflexivity]. apply isinZ_spec, Hlisted in E. contradiction. }
    split.
    + apply consistent_keys. split; [split|split; [exact Hn'|]].
      * rewrite Hcat'. apply filter_keys. exact Hnd.
      * rewrite Hcat'. apply Forall_forall. intros x Hx. apply filter_In in Hx as [Hx _].
        rewrite Forall_forall in Hst. apply Hst. exact Hx.
      * intros k Hk. rewrite Hi' in Hk. apply in_map_iff in Hk as (j & Hj & Hjin). apply in_keys.
        assert (Hkk : In k (map fst (pc_cat s)) /\ (listed k -> k = first)).
        { destruct (isinZ j ids) eqn:E.
          - subst k. split; [apply Hin; left; reflexivity|auto].
          - subst k. split; [apply Hids; exact Hjin|]. intros Hl. apply Hlisted, isinZ_spec in Hl. congruence. }
        destruct Hkk as [Hk1 Hk2]. apply in_keys in Hk1 as (e & He). exists e. apply Hst'. auto.
    + left. exists first. split; [apply (Hfirst first (second :: rest) eq_refl)|].
      split; [rewrite Hi'; apply map_length|]. split; [exact Hrow|]. split; [exact Hst'|].
      intros -> k e Hk He. apply Hlisted in Hk. destruct Hk as [<-|Hk]; [left; reflexivity|right].
      rewrite andb_true_r in Ef. apply negb_false_iff in Ef.
      assert (Hok : merge_ok ign first s k = Ok true).
      { apply mapM_Ok_Forall2 in Hoks. clear - Hoks Ef Hk. induction Hoks as [|x b xs bs H1 Hoks IH]; [destruct Hk|].
        simpl in Ef. apply andb_true_iff in Ef as [Eb Ef]. subst b. destruct Hk as [->|Hk]; [exact H1|]. apply IH; assumption. }
      unfold merge_ok in Hok. rewrite (cat_In_get _ _ _ Hnd He) in Hok. cbn [bind] in Hok.
      apply bind_Ok in Hok as ((mid & md) & Hlk & Hok). injection Hok as Hok.
      assert (H1 : exists e1, In (first, e1) (pc_cat s)) by (apply in_keys, Hin; left; reflexivity).
      destruct H1 as (e1 & He1). exists e1. split; [exact He1|].
      destruct (look_target _ _ _ _ _ _ _ Hnd He1 Hlk Hok) as [Hs Hnm]. split; [exact Hs|]. intros ->. apply Hnm. reflexivity.
Qed.
