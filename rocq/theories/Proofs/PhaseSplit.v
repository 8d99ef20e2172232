(** Splitting and merging phase centers *)
From Coq Require Import List ZArith Bool Arith String QArith Lia.
From Verif Require Import Lib.Py Lib.Np Lib.Slice Lib.Cube Lib.Dict Model.Tools Model.Hdf5 Model.PhaseCenter
  Spec.PhaseSpec Proofs.PhaseProofs Proofs.PhaseOps.
Import ListNotations.
Open Scope Z_scope.
Open Scope list_scope.
Notation length := List.length.

Lemma norm_index_iff n i k : norm_index n i = Some k <->
  (k < n)%nat /\ (i = Z.of_nat k \/ i = Z.of_nat k - Z.of_nat n).
Proof.
  unfold norm_index.
  destruct ((0 <=? i) && (i <? Z.of_nat n)) eqn:E1.
  - split; [intros H; injection H as <-; lia|]. intros H. f_equal. lia.
  - destruct ((i <? 0) && (0 <=? i + Z.of_nat n)) eqn:E2.
    + split; [intros H; injection H as <-; lia|]. intros H. f_equal. lia.
    + split; [discriminate|]. intros H. exfalso. lia.
Qed.

Lemma row_bools_spec n mask sel : row_bools n mask = Ok sel ->
  length sel = n /\ forall i, nth i sel false = true <-> chosen n mask i.
Proof.
  unfold row_bools, chosen. destruct mask as [|m|l].
  - intros H. injection H as <-. split; [apply repeat_length|]. intros i. split.
    + intros H. split; [|exact I]. destruct (lt_dec i n) as [|Hge]; [assumption|].
      rewrite nth_overflow in H by (rewrite repeat_length; lia). discriminate.
    + intros [Hi _]. assert (Hin : In (nth i (repeat true n) false) (repeat true n)) by (apply nth_In; rewrite repeat_length; exact Hi).
      apply repeat_spec in Hin. exact Hin.
  - destruct (length m =? n)%nat eqn:E; [|discriminate]. intros H. injection H as <-. apply Nat.eqb_eq in E.
    split; [exact E|]. intros i. split; [|tauto]. intros H. split; [|exact H].
    destruct (lt_dec i n) as [|Hge]; [assumption|]. rewrite nth_overflow in H by lia. discriminate.
  - intros H. apply bind_Ok in H as (p & Hp & H). injection H as <-.
    split; [rewrite map_length, seq_length; reflexivity|]. intros i.
    assert (Hin : forall k, In k p <-> (k < n)%nat /\ (In (Z.of_nat k) l \/ In (Z.of_nat k - Z.of_nat n) l)).
    { clear i. revert p Hp. induction l as [|x l IH]; intros p Hp k.
      - simpl in Hp. injection Hp as <-. simpl. tauto.
      - cbn [mapM] in Hp. apply bind_Ok in Hp as (y & Hy & Hp). apply bind_Ok in Hp as (q & Hq & Hp). injection Hp as <-.
        destruct (norm_index n x) as [z|] eqn:Ez; [|discriminate]. injection Hy as <-. apply norm_index_iff in Ez.
        specialize (IH q Hq k). simpl. rewrite IH. split.
        + intros [<-|[Hk [H|H]]]; [|tauto|tauto]. split; [tauto|]. destruct Ez as [_ [->| ->]]; auto.
        + intros [Hk [[H|H]|[H|H]]]; [| right; tauto| |right; tauto]; left; destruct Ez; lia. }
    destruct (lt_dec i n) as [Hi|Hge].
    + rewrite (nth_indep _ false (existsb (Nat.eqb 0%nat) p)) by (rewrite map_length, seq_length; exact Hi).
      rewrite (map_nth (fun j => existsb (Nat.eqb j) p)). rewrite seq_nth by exact Hi. simpl.
      rewrite existsb_exists. split.
      * intros (k & Hk & E). apply Nat.eqb_eq in E. subst k. apply Hin in Hk. exact Hk.
      * intros H. exists i. split; [apply Hin; exact H|apply Nat.eqb_refl].
    + rewrite nth_overflow by (rewrite map_length, seq_length; lia). split; [discriminate|lia].
Qed.

Lemma assign_ids_nth sel k ids i : length sel = length ids ->
  nth_error (assign_ids sel k ids) i = match nth_error ids i with
                                       | None => None
                                       | Some j => Some (if nth i sel false then k else j) end.
Proof.
  unfold assign_ids. revert ids i. induction sel as [|b sel IH]; intros [|j ids] i Hl; try discriminate; simpl.
  - destruct i; reflexivity.
  - destruct i as [|i]; simpl; [reflexivity|]. apply IH. simpl in Hl. lia.
Qed.

Lemma assign_ids_length sel k ids : length sel = length ids -> length (assign_ids sel k ids) = length ids.
Proof. intros H. unfold assign_ids. rewrite map_length, combine_length. lia. Qed.

Lemma assign_ids_In sel k ids j : length sel = length ids -> In j (assign_ids sel k ids) -> j = k \/ In j ids.
Proof.
  intros Hl H. apply In_nth_error in H as [i Hi]. rewrite assign_ids_nth in Hi by exact Hl.
  destruct (nth_error ids i) as [x|] eqn:E; [|discriminate]. injection Hi as <-. destruct (nth i sel false); [auto|].
  right. eapply nth_error_In. exact E.
Qed.

Lemma combine_exists {A B} (f : A * B -> bool) l1 l2 d : length l1 = length l2 ->
  existsb f (combine l1 l2) = true <-> exists i x, nth_error l2 i = Some x /\ f (nth i l1 d, x) = true.
Proof.
  revert l2. induction l1 as [|a l1 IH]; intros [|b l2] Hl; try discriminate; simpl.
  - split; [discriminate|]. intros (i & x & H & _). destruct i; discriminate.
  - rewrite orb_true_iff, IH by (simpl in Hl; lia). split.
    + intros [H|(i & x & H1 & H2)]; [exists 0%nat, b; auto|exists (S i), x; auto].
    + intros ([|i] & x & H1 & H2); simpl in *; [injection H1 as <-; auto|right; exists i, x; auto].
Qed.

Lemma combine_sel sel (ids : list Z) c i : length sel = length ids ->
  nth i (map (fun p : bool * Z => fst p && (snd p =? c)) (combine sel ids)) false = true <->
  nth i sel false = true /\ nth_error ids i = Some c.
Proof.
  revert ids i. induction sel as [|b sel IH]; intros [|j ids] i Hl; try discriminate; simpl.
  - destruct i; simpl; split; try discriminate; intros [H _]; discriminate.
  - destruct i as [|i]; simpl.
    + rewrite andb_true_iff, Z.eqb_eq. split; intros [H1 H2]; split; congruence.
    + apply IH. simpl in Hl. lia.
Qed.

(** the source of a split *)
Lemma split_source_spec i s c : NoDup (map fst (pc_cat s)) -> split_source i s = Ok c ->
  (forall k, named_by s i k <-> k = c) /\ exists e, In (c, e) (pc_cat s).
Proof.
  intros Hnd. unfold split_source. destruct i as [n|k|l]; [|destruct (dmem Z.eqb k (pc_cat s)) eqn:E|]; try discriminate.
  - destruct (look_for_name (pc_cat s) n) as [|k [|]] eqn:E; try discriminate. intros H. injection H as <-.
    assert (Hk : forall j, In j (look_for_name (pc_cat s) n) <-> named_by s (ByName n) j).
    { intros j. unfold look_for_name, named_by, stored. rewrite in_keys. split.
      - intros (e & He). apply filter_In in He as [He H]. apply String.eqb_eq in H. exists e. auto.
      - intros (e & He & H). exists e. apply filter_In. split; [exact He|]. apply String.eqb_eq. exact H. }
    rewrite E in Hk. split.
    + intros j. rewrite <- Hk. simpl. split; [intros [H|[]]; congruence|auto].
    + destruct (proj1 (Hk k) (or_introl eq_refl)) as (e & He & _). exists e. exact He.
  - intros H. injection H as <-. split; [intros j; reflexivity|]. apply dmem_keys in E. apply in_keys. exact E.
Qed.


Lemma points_iff s i k e : nth_error (pc_ids s) i = Some k -> (points s i e <-> In (k, e) (pc_cat s)).
Proof.
  intros H. unfold points, stored. split; [intros (k' & Hk & He); congruence|]. intros He. exists k. auto.
Qed.

Lemma rename_one k nm s s' : rename_phase_center (ById k) nm s = Ok s' ->
  s' = mkpc (update_entry (set_name nm) k (pc_cat s)) (pc_n s) (pc_ids s).
Proof.
  unfold rename_phase_center. destruct (dmem Z.eqb k (pc_cat s)); [|discriminate]. simpl. intros H. injection H as <-. reflexivity.
Qed.

Lemma split_relabels pop i nm mask id down s s' : picks pop -> pc_consistent s ->
  split_phase_center pop i nm mask id down s = Ok s' ->
  exists c, (forall k, named_by s i k <-> k = c) /\ pc_consistent s' /\ length (pc_ids s') = length (pc_ids s) /\
    (forall r e, points s r e ->
       (chosen (length (pc_ids s)) mask r /\ nth_error (pc_ids s) r = Some c ->
          exists e', points s' r e' /\ e_name e' = new_label nm e /\ same_place (e_coords e) (e_coords e')) /\
       (~ (chosen (length (pc_ids s)) mask r /\ nth_error (pc_ids s) r = Some c) ->
          points s' r e /\ nth_error (pc_ids s') r = nth_error (pc_ids s) r)) /\
    (forall k e, stored s k e -> k <> c -> stored s' k e).
Proof.
  intros Hp Hc H. pose proof Hc as Hcons. apply consistent_keys in Hc as ((Hnd & Hst) & Hn & Hids).
  unfold split_phase_center in H. apply bind_Ok in H as (c & Hsrc & H). cbn zeta in H.
  destruct (split_source_spec _ _ _ Hnd Hsrc) as [Hname (ec & Hec)]. exists c. split; [exact Hname|].
  set (nid := match id with None => pop (free_ids (pc_n s) (dkeys (pc_cat s))) | Some k => k end) in *.
  destruct (dmem Z.eqb nid (pc_cat s)) eqn:Enew; [discriminate|]. apply dmem_keys_false in Enew.
  apply bind_Ok in H as (sel & Hsel & H). destruct (row_bools_spec _ _ _ Hsel) as [Hlen Hch].
  set (stray := existsb (fun p : bool * Z => fst p && negb (snd p =? c)) (combine sel (pc_ids s))) in *.
  destruct (stray && negb down); [discriminate|].
  set (sel2 := if stray then map (fun p : bool * Z => fst p && (snd p =? c)) (combine sel (pc_ids s)) else sel) in *.
  assert (Hlen2 : length sel2 = length (pc_ids s)).
  { unfold sel2. destruct stray; [rewrite map_length, combine_length; lia|exact Hlen]. }
  assert (Hsel2 : forall r, nth r sel2 false = true <-> chosen (length (pc_ids s)) mask r /\ nth_error (pc_ids s) r = Some c).
  { intros r. unfold sel2. destruct stray eqn:Es.
    - rewrite combine_sel by exact Hlen. rewrite Hch. reflexivity.
    - rewrite <- Hch. split; [|tauto]. intros Hr. split; [exact Hr|].
      assert (Hrl : (r < length (pc_ids s))%nat) by (apply Hch in Hr; apply Hr).
      apply nth_error_Some in Hrl. destruct (nth_error (pc_ids s) r) as [j|] eqn:Ej; [|contradiction].
      destruct (Z.eq_dec j c) as [->|Hne]; [reflexivity|]. exfalso.
      assert (Ht : stray = true).
      { unfold stray. apply (combine_exists _ sel (pc_ids s) false Hlen). exists r, j. split; [exact Ej|].
        simpl. rewrite Hr. simpl. apply negb_true_iff, Z.eqb_neq. exact Hne. }
      congruence. }
  clearbody sel2 stray. clear Hsel Hch Hlen.
  destruct (forallb negb sel2) eqn:Eall.
  { injection H as <-. split; [exact Hcons|]. split; [reflexivity|]. split; [|auto]. intros r e Hpt. split; [|auto].
    intros Hr. exfalso. apply Hsel2 in Hr. rewrite forallb_forall in Eall.
    assert (Hrl : (r < length sel2)%nat). { destruct (lt_dec r (length sel2)); [assumption|]. rewrite nth_overflow in Hr by lia. discriminate. }
    specialize (Eall _ (nth_In sel2 false Hrl)). rewrite Hr in Eall. discriminate. }
  destruct (existsb (fun p : bool * Z => negb (fst p) && (snd p =? c)) (combine sel2 (pc_ids s))) eqn:Erest; cbn [negb] in H.
  - (* some rows of the source stay *)
    apply bind_Ok in H as (e0 & He0 & H). apply cat_get_In in He0.
    assert (e0 = ec) by (eapply cat_unique; eassumption). subst e0.
    apply bind_Ok in H as ((s1 & k) & Hadd & H). injection H as <-.
    pose proof (add_consistent _ _ _ _ _ _ _ _ _ Hp Hcons Hadd) as (Hc1 & Hi1 & Hk1).
    apply add_spec in Hadd as (e1 & He1 & Hn1 & Hadd); [|exact Hp].
    assert (Hse : storable ec) by (apply (storable_In s c); assumption).
    assert (Hco : e_coords e1 = e_coords ec).
    { apply generate_entry_inv in He1 as (q & Hq & Hf & _). unfold storable in Hse.
      apply generate_entry_inv in Hse as (q' & Hq' & Hf' & _). congruence. }
    cbn [pc_ids pc_cat]. split; [|split; [|split]].
    + apply consistent_keys in Hc1 as ((Hnd1 & Hst1) & Hn1' & Hids1). apply consistent_keys. cbn [pc_cat pc_n pc_ids].
      split; [split; assumption|]. split; [exact Hn1'|]. intros j Hj. apply assign_ids_In in Hj; [|rewrite Hi1; exact Hlen2].
      destruct Hj as [->|Hj]; [exact Hk1|apply Hids1; exact Hj].
    + rewrite assign_ids_length by (rewrite Hi1; exact Hlen2). rewrite Hi1. reflexivity.
    + intros r e (j & Hj & He). unfold points. cbn [pc_ids]. rewrite assign_ids_nth by (rewrite Hi1; exact Hlen2).
      rewrite Hi1, Hj. split.
      * intros Hr. assert (Hjc : j = c) by (destruct Hr; congruence). subst j.
        assert (Hr2 : nth r sel2 false = true) by (apply Hsel2; split; [apply Hr|exact Hj]). rewrite Hr2.
        assert (e = ec) by (eapply cat_unique; eassumption). subst e.
        destruct Hadd as [[-> (e2 & Hin & Hnm & Hsame)]|(_ & -> & _)].
        -- exists e2. split; [exists k; split; [reflexivity|exact Hin]|]. split; [|rewrite <- Hco; exact Hsame].
           rewrite Hnm. destruct nm; reflexivity.
        -- exists e1. split; [exists k; split; [reflexivity|]|].
           ++ unfold stored. cbn [pc_cat]. apply in_dset; [exact Hnd|]. left. auto.
           ++ split; [rewrite Hn1; destruct nm; reflexivity|]. rewrite Hco. apply same_place_refl.
      * intros Hr. destruct (nth r sel2 false) eqn:Er; [exfalso; apply Hr; rewrite <- Hj; apply Hsel2; exact Er|].
        split; [|reflexivity]. exists j. split; [reflexivity|].
        destruct Hadd as [[-> _]|(_ & -> & Hid & _)]; [exact He|]. unfold stored. cbn [pc_cat]. apply in_dset; [exact Hnd|].
        right. split; [|exact He]. intros ->. rewrite (Hid nid eq_refl) in He. apply Enew. apply in_keys. exists e. exact He.
    + intros k0 e Hk0 Hne. destruct Hadd as [[-> _]|(_ & -> & Hid & _)]; [exact Hk0|]. unfold stored. cbn [pc_cat].
      apply in_dset; [exact Hnd|]. right. split; [|exact Hk0]. intros ->. rewrite (Hid nid eq_refl) in Hk0.
      apply Enew. apply in_keys. exists e. exact Hk0.
  - (* all rows of the source are selected *)
    apply bind_Ok in H as (s1 & Hu & H).
    apply update_id_spec in Hu as (e0 & m & He0 & -> & Hm & Hmn & _); [|exact Hp|exact Hnd].
    assert (e0 = ec) by (eapply cat_unique; eassumption). subst e0. specialize (Hmn nid eq_refl). subst m.
    pose proof (moved_consistent _ _ _ _ Hcons He0 Hm) as Hcm.
    assert (Hall : forall r, nth_error (pc_ids s) r = Some c -> nth r sel2 false = true).
    { intros r Hr. destruct (nth r sel2 false) eqn:E; [reflexivity|]. exfalso.
      assert (Ht : existsb (fun p : bool * Z => negb (fst p) && (snd p =? c)) (combine sel2 (pc_ids s)) = true).
      { apply (combine_exists _ sel2 (pc_ids s) false Hlen2). exists r, c. split; [exact Hr|]. simpl. rewrite E. simpl.
        apply Z.eqb_refl. }
      congruence. }
    set (s1 := mkpc (dset Z.eqb nid ec (ddel Z.eqb c (pc_cat s))) (pc_n s) (map (fun j => if j =? c then nid else j) (pc_ids s))) in *.
    assert (Hres : pc_consistent s' /\ pc_ids s' = pc_ids s1 /\
      stored s' nid (mkentry (new_label nm ec) (e_info ec) (e_coords ec)) /\
      (forall k e, stored s k e -> k <> c -> stored s' k e)).
    { assert (Hother : forall k e, stored s k e -> k <> c -> stored s1 k e /\ k <> nid).
      { intros k e Hk Hne. assert (k <> nid) by (intros ->; apply Enew; apply in_keys; exists e; exact Hk).
        split; [|assumption]. apply moved_In; [exact Hnd|exact Hec|]. right. auto. }
      assert (Hnew : stored s1 nid ec) by (apply moved_In; [exact Hnd|exact Hec|]; left; auto).
      destruct nm as [nm|].
      - split; [apply (rename_consistent _ _ _ _ Hcm H)|]. apply rename_one in H. subst s'. cbn [pc_ids]. split; [reflexivity|].
        unfold stored. cbn [pc_cat]. split.
        + apply in_update. exists ec. split; [exact Hnew|]. rewrite Z.eqb_refl. reflexivity.
        + intros k e Hk Hne. destruct (Hother k e Hk Hne) as [H1 H2]. apply in_update. exists e. split; [exact H1|].
          rewrite (proj2 (Z.eqb_neq k nid) H2). reflexivity.
      - injection H as <-. split; [exact Hcm|]. split; [reflexivity|]. split; [|intros k e Hk Hne; apply Hother; assumption].
        simpl. destruct ec. exact Hnew. }
    destruct Hres as (R1 & R2 & R3 & R4). split; [exact R1|]. split; [rewrite R2; unfold s1; cbn [pc_ids]; apply map_length|].
    split; [|exact R4]. intros r e (j & Hj & He). unfold points. rewrite R2. unfold s1. cbn [pc_ids].
    rewrite nth_error_map, Hj. cbn [option_map]. split.
    + intros [_ Hjc]. assert (j = c) by congruence. subst j. assert (e = ec) by (eapply cat_unique; eassumption). subst e.
      eexists. split; [exists nid; rewrite Z.eqb_refl; split; [reflexivity|exact R3]|]. split; [reflexivity|]. apply same_place_refl.
    + intros Hr. destruct (Z.eq_dec j c) as [->|Hne].
      * exfalso. apply Hr. split; [|reflexivity]. apply (proj1 (Hsel2 r) (Hall r Hj)).
      * rewrite (proj2 (Z.eqb_neq j c) Hne). split; [|reflexivity]. exists j. split; [reflexivity|]. apply R4; assumption.
Qed.
