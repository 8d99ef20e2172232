(** Proofs about reading and writing blocks of a dataset. *)
From Coq Require Import List ZArith Lia ZifyBool ZifyNat Bool Arith QArith Sorted.
From Verif Require Import Lib.Py Lib.Np Lib.Sorting Lib.Slice Lib.Cube Model.Tools Model.Hdf5
  Spec.ToolsSpec Spec.Hdf5Spec Proofs.ToolsProofs.
Import ListNotations.
Open Scope Z_scope.

(** ** One assignment and sequences of assignments *)
Lemma foldM_cons {A B} (f : A -> B -> result A) x l a :
  foldM f (x :: l) a = (do a' <- f a x; foldM f l a').
Proof.
  unfold foldM. simpl. destruct (f a x) as [a'|e]; simpl; [reflexivity|].
  induction l as [|y l IH]; simpl; auto.
Qed.

Lemma foldM_ext {A B} (f g : A -> B -> result A) l a :
  (forall a x, In x l -> f a x = g a x) -> foldM f l a = foldM g l a.
Proof.
  revert a. induction l as [|x l IH]; intros a H; [reflexivity|].
  rewrite !foldM_cons, H by (left; reflexivity). destruct (g a x); cbn [bind]; [|reflexivity].
  apply IH. intros. apply H. right; assumption.
Qed.

(** a block (destination positions, source positions) that follows [tgt] *)
Definition follows (tgt : nat -> nat) (b : list nat * list nat) : Prop :=
  length (fst b) = length (snd b) /\
  forall p, (p < length (fst b))%nat -> tgt (nth p (fst b) 0%nat) = nth p (snd b) 0%nat.

Definition triple := ((list nat * list nat) * (list nat * list nat) * (list nat * list nat))%type.
Definition covers (t : triple) (i j k : nat) : Prop :=
  let '(b0, b1, b2) := t in In i (fst b0) /\ In j (fst b1) /\ In k (fst b2).

Lemma index_of_in (x : nat) l : In x l -> exists p, index_of Nat.eqb x l = Some p /\ (p < length l)%nat /\ nth p l 0%nat = x.
Proof.
  intros H. destruct (index_of Nat.eqb x l) as [p|] eqn:E.
  - exists p. split; [reflexivity|]. apply (index_of_Some Nat.eqb Nat.eqb_eq 0%nat) in E.
    intuition.
  - apply (index_of_None Nat.eqb Nat.eqb_eq) in E. contradiction.
Qed.

Lemma index_of_notin (x : nat) l : ~ In x l -> index_of Nat.eqb x l = None.
Proof.
  intros H. destruct (index_of Nat.eqb x l) as [p|] eqn:E; [|reflexivity].
  apply (index_of_Some Nat.eqb Nat.eqb_eq 0%nat) in E. destruct E as (? & ? & ?). exfalso. apply H. subst x. apply nth_In. lia.
Qed.

Definition put {A} (src : cube A) (dst : cube A) (t : triple) : result (cube A) :=
  let '(b0, b1, b2) := t in
  assign3 (fst b0, fst b1, fst b2) (length (snd b0), length (snd b1), length (snd b2))
    (take3 (snd b0) (snd b1) (snd b2) src) dst.

Lemma put_spec {A} (src dst : cube A) t0 t1 t2 b0 b1 b2 :
  follows t0 b0 -> follows t1 b1 -> follows t2 b2 ->
  exists dst', put src dst (b0, b1, b2) = Ok dst' /\
    (forall i j k, covers (b0, b1, b2) i j k -> dst' i j k = src (t0 i) (t1 j) (t2 k)) /\
    (forall i j k, ~ covers (b0, b1, b2) i j k -> dst' i j k = dst i j k).
Proof.
  intros (L0 & F0) (L1 & F1) (L2 & F2). unfold put, assign3. rewrite <- L0, <- L1, <- L2.
  rewrite !Nat.eqb_refl. cbn [orb andb]. eexists. split; [reflexivity|]. split.
  - intros i j k (Hi & Hj & Hk).
    destruct (index_of_in i (fst b0) Hi) as (p & Ep & Hp & Np).
    destruct (index_of_in j (fst b1) Hj) as (q & Eq & Hq & Nq).
    destruct (index_of_in k (fst b2) Hk) as (r & Er & Hr & Nr).
    rewrite Ep, Eq, Er. unfold take3.
    assert (G : forall (l : list nat) p, (p < length l)%nat -> (if (length l =? 1)%nat then 0%nat else p) = p).
    { intros l x Hx. destruct (length l =? 1)%nat eqn:E; [|reflexivity]. apply Nat.eqb_eq in E. lia. }
    rewrite !G by assumption. rewrite <- F0, <- F1, <- F2 by assumption. subst. reflexivity.
  - intros i j k Hn. unfold covers in Hn.
    destruct (in_dec Nat.eq_dec i (fst b0)) as [Hi|Hi]; [|rewrite (index_of_notin i) by assumption; reflexivity].
    destruct (in_dec Nat.eq_dec j (fst b1)) as [Hj|Hj];
      [|rewrite (index_of_notin j) by assumption; destruct (index_of Nat.eqb i (fst b0)); reflexivity].
    destruct (in_dec Nat.eq_dec k (fst b2)) as [Hk|Hk]; [tauto|].
    rewrite (index_of_notin k) by assumption; destruct (index_of Nat.eqb i (fst b0)), (index_of Nat.eqb j (fst b1)); reflexivity.
Qed.

Definition follows3 t0 t1 t2 (t : triple) : Prop :=
  let '(b0, b1, b2) := t in follows t0 b0 /\ follows t1 b1 /\ follows t2 b2.

Lemma covers_dec t i j k : {covers t i j k} + {~ covers t i j k}.
Proof.
  destruct t as ((b0, b1), b2). unfold covers.
  destruct (in_dec Nat.eq_dec i (fst b0)), (in_dec Nat.eq_dec j (fst b1)), (in_dec Nat.eq_dec k (fst b2));
    (left; tauto) || (right; tauto).
Qed.

Lemma puts_spec {A} (src : cube A) t0 t1 t2 ts : forall dst,
  Forall (follows3 t0 t1 t2) ts ->
  exists dst', foldM (put src) ts dst = Ok dst' /\
    (forall i j k, (exists t, In t ts /\ covers t i j k) -> dst' i j k = src (t0 i) (t1 j) (t2 k)) /\
    (forall i j k, ~ (exists t, In t ts /\ covers t i j k) -> dst' i j k = dst i j k).
Proof.
  induction ts as [|t ts IH]; intros dst H.
  - exists dst. split; [reflexivity|]. split; [intros i j k (t & [] & _)|reflexivity].
  - inversion H as [|? ? Ht Hts]; subst. destruct t as ((b0, b1), b2). destruct Ht as (? & ? & ?).
    destruct (put_spec src dst t0 t1 t2 b0 b1 b2) as (d1 & E1 & C1 & N1); auto.
    destruct (IH d1 Hts) as (d2 & E2 & C2 & N2).
    exists d2. rewrite foldM_cons, E1. cbn [bind]. split; [exact E2|].
    assert (Dec : forall i j k, {exists t, In t ts /\ covers t i j k} + {~ exists t, In t ts /\ covers t i j k}).
    { intros i j k. destruct (Exists_dec (fun t => covers t i j k) ts) as [X|X].
      - intros t. apply covers_dec.
      - left. apply Exists_exists in X. exact X.
      - right. intros Y. apply X. apply Exists_exists. exact Y. }
    split.
    + intros i j k (t & Hin & Hc). destruct (Dec i j k) as [D|D]; [apply C2; exact D|].
      rewrite N2 by exact D. apply C1. destruct Hin as [<-|Hin]; [exact Hc|]. exfalso. apply D. eauto.
    + intros i j k Hn. rewrite N2.
      * apply N1. intros Hc. apply Hn. eexists; split; [left; reflexivity|exact Hc].
      * intros (t & Hin & Hc). apply Hn. exists t. split; [right; exact Hin|exact Hc].
Qed.

(** ** The blocks of one axis *)
(** consecutive stretches of [seq 0 (length P)] paired with the stretches of [P] *)
Definition parts (P : list nat) (DS : list (list nat * list nat)) : Prop :=
  concat (map fst DS) = seq 0 (length P) /\ concat (map snd DS) = P /\
  Forall (fun ds => length (fst ds) = length (snd ds)) DS.

Lemma parts_nth P DS D S p : parts P DS -> In (D, S) DS -> (p < length D)%nat ->
  exists g, (g < length P)%nat /\ nth p D 0%nat = g /\ nth p S 0%nat = nth g P 0%nat.
Proof.
  intros (HD & HS & HL) Hin Hp. apply in_split in Hin. destruct Hin as (l1 & l2 & ->).
  rewrite map_app, concat_app in HD, HS. cbn [map fst snd concat] in HD, HS.
  apply Forall_app in HL. destruct HL as (HL1 & HL2). inversion HL2 as [|? ? E _]; subst. cbn [fst snd] in E.
  set (A := concat (map fst l1)) in *. set (A' := concat (map snd l1)) in *.
  set (B := concat (map fst l2)) in *. set (B' := concat (map snd l2)) in *.
  assert (EA : length A = length A').
  { subst A A'. clear -HL1. induction HL1 as [|x l Hx _ IH]; [reflexivity|]. simpl. rewrite !app_length. lia. }
  exists (length A + p)%nat.
  assert (Lt : (length A + p < length (A' ++ S ++ B'))%nat) by (rewrite !app_length; lia).
  split; [exact Lt|]. split.
  - assert (E1 : nth (length A + p) (A ++ D ++ B) 0%nat = nth p D 0%nat).
    { rewrite app_nth2 by lia. rewrite app_nth1 by lia. f_equal. lia. }
    rewrite HD in E1. rewrite seq_nth in E1 by exact Lt. lia.
  - rewrite app_nth2 by lia. rewrite app_nth1 by lia. f_equal. lia.
Qed.

Lemma parts_follow_read P DS : parts P DS -> Forall (follows (fun i => nth i P 0%nat)) DS.
Proof.
  intros H. apply Forall_forall. intros (D, S) Hin. split.
  - destruct H as (_ & _ & HL). rewrite Forall_forall in HL. apply (HL _ Hin).
  - intros p Hp. cbn [fst snd] in *. destruct (parts_nth P DS D S p H Hin Hp) as (g & Hg & E1 & E2).
    rewrite E1, E2. reflexivity.
Qed.

Definition rank (P : list nat) (c : nat) : nat := match index_of Nat.eqb c P with Some p => p | None => 0%nat end.

Lemma rank_nth P g : NoDup P -> (g < length P)%nat -> rank P (nth g P 0%nat) = g.
Proof.
  intros ND Hg. unfold rank. destruct (index_of_in (nth g P 0%nat) P) as (p & E & Hp & Np); [apply nth_In; exact Hg|].
  rewrite E. apply (proj1 (NoDup_nth P 0%nat) ND); assumption.
Qed.

Definition swap {A B} (x : A * B) : B * A := (snd x, fst x).

Lemma parts_follow_write P DS : NoDup P -> parts P DS -> Forall (fun ds => follows (rank P) (swap ds)) DS.
Proof.
  intros ND H. apply Forall_forall. intros (D, S) Hin. unfold swap. cbn [fst snd].
  assert (E : length D = length S).
  { destruct H as (_ & _ & HL). rewrite Forall_forall in HL. apply (HL _ Hin). }
  split; cbn [fst snd]; [auto|].
  intros p Hp. destruct (parts_nth P DS D S p H Hin) as (g & Hg & E1 & E2); [lia|].
  rewrite E1, E2. apply rank_nth; assumption.
Qed.

Lemma parts_cover_read P DS i : parts P DS -> (i < length P)%nat -> exists ds, In ds DS /\ In i (fst ds).
Proof.
  intros (HD & _ & _) Hi. assert (Hin : In i (concat (map fst DS))) by (rewrite HD; apply in_seq; lia).
  apply in_concat in Hin. destruct Hin as (l & Hl & Hin). apply in_map_iff in Hl. destruct Hl as (ds & <- & ?). eauto.
Qed.

Lemma parts_cover_write P DS c : parts P DS -> (In c P <-> exists ds, In ds DS /\ In c (snd ds)).
Proof.
  intros (_ & HS & _). rewrite <- HS at 1. rewrite in_concat. split.
  - intros (l & Hl & Hin). apply in_map_iff in Hl. destruct Hl as (ds & <- & ?). eauto.
  - intros (ds & Hin & Hc). exists (snd ds). split; [apply in_map; exact Hin|exact Hc].
Qed.

Definition posn (l : list Z) : list nat := map Z.to_nat l.
Lemma posn_length l : length (posn l) = length l. Proof. apply map_length. Qed.
Lemma posn_nth l i : nth i (posn l) 0%nat = at_pos l i.
Proof. unfold posn, at_pos. change 0%nat with (Z.to_nat 0) at 1. apply map_nth. Qed.

Definition realises (a n : Z) (x : slice * axis_sel) (ds : list nat * list nat) : Prop :=
  slice_positions a (fst x) = Ok (fst ds) /\ block_positions n (snd x) = Ok (snd ds).

Lemma slice_full n : 0 <= n -> slice_positions n (mkslice None None None) = Ok (seq 0 (Z.to_nat n)).
Proof.
  intros H. unfold slice_positions, slice_indices. cbn [s_start s_stop s_step].
  change (1 =? 0) with false. change (1 <? 0) with false. cbv iota. cbn [bind]. f_equal.
  unfold py_range, range_len. change (1 >? 0) with true. cbv iota.
  assert (E : (if 0 <? n then Z.to_nat ((n - 0 - 1) / 1 + 1) else 0%nat) = Z.to_nat n).
  { destruct (0 <? n) eqn:E; [|lia]. rewrite Z.div_1_r. lia. }
  rewrite E. unfold arith. rewrite map_map. rewrite <- (map_id (seq 0 (Z.to_nat n))) at 2.
  apply map_ext. intros. lia.
Qed.

Lemma slice_stretch (a acc m : nat) : (acc + m <= a)%nat ->
  slice_positions (Z.of_nat a) (mkslice (Some (Z.of_nat acc)) (Some (Z.of_nat acc + Z.of_nat m)) None) = Ok (seq acc m).
Proof.
  intros H. unfold slice_positions, slice_indices. cbn [s_start s_stop s_step].
  change (1 =? 0) with false. change (1 <? 0) with false. cbv iota zeta.
  replace (Z.of_nat acc <? 0) with false by lia. cbv iota.
  replace (Z.of_nat acc <? 0) with false by lia. replace (Z.of_nat acc >? Z.of_nat a) with false by lia.
  replace (Z.of_nat acc + Z.of_nat m <? 0) with false by lia. cbv iota.
  replace (Z.of_nat acc + Z.of_nat m <? 0) with false by lia.
  replace (Z.of_nat acc + Z.of_nat m >? Z.of_nat a) with false by lia.
  cbn [bind]. f_equal. unfold py_range, range_len. change (1 >? 0) with true. cbv iota.
  assert (E : (if Z.of_nat acc <? Z.of_nat acc + Z.of_nat m
     then Z.to_nat ((Z.of_nat acc + Z.of_nat m - Z.of_nat acc - 1) / 1 + 1) else 0%nat) = m).
  { destruct (Z.of_nat acc <? Z.of_nat acc + Z.of_nat m) eqn:E; [|lia]. rewrite Z.div_1_r. lia. }
  rewrite E. unfold arith. rewrite map_map. transitivity (seq (acc + 0)%nat m); [|f_equal; lia].
  generalize 0%nat. clear. induction m as [|m IH]; intros s; [reflexivity|].
  cbn [seq map]. f_equal; [lia|]. rewrite IH. f_equal. lia.
Qed.

Lemma list_positions_in n l : Forall (fun i => 0 <= i < n) l -> list_positions n l = Ok (posn l).
Proof.
  intros H. unfold list_positions. induction H as [|x l Hx Hl IH]; [reflexivity|].
  cbn [mapM]. unfold norm_index at 1. rewrite Z2Nat.id by lia.
  replace (0 <=? x) with true by lia. replace (x <? n) with true by lia. cbn [andb bind]. rewrite IH. reflexivity.
Qed.

Lemma selects_nonempty n sel l : selects n sel l -> l <> [].
Proof.
  intros H. inversion H; subst; try assumption; try discriminate.
  - destruct H0 as (_ & _ & _ & _ & ?). assumption.
  - inversion H1; subst; [contradiction|]. destruct H2 as (_ & _ & _ & _ & Hy). simpl. destruct y; [contradiction|discriminate].
Qed.

Lemma parts_one P : parts P [(seq 0 (length P), P)].
Proof. unfold parts. simpl. rewrite !app_nil_r. repeat split. constructor; [|constructor]. simpl. apply seq_length. Qed.

Lemma ssums_parts a n ss ls : forall acc,
  Forall2 (plain_slice n) ss ls -> (acc + length (concat ls) <= a)%nat ->
  exists DS, Forall2 (realises (Z.of_nat a) n)
      (combine (ssums (Z.of_nat acc) (map (fun l => Z.of_nat (length l)) ls)) (map ASlice ss)) DS /\
    concat (map fst DS) = seq acc (length (concat ls)) /\ concat (map snd DS) = posn (concat ls) /\
    Forall (fun ds => length (fst ds) = length (snd ds)) DS.
Proof.
  intros acc H. revert acc. induction H as [|s l ss ls Hs _ IH]; intros acc Ha.
  - exists []. repeat split; constructor.
  - cbn [concat] in *. rewrite app_length in *. destruct (IH (acc + length l)%nat) as (DS & H1 & H2 & H3 & H4); [lia|].
    exists ((seq acc (length l), posn l) :: DS). cbn [map ssums combine].
    split; [constructor|].
    + split; cbn [fst snd]; [apply slice_stretch; lia|].
      unfold block_positions, slice_positions. destruct Hs as (_ & _ & _ & E & _). rewrite E. reflexivity.
    + replace (Z.of_nat acc + Z.of_nat (length l)) with (Z.of_nat (acc + length l)) by lia. exact H1.
    + cbn [map concat fst snd]. rewrite H2, H3. split; [symmetry; apply seq_app|].
      split; [unfold posn; rewrite map_app; reflexivity|].
      constructor; [cbn [fst snd]; rewrite seq_length, posn_length; reflexivity|exact H4].
Qed.

Lemma sumZ_lengths (ls : list (list Z)) : sumZ (map (fun l => Z.of_nat (length l)) ls) = Z.of_nat (length (concat ls)).
Proof. induction ls as [|l ls IH]; [reflexivity|]. cbn [map concat sumZ fold_right]. fold (sumZ (map (fun l => Z.of_nat (length l)) ls)). rewrite IH, app_length. lia. Qed.

Lemma plain_len n s l : 0 <= n -> plain_slice n s l -> get_slice_len s n = Ok (Z.of_nat (length l)).
Proof. intros Hn (H1 & H2 & H3 & H4 & H5). apply get_slice_len_correct; assumption. Qed.

Lemma plain_lens n ss ls : 0 <= n -> Forall2 (plain_slice n) ss ls ->
  mapM (fun s => get_slice_len s n) ss = Ok (map (fun l => Z.of_nat (length l)) ls).
Proof.
  intros Hn H. induction H as [|s l ss ls Hs _ IH]; [reflexivity|].
  cbn [mapM map]. rewrite (plain_len n s l) by assumption. cbn [bind]. rewrite IH. reflexivity.
Qed.

Lemma axis_blocks n sel l : 0 <= n -> selects n sel l ->
  sel_len n sel = Ok (Z.of_nat (length l)) /\
  exists bs DS, sel_blocks n sel = Ok bs /\ Forall2 (realises (Z.of_nat (length l)) n) bs DS /\ parts (posn l) DS.
Proof.
  intros Hn H. pose proof (selects_nonempty n sel l H) as Hne.
  assert (Full : slice_positions (Z.of_nat (length l)) (mkslice None None None) = Ok (seq 0 (length (posn l)))).
  { rewrite slice_full by lia. rewrite posn_length. do 2 f_equal. lia. }
  inversion H as [i Hi|s l' Hs|l' Hl' Hinc|ss ls Hss HF]; subst.
  - split; [reflexivity|]. eexists. exists [(seq 0 (length (posn [i])), posn [i])].
    split; [reflexivity|]. split; [|apply parts_one]. constructor; [|constructor]. split; cbn [fst snd]; [exact Full|].
    apply list_positions_in. constructor; [lia|constructor].
  - split; [apply plain_len; assumption|]. eexists. exists [(seq 0 (length (posn l)), posn l)].
    split; [reflexivity|]. split; [|apply parts_one]. constructor; [|constructor]. split; cbn [fst snd]; [exact Full|].
    unfold block_positions, slice_positions. destruct Hs as (_ & _ & _ & E & _). rewrite E. reflexivity.
  - destruct l as [|x l]; [contradiction|]. split; [reflexivity|].
    eexists. exists [(seq 0 (length (posn (x :: l))), posn (x :: l))].
    split; [reflexivity|]. split; [|apply parts_one]. constructor; [|constructor]. split; cbn [fst snd]; [exact Full|].
    apply list_positions_in. apply (proj2 Hinc).
  - destruct ss as [|s ss]; [contradiction|]. unfold sel_len, sel_blocks.
    rewrite (plain_lens n (s :: ss) ls) by assumption. cbn [bind]. rewrite sumZ_lengths. split; [reflexivity|].
    destruct (ssums_parts (length (concat ls)) n (s :: ss) ls 0 HF) as (DS & H1 & H2 & H3 & H4); [lia|].
    eexists. exists DS. split; [reflexivity|]. split; [exact H1|].
    unfold parts. rewrite posn_length. repeat split; assumption.
Qed.

(** ** Products of blocks *)
Lemma block_product_In {A} (b0 b1 b2 : list A) x y z :
  In (x, y, z) (block_product b0 b1 b2) <-> In x b0 /\ In y b1 /\ In z b2.
Proof.
  unfold block_product. rewrite in_flat_map. split.
  - intros (y' & Hy & H). apply in_flat_map in H. destruct H as (x' & Hx & H).
    apply in_map_iff in H. destruct H as (z' & E & Hz). injection E as -> -> ->. tauto.
  - intros (Hx & Hy & Hz). exists y. split; [assumption|]. apply in_flat_map. exists x. split; [assumption|].
    apply in_map_iff. exists z. tauto.
Qed.

Lemma Forall2_app_intro {A B} (R : A -> B -> Prop) l1 l1' l2 l2' :
  Forall2 R l1 l1' -> Forall2 R l2 l2' -> Forall2 R (l1 ++ l2) (l1' ++ l2').
Proof. intros H1 H2. induction H1; simpl; [assumption|constructor; assumption]. Qed.

Definition rel3 {A B} (R0 R1 R2 : A -> B -> Prop) (x : A * A * A) (y : B * B * B) : Prop :=
  let '(x0, x1, x2) := x in let '(y0, y1, y2) := y in R0 x0 y0 /\ R1 x1 y1 /\ R2 x2 y2.

Lemma Forall2_flat_map {A B C D} (R : A -> B -> Prop) (S : C -> D -> Prop) f g l l' :
  Forall2 R l l' -> (forall a b, R a b -> Forall2 S (f a) (g b)) -> Forall2 S (flat_map f l) (flat_map g l').
Proof. intros H Hf. induction H; simpl; [constructor|]. apply Forall2_app_intro; auto. Qed.

Lemma Forall2_map2 {A B C D} (R : A -> B -> Prop) (S : C -> D -> Prop) (f : A -> C) (g : B -> D) l l' :
  Forall2 R l l' -> (forall a b, R a b -> S (f a) (g b)) -> Forall2 S (map f l) (map g l').
Proof. intros H Hf. induction H; simpl; constructor; auto. Qed.

Lemma block_product_rel {A B} (R0 R1 R2 : A -> B -> Prop) a0 a1 a2 b0 b1 b2 :
  Forall2 R0 a0 b0 -> Forall2 R1 a1 b1 -> Forall2 R2 a2 b2 ->
  Forall2 (rel3 R0 R1 R2) (block_product a0 a1 a2) (block_product b0 b1 b2).
Proof.
  intros H0 H1 H2. unfold block_product.
  eapply Forall2_flat_map; [exact H1|]. intros y y' Hy. eapply Forall2_flat_map; [exact H0|]. intros x x' Hx.
  eapply Forall2_map2; [exact H2|]. intros z z' Hz. simpl. tauto.
Qed.

Lemma foldM_rel {A B C} (f : A -> B -> result A) (g : A -> C -> result A) l l' a :
  Forall2 (fun x y => forall a, f a x = g a y) l l' -> foldM f l a = foldM g l' a.
Proof.
  intros H. revert a. induction H as [|x y l l' E _ IH]; intros a; [reflexivity|].
  rewrite !foldM_cons, E. destruct (g a y); cbn [bind]; auto.
Qed.

Definition swap3 (t : triple) : triple := let '(a, b, c) := t in (swap a, swap b, swap c).

Lemma Forall2_impl {A B} (R S : A -> B -> Prop) l l' : (forall a b, R a b -> S a b) -> Forall2 R l l' -> Forall2 S l l'.
Proof. intros H HF. induction HF; constructor; auto. Qed.

Lemma Forall2_map_r {A B C} (R : A -> B -> Prop) (g : C -> B) l l' : Forall2 (fun a c => R a (g c)) l l' -> Forall2 R l (map g l').
Proof. intros HF. induction HF; simpl; constructor; auto. Qed.

(** ** Reading and writing *)
Lemma read_dset_correct {A} (fill : cube A) n0 n1 n2 dset s0 s1 s2 l0 l1 l2 :
  0 <= n0 -> 0 <= n1 -> 0 <= n2 ->
  selects n0 s0 l0 -> selects n1 s1 l1 -> selects n2 s2 l2 -> one_list s0 s1 s2 ->
  exists arr, read_dset fill (n0, n1, n2) dset (s0, s1, s2) = Ok (lengths l0 l1 l2, arr) /\ is_block dset l0 l1 l2 arr.
Proof.
  intros Hn0 Hn1 Hn2 H0 H1 H2 Hone.
  destruct (axis_blocks n0 s0 l0 Hn0 H0) as (E0 & bs0 & DS0 & B0 & R0 & P0).
  destruct (axis_blocks n1 s1 l1 Hn1 H1) as (E1 & bs1 & DS1 & B1 & R1 & P1).
  destruct (axis_blocks n2 s2 l2 Hn2 H2) as (E2 & bs2 & DS2 & B2 & R2 & P2).
  destruct (puts_spec dset (fun i => nth i (posn l0) 0%nat) (fun i => nth i (posn l1) 0%nat) (fun i => nth i (posn l2) 0%nat)
    (block_product DS0 DS1 DS2) fill) as (arr & EF & HC & _).
  { apply Forall_forall. intros ((x, y), z) Hin. apply block_product_In in Hin. destruct Hin as (Hx & Hy & Hz).
    apply parts_follow_read in P0. apply parts_follow_read in P1. apply parts_follow_read in P2.
    rewrite Forall_forall in P0, P1, P2. split; [apply P0|split; [apply P1|apply P2]]; assumption. }
  exists arr. split.
  - unfold read_dset. rewrite E0, E1, E2. cbn [bind].
    replace (Z.of_nat (length l0) <? 0) with false by lia. replace (Z.of_nat (length l1) <? 0) with false by lia.
    replace (Z.of_nat (length l2) <? 0) with false by lia. cbn [orb]. rewrite B0, B1, B2. cbn [bind].
    unfold one_list in Hone. replace (1 <? length (filter is_list [s0; s1; s2]))%nat with false by lia.
    match goal with |- (do arr <- ?X; _) = _ => replace X with (Ok arr) end; [reflexivity|].
    rewrite <- EF. symmetry. apply foldM_rel.
    eapply Forall2_impl; [|exact (block_product_rel _ _ _ _ _ _ _ _ _ R0 R1 R2)].
    intros ((x, y), z) ((u, v), w) ((X1 & X2) & (Y1 & Y2) & (Z1 & Z2)) a.
    rewrite X1, X2, Y1, Y2, Z1, Z2. reflexivity.
  - intros i j k Hi Hj Hk. rewrite HC, !posn_nth; [reflexivity|].
    destruct (parts_cover_read _ _ i P0) as (d0 & Hd0 & Hc0); [rewrite posn_length; assumption|].
    destruct (parts_cover_read _ _ j P1) as (d1 & Hd1 & Hc1); [rewrite posn_length; assumption|].
    destruct (parts_cover_read _ _ k P2) as (d2 & Hd2 & Hc2); [rewrite posn_length; assumption|].
    exists (d0, d1, d2). split; [apply block_product_In; tauto|simpl; tauto].
Qed.

Lemma selects_bounds n sel l : 0 <= n -> selects n sel l -> Forall (fun i => 0 <= i < n) l.
Proof.
  intros Hn H.
  assert (G : forall s l, plain_slice n s l -> Forall (fun i => 0 <= i < n) l).
  { intros s l' (H1 & H2 & H3 & H4 & H5). unfold slice_indices in H4.
    set (step := match s_step s with Some k => k | None => 1 end) in *.
    assert (Hst : 0 < step) by (unfold step; destruct (s_step s); lia).
    replace (step =? 0) with false in H4 by lia. replace (step <? 0) with false in H4 by lia.
    cbv zeta in H4. injection H4 as <-.
    match goal with |- Forall _ (py_range ?a ?b _) => set (st := a); set (en := b) end.
    assert (Hs : 0 <= st) by (unfold st; destruct (s_start s); [repeat match goal with |- context[if ?c then _ else _] => destruct c eqn:? end; lia|lia]).
    assert (He : en <= n) by (unfold en; destruct (s_stop s); [repeat match goal with |- context[if ?c then _ else _] => destruct c eqn:? end; lia|lia]).
    unfold py_range, arith. apply Forall_forall. intros x Hx. apply in_map_iff in Hx. destruct Hx as (k & <- & Hk).
    apply in_seq in Hk. unfold range_len in Hk. replace (step >? 0) with true in Hk by lia.
    destruct (st <? en) eqn:E; [|lia].
    assert (Hq : Z.of_nat k <= (en - st - 1) / step) by (pose proof (Z.div_pos (en - st - 1) step); lia).
    pose proof (Z.mul_div_le (en - st - 1) step Hst). nia. }
  inversion H; subst.
  - repeat constructor; lia.
  - eapply G; eassumption.
  - apply (proj2 H1).
  - clear H H0. induction H1; simpl; [constructor|]. apply Forall_app. split; [eapply G; eassumption|assumption].
Qed.

Lemma posn_NoDup n l : Forall (fun i => 0 <= i < n) l -> NoDup l -> NoDup (posn l).
Proof.
  intros Hb ND. unfold posn. induction ND as [|x l Hx ND IH]; [constructor|]. inversion Hb; subst.
  simpl. constructor; [|apply IH; assumption]. intros Hin. apply in_map_iff in Hin. destruct Hin as (y & E & Hy).
  rewrite Forall_forall in H2. specialize (H2 y Hy). assert (x = y) by lia. subst. contradiction.
Qed.

Lemma posn_In n l c : Forall (fun i => 0 <= i < n) l -> In c (posn l) <-> In (Z.of_nat c) l.
Proof.
  intros Hb. rewrite Forall_forall in Hb. unfold posn. rewrite in_map_iff. split.
  - intros (x & <- & Hx). specialize (Hb x Hx). rewrite Z2Nat.id by lia. exact Hx.
  - intros H. exists (Z.of_nat c). split; [lia|exact H].
Qed.

(** generic: assignments following the parts of each axis perform the update *)
Lemma writes_update {A} (arr dset : cube A) n0 n1 n2 l0 l1 l2 DS0 DS1 DS2 (ts : list triple) :
  Forall (fun i => 0 <= i < n0) l0 -> Forall (fun i => 0 <= i < n1) l1 -> Forall (fun i => 0 <= i < n2) l2 ->
  NoDup l0 -> NoDup l1 -> NoDup l2 ->
  parts (posn l0) DS0 -> parts (posn l1) DS1 -> parts (posn l2) DS2 ->
  (forall x y z, In (x, y, z) ts <-> In x DS0 /\ In y DS1 /\ In z DS2) ->
  exists d', foldM (put arr) (map swap3 ts) dset = Ok d' /\ is_update dset l0 l1 l2 arr d'.
Proof.
  intros Hb0 Hb1 Hb2 N0 N1 N2 P0 P1 P2 Hts.
  pose proof (posn_NoDup _ _ Hb0 N0) as M0. pose proof (posn_NoDup _ _ Hb1 N1) as M1. pose proof (posn_NoDup _ _ Hb2 N2) as M2.
  destruct (puts_spec arr (rank (posn l0)) (rank (posn l1)) (rank (posn l2)) (map swap3 ts) dset) as (d' & E & HC & HN).
  { apply Forall_forall. intros t Hin. apply in_map_iff in Hin. destruct Hin as (((x, y), z) & <- & Hin).
    apply Hts in Hin. destruct Hin as (Hx & Hy & Hz).
    pose proof (parts_follow_write _ _ M0 P0) as Q0. pose proof (parts_follow_write _ _ M1 P1) as Q1. pose proof (parts_follow_write _ _ M2 P2) as Q2.
    rewrite Forall_forall in Q0, Q1, Q2. split; [apply Q0|split; [apply Q1|apply Q2]]; assumption. }
  assert (Cov : forall i j k, (exists t, In t (map swap3 ts) /\ covers t i j k) <->
      (In (Z.of_nat i) l0 /\ In (Z.of_nat j) l1 /\ In (Z.of_nat k) l2)).
  { intros i j k. rewrite <- (posn_In _ _ i Hb0), <- (posn_In _ _ j Hb1), <- (posn_In _ _ k Hb2).
    rewrite (parts_cover_write _ _ i P0), (parts_cover_write _ _ j P1), (parts_cover_write _ _ k P2). split.
    - intros (t & Hin & Hc). apply in_map_iff in Hin. destruct Hin as (((x, y), z) & <- & Hin). apply Hts in Hin.
      simpl in Hc. destruct Hin as (? & ? & ?), Hc as (? & ? & ?). eauto 10.
    - intros ((x & Hx & Cx) & (y & Hy & Cy) & (z & Hz & Cz)). exists (swap3 (x, y, z)).
      split; [apply in_map; apply Hts; tauto|simpl; tauto]. }
  exists d'. split; [exact E|]. split.
  - intros i j k Hi Hj Hk. symmetry.
    assert (G : forall n l i, Forall (fun i => 0 <= i < n) l -> (i < length l)%nat -> In (Z.of_nat (at_pos l i)) l).
    { intros n l q Hb Hq. rewrite Forall_forall in Hb. unfold at_pos.
      assert (In (nth q l 0) l) by (apply nth_In; exact Hq). rewrite Z2Nat.id; [assumption|]. specialize (Hb _ H). lia. }
    rewrite HC; [|apply Cov; split; [eapply G; eassumption|split; eapply G; eassumption]].
    rewrite <- !posn_nth, !rank_nth by (assumption || (rewrite posn_length; assumption)). reflexivity.
  - intros i j k Hn. apply HN. rewrite Cov. exact Hn.
Qed.

Lemma write_dset_correct {A} n0 n1 n2 (dset arr : cube A) s0 s1 s2 l0 l1 l2 :
  0 <= n0 -> 0 <= n1 -> 0 <= n2 ->
  selects n0 s0 l0 -> selects n1 s1 l1 -> selects n2 s2 l2 -> one_list s0 s1 s2 ->
  NoDup l0 -> NoDup l1 -> NoDup l2 ->
  exists d', write_dset (n0, n1, n2) dset (s0, s1, s2) (lengths l0 l1 l2) arr = Ok d' /\ is_update dset l0 l1 l2 arr d'.
Proof.
  intros Hn0 Hn1 Hn2 H0 H1 H2 Hone N0 N1 N2.
  destruct (axis_blocks n0 s0 l0 Hn0 H0) as (E0 & bs0 & DS0 & B0 & R0 & P0).
  destruct (axis_blocks n1 s1 l1 Hn1 H1) as (E1 & bs1 & DS1 & B1 & R1 & P1).
  destruct (axis_blocks n2 s2 l2 Hn2 H2) as (E2 & bs2 & DS2 & B2 & R2 & P2).
  destruct (writes_update arr dset n0 n1 n2 l0 l1 l2 DS0 DS1 DS2 (block_product DS0 DS1 DS2)) as (d' & EF & U);
    try assumption; try (eapply selects_bounds; eassumption).
  { intros. apply block_product_In. }
  exists d'. split; [|exact U].
  unfold write_dset, lengths. rewrite E0, E1, E2. cbn [bind]. rewrite B0, B1, B2. cbn [bind].
  unfold one_list in Hone. replace (1 <? length (filter is_list [s0; s1; s2]))%nat with false by lia.
  rewrite <- EF. apply foldM_rel. apply Forall2_map_r.
  eapply Forall2_impl; [|exact (block_product_rel _ _ _ _ _ _ _ _ _ R0 R1 R2)].
  intros ((x, y), z) ((u, v), w) ((X1 & X2) & (Y1 & Y2) & (Z1 & Z2)) a.
  rewrite X1, X2, Y1, Y2, Z1, Z2. reflexivity.
Qed.

(** ** The slices made from an index list are plain *)
Definition tidy (n : Z) (s : slice) : Prop :=
  exists a b c, s = mk a b c /\ 0 <= a < n /\ a < b /\ match c with None => True | Some d => 0 < d end.

Lemma tidy_plain n s : tidy n s -> exists l, plain_slice n s l.
Proof.
  intros (a & b & c & -> & Ha & Hb & Hc). unfold plain_slice, mk. cbn [s_start s_stop s_step].
  assert (exists l, slice_indices (mkslice (Some a) (Some b) c) n = Ok l /\ l <> []) as (l & E & Hl).
  { unfold slice_indices. cbn [s_start s_stop s_step].
    set (step := match c with Some k => k | None => 1 end).
    assert (Hst : 0 < step) by (unfold step; destruct c; lia).
    replace (step =? 0) with false by lia. replace (step <? 0) with false by lia. cbv zeta.
    replace (a <? 0) with false by lia. cbv iota. replace (a <? 0) with false by lia.
    replace (a >? n) with false by lia.
    replace (b <? 0) with false by lia. cbv iota. replace (b <? 0) with false by lia.
    eexists. split; [reflexivity|]. set (en := if b >? n then n else b).
    assert (He : a < en) by (unfold en; destruct (b >? n) eqn:?; lia).
    unfold py_range, range_len. replace (step >? 0) with true by lia. replace (a <? en) with true by lia.
    pose proof (Z.div_pos (en - a - 1) step).
    destruct (Z.to_nat ((en - a - 1) / step + 1)) eqn:E2; [lia|]. rewrite arith_cons. discriminate. }
  exists l. split; [lia|]. split; [lia|]. split; [destruct c; auto|]. split; assumption.
Qed.

Lemma tidy_all n ss l : Forall (tidy n) ss -> slices_indices ss n = Ok l ->
  exists ls, Forall2 (plain_slice n) ss ls /\ concat ls = l.
Proof.
  intros H. revert l. induction H as [|s ss Hs _ IH]; intros l E.
  - exists []. split; [constructor|]. unfold slices_indices in E. simpl in E. injection E as <-. reflexivity.
  - destruct (tidy_plain n s Hs) as (l1 & P1). unfold slices_indices in E. cbn [mapM] in E.
    pose proof P1 as (_ & _ & _ & E1 & _). rewrite E1 in E. cbn [bind] in E.
    destruct (mapM (fun s => slice_indices s n) ss) as [ll|] eqn:E2; [|discriminate]. cbn [bind] in E.
    injection E as <-. destruct (IH (concat ll)) as (ls & F & C); [unfold slices_indices; rewrite E2; reflexivity|].
    exists (l1 :: ls). split; [constructor; assumption|]. simpl. rewrite C. reflexivity.
Qed.

Lemma cts_fold_tidy n p : increasing_in n p ->
  Forall (tidy n) (c_slices (fold_left cts_step p (mkcts None None 0 []))).
Proof.
  induction p as [|x p IH] using rev_ind; intros [Hs Hb]; [constructor|].
  rewrite fold_left_app. cbn [fold_left].
  apply StronglySorted_app in Hs as (Hs1 & _ & Hlt).
  apply Forall_app in Hb as (Hb1 & Hbx). specialize (IH (conj Hs1 Hb1)).
  destruct p as [|y p']; [simpl; constructor|]. remember (y :: p') as q eqn:Eq.
  assert (Hq : q <> []) by (subst; congruence).
  pose proof (cts_loop_inv n q Hq (conj Hs1 Hb1)) as (done & s & Est & Edone & Hcase).
  remember (fold_left cts_step q (mkcts None None 0 [])) as st eqn:Estate.
  unfold cts_step. rewrite Est.
  destruct (c_last_step st) as [d|] eqn:Els; [|exact IH].
  destruct (x - c_last_ind st =? d) eqn:E; cbn [negb]; [exact IH|].
  cbn [c_slices]. apply Forall_app. split; [exact IH|]. constructor; [|constructor].
  destruct Hcase as (k & Hk & Hd & Hp & Hli).
  exists s, (c_last_ind st + 1), (Some d). split; [reflexivity|].
  assert (Hin : In s q). { rewrite Hp. apply in_or_app. right. destruct k; [lia|]. rewrite arith_cons. left; reflexivity. }
  rewrite Forall_forall in Hb1. apply Hb1 in Hin. rewrite Hli. split; [lia|]. split; [nia|lia].
Qed.

Lemma cts_loop_tidy n l : l <> [] -> increasing_in n l -> Forall (tidy n) (cts_loop l).
Proof.
  intros Hne Hinc. unfold cts_loop.
  pose proof (cts_loop_inv n l Hne Hinc) as (done & s & Est & Edone & Hcase).
  rewrite Est. apply Forall_app. split; [apply cts_fold_tidy; assumption|]. constructor; [|constructor].
  destruct Hinc as [_ Hb]. rewrite Forall_forall in Hb.
  destruct (c_last_step (fold_left cts_step l (mkcts None None 0 []))) as [d|].
  - destruct Hcase as (k & Hk & Hd & Hp & Hli).
    assert (Hlast : last l 0 = s + d * (Z.of_nat k - 1)).
    { rewrite Hp. destruct k; [lia|]. rewrite arith_S, app_assoc, last_app_one. lia. }
    rewrite Hlast. exists s. do 2 eexists. split; [reflexivity|].
    assert (In s l) as H. { rewrite Hp. apply in_or_app. right. destruct k; [lia|]. rewrite arith_cons. left; reflexivity. }
    apply Hb in H. split; [lia|]. split; [nia|lia].
  - assert (Hlast : last l 0 = s) by (rewrite Hcase; apply last_app_one). rewrite Hlast.
    exists s. do 2 eexists. split; [reflexivity|].
    assert (In s l) as H. { rewrite Hcase. apply in_or_app. right. left; reflexivity. }
    apply Hb in H. split; [lia|]. split; [lia|exact I].
Qed.

Definition unslice (ix : axis_index) : slice := match ix with ISlice s => s | _ => mkslice None None None end.

Lemma convert_tidy n l frac : l <> [] -> increasing_in n l ->
  exists ss, fst (convert_to_slices (IList l) frac None false) = map ISlice ss /\ ss <> [] /\
    Forall (tidy n) ss /\ slices_indices ss n = Ok l.
Proof.
  intros Hne Hinc. pose proof (convert_list_correct n l frac None false Hne Hinc) as C.
  assert (exists ss, fst (convert_to_slices (IList l) frac None false) = map ISlice ss /\ Forall (tidy n) ss)
    as (ss & E & T).
  { unfold convert_to_slices. destruct l as [|e0 tl]; [congruence|].
    destruct (length (e0 :: tl) <=? 2)%nat eqn:E2.
    - exists [mk e0 (last (e0 :: tl) 0 + 1) (Some (Z.max (last (e0 :: tl) 0 - e0) 1))]. split; [reflexivity|].
      constructor; [|constructor]. do 3 eexists. split; [reflexivity|].
      destruct Hinc as [Hs Hb]. inversion Hb; subst. split; [lia|].
      assert (e0 <= last (e0 :: tl) 0).
      { destruct tl as [|e1 [|? ?]]; simpl in E2; try lia; simpl; [lia|]. inversion Hs as [|? ? _ Hall]; subst. inversion Hall; subst. lia. }
      split; lia.
    - cbn [andb fst]. exists (cts_loop (e0 :: tl)). split; [reflexivity|]. apply cts_loop_tidy; assumption. }
  exists ss. rewrite E, all_positions_slices in C. split; [exact E|]. split; [|split; assumption].
  intros ->. unfold slices_indices in C. simpl in C. injection C as <-. contradiction.
Qed.

Lemma unslice_map ss : map unslice (map ISlice ss) = ss.
Proof. rewrite map_map. simpl. apply map_id. Qed.

Lemma full_plain n : 0 < n -> plain_slice n (mkslice None None None) (map Z.of_nat (seq 0 (Z.to_nat n))).
Proof.
  intros H. unfold plain_slice. cbn [s_start s_stop s_step]. repeat split; try lia.
  - pose proof (slice_full n ltac:(lia)) as E. unfold slice_positions in E. unfold slice_indices in *. cbn [s_start s_stop s_step] in *.
    change (1 =? 0) with false in *. change (1 <? 0) with false in *. cbv iota zeta in *. cbn [bind] in E.
    injection E as E. f_equal.
    unfold py_range in *. set (k := range_len 0 n 1) in *.
    assert (Hk : k = Z.to_nat n). { rewrite <- (arith_length 0 1 k), <- (map_length Z.to_nat), E. apply seq_length. }
    rewrite Hk. unfold arith. apply map_ext. intros; lia.
  - destruct (Z.to_nat n) eqn:E; [lia|]. discriminate.
Qed.

Lemma plan_selects n inds l frac : 0 < n -> chosen n inds l ->
  selects n (pick (axis_plan frac inds)) l /\
  (snd (axis_plan frac inds) = true -> is_list (pick (axis_plan frac inds)) = false).
Proof.
  intros Hn Hc. unfold chosen in Hc. destruct inds as [l'|].
  - destruct Hc as (-> & Hne & Hinc). unfold axis_plan.
    destruct (convert_tidy n l frac Hne Hinc) as (ss & E & Hss & T & S).
    destruct (convert_to_slices (IList l) frac None false) as (out, ok) eqn:Eo. cbn [fst] in E. subst out.
    unfold pick. fold unslice. rewrite unslice_map. cbn [snd]. destruct ok; split; try reflexivity; try discriminate.
    + destruct (tidy_all n ss l T S) as (ls & F & <-). constructor; assumption.
    + constructor; assumption.
  - subst l. split; [|reflexivity]. constructor. apply full_plain. exact Hn.
Qed.

Lemma full_list n l : increasing_in n l -> (Z.to_nat n <= length l)%nat -> l = map Z.of_nat (seq 0 (Z.to_nat n)).
Proof.
  intros [Hs Hb] Hl. apply (sorted_unique Z.lt).
  - intros x y; lia.
  - intros x y z; lia.
  - exact Hs.
  - apply (proj1 (StronglySorted_map Z.lt Z.of_nat _)). eapply StronglySorted_impl; [|apply seq_sorted]. intros; lia.
  - intros x. assert (I : incl l (map Z.of_nat (seq 0 (Z.to_nat n)))).
    { intros y Hy. rewrite Forall_forall in Hb. apply Hb in Hy. apply in_map_iff. exists (Z.to_nat y). split; [lia|].
      apply in_seq. lia. }
    split; [apply I|]. apply (NoDup_length_incl (StronglySorted_Zlt_NoDup _ Hs)); [|exact I].
    rewrite map_length, seq_length. exact Hl.
Qed.

Lemma frac_le_1 n inds l : 0 < n -> chosen n inds l -> Qle_bool 1 (axis_frac inds n) = true ->
  l = map Z.of_nat (seq 0 (Z.to_nat n)).
Proof.
  intros Hn Hc E. destruct inds as [l'|]; [|exact Hc]. destruct Hc as (-> & _ & Hinc).
  apply full_list; [exact Hinc|]. unfold axis_frac in E. apply Qle_bool_iff in E. unfold Qle in E. simpl in E. lia.
Qed.

Lemma chosen_bounds n inds l : 0 < n -> chosen n inds l -> Forall (fun i => 0 <= i < n) l.
Proof.
  intros Hn H. destruct inds as [l'|].
  - destruct H as (-> & _ & _ & Hb). exact Hb.
  - simpl in H. subst l. apply Forall_forall. intros x Hx. apply in_map_iff in Hx. destruct Hx as (k & <- & Hk).
    apply in_seq in Hk. lia.
Qed.

Lemma Qeq_1_le q : Qeq_bool q 1 = true -> Qle_bool 1 q = true.
Proof. intros H. apply Qeq_bool_iff in H. apply Qle_bool_iff. rewrite H. apply Qle_refl. Qed.

Lemma Qeq_le3 a b c : let qmin2 x y := if Qle_bool x y then x else y in
  Qeq_bool (qmin2 (qmin2 a b) c) 1 = true -> Qle_bool 1 a = true /\ Qle_bool 1 b = true /\ Qle_bool 1 c = true.
Proof.
  intros m H. apply Qeq_bool_iff in H. rewrite !Qle_bool_iff.
  assert (M : forall x y, (m x y <= x)%Q /\ (m x y <= y)%Q).
  { intros x y. unfold m. destruct (Qle_bool x y) eqn:E.
    - apply Qle_bool_iff in E. split; [apply Qle_refl|exact E].
    - split; [|apply Qle_refl]. destruct (Qlt_le_dec x y) as [L|L]; [|exact L].
      apply Qlt_le_weak in L. apply Qle_bool_iff in L. congruence. }
  pose proof (M a b). pose proof (M (m a b) c). rewrite <- H. intuition (eauto using Qle_trans).
Qed.

Lemma block_down0 {A} (c arr : cube A) n l0 l1 l2 : Forall (fun i => 0 <= i < n) l0 ->
  is_block c (map Z.of_nat (seq 0 (Z.to_nat n))) l1 l2 arr -> is_block c l0 l1 l2 (take0 (map Z.to_nat l0) arr).
Proof.
  intros Hb H i j k Hi Hj Hk. unfold take0. fold (posn l0). rewrite posn_nth.
  assert (Hin : In (nth i l0 0) l0) by (apply nth_In; exact Hi). rewrite Forall_forall in Hb. apply Hb in Hin.
  unfold is_block in H. rewrite map_length, seq_length in H. rewrite H by (assumption || (unfold at_pos; lia)).
  f_equal. unfold at_pos at 1. rewrite (nth_map Z.of_nat _ _ 0%nat) by (rewrite seq_length; unfold at_pos; lia).
  rewrite seq_nth by (unfold at_pos; lia). lia.
Qed.
Lemma block_down1 {A} (c arr : cube A) n l0 l1 l2 : Forall (fun i => 0 <= i < n) l1 ->
  is_block c l0 (map Z.of_nat (seq 0 (Z.to_nat n))) l2 arr -> is_block c l0 l1 l2 (take1 (map Z.to_nat l1) arr).
Proof.
  intros Hb H i j k Hi Hj Hk. unfold take1. fold (posn l1). rewrite posn_nth.
  assert (Hin : In (nth j l1 0) l1) by (apply nth_In; exact Hj). rewrite Forall_forall in Hb. apply Hb in Hin.
  unfold is_block in H. rewrite map_length, seq_length in H. rewrite H by (assumption || (unfold at_pos; lia)).
  f_equal. unfold at_pos at 1. rewrite (nth_map Z.of_nat _ _ 0%nat) by (rewrite seq_length; unfold at_pos; lia).
  rewrite seq_nth by (unfold at_pos; lia). lia.
Qed.
Lemma block_down2 {A} (c arr : cube A) n l0 l1 l2 : Forall (fun i => 0 <= i < n) l2 ->
  is_block c l0 l1 (map Z.of_nat (seq 0 (Z.to_nat n))) arr -> is_block c l0 l1 l2 (take2 (map Z.to_nat l2) arr).
Proof.
  intros Hb H i j k Hi Hj Hk. unfold take2. fold (posn l2). rewrite posn_nth.
  assert (Hin : In (nth k l2 0) l2) by (apply nth_In; exact Hk). rewrite Forall_forall in Hb. apply Hb in Hin.
  unfold is_block in H. rewrite map_length, seq_length in H. rewrite H by (assumption || (unfold at_pos; lia)).
  f_equal. unfold at_pos at 1. rewrite (nth_map Z.of_nat _ _ 0%nat) by (rewrite seq_length; unfold at_pos; lia).
  rewrite seq_nth by (unfold at_pos; lia). lia.
Qed.

Definition whole (n : Z) : list Z := map Z.of_nat (seq 0 (Z.to_nat n)).

Lemma down_select0 {A} (c arr : cube A) n inds l0 l1 l2 : 0 < n -> chosen n inds l0 ->
  is_block c (whole n) l1 l2 arr ->
  exists arr', down_select false (axis_frac inds n) inds 0 (lengths (whole n) l1 l2, arr) = (lengths l0 l1 l2, arr') /\
    is_block c l0 l1 l2 arr'.
Proof.
  intros Hn C HB. unfold down_select. cbn [negb andb].
  destruct (Qle_bool 1 (axis_frac inds n)) eqn:EF; cbn [negb].
  - rewrite (frac_le_1 n inds l0 Hn C EF). exists arr. auto.
  - destruct inds as [l|]; [|simpl in EF; discriminate]. pose proof (chosen_bounds n (Some l) l0 Hn C) as B. destruct C as (-> & _).
    eexists. split; [reflexivity|]. apply (block_down0 c arr n); assumption.
Qed.

Lemma down_select1 {A} (c arr : cube A) n inds l0 l1 l2 : 0 < n -> chosen n inds l1 ->
  is_block c l0 (whole n) l2 arr ->
  exists arr', down_select false (axis_frac inds n) inds 1 (lengths l0 (whole n) l2, arr) = (lengths l0 l1 l2, arr') /\
    is_block c l0 l1 l2 arr'.
Proof.
  intros Hn C HB. unfold down_select. cbn [negb andb].
  destruct (Qle_bool 1 (axis_frac inds n)) eqn:EF; cbn [negb].
  - rewrite (frac_le_1 n inds l1 Hn C EF). exists arr. auto.
  - destruct inds as [l|]; [|simpl in EF; discriminate]. pose proof (chosen_bounds n (Some l) l1 Hn C) as B. destruct C as (-> & _).
    eexists. split; [reflexivity|]. apply (block_down1 c arr n); assumption.
Qed.

Lemma down_select2 {A} (c arr : cube A) n inds l0 l1 l2 : 0 < n -> chosen n inds l2 ->
  is_block c l0 l1 (whole n) arr ->
  exists arr', down_select false (axis_frac inds n) inds 2 (lengths l0 l1 (whole n), arr) = (lengths l0 l1 l2, arr') /\
    is_block c l0 l1 l2 arr'.
Proof.
  intros Hn C HB. unfold down_select. cbn [negb andb].
  destruct (Qle_bool 1 (axis_frac inds n)) eqn:EF; cbn [negb].
  - rewrite (frac_le_1 n inds l2 Hn C EF). exists arr. auto.
  - destruct inds as [l|]; [|simpl in EF; discriminate]. pose proof (chosen_bounds n (Some l) l2 Hn C) as B. destruct C as (-> & _).
    eexists. split; [reflexivity|]. apply (block_down2 c arr n); assumption.
Qed.

Lemma down_multi {A} frac inds ax (r : shape3 * cube A) : down_select true frac inds ax r = r.
Proof. reflexivity. Qed.

Lemma read_selected_correct {A} (fill : cube A) n0 n1 n2 dset b f p multidim l0 l1 l2 :
  0 < n0 -> 0 < n1 -> 0 < n2 ->
  chosen n0 b l0 -> chosen n1 f l1 -> chosen n2 p l2 ->
  exists arr, read_selected fill (n0, n1, n2) dset b f p multidim = Ok (lengths l0 l1 l2, arr) /\ is_block dset l0 l1 l2 arr.
Proof.
  intros Hn0 Hn1 Hn2 C0 C1 C2. unfold read_selected. cbv zeta.
  set (all := ASlice (mkslice None None None)).
  assert (All : forall n, 0 < n -> selects n all (whole n)) by (intros; constructor; apply full_plain; assumption).
  match goal with |- context [Qeq_bool ?m 1] => destruct (Qeq_bool m 1) eqn:Emin end.
  { apply Qeq_le3 in Emin. destruct Emin as (F0 & F1 & F2).
    apply (frac_le_1 n0 b l0 Hn0 C0) in F0. apply (frac_le_1 n1 f l1 Hn1 C1) in F1. apply (frac_le_1 n2 p l2 Hn2 C2) in F2.
    subst l0 l1 l2. apply read_dset_correct; try lia; try (apply All; assumption). unfold one_list; simpl; lia. }
  clear Emin.
  destruct (plan_selects n0 b l0 (1 # 10) Hn0 C0) as (S0 & O0).
  destruct (plan_selects n1 f l1 (1 # 10) Hn1 C1) as (S1 & O1).
  destruct (plan_selects n2 p l2 (1 # 2) Hn2 C2) as (S2 & O2).
  pose proof (chosen_bounds n0 b l0 Hn0 C0) as B0. pose proof (chosen_bounds n1 f l1 Hn1 C1) as B1.
  pose proof (chosen_bounds n2 p l2 Hn2 C2) as B2.
  set (pb := axis_plan (1 # 10) b) in *. set (pf := axis_plan (1 # 10) f) in *. set (pp := axis_plan (1 # 2) p) in *.
  match goal with |- context [multidim && ?c] => set (multi := multidim && c) end.
  assert (Hm : multi = true -> one_list (pick pb) (pick pf) (pick pp)).
  { intros Em. apply andb_prop in Em. destruct Em as (_ & Em). apply negb_true_iff in Em. apply Nat.ltb_ge in Em.
    unfold one_list. cbn [filter] in *.
    destruct (snd pb), (snd pf), (snd pp); cbn [length] in Em; try lia;
      repeat match goal with H : true = true -> _ |- _ => rewrite (H eq_refl); clear H end;
      repeat match goal with |- context [is_list ?x] => destruct (is_list x) end; simpl; lia. }
  assert (One : forall s, (length (filter is_list [s; all; all]) <= 1)%nat /\ (length (filter is_list [all; s; all]) <= 1)%nat
     /\ (length (filter is_list [all; all; s]) <= 1)%nat) by (intros s; simpl; destruct (is_list s); simpl; lia).
  destruct multi eqn:Emulti.
  - assert (R : exists arr, read_dset fill (n0, n1, n2) dset (pick pb, pick pf, pick pp) = Ok (lengths l0 l1 l2, arr)
        /\ is_block dset l0 l1 l2 arr) by (apply read_dset_correct; auto; lia).
    destruct R as (arr & ER & HB). destruct (Qeq_bool _ _); [|destruct (Qeq_bool _ _)];
      rewrite ER; cbn [bind]; rewrite !down_multi; exists arr; split; auto.
  - destruct (Qeq_bool _ _); [|destruct (Qeq_bool _ _)].
    + destruct (read_dset_correct fill n0 n1 n2 dset (pick pb) all all l0 (whole n1) (whole n2)) as (arr & ER & HB);
        try lia; auto; [apply One|]. rewrite ER. cbn [bind].
      destruct (down_select1 dset arr n1 f l0 l1 (whole n2)) as (arr1 & E1 & HB1); auto.
      destruct (down_select2 dset arr1 n2 p l0 l1 l2) as (arr2 & E2 & HB2); auto.
      rewrite E1, E2. eauto.
    + destruct (read_dset_correct fill n0 n1 n2 dset all (pick pf) all (whole n0) l1 (whole n2)) as (arr & ER & HB);
        try lia; auto; [apply One|]. rewrite ER. cbn [bind].
      destruct (down_select0 dset arr n0 b l0 l1 (whole n2)) as (arr1 & E1 & HB1); auto.
      destruct (down_select2 dset arr1 n2 p l0 l1 l2) as (arr2 & E2 & HB2); auto.
      rewrite E1, E2. eauto.
    + destruct (read_dset_correct fill n0 n1 n2 dset all all (pick pp) (whole n0) (whole n1) l2) as (arr & ER & HB);
        try lia; auto; [apply One|]. rewrite ER. cbn [bind].
      destruct (down_select0 dset arr n0 b l0 (whole n1) l2) as (arr1 & E1 & HB1); auto.
      destruct (down_select1 dset arr1 n1 f l0 l1 l2) as (arr2 & E2 & HB2); auto.
      rewrite E1, E2. eauto.
Qed.

(** ** Partial writes *)
Lemma part_axis_ok n inds l : 0 < n -> chosen n inds l ->
  exists sel reg, part_axis n inds = Ok (Z.of_nat (length l), sel, reg) /\ block_positions n sel = Ok (posn l).
Proof.
  intros Hn Hc. destruct inds as [l'|].
  - destruct Hc as (-> & Hne & Hinc). destruct l as [|x [|y l]]; [contradiction| |].
    + do 2 eexists. split; [reflexivity|]. unfold block_positions, slice_positions.
      destruct (slicify_correct n [x] Hne Hinc) as (ix & E & HP). injection E as <-. cbn [positions] in HP. rewrite HP. reflexivity.
    + unfold part_axis. destruct (all_diff (y - x) (x :: y :: l)) eqn:Ed.
      * do 2 eexists. split; [reflexivity|]. unfold block_positions, slice_positions.
        rewrite (all_diff_slice n x (y :: l)) by (auto; simpl; lia). reflexivity.
      * do 2 eexists. split; [reflexivity|]. apply list_positions_in. apply (proj2 Hinc).
  - simpl in Hc. subst l. do 2 eexists. split.
    + unfold part_axis. do 3 f_equal. rewrite map_length, seq_length. lia.
    + unfold block_positions. rewrite slice_full by lia. f_equal. unfold posn. rewrite map_map.
      rewrite <- (map_id (seq 0 (Z.to_nat n))) at 1. apply map_ext. intros; lia.
Qed.

Lemma parts_loop P : parts P (map (fun '(p, q) => ([p], [q])) (combine (seq 0 (length P)) P)).
Proof.
  unfold parts. generalize 0%nat. induction P as [|x P IH]; intros s; [repeat split; constructor|].
  cbn [length seq combine map]. destruct (IH (S s)) as (H1 & H2 & H3).
  cbn [map concat fst snd app]. rewrite H1, H2. repeat split. constructor; [reflexivity|exact H3].
Qed.

Lemma part_blocks_ok n l sel loop : block_positions n sel = Ok (posn l) ->
  exists DS, part_blocks n (Z.of_nat (length l)) sel loop = Ok DS /\ parts (posn l) DS.
Proof.
  intros E. unfold part_blocks. rewrite E. cbn [bind]. rewrite Nat2Z.id.
  rewrite <- (posn_length l). destruct loop; eexists; (split; [reflexivity|]); [apply parts_loop|apply parts_one].
Qed.

Lemma chosen_NoDup n inds l : chosen n inds l -> NoDup l.
Proof.
  destruct inds as [l'|]; simpl.
  - intros (-> & _ & H & _). apply StronglySorted_Zlt_NoDup. exact H.
  - intros ->. apply FinFun.Injective_map_NoDup; [intros x y; lia|apply seq_NoDup].
Qed.

Lemma write_part_correct {A} n0 n1 n2 (dset arr : cube A) b f p l0 l1 l2 :
  0 < n0 -> 0 < n1 -> 0 < n2 ->
  chosen n0 b l0 -> chosen n1 f l1 -> chosen n2 p l2 ->
  exists d', write_part (n0, n1, n2) dset b f p (lengths l0 l1 l2) arr = Ok d' /\ is_update dset l0 l1 l2 arr d'.
Proof.
  intros Hn0 Hn1 Hn2 C0 C1 C2.
  destruct (part_axis_ok n0 b l0 Hn0 C0) as (s0 & r0 & E0 & B0).
  destruct (part_axis_ok n1 f l1 Hn1 C1) as (s1 & r1 & E1 & B1).
  destruct (part_axis_ok n2 p l2 Hn2 C2) as (s2 & r2 & E2 & B2).
  unfold write_part, lengths. rewrite E0, E1, E2. cbn [bind]. rewrite !Z.eqb_refl. cbn [andb negb].
  match goal with |- context [part_blocks n0 _ _ (?c && _)] => set (few := c) end.
  destruct (part_blocks_ok n0 l0 s0 (few && negb r0) B0) as (DS0 & F0 & P0).
  destruct (part_blocks_ok n1 l1 s1 (few && negb r1) B1) as (DS1 & F1 & P1).
  destruct (part_blocks_ok n2 l2 s2 (few && negb r2) B2) as (DS2 & F2 & P2).
  rewrite F0, F1, F2. cbn [bind].
  set (ts := flat_map _ DS0).
  destruct (writes_update arr dset n0 n1 n2 l0 l1 l2 DS0 DS1 DS2 ts) as (d' & EF & U);
    try assumption; try (eapply chosen_bounds; eassumption); try (eapply chosen_NoDup; eassumption).
  { intros x y z. unfold ts. rewrite in_flat_map. split.
    - intros (x' & Hx & H). apply in_flat_map in H. destruct H as (y' & Hy & H). apply in_map_iff in H.
      destruct H as (z' & E & Hz). injection E as -> -> ->. tauto.
    - intros (Hx & Hy & Hz). exists x. split; [assumption|]. apply in_flat_map. exists y. split; [assumption|].
      apply in_map_iff. exists z. tauto. }
  exists d'. split; [|exact U]. rewrite <- EF.
  apply foldM_rel. apply Forall2_map_r.
  assert (G : forall l : list triple, Forall2 (fun x y => x = y) l l) by (induction l; constructor; auto).
  eapply Forall2_impl; [|apply G]. intros ((x, y), z) t <- a. reflexivity.
Qed.

Lemma write_part_shape {A} n0 n1 n2 (dset arr : cube A) b f p l0 l1 l2 ashape :
  0 < n0 -> 0 < n1 -> 0 < n2 ->
  chosen n0 b l0 -> chosen n1 f l1 -> chosen n2 p l2 -> ashape <> lengths l0 l1 l2 ->
  write_part (n0, n1, n2) dset b f p ashape arr = Err AssertionError.
Proof.
  intros Hn0 Hn1 Hn2 C0 C1 C2 Hne.
  destruct (part_axis_ok n0 b l0 Hn0 C0) as (s0 & r0 & E0 & B0).
  destruct (part_axis_ok n1 f l1 Hn1 C1) as (s1 & r1 & E1 & B1).
  destruct (part_axis_ok n2 p l2 Hn2 C2) as (s2 & r2 & E2 & B2).
  destruct ashape as ((a0, a1), a2).
  unfold write_part. rewrite E0, E1, E2. cbn [bind].
  destruct ((a0 =? Z.of_nat (length l0)) && (a1 =? Z.of_nat (length l1)) && (a2 =? Z.of_nat (length l2))) eqn:E; [|reflexivity].
  exfalso. apply Hne. unfold lengths. repeat f_equal; lia.
Qed.

Lemma at_pos_index n l i : Forall (fun i => 0 <= i < n) l -> In (Z.of_nat i) l ->
  exists q, (q < length l)%nat /\ at_pos l q = i.
Proof.
  intros Hb Hin. destruct (In_nth l (Z.of_nat i) 0 Hin) as (q & Hq & E). exists q. split; [exact Hq|].
  unfold at_pos. rewrite E. lia.
Qed.

Lemma chosen_unique n inds l l' : chosen n inds l -> chosen n inds l' -> l = l'.
Proof. destruct inds; simpl; [intros (-> & _) (-> & _)|intros -> ->]; reflexivity. Qed.

Lemma write_parts_correct {A} n0 n1 n2 (full : cube A) ws : forall d0,
  0 < n0 -> 0 < n1 -> 0 < n2 ->
  Forall (fun w => exists l0 l1 l2, part_of (n0, n1, n2) full w l0 l1 l2) ws ->
  exists d', write_parts (n0, n1, n2) ws d0 = Ok d' /\
    (forall i j k, touched (n0, n1, n2) full ws i j k -> d' i j k = full i j k) /\
    (forall i j k, ~ touched (n0, n1, n2) full ws i j k -> d' i j k = d0 i j k).
Proof.
  induction ws as [|w ws IH]; intros d0 Hn0 Hn1 Hn2 H.
  - exists d0. split; [reflexivity|]. split; [intros i j k (w & _ & _ & _ & [] & _)|reflexivity].
  - inversion H as [|? ? (l0 & l1 & l2 & Hw) Hws]; subst. unfold write_parts. rewrite foldM_cons.
    pose proof Hw as Hw'. destruct w as ((((b, f), p), ashape), arr). destruct Hw as (C0 & C1 & C2 & -> & HB).
    destruct (write_part_correct n0 n1 n2 d0 arr b f p l0 l1 l2) as (d1 & E1 & U1); auto.
    rewrite E1. cbn [bind]. destruct (IH d1) as (d2 & E2 & T2 & N2); auto.
    exists d2. split; [exact E2|].
    pose proof (chosen_bounds _ _ _ Hn0 C0) as B0. pose proof (chosen_bounds _ _ _ Hn1 C1) as B1. pose proof (chosen_bounds _ _ _ Hn2 C2) as B2.
    assert (Here : forall i j k, In (Z.of_nat i) l0 /\ In (Z.of_nat j) l1 /\ In (Z.of_nat k) l2 -> d1 i j k = full i j k).
    { intros i j k (Hi & Hj & Hk). destruct U1 as (U1 & _).
      destruct (at_pos_index n0 l0 i B0 Hi) as (qi & Hqi & Ei). destruct (at_pos_index n1 l1 j B1 Hj) as (qj & Hqj & Ej).
      destruct (at_pos_index n2 l2 k B2 Hk) as (qk & Hqk & Ek).
      specialize (U1 qi qj qk Hqi Hqj Hqk). rewrite Ei, Ej, Ek in U1. rewrite <- U1.
      rewrite (HB qi qj qk Hqi Hqj Hqk), Ei, Ej, Ek. reflexivity. }
    assert (Dec : forall i j k, {In (Z.of_nat i) l0 /\ In (Z.of_nat j) l1 /\ In (Z.of_nat k) l2} + {~ (In (Z.of_nat i) l0 /\ In (Z.of_nat j) l1 /\ In (Z.of_nat k) l2)}).
    { intros i j k. destruct (in_dec Z.eq_dec (Z.of_nat i) l0), (in_dec Z.eq_dec (Z.of_nat j) l1), (in_dec Z.eq_dec (Z.of_nat k) l2);
        (left; tauto) || (right; tauto). }
    assert (DecT : forall ws i j k, Forall (fun w => exists l0 l1 l2, part_of (n0, n1, n2) full w l0 l1 l2) ws ->
        touched (n0, n1, n2) full ws i j k \/ ~ touched (n0, n1, n2) full ws i j k).
    { clear -n0. intros ws i j k HF. induction HF as [|w ws (l0 & l1 & l2 & Hw) HF IH].
      - right. intros (w & ? & ? & ? & [] & _).
      - destruct IH as [IH|IH].
        + left. destruct IH as (w' & a & b & c & Hin & Hr). exists w', a, b, c. split; [right; exact Hin|exact Hr].
        + destruct (in_dec Z.eq_dec (Z.of_nat i) l0) as [Hi|Hi], (in_dec Z.eq_dec (Z.of_nat j) l1) as [Hj|Hj], (in_dec Z.eq_dec (Z.of_nat k) l2) as [Hk|Hk];
            try (left; exists w, l0, l1, l2; split; [left; reflexivity|tauto]);
            right; intros (w' & a & b & c & [<-|Hin] & Hp & Ha & Hb & Hc);
            try (apply IH; exists w', a, b, c; tauto);
            destruct w as ((((bb, ff), pp), ash), ar); destruct Hw as (K0 & K1 & K2 & _), Hp as (K0' & K1' & K2' & _);
            rewrite (chosen_unique _ _ _ _ K0' K0) in Ha; rewrite (chosen_unique _ _ _ _ K1' K1) in Hb; rewrite (chosen_unique _ _ _ _ K2' K2) in Hc;
            contradiction. }
    split.
    + intros i j k (w' & a & b' & c & [<-|Hin] & Hp & Ha & Hb & Hc).
      * destruct (DecT ws i j k Hws) as [T|T]; [apply T2; exact T|]. rewrite N2 by exact T. apply Here.
        destruct Hp as (K0 & K1 & K2 & _).
        rewrite (chosen_unique _ _ _ _ K0 C0) in Ha. rewrite (chosen_unique _ _ _ _ K1 C1) in Hb. rewrite (chosen_unique _ _ _ _ K2 C2) in Hc. tauto.
      * apply T2. exists w', a, b', c. tauto.
    + intros i j k Hn. rewrite N2.
      * apply (proj2 U1). intros Hc. apply Hn. exists (b, f, p, lengths l0 l1 l2, arr), l0, l1, l2. split; [left; reflexivity|tauto].
      * intros (w' & a & b' & c & Hin & Hr). apply Hn. exists w', a, b', c. split; [right; exact Hin|exact Hr].
Qed.

Lemma whole_write_correct {A} n0 n1 n2 (full d0 : cube A) : 0 < n0 -> 0 < n1 -> 0 < n2 ->
  exists d', write_part (n0, n1, n2) d0 None None None (n0, n1, n2) full = Ok d' /\
  forall i j k, in_shape (n0, n1, n2) i j k -> d' i j k = full i j k.
Proof.
  intros Hn0 Hn1 Hn2.
  destruct (write_part_correct n0 n1 n2 d0 full None None None (whole n0) (whole n1) (whole n2)) as (d' & E & U); auto; try reflexivity.
  assert (L : forall n, 0 < n -> Z.of_nat (length (whole n)) = n) by (intros; unfold whole; rewrite map_length, seq_length; lia).
  exists d'. unfold lengths in E. rewrite !L in E by assumption. split; [exact E|].
  intros i j k (Hi & Hj & Hk). destruct U as (U & _).
  assert (P : forall n q, Z.of_nat q < n -> (q < length (whole n))%nat /\ at_pos (whole n) q = q).
  { intros n q Hq. unfold whole. rewrite map_length, seq_length. split; [lia|].
    unfold at_pos. rewrite (nth_map Z.of_nat _ _ 0%nat) by (rewrite seq_length; lia). rewrite seq_nth by lia. lia. }
  destruct (P n0 i Hi) as (Li & Pi). destruct (P n1 j Hj) as (Lj & Pj). destruct (P n2 k Hk) as (Lk & Pk).
  specialize (U i j k Li Lj Lk). rewrite Pi, Pj, Pk in U. symmetry. exact U.
Qed.

Lemma parts_equal_whole {A} n0 n1 n2 (full d0 d1 : cube A) ws :
  0 < n0 -> 0 < n1 -> 0 < n2 ->
  Forall (fun w => exists l0 l1 l2, part_of (n0, n1, n2) full w l0 l1 l2) ws ->
  (forall i j k, in_shape (n0, n1, n2) i j k -> touched (n0, n1, n2) full ws i j k) ->
  exists dp dw, write_parts (n0, n1, n2) ws d0 = Ok dp /\
    write_part (n0, n1, n2) d1 None None None (n0, n1, n2) full = Ok dw /\
    forall i j k, in_shape (n0, n1, n2) i j k -> dp i j k = dw i j k.
Proof.
  intros Hn0 Hn1 Hn2 H Hc.
  destruct (write_parts_correct n0 n1 n2 full ws d0) as (dp & E & T & _); auto.
  destruct (whole_write_correct n0 n1 n2 full d1) as (dw & Ew & W); auto.
  exists dp, dw. split; [exact E|]. split; [exact Ew|]. intros i j k Hs. rewrite T, W by auto. reflexivity.
Qed.

(** ** Read after write, and the unsupported index kinds *)
Lemma read_after_write {A} (fill : cube A) n0 n1 n2 (dset arr : cube A) s0 s1 s2 l0 l1 l2 :
  0 <= n0 -> 0 <= n1 -> 0 <= n2 ->
  selects n0 s0 l0 -> selects n1 s1 l1 -> selects n2 s2 l2 -> one_list s0 s1 s2 ->
  NoDup l0 -> NoDup l1 -> NoDup l2 ->
  exists d' back, write_dset (n0, n1, n2) dset (s0, s1, s2) (lengths l0 l1 l2) arr = Ok d' /\
    read_dset fill (n0, n1, n2) d' (s0, s1, s2) = Ok (lengths l0 l1 l2, back) /\
    forall i j k, (i < length l0)%nat -> (j < length l1)%nat -> (k < length l2)%nat -> back i j k = arr i j k.
Proof.
  intros. destruct (write_dset_correct n0 n1 n2 dset arr s0 s1 s2 l0 l1 l2) as (d' & E & U & _); auto.
  destruct (read_dset_correct fill n0 n1 n2 d' s0 s1 s2 l0 l1 l2) as (back & E2 & HB); auto.
  exists d', back. split; [exact E|]. split; [exact E2|]. intros i j k Hi Hj Hk.
  rewrite (HB i j k Hi Hj Hk), <- (U i j k Hi Hj Hk). reflexivity.
Qed.

(** an integer ndarray leaves the allocated length unchanged: a one-element
    array is broadcast over the whole axis, longer ones fail *)
Lemma ndarray_index_wrong :
  exists (dset fill arr : cube Z), read_dset fill (3, 1, 1) dset (AArr [2], ASlice (mkslice None None None), ASlice (mkslice None None None))
    = Ok ((3, 1, 1), arr) /\ (forall i, (i < 3)%nat -> arr i 0%nat 0%nat = dset 2%nat 0%nat 0%nat) /\
    arr 0%nat 0%nat 0%nat <> dset 0%nat 0%nat 0%nat /\
    read_dset fill (3, 1, 1) dset (AArr [0; 2], ASlice (mkslice None None None), ASlice (mkslice None None None)) = Err ValueError.
Proof.
  exists (fun i _ _ => Z.of_nat i), (fun _ _ _ => 0). eexists. split; [reflexivity|]. split; [|split; [|reflexivity]].
  - intros i Hi. destruct i as [|[|[|i]]]; try lia; reflexivity.
  - vm_compute. discriminate.
Qed.
