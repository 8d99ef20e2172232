(** Orders that determine_blt_order does recognise. *)
From Coq Require Import List ZArith Bool Arith Lia Sorted ZifyBool ZifyNat.
From Verif Require Import Lib.Py Lib.Np Lib.Sorting Spec.BltSpec Model.BltAxis Proofs.BltProofs Proofs.AccessProofs.
Import ListNotations.
Open Scope Z_scope.

Definition row0 : bltrow := {| r_time := 0; r_ant1 := 0; r_ant2 := 0; r_bl := 0 |}.
Definition all_flags := mkFlags true true true true true true true true true true.

Lemma ss_nth {A} (R : A -> A -> Prop) d l : StronglySorted R l ->
  forall i j, (i < j)%nat -> (j < length l)%nat -> R (nth i l d) (nth j l d).
Proof.
  induction 1 as [|a l H IH Hf]; intros i j Hi Hj; [simpl in Hj; lia|].
  destruct j as [|j]; [lia|]. simpl in Hj. destruct i as [|i]; simpl.
  - rewrite Forall_forall in Hf. apply Hf. apply nth_In. lia.
  - apply IH; lia.
Qed.

Lemma blt_loop_keeps (proj : flags -> bool) Nb Nt : forall rest i p f,
  proj f = true ->
  (forall k f, (k < length rest)%nat -> proj f = true ->
     proj (blt_step Nb Nt (i + k) (nth k (p :: rest) row0) (nth k rest row0) f) = true) ->
  proj (blt_loop Nb Nt i p rest f) = true.
Proof.
  induction rest as [|c rest IH]; intros i p f Hf H; [exact Hf|].
  cbn [blt_loop]. cbv zeta.
  assert (H0 : proj (blt_step Nb Nt i p c f) = true).
  { specialize (H 0%nat f). rewrite Nat.add_0_r in H. apply H; [simpl; lia|exact Hf]. }
  destruct (any_flag _); [|exact H0]. apply IH; [exact H0|].
  intros k g Hk Hg. specialize (H (S k) g). simpl nth in H. rewrite Nat.add_succ_r in H.
  apply H; [simpl; lia|exact Hg].
Qed.

Definition final (rows : list bltrow) Nb Nt : flags :=
  match rows with [] => all_flags | p :: rest => blt_loop Nb Nt 1 p rest all_flags end.

Lemma final_keeps (proj : flags -> bool) Nb Nt rows :
  proj all_flags = true ->
  (forall i f, (S i < length rows)%nat -> proj f = true ->
     proj (blt_step Nb Nt (S i) (nth i rows row0) (nth (S i) rows row0) f) = true) ->
  proj (final rows Nb Nt) = true.
Proof.
  intros Ha H. destruct rows as [|p rest]; [exact Ha|]. unfold final.
  apply blt_loop_keeps; [exact Ha|]. intros k f Hk Hf. apply (H k f); [simpl; lia|exact Hf].
Qed.

Ltac lowered st k ks :=
  let E := fresh "E" in
  match goal with |- ?x = false => destruct x eqn:E; [exfalso|reflexivity] end;
  match goal with
  | H : _ (final ?rows _ _) = true |- False =>
      assert (Hss : StronglySorted (lex_le ks) rows);
      [apply Sorted_StronglySorted; [intros ? ? ?; apply lex_le_trans|];
       destruct rows as [|p rest]; [constructor|];
       eapply (blt_loop_inv k); [let ff := fresh in let Hff := fresh in intros ff Hff; unfold any_flag; rewrite Hff, ?orb_true_r; reflexivity| intros *; apply st|exact H]|]
  end.

Section Rows.
Variables (rows : list bltrow) (Nb Nt : nat).
Let f := final rows Nb Nt.
Notation "'R' i" := (nth i rows row0) (at level 9).

Lemma low_bl_time i j : (i < j < length rows)%nat -> r_bl (R j) < r_bl (R i) -> bl_time f = false.
Proof. intros Hij Hd. unfold f. lowered st_bl_time bl_time constr:([KBaseline; KTime]). pose proof (ss_nth _ row0 _ Hss i j ltac:(lia) ltac:(lia)) as L. simpl in L. lia. Qed.
Lemma low_bl_order i j : (i < j < length rows)%nat -> r_bl (R j) < r_bl (R i) -> bl_order f = false.
Proof. intros Hij Hd. unfold f. lowered st_bl_order bl_order constr:([KBaseline]). pose proof (ss_nth _ row0 _ Hss i j ltac:(lia) ltac:(lia)) as L. simpl in L. lia. Qed.
Lemma low_a_time i j : (i < j < length rows)%nat -> r_ant1 (R j) < r_ant1 (R i) -> a_time f = false.
Proof. intros Hij Hd. unfold f. lowered st_a_time a_time constr:([KAnt1; KTime]). pose proof (ss_nth _ row0 _ Hss i j ltac:(lia) ltac:(lia)) as L. simpl in L. lia. Qed.
Lemma low_a_order i j : (i < j < length rows)%nat -> r_ant1 (R j) < r_ant1 (R i) -> a_order f = false.
Proof. intros Hij Hd. unfold f. lowered st_a_order a_order constr:([KAnt1]). pose proof (ss_nth _ row0 _ Hss i j ltac:(lia) ltac:(lia)) as L. simpl in L. lia. Qed.
Lemma low_b_time i j : (i < j < length rows)%nat -> r_ant2 (R j) < r_ant2 (R i) -> b_time f = false.
Proof. intros Hij Hd. unfold f. lowered st_b_time b_time constr:([KAnt2; KTime]). pose proof (ss_nth _ row0 _ Hss i j ltac:(lia) ltac:(lia)) as L. simpl in L. lia. Qed.
Lemma low_b_order i j : (i < j < length rows)%nat -> r_ant2 (R j) < r_ant2 (R i) -> b_order f = false.
Proof. intros Hij Hd. unfold f. lowered st_b_order b_order constr:([KAnt2]). pose proof (ss_nth _ row0 _ Hss i j ltac:(lia) ltac:(lia)) as L. simpl in L. lia. Qed.
Lemma low_time_bl i j : (i < j < length rows)%nat -> r_time (R j) < r_time (R i) -> time_bl f = false.
Proof. intros Hij Hd. unfold f. lowered st_time_bl time_bl constr:([KTime; KBaseline]). pose proof (ss_nth _ row0 _ Hss i j ltac:(lia) ltac:(lia)) as L. simpl in L. lia. Qed.
Lemma low_time_a i j : (i < j < length rows)%nat -> r_time (R j) < r_time (R i) -> time_a f = false.
Proof. intros Hij Hd. unfold f. lowered st_time_a time_a constr:([KTime; KAnt1]). pose proof (ss_nth _ row0 _ Hss i j ltac:(lia) ltac:(lia)) as L. simpl in L. lia. Qed.
Lemma low_time_b i j : (i < j < length rows)%nat -> r_time (R j) < r_time (R i) -> time_b f = false.
Proof. intros Hij Hd. unfold f. lowered st_time_b time_b constr:([KTime; KAnt2]). pose proof (ss_nth _ row0 _ Hss i j ltac:(lia) ltac:(lia)) as L. simpl in L. lia. Qed.
Lemma low_time_order i j : (i < j < length rows)%nat -> r_time (R j) < r_time (R i) -> time_order f = false.
Proof. intros Hij Hd. unfold f. lowered st_time_order time_order constr:([KTime]). pose proof (ss_nth _ row0 _ Hss i j ltac:(lia) ltac:(lia)) as L. simpl in L. lia. Qed.
End Rows.

Lemma nth_mapZ (g : bltrow -> Z) rows i : (i < length rows)%nat -> nth i (map g rows) 0 = g (nth i rows row0).
Proof. intros H. rewrite (nth_indep _ 0 (g row0)) by (rewrite map_length; exact H). apply map_nth. Qed.

(** positions in a product layout *)
Lemma divmod_next i m : (0 < m)%nat ->
  (S i mod m = 0 /\ S i / m = S (i / m) /\ i mod m = m - 1)%nat \/
  (S i mod m <> 0 /\ S i / m = i / m /\ S i mod m = S (i mod m))%nat.
Proof.
  intros Hm. pose proof (Nat.div_mod i m ltac:(lia)) as E. pose proof (Nat.mod_upper_bound i m ltac:(lia)) as U.
  destruct (Nat.eq_dec (S (i mod m)) m) as [Q|Q].
  - left. assert (S i = (S (i / m)) * m)%nat as -> by nia. rewrite Nat.mod_mul, Nat.div_mul by lia. lia.
  - right. assert (S i = S (i mod m) + (i / m) * m)%nat as -> by nia.
    rewrite Nat.mod_add, Nat.div_add by lia. rewrite Nat.mod_small, Nat.div_small by lia. lia.
Qed.

Lemma sorted_lt_nth l i j : StronglySorted Z.lt l -> (i < j < length l)%nat -> nth i l 0 < nth j l 0.
Proof. intros H Hij. apply (ss_nth Z.lt 0 l H); lia. Qed.

Section TimeMajor.
Variables (rows : list bltrow) (ts bs : list Z).
Hypothesis HL : product_layout (map r_time rows) (map r_bl rows) ts bs false.
Hypothesis Hts : StronglySorted Z.lt ts.
Hypothesis Hbs : StronglySorted Z.lt bs.
Hypothesis Lts : (2 <= length ts)%nat.
Hypothesis Lbs : (2 <= length bs)%nat.

Lemma tm_len : length rows = (length ts * length bs)%nat.
Proof.
  destruct HL as (_ & _ & H & _). rewrite <- (map_length r_time), H.
  apply concat_len. intros; apply repeat_length.
Qed.
Lemma tm_time i : (i < length rows)%nat -> r_time (nth i rows row0) = nth (i / length bs) ts 0.
Proof.
  intros Hi. rewrite <- nth_mapZ by exact Hi. destruct HL as (_ & _ & -> & _).
  apply nth_concat_repeat. rewrite <- tm_len. exact Hi.
Qed.
Lemma tm_bl i : (i < length rows)%nat -> r_bl (nth i rows row0) = nth (i mod length bs) bs 0.
Proof.
  intros Hi. rewrite <- nth_mapZ by exact Hi. destruct HL as (_ & _ & _ & ->).
  apply nth_concat_same. rewrite <- tm_len. exact Hi.
Qed.

Lemma tm_time_bl : time_bl (final rows (length bs) (length ts)) = true.
Proof.
  apply final_keeps; [reflexivity|]. intros i f Hi Hf. pose proof tm_len as LL.
  pose proof (tm_time i ltac:(lia)) as T1. pose proof (tm_time (S i) Hi) as T2.
  pose proof (tm_bl i ltac:(lia)) as B1. pose proof (tm_bl (S i) Hi) as B2.
  assert (Hq : (S i / length bs < length ts)%nat) by (apply Nat.div_lt_upper_bound; lia).
  assert (Hr : (S i mod length bs < length bs)%nat) by (apply Nat.mod_upper_bound; lia).
  unfold blt_step. cbv zeta.
  assert (Hst : time_bl (step_time (S i mod length ts =? 0)%nat (nth i rows row0) (nth (S i) rows row0) f) = true).
  { unfold step_time. destruct (divmod_next i (length bs) ltac:(lia)) as [(E1 & E2 & E3)|(E1 & E2 & E3)].
    - assert (r_time (nth i rows row0) < r_time (nth (S i) rows row0)).
      { rewrite T1, T2. apply sorted_lt_nth; [exact Hts|]. lia. }
      destruct (_ <? _) eqn:Q1; [lia|]. destruct (_ =? _) eqn:Q2; [lia|]. exact Hf.
    - assert (r_time (nth i rows row0) = r_time (nth (S i) rows row0)) by (rewrite T1, T2, E2; reflexivity).
      assert (r_bl (nth i rows row0) < r_bl (nth (S i) rows row0)).
      { rewrite B1, B2. apply sorted_lt_nth; [exact Hbs|]. lia. }
      destruct (r_time _ <? _) eqn:Q1; [lia|]. destruct (r_time _ =? _) eqn:Q2; [|lia].
      cbn [time_bl]. destruct (r_bl _ <? _) eqn:Q3; [lia|]. exact Hf. }
  set (g := step_time _ _ _ _) in *.
  assert (Hsb : time_bl (step_bl (S i mod length bs =? 0)%nat (nth i rows row0) (nth (S i) rows row0) g) = true).
  { unfold step_bl. destruct (_ <? _) eqn:Q; [|exact Hst]. cbn [time_bl].
    destruct (divmod_next i (length bs) ltac:(lia)) as [(E1 & E2 & E3)|(E1 & E2 & E3)].
    - rewrite E1. exact Hst.
    - exfalso. assert (r_bl (nth i rows row0) < r_bl (nth (S i) rows row0)); [|lia].
      rewrite B1, B2. apply sorted_lt_nth; [exact Hbs|]. lia. }
  set (h := step_bl _ _ _ _) in *.
  assert (Hsa : time_bl (step_a (S i mod length bs =? 0)%nat (nth i rows row0) (nth (S i) rows row0) h) = true).
  { unfold step_a. destruct (_ <? _); exact Hsb. }
  unfold step_b at 1. destruct (_ <? _); exact Hsa.
Qed.

(** In a time-major product a quantity fixed by the baseline that is not constant goes down somewhere. *)
Lemma tm_drops (g : bltrow -> Z) :
  (forall r s, In r rows -> In s rows -> r_bl r = r_bl s -> g r = g s) ->
  (exists r s, In r rows /\ In s rows /\ g r <> g s) ->
  exists i j, (i < j < length rows)%nat /\ g (nth j rows row0) < g (nth i rows row0).
Proof.
  intros Hg (r & s & Hr & Hs & Hne).
  assert (Hw : exists i j, (i < length rows)%nat /\ (j < length rows)%nat /\ g (nth i rows row0) < g (nth j rows row0)).
  { destruct (In_nth _ _ row0 Hr) as (i & Hi & Ei), (In_nth _ _ row0 Hs) as (j & Hj & Ej).
    destruct (Z.lt_ge_cases (g r) (g s)); [exists i, j|exists j, i]; rewrite Ei, Ej; repeat split; try assumption; lia. }
  clear r s Hr Hs Hne. destruct Hw as (i & j & Hi & Hj & Hlt). pose proof tm_len as LL.
  set (m := length bs) in *.
  assert (Hmi : (i mod m < m)%nat) by (apply Nat.mod_upper_bound; lia).
  assert (Hmj : (j mod m < m)%nat) by (apply Nat.mod_upper_bound; lia).
  exists (j mod m)%nat, (m + i mod m)%nat. split; [nia|].
  replace (g (nth (m + i mod m) rows row0)) with (g (nth i rows row0)).
  - replace (g (nth (j mod m) rows row0)) with (g (nth j rows row0)); [lia|].
    apply Hg; [apply nth_In; exact Hj|apply nth_In; nia|].
    rewrite !tm_bl by nia. fold m. rewrite Nat.mod_mod by lia. reflexivity.
  - apply Hg; [apply nth_In; exact Hi|apply nth_In; nia|].
    rewrite !tm_bl by nia. fold m. rewrite Nat.add_comm.
    replace m with (1 * m)%nat at 3 by lia. rewrite Nat.mod_add, Nat.mod_mod by lia. reflexivity.
Qed.

Lemma time_major_recognised :
  (forall r s, In r rows -> In s rows -> r_bl r = r_bl s -> r_ant1 r = r_ant1 s /\ r_ant2 r = r_ant2 s) ->
  (exists r s, In r rows /\ In s rows /\ r_ant1 r <> r_ant1 s) ->
  (exists r s, In r rows /\ In s rows /\ r_ant2 r <> r_ant2 s) ->
  determine_blt_order rows (length bs) (length ts) = Ok (Some [KTime; KBaseline]).
Proof.
  intros Hants H1 H2. pose proof tm_len as LL.
  destruct (tm_drops r_ant1 ltac:(intros; apply Hants; assumption) H1) as (i1 & j1 & I1 & D1).
  destruct (tm_drops r_ant2 ltac:(intros; apply Hants; assumption) H2) as (i2 & j2 & I2 & D2).
  assert (Hb : exists r s, In r rows /\ In s rows /\ r_bl r <> r_bl s).
  { exists (nth 0 rows row0), (nth 1 rows row0). split; [apply nth_In; nia|]. split; [apply nth_In; nia|].
    rewrite !tm_bl by nia. rewrite !Nat.mod_small by lia.
    pose proof (sorted_lt_nth bs 0 1 Hbs ltac:(lia)). lia. }
  destruct (tm_drops r_bl ltac:(intros; assumption) Hb) as (i3 & j3 & I3 & D3).
  unfold determine_blt_order.
  destruct ((length bs =? 1) && (length ts =? 1))%nat eqn:E0; [lia|].
  cbv zeta. fold all_flags. fold (final rows (length bs) (length ts)).
  rewrite (low_bl_time _ _ _ _ _ I3 D3), (low_bl_order _ _ _ _ _ I3 D3),
    (low_a_time _ _ _ _ _ I1 D1), (low_a_order _ _ _ _ _ I1 D1),
    (low_b_time _ _ _ _ _ I2 D2), (low_b_order _ _ _ _ _ I2 D2), tm_time_bl.
  rewrite !andb_false_r. reflexivity.
Qed.
End TimeMajor.

Section BaselineMajor.
Variables (rows : list bltrow) (ts bs : list Z).
Hypothesis HL : product_layout (map r_time rows) (map r_bl rows) ts bs true.
Hypothesis Hts : StronglySorted Z.lt ts.
Hypothesis Hbs : StronglySorted Z.lt bs.
Hypothesis Lts : (2 <= length ts)%nat.
Hypothesis Lbs : (2 <= length bs)%nat.

Lemma bm_len : length rows = (length bs * length ts)%nat.
Proof.
  destruct HL as (_ & _ & H & _). rewrite <- (map_length r_time), H.
  apply concat_len. reflexivity.
Qed.
Lemma bm_time i : (i < length rows)%nat -> r_time (nth i rows row0) = nth (i mod length ts) ts 0.
Proof.
  intros Hi. rewrite <- nth_mapZ by exact Hi. destruct HL as (_ & _ & -> & _).
  apply nth_concat_same. rewrite <- bm_len. exact Hi.
Qed.
Lemma bm_bl i : (i < length rows)%nat -> r_bl (nth i rows row0) = nth (i / length ts) bs 0.
Proof.
  intros Hi. rewrite <- nth_mapZ by exact Hi. destruct HL as (_ & _ & _ & ->).
  apply nth_concat_repeat. rewrite <- bm_len. exact Hi.
Qed.

Lemma bm_bl_time : bl_time (final rows (length bs) (length ts)) = true.
Proof.
  apply final_keeps; [reflexivity|]. intros i f Hi Hf. pose proof bm_len as LL.
  pose proof (bm_time i ltac:(lia)) as T1. pose proof (bm_time (S i) Hi) as T2.
  pose proof (bm_bl i ltac:(lia)) as B1. pose proof (bm_bl (S i) Hi) as B2.
  assert (Hq : (S i / length ts < length bs)%nat) by (apply Nat.div_lt_upper_bound; lia).
  assert (Hr : (S i mod length ts < length ts)%nat) by (apply Nat.mod_upper_bound; lia).
  unfold blt_step. cbv zeta.
  assert (Hst : bl_time (step_time (S i mod length ts =? 0)%nat (nth i rows row0) (nth (S i) rows row0) f) = true /\
                r_bl (nth i rows row0) <= r_bl (nth (S i) rows row0)).
  { unfold step_time. destruct (divmod_next i (length ts) ltac:(lia)) as [(E1 & E2 & E3)|(E1 & E2 & E3)].
    - assert (r_bl (nth i rows row0) < r_bl (nth (S i) rows row0)).
      { rewrite B1, B2. apply sorted_lt_nth; [exact Hbs|]. lia. }
      split; [|lia]. rewrite E1. cbn [Nat.eqb negb].
      destruct (_ <? _) eqn:Q1; [|destruct (_ =? _); exact Hf].
      cbn [bl_time]. destruct (r_bl _ =? _) eqn:Q2; [lia|]. exact Hf.
    - assert (r_time (nth i rows row0) < r_time (nth (S i) rows row0)).
      { rewrite T1, T2. apply sorted_lt_nth; [exact Hts|]. lia. }
      split; [|rewrite B1, B2, E2; lia].
      destruct (_ <? _) eqn:Q1; [lia|]. destruct (_ =? _); exact Hf. }
  destruct Hst as [Hst Hle]. set (g := step_time _ _ _ _) in *.
  assert (Hsb : bl_time (step_bl (S i mod length bs =? 0)%nat (nth i rows row0) (nth (S i) rows row0) g) = true).
  { unfold step_bl. destruct (_ <? _) eqn:Q; [lia|exact Hst]. }
  set (h := step_bl _ _ _ _) in *.
  assert (Hsa : bl_time (step_a (S i mod length bs =? 0)%nat (nth i rows row0) (nth (S i) rows row0) h) = true).
  { unfold step_a. destruct (_ <? _); exact Hsb. }
  unfold step_b at 1. destruct (_ <? _); exact Hsa.
Qed.

Lemma baseline_major_recognised :
  (exists i j, (i < j < length rows)%nat /\
    (r_ant1 (nth j rows row0) < r_ant1 (nth i rows row0) \/ r_ant2 (nth j rows row0) < r_ant2 (nth i rows row0))) ->
  determine_blt_order rows (length bs) (length ts) = Ok (Some [KBaseline; KTime]).
Proof.
  intros (i & j & Hij & HD). pose proof bm_len as LL.
  assert (I : (1 < length ts < length rows)%nat) by nia.
  assert (D : r_time (nth (length ts) rows row0) < r_time (nth 1 rows row0)).
  { rewrite !bm_time by lia. rewrite Nat.mod_same, Nat.mod_small by lia. apply sorted_lt_nth; [exact Hts|lia]. }
  unfold determine_blt_order.
  destruct ((length bs =? 1) && (length ts =? 1))%nat eqn:E0; [lia|].
  cbv zeta. fold all_flags. fold (final rows (length bs) (length ts)).
  rewrite (low_time_bl _ _ _ _ _ I D), (low_time_a _ _ _ _ _ I D), (low_time_b _ _ _ _ _ I D),
    (low_time_order _ _ _ _ _ I D), bm_bl_time.
  assert (HAB : a_order (final rows (length bs) (length ts)) && b_order (final rows (length bs) (length ts)) = false).
  { destruct HD as [HD|HD].
    - rewrite (low_a_order _ _ _ _ _ Hij HD). reflexivity.
    - rewrite (low_b_order _ _ _ _ _ Hij HD). apply andb_false_r. }
  rewrite HAB. rewrite ?andb_false_r. reflexivity.
Qed.
End BaselineMajor.

(** The list of rows need not be indexed to say "some later row has a smaller antenna". *)
Lemma split_nth (rows l1 l2 l3 : list bltrow) r s : rows = l1 ++ r :: l2 ++ s :: l3 ->
  exists i j, (i < j < length rows)%nat /\ nth i rows row0 = r /\ nth j rows row0 = s.
Proof.
  intros ->. exists (length l1), (length l1 + S (length l2))%nat.
  split; [rewrite !app_length; simpl; rewrite app_length; simpl; lia|]. split.
  - rewrite app_nth2 by lia. rewrite Nat.sub_diag. reflexivity.
  - rewrite app_nth2 by lia. replace (_ + _ - _)%nat with (S (length l2)) by lia. simpl.
    rewrite app_nth2 by lia. rewrite Nat.sub_diag. reflexivity.
Qed.

Lemma baseline_major_split rows ts bs :
  product_layout (map r_time rows) (map r_bl rows) ts bs true ->
  StronglySorted Z.lt ts -> StronglySorted Z.lt bs -> (2 <= length ts)%nat -> (2 <= length bs)%nat ->
  (exists l1 r l2 s l3, rows = l1 ++ r :: l2 ++ s :: l3 /\ (r_ant1 s < r_ant1 r \/ r_ant2 s < r_ant2 r)) ->
  determine_blt_order rows (length bs) (length ts) = Ok (Some [KBaseline; KTime]).
Proof.
  intros HL Ht Hb Lt Lb (l1 & r & l2 & s & l3 & E & HD). apply baseline_major_recognised; try assumption.
  destruct (split_nth _ _ _ _ _ _ E) as (i & j & Hij & E1 & E2). exists i, j. rewrite E1, E2. split; assumption.
Qed.
