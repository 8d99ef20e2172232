From Coq Require Import List ZArith QArith Qround Qcanon Bool Arith Lia Lqa Sorted Permutation.
From Verif Require Import Lib.Py Lib.Np Lib.Sorting Lib.QSum Model.FreqAvg Model.Resample Spec.ResampleSpec Proofs.ResampleBase.
Import ListNotations.
Open Scope Qc_scope.

Lemma Q_lt_mult a b m : (0 < m)%Q -> (a < b)%Q -> (a * m < b * m)%Q.
Proof. intros Hm H. apply Qmult_lt_compat_r; assumption. Qed.
Lemma Q_le_mult a b m : (0 < m)%Q -> (a <= b)%Q -> (a * m <= b * m)%Q.
Proof. intros Hm H. apply Qmult_le_compat_r; [exact H|]. apply Qlt_le_weak. exact Hm. Qed.

Lemma Qc_div_mul i m : 0 < m -> i / m * m = i.
Proof. intros H. field. intros E. rewrite E in H. exact (Qlt_irrefl _ H). Qed.

(** The number of pieces: at least one, not more than needed, and enough up to
    the relative tolerance of np.isclose. *)
Lemma n_pieces_spec m i : 0 < m -> m < i -> let n := n_pieces m i in
  (1 <= n)%Z /\ qz (n - 1) * m < i /\ i <= qz n * (m * Q2Qc (100001001 # 100000000)).
Proof.
  intros Hm Hi n. pose proof (Qc_div_mul i m Hm) as Ex. set (x := i / m) in *.
  assert (Hx : 1 < x).
  { destruct (Qclt_le_dec 1 x) as [L|L]; [exact L|]. exfalso.
    apply (Qcmult_le_compat_r _ _ m) in L; [|apply Qclt_le_weak; exact Hm]. rewrite Ex in L.
    setoid_replace (1 * m) with m in L by ring. exact (Qclt_not_le _ _ Hi L). }
  assert (Hm' : (0 < this m)%Q) by exact Hm.
  assert (Hi' : (this i == this x * this m)%Q).
  { rewrite <- Ex. unfold Qcmult, Q2Qc. cbn [this]. apply Qred_correct. }
  assert (Hx' : (1 < this x)%Q) by exact Hx.
  assert (F1 : (1 <= Qfloor (this x))%Z).
  { change 1%Z with (Qfloor 1). apply Qfloor_resp_le. apply Qlt_le_weak. exact Hx'. }
  pose proof (Qfloor_le (this x)) as F2.
  unfold n, n_pieces. fold x. destruct (close x (qz (Qfloor (this x)))) eqn:C.
  - set (f := Qfloor (this x)) in *. split; [exact F1|]. split.
    + unfold Qclt. unfold Qcmult, Q2Qc. cbn [this]. rewrite Qred_correct, this_qz, Hi'.
      apply Q_lt_mult; [exact Hm'|]. eapply Qlt_le_trans; [|exact F2]. rewrite <- Zlt_Qlt. lia.
    + unfold close, qclose in C. apply qcabs_bound in C. destruct C as [C _].
      assert (A : qcabs (qz f) = qz f).
      { unfold qcabs. destruct (qle 0 (qz f)) eqn:E; [reflexivity|]. apply qle_false in E. exfalso.
        apply (Qclt_not_le _ _ E). change 0 with (qz 0). apply qz_le. lia. }
      rewrite A in C.
      assert (C' : (this x <= inject_Z f * (100001001 # 100000000))%Q).
      { assert (G : (1 <= inject_Z f)%Q) by (change 1%Q with (inject_Z 1); rewrite <- Zle_Qle; exact F1).
        revert C. qcnorm. rewrite this_qz. cbn [this Q2Qc]. rewrite !Qred_correct. intros C. lra. }
      unfold Qcle, Qcmult, Q2Qc. cbn [this]. rewrite !Qred_correct, this_qz, Hi'.
      setoid_replace (inject_Z f * (this m * (100001001 # 100000000)))%Q with (inject_Z f * (100001001 # 100000000) * this m)%Q by ring.
      apply Q_le_mult; assumption.
  - set (c := Qceiling (this x)) in *.
    pose proof (Qle_ceiling (this x)) as G1. fold c in G1.
    pose proof (Qceiling_lt (this x)) as G2. fold c in G2.
    assert (G : (1 < c)%Z).
    { assert (1 < inject_Z c)%Q by (eapply Qlt_le_trans; eassumption). change 1%Q with (inject_Z 1) in H. rewrite <- Zlt_Qlt in H. exact H. }
    split; [lia|]. split.
    + unfold Qclt, Qcmult, Q2Qc. cbn [this]. rewrite Qred_correct, this_qz, Hi'.
      apply Q_lt_mult; assumption.
    + unfold Qcle, Qcmult, Q2Qc. cbn [this]. rewrite !Qred_correct, this_qz, Hi'.
      setoid_replace (inject_Z c * (this m * (100001001 # 100000000)))%Q with (inject_Z c * (100001001 # 100000000) * this m)%Q by ring.
      apply Q_le_mult; [exact Hm'|].
      assert (0 <= inject_Z c)%Q by (change 0%Q with (inject_Z 0); rewrite <- Zle_Qle; lia). lra.
Qed.

Lemma two_nonzero : Q2Qc 2 <> 0.
Proof. intros H. discriminate H. Qed.
Lemma day_nonzero : day <> 0.
Proof. intros H. discriminate H. Qed.

(** The center of piece [ii]. *)
Lemma piece_time summing n r ii : n <> 0%Z ->
  t_time (piece summing n r ii) = t_time r + t_int r / qz n * (qnat ii + half - half * qz n) / day.
Proof.
  intros Hn. cbn [piece t_time]. f_equal. f_equal. f_equal.
  assert (E : qz n = Q2Qc 2 * qz (n / 2) + qz (n mod 2)).
  { change (Q2Qc 2) with (qz 2). rewrite <- qz_mul, <- qz_add. f_equal. apply Z.div_mod. discriminate. }
  rewrite E. unfold half. change (Q2Qc (1 # 2)) with (/ Q2Qc 2).
  assert (E2 : Q2Qc 2 = 1 + 1) by (apply Qc_is_canon; reflexivity).
  rewrite E2. field. intros H. discriminate H.
Qed.

Lemma qsum_const {A} (c : Qc) (l : list A) : qsum (map (fun _ => c) l) = qnat (length l) * c.
Proof.
  induction l as [|x l IH]; [change (qnat (length (@nil A))) with 0; cbn; ring|].
  cbn [map length]. change (qsum (c :: map (fun _ => c) l)) with (c + qsum (map (fun _ => c) l)). rewrite IH.
  change (qnat (S (length l))) with (qz (Z.of_nat (S (length l)))). rewrite Nat2Z.inj_succ. unfold Z.succ. rewrite qz_add.
  change (qz 1) with 1. rewrite qz_of_nat. ring.
Qed.
Lemma qnat_S' n : qnat (S n) = qnat n + 1.
Proof. rewrite <- !qz_of_nat, Nat2Z.inj_succ. unfold Z.succ. rewrite qz_add. reflexivity. Qed.
Lemma qsum_seq n : qsum (map qnat (seq 0 n)) = half * (qnat n * (qnat n - 1)).
Proof.
  induction n as [|n IH]; [cbn; change (qnat 0) with 0; ring|].
  rewrite seq_S, map_app, qsum_app, IH, qnat_S'. cbn [map qsum fold_right Nat.add].
  unfold half. change (Q2Qc (1 # 2)) with (/ Q2Qc 2).
  assert (E : Q2Qc 2 = 1 + 1) by (apply Qc_is_canon; reflexivity).
  rewrite E. field. intros H. discriminate H.
Qed.
Lemma qsum_map_plus {A} (f g : A -> Qc) l : qsum (map (fun x => f x + g x) l) = qsum (map f l) + qsum (map g l).
Proof. induction l as [|x l IH]; cbn; [ring|]. unfold qsum in IH. rewrite IH. ring. Qed.
Lemma qsum_map_scale {A} c (f : A -> Qc) l : qsum (map (fun x => c * f x) l) = c * qsum (map f l).
Proof. induction l as [|x l IH]; cbn; [ring|]. unfold qsum in IH. rewrite IH. ring. Qed.

Lemma pieces_length summing m r : length (pieces summing m r) = Z.to_nat (n_pieces m (t_int r)).
Proof. unfold pieces. rewrite map_length, seq_length. reflexivity. Qed.

Lemma nth_pieces summing m r i d : (i < Z.to_nat (n_pieces m (t_int r)))%nat ->
  nth i (pieces summing m r) d = piece summing (n_pieces m (t_int r)) r i.
Proof.
  intros H. unfold pieces. rewrite (nth_map _ _ _ 0%nat d) by (rewrite seq_length; exact H).
  rewrite seq_nth by exact H. reflexivity.
Qed.

Lemma hd_nth {A} (l : list A) d : hd d l = nth 0 l d.
Proof. destruct l; reflexivity. Qed.
Lemma last_nth {A} (l : list A) d : last l d = nth (length l - 1) l d.
Proof.
  induction l as [|x l IH]; [reflexivity|]. destruct l as [|y l]; [reflexivity|].
  change (last (x :: y :: l) d) with (last (y :: l) d). rewrite IH. cbn [length].
  replace (S (S (length l)) - 1)%nat with (S (length l)) by lia. replace (S (length l) - 1)%nat with (length l) by lia. reflexivity.
Qed.

Lemma pieces_tile summing m r : 0 < m -> is_long m r -> tiles summing m r (pieces summing m r).
Proof.
  intros Hm Hl.
  assert (Hi : m < t_int r) by (unfold is_long, milli in Hl; qlra).
  destruct (n_pieces_spec m (t_int r) Hm Hi) as [N1 [N2 N3]].
  set (n := n_pieces m (t_int r)) in *.
  assert (Hn : qz n <> 0) by (apply qz_nonzero; lia).
  assert (Hnn : qnat (Z.to_nat n) = qz n) by (rewrite <- qz_of_nat, Z2Nat.id by lia; reflexivity).
  assert (Hlen : length (pieces summing m r) = Z.to_nat n) by apply pieces_length.
  assert (Hin : forall p, In p (pieces summing m r) -> exists ii, (ii < Z.to_nat n)%nat /\ p = piece summing n r ii).
  { intros p H. unfold pieces in H. apply in_map_iff in H. destruct H as [ii [E H]]. apply in_seq in H. exists ii. split; [lia|]. symmetry. exact E. }
  assert (P0 : (0 < Z.to_nat n)%nat) by lia.
  assert (Hhd : hd r (pieces summing m r) = piece summing n r 0) by (rewrite hd_nth; apply nth_pieces; exact P0).
  assert (Hlast : last (pieces summing m r) r = piece summing n r (Z.to_nat n - 1)).
  { rewrite last_nth, Hlen. apply nth_pieces. lia. }
  pose proof day_nonzero as D. pose proof two_nonzero as T.
  assert (ET : half = / Q2Qc 2) by reflexivity.
  assert (E2 : Q2Qc 2 = 1 + 1) by (apply Qc_is_canon; reflexivity).
  assert (T' : 1 + 1 <> 0) by (rewrite <- E2; exact T).
  unfold tiles. repeat match goal with |- _ /\ _ => split end.
  - intros E. rewrite E in Hlen. cbn in Hlen. lia.
  - intros p Hp. destruct (Hin p Hp) as [ii [_ ->]]. cbn [piece t_bl t_id t_flag t_ns]. repeat split.
  - intros p Hp. destruct (Hin p Hp) as [ii [_ ->]]. rewrite Hlen, Hnn. reflexivity.
  - unfold pieces. fold n. rewrite map_map. cbn [piece t_int].
    rewrite qsum_const, seq_length, Hnn. field. exact Hn.
  - unfold qmean. rewrite map_length, Hlen. unfold pieces. fold n. rewrite map_map.
    erewrite map_ext; [|intros ii; apply piece_time; lia].
    rewrite qsum_map_plus, qsum_const, seq_length.
    erewrite (map_ext (fun x => t_int r / qz n * (qnat x + half - half * qz n) / day)
                      (fun x => t_int r / qz n / day * (qnat x + (half - half * qz n))));
      [|intros x; field; split; assumption].
    rewrite qsum_map_scale, qsum_map_plus, qsum_seq, qsum_const, seq_length, Hnn.
    rewrite ET, E2. field. repeat split; try assumption; intros Z0; discriminate Z0.
  - rewrite Hhd. unfold begins. rewrite piece_time by lia. change (Q2Qc 86400) with day. cbn [piece t_int].
    change (qnat 0) with 0. rewrite ET, E2. field. repeat split; try assumption; intros Z0; discriminate Z0.
  - rewrite Hlast. unfold ends. rewrite piece_time by lia. change (Q2Qc 86400) with day. cbn [piece t_int].
    assert (EN : qnat (Z.to_nat n - 1) = qz n - 1).
    { rewrite <- Hnn. replace (Z.to_nat n) with (S (Z.to_nat n - 1)) at 2 by lia. rewrite qnat_S'. ring. }
    rewrite EN, ET, E2. field. repeat split; try assumption; intros Z0; discriminate Z0.
  - intros i Hi'. rewrite Hlen in Hi'. rewrite !nth_pieces by (fold n; lia). fold n.
    unfold begins, ends. rewrite !piece_time by lia. change (Q2Qc 86400) with day. cbn [piece t_int].
    rewrite qnat_S', ET, E2. field. repeat split; try assumption; intros Z0; discriminate Z0.
  - intros j k. destruct summing.
    + split; [|split].
      * intros p Hp. destruct (Hin p Hp) as [ii [_ ->]]. rewrite Hhd. reflexivity.
      * unfold pieces. fold n. rewrite map_map. cbn [piece t_data fst]. rewrite qsum_const, seq_length, Hnn. field. exact Hn.
      * unfold pieces. fold n. rewrite map_map. cbn [piece t_data snd]. rewrite qsum_const, seq_length, Hnn. field. exact Hn.
    + intros p Hp. destruct (Hin p Hp) as [ii [_ ->]]. reflexivity.
  - intros p Hp. destruct (Hin p Hp) as [ii [_ ->]]. cbn [piece t_int].
    assert (Pn : 0 < qz n) by (change 0 with (qz 0); apply qz_lt; lia).
    apply (Qcmult_lt_0_le_reg_r _ _ (qz n)); [exact Pn|].
    setoid_replace (t_int r / qz n * qz n) with (t_int r) by (field; exact Hn).
    setoid_replace (m * Q2Qc (100001001 # 100000000) * qz n) with (qz n * (m * Q2Qc (100001001 # 100000000))) by ring.
    exact N3.
  - rewrite Hlen. replace (qnat (Z.to_nat n - 1)) with (qz (n - 1)); [exact N2|].
    rewrite <- qz_of_nat. f_equal. lia.
Qed.

Lemma harmonize_inv leb o kept new o' : harmonize leb o kept new = Ok o' ->
  Permutation (o_rows o') (kept ++ new) /\ o_nbls o' = o_nbls o /\ o_nphase o' = o_nphase o /\
  length (uniqueZ (map t_bl (o_rows o'))) = o_nbls o'.
Proof.
  unfold harmonize. destruct (_ =? _)%nat eqn:E; [|discriminate]. intros H. injection H as <-.
  apply Nat.eqb_eq in E. cbn. split; [|repeat split; exact E]. symmetry. apply isort_perm.
Qed.

Lemma unique_count l bls : NoDup bls -> (forall b, In b bls <-> In b l) -> length (uniqueZ l) = length bls.
Proof.
  intros N H. apply Permutation_length. apply NoDup_Permutation; [apply uniqueZ_NoDup|exact N|].
  intros x. rewrite uniqueZ_In, H. reflexivity.
Qed.

Lemma harmonize_ok leb o kept new : nbls_ok o ->
  (forall b, (exists r, In r (kept ++ new) /\ t_bl r = b) <-> (exists r, In r (o_rows o) /\ t_bl r = b)) ->
  exists o', harmonize leb o kept new = Ok o'.
Proof.
  intros [bls [N [B L]]] H. unfold harmonize.
  replace (length (uniqueZ (map t_bl (reorder leb (kept ++ new)))) =? o_nbls o)%nat with true; [eexists; reflexivity|].
  symmetry. apply Nat.eqb_eq. rewrite <- L. apply unique_count; [exact N|].
  intros b. rewrite B, <- H, in_map_iff. split; intros [r [R1 R2]]; exists r.
  - split; [exact R2|]. apply isort_In. exact R1.
  - split; [|exact R1]. apply isort_In in R2. exact R2.
Qed.

Theorem upsample_spec m summing leb o o' :
  0 < m -> upsample_in_time m summing leb o = Ok o' -> (exists r, In r (o_rows o) /\ is_long m r) ->
  exists ps : trow -> list trow,
    (forall r, In r (o_rows o) -> is_long m r -> tiles summing m r (ps r)) /\
    exists long, Permutation (o_rows o') (filter (fun r => qle (t_int r) m) (o_rows o) ++ flat_map ps long) /\
      (forall r, In r long <-> In r (o_rows o) /\ is_long m r) /\ long = filter (too_long m) (o_rows o).
Proof.
  intros Hm H [r0 [R0 L0]]. unfold upsample_in_time in H.
  destruct (forallb _ _); [discriminate|].
  destruct (filter (too_long m) (o_rows o)) as [|a l] eqn:F.
  - exfalso. assert (In r0 (filter (too_long m) (o_rows o))) as Hin by (apply filter_In; split; [exact R0|apply too_long_spec; exact L0]).
    rewrite F in Hin. destruct Hin.
  - apply harmonize_inv in H. destruct H as [P _].
    exists (pieces summing m). split; [intros r _ L; apply pieces_tile; assumption|].
    exists (a :: l). split; [exact P|]. split; [|reflexivity].
    intros r. rewrite <- F, filter_In, too_long_spec. reflexivity.
Qed.

Theorem upsample_nothing m summing leb o o' :
  upsample_in_time m summing leb o = Ok o' -> (forall r, In r (o_rows o) -> ~ is_long m r) -> o' = o.
Proof.
  intros H N. unfold upsample_in_time in H. destruct (forallb _ _); [discriminate|].
  destruct (filter (too_long m) (o_rows o)) as [|a l] eqn:F; [congruence|].
  exfalso. assert (Hin : In a (filter (too_long m) (o_rows o))) by (rewrite F; left; reflexivity).
  apply filter_In in Hin. destruct Hin as [I T]. apply too_long_spec in T. exact (N a I T).
Qed.

Theorem upsample_total m summing leb o :
  0 < m -> nbls_ok o ->
  (exists r, In r (o_rows o) /\ Q2Qc (1 # 100) * t_int r <= m) ->
  (forall r, In r (o_rows o) -> is_long m r \/ t_int r <= m) ->
  exists o', upsample_in_time m summing leb o = Ok o'.
Proof.
  intros Hm B [r0 [R0 S0]] G. unfold upsample_in_time.
  destruct (forallb _ _) eqn:E.
  - exfalso. rewrite forallb_forall in E. specialize (E r0 R0). apply qlt_spec in E. exact (Qclt_not_le _ _ E S0).
  - destruct (filter (too_long m) (o_rows o)) as [|a l] eqn:F; [eexists; reflexivity|].
    apply harmonize_ok; [exact B|]. intros b. split.
    + intros [r [I <-]]. apply in_app_or in I. destruct I as [I|I].
      * apply filter_In in I. exists r. split; [apply I|reflexivity].
      * apply in_flat_map in I. destruct I as [x [Ix Ip]]. exists x. rewrite <- F in Ix. apply filter_In in Ix. destruct Ix as [Ix Tx].
        split; [exact Ix|]. apply too_long_spec in Tx.
        destruct (pieces_tile summing m x Hm Tx) as [_ [Q _]]. destruct (Q r Ip) as [-> _]. reflexivity.
    + intros [r [I <-]]. destruct (G r I) as [L|L].
      * pose proof (pieces_tile summing m r Hm L) as [NE [Q _]].
        destruct (pieces summing m r) as [|p ps] eqn:EP; [elim NE; reflexivity|].
        exists p. split.
        -- apply in_or_app. right. apply in_flat_map. exists r. split; [|rewrite EP; left; reflexivity].
           rewrite <- F. apply filter_In. split; [exact I|]. apply too_long_spec. exact L.
        -- apply (Q p). left. reflexivity.
      * exists r. split; [|reflexivity]. apply in_or_app. left. apply filter_In. split; [exact I|]. apply qle_spec. exact L.
Qed.
