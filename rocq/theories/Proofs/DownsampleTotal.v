From Coq Require Import List ZArith QArith Qround Qcanon Bool Arith Lia Lqa Sorted Permutation.
From Verif Require Import Lib.Py Lib.Np Lib.Sorting Lib.QSum Model.FreqAvg Model.Resample Spec.ResampleSpec Proofs.ResampleBase Proofs.UpsampleProofs Proofs.DownsampleProofs Proofs.DownsampleTop.
From Verif Require Import Proofs.SelectTotal.
Import ListNotations.
Open Scope Qc_scope.

(** ** Time is conserved and stays within the window *)

Lemma total_perm a b : Permutation a b -> total_time a = total_time b.
Proof. intros P. unfold total_time. apply qsum_perm, Permutation_map, P. Qed.

Lemma total_outs summing ws outs : Forall2 (averages summing) ws outs -> total_time outs = total_time (concat ws).
Proof.
  induction 1 as [|w r ws outs A _ IH]; [reflexivity|]. cbn [concat]. rewrite total_app, <- IH.
  unfold total_time at 1. cbn [map qsum fold_right]. destruct A as [_ [_ [-> _]]]. reflexivity.
Qed.

Lemma conserved complete summing np l out : downsampled complete true summing np l out -> total_time out = total_time l.
Proof.
  intros [sorted [ws [dropped [outs [P [_ [[C [_ [_ [_ D]]]] [F [_ Q]]]]]]]]].
  rewrite (total_perm _ _ Q), (total_outs _ _ _ F), <- (total_perm _ _ P), C, D, app_nil_r. reflexivity.
Qed.

Lemma Qcle_mult_r a b c : 0 <= c -> a <= b -> a * c <= b * c.
Proof. intros H L. apply Qcmult_le_compat_r; assumption. Qed.

Lemma earliest l : l <> [] -> exists a, In a l /\ forall x, In x l -> t_time a <= t_time x.
Proof.
  induction l as [|x l IH]; intros N; [elim N; reflexivity|].
  destruct l as [|y l].
  - exists x. split; [left; reflexivity|]. intros z [<-|[]]. apply Qcle_refl.
  - destruct IH as [a [I H]]; [discriminate|]. destruct (Qclt_le_dec (t_time x) (t_time a)) as [L|L].
    + exists x. split; [left; reflexivity|]. intros z [<-|Z]; [apply Qcle_refl|].
      apply Qcle_trans with (t_time a); [apply Qclt_le_weak; exact L|apply H; exact Z].
    + exists a. split; [right; exact I|]. intros z [<-|Z]; [exact L|apply H; exact Z].
Qed.
Lemma latest l : l <> [] -> exists a, In a l /\ forall x, In x l -> t_time x <= t_time a.
Proof.
  induction l as [|x l IH]; intros N; [elim N; reflexivity|].
  destruct l as [|y l].
  - exists x. split; [left; reflexivity|]. intros z [<-|[]]. apply Qcle_refl.
  - destruct IH as [a [I H]]; [discriminate|]. destruct (Qclt_le_dec (t_time a) (t_time x)) as [L|L].
    + exists x. split; [left; reflexivity|]. intros z [<-|Z]; [apply Qcle_refl|].
      apply Qcle_trans with (t_time a); [apply H; exact Z|apply Qclt_le_weak; exact L].
    + exists a. split; [right; exact I|]. intros z [<-|Z]; [exact L|apply H; exact Z].
Qed.
Lemma weighted_bounds l lo hi : (forall x, In x l -> 0 < t_int x /\ lo <= t_time x /\ t_time x <= hi) ->
  lo * total_time l <= qsum (map (fun x => t_time x * t_int x) l) /\
  qsum (map (fun x => t_time x * t_int x) l) <= hi * total_time l /\ 0 <= total_time l.
Proof.
  induction l as [|x l IH]; intros H.
  - unfold total_time. cbn. repeat split.
    + setoid_replace (lo * 0) with 0 by ring. apply Qcle_refl.
    + setoid_replace (hi * 0) with 0 by ring. apply Qcle_refl.
    + apply Qcle_refl.
  - destruct IH as [A [B C]]; [intros y Hy; apply H; right; exact Hy|].
    destruct (H x (or_introl eq_refl)) as [P [L U]].
    unfold total_time in *. cbn [map qsum fold_right] in *. unfold qsum in *.
    assert (P' : 0 <= t_int x) by (apply Qclt_le_weak; exact P).
    pose proof (Qcle_mult_r _ _ _ P' L) as L'. pose proof (Qcle_mult_r _ _ _ P' U) as U'.
    repeat split.
    + rewrite Qcmult_plus_distr_r. apply Qcplus_le_compat; assumption.
    + rewrite Qcmult_plus_distr_r. apply Qcplus_le_compat; assumption.
    + setoid_replace 0 with (0 + 0) at 1 by ring. apply Qcplus_le_compat; assumption.
Qed.
Lemma total_positive l : l <> [] -> (forall x, In x l -> 0 < t_int x) -> 0 < total_time l.
Proof.
  destruct l as [|x l]; intros N H; [elim N; reflexivity|].
  unfold total_time. cbn [map qsum fold_right].
  assert (A : 0 < t_int x) by (apply H; left; reflexivity).
  assert (B : 0 <= qsum (map t_int l)).
  { apply qsum_nonneg. intros y Hy. apply in_map_iff in Hy. destruct Hy as [z [<- Hz]]. apply Qclt_le_weak, H. right. exact Hz. }
  unfold qsum in B. qlra.
Qed.
Lemma within_window summing w r : averages summing w r -> (forall x, In x w -> 0 < t_int x) ->
  exists a b, In a w /\ In b w /\ t_time a <= t_time r /\ t_time r <= t_time b.
Proof.
  intros [_ [[x0 [Hx0 _]] [_ [T _]]]] P.
  assert (N : w <> []) by (intros E; rewrite E in Hx0; destruct Hx0).
  destruct (earliest w N) as [a [Ia La]]. destruct (latest w N) as [b [Ib Lb]].
  destruct (weighted_bounds w (t_time a) (t_time b)) as [A [B _]]; [intros x Hx; split; [apply P|split; [apply La|apply Lb]]; exact Hx|].
  pose proof (total_positive w N P) as Q.
  assert (NZ : total_time w <> 0) by (intros E; rewrite E in Q; exact (Qlt_irrefl _ Q)).
  exists a, b. split; [exact Ia|]. split; [exact Ib|]. rewrite T. split.
  - apply (Qcmult_lt_0_le_reg_r _ _ (total_time w) Q).
    setoid_replace (qsum (map (fun x => t_time x * t_int x) w) / total_time w * total_time w) with (qsum (map (fun x => t_time x * t_int x) w)) by (field; exact NZ).
    exact A.
  - apply (Qcmult_lt_0_le_reg_r _ _ (total_time w) Q).
    setoid_replace (qsum (map (fun x => t_time x * t_int x) w) / total_time w * total_time w) with (qsum (map (fun x => t_time x * t_int x) w)) by (field; exact NZ).
    exact B.
Qed.

(** ** When downsampling succeeds *)

Definition count_right mi n keep rows bl : Prop :=
  predicted mi n keep rows bl = Ok (Z.of_nat (length (the_windows mi n keep rows bl))).

Lemma downsample_rows_total mi n keep summing leb o :
  nbls_ok o ->
  (forall bl, treated mi o bl -> count_right mi n keep (reorder by_time (o_rows o)) bl) ->
  ((1 < o_nphase o)%nat -> forall x y, In x (o_rows o) -> In y (o_rows o) -> t_bl x = t_bl y -> t_id x = t_id y) ->
  (keep = true \/ forall bl, treated mi o bl -> complete_of mi n (on_baseline bl (o_rows o))) ->
  exists o', downsample_rows mi n keep summing leb o = Ok o'.
Proof.
  intros B C I K. unfold downsample_rows. set (rows := reorder by_time (o_rows o)) in *.
  change (match mi with Some m => uniqueZ (map t_bl (filter (too_short m) rows)) | None => uniqueZ (map t_bl rows) end)
    with (the_bls mi rows).
  set (bls := the_bls mi rows).
  assert (Hb : forall bl, In bl bls <-> treated mi o bl) by (intros bl; apply the_bls_spec).
  assert (M : mapM (predicted mi n keep rows) bls = Ok (map (fun bl => Z.of_nat (length (the_windows mi n keep rows bl))) bls)).
  { apply mapM_Forall2_Ok. apply Forall2_map_r. intros bl Hbl. apply C, Hb, Hbl. }
  rewrite M. cbn [bind]. clear M.
  rewrite (sumZ_windows mi n keep rows bls) by (apply Forall2_map_r; intros; reflexivity).
  set (ws := flat_map (bl_windows mi n keep rows) bls).
  replace (Z.ltb (Z.of_nat (length ws)) 0) with false by (symmetry; apply Z.ltb_ge; lia).
  rewrite mapM_write_ok; [|lia|].
  2: { intros bl w running Hw N. unfold ws in Hw. apply in_flat_map in Hw. destruct Hw as [bl' [Hbl Hw]].
       rewrite bl_windows_eq in Hw. apply in_map_iff in Hw. destruct Hw as [w' [E Hw]]. injection E as -> -> _.
       assert (S : forall x y, In x w -> In y w -> t_id x = t_id y).
       { intros x y Hx Hy. pose proof (in_the_windows _ _ _ _ _ _ _ Hw Hx) as Jx. pose proof (in_the_windows _ _ _ _ _ _ _ Hw Hy) as Jy.
         apply filter_In in Jx. apply filter_In in Jy. destruct Jx as [Jx Ex], Jy as [Jy Ey].
         apply Z.eqb_eq in Ex. apply Z.eqb_eq in Ey. apply isort_In in Jx. apply isort_In in Jy. apply (I N); congruence. }
       destruct (uniqueZ (map t_id w)) as [|a [|b u]] eqn:E; cbn; try lia. exfalso.
       pose proof (uniqueZ_NoDup (map t_id w)) as ND. rewrite E in ND. inversion ND as [|? ? Hn _]. apply Hn. left.
       assert (Ja : In a (map t_id w)) by (apply uniqueZ_In; rewrite E; left; reflexivity).
       assert (Jb : In b (map t_id w)) by (apply uniqueZ_In; rewrite E; right; left; reflexivity).
       apply in_map_iff in Ja. apply in_map_iff in Jb. destruct Ja as [x1 [<- Hx]], Jb as [y1 [<- Hy]]. apply S; assumption. }
  cbn [bind]. rewrite map_length, Z.eqb_refl. cbn [negb]. unfold ws; rewrite made_all.
  apply harmonize_ok; [exact B|]. intros b.
  assert (Hrow : forall r, In r rows <-> In r (o_rows o)) by (intros r; apply isort_In).
  assert (Ne : forall bl r, In r (o_rows o) -> t_bl r = bl -> rows_of bl rows <> []).
  { intros bl r Ir Er E. assert (J : In r (rows_of bl rows)) by (apply filter_In; split; [apply Hrow; exact Ir|apply Z.eqb_eq; exact Er]).
    rewrite E in J. destruct J. }
  assert (New : forall bl, In bl bls -> exists r, In r (outs_of mi n keep summing rows bl) /\ t_bl r = bl).
  { intros bl Hbl. apply Hb in Hbl. pose proof Hbl as T. destruct T as [r [Ir [Er _]]].
    assert (W : exists w, In w (the_windows mi n keep rows bl)).
    { pose proof (wins_cut (complete_of mi n) (over_of mi n) keep (rows_of bl rows) (over_of_spec mi n) (Ne bl r Ir Er)) as [Cc [_ [_ [_ Ck]]]].
      fold (the_windows mi n keep rows bl) in Cc, Ck.
      destruct (the_windows mi n keep rows bl) as [|w ws']; [exfalso|exists w; left; reflexivity].
      cbn [concat app] in Cc. destruct K as [->|K].
      - rewrite Ck in Cc. exact (Ne bl r Ir Er Cc).
      - destruct keep.
        + rewrite Ck in Cc. exact (Ne bl r Ir Er Cc).
        + destruct Ck as [_ Ck]. apply (Ck (rows_of bl rows) []); [rewrite app_nil_r; symmetry; exact Cc|exact (Ne bl r Ir Er)|].
          destruct (rows_of_sorted bl (o_rows o)) as [_ P]. apply (complete_perm mi n _ _ (Permutation_sym P)). apply K, Hbl. }
    destruct W as [w Hw]. exists (average_rows summing bl w (total_time w)). split; [|reflexivity].
    unfold outs_of. apply in_map_iff. exists w. split; [reflexivity|exact Hw]. }
  split.
  - intros [r [J <-]]. apply in_app_or in J. destruct J as [J|J].
    + destruct mi as [m|]; [|destruct J]. apply filter_In in J. exists r. split; [apply Hrow; apply J|reflexivity].
    + apply in_flat_map in J. destruct J as [bl [Hbl J]]. apply Hb in Hbl. destruct Hbl as [x [Ix [Ex _]]].
      unfold outs_of in J. apply in_map_iff in J. destruct J as [w [<- _]]. exists x. split; [exact Ix|exact Ex].
  - intros [r [J <-]]. destruct (isinZ (t_bl r) bls) eqn:E.
    + apply isinZ_spec in E. destruct (New _ E) as [x [Hx Ex]]. exists x. split; [|exact Ex].
      apply in_or_app. right. apply in_flat_map. exists (t_bl r). split; assumption.
    + exists r. split; [|reflexivity]. apply in_or_app. left. destruct mi as [m|].
      * apply filter_In. split; [apply Hrow; exact J|]. fold bls. rewrite E. reflexivity.
      * exfalso. apply isinZ_false in E. apply E. apply Hb. exists r. auto.
Qed.

Lemma count_right_min m n keep rows bl : (1 < length (rows_of bl rows))%nat -> count_right (Some m) n keep rows bl.
Proof.
  intros L. unfold count_right.
  assert (E : exists c, predicted (Some m) n keep rows bl = Ok c).
  { unfold predicted. cbn [bind]. replace (_ <=? _)%nat with false by (symmetry; apply Nat.leb_gt; exact L). eexists. reflexivity. }
  destruct E as [c E]. rewrite E. f_equal. apply predicted_min in E. exact E.
Qed.

(** ** Counting the windows of n integrations *)

Lemma wins_count (n : nat) keep (l : list trow) : (0 < n)%nat -> forall cur, (length cur < n)%nat ->
  length (wins (fun w => Z.leb (Z.of_nat n) (Z.of_nat (length w))) keep cur l) =
  ((length cur + length l) / n + (if keep && negb (length l =? 0)%nat && negb ((length cur + length l) mod n =? 0)%nat then 1 else 0))%nat.
Proof.
  intros Hn. induction l as [|x rest IH]; intros cur Hc.
  - cbn [wins length]. rewrite Nat.add_0_r, Nat.div_small by exact Hc. cbn [Nat.eqb negb]. rewrite andb_false_r. reflexivity.
  - cbn [wins]. assert (EN : length (cur ++ [x]) = S (length cur)) by (rewrite app_length; cbn; lia). rewrite EN.
    cbn [length Nat.eqb negb]. rewrite andb_true_r.
    destruct (Z.leb_spec (Z.of_nat n) (Z.of_nat (S (length cur)))) as [L|L].
    + assert (E : S (length cur) = n) by lia. cbn [length]. rewrite IH by (cbn; lia). cbn [length Nat.add].
      replace (length cur + S (length rest))%nat with (length rest + 1 * n)%nat by lia.
      rewrite Nat.div_add, Nat.mod_add by lia.
      destruct rest as [|y rest].
      * cbn [length Nat.eqb negb]. rewrite andb_false_r, andb_false_l, Nat.div_small, Nat.mod_small by lia. cbn [Nat.eqb negb]. rewrite andb_false_r. reflexivity.
      * cbn [length Nat.eqb negb]. rewrite andb_true_r. lia.
    + destruct rest as [|y rest].
      * replace (length cur + 1)%nat with (S (length cur)) by lia. cbn [length]. rewrite (Nat.div_small (length cur + 1)) by lia.
        rewrite (Nat.mod_small (length cur + 1)) by lia. replace (length cur + 1 =? 0)%nat with false by (symmetry; apply Nat.eqb_neq; lia).
        destruct keep; reflexivity.
      * rewrite IH by lia. rewrite EN. cbn [length Nat.eqb negb]. rewrite andb_true_r.
        replace (length cur + S (S (length rest)))%nat with (S (length cur) + S (length rest))%nat by lia. reflexivity.
Qed.

Lemma Qc_quot (L n : nat) : (0 < n)%nat -> (this (qnat L / qz (Z.of_nat n)) == (Z.of_nat L # Pos.of_nat n))%Q.
Proof.
  intros Hn. unfold Qcdiv, Qcmult, Qcinv, qnat, qz, Q2Qc. cbn [this]. rewrite !Qred_correct.
  rewrite <- (Nat2Pos.id n) at 1 by lia. rewrite positive_nat_Z.
  unfold Qeq, Qmult, Qinv, inject_Z. cbn. lia.
Qed.

Lemma count_right_n (n : nat) keep rows bl : (0 < n)%nat -> (1 < length (rows_of bl rows))%nat ->
  (Z.of_nat n < 100000000)%Z -> (1001 * Z.of_nat (length (rows_of bl rows)) < 100000000)%Z ->
  count_right None (Z.of_nat n) keep rows bl.
Proof.
  intros Hn L2 Bn BL. unfold count_right, predicted. set (L := length (rows_of bl rows)) in *.
  replace (L <=? 1)%nat with false by (symmetry; apply Nat.leb_gt; exact L2).
  unfold count_n_times. replace (Z.of_nat n =? 0)%Z with false by (symmetry; apply Z.eqb_neq; lia). cbn [bind].
  unfold the_windows, over_of. rewrite wins_count by (cbn; lia). cbn [length Nat.add]. fold L.
  replace (L =? 0)%nat with false by (symmetry; apply Nat.eqb_neq; lia). cbn [negb]. rewrite andb_true_r.
  pose proof (Qc_quot L n Hn) as EQ. set (x := qnat L / qz (Z.of_nat n)) in *.
  assert (F : Qfloor (this x) = Z.of_nat (L / n)).
  { rewrite (Qfloor_comp _ _ EQ). cbn [Qfloor]. rewrite <- (Nat2Pos.id n) at 2 by lia. rewrite Nat2Z.inj_div by lia. rewrite positive_nat_Z. reflexivity. }
  assert (G : Qceiling (this x) = Z.of_nat (L / n + (if negb (L mod n =? 0)%nat then 1 else 0))).
  { unfold Qceiling. assert (EO : (- this x == (- Z.of_nat L # Pos.of_nat n))%Q) by (rewrite EQ; reflexivity).
    rewrite (Qfloor_comp _ _ EO). cbn [Qfloor].
    assert (En : Z.pos (Pos.of_nat n) = Z.of_nat n) by (rewrite <- positive_nat_Z, Nat2Pos.id by lia; reflexivity). rewrite En.
    rewrite Nat2Z.inj_add, Nat2Z.inj_div by lia.
    destruct (Nat.eqb_spec (L mod n) 0) as [E|E]; cbn [negb].
    - rewrite Z.div_opp_l_z; [lia|lia|]. rewrite <- Nat2Z.inj_mod by lia. rewrite E. reflexivity.
    - rewrite Z.div_opp_l_nz; [lia|lia|]. rewrite <- Nat2Z.inj_mod by lia. lia. }
  rewrite F, G.
  destruct keep; [|cbn [andb]; rewrite Nat.add_0_r; reflexivity]. cbn [andb].
  destruct (Nat.eqb_spec (L mod n) 0) as [E|E]; cbn [negb].
  - rewrite Nat.add_0_r. destruct (negb (close _ _)); reflexivity.
  - replace (close x (qz (Z.of_nat (L / n)))) with false; [reflexivity|].
    symmetry. apply not_true_iff_false. intros C. unfold close, qclose in C. apply qcabs_bound in C. destruct C as [C _].
    set (N := (L / n)%nat) in *.
    assert (A : qcabs (qz (Z.of_nat N)) = qz (Z.of_nat N)).
    { unfold qcabs. destruct (qle 0 (qz (Z.of_nat N))) eqn:E0; [reflexivity|]. apply qle_false in E0. exfalso.
      apply (Qclt_not_le _ _ E0). change 0 with (qz 0). apply qz_le. lia. }
    rewrite A in C. revert C. qcnorm. rewrite this_qz. cbn [this Q2Qc]. rewrite !Qred_correct. intros C.
    assert (Dm : L = (n * N + L mod n)%nat) by (apply Nat.div_mod; lia).
    set (rm := (L mod n)%nat) in *.
    assert (X : (this x * inject_Z (Z.of_nat n) == inject_Z (Z.of_nat L))%Q).
    { rewrite EQ. rewrite <- (Nat2Pos.id n) at 2 by lia. rewrite positive_nat_Z. unfold Qeq, Qmult, inject_Z. cbn. lia. }
    assert (Dq : (inject_Z (Z.of_nat L) == inject_Z (Z.of_nat N) * inject_Z (Z.of_nat n) + inject_Z (Z.of_nat rm))%Q).
    { rewrite <- inject_Z_mult, <- inject_Z_plus. apply inject_Z_injective. lia. }
    assert (R1 : (1 <= inject_Z (Z.of_nat rm))%Q) by (change 1%Q with (inject_Z 1); rewrite <- Zle_Qle; lia).
    assert (Pn : (0 < inject_Z (Z.of_nat n))%Q) by (change 0%Q with (inject_Z 0); rewrite <- Zlt_Qlt; lia).
    assert (Bq : (inject_Z (Z.of_nat n) < 100000000)%Q) by (change (100000000)%Q with (inject_Z 100000000); rewrite <- Zlt_Qlt; lia).
    assert (BLq : (1001 * inject_Z (Z.of_nat L) < 100000000)%Q).
    { change 1001%Q with (inject_Z 1001). change (100000000)%Q with (inject_Z 100000000). rewrite <- inject_Z_mult, <- Zlt_Qlt. lia. }
    assert (D : N = 0%nat \/ (inject_Z (Z.of_nat n) <= inject_Z (Z.of_nat N) * inject_Z (Z.of_nat n))%Q).
    { destruct N as [|N']; [left; reflexivity|right]. rewrite <- inject_Z_mult, <- Zle_Qle. nia. }
    apply (Q_le_mult _ _ _ Pn) in C.
    destruct D as [D|D].
    + rewrite D in *. change (inject_Z (Z.of_nat 0)) with 0%Q in *. lra.
    + set (T := (inject_Z (Z.of_nat N) * inject_Z (Z.of_nat n))%Q) in *.
      assert (C' : (this x * inject_Z (Z.of_nat n) - T <= (1 # 100000000) * inject_Z (Z.of_nat n) + (1 # 100000) * T)%Q).
      { unfold T. eapply Qle_trans; [|eapply Qle_trans; [exact C|]]; apply Qle_lteq; right; ring. }
      lra.
Qed.

(** ** The method *)

Definition several_times (o : tobj) : Prop := exists x y, In x (o_rows o) /\ In y (o_rows o) /\ t_time x <> t_time y.
Lemma not_one_time o : several_times o -> one_time (o_rows o) = false.
Proof.
  intros [x [y [Hx [Hy N]]]]. unfold one_time. destruct (o_rows o) as [|r rest]; [destruct Hx|].
  destruct (forallb _ rest) eqn:E; [|reflexivity]. exfalso. rewrite forallb_forall in E.
  assert (G : forall z, In z (r :: rest) -> t_time z = t_time r) by (intros z [<-|Hz]; [reflexivity|apply qceq_spec, E, Hz]).
  apply N. rewrite (G x Hx), (G y Hy). reflexivity.
Qed.

Lemma downsample_min_inv m keep summing leb o o' : downsample_in_time (Some m) None keep summing leb o = Ok o' ->
  (exists r, In r (o_rows o) /\ is_short m r) -> downsample_rows (Some m) 1 keep summing leb o = Ok o'.
Proof.
  intros H [r [I S]]. unfold downsample_in_time in H. destruct (one_time _); [discriminate|]. destruct (forallb _ _); [discriminate|].
  destruct (filter (too_short m) (o_rows o)) as [|a l] eqn:F; [|exact H]. exfalso.
  assert (J : In r (filter (too_short m) (o_rows o))) by (apply filter_In; split; [exact I|apply too_short_spec; exact S]).
  rewrite F in J. destruct J.
Qed.

Theorem downsample_min_spec m keep summing leb o o' : downsample_in_time (Some m) None keep summing leb o = Ok o' ->
  forall bl,
    ((exists r, In r (o_rows o) /\ t_bl r = bl /\ is_short m r) ->
       downsampled (reaches m) keep summing (o_nphase o) (on_baseline bl (o_rows o)) (on_baseline bl (o_rows o'))) /\
    ((forall r, In r (o_rows o) -> t_bl r = bl -> ~ is_short m r) ->
       Permutation (on_baseline bl (o_rows o')) (on_baseline bl (o_rows o))).
Proof.
  intros H bl. split.
  - intros T. assert (E : exists r, In r (o_rows o) /\ is_short m r) by (destruct T as [r [I [_ S]]]; exists r; auto).
    apply (downsample_min_inv _ _ _ _ _ _ H) in E. exact (proj1 (downsample_rows_spec _ _ _ _ _ _ _ E bl) T).
  - intros T. unfold downsample_in_time in H. destruct (one_time _); [discriminate|]. destruct (forallb _ _); [discriminate|].
    destruct (filter (too_short m) (o_rows o)) as [|a l] eqn:F; [injection H as <-; reflexivity|].
    apply (proj2 (downsample_rows_spec _ _ _ _ _ _ _ H bl)). intros [r [I [E S]]]. exact (T r I E S).
Qed.

Theorem downsample_min_nothing m keep summing leb o o' : downsample_in_time (Some m) None keep summing leb o = Ok o' ->
  (forall r, In r (o_rows o) -> ~ is_short m r) -> o' = o.
Proof.
  intros H T. unfold downsample_in_time in H. destruct (one_time _); [discriminate|]. destruct (forallb _ _); [discriminate|].
  destruct (filter (too_short m) (o_rows o)) as [|a l] eqn:F; [injection H as <-; reflexivity|]. exfalso.
  assert (J : In a (filter (too_short m) (o_rows o))) by (rewrite F; left; reflexivity).
  apply filter_In in J. destruct J as [J S]. apply too_short_spec in S. exact (T a J S).
Qed.

Theorem downsample_n_spec n keep summing leb o o' : downsample_in_time None (Some n) keep summing leb o = Ok o' ->
  forall bl, (exists r, In r (o_rows o) /\ t_bl r = bl) ->
    downsampled (numbers n) keep summing (o_nphase o) (on_baseline bl (o_rows o)) (on_baseline bl (o_rows o')).
Proof.
  intros H bl [r [I E]]. unfold downsample_in_time in H. destruct (one_time _); [discriminate|].
  apply (proj1 (downsample_rows_spec _ _ _ _ _ _ _ H bl)). exists r. auto.
Qed.

Theorem downsample_min_total m keep summing leb o :
  nbls_ok o -> several_times o ->
  (exists r, In r (o_rows o) /\ m <= Q2Qc 100 * t_int r) ->
  (forall r, In r (o_rows o) -> is_short m r -> (1 < length (on_baseline (t_bl r) (o_rows o)))%nat) ->
  ((1 < o_nphase o)%nat -> forall x y, In x (o_rows o) -> In y (o_rows o) -> t_bl x = t_bl y -> t_id x = t_id y) ->
  (keep = true \/ forall r, In r (o_rows o) -> is_short m r -> reaches m (on_baseline (t_bl r) (o_rows o))) ->
  exists o', downsample_in_time (Some m) None keep summing leb o = Ok o'.
Proof.
  intros B T [r0 [I0 M0]] L I K. unfold downsample_in_time. rewrite (not_one_time o T).
  destruct (forallb _ _) eqn:E.
  - exfalso. rewrite forallb_forall in E. specialize (E r0 I0). apply qlt_spec in E. exact (Qclt_not_le _ _ E M0).
  - destruct (filter (too_short m) (o_rows o)); [eexists; reflexivity|].
    apply downsample_rows_total; [exact B| |exact I|].
    + intros bl [r [Ir [<- S]]]. apply count_right_min.
      destruct (rows_of_sorted (t_bl r) (o_rows o)) as [_ P]. rewrite (Permutation_length P). exact (L r Ir S).
    + destruct K as [K|K]; [left; exact K|right]. intros bl [r [Ir [<- S]]]. exact (K r Ir S).
Qed.

Theorem downsample_n_total (n : nat) keep summing leb o :
  (0 < n)%nat -> (Z.of_nat n < 100000000)%Z -> nbls_ok o -> several_times o ->
  (forall r, In r (o_rows o) -> (1 < length (on_baseline (t_bl r) (o_rows o)))%nat /\
     (1001 * Z.of_nat (length (on_baseline (t_bl r) (o_rows o))) < 100000000)%Z) ->
  ((1 < o_nphase o)%nat -> forall x y, In x (o_rows o) -> In y (o_rows o) -> t_bl x = t_bl y -> t_id x = t_id y) ->
  (keep = true \/ forall r, In r (o_rows o) -> numbers (Z.of_nat n) (on_baseline (t_bl r) (o_rows o))) ->
  exists o', downsample_in_time None (Some (Z.of_nat n)) keep summing leb o = Ok o'.
Proof.
  intros Hn Bn B T L I K. unfold downsample_in_time. rewrite (not_one_time o T).
  apply downsample_rows_total; [exact B| |exact I|].
  - intros bl [r [Ir [<- _]]]. destruct (L r Ir) as [L1 L2].
    destruct (rows_of_sorted (t_bl r) (o_rows o)) as [_ P]. apply Permutation_length in P.
    apply count_right_n; try assumption; rewrite P; assumption.
  - destruct K as [K|K]; [left; exact K|right]. intros bl [r [Ir [<- S]]]. exact (K r Ir).
Qed.

(** The internal assertion holds. *)
Lemma downsample_rows_assertion m n keep summing leb o : downsample_rows (Some m) n keep summing leb o <> Err AssertionError.
Proof.
  unfold downsample_rows. set (rows := reorder by_time (o_rows o)). set (bls := uniqueZ (map t_bl (filter (too_short m) rows))).
  destruct (mapM _ bls) as [counts|e] eqn:M; cbn [bind].
  - assert (E : sumZ counts = Z.of_nat (length (flat_map (bl_windows (Some m) n keep rows) bls))).
    { apply sumZ_windows. apply mapM_Ok_Forall2 in M. clear -M. induction M as [|a b la lb H M IH]; constructor; [exact (predicted_min _ _ _ _ _ _ H)|exact IH]. }
    rewrite E. destruct (Z.ltb _ _); [discriminate|].
    destruct (mapM (write_row _ _ _) _) as [new|e] eqn:W; cbn [bind].
    + pose proof W as W2. apply mapM_write in W2. destruct W2 as [-> _]. rewrite map_length, Z.eqb_refl. cbn [negb].
      unfold harmonize. destruct (_ =? _)%nat; discriminate.
    + apply mapM_Err in W. destruct W as [[k [[bl w] running]] [_ W]]. cbn [write_row] in W.
      intros X. injection X as ->. destruct (Z.leb _ _); [discriminate|]. destruct (_ && _); discriminate.
  - apply mapM_Err in M. destruct M as [bl [_ M]]. intros X. injection X as ->. unfold predicted in M. cbn [bind] in M.
    destruct (_ <=? _)%nat; discriminate.
Qed.
Theorem downsample_min_assertion m keep summing leb o : downsample_in_time (Some m) None keep summing leb o <> Err AssertionError.
Proof.
  unfold downsample_in_time. destruct (one_time _); [discriminate|]. destruct (forallb _ _); [discriminate|].
  destruct (filter _ _); [discriminate|]. apply downsample_rows_assertion.
Qed.
