(** UVCal.__add__ as a whole. *)
From Coq Require Import List ZArith Bool Arith Lia Permutation Sorted String.
From Verif Require Import Lib.Py Lib.Np Lib.Cube Lib.Sorting Spec.UVDataSpec Spec.ToolsSpec Spec.FreqSpec Spec.AddSpec Spec.CalSpec
  Model.UVData Model.Reorder Model.Freq Model.Tools Model.Pol Model.Add Model.UVCal
  Proofs.FreqProofs Proofs.FreqReorder Proofs.ReorderProofs Proofs.ToolsProofs Proofs.AddAxis Proofs.AddMove Proofs.AddJoin
  Proofs.CalArrange Proofs.CalMove Proofs.CalReorder Proofs.CalAlign Proofs.CalJoin Proofs.CalSum.
Import ListNotations.
Notation length := List.length.
Open Scope list_scope.
Open Scope Z_scope.
Notation Ntimes := UVCal.Ntimes.
Notation join := UVCal.join.
Notation add := UVCal.add.

Lemma both_agree {A B} (a : option A) (b : option B) : both_or_neither a b = true <-> agree a b.
Proof.
  unfold both_or_neither, agree, is_none. destruct a, b; cbn [Bool.eqb]; split; intros H; try reflexivity; try discriminate; try (split; congruence);
    exfalso; destruct H as [H1 H2]; [discriminate (H2 eq_refl)|discriminate (H1 eq_refl)].
Qed.

Definition alike (a b : ucal) : Prop :=
  agree (c_flex_jones a) (c_flex_jones b) /\ agree (c_ref_ant a) (c_ref_ant b) /\ c_wide b = c_wide a /\
  agree (c_time_array a) (c_time_array b) /\ agree (c_time_range a) (c_time_range b) /\ c_gain a = c_gain b /\ c_compat a = c_compat b.
Lemma combinable_alike a b : combinable a b = true <-> alike a b.
Proof.
  unfold combinable, alike. rewrite !andb_true_iff, !both_agree, Z.eqb_eq.
  assert (E : forall x y, Bool.eqb x y = true <-> x = y) by (intros [] []; cbn; split; congruence). rewrite !E.
  split; [intros (((((( A & B) & C) & D) & F) & G) & H)|intros (A & B & C & D & F & G & H)]; repeat (split; try assumption); congruence.
Qed.

Lemma paired_map ti oi la lb : paired 0 la lb ti oi -> paired (0, 0) (map (fun w => (w, 0)) la) (map (fun w => (w, 0)) lb) ti oi.
Proof.
  intros (both & N & I & L1 & L2 & H). exists (map (fun w => (w, 0)) both). split; [|split; [|split; [|split]]].
  - apply FinFun.Injective_map_NoDup; [|exact N]. intros x y E. injection E. auto.
  - intros x. rewrite !in_map_iff. split.
    + intros (w & <- & Hw). apply I in Hw. split; exists w; tauto.
    + intros ((w & <- & Hw) & (w' & E & Hw')). injection E as ->. exists w. split; [reflexivity|]. apply I. auto.
  - rewrite map_length. exact L1.
  - rewrite map_length. exact L2.
  - intros q Hq. rewrite map_length in Hq. destruct (H q Hq) as (A & B & C & D). rewrite !map_length.
    assert (E : forall l i, nth i (map (fun w => (w, 0)) l) (0, 0) = (nth i l 0, 0)) by (intros l i; apply (map_nth (fun w => (w, 0)) l 0 i)).
    rewrite !E, B, D. auto.
Qed.
Lemma paired_nonempty {L} (d : L) la lb ti oi x : paired d la lb ti oi -> In x la -> In x lb -> ti <> [].
Proof.
  intros (both & N & I & L1 & _) Ha Hb ->. assert (K : In x both) by (apply I; auto). destruct both; [destruct K|discriminate].
Qed.
Lemma paired_some {L} (d : L) la lb ti oi : paired d la lb ti oi -> ti <> [] -> exists x, In x la /\ In x lb.
Proof.
  intros (both & N & I & L1 & _) Hn. destruct both as [|x both]; [destruct ti; [contradiction|discriminate]|].
  exists x. apply I. left. reflexivity.
Qed.
Lemma empty_spec {A} (l : list A) : empty l = true <-> l = [].
Proof. destruct l; split; (reflexivity || discriminate). Qed.

Section Add.
Variables (a b : ucal).
Hypothesis Ha : cal_ok a.
Hypothesis Hb : cal_ok b.

Let ants := intersect1d Z.eqb Z.leb (c_ants a) (c_ants b).
Let freqs := shared_freqs a b.
Let times := intersect1d Z.eqb Z.leb (time_keys a) (time_keys b).
Let jones := intersect1d Z.eqb Z.leb (c_jones a) (c_jones b).

Lemma pa : paired 0 (c_ants a) (c_ants b) (fst ants) (snd ants). Proof. apply (intersect_paired 0 Z.eqb Z.eqb_eq). Qed.
Lemma pt : paired 0 (time_keys a) (time_keys b) (fst times) (snd times). Proof. apply (intersect_paired 0 Z.eqb Z.eqb_eq). Qed.
Lemma pj : paired 0 (c_jones a) (c_jones b) (fst jones) (snd jones). Proof. apply (intersect_paired 0 Z.eqb Z.eqb_eq). Qed.
Lemma pf : c_wide b = c_wide a -> paired (0, 0) (chans a) (chans b) (fst freqs) (snd freqs).
Proof.
  intros W. unfold freqs, shared_freqs, chans. rewrite W. destruct (c_wide a) eqn:Wa.
  - apply paired_map, (intersect_paired 0 Z.eqb Z.eqb_eq).
  - apply (chans_paired (fo_uvd (freq_view a)) (fo_uvd (freq_view b))); apply view_ok; assumption.
Qed.

Lemma na : NoDup (c_ants a) /\ NoDup (chans a) /\ NoDup (time_keys a) /\ NoDup (c_jones a).
Proof. apply cal_ok_lists in Ha. tauto. Qed.
Lemma nb : NoDup (c_ants b) /\ NoDup (chans b) /\ NoDup (time_keys b) /\ NoDup (c_jones b).
Proof. apply cal_ok_lists in Hb. tauto. Qed.

Lemma pf_perm : c_wide b = c_wide a -> Permutation (order_of (Nchans a) (fst freqs) (snd freqs)) (seq 0 (Nchans a)).
Proof. intros W. rewrite <- (chans_length a Ha). apply (sigma_perm (0, 0) pair_eqb pair_eqb_spec _ (chans b)); [apply na|apply pf, W]. Qed.

Lemma overlap_all x y z p : c_wide b = c_wide a -> has_solution a x y z p -> has_solution b x y z p ->
  empty (fst jones) || empty (fst times) || empty (fst freqs) || empty (fst ants) = false.
Proof.
  intros W H1 H2. rewrite lists_has in H1, H2 by assumption. destruct H1 as (A1 & A2 & A3 & A4), H2 as (B1 & B2 & B3 & B4).
  rewrite !orb_false_iff.
  assert (E : forall A (l : list A), l <> [] -> empty l = false) by (intros A [|]; [contradiction|reflexivity]).
  repeat split; apply E.
  - apply (paired_nonempty _ _ _ _ _ p pj A4 B4).
  - apply (paired_nonempty _ _ _ _ _ z pt A3 B3).
  - apply (paired_nonempty _ _ _ _ _ y (pf W) A2 B2).
  - apply (paired_nonempty _ _ _ _ _ x pa A1 B1).
Qed.

Lemma overlap_refused x y z p : has_solution a x y z p -> has_solution b x y z p -> add a b = Err ValueError.
Proof.
  intros H1 H2. unfold add. destruct (combinable a b) eqn:Ec; [|reflexivity]. cbn [negb]. apply combinable_alike in Ec as (_ & _ & W & _).
  cbv zeta. fold jones times freqs ants.
  assert (R : ranges_apart a b = Ok tt \/ ranges_apart a b = Err ValueError).
  { unfold ranges_apart. destruct (c_time_range a) as [ra|]; [|auto]. destruct (c_time_range b) as [rb|]; [|auto].
    unfold check_range_overlap. destruct (existsb _ (ra ++ rb)); cbn [bind]; [auto|]. destruct (adjacent_overlap _); auto. }
  destruct R as [-> | ->]; [|reflexivity]. cbn [bind]. rewrite (overlap_all x y z p W H1 H2). reflexivity.
Qed.
Lemma different_refused : ~ alike a b -> add a b = Err ValueError.
Proof. intros H. unfold add. destruct (combinable a b) eqn:Ec; [apply combinable_alike in Ec; contradiction|reflexivity]. Qed.

(** proper ranges with a common start overlap *)
Lemma ranges_disagree : proper_ranges a -> proper_ranges b -> ranges_apart a b = Ok tt ->
  forall la lb p q, c_time_range a = Some la -> c_time_range b = Some lb -> In p la -> In q lb -> fst p = fst q -> False.
Proof.
  intros Pa Pb H la lb p q Ea Eb Hp Hq E. unfold ranges_apart in H. rewrite Ea, Eb in H.
  assert (F : Forall (fun r => fst r < snd r) (la ++ lb)).
  { apply Forall_app. split; apply Forall_forall; intros r Hr; [eapply Pa|eapply Pb]; eassumption. }
  destruct (check_range_overlap_exact _ F) as (o & Eo & Ho). rewrite Eo in H. cbn [bind] in H. destruct o; [discriminate|].
  destruct (In_nth _ _ (0, 0) Hp) as (i & Hi & Ei), (In_nth _ _ (0, 0) Hq) as (k & Hk & Ek).
  assert (K : false = true); [|discriminate]. apply Ho. exists i, (length la + k)%nat. rewrite app_length.
  split; [lia|]. split; [lia|]. split; [lia|]. rewrite app_nth1, app_nth2 by lia.
  replace (length la + k - length la)%nat with k by lia. rewrite Ei, Ek. unfold share_interior.
  assert (fst p < snd p) by (eapply Pa; eassumption). assert (fst q < snd q) by (eapply Pb; eassumption). lia.
Qed.

Section Aligned.
Variable a' : ucal.
Hypothesis Hal : alike a b.
Hypothesis Hk : same_kinds a b.
Hypothesis Hra : ranges_apart a b = Ok tt.
Hypothesis Hm : match_orders ants times freqs jones a = Ok a'.

Let W : c_wide b = c_wide a. Proof. apply Hal. Qed.
Lemma aligned : arranges a a' /\ c_ants a' = take 0 (c_ants a) (order_of (Nants a) (fst ants) (snd ants)) /\
  chans a' = take (0, 0) (chans a) (order_of (length (chans a)) (fst freqs) (snd freqs)) /\
  time_keys a' = take 0 (time_keys a) (order_of (Ntimes a) (fst times) (snd times)) /\
  c_jones a' = take 0 (c_jones a) (order_of (Njones a) (fst jones) (snd jones)).
Proof. rewrite (chans_length a Ha). apply match_orders_arranged; [exact Ha|apply pf_perm, W|exact Hm]. Qed.

Lemma ok' : cal_ok a'. Proof. eapply arranges_ok, aligned. Qed.
Lemma agree_take {A B} (d : A) (o : option (list A)) (o' : option B) s : agree o o' -> agree (otake d o s) o'.
Proof. intros H. unfold agree, otake in *. destruct o; cbn [option_map]; [|exact H]. rewrite <- H. split; discriminate. Qed.

Lemma alike' : c_wide b = c_wide a' /\ agree (c_flex_jones a') (c_flex_jones b) /\ agree (c_time_array a') (c_time_array b) /\
  agree (c_time_range a') (c_time_range b) /\ agree (c_lst_array a') (c_lst_array b) /\ agree (c_lst_range a') (c_lst_range b) /\
  agree (c_ref_ant a') (c_ref_ant b) /\
  (forall lu lv p q, c_time_range a' = Some lu -> c_time_range b = Some lv -> In p lu -> In q lv -> fst p = fst q -> p = q).
Proof.
  destruct aligned as ((sa & sf & st & sj & A) & _). destruct Hal as (K1 & K2 & K3 & K4 & K5 & _), Hk as (K6 & K7 & Pa & Pb).
  rewrite (ar_wide _ _ _ _ _ _ A), (ar_ta _ _ _ _ _ _ A), (ar_tr _ _ _ _ _ _ A), (ar_la _ _ _ _ _ _ A), (ar_lr _ _ _ _ _ _ A), (ar_ra _ _ _ _ _ _ A).
  split; [exact K3|]. split; [unfold agree; rewrite (ar_fj _ _ _ _ _ _ A); exact K1|].
  do 5 (split; [apply agree_take; assumption|]).
  intros lu lv p q Eu Ev Hp Hq E. exfalso. destruct (c_time_range a) as [la|] eqn:Ea; [|discriminate]. unfold otake in Eu. cbn [option_map] in Eu.
  injection Eu as <-. eapply (ranges_disagree Pa Pb Hra la lv p q); try eassumption.
  unfold take in Hp. apply in_map_iff in Hp as (k & <- & Hk'). apply nth_In. rewrite (range_len a la Ea).
  apply (perm_seq_facts _ _ (ar_pt _ _ _ _ _ _ A)), Hk'.
Qed.

Lemma joined_spec :
  match tqual_problem a' b (new_in Z.eqb (c_ants a') (c_ants b)) (new_freqs a' b) (new_in Z.eqb (time_keys a') (time_keys b)) (new_in Z.eqb (c_jones a') (c_jones b)) with
  | Some e => join (new_in Z.eqb (c_ants a') (c_ants b)) (new_freqs a' b) (new_in Z.eqb (time_keys a') (time_keys b)) (new_in Z.eqb (c_jones a') (c_jones b)) a' b = Err e
  | None => exists ta tf tt tj r,
      join (new_in Z.eqb (c_ants a') (c_ants b)) (new_freqs a' b) (new_in Z.eqb (time_keys a') (time_keys b)) (new_in Z.eqb (c_jones a') (c_jones b)) a' b = Ok r /\
      csum a' b ta tf tt tj r
  end.
Proof.
  destruct aligned as (_ & Ea & Ef & Et & Ej). destruct alike' as (K1 & K2 & K3 & K4 & K5 & K6 & K7 & K8).
  destruct na as (N1 & N2 & N3 & N4), nb as (M1 & M2 & M3 & M4).
  apply (join_spec a' b ok' Hb K1 K2 K3 K4 K5 K6 K7 K8).
  - apply (aligned_length 0 Z.eqb Z.eqb_eq (c_ants a) _ _ _ _ N1 M1 pa Ea).
  - unfold to_f. rewrite (new_freqs_eq a' b ok' Hb K1).
    rewrite (aligned_length (0, 0) pair_eqb pair_eqb_spec (chans a) _ _ _ _ N2 M2 (pf W) Ef). apply chans_length, Hb.
  - apply (aligned_length 0 Z.eqb Z.eqb_eq (time_keys a) _ _ _ _ N3 M3 pt Et).
  - apply (aligned_length 0 Z.eqb Z.eqb_eq (c_jones a) _ _ _ _ N4 M4 pj Ej).
Qed.

Hypothesis Hsf : shared_come_first a b.
Variables (ta tf tt tj : list nat) (r : ucal).
Hypothesis C : csum a' b ta tf tt tj r.

Lemma firsts : first_shared 0 (c_ants a) (c_ants b) /\ first_shared (0, 0) (chans a) (chans b) /\
  first_shared 0 (time_keys a) (time_keys b) /\ first_shared 0 (c_jones a) (c_jones b).
Proof.
  destruct Hsf as (F1 & F2 & F3 & F4). split; [|split; [|split]].
  - eapply shared_first_list; [| | | |exact F1]; reflexivity.
  - eapply shared_first_list; [| | | |exact F2]; try (apply chans_length; assumption); intros i _; apply chans_nth; assumption.
  - eapply shared_first_list; [| | | |exact F3]; reflexivity.
  - eapply shared_first_list; [| | | |exact F4]; reflexivity.
Qed.

Lemma axes :
  axis' 0 (c_ants a') (c_ants b) (c_ants r) (new_in Z.eqb (c_ants a') (c_ants b)) (to_a a' b) ta /\
  axis' (0, 0) (chans a') (chans b) (chans r) (new_freqs a' b) (to_f a' b) tf /\
  axis' 0 (time_keys a') (time_keys b) (time_keys r) (new_in Z.eqb (time_keys a') (time_keys b)) (to_t a' b) tt /\
  axis' 0 (c_jones a') (c_jones b) (c_jones r) (new_in Z.eqb (c_jones a') (c_jones b)) (to_j a' b) tj.
Proof.
  destruct aligned as (_ & Ea & Ef & Et & Ej). destruct alike' as (K1 & _). destruct firsts as (F1 & F2 & F3 & F4).
  destruct na as (N1 & N2 & N3 & N4), nb as (M1 & M2 & M3 & M4). split; [|split; [|split]].
  - rewrite (cs_ants _ _ _ _ _ _ _ C). apply (axis_aligned 0 Z.eqb Z.eqb_eq (c_ants a) _ _ _ _ _ N1 M1 pa F1 Ea). apply (cs_pa _ _ _ _ _ _ _ C).
  - pose proof (cs_pf _ _ _ _ _ _ _ C) as P. rewrite (cs_chans _ _ _ _ _ _ _ C). unfold to_f. rewrite (new_freqs_eq a' b ok' Hb K1) in *.
    apply (axis_aligned (0, 0) pair_eqb pair_eqb_spec (chans a) _ _ _ _ _ N2 M2 (pf W) F2 Ef). rewrite (chans_length a' ok'). exact P.
  - rewrite (cs_keys _ _ _ _ _ _ _ C). apply (axis_aligned 0 Z.eqb Z.eqb_eq (time_keys a) _ _ _ _ _ N3 M3 pt F3 Et). apply (cs_pt _ _ _ _ _ _ _ C).
  - rewrite (cs_jones _ _ _ _ _ _ _ C). apply (axis_aligned 0 Z.eqb Z.eqb_eq (c_jones a) _ _ _ _ _ N4 M4 pj F4 Ej). apply (cs_pj _ _ _ _ _ _ _ C).
Qed.
End Aligned.

Lemma add_inv r : add a b = Ok r -> alike a b /\ ranges_apart a b = Ok tt /\
  (forall x y z p, has_solution a x y z p -> has_solution b x y z p -> False) /\
  exists a', match_orders ants times freqs jones a = Ok a' /\
    join (new_in Z.eqb (c_ants a') (c_ants b)) (new_freqs a' b) (new_in Z.eqb (time_keys a') (time_keys b)) (new_in Z.eqb (c_jones a') (c_jones b)) a' b = Ok r.
Proof.
  intros H. assert (No : forall x y z p, has_solution a x y z p -> has_solution b x y z p -> False).
  { intros x y z p H1 H2. rewrite (overlap_refused x y z p H1 H2) in H. discriminate. }
  unfold add in H. destruct (combinable a b) eqn:Ec; [|discriminate]. apply combinable_alike in Ec. cbn [negb] in H. cbv zeta in H.
  apply bind_Ok in H as ([] & Hr & H). fold jones times freqs ants in H.
  destruct (negb _) in H; [discriminate|]. destruct (negb _) in H; [discriminate|]. apply bind_Ok in H as (a' & Hm & H). eauto 8.
Qed.
End Add.

Lemma spws_kept ants times jones u u' : match_orders ants times ([], []) jones u = Ok u' -> c_spws u' = c_spws u.
Proof.
  unfold match_orders. intros H.
  apply bind_Ok in H as (u1 & H1 & H). apply bind_Ok in H as (u2 & H2 & H). apply bind_Ok in H as (u3 & H3 & H).
  cbn [fst snd] in H3. rewrite overlap_order_nil in H3. cbn [maybe] in H3. injection H3 as <-.
  assert (E1 : c_spws u1 = c_spws u).
  { destruct (overlap_order (Nants u) _ _); cbn [maybe] in H1; [|injection H1 as <-; reflexivity].
    unfold reorder_antennas in H1. apply bind_Ok in H1 as (idx & _ & H1). injection H1 as <-. destruct (increasing idx); reflexivity. }
  assert (E2 : c_spws u2 = c_spws u1).
  { destruct (overlap_order (Ntimes u1) _ _); cbn [maybe] in H2; [|injection H2 as <-; reflexivity].
    unfold reorder_times in H2. apply bind_Ok in H2 as (idx & _ & H2). injection H2 as <-. destruct (increasing idx); reflexivity. }
  assert (E3 : c_spws u' = c_spws u2).
  { destruct (overlap_order (Njones u2) _ _); cbn [maybe] in H; [|injection H as <-; reflexivity].
    unfold reorder_jones in H. apply bind_Ok in H as (idx & _ & H). injection H as <-. destruct (increasing idx); reflexivity. }
  congruence.
Qed.

Lemma no_shared_freqs a b : cal_ok a -> cal_ok b -> c_wide b = c_wide a -> (forall x, In x (c_spws a) -> ~ In x (c_spws b)) ->
  shared_freqs a b = ([], []).
Proof.
  intros Ha Hb W H. pose proof (pf a b Ha Hb W) as P. pose proof P as (both & _ & _ & L1 & L2 & _).
  destruct (shared_freqs a b) as [ti oi]. cbn [fst snd] in *. destruct ti as [|i ti].
  - destruct oi; [reflexivity|]. exfalso. destruct both; discriminate.
  - exfalso. destruct (paired_some _ _ _ _ _ P) as ([w f] & K1 & K2); [discriminate|].
    apply (H w); eapply (spws_chans _ w); eauto.
Qed.

Section Whole.
Variables (a b r : ucal).
Hypothesis Ha : cal_ok a.
Hypothesis Hb : cal_ok b.
Hypothesis Hk : same_kinds a b.
Hypothesis Hs : shared_come_first a b.
Hypothesis E : add a b = Ok r.

Lemma whole : exists a' ta tf tt tj,
  alike a b /\ arranges a a' /\ same_content a a' /\ cal_ok a' /\ csum a' b ta tf tt tj r /\
  (axis' 0 (c_ants a') (c_ants b) (c_ants r) (new_in Z.eqb (c_ants a') (c_ants b)) (to_a a' b) ta /\
   axis' (0, 0) (chans a') (chans b) (chans r) (new_freqs a' b) (to_f a' b) tf /\
   axis' 0 (time_keys a') (time_keys b) (time_keys r) (new_in Z.eqb (time_keys a') (time_keys b)) (to_t a' b) tt /\
   axis' 0 (c_jones a') (c_jones b) (c_jones r) (new_in Z.eqb (c_jones a') (c_jones b)) (to_j a' b) tj) /\
  (forall x y z p, has_solution a' x y z p -> has_solution b x y z p -> False) /\
  (c_wide b = c_wide a' /\ agree (c_flex_jones a') (c_flex_jones b) /\ agree (c_time_array a') (c_time_array b) /\
   agree (c_time_range a') (c_time_range b) /\ agree (c_lst_array a') (c_lst_array b) /\ agree (c_lst_range a') (c_lst_range b) /\
   agree (c_ref_ant a') (c_ref_ant b)) /\
  ((forall x, In x (c_spws a) -> ~ In x (c_spws b)) -> c_spws a' = c_spws a).
Proof.
  destruct (add_inv a b Ha Hb r E) as (Al & Hr & No & a' & Hm & Hj).
  pose proof (joined_spec a b Ha Hb a' Al Hk Hr Hm) as J. destruct (tqual_problem a' b _ _ _ _) as [e|]; [rewrite J in Hj; discriminate|].
  destruct J as (ta & tf & tt & tj & r' & Er & C). rewrite Er in Hj. injection Hj as ->.
  pose proof (aligned a b Ha Hb a' Al Hm) as (Ar & _). pose proof (arranges_content a a' Ha Ar) as Co.
  pose proof (axes a b Ha Hb a' Al Hk Hr Hm Hs ta tf tt tj r C) as Ax.
  pose proof (alike' a b Ha Hb a' Al Hk Hr Hm) as (K1 & K2 & K3 & K4 & K5 & K6 & K7 & _).
  exists a', ta, tf, tt, tj. split; [exact Al|]. split; [exact Ar|]. split; [exact Co|]. split; [apply (arranges_ok _ _ Ar)|]. split; [exact C|].
  split; [exact Ax|]. split; [|split; [tauto|]].
  - intros x y z p H1 H2. apply (No x y z p); [|exact H2]. destruct Co as (_ & _ & _ & (C1 & C2 & C3 & C4) & _).
    destruct H1 as (D1 & D2 & D3 & D4). split; [apply C1, D1|]. split; [apply C2, D2|]. split; [apply C3, D3|apply C4, D4].
  - intros Hw. rewrite (no_shared_freqs a b Ha Hb (proj1 (proj2 (proj2 Al))) Hw) in Hm. apply spws_kept in Hm. exact Hm.
Qed.

Lemma has_same u r' : same_content u r' -> forall x y z p, has_solution r' x y z p <-> has_solution u x y z p.
Proof. intros (_ & _ & _ & (C1 & C2 & C3 & C4) & _) x y z p. unfold has_solution. rewrite C1, C2, C3, C4. reflexivity. Qed.
Lemma arranged_none {A} (d : A) o s : otake d o s = None <-> o = None.
Proof. unfold otake. destruct o; cbn; split; congruence. Qed.
Lemma graded_same a' : arranges a a' -> forall c, graded a' b c = graded a b c.
Proof. intros (sa & sf & st & sj & A) c. unfold graded. pose proof (ar_qual _ _ _ _ _ _ A) as Q.
  destruct (c_qual a), (c_qual a'); try contradiction; reflexivity. Qed.
Lemma tqual_same a' : arranges a a' -> (c_tqual a' = None <-> c_tqual a = None).
Proof. intros (sa & sf & st & sj & A). pose proof (ar_tq _ _ _ _ _ _ A) as Q.
  destruct (c_tqual a), (c_tqual a'); try contradiction; split; congruence. Qed.

Lemma whole_solutions x y z p c : solution r x y z p c <->
  exists c0, c = graded a b c0 /\
    (solution b x y z p c0 \/ solution a x y z p c0 \/
     (has_solution r x y z p /\ ~ has_solution a x y z p /\ ~ has_solution b x y z p /\ c0 = no_solution)).
Proof.
  destruct whole as (a' & ta & tf & tt & tj & Al & Ar & Co & O & C & (A1 & A2 & A3 & A4) & No & _ & _).
  rewrite (sum_solutions a' b r ta tf tt tj O Hb C A1 A2 A3 A4 No). pose proof (has_same _ _ Co) as Hh. destruct Co as (_ & _ & _ & _ & Cs & _).
  split; intros (c0 & Ec & H); exists c0; (split; [rewrite Ec, (graded_same a' Ar); reflexivity|]);
    unfold from_either in *; rewrite ?Cs, ?Hh in *; exact H.
Qed.

Lemma whole_ok : cal_ok r /\ axes_united a b r /\ c_gain r = c_gain a /\ c_wide r = c_wide a /\ c_compat r = c_compat a.
Proof.
  destruct whole as (a' & ta & tf & tt & tj & Al & Ar & Co & O & C & (A1 & A2 & A3 & A4) & No & _ & _).
  pose proof (cs_ok _ _ _ _ _ _ _ C) as Or. split; [exact Or|].
  destruct Co as (C1 & C2 & C3 & (Ca & Cf & Ct & Cj) & _).
  rewrite (cs_gain _ _ _ _ _ _ _ C), (cs_wide _ _ _ _ _ _ _ C), (cs_compat _ _ _ _ _ _ _ C). split; [|auto].
  pose proof (proj1 (cal_ok_lists r) Or) as (_ & N1 & N2 & N3 & N4).
  split; [|split; [|split]]; (split; [|]).
  - apply Or.
  - intros x. change (has_ant r x <-> has_ant a x \/ has_ant b x). rewrite <- Ca, !has_ant_In. apply (ay_in _ _ _ _ _ _ _ A1).
  - apply Or.
  - intros x. change (has_chan r x <-> has_chan a x \/ has_chan b x). rewrite <- Cf, !has_chan_In by assumption. apply (ay_in _ _ _ _ _ _ _ A2).
  - apply Or.
  - intros x. change (has_time r x <-> has_time a x \/ has_time b x). rewrite <- Ct, !has_time_In. apply (ay_in _ _ _ _ _ _ _ A3).
  - apply Or.
  - intros x. change (has_jones r x <-> has_jones a x \/ has_jones b x). rewrite <- Cj, !has_jones_In. apply (ay_in _ _ _ _ _ _ _ A4).
Qed.

Lemma whole_has_total : c_tqual r <> None <-> (forall x, has_ant b x -> has_ant a x) /\ (c_tqual a <> None \/ c_tqual b <> None).
Proof.
  destruct whole as (a' & ta & tf & tt & tj & Al & Ar & Co & O & C & (A1 & _) & No & _ & _).
  rewrite (cs_none _ _ _ _ _ _ _ C), (tqual_same a' Ar). destruct Co as (_ & _ & _ & (Ca & _) & _).
  assert (N : new_in Z.eqb (c_ants a') (c_ants b) = [] <-> forall x, has_ant b x -> has_ant a x).
  { split.
    - intros En x Hx. apply Ca, has_ant_In. apply has_ant_In in Hx. destruct (In_dec Z.eq_dec x (c_ants a')) as [|Nx]; [assumption|].
      exfalso. destruct (In_nth _ _ 0 Hx) as (i & Hi & Ei).
      assert (K : In i (new_in Z.eqb (c_ants a') (c_ants b))) by (apply (new_spec 0 Z.eqb Z.eqb_eq); rewrite Ei; auto).
      rewrite En in K. destruct K.
    - intros H. destruct (new_in Z.eqb (c_ants a') (c_ants b)) as [|i l] eqn:En; [reflexivity|]. exfalso.
      assert (K : In i (new_in Z.eqb (c_ants a') (c_ants b))) by (rewrite En; left; reflexivity).
      apply (new_spec 0 Z.eqb Z.eqb_eq) in K as (Hi & K). apply K. apply has_ant_In, Ca, H, has_ant_In, nth_In, Hi. }
  rewrite <- N. destruct (c_tqual a), (c_tqual b), (new_in Z.eqb (c_ants a') (c_ants b)); split; intros H; try tauto;
    try (split; [reflexivity|]; solve [left; discriminate|right; discriminate]);
    try (intros [K|(K & K')]; congruence);
    try (exfalso; apply H; solve [left; discriminate|right; split; reflexivity]); destruct H as (H & [H'|H']); try congruence; discriminate.
Qed.

Lemma whole_total y z p q : c_tqual r <> None ->
  (total_quality r y z p q <->
   total_quality b y z p q \/ (~ has_total b y z p /\ total_quality a y z p q) \/
   (~ has_total b y z p /\ ~ has_total a y z p /\ (has_chan r y /\ has_time r z /\ has_jones r p) /\ q = 0)).
Proof.
  destruct whole as (a' & ta & tf & tt & tj & Al & Ar & Co & O & C & (_ & A2 & A3 & A4) & _).
  intros Hr. rewrite (sum_totals a' b r ta tf tt tj O Hb C A2 A3 A4 y z p q Hr). unfold total_of, has3.
  destruct Co as (_ & _ & _ & _ & _ & Ct & _).
  assert (Ht : has_total a' y z p <-> has_total a y z p) by (unfold has_total; setoid_rewrite Ct; reflexivity).
  rewrite Ct, Ht. reflexivity.
Qed.

Lemma whole_times z m : about_time r z m <-> about_time a z m \/ (~ has_time a z /\ about_time b z m).
Proof.
  destruct whole as (a' & ta & tf & tt & tj & Al & Ar & Co & O & C & (_ & A2 & A3 & A4) & No & (K1 & K2 & K3 & K4 & K5 & K6 & K7) & _).
  rewrite (sum_times a' b r ta tf tt tj O Hb C A3 K3 K4 K5 K6 K7).
  destruct Co as (_ & _ & _ & (_ & _ & Ct & _) & _ & _ & Cm & _). rewrite Ct, Cm. reflexivity.
Qed.
Lemma whole_chans y m : about_chan r y m <-> about_chan a y m \/ (~ has_chan a y /\ about_chan b y m).
Proof.
  destruct whole as (a' & ta & tf & tt & tj & Al & Ar & Co & O & C & (_ & A2 & A3 & A4) & No & _).
  rewrite (sum_chans a' b r ta tf tt tj O Hb C A2).
  destruct Co as (_ & _ & _ & (_ & Cc & _ & _) & _ & _ & _ & Cm & _). rewrite Cc, Cm. reflexivity.
Qed.
Lemma whole_windows w p :
  (forall y, has_chan b y -> has_chan a y) \/
  ((forall x, In x (c_spws a) -> ~ In x (c_spws b)) /\ StronglySorted Z.lt (c_spws a ++ c_spws b)) ->
  (window_jones r w p <-> window_jones a w p \/ (~ In w (c_spws a) /\ window_jones b w p)).
Proof.
  intros Hc.
  destruct whole as (a' & ta & tf & tt & tj & Al & Ar & Co & O & C & (_ & A2 & A3 & A4) & No & (K1 & K2 & _) & Hsp).
  pose proof Co as (_ & _ & _ & (_ & Cc & _ & _) & _ & _ & _ & _ & Cw).
  assert (Si : forall x, In x (c_spws a') <-> In x (c_spws a)).
  { intros x. rewrite !spws_chans by assumption. setoid_rewrite <- has_chan_In; [|assumption|assumption]. setoid_rewrite Cc. reflexivity. }
  rewrite (sum_windows a' b r ta tf tt tj O Hb C A2 No K1 K2 w p); [rewrite Cw, Si; reflexivity|].
  destruct Hc as [Hc|(Hd & So)].
  - left. intros y Hy. apply has_chan_In; [assumption|]. apply Cc, Hc, has_chan_In; assumption.
  - right. rewrite (Hsp Hd). auto.
Qed.
End Whole.

(** ** Success *)


Lemma listZ_eqb_refl l : listZ_eqb l l = true.
Proof. induction l; cbn; [reflexivity|]. rewrite Z.eqb_refl. exact IHl. Qed.
Lemma listZ_eqb_eq l l' : listZ_eqb l l' = true -> l = l'.
Proof.
  revert l'. induction l as [|x l IH]; intros [|y l']; cbn; try discriminate; [reflexivity|].
  intros H. apply andb_true_iff in H as (H1 & H2). apply Z.eqb_eq in H1. rewrite H1, (IH l' H2). reflexivity.
Qed.

Lemma add_total a b : cal_ok a -> cal_ok b -> same_kinds a b -> same_parameters a b -> times_apart a b ->
  (forall x y z p, has_solution a x y z p -> ~ has_solution b x y z p) -> same_references a b -> totals_combine a b ->
  exists r, add a b = Ok r.
Proof.
  intros Ha Hb Hk Hc Hap Hno Hrefs Htot. unfold add.
  assert (Al : alike a b) by exact Hc. pose proof Al as (_ & _ & W & _).
  rewrite (proj2 (combinable_alike a b) Al). cbn [negb]. cbv zeta.
  assert (Hr : ranges_apart a b = Ok tt).
  { unfold ranges_apart. destruct (c_time_range a) as [la|] eqn:Ea; [|reflexivity]. destruct (c_time_range b) as [lb|] eqn:Eb; [|reflexivity].
    assert (F : Forall (fun r => fst r < snd r) (la ++ lb)).
    { destruct Hk as (_ & _ & Pa & Pb). apply Forall_app. split; apply Forall_forall; intros q Hq; [eapply Pa|eapply Pb]; eassumption. }
    destruct (check_range_overlap_exact _ F) as (o & Eo & Ho). rewrite Eo. cbn [bind]. destruct o; [|reflexivity]. exfalso.
    destruct (proj1 Ho eq_refl) as (i & j & Hi & Hj & Hij & Hsh). apply (Hap la lb i j); auto. }
  rewrite Hr. cbn [bind].
  assert (Em : empty (fst (intersect1d Z.eqb Z.leb (c_jones a) (c_jones b))) || empty (fst (intersect1d Z.eqb Z.leb (time_keys a) (time_keys b))) ||
    empty (fst (shared_freqs a b)) || empty (fst (intersect1d Z.eqb Z.leb (c_ants a) (c_ants b))) = true).
  { match goal with |- ?e = true => destruct e eqn:Ee; [reflexivity|] end. exfalso. rewrite !orb_false_iff in Ee. destruct Ee as (((E1 & E2) & E3) & E4).
    assert (K : forall A (l : list A), empty l = false -> l <> []) by (intros A [|]; discriminate).
    destruct (paired_some _ _ _ _ _ (pj a b) (K _ _ E1)) as (p & P1 & P2), (paired_some _ _ _ _ _ (pt a b) (K _ _ E2)) as (z & Z1 & Z2),
      (paired_some _ _ _ _ _ (pf a b Ha Hb W) (K _ _ E3)) as (y & Y1 & Y2), (paired_some _ _ _ _ _ (pa a b) (K _ _ E4)) as (x & X1 & X2).
    apply (Hno x y z p); apply lists_has; auto. }
  rewrite Em. cbn [negb].
  assert (Er : same_refs a b (fst (intersect1d Z.eqb Z.leb (time_keys a) (time_keys b))) (snd (intersect1d Z.eqb Z.leb (time_keys a) (time_keys b))) = true).
  { unfold same_refs. destruct (c_ref_ant a) as [l|] eqn:Ea; [|reflexivity]. destruct (c_ref_ant b) as [l'|] eqn:Eb; [|reflexivity].
    destruct (pt a b) as (both & _ & _ & L1 & L2 & H). set (ti := fst (intersect1d Z.eqb Z.leb (time_keys a) (time_keys b))) in *. set (oi := snd (intersect1d Z.eqb Z.leb (time_keys a) (time_keys b))) in *.
    replace (take 0 l' oi) with (take 0 l ti); [apply listZ_eqb_refl|].
    apply (nth_ext _ _ 0 0); [rewrite !take_length; lia|]. intros q Hq. rewrite take_length in Hq.
    rewrite !nth_take by lia. destruct (H q ltac:(lia)) as (H1 & H2 & H3 & H4). apply Hrefs; auto. unfold time_at. congruence. }
  rewrite Er. cbn [negb].
  pose proof (proj1 (cal_ok_lists a) Ha) as (_ & N1 & N2 & N3 & N4).
  destruct (match_orders_total (intersect1d Z.eqb Z.leb (c_ants a) (c_ants b)) (intersect1d Z.eqb Z.leb (time_keys a) (time_keys b))
    (shared_freqs a b) (intersect1d Z.eqb Z.leb (c_jones a) (c_jones b)) a Ha) as (a' & Hm).
  - apply (sigma_perm 0 Z.eqb Z.eqb_eq _ (c_ants b)); [exact N1|apply pa].
  - apply (sigma_perm 0 Z.eqb Z.eqb_eq _ (time_keys b)); [exact N3|apply pt].
  - apply pf_perm; assumption.
  - apply (sigma_perm 0 Z.eqb Z.eqb_eq _ (c_jones b)); [exact N4|apply pj].
  - intros Hz. rewrite <- (chans_length a Ha) in Hz. pose proof (pf a b Ha Hb W) as P. pose proof P as (both & _ & I & L1 & L2 & _).
    destruct both as [|x both].
    + destruct (fst (shared_freqs a b)), (snd (shared_freqs a b)); try discriminate. auto.
    + exfalso. assert (K : In x (chans a)) by (apply I; left; reflexivity). destruct (chans a); [destruct K|discriminate].
  - rewrite Hm. cbn [bind]. pose proof (joined_spec a b Ha Hb a' Al Hk Hr Hm) as J.
    destruct (tqual_problem a' b _ _ _ _) as [e|] eqn:Et; [exfalso|destruct J as (ta & tf & ts & tj & r & Er' & _); eauto].
    pose proof (aligned a b Ha Hb a' Al Hm) as (Ar & _). pose proof (arranges_content a a' Ha Ar) as (_ & Cw & _ & (Ca & _ & Ct & _) & _).
    unfold tqual_problem in Et. destruct (negb (empty (new_in Z.eqb (c_ants a') (c_ants b))) || (is_none (c_tqual a') && is_none (c_tqual b))) eqn:E1; [discriminate|].
    apply orb_false_iff in E1 as (E1 & E1'). apply negb_false_iff, empty_spec in E1.
    destruct Htot as [(T1 & T2)|[(x & X1 & X2)|(T1 & T2)]].
    + apply (tqual_same a a' Ar) in T1. rewrite T1, T2 in E1'. discriminate.
    + rewrite <- Ca, has_ant_In in X2. apply has_ant_In in X1. destruct (In_nth _ _ 0 X1) as (i & Hi & Ei).
      assert (K : In i (new_in Z.eqb (c_ants a') (c_ants b))) by (apply (new_spec 0 Z.eqb Z.eqb_eq); rewrite Ei; auto). rewrite E1 in K. destruct K.
    + destruct (negb (empty (new_in Z.eqb (time_keys a') (time_keys b))) && is_none (c_qual a') && is_none (c_qual b)) eqn:E2.
      * rewrite !andb_true_iff, negb_true_iff in E2. destruct E2 as ((E2 & E3) & E4). destruct T1 as [T1|T1].
        -- destruct (new_in Z.eqb (time_keys a') (time_keys b)) as [|i l] eqn:En; [discriminate|].
           assert (K : In i (new_in Z.eqb (time_keys a') (time_keys b))) by (rewrite En; left; reflexivity).
           apply (new_spec 0 Z.eqb Z.eqb_eq) in K as (Hi & K). apply K. apply has_time_In, Ct, T1, has_time_In, nth_In, Hi.
        -- destruct Ar as (sa & sf & st & sj & A). pose proof (ar_qual _ _ _ _ _ _ A) as Q.
           destruct (c_qual a), (c_qual a'), (c_qual b); try contradiction; try discriminate. destruct T1; congruence.
      * destruct (is_none (c_tqual a') && c_wide a' && negb (Nchans a' =? 1)%nat) eqn:E3; [|discriminate].
        rewrite !andb_true_iff, negb_true_iff, Nat.eqb_neq, Cw in E3. destruct E3 as ((E3 & E4) & E5). destruct T2 as [T|[T|T]].
        -- apply T, (tqual_same a a' Ar). destruct (c_tqual a'); [discriminate|reflexivity].
        -- congruence.
        -- apply E5. destruct Ar as (sa & sf & st & sj & A). rewrite <- T. rewrite <- (chans_length a Ha), <- (chans_length a' (arranges_ok a a' (ex_intro _ sa (ex_intro _ sf (ex_intro _ st (ex_intro _ sj A)))))).
           pose proof (aligned a b Ha Hb a' Al Hm) as (_ & _ & Ec & _). rewrite Ec, take_length, (chans_length a Ha).
           rewrite (Permutation_length (pf_perm a b Ha Hb W)), seq_length. reflexivity.
Qed.

Lemma references_refused a b : cal_ok a -> cal_ok b -> ~ same_references a b -> add a b = Err ValueError.
Proof.
  intros Ha Hb H. unfold add. destruct (negb (combinable a b)); [reflexivity|]. cbv zeta.
  assert (R : ranges_apart a b = Ok tt \/ ranges_apart a b = Err ValueError).
  { unfold ranges_apart. destruct (c_time_range a) as [ra|]; [|auto]. destruct (c_time_range b) as [rb|]; [|auto].
    unfold check_range_overlap. destruct (existsb _ (ra ++ rb)); cbn [bind]; [auto|]. destruct (adjacent_overlap _); auto. }
  destruct R as [-> | ->]; [|reflexivity]. cbn [bind]. destruct (negb (empty _ || _ || _ || _)); [reflexivity|].
  destruct (same_refs a b _ _) eqn:Er; [|reflexivity]. exfalso. apply H. intros l l' i j Ea Eb Hi Hj Eij.
  unfold same_refs in Er. rewrite Ea, Eb in Er. apply listZ_eqb_eq in Er.
  destruct (pt a b) as (both & _ & I & L1 & L2 & K). set (ti := fst (intersect1d Z.eqb Z.leb (time_keys a) (time_keys b))) in *. set (oi := snd (intersect1d Z.eqb Z.leb (time_keys a) (time_keys b))) in *.
  assert (Hx : In (time_at a i) both) by (apply I; split; [apply nth_In, Hi|rewrite Eij; apply nth_In, Hj]).
  destruct (In_nth _ _ 0 Hx) as (q & Hq & Eq). destruct (K q Hq) as (K1 & K2 & K3 & K4). rewrite Eq in K2, K4.
  pose proof (proj1 (cal_ok_lists a) Ha) as (_ & _ & _ & N3 & _). pose proof (proj1 (cal_ok_lists b) Hb) as (_ & _ & _ & M3 & _).
  assert (Ei : nth q ti O = i) by (apply (proj1 (NoDup_nth _ 0) N3); [exact K1|exact Hi|exact K2]).
  assert (Ej : nth q oi O = j) by (apply (proj1 (NoDup_nth _ 0) M3); [exact K3|exact Hj|rewrite K4, Eij; reflexivity]).
  apply (f_equal (fun s => nth q s 0)) in Er. rewrite !nth_take in Er by lia. rewrite Ei, Ej in Er. exact Er.
Qed.

Lemma add_ok a b r : cal_ok a -> cal_ok b -> same_kinds a b -> add a b = Ok r -> cal_ok r.
Proof.
  intros Ha Hb Hk E. destruct (add_inv a b Ha Hb r E) as (Al & Hr & _ & a' & Hm & Hj).
  pose proof (joined_spec a b Ha Hb a' Al Hk Hr Hm) as J. destruct (tqual_problem a' b _ _ _ _) as [e|]; [rewrite J in Hj; discriminate|].
  destruct J as (ta & tf & ts & tj & r' & Er & C). rewrite Er in Hj. injection Hj as ->. apply (cs_ok _ _ _ _ _ _ _ C).
Qed.
