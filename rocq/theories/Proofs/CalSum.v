(** What the sum of two calibration objects contains. *)
From Coq Require Import List ZArith Bool Arith Lia Permutation Sorted String.
From Verif Require Import Lib.Py Lib.Np Lib.Cube Lib.Sorting Spec.UVDataSpec Spec.FreqSpec Spec.AddSpec Spec.CalSpec
  Model.UVData Model.Reorder Model.Freq Model.Pol Model.Add Model.UVCal
  Proofs.FreqProofs Proofs.FreqReorder Proofs.ReorderProofs Proofs.AddAxis Proofs.AddMove Proofs.AddJoin
  Proofs.CalArrange Proofs.CalMove Proofs.CalReorder Proofs.CalAlign Proofs.CalJoin.
Import ListNotations.
Notation length := List.length.
Open Scope list_scope.
Open Scope Z_scope.
Notation Ntimes := UVCal.Ntimes.
Notation join := UVCal.join.

(** ** Labels as lists *)
Lemma has_ant_In u x : has_ant u x <-> In x (c_ants u).
Proof. apply (on_axis_list 0); reflexivity. Qed.
Lemma has_time_In u x : has_time u x <-> In x (time_keys u).
Proof. apply (on_axis_list 0); reflexivity. Qed.
Lemma has_jones_In u x : has_jones u x <-> In x (c_jones u).
Proof. apply (on_axis_list 0); reflexivity. Qed.
Lemma has_chan_In u x : cal_ok u -> (has_chan u x <-> In x (chans u)).
Proof. intros H. apply (on_axis_list (0, 0)); [apply chans_length, H|]. intros i _. apply chans_nth, H. Qed.

Lemma solution_fun u x y z p c c' : cal_ok u -> solution u x y z p c -> solution u x y z p c' -> c = c'.
Proof.
  intros (_ & _ & _ & _ & D1 & D2 & D3 & D4) (a & f & t & j & A1 & A2 & A3 & A4 & E1 & E2 & E3 & E4 & <-)
    (a' & f' & t' & j' & B1 & B2 & B3 & B4 & F1 & F2 & F3 & F4 & <-).
  rewrite (D1 a a' A1 B1), (D2 f f' A2 B2), (D3 t t' A3 B3), (D4 j j' A4 B4) by congruence. reflexivity.
Qed.
Lemma total_fun u y z p q q' : cal_ok u -> total_quality u y z p q -> total_quality u y z p q' -> q = q'.
Proof.
  intros (_ & _ & _ & _ & D1 & D2 & D3 & D4) (tq & f & t & j & E0 & A2 & A3 & A4 & E2 & E3 & E4 & <-)
    (tq' & f' & t' & j' & F0 & B2 & B3 & B4 & F2 & F3 & F4 & <-).
  rewrite E0 in F0. injection F0 as <-.
  rewrite (D2 f f' A2 B2), (D3 t t' A3 B3), (D4 j j' A4 B4) by congruence. reflexivity.
Qed.
Lemma about_time_fun u z m m' : cal_ok u -> about_time u z m -> about_time u z m' -> m = m'.
Proof.
  intros (_ & _ & _ & _ & _ & _ & D & _) (t & A & E & <-) (t' & B & F & <-). rewrite (D t t' A B) by congruence. reflexivity.
Qed.
Lemma about_chan_fun u z m m' : cal_ok u -> about_chan u z m -> about_chan u z m' -> m = m'.
Proof.
  intros (_ & _ & _ & _ & _ & D & _ & _) (t & A & E & <-) (t' & B & F & <-). rewrite (D t t' A B) by congruence. reflexivity.
Qed.
Lemma solution_has u x y z p c : solution u x y z p c -> has_solution u x y z p.
Proof.
  intros (a & f & t & j & A1 & A2 & A3 & A4 & E1 & E2 & E3 & E4 & _). unfold has_solution, has_ant, has_chan, has_time, has_jones, on_axis. eauto 12.
Qed.
Lemma has_solution_some u x y z p : has_solution u x y z p -> exists c, solution u x y z p c.
Proof.
  intros ((a & A1 & E1) & (f & A2 & E2) & (t & A3 & E3) & (j & A4 & E4)). exists (entry u a f t j). exists a, f, t, j. auto 12.
Qed.

Section Sum.
Variables (u v r : ucal) (ta tf tt tj : list nat).
Hypothesis Hu : cal_ok u.
Hypothesis Hv : cal_ok v.
Hypothesis C : csum u v ta tf tt tj r.
Hypothesis AA : axis' 0 (c_ants u) (c_ants v) (c_ants r) (new_in Z.eqb (c_ants u) (c_ants v)) (to_a u v) ta.
Hypothesis AF : axis' (0, 0) (chans u) (chans v) (chans r) (new_freqs u v) (to_f u v) tf.
Hypothesis AT : axis' 0 (time_keys u) (time_keys v) (time_keys r) (new_in Z.eqb (time_keys u) (time_keys v)) (to_t u v) tt.
Hypothesis AJ : axis' 0 (c_jones u) (c_jones v) (c_jones r) (new_in Z.eqb (c_jones u) (c_jones v)) (to_j u v) tj.
Hypothesis Hno : forall x y z p, has_solution u x y z p -> has_solution v x y z p -> False.

Lemma ok_r : cal_ok r. Proof. apply (cs_ok _ _ _ _ _ _ _ C). Qed.

Lemma ax_cases {L} (d : L) la lb lr nw to tau i : axis' d la lb lr nw to tau -> (i < length lr)%nat ->
  (nth i tau O < length la)%nat /\ In (nth i lr d) la /\ nth (nth i tau O) la d = nth i lr d \/
  ~ (nth i tau O < length la)%nat /\ ~ In (nth i lr d) la /\
    (nth (nth i tau 0 - length la) nw 0 < length lb)%nat /\ nth (nth (nth i tau 0 - length la) nw 0)%nat lb d = nth i lr d.
Proof.
  intros A Hi. destruct (ay_a _ _ _ _ _ _ _ A i Hi) as [(H1 & H2)|(H1 & H2 & H3 & H4)].
  - left. split; [exact H1|]. split; [|exact H2]. rewrite <- H2. apply nth_In, H1.
  - right. split; [lia|]. auto.
Qed.
Lemma ax_other {L} (d : L) la lb lr nw to tau i : axis' d la lb lr nw to tau -> (i < length lr)%nat ->
  (In (nth i tau O) to <-> In (nth i lr d) lb).
Proof.
  intros A Hi. pose proof (ay_b _ _ _ _ _ _ _ A i Hi) as B. destruct (index_of Nat.eqb (nth i tau O) to) as [q|] eqn:E.
  - apply index_of_In in E. destruct B as (Hq & <-). split; [intros _; apply nth_In, Hq|auto].
  - apply (index_of_None Nat.eqb Nat.eqb_eq) in E. tauto.
Qed.

Lemma united x : (In x (c_ants r) <-> In x (c_ants u) \/ In x (c_ants v)).
Proof. apply (ay_in _ _ _ _ _ _ _ AA). Qed.

Lemma nf_r : length (chans r) = Nchans r. Proof. apply chans_length, ok_r. Qed.

Lemma positions_apart a f t j : (a < Nants r)%nat -> (f < Nchans r)%nat -> (t < Ntimes r)%nat -> (j < Njones r)%nat ->
  apart u v ta tf tt tj a f t j.
Proof.
  intros Ha Hf Ht Hj A1 A2 A3 A4 B1 B2 B3 B4. rewrite <- nf_r in Hf.
  destruct (ax_cases _ _ _ _ _ _ _ _ AA Ha) as [(_ & I1 & _)|(N & _)]; [|contradiction].
  destruct (ax_cases _ _ _ _ _ _ _ _ AF Hf) as [(_ & I2 & _)|(N & _)]; [|rewrite (chans_length u Hu) in N; contradiction].
  destruct (ax_cases _ _ _ _ _ _ _ _ AT Ht) as [(_ & I3 & _)|(N & _)]; [|contradiction].
  destruct (ax_cases _ _ _ _ _ _ _ _ AJ Hj) as [(_ & I4 & _)|(N & _)]; [|contradiction].
  apply (ax_other _ _ _ _ _ _ _ _ AA Ha) in B1. apply (ax_other _ _ _ _ _ _ _ _ AF Hf) in B2.
  apply (ax_other _ _ _ _ _ _ _ _ AT Ht) in B3. apply (ax_other _ _ _ _ _ _ _ _ AJ Hj) in B4.
  eapply Hno; unfold has_solution; rewrite has_ant_In, has_time_In, has_jones_In, has_chan_In by assumption; eauto.
Qed.

Definition from_either x y z p c0 : Prop :=
  solution v x y z p c0 \/ solution u x y z p c0 \/
  (has_solution r x y z p /\ ~ has_solution u x y z p /\ ~ has_solution v x y z p /\ c0 = no_solution).

Lemma r_has x y z p : has_solution r x y z p <-> 
  (In x (c_ants u) \/ In x (c_ants v)) /\ (In y (chans u) \/ In y (chans v)) /\ (In z (time_keys u) \/ In z (time_keys v)) /\ (In p (c_jones u) \/ In p (c_jones v)).
Proof.
  unfold has_solution. rewrite has_ant_In, has_time_In, has_jones_In, has_chan_In by apply ok_r.
  rewrite (ay_in _ _ _ _ _ _ _ AA), (ay_in _ _ _ _ _ _ _ AF), (ay_in _ _ _ _ _ _ _ AT), (ay_in _ _ _ _ _ _ _ AJ). reflexivity.
Qed.
Lemma lists_has w x y z p : cal_ok w -> (has_solution w x y z p <-> In x (c_ants w) /\ In y (chans w) /\ In z (time_keys w) /\ In p (c_jones w)).
Proof. intros H. unfold has_solution. rewrite has_ant_In, has_time_In, has_jones_In, has_chan_In by exact H. reflexivity. Qed.

Lemma sum_forward x y z p c : solution r x y z p c -> exists c0, c = graded u v c0 /\ from_either x y z p c0.
Proof.
  intros S. pose proof (solution_has _ _ _ _ _ _ S) as Hr.
  destruct S as (a & f & t & j & Ha & Hf & Ht & Hj & Ex & Ey & Ez & Ep & Ec).
  rewrite (cs_entry _ _ _ _ _ _ _ C a f t j (positions_apart a f t j Ha Hf Ht Hj)) in Ec.
  exists (cell4 u v ta tf tt tj a f t j). split; [symmetry; exact Ec|]. clear Ec c.
  rewrite (chans_nth r f ok_r) in Ey. unfold ant_at in Ex. unfold time_at in Ez. unfold jones_at in Ep. rewrite <- nf_r in Hf.
  pose proof (ay_b _ _ _ _ _ _ _ AA a Ha) as B1. pose proof (ay_b _ _ _ _ _ _ _ AF f Hf) as B2.
  pose proof (ay_b _ _ _ _ _ _ _ AT t Ht) as B3. pose proof (ay_b _ _ _ _ _ _ _ AJ j Hj) as B4.
  pose proof (ax_cases _ _ _ _ _ _ _ _ AA Ha) as K1. pose proof (ax_cases _ _ _ _ _ _ _ _ AF Hf) as K2.
  pose proof (ax_cases _ _ _ _ _ _ _ _ AT Ht) as K3. pose proof (ax_cases _ _ _ _ _ _ _ _ AJ Hj) as K4.
  rewrite Ex in *. rewrite Ey in *. rewrite Ez in *. rewrite Ep in *. rewrite (chans_length u Hu) in K2. rewrite (chans_length v Hv) in B2.
  assert (Rest : ~ has_solution v x y z p -> from_either x y z p
     (if (nth a ta 0 <? Nants u)%nat && (nth f tf 0 <? Nchans u)%nat && (nth t tt 0 <? Ntimes u)%nat && (nth j tj 0 <? Njones u)%nat
      then entry u (nth a ta O) (nth f tf O) (nth t tt O) (nth j tj O) else no_solution)).
  { intros Nv.
    assert (Out : ~ has_solution u x y z p -> from_either x y z p no_solution).
    { intros Nu. right. right. auto. }
    rewrite (lists_has u) in Out by exact Hu.
    destruct K1 as [(T1 & _ & I1)|(T1 & I1 & _)].
    2:{ apply Nat.ltb_nlt in T1. unfold Nants. rewrite T1. apply Out. tauto. }
    destruct K2 as [(T2 & _ & I2)|(T2 & I2 & _)].
    2:{ apply Nat.ltb_nlt in T2. rewrite T2, andb_false_r. apply Out. tauto. }
    destruct K3 as [(T3 & _ & I3)|(T3 & I3 & _)].
    2:{ apply Nat.ltb_nlt in T3. unfold Ntimes. rewrite T3, andb_false_r. apply Out. tauto. }
    destruct K4 as [(T4 & _ & I4)|(T4 & I4 & _)].
    2:{ apply Nat.ltb_nlt in T4. unfold Njones. rewrite T4, andb_false_r. apply Out. tauto. }
    assert (E : ((nth a ta 0 <? Nants u) && (nth f tf 0 <? Nchans u) && (nth t tt 0 <? Ntimes u) && (nth j tj 0 <? Njones u) = true)%nat).
    { rewrite !andb_true_iff, !Nat.ltb_lt. unfold Nants, Ntimes, Njones. tauto. }
    rewrite E. right. left. exists (nth a ta O), (nth f tf O), (nth t tt O), (nth j tj O).
    rewrite (chans_nth u _ Hu). unfold ant_at, time_at, jones_at, Nants, Ntimes, Njones. auto 12. }
  rewrite (lists_has v) in Rest by exact Hv.
  unfold cell4.
  destruct (index_of Nat.eqb (nth a ta O) (to_a u v)) as [a'|]; [|apply Rest; tauto].
  destruct (index_of Nat.eqb (nth f tf O) (to_f u v)) as [f'|]; [|apply Rest; tauto].
  destruct (index_of Nat.eqb (nth t tt O) (to_t u v)) as [t'|]; [|apply Rest; tauto].
  destruct (index_of Nat.eqb (nth j tj O) (to_j u v)) as [j'|]; [|apply Rest; tauto].
  left. exists a', f', t', j'. rewrite (chans_nth v _ Hv). unfold ant_at, time_at, jones_at, Nants, Ntimes, Njones. tauto.
Qed.

Lemma sum_solutions x y z p c : solution r x y z p c <-> exists c0, c = graded u v c0 /\ from_either x y z p c0.
Proof.
  split; [apply sum_forward|]. intros (c0 & -> & H).
  assert (Hr : has_solution r x y z p).
  { destruct H as [H|[H|(H & _)]]; [| |exact H]; apply solution_has in H; rewrite lists_has in H by assumption; rewrite r_has; tauto. }
  destruct (has_solution_some _ _ _ _ _ Hr) as (c' & S). destruct (sum_forward _ _ _ _ _ S) as (c1 & -> & H1).
  assert (c1 = c0) as ->; [|exact S].
  assert (Z := Hno x y z p).
  destruct H as [H|[H|(_ & N1 & N2 & ->)]], H1 as [H1|[H1|(_ & M1 & M2 & ->)]]; try reflexivity;
    try (eapply solution_fun; [|eassumption|eassumption]; assumption);
    exfalso; repeat match goal with K : solution _ _ _ _ _ _ |- _ => apply solution_has in K end; tauto.
Qed.

(** ** Total quality *)
Definition has3 (w : ucal) y z p : Prop := has_chan w y /\ has_time w z /\ has_jones w p.
Definition total_of y z p q : Prop :=
  total_quality v y z p q \/ (~ has_total v y z p /\ total_quality u y z p q) \/
  (~ has_total v y z p /\ ~ has_total u y z p /\ has3 r y z p /\ q = 0).

Lemma total_forward y z p q : total_quality r y z p q -> total_of y z p q.
Proof.
  intros (tq & f & t & j & Eq & Hf & Ht & Hj & Ey & Ez & Ep & E).
  assert (Hr : has3 r y z p) by (unfold has3, has_chan, has_time, has_jones, on_axis; eauto 12).
  rewrite (cs_tq _ _ _ _ _ _ _ C tq f t j Eq) in E. subst q.
  rewrite (chans_nth r f ok_r) in Ey. unfold time_at in Ez. unfold jones_at in Ep. rewrite <- nf_r in Hf.
  pose proof (ay_b _ _ _ _ _ _ _ AF f Hf) as B2.
  pose proof (ay_b _ _ _ _ _ _ _ AT t Ht) as B3. pose proof (ay_b _ _ _ _ _ _ _ AJ j Hj) as B4.
  pose proof (ax_cases _ _ _ _ _ _ _ _ AF Hf) as K2.
  pose proof (ax_cases _ _ _ _ _ _ _ _ AT Ht) as K3. pose proof (ax_cases _ _ _ _ _ _ _ _ AJ Hj) as K4.
  rewrite Ey in *. rewrite Ez in *. rewrite Ep in *. rewrite (chans_length u Hu) in K2. rewrite (chans_length v Hv) in B2.
  assert (L3 : forall w, cal_ok w -> has_total w y z p -> c_tqual w <> None /\ In y (chans w) /\ In z (time_keys w) /\ In p (c_jones w)).
  { intros w Hw (q & tq' & f' & t' & j' & E1 & E2 & E3 & E4 & E5 & E6 & E7 & _). split; [congruence|].
    rewrite <- has_chan_In, <- has_time_In, <- has_jones_In by exact Hw. unfold has_chan, has_time, has_jones, on_axis. eauto 12. }
  assert (Rest : ~ has_total v y z p -> total_of y z p
     (match c_tqual u with
      | Some q => if (nth f tf O <? Nchans u)%nat && (nth t tt O <? Ntimes u)%nat && (nth j tj O <? Njones u)%nat
                  then q (nth f tf O) (nth t tt O) (nth j tj O) else 0
      | None => 0
      end)).
  { intros Nv. assert (Out : ~ has_total u y z p -> total_of y z p 0) by (intros Nu; right; right; auto).
    destruct (c_tqual u) as [qu|] eqn:Equ; [|apply Out; intros H; apply (L3 u Hu) in H; rewrite Equ in H; tauto].
    assert (Out' : ~ (In y (chans u) /\ In z (time_keys u) /\ In p (c_jones u)) -> total_of y z p 0).
    { intros N. apply Out. intros H. apply (L3 u Hu) in H. tauto. }
    destruct K2 as [(T2 & _ & I2)|(T2 & I2 & _)].
    2:{ apply Nat.ltb_nlt in T2. rewrite T2. apply Out'. tauto. }
    destruct K3 as [(T3 & _ & I3)|(T3 & I3 & _)].
    2:{ apply Nat.ltb_nlt in T3. unfold Ntimes. rewrite T3, andb_false_r. apply Out'. tauto. }
    destruct K4 as [(T4 & _ & I4)|(T4 & I4 & _)].
    2:{ apply Nat.ltb_nlt in T4. unfold Njones. rewrite T4, andb_false_r. apply Out'. tauto. }
    assert (E : ((nth f tf 0 <? Nchans u) && (nth t tt 0 <? Ntimes u) && (nth j tj 0 <? Njones u) = true)%nat).
    { rewrite !andb_true_iff, !Nat.ltb_lt. unfold Ntimes, Njones. tauto. }
    rewrite E. right. left. split; [exact Nv|]. exists qu, (nth f tf O), (nth t tt O), (nth j tj O).
    rewrite (chans_nth u _ Hu). unfold time_at, jones_at, Ntimes, Njones. auto 12. }
  assert (Rest' : ~ (In y (chans v) /\ In z (time_keys v) /\ In p (c_jones v)) -> ~ has_total v y z p).
  { intros N H. apply (L3 v Hv) in H. tauto. }
  unfold total3. destruct (c_tqual v) as [qv|] eqn:Eqv; [|apply Rest; intros H; apply (L3 v Hv) in H; rewrite Eqv in H; tauto].
  destruct (index_of Nat.eqb (nth f tf O) (to_f u v)) as [f'|]; [|apply Rest, Rest'; tauto].
  destruct (index_of Nat.eqb (nth t tt O) (to_t u v)) as [t'|]; [|apply Rest, Rest'; tauto].
  destruct (index_of Nat.eqb (nth j tj O) (to_j u v)) as [j'|]; [|apply Rest, Rest'; tauto].
  left. exists qv, f', t', j'. rewrite (chans_nth v _ Hv). unfold time_at, jones_at, Ntimes, Njones. tauto.
Qed.

Lemma total_has3 w y z p : cal_ok w -> has_total w y z p -> In y (chans w) /\ In z (time_keys w) /\ In p (c_jones w).
Proof.
  intros Hw (q & tq' & f' & t' & j' & E1 & E2 & E3 & E4 & E5 & E6 & E7 & _).
  rewrite <- has_chan_In, <- has_time_In, <- has_jones_In by exact Hw. unfold has_chan, has_time, has_jones, on_axis. eauto 12.
Qed.
Lemma r_has3 y z p : has3 r y z p <->
  (In y (chans u) \/ In y (chans v)) /\ (In z (time_keys u) \/ In z (time_keys v)) /\ (In p (c_jones u) \/ In p (c_jones v)).
Proof.
  unfold has3. rewrite has_time_In, has_jones_In, has_chan_In by apply ok_r.
  rewrite (ay_in _ _ _ _ _ _ _ AF), (ay_in _ _ _ _ _ _ _ AT), (ay_in _ _ _ _ _ _ _ AJ). reflexivity.
Qed.

Lemma sum_totals y z p q : c_tqual r <> None -> (total_quality r y z p q <-> total_of y z p q).
Proof.
  intros Hr. split; [apply total_forward|]. intros H.
  assert (H3 : has3 r y z p).
  { destruct H as [H|[(_ & H)|(_ & _ & H & _)]]; [| |exact H]; apply r_has3.
    - assert (K : has_total v y z p) by (exists q; exact H). apply (total_has3 v) in K; [tauto|exact Hv].
    - assert (K : has_total u y z p) by (exists q; exact H). apply (total_has3 u) in K; [tauto|exact Hu]. }
  destruct H3 as ((f & Hf & Ey) & (t & Ht & Ez) & (j & Hj & Ep)). destruct (c_tqual r) as [tq|] eqn:Eq; [|congruence].
  assert (S : total_quality r y z p (tq f t j)) by (exists tq, f, t, j; auto 12).
  pose proof (total_forward _ _ _ _ S) as H1. assert (tq f t j = q) as <-; [|exact S].
  destruct H as [H|[(N & H)|(N & N1 & _ & ->)]], H1 as [H1|[(M & H1)|(M & M1 & _ & E1)]]; try exact E1;
    try (eapply total_fun; [|eassumption|eassumption]; assumption); unfold has_total in *; exfalso; eauto.
Qed.

(** ** Times and channels *)
Hypothesis Kta : agree (c_time_array u) (c_time_array v).
Hypothesis Ktr : agree (c_time_range u) (c_time_range v).
Hypothesis Kla : agree (c_lst_array u) (c_lst_array v).
Hypothesis Klr : agree (c_lst_range u) (c_lst_range v).
Hypothesis Kra : agree (c_ref_ant u) (c_ref_ant v).

Lemma info_at t : (t < Ntimes r)%nat -> time_info r t =
  if (nth t tt O <? Ntimes u)%nat then time_info u (nth t tt O)
  else time_info v (nth (nth t tt O - Ntimes u) (new_in Z.eqb (time_keys u) (time_keys v)) O).
Proof.
  intros Ht. pose proof Hu as ((U1 & U2 & U3 & U4 & U5) & _).
  assert (Hl : (t < length tt)%nat) by (rewrite <- (ay_len _ _ _ _ _ _ _ AT); exact Ht).
  assert (Hb : (nth t tt 0 < Ntimes u + length (new_in Z.eqb (time_keys u) (time_keys v)))%nat).
  { destruct (perm_seq_facts _ _ (cs_pt _ _ _ _ _ _ _ C)) as (L & _ & B & _). apply B. rewrite <- L. exact Hl. }
  unfold time_info. rewrite (cs_ta _ _ _ _ _ _ _ C), (cs_tr _ _ _ _ _ _ _ C), (cs_la _ _ _ _ _ _ _ C), (cs_lr _ _ _ _ _ _ _ C),
    (cs_ra _ _ _ _ _ _ _ C), (cs_it _ _ _ _ _ _ _ C).
  rewrite (jo_nth 0 _ _ _ _ _ t Kta U2 Hl Hb), (jo_nth (0, 0) _ _ _ _ _ t Ktr (range_len u) Hl Hb), (jo_nth 0 _ _ _ _ _ t Kla U3 Hl Hb),
    (jo_nth (0, 0) _ _ _ _ _ t Klr U4 Hl Hb), (jo_nth 0 _ _ _ _ _ t Kra U5 Hl Hb), (nth_joined 0 _ _ _ _ t _ U1 Hl).
  apply Nat.ltb_lt in Hb. rewrite Hb. destruct (nth t tt 0 <? Ntimes u)%nat; reflexivity.
Qed.

Lemma time_forward z m : about_time r z m -> about_time u z m \/ (~ has_time u z /\ about_time v z m).
Proof.
  intros (t & Ht & Ez & Em). rewrite (info_at t Ht) in Em. unfold time_at in Ez. rewrite has_time_In.
  destruct (ax_cases _ _ _ _ _ _ _ _ AT Ht) as [(T & I & E)|(T & I & I2 & E)]; rewrite Ez in *.
  - left. pose proof T as T'. apply Nat.ltb_lt in T'. fold (Ntimes u) in T'. rewrite T' in Em. eexists. split; [exact T|]. split; [exact E|exact Em].
  - right. split; [exact I|]. apply Nat.ltb_nlt in T. fold (Ntimes u) in T. rewrite T in Em. eexists. split; [exact I2|]. split; [exact E|exact Em].
Qed.
Lemma sum_times z m : about_time r z m <-> about_time u z m \/ (~ has_time u z /\ about_time v z m).
Proof.
  split; [apply time_forward|]. intros H.
  assert (Hz : has_time r z).
  { apply has_time_In, (ay_in _ _ _ _ _ _ _ AT). rewrite <- !has_time_In. destruct H as [(t & A & B & _)|(_ & t & A & B & _)]; [left|right]; exists t; auto. }
  destruct Hz as (t & Ht & Ez). assert (S : about_time r z (time_info r t)) by (exists t; auto).
  pose proof (time_forward _ _ S) as H1. assert (time_info r t = m) as <-; [|exact S].
  destruct H as [H|(N & H)], H1 as [H1|(M & H1)]; try (eapply about_time_fun; [|eassumption|eassumption]; assumption);
    exfalso; [apply M; destruct H as (k & A & B & _)|apply N; destruct H1 as (k & A & B & _)]; exists k; auto.
Qed.

Lemma chan_forward y m : about_chan r y m -> about_chan u y m \/ (~ has_chan u y /\ about_chan v y m).
Proof.
  intros (f & Hf & Ey & Em). rewrite infos_nth, (cs_infos _ _ _ _ _ _ _ C) in Em. rewrite (chans_nth r f ok_r) in Ey. rewrite <- nf_r in Hf.
  assert (Hl : (f < length tf)%nat) by (rewrite <- (ay_len _ _ _ _ _ _ _ AF); exact Hf).
  assert (Hb : (nth f tf 0 < Nchans u + length (new_freqs u v))%nat).
  { destruct (perm_seq_facts _ _ (cs_pf _ _ _ _ _ _ _ C)) as (L & _ & B & _). apply B. rewrite <- L. exact Hl. }
  change (take (0, 0) (infos u ++ take (0, 0) (infos v) (new_freqs u v)) tf) with (joined (0, 0) (infos u) (infos v) (new_freqs u v) tf) in Em.
  rewrite (nth_joined (0, 0) _ _ _ _ f _ (infos_length u Hu) Hl) in Em. rewrite has_chan_In by exact Hu.
  destruct (ax_cases _ _ _ _ _ _ _ _ AF Hf) as [(T & I & E)|(T & I & I2 & E)]; rewrite Ey in *; rewrite (chans_length u Hu) in *.
  - left. pose proof T as T'. apply Nat.ltb_lt in T'. rewrite T' in Em. eexists. split; [exact T|]. rewrite (chans_nth u _ Hu), infos_nth. auto.
  - right. split; [exact I|]. apply Nat.ltb_nlt in T. rewrite T in Em. apply Nat.ltb_lt in Hb. rewrite Hb in Em.
    rewrite (chans_length v Hv) in I2. eexists. split; [exact I2|]. rewrite (chans_nth v _ Hv), infos_nth. auto.
Qed.
Lemma sum_chans y m : about_chan r y m <-> about_chan u y m \/ (~ has_chan u y /\ about_chan v y m).
Proof.
  split; [apply chan_forward|]. intros H.
  assert (Hy : has_chan r y).
  { apply (has_chan_In r); [apply ok_r|]. apply (ay_in _ _ _ _ _ _ _ AF). rewrite <- !has_chan_In by assumption.
    destruct H as [(t & A & B & _)|(_ & t & A & B & _)]; [left|right]; exists t; auto. }
  destruct Hy as (f & Hf & Ey). assert (S : about_chan r y (chan_info r f)) by (exists f; auto).
  pose proof (chan_forward _ _ S) as H1. assert (chan_info r f = m) as <-; [|exact S].
  destruct H as [H|(N & H)], H1 as [H1|(M & H1)]; try (eapply about_chan_fun; [|eassumption|eassumption]; assumption);
    exfalso; [apply M; destruct H as (k & A & B & _)|apply N; destruct H1 as (k & A & B & _)]; exists k; auto.
Qed.

(** ** Windows *)
Hypothesis Hw : c_wide v = c_wide u.
Hypothesis Kfj : agree (c_flex_jones u) (c_flex_jones v).

Lemma spws_chans w x : cal_ok w -> (In x (c_spws w) <-> exists f, In (x, f) (chans w)).
Proof.
  clear. intros (_ & Hf & _). unfold chans. destruct (c_wide w).
  - split.
    + intros H. exists 0. apply in_map_iff. eauto.
    + intros (f & H). apply in_map_iff in H as (k & E & H). injection E as <- <-. exact H.
  - destruct Hf as (_ & Hl & Hm). rewrite <- Hm. split.
    + intros H. destruct (In_nth _ _ 0 H) as (i & Hi & E). exists (nth i (c_freqs w) 0). rewrite <- E, <- (combine_nth _ _ i 0 0 Hl).
      apply nth_In. rewrite combine_length. lia.
    + intros (f & H). eapply in_combine_l, H.
Qed.

Lemma no_new : (forall y, In y (chans v) -> In y (chans u)) -> new_freqs u v = [].
Proof.
  intros H. rewrite (new_freqs_eq u v Hu Hv Hw). destruct (new_in pair_eqb (chans u) (chans v)) as [|k l] eqn:E; [reflexivity|exfalso].
  assert (K : In k (new_in pair_eqb (chans u) (chans v))) by (rewrite E; left; reflexivity).
  apply (new_spec (0, 0) pair_eqb pair_eqb_spec) in K as (Hk & Hn). apply Hn, H, nth_In, Hk.
Qed.
Lemma no_new' : new_freqs u v = [] -> forall y, In y (chans v) -> In y (chans u).
Proof.
  intros E y Hy. rewrite (new_freqs_eq u v Hu Hv Hw) in E. destruct (memb pair_eqb y (chans u)) eqn:Em.
  - apply (memb_In _ pair_eqb_spec), Em.
  - exfalso. apply (memb_notIn _ pair_eqb_spec) in Em. destruct (In_nth _ _ (0, 0) Hy) as (i & Hi & Ei).
    assert (K : In i (new_in pair_eqb (chans u) (chans v))) by (apply (new_spec (0, 0) pair_eqb pair_eqb_spec); rewrite Ei; auto).
    rewrite E in K. destruct K.
Qed.

Lemma spws_r x : In x (c_spws r) <-> In x (c_spws u) \/ In x (c_spws v).
Proof.
  rewrite (spws_chans r x ok_r), (spws_chans u x Hu), (spws_chans v x Hv). split.
  - intros (f & H). apply (ay_in _ _ _ _ _ _ _ AF) in H as [H|H]; [left|right]; eauto.
  - intros [(f & H)|(f & H)]; exists f; apply (ay_in _ _ _ _ _ _ _ AF); auto.
Qed.

Lemma all_new (la lb : list Z) : (forall x, In x la -> ~ In x lb) -> new_in Z.eqb la lb = seq 0 (length lb).
Proof.
  intros H. unfold new_in. rewrite (nonzero_ext_in _ (fun _ => true)).
  - unfold nonzero. generalize 0%nat. induction lb as [|x lb IH]; intros n; [reflexivity|]. simpl. f_equal. apply IH.
    intros y Hy Hc. apply (H y Hy). right. exact Hc.
  - intros x Hx. apply negb_true_iff, (memb_notIn _ Z.eqb_eq). intros Hc. apply (H x Hc Hx).
Qed.

Lemma sum_windows w p :
  (forall y, In y (chans v) -> In y (chans u)) \/
  ((forall x, In x (c_spws u) -> ~ In x (c_spws v)) /\ StronglySorted Z.lt (c_spws u ++ c_spws v)) ->
  (window_jones r w p <-> window_jones u w p \/ (~ In w (c_spws u) /\ window_jones v w p)).
Proof.
  intros H.
  assert (D : new_freqs u v = [] \/ (new_freqs u v <> [] /\ (forall x, In x (c_spws u) -> ~ In x (c_spws v)) /\ StronglySorted Z.lt (c_spws u ++ c_spws v))).
  { destruct H as [H|H]; [left; apply no_new, H|]. destruct (new_freqs u v); [left; reflexivity|right; split; [discriminate|exact H]]. }
  destruct D as [D|(Ne & Dj & So)].
  - destruct (cs_same _ _ _ _ _ _ _ C D) as (E1 & E2). unfold window_jones at 1. rewrite E1, E2. fold (window_jones u w p). split; [auto|].
    intros [K|(K1 & K2)]; [exact K|exfalso]. apply K1, (spws_chans u w Hu). destruct K2 as (fj & k & _ & Hk & <- & _).
    destruct (proj1 (spws_chans v _ Hv) (nth_In _ 0 Hk)) as (f & Hf). exists f. apply (no_new' D), Hf.
  - pose proof ok_r as Or. pose proof Or as (_ & _ & Nr & Lr & _).
    assert (Sr : StronglySorted Z.le (c_spws r)).
    { destruct (c_wide u) eqn:W.
      - destruct (cs_spws_wide _ _ _ _ _ _ _ C W) as (E1 & E2). rewrite E1, (E2 Ne). apply argsortZ_sorted.
      - apply (cs_spws_chan _ _ _ _ _ _ _ C W Ne). }
    assert (Es : c_spws r = c_spws u ++ c_spws v).
    { apply sorted_le_unique.
      - apply NoDup_Permutation; [exact Nr| |].
        + apply NoDup_app_intro; [apply Hu|apply Hv|exact Dj].
        + intros x. rewrite spws_r, in_app_iff. reflexivity.
      - exact Sr.
      - eapply StronglySorted_impl; [|exact So]. cbv beta. intros; lia. }
    pose proof Hu as (_ & _ & _ & Lu & _). pose proof Hv as (_ & _ & _ & Lv & _).
    destruct (c_flex_jones u) as [a|] eqn:Ea.
    + destruct (c_flex_jones v) as [b|] eqn:Eb; [|exfalso; destruct Kfj as [_ K]; discriminate (K eq_refl)].
      specialize (Lu a eq_refl). specialize (Lv b eq_refl).
      assert (Ej : c_flex_jones r = Some (a ++ b)).
      { rewrite (cs_fj _ _ _ _ _ _ _ C a b Ea Eb Ne). f_equal. destruct (c_wide u) eqn:W.
        - f_equal. unfold new_freqs. rewrite W, (all_new _ _ Dj), <- Lv. apply take_seq.
        - rewrite Es, app_length, <- Lu, <- Lv, <- app_length. apply firstn_all. }
      unfold window_jones. rewrite Ej, Ea, Eb, Es, app_length. split.
      * intros (fj & k & E & Hk & Ew & En). injection E as <-.
        destruct (Nat.lt_ge_cases k (length (c_spws u))) as [Hl|Hg].
        -- left. exists a, k. rewrite app_nth1 in Ew by exact Hl. rewrite nth_error_app1 in En by lia. auto.
        -- right. rewrite app_nth2 in Ew by exact Hg. rewrite nth_error_app2 in En by lia. rewrite Lu in En.
           assert (Hk' : (k - length (c_spws u) < length (c_spws v))%nat) by lia.
           split; [|exists b, (k - length (c_spws u))%nat; auto]. intros Hc. apply (Dj w Hc). rewrite <- Ew. apply nth_In, Hk'.
      * intros [(fj & k & E & Hk & Ew & En)|(_ & fj & k & E & Hk & Ew & En)]; injection E as <-.
        -- exists (a ++ b), k. split; [reflexivity|]. split; [lia|]. rewrite app_nth1 by exact Hk. rewrite nth_error_app1 by lia. auto.
        -- exists (a ++ b), (length (c_spws u) + k)%nat. split; [reflexivity|]. split; [lia|].
           rewrite app_nth2, nth_error_app2 by lia. rewrite Lu. replace (length (c_spws u) + k - length (c_spws u))%nat with k by lia. auto.
    + assert (Eb : c_flex_jones v = None) by (apply Kfj; reflexivity).
      unfold window_jones. rewrite Ea, Eb, (cs_fj_none _ _ _ _ _ _ _ C Ea).
      split; [intros (fj & k & E & _); discriminate|]. intros [(fj & k & E & _)|(_ & fj & k & E & _)]; discriminate.
Qed.
End Sum.
