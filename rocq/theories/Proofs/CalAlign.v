(** Calibration solutions to be combined: the shared entries of the first object are
    put into the order of the second. *)
From Coq Require Import List ZArith Bool Arith Lia Permutation Sorted String.
From Verif Require Import Lib.Py Lib.Np Lib.Cube Lib.Sorting Spec.UVDataSpec Spec.FreqSpec Spec.AddSpec Spec.CalSpec
  Model.UVData Model.Reorder Model.Freq Model.Pol Model.Add Model.UVCal
  Proofs.FreqProofs Proofs.FreqReorder Proofs.ReorderProofs Proofs.AddAxis Proofs.AddMove Proofs.AddJoin
  Proofs.CalArrange Proofs.CalMove Proofs.CalReorder.
Import ListNotations.
Notation length := List.length.
Open Scope list_scope.
Open Scope Z_scope.
Notation Ntimes := UVCal.Ntimes.
Notation reorder_freqs := UVCal.reorder_freqs.
Notation match_orders := UVCal.match_orders.

(** ** One axis *)
Record axis' {L} (d : L) (la lb lr : list L) (nw to tau : list nat) : Prop := {
  ay_nodup : NoDup lr;
  ay_in : forall x, In x lr <-> In x la \/ In x lb;
  ay_len : length lr = length tau;
  ay_len' : length tau = (length la + length nw)%nat;
  ay_lenb : length to = length lb;
  ay_b : forall i, (i < length lr)%nat ->
    match index_of Nat.eqb (nth i tau 0%nat) to with
    | Some q => (q < length lb)%nat /\ nth q lb d = nth i lr d
    | None => ~ In (nth i lr d) lb
    end;
  ay_a : forall i, (i < length lr)%nat ->
    ((nth i tau 0 < length la)%nat /\ nth (nth i tau 0%nat) la d = nth i lr d) \/
    ((length la <= nth i tau 0 < length la + length nw)%nat /\ (nth (nth i tau 0 - length la) nw 0 < length lb)%nat /\
     nth (nth (nth i tau 0 - length la) nw 0)%nat lb d = nth i lr d /\ ~ In (nth i lr d) la) }.

Lemma new_in_perm {L} (eqb : L -> L -> bool) (Heq : forall x y, eqb x y = true <-> x = y) la la' lb : Permutation la' la ->
  new_in eqb la' lb = new_in eqb la lb.
Proof.
  intros P. unfold new_in. apply nonzero_ext_in. intros x _. f_equal. apply eq_iff_eq_true. rewrite !(memb_In eqb Heq).
  split; apply Permutation_in; [|symmetry]; exact P.
Qed.

Lemma aligned_length {L} (d : L) eqb (Heq : forall x y, eqb x y = true <-> x = y) la lb ti oi la' :
  NoDup la -> NoDup lb -> paired d la lb ti oi -> la' = take d la (order_of (length la) ti oi) ->
  length (nonzero (fun x => memb eqb x lb) (la' ++ take d lb (new_in eqb la' lb))) = length lb.
Proof.
  intros Na Nb Hp E.
  assert (P : Permutation la' la) by (rewrite E; apply take_perm, (sigma_perm d eqb Heq la lb Na ti oi Hp)).
  rewrite (new_in_perm eqb Heq la la' lb P), E.
  change (take d la (order_of (length la) ti oi) ++ take d lb (new_in eqb la lb)) with (padded d eqb la lb ti oi).
  rewrite (t2o_padded d eqb Heq la lb Na ti oi Hp). apply (t2o_length d eqb Heq la lb Na Nb ti oi Hp).
Qed.

Lemma axis_aligned {L} (d : L) eqb (Heq : forall x y, eqb x y = true <-> x = y) la lb ti oi la' tau :
  NoDup la -> NoDup lb -> paired d la lb ti oi -> first_shared d la lb -> la' = take d la (order_of (length la) ti oi) ->
  Permutation tau (seq 0 (length la' + length (new_in eqb la' lb))) ->
  axis' d la' lb (take d (la' ++ take d lb (new_in eqb la' lb)) tau) (new_in eqb la' lb)
    (nonzero (fun x => memb eqb x lb) (la' ++ take d lb (new_in eqb la' lb))) tau.
Proof.
  intros Na Nb Hp Hs E P.
  assert (Ps : Permutation (order_of (length la) ti oi) (seq 0 (length la))) by apply (sigma_perm d eqb Heq la lb Na ti oi Hp).
  assert (P' : Permutation la' la) by (rewrite E; apply take_perm, Ps).
  pose proof (Permutation_length P') as Ll. rewrite (new_in_perm eqb Heq la la' lb P') in *. rewrite Ll in P.
  pose proof (axis_intro d eqb Heq la lb ti oi tau Na Nb Hp Hs P) as A.
  rewrite <- E in A.
  assert (Et : nonzero (fun x => memb eqb x lb) (la' ++ take d lb (new_in eqb la lb)) =
               nonzero (fun x => memb eqb x lb) (la ++ take d lb (new_in eqb la lb))).
  { rewrite E. apply (t2o_padded d eqb Heq la lb Na ti oi Hp). }
  rewrite Et. destruct A as [A1 A2 A3 A4 A5 A6 A7]. constructor; try assumption.
  - intros x. rewrite A2. split; (intros [H|H]; [left|right; exact H]); (eapply Permutation_in; [|exact H]); [symmetry|]; exact P'.
  - rewrite <- A3, A4, Ll. reflexivity.
  - intros i Hi. destruct (A7 i Hi) as [(B1 & B2 & B3)|(B1 & B2 & B3 & B4)].
    + left. rewrite Ll. split; [exact B1|]. rewrite <- B3. rewrite E at 1. apply nth_take. rewrite (proj1 (perm_seq_facts _ _ Ps)); exact B1.
    + right. rewrite Ll. split; [exact B1|]. split; [exact B2|]. split; [exact B3|].
      intros Hc. apply B4. apply (Permutation_in _ P'), Hc.
Qed.

(** ** Putting the shared entries into order *)
Lemma take_map_nat l s : map (fun i => nth (Z.to_nat i) l 0) (map Z.of_nat s) = take 0 l s.
Proof. unfold take. rewrite map_map. apply map_ext. intros i. rewrite Nat2Z.id. reflexivity. Qed.
Lemma of_nat_inj s s' : map Z.of_nat s = map Z.of_nat s' -> s = s'.
Proof.
  intros E. apply (f_equal (map Z.to_nat)) in E. rewrite !map_map in E.
  rewrite (map_ext _ (fun i => i)), map_id, (map_ext _ (fun i => i)), map_id in E by apply Nat2Z.id. exact E.
Qed.
Lemma one_perm s s' : Permutation s (seq 0 1) -> Permutation s' (seq 0 1) -> s = s'.
Proof. intros P P'. apply Permutation_sym, Permutation_length_1_inv in P, P'. congruence. Qed.

Definition arranges (u r : ucal) : Prop := exists sa sf st sj, arranged sa sf st sj u r.
Lemma arranges_refl u : cal_ok u -> arranges u u.
Proof. intros H. do 4 eexists. apply arranged_id, H. Qed.
Lemma arranges_trans u r s : arranges u r -> arranges r s -> arranges u s.
Proof. intros (a & b & c & e & H) (a' & b' & c' & e' & H'). do 4 eexists. eapply arranged_trans; eassumption. Qed.
Lemma arranges_ok u r : arranges u r -> cal_ok r.
Proof. intros (a & b & c & e & H). apply (ar_ok _ _ _ _ _ _ H). Qed.
Lemma arranges_content u r : cal_ok u -> arranges u r -> same_content u r.
Proof. intros Hu (a & b & c & e & H). apply (arranged_content _ _ _ _ _ _ Hu H). Qed.

Lemma same_times_keys u r : same_times u r -> time_keys r = time_keys u.
Proof. intros (A & B & _). unfold time_keys. rewrite A, B. reflexivity. Qed.
Lemma id_chans sa st sj u r : cal_ok u -> arranged sa (seq 0 (Nchans u)) st sj u r -> chans r = chans u.
Proof. intros H A. rewrite (ar_chan _ _ _ _ _ _ A), <- (chans_length u H). apply take_seq. Qed.

Lemma step_ants s u r : cal_ok u -> reorder_antennas [] [] (ByIndex (map Z.of_nat s)) u = Ok r ->
  arranges u r /\ c_ants r = take 0 (c_ants u) s /\ chans r = chans u /\ time_keys r = time_keys u /\ c_jones r = c_jones u.
Proof.
  intros Hu H. apply reorder_antennas_arranged in H as (idx & A & B & C & D & O); [|exact Hu]. cbn [order_obeyed] in O. destruct O as (_ & O).
  split; [do 4 eexists; exact A|]. split; [rewrite O; apply take_map_nat|]. split; [eapply id_chans; [exact Hu|exact A]|].
  split; [apply same_times_keys, B|exact D].
Qed.
Lemma step_times s u r : cal_ok u -> reorder_times (ByIndex (map Z.of_nat s)) u = Ok r ->
  arranges u r /\ c_ants r = c_ants u /\ chans r = chans u /\ time_keys r = take 0 (time_keys u) s /\ c_jones r = c_jones u.
Proof.
  intros Hu H. apply reorder_times_arranged in H as (idx & A & B & C & D & _ & O); [|exact Hu]. cbn [order_obeyed] in O. destruct O as (_ & O).
  split; [do 4 eexists; exact A|]. split; [exact B|]. split; [eapply id_chans; [exact Hu|exact A]|].
  split; [rewrite O; apply take_map_nat|exact D].
Qed.
Lemma step_jones s u r : cal_ok u -> reorder_jones None (ByIndex (map Z.of_nat s)) u = Ok r ->
  arranges u r /\ c_ants r = c_ants u /\ chans r = chans u /\ time_keys r = time_keys u /\ c_jones r = take 0 (c_jones u) s.
Proof.
  intros Hu H. apply reorder_jones_arranged in H as (idx & A & B & C & D & O); [|exact Hu]. cbn [order_obeyed] in O. destruct O as (_ & O).
  split; [do 4 eexists; exact A|]. split; [exact D|]. split; [eapply id_chans; [exact Hu|exact A]|].
  split; [apply same_times_keys, B|rewrite O; apply take_map_nat].
Qed.
Lemma step_chans s u r : cal_ok u -> Permutation s (seq 0 (Nchans u)) ->
  (if c_wide u then reorder_freqs (Some (SpwIndex (map Z.of_nat s))) None None
   else reorder_freqs None (Some (ChanIndex (map Z.of_nat s))) None) u = Ok r ->
  arranges u r /\ c_ants r = c_ants u /\ chans r = take (0, 0) (chans u) s /\ time_keys r = time_keys u /\ c_jones r = c_jones u.
Proof.
  intros Hu P H. destruct (c_wide u) eqn:W.
  - apply reorder_freqs_arranged in H as (idx & A & B & C & D & E & _ & _); [|exact Hu].
    split; [do 4 eexists; exact A|]. split; [exact B|]. split; [|split; [apply same_times_keys, C|exact D]].
    destruct (Nat.eq_dec (Nchans u) 1) as [E1|E1].
    + rewrite (ar_chan _ _ _ _ _ _ A). f_equal. apply one_perm; [|rewrite <- E1; exact P]. rewrite <- E1. apply (ar_pf _ _ _ _ _ _ A).
    + specialize (E E1 W). cbn [windows_obeyed] in E. rewrite take_map_nat in E. unfold chans. rewrite (ar_wide _ _ _ _ _ _ A), W, E.
      symmetry. apply take_map. intros k Hk. apply (perm_seq_facts _ _ P) in Hk. unfold Nchans in Hk. rewrite W in Hk. exact Hk.
  - apply reorder_freqs_arranged in H as (idx & A & B & C & D & _ & E & _); [|exact Hu]. specialize (E W).
    split; [do 4 eexists; exact A|]. split; [exact B|]. split; [|split; [apply same_times_keys, C|exact D]].
    rewrite (ar_chan _ _ _ _ _ _ A). f_equal. destruct E as [(_ & E1 & _)|((_ & _ & _ & E & _) & _)].
    + assert (E2 : Nchans u = 1%nat) by (unfold Nchans; rewrite W; exact E1).
      apply one_perm; [|rewrite <- E2; exact P]. rewrite <- E2. apply (ar_pf _ _ _ _ _ _ A).
    + apply of_nat_inj, E. reflexivity.
Qed.

Lemma match_orders_arranged ants times freqs jones u u' : cal_ok u ->
  Permutation (order_of (Nchans u) (fst freqs) (snd freqs)) (seq 0 (Nchans u)) ->
  match_orders ants times freqs jones u = Ok u' ->
  arranges u u' /\ c_ants u' = take 0 (c_ants u) (order_of (Nants u) (fst ants) (snd ants)) /\
  chans u' = take (0, 0) (chans u) (order_of (Nchans u) (fst freqs) (snd freqs)) /\
  time_keys u' = take 0 (time_keys u) (order_of (Ntimes u) (fst times) (snd times)) /\
  c_jones u' = take 0 (c_jones u) (order_of (Njones u) (fst jones) (snd jones)).
Proof.
  intros Hu Pf H. unfold match_orders in H. apply bind_Ok in H as (u1 & H1 & H). apply bind_Ok in H as (u2 & H2 & H).
  apply bind_Ok in H as (u3 & H3 & H4).
  assert (S1 : arranges u u1 /\ c_ants u1 = take 0 (c_ants u) (order_of (Nants u) (fst ants) (snd ants)) /\ chans u1 = chans u /\
               time_keys u1 = time_keys u /\ c_jones u1 = c_jones u).
  { unfold order_of. destruct (overlap_order (Nants u) (fst ants) (snd ants)) as [s|]; cbn [maybe] in H1.
    - apply step_ants; assumption.
    - injection H1 as <-. split; [apply arranges_refl, Hu|]. unfold Nants. rewrite take_seq. tauto. }
  destruct S1 as (A1 & B1 & C1 & D1 & E1). pose proof (arranges_ok _ _ A1) as O1.
  assert (S2 : arranges u u2 /\ c_ants u2 = c_ants u1 /\ chans u2 = chans u /\
               time_keys u2 = take 0 (time_keys u) (order_of (Ntimes u) (fst times) (snd times)) /\ c_jones u2 = c_jones u).
  { assert (En : Ntimes u1 = Ntimes u) by (unfold Ntimes; rewrite D1; reflexivity). rewrite En in H2.
    unfold order_of. destruct (overlap_order (Ntimes u) (fst times) (snd times)) as [s|]; cbn [maybe] in H2.
    - apply step_times in H2 as (A & B & C & D & E); [|exact O1]. split; [eapply arranges_trans; eassumption|].
      rewrite C, D, E, C1, D1, E1. tauto.
    - injection H2 as <-. unfold Ntimes. rewrite take_seq. tauto. }
  destruct S2 as (A2 & B2 & C2 & D2 & E2). pose proof (arranges_ok _ _ A2) as O2.
  assert (S3 : arranges u u3 /\ c_ants u3 = c_ants u1 /\ chans u3 = take (0, 0) (chans u) (order_of (Nchans u) (fst freqs) (snd freqs)) /\
               time_keys u3 = time_keys u2 /\ c_jones u3 = c_jones u).
  { assert (En : Nchans u2 = Nchans u) by (rewrite <- (chans_length u2 O2), <- (chans_length u Hu), C2; reflexivity). rewrite En in H3.
    unfold order_of in Pf |- *. destruct (overlap_order (Nchans u) (fst freqs) (snd freqs)) as [s|]; cbn [maybe] in H3.
    - apply step_chans in H3 as (A & B & C & D & E); [|exact O2|rewrite En; exact Pf]. split; [eapply arranges_trans; eassumption|].
      rewrite B, C, D, E, B2, C2, E2. tauto.
    - injection H3 as <-. rewrite <- (chans_length u Hu), take_seq. tauto. }
  destruct S3 as (A3 & B3 & C3 & D3 & E3). pose proof (arranges_ok _ _ A3) as O3.
  rewrite <- B1, <- C3, <- D2, <- D3, <- B3.
  assert (En : Njones u3 = Njones u) by (unfold Njones; rewrite E3; reflexivity). rewrite En in H4.
  unfold order_of. destruct (overlap_order (Njones u) (fst jones) (snd jones)) as [s|]; cbn [maybe] in H4.
  - apply step_jones in H4 as (A & B & C & D & E); [|exact O3]. split; [eapply arranges_trans; eassumption|].
    rewrite B, C, D, E, E3. tauto.
  - injection H4 as <-. unfold Njones. rewrite take_seq. tauto.
Qed.

(** ** It does not fail. *)
Lemma legal_index s n : Permutation s (seq 0 n) -> Permutation (map Z.of_nat s) (map Z.of_nat (seq 0 n)).
Proof. intros P. apply Permutation_map, P. Qed.
Lemma order_total n l s nm : Permutation s (seq 0 n) -> axis_order n l nm (ByIndex (map Z.of_nat s)) = Ok (map Z.to_nat (map Z.of_nat s)).
Proof. intros P. cbn [axis_order]. rewrite is_index_array_complete by (apply legal_index, P). reflexivity. Qed.

Lemma overlap_order_nil n : overlap_order n [] [] = None.
Proof. reflexivity. Qed.

Lemma match_orders_total ants times freqs jones u : cal_ok u ->
  Permutation (order_of (Nants u) (fst ants) (snd ants)) (seq 0 (Nants u)) ->
  Permutation (order_of (Ntimes u) (fst times) (snd times)) (seq 0 (Ntimes u)) ->
  Permutation (order_of (Nchans u) (fst freqs) (snd freqs)) (seq 0 (Nchans u)) ->
  Permutation (order_of (Njones u) (fst jones) (snd jones)) (seq 0 (Njones u)) ->
  (Nchans u = 0%nat -> fst freqs = [] /\ snd freqs = []) ->
  exists u', match_orders ants times freqs jones u = Ok u'.
Proof.
  intros Hu Pa Pt Pf Pj Hz. unfold match_orders.
  assert (S1 : exists u1, maybe (overlap_order (Nants u) (fst ants) (snd ants)) (fun idx => reorder_antennas [] [] (ByIndex idx)) u = Ok u1 /\
    cal_ok u1 /\ chans u1 = chans u /\ time_keys u1 = time_keys u /\ c_jones u1 = c_jones u).
  { unfold order_of in Pa. destruct (overlap_order (Nants u) (fst ants) (snd ants)) as [s|]; cbn [maybe].
    - eexists. assert (E : reorder_antennas [] [] (ByIndex (map Z.of_nat s)) u = Ok (if increasing (map Z.to_nat (map Z.of_nat s)) then u else take_ants (map Z.to_nat (map Z.of_nat s)) u)).
      { unfold reorder_antennas. rewrite order_total by exact Pa. reflexivity. }
      split; [exact E|]. apply step_ants in E; [|exact Hu]. destruct E as (A & B & C & D & E). split; [apply (arranges_ok _ _ A)|tauto].
    - exists u. tauto. }
  destruct S1 as (u1 & -> & O1 & C1 & D1 & E1). cbn [bind].
  assert (En : Ntimes u1 = Ntimes u) by (unfold Ntimes; rewrite D1; reflexivity). rewrite En.
  assert (S2 : exists u2, maybe (overlap_order (Ntimes u) (fst times) (snd times)) (fun idx => reorder_times (ByIndex idx)) u1 = Ok u2 /\
    cal_ok u2 /\ chans u2 = chans u /\ c_jones u2 = c_jones u).
  { unfold order_of in Pt. destruct (overlap_order (Ntimes u) (fst times) (snd times)) as [s|]; cbn [maybe].
    - eexists. assert (E : reorder_times (ByIndex (map Z.of_nat s)) u1 = Ok (if increasing (map Z.to_nat (map Z.of_nat s)) then u1 else take_times (map Z.to_nat (map Z.of_nat s)) u1)).
      { unfold reorder_times. rewrite En, order_total by exact Pt. reflexivity. }
      split; [exact E|]. apply step_times in E; [|exact O1]. destruct E as (A & B & C & D & E). split; [apply (arranges_ok _ _ A)|].
      rewrite C, E. tauto.
    - exists u1. tauto. }
  destruct S2 as (u2 & -> & O2 & C2 & E2). cbn [bind].
  assert (Ec : Nchans u2 = Nchans u) by (rewrite <- (chans_length u2 O2), <- (chans_length u Hu), C2; reflexivity). rewrite Ec.
  assert (S3 : exists u3, maybe (overlap_order (Nchans u) (fst freqs) (snd freqs))
            (fun idx => if c_wide u2 then reorder_freqs (Some (SpwIndex idx)) None None
                        else reorder_freqs None (Some (ChanIndex idx)) None) u2 = Ok u3 /\ cal_ok u3 /\ c_jones u3 = c_jones u).
  { unfold order_of in Pf. destruct (overlap_order (Nchans u) (fst freqs) (snd freqs)) as [s|] eqn:Eo; cbn [maybe]; [|exists u2; tauto].
    assert (Hne : c_spws u2 <> []).
    { intros E0. assert (Z0 : Nchans u = 0%nat).
      { rewrite <- Ec. unfold Nchans. pose proof O2 as (_ & Hf & _). destruct (c_wide u2); [rewrite E0; reflexivity|].
        destruct Hf as (_ & Hx & Hm). rewrite <- Hx. destruct (c_flex u2) as [|w l] eqn:Ex; [reflexivity|]. exfalso.
        specialize (Hm w). rewrite E0 in Hm. apply Hm. left. reflexivity. }
      destruct (Hz Z0) as (X & Y). rewrite X, Y in Eo. discriminate. }
    assert (S : exists u3, (if c_wide u2 then reorder_freqs (Some (SpwIndex (map Z.of_nat s))) None None
                        else reorder_freqs None (Some (ChanIndex (map Z.of_nat s))) None) u2 = Ok u3).
    { destruct (c_wide u2) eqn:W; apply reorder_freqs_total; try assumption; try discriminate.
      - intros idx E. injection E as <-. unfold Nchans in Ec. rewrite W in Ec. rewrite Ec. apply legal_index, Pf.
      - intros idx E. injection E as <-. unfold Nchans in Ec. rewrite W in Ec. rewrite Ec. apply legal_index, Pf. }
    destruct S as (u3 & E). exists u3. split; [exact E|]. apply step_chans in E; [|exact O2|rewrite Ec; exact Pf].
    destruct E as (A & B & C & D & E). split; [apply (arranges_ok _ _ A)|]. rewrite E. exact E2. }
  destruct S3 as (u3 & -> & O3 & E3). cbn [bind].
  assert (Ej : Njones u3 = Njones u) by (unfold Njones; rewrite E3; reflexivity). rewrite Ej.
  unfold order_of in Pj. destruct (overlap_order (Njones u) (fst jones) (snd jones)) as [s|]; cbn [maybe]; [|eauto].
  unfold reorder_jones. rewrite Ej, order_total by exact Pj. cbn [bind]. eauto.
Qed.
