(** The theorems about a + b. *)
From Coq Require Import List ZArith Bool Arith Lia Permutation Sorted.
From Verif Require Import Lib.Py Lib.Np Lib.Cube Lib.Sorting Lib.Dict Spec.UVDataSpec Spec.BltSpec Spec.FreqSpec Spec.PhaseSpec Spec.AddSpec Model.Hdf5
  Model.UVData Model.Reorder Model.Freq Model.PhaseCenter Model.Add
  Proofs.Hdf5Proofs Proofs.FreqProofs Proofs.FreqReorder Proofs.ReorderProofs Proofs.PhaseProofs Proofs.PhaseConsolidate Proofs.AddAxis Proofs.AddMove Proofs.AddJoin Proofs.AddProofs.
Import ListNotations.
Notation length := List.length.
Open Scope Z_scope.

Section Sum.
Variables (pop : list Z -> Z) (str_le : Z * Z -> Z * Z -> bool) (t : tolerances) (same_cat : catalog -> catalog -> bool) (ign : bool).
Variables (a b r : addobj).
Hypothesis Ha : addable a.
Hypothesis Hb : addable b.
Let u := ad_uvd a.
Let v := ad_uvd b.
Let w := ad_uvd r.
Hypothesis FB : shared_first (Nblts u) (Nblts v) (row_label u) (row_label v).
Hypothesis FF : shared_first (Nfreqs u) (Nfreqs v) (chan_label u) (chan_label v).
Hypothesis FP : shared_first (Npols u) (Npols v) (pol_label u) (pol_label v).
Hypothesis Hadd : add pop str_le t same_cat ign a b = Ok r.

Lemma sum_axes :
  axis_union (Nblts u) (Nblts v) (Nblts w) (row_label u) (row_label v) (row_label w) /\
  axis_union (Nfreqs u) (Nfreqs v) (Nfreqs w) (chan_label u) (chan_label v) (chan_label w) /\
  axis_union (Npols u) (Npols v) (Npols w) (pol_label u) (pol_label v) (pol_label w).
Proof.
  destruct (by_position pop str_le t same_cat ign a b r Ha Hb FB FF FP Hadd) as
    (s & sb & sf & sp & nb & nf & tb & tf & tp & to_b & to_f & to_p & HU & _). exact HU.
Qed.

Lemma sum_samples x y p c :
  sample w x y p c <->
  sample v x y p c \/
  (~ has_sample v x y p /\ sample u x y p c) \/
  (~ has_sample v x y p /\ ~ has_sample u x y p /\ has_sample w x y p /\ c = no_data).
Proof.
  destruct (by_position pop str_le t same_cat ign a b r Ha Hb FB FF FP Hadd) as
    (s & sb & sf & sp & nb & nf & tb & tf & tp & to_b & to_f & to_p & (UB & UF & UP) & BB & BF & BP & AB & AF & AP & HC & _).
  fold u v w in UB, UF, UP, BB, BF, BP, AB, AF, AP, HC.
  destruct Ha as (_ & _ & DuB & DuF & DuP). destruct Hb as (_ & _ & DvB & DvF & DvP). fold u in DuB, DuF, DuP. fold v in DvB, DvF, DvP.
  (* what a cell of the sum is *)
  assert (K : forall i j k, (i < Nblts w)%nat -> (j < Nfreqs w)%nat -> (k < Npols w)%nat ->
    let x := row_label w i in let y := chan_label w j in let p := pol_label w k in
    sample v x y p (cell w i j k) \/ (~ has_sample v x y p /\ sample u x y p (cell w i j k)) \/
    (~ has_sample v x y p /\ ~ has_sample u x y p /\ has_sample w x y p /\ cell w i j k = no_data)).
  { intros i j k Hi Hj Hk x0 y0 p0. rewrite (HC i j k Hi Hj Hk).
    specialize (BB i Hi). specialize (BF j Hj). specialize (BP k Hk). specialize (AB i Hi). specialize (AF j Hj). specialize (AP k Hk).
    assert (D : (exists i' j' k', index_of Nat.eqb (nth i tb 0%nat) to_b = Some i' /\ index_of Nat.eqb (nth j tf 0%nat) to_f = Some j' /\
                   index_of Nat.eqb (nth k tp 0%nat) to_p = Some k') \/
                (~ has_sample v x0 y0 p0 /\
                 forall c1 c2, match index_of Nat.eqb (nth i tb 0%nat) to_b, index_of Nat.eqb (nth j tf 0%nat) to_f, index_of Nat.eqb (nth k tp 0%nat) to_p with
                 | Some i', Some j', Some k' => c1 i' j' k' | _, _, _ => c2 end = c2 :> (cplx * bool * Z))).
    { destruct (index_of Nat.eqb (nth i tb 0%nat) to_b); [|right; split; [intros (Q & _ & _); contradiction|reflexivity]].
      destruct (index_of Nat.eqb (nth j tf 0%nat) to_f); [|right; split; [intros (_ & Q & _); contradiction|reflexivity]].
      destruct (index_of Nat.eqb (nth k tp 0%nat) to_p); [|right; split; [intros (_ & _ & Q); contradiction|reflexivity]].
      left. do 3 eexists. auto. }
    destruct D as [(i' & j' & k' & E1 & E2 & E3)|[HN E]].
    - rewrite E1, E2, E3 in *. left. exists i', j', k'. destruct BB, BF, BP. repeat split; assumption.
    - right. rewrite E. clear E BB BF BP.
      destruct (nth i tb 0 <? Nblts u)%nat, (nth j tf 0 <? Nfreqs u)%nat, (nth k tp 0 <? Npols u)%nat; cbn [andb];
        first [left; split; [exact HN|];
               exists (nth (nth i tb 0%nat) sb 0%nat), (nth (nth j tf 0%nat) sf 0%nat), (nth (nth k tp 0%nat) sp 0%nat); destruct AB, AF, AP; repeat split; assumption
              |right; split; [exact HN|]; split;
               [intros (Q1 & Q2 & Q3); unfold x0, y0, p0 in Q1, Q2, Q3; tauto
               |split; [repeat split; [exists i|exists j|exists k]; auto|reflexivity]]]. }
  assert (W : forall x y p, has_sample w x y p -> exists i j k, (i < Nblts w)%nat /\ (j < Nfreqs w)%nat /\ (k < Npols w)%nat /\
            row_label w i = x /\ chan_label w j = y /\ pol_label w k = p).
  { intros x0 y0 p0 ((i & Hi & Ei) & (j & Hj & Ej) & (k & Hk & Ek)). exists i, j, k. auto 10. }
  assert (Uniq : forall (z : uvd) x y p c c', distinct (Nblts z) (row_label z) -> distinct (Nfreqs z) (chan_label z) -> distinct (Npols z) (pol_label z) ->
            sample z x y p c -> sample z x y p c' -> c = c').
  { intros z x0 y0 p0 c1 c2 D1 D2 D3 (i & j & k & Hi & Hj & Hk & Ei & Ej & Ek & <-) (i' & j' & k' & Hi' & Hj' & Hk' & Ei' & Ej' & Ek' & <-).
    rewrite (D1 i i'), (D2 j j'), (D3 k k') by congruence. reflexivity. }
  assert (Has : forall (z : uvd) x y p c, sample z x y p c -> has_sample z x y p).
  { intros z x0 y0 p0 c1 (i & j & k & Hi & Hj & Hk & Ei & Ej & Ek & _). repeat split; [exists i|exists j|exists k]; auto. }
  assert (HWs : has_sample u x y p \/ has_sample v x y p -> has_sample w x y p).
  { intros [(Q1 & Q2 & Q3)|(Q1 & Q2 & Q3)]; repeat split; [apply UB|apply UF|apply UP|apply UB|apply UF|apply UP]; auto. }
  split.
  - intros (i & j & k & Hi & Hj & Hk & <- & <- & <- & <-). apply K; assumption.
  - intros H.
    assert (Hw : has_sample w x y p).
    { destruct H as [H|[[_ H]|(_ & _ & H & _)]]; [apply HWs; right; apply (Has _ _ _ _ _ H)|apply HWs; left; apply (Has _ _ _ _ _ H)|exact H]. }
    destruct (W x y p Hw) as (i & j & k & Hi & Hj & Hk & Ei & Ej & Ek).
    pose proof (K i j k Hi Hj Hk) as Q. cbv zeta in Q. rewrite Ei, Ej, Ek in Q.
    exists i, j, k. repeat (split; [assumption|]).
    destruct H as [H|[[HN H]|(HN & HN' & _ & ->)]].
    + destruct Q as [Q|[[Q _]|[Q _]]]; [apply (Uniq v x y p); assumption| |]; destruct (Q (Has _ _ _ _ _ H)).
    + destruct Q as [Q|[[_ Q]|(_ & Q & _)]]; [destruct (HN (Has _ _ _ _ _ Q))|apply (Uniq u x y p); assumption|destruct (Q (Has _ _ _ _ _ H))].
    + destruct Q as [Q|[[_ Q]|(_ & _ & _ & Q)]]; [destruct (HN (Has _ _ _ _ _ Q))|destruct (HN' (Has _ _ _ _ _ Q))|exact Q].
Qed.

Lemma sum_rows i : (i < Nblts w)%nat ->
  (exists i0, (i0 < Nblts u)%nat /\ row_meta u i0 w i) \/
  (~ on_axis (Nblts u) (row_label u) (row_label w i) /\ exists i0, (i0 < Nblts v)%nat /\ row_meta v i0 w i).
Proof.
  destruct (by_position pop str_le t same_cat ign a b r Ha Hb FB FF FP Hadd) as
    (s & sb & sf & sp & nb & nf & tb & tf & tp & to_b & to_f & to_p & _ & _ & _ & _ & AB & _ & _ & _ & HR & _).
  fold u v w in AB, HR. intros Hi. specialize (AB i Hi). specialize (HR i Hi).
  destruct (nth i tb 0 <? Nblts u)%nat.
  - left. exists (nth (nth i tb 0%nat) sb 0%nat). tauto.
  - right. split; [tauto|]. exists (nth (nth i tb 0 - Nblts u) nb 0)%nat. tauto.
Qed.

Lemma sum_chans j : (j < Nfreqs w)%nat ->
  (exists j0, (j0 < Nfreqs u)%nat /\ chan_label u j0 = chan_label w j /\ nth j (channel_width w) 0 = nth j0 (channel_width u) 0) \/
  (~ on_axis (Nfreqs u) (chan_label u) (chan_label w j) /\
   exists j0, (j0 < Nfreqs v)%nat /\ chan_label v j0 = chan_label w j /\ nth j (channel_width w) 0 = nth j0 (channel_width v) 0).
Proof.
  destruct (by_position pop str_le t same_cat ign a b r Ha Hb FB FF FP Hadd) as
    (s & sb & sf & sp & nb & nf & tb & tf & tp & to_b & to_f & to_p & _ & _ & _ & _ & _ & AF & _ & _ & _ & HW & _).
  fold u v w in AF, HW. intros Hj. specialize (AF j Hj). specialize (HW j Hj).
  destruct (nth j tf 0 <? Nfreqs u)%nat.
  - left. exists (nth (nth j tf 0%nat) sf 0%nat). tauto.
  - right. split; [tauto|]. exists (nth (nth j tf 0 - Nfreqs u) nf 0)%nat. tauto.
Qed.

Lemma sum_addable : addable r.
Proof.
  destruct (by_position pop str_le t same_cat ign a b r Ha Hb FB FF FP Hadd) as
    (s & sb & sf & sp & nb & nf & tb & tf & tp & to_b & to_f & to_p & (UB & UF & UP) & _ & _ & _ & _ & _ & _ & _ & _ & _ & _ & _ & _ & _ & Sh & Ok').
  fold u v w in UB, UF, UP. split; [exact Sh|]. split; [exact Ok'|]. split; [apply UB|split; [apply UF|apply UP]].
Qed.

Lemma sum_centers : picks pop -> pc_consistent (centers a) -> pc_consistent (centers b) ->
  distinguishable ign (centers a) (ad_catalog b) ->
  pc_consistent (centers r) /\
  forall i, (i < Nblts w)%nat ->
    (exists i0 e e', (i0 < Nblts u)%nat /\ row_label u i0 = row_label w i /\ points (centers a) i0 e /\ points (centers r) i e' /\ alike ign e e') \/
    (~ on_axis (Nblts u) (row_label u) (row_label w i) /\
     exists i0 e e', (i0 < Nblts v)%nat /\ row_label v i0 = row_label w i /\ points (centers b) i0 e /\ points (centers r) i e' /\ matches ign e e').
Proof.
  intros Hp Ca Cb Hd.
  destruct (by_position pop str_le t same_cat ign a b r Ha Hb FB FF FP Hadd) as
    (s & sb & sf & sp & nb & nf & tb & tf & tp & to_b & to_f & to_p & _ & _ & _ & _ & AB & _ & _ & _ & HR & _ & Hs & Ec & En & Ls & Sh & _).
  fold u v w in AB, HR, Ls, Sh.
  destruct (consolidate_effect pop (ad_catalog b) ign (centers a) Hp Ca ltac:(apply Cb) Hd) as (s' & Hs' & Cs & Hcar & _ & Href).
  rewrite Hs in Hs'. injection Hs' as <-. destruct Hcar as (_ & Hcar & _).
  assert (Lw : length (phase_center_id_array w) = Nblts w) by (destruct Sh as (_ & _ & _ & _ & _ & _ & E & _); exact E).
  assert (Lu : length (phase_center_id_array u) = Nblts u) by (destruct Ha as ((_ & _ & _ & _ & _ & _ & E & _) & _); exact E).
  assert (Lv : length (phase_center_id_array v) = Nblts v) by (destruct Hb as ((_ & _ & _ & _ & _ & _ & E & _) & _); exact E).
  assert (Q : forall i, (i < Nblts w)%nat ->
    (exists i0 e e', (i0 < Nblts u)%nat /\ row_label u i0 = row_label w i /\ points (centers a) i0 e /\ points (centers r) i e' /\ alike ign e e') \/
    (~ on_axis (Nblts u) (row_label u) (row_label w i) /\
     exists i0 e e', (i0 < Nblts v)%nat /\ row_label v i0 = row_label w i /\ points (centers b) i0 e /\ points (centers r) i e' /\ matches ign e e')).
  { intros i Hi. specialize (AB i Hi). specialize (HR i Hi). destruct (nth i tb 0 <? Nblts u)%nat.
    - left. set (i0 := nth (nth i tb 0%nat) sb 0%nat) in *. destruct AB as (Hi0 & El). destruct HR as (_ & Eid).
      destruct (proj2 (proj2 Ca) i0) as (e & He); [unfold centers; cbn [pc_ids]; fold u; lia|].
      destruct (Hcar i0 e He) as (e' & (k & Hk & Hst) & Hal).
      exists i0, e, e'. split; [exact Hi0|]. split; [exact El|]. split; [exact He|]. split; [|exact Hal].
      exists k. unfold centers, stored. cbn [pc_ids pc_cat]. rewrite Ec. split; [|exact Hst].
      fold w. rewrite (nth_error_nth' _ 0) by lia. rewrite Eid. f_equal. apply (nth_error_nth _ _ 0 Hk).
    - right. destruct AB as (Hi0 & El & Hn). split; [exact Hn|]. set (i0 := (nth (nth i tb 0 - Nblts u) nb 0)%nat) in *. destruct HR as (_ & Eid).
      destruct (proj2 (proj2 Cb) i0) as (e & k & Hk & Hst); [unfold centers; cbn [pc_ids]; fold v; lia|].
      destruct (Href k e Hst) as (e' & Hst' & Hm).
      exists i0, e, e'. split; [exact Hi0|]. split; [exact El|]. split; [exists k; auto|]. split; [|exact Hm].
      exists k. unfold centers, stored. cbn [pc_ids pc_cat]. rewrite Ec. split; [|exact Hst'].
      fold w. rewrite (nth_error_nth' _ 0) by lia. rewrite Eid. f_equal. apply (nth_error_nth _ _ 0 Hk). }
  split; [|exact Q]. split; [unfold centers; cbn [pc_cat]; rewrite Ec; apply Cs|].
  split; [unfold centers; cbn [pc_cat pc_n]; rewrite Ec, En; apply Cs|].
  intros i Hi. unfold centers in Hi. cbn [pc_ids] in Hi. fold w in Hi. rewrite Lw in Hi.
  destruct (Q i Hi) as [(i0 & e & e' & _ & _ & _ & Hpt & _)|(_ & i0 & e & e' & _ & _ & _ & Hpt & _)]; exists e'; exact Hpt.
Qed.
End Sum.

Lemma paired_ti {L} (d : L) (eqb : L -> L -> bool) (Heq : forall x y, eqb x y = true <-> x = y) la lb ti oi :
  NoDup la -> paired d la lb ti oi -> forall i, In i ti <-> (i < length la)%nat /\ In (nth i la d) lb.
Proof.
  intros N P i. pose proof (ti_spec d eqb Heq la lb N ti oi P i) as H. rewrite H. cbn beta.
  rewrite (memb_In eqb Heq). tauto.
Qed.

(** Without the proviso on the order *)
Section Any.
Variables (pop : list Z -> Z) (str_le : Z * Z -> Z * Z -> bool) (t : tolerances) (same_cat : catalog -> catalog -> bool) (ign : bool).
Variables (a b : addobj).
Hypothesis Ha : addable a.
Hypothesis Hb : addable b.
Let u := ad_uvd a.
Let v := ad_uvd b.

(** the cells both objects have *)
Lemma shared_cells i j k :
  (i < Nblts u)%nat -> (j < Nfreqs u)%nat -> (k < Npols u)%nat ->
  (In i (fst (intersect1d pair_eqb str_le (blt_labels u) (blt_labels v))) /\ In j (fst (intersect_channels u v)) /\
   In k (fst (intersect1d Z.eqb Z.leb (polarization_array u) (polarization_array v))) <->
   has_sample v (row_label u i) (chan_label u j) (pol_label u k)).
Proof.
  intros Hi Hj Hk. destruct (a_lists a Ha) as (N1 & N2 & N3). fold u in N1, N2, N3.
  pose proof Ha as (Sh & Ok' & _). pose proof Hb as (Sh' & Ok'' & _). fold u in Sh. fold v in Sh'.
  unfold u, v.
  rewrite (paired_ti (0, 0) pair_eqb pair_eqb_spec _ _ _ _ N1 (rows_paired str_le a b)).
  rewrite (paired_ti (0, 0) pair_eqb pair_eqb_spec _ _ _ _ N2 (chans_paired' a b Ha Hb)).
  rewrite (paired_ti 0 Z.eqb Z.eqb_eq _ _ _ _ N3 (pols_paired a b)). fold u v.
  rewrite blt_labels_nth by exact Sh. rewrite blt_labels_len by exact Sh.
  rewrite chan_labels_nth by apply Ok'. rewrite chan_labels_len by apply Ok'.
  change (nth k (polarization_array u) 0) with (pol_label u k). change (length (polarization_array u)) with (Npols u).
  unfold has_sample.
  rewrite (on_axis_list (0, 0) (blt_labels v) (row_label v) (Nblts v));
    [|apply blt_labels_len, Sh'|intros; symmetry; apply blt_labels_nth, Sh'].
  rewrite (on_axis_list (0, 0) (chan_labels v) (chan_label v) (Nfreqs v));
    [|apply chan_labels_len, Ok''|intros; symmetry; apply chan_labels_nth, Ok''].
  rewrite (on_axis_list 0 (polarization_array v) (pol_label v) (Npols v)); [|reflexivity|reflexivity].
  tauto.
Qed.

Lemma blank_spec z i j k : blank z i j k = true <-> data_array z i j k = (0, 0) /\ flag_array z i j k = true.
Proof.
  unfold blank. destruct (data_array z i j k) as [re im]. rewrite !andb_true_iff, !Z.eqb_eq. split.
  - intros [[-> ->] ->]. auto.
  - intros [E ->]. injection E as -> ->. auto.
Qed.

Lemma all_cells_spec rows chans pols f : all_cells rows chans pols f = true <->
  forall i j k, In i rows -> In j chans -> In k pols -> f i j k = true.
Proof.
  unfold all_cells. rewrite forallb_forall. split.
  - intros H i j k Hi Hj Hk. specialize (H i Hi). rewrite forallb_forall in H. specialize (H j Hj). rewrite forallb_forall in H. apply H, Hk.
  - intros H i Hi. apply forallb_forall. intros j Hj. apply forallb_forall. intros k Hk. apply H; assumption.
Qed.

Lemma overlap_spec rows chans pols : overlap_check u rows chans pols = Ok tt <->
  forall i j k, In i rows -> In j chans -> In k pols -> data_array u i j k = (0, 0) /\ flag_array u i j k = true.
Proof.
  unfold overlap_check. destruct (_ || _) eqn:E.
  - split; [|reflexivity]. intros _ i j k Hi Hj Hk. exfalso. rewrite !orb_true_iff, !Nat.eqb_eq in E.
    destruct E as [[E|E]|E]; apply length_zero_iff_nil in E; subst; contradiction.
  - destruct (all_cells rows chans pols (blank u)) eqn:Q.
    + split; [|reflexivity]. intros _ i j k Hi Hj Hk. apply blank_spec. revert Hi Hj Hk. apply all_cells_spec. exact Q.
    + split; [discriminate|]. intros H. exfalso. assert (all_cells rows chans pols (blank u) = true); [|congruence].
      apply all_cells_spec. intros. apply blank_spec. apply H; assumption.
Qed.

Lemma sum_overwrites_blanks r x y p c : add pop str_le t same_cat ign a b = Ok r ->
  sample u x y p c -> has_sample v x y p -> fst c = ((0, 0), true).
Proof.
  intros H (i & j & k & Hi & Hj & Hk & <- & <- & <- & <-) Hs.
  destruct (add_inv pop str_le t same_cat ign a b Ha Hb r H) as (s & fp & H0 & _). fold u v in H0.
  apply (shared_cells i j k Hi Hj Hk) in Hs as (H1 & H2 & H3).
  destruct (proj1 (overlap_spec _ _ _) H0 i j k H1 H2 H3) as [E1 E2]. unfold cell. cbn [fst]. rewrite E1, E2. reflexivity.
Qed.

Lemma sum_refused x y p c : sample u x y p c -> has_sample v x y p -> fst c <> ((0, 0), true) ->
  add pop str_le t same_cat ign a b = Err ValueError.
Proof.
  intros (i & j & k & Hi & Hj & Hk & <- & <- & <- & <-) Hs Hc.
  apply (shared_cells i j k Hi Hj Hk) in Hs as (H1 & H2 & H3). unfold add. fold u v.
  assert (E : overlap_check u (fst (intersect1d pair_eqb str_le (blt_labels u) (blt_labels v))) (fst (intersect_channels u v))
    (fst (intersect1d Z.eqb Z.leb (polarization_array u) (polarization_array v))) = Err ValueError).
  { match goal with |- overlap_check u ?A ?B ?C = _ => pose proof (proj1 (overlap_spec A B C)) as G; remember (overlap_check u A B C) as q eqn:Eq end.
    unfold overlap_check in Eq. destruct (_ || _); [|destruct (all_cells _ _ _ _)]; subst q; [exfalso|exfalso|reflexivity];
      destruct (G eq_refl i j k H1 H2 H3) as [E1 E2]; apply Hc; unfold cell; cbn [fst]; rewrite E1, E2; reflexivity. }
  rewrite E. reflexivity.
Qed.

Lemma sum_rect r : (0 < Nblts v)%nat -> add pop str_le t same_cat ign a b = Ok r -> rect_truthful (ad_uvd r).
Proof.
  intros Hv H. destruct (add_inv pop str_le t same_cat ign a b Ha Hb r H) as (s & fp & _ & _ & _ & _ & _ & _ & HS).
  apply (sm_rect _ _ _ _ _ _ _ HS). exact Hv.
Qed.

Lemma sum_windows r q p : add pop str_le t same_cat ign a b = Ok r ->
  window_pol (ad_freq r) q p -> window_pol (ad_freq a) q p \/ window_pol (ad_freq b) q p.
Proof.
  intros H. destruct (add_inv pop str_le t same_cat ign a b Ha Hb r H) as (s & fp & _ & _ & Hfp & _ & _ & _ & HS). cbv zeta in HS.
  assert (E : forall q p, window_pol {| fo_uvd := set_phase_center_id_array (pc_ids s) (ad_uvd a); eq_coeffs := eq_coeffs (ad_freq a);
               flex_spw_polarization_array := flex_spw_polarization_array (ad_freq a) |} q p <-> window_pol (ad_freq a) q p).
  { intros q0 p0. apply window_pol_same. reflexivity. }
  rewrite <- E. apply (sm_win _ _ _ _ _ _ _ HS). intros d q0 p0 -> Hg. rewrite E.
  unfold merge_flexpol in Hfp.
  destruct (flex_spw_polarization_array (ad_freq a)) as [fa|] eqn:Ea; destruct (flex_spw_polarization_array (ad_freq b)) as [fb|] eqn:Eb; try discriminate.
  destruct (forallb _ _); [|discriminate]. injection Hfp as <-.
  assert (G : forall (l : list (Z * Z)), dget Z.eqb q0 l = Ok p0 -> In (q0, p0) l).
  { clear. induction l as [|(k & x) l IH]; simpl; [discriminate|]. destruct (Z.eqb_spec q0 k); [intros E; injection E as ->; subst; auto|auto]. }
  assert (W : forall o f, flex_spw_polarization_array o = Some f -> In (q0, p0) (combine (spw_array (fo_uvd o)) f) -> window_pol o q0 p0).
  { clear. intros o f E Hi. destruct (In_nth_error _ _ Hi) as (k & Hk). exists f, k. split; [exact E|].
    assert (Hl : (k < length (combine (spw_array (fo_uvd o)) f))%nat) by (apply nth_error_Some; congruence).
    rewrite combine_length in Hl. split; [lia|].
    revert k Hk Hl. generalize (spw_array (fo_uvd o)). clear. intros l. revert f. induction l as [|x l IH]; intros [|y f] [|k] H Hl; simpl in *; try lia; try discriminate.
    - injection H as -> ->. auto.
    - apply IH; [exact H|lia]. }
  apply G in Hg. apply in_app_or in Hg as [Hg|Hg].
  - left. apply (W _ _ Ea). exact Hg.
  - right. apply filter_In in Hg as [Hg _]. apply (W _ _ Eb). exact Hg.
Qed.
End Any.
