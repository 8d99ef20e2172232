(** What conjugating baselines does to an object, and to later queries. *)
From Coq Require Import List ZArith Bool Arith Lia Sorted Permutation String ZifyBool ZifyNat.
From Verif Require Import Lib.Py Lib.Np Lib.Sorting Lib.Cube Lib.Slice Spec.BlsSpec Spec.BltSpec Spec.UVDataSpec Spec.PolSpec Spec.ToolsSpec Spec.AccessSpec Spec.ConjSpec
  Model.Bls Model.Pol Model.BltAxis Model.UVData Model.Reorder Model.Access
  Proofs.BlsProofs Proofs.BltProofs Proofs.PolProofs Proofs.ReorderProofs Proofs.Samples Proofs.AccessProofs Proofs.AccessRead Proofs.ConjProofs.
Import ListNotations.
Open Scope Z_scope.
Open Scope list_scope.
Notation length := List.length.
Notation concat := List.concat.

Lemma row_copied_refl u i : row_copied u i u i.
Proof. unfold row_copied. do 11 (split; [reflexivity|]). auto. Qed.

Lemma conj_cases conv tol enu u u' : conjugate_bls conv tol (conj_coords enu u) u = Ok u' ->
  exists idx, conj_rows conv tol (conj_coords enu u) u = Ok idx /\ (idx = [] /\ u' = u \/ idx <> [] /\ conj_apply idx u = Ok u').
Proof.
  unfold conjugate_bls. intros H. apply bind_Ok in H as (idx & E & H). exists idx. split; [exact E|].
  destruct idx as [|x l]; [left; injection H as <-; auto|]. right. split; [discriminate|exact H].
Qed.

Lemma default_kept u u' m off idx P : default_coded u -> same_stamps u u' -> Nants_telescope u' = Nants_telescope u ->
  default_scheme (Nants_telescope u) m off ->
  (forall i, (i < length (time_array u))%nat -> In i idx -> row_turned P u u' i /\
     nth i (baseline_array u') 0 = m * nth i (ant_1_array u') 0 + nth i (ant_2_array u') 0 + off /\
     0 <= nth i (ant_1_array u') 0 < m /\ 0 <= nth i (ant_2_array u') 0 < m) ->
  (forall i, ~ In i idx -> row_copied u i u' i) -> default_coded u'.
Proof.
  intros (m' & off' & Hs' & Hc) (Et & _) En Hs HT HK.
  assert (Em : m' = m /\ off' = off) by (destruct Hs' as [(-> & -> & ?)|(-> & -> & ?)], Hs as [(-> & -> & ?)|(-> & -> & ?)]; lia).
  destruct Em as [-> ->]. exists m, off. rewrite En, Et. split; [exact Hs|]. intros i Hi.
  destruct (in_dec Nat.eq_dec i idx) as [Y|N]; [destruct (HT i Hi Y) as (_ & A & B & C); auto|].
  destruct (HK i N) as (_ & _ & -> & -> & -> & _). apply Hc. exact Hi.
Qed.

Lemma conjugate_rows conv tol enu u u' : blt_shaped u -> Forall legal_pol (polarization_array u) -> NoDup (polarization_array u) ->
  conjugate_bls conv tol (conj_coords enu u) u = Ok u' ->
  blt_shaped u' /\ same_stamps u u' /\ same_freq_axis u u' /\ polarization_array u' = polarization_array u /\
  flag_array u' = flag_array u /\ nsample_array u' = nsample_array u /\
  (counts_ok u -> counts_ok u') /\ (default_coded u -> default_coded u') /\
  exists P, ((exists i, (i < length (time_array u))%nat /\ asked conv tol enu u i) -> conj_positions u P) /\
  forall i, (i < length (time_array u))%nat ->
    (asked conv tol enu u i -> row_turned P u u' i) /\ (~ asked conv tol enu u i -> row_copied u i u' i).
Proof.
  intros Hsh HL ND H. apply conj_cases in H as (idx & Er & [[-> ->]|[Hne H]]); destruct (conj_rows_spec _ _ _ _ _ Hsh Er) as [Hb Ha].
  - split; [exact Hsh|]. do 2 (split; [repeat split|]). do 3 (split; [reflexivity|]). do 2 (split; [auto|]).
    exists []. split; [intros (i & Hi & Hk); apply Ha in Hk; [contradiction|exact Hi]|]. intros i Hi. split.
    + intros Hk. apply Ha in Hk; [contradiction|exact Hi].
    + intros _. apply row_copied_refl.
  - destruct (conj_apply_ok idx u u' Hsh HL ND Hb Hne H) as (P & m & off & HP & He & S' & St & Sf & Ep & Ef & En & Eb & ET & _ & _ & _ & EN & HT & HK & _ & Hd).
    split; [exact S'|]. split; [exact St|]. split; [exact Sf|]. split; [exact Ep|]. split; [exact Ef|]. split; [exact En|].
    split. { intros [_ C2]. split; [apply distinct_count_unique; exact Eb|]. rewrite ET. replace (time_array u') with (time_array u) by (symmetry; apply St). exact C2. }
    split. { intros D. exact (default_kept u u' m off idx P D St EN (Hd D) HT HK). }
    exists P. split; [intros _; exact HP|]. intros i Hi. split; intros Hk.
    + apply HT; [exact Hi|]. apply Ha; assumption.
    + apply HK. intros Hin. apply Hk. apply Ha; assumption.
Qed.

(** ** When it succeeds *)
Lemma conj_apply_succeeds idx u : blt_shaped u -> Forall legal_pol (polarization_array u) ->
  (forall p, In p (polarization_array u) -> In (swapped p) (polarization_array u)) -> default_coded u ->
  Forall (fun i => (i < length (time_array u))%nat) idx -> exists u', conj_apply idx u = Ok u'.
Proof.
  intros Hsh HL HC (m & off & Hs & Hc) Hb. destruct idx as [|x idx]; [eexists; reflexivity|]. unfold conj_apply. remember (x :: idx) as ix eqn:E.
  destruct (reorder_conj_ok _ HL HC) as (P & -> & _). cbn [bind].
  pose proof Hsh as (_ & S1 & S2 & _).
  assert (G : exists bl, antnums_to_baseline
     (take 0 (assign_at ix (take 0 (ant_2_array u) ix) (ant_1_array u)) ix)
     (take 0 (assign_at ix (take 0 (ant_1_array u) ix) (ant_2_array u)) ix) (Some (Nants_telescope u)) false false = Ok bl).
  { apply encode_accepts; [rewrite !take_length; reflexivity|].
    assert (Hm : m <= 2147483648 /\ Nants_telescope u <= 2147483648) by (destruct Hs as [(-> & _ & ?)|(-> & _ & ?)]; lia).
    rewrite Forall_forall in Hb.
    split; [subst ix; discriminate|]. split; [|split; [|apply Hm]]; apply Forall_map, Forall_forall; intros i Hi.
    - unfold take. rewrite (nth_assign_map ix (fun i => nth i (ant_2_array u) 0)) by (rewrite S1; apply Forall_forall; exact Hb).
      specialize (Hc i (Hb i Hi)). destruct (isinN i ix); lia.
    - unfold take. rewrite (nth_assign_map ix (fun i => nth i (ant_1_array u) 0)) by (rewrite S2; apply Forall_forall; exact Hb).
      specialize (Hc i (Hb i Hi)). destruct (isinN i ix); lia. }
  destruct G as (bl & ->). cbn [bind]. eexists; reflexivity.
Qed.

Lemma conj_rows_total conv tol enu u : (forall idx, conv = ConjIndex idx -> idx <> [] /\ Forall (fun z => 0 <= z < Z.of_nat (length (time_array u))) idx) ->
  exists idx, conj_rows conv tol (conj_coords enu u) u = Ok idx.
Proof.
  intros H. destruct conv; try (eexists; reflexivity). destruct (H idx eq_refl) as [Hne Hf]. unfold conj_rows. destruct idx as [|z l]; [congruence|].
  remember (z :: l) as k. replace (existsb _ k) with false; [eexists; reflexivity|].
  symmetry. apply not_true_iff_false. rewrite existsb_exists. intros (y & Hy & E). rewrite Forall_forall in Hf. apply Hf in Hy. unfold Nblts in E. lia.
Qed.

Lemma conjugate_succeeds conv tol enu u : blt_shaped u -> Forall legal_pol (polarization_array u) ->
  (forall p, In p (polarization_array u) -> In (swapped p) (polarization_array u)) -> default_coded u ->
  (forall idx, conv = ConjIndex idx -> idx <> [] /\ Forall (fun z => 0 <= z < Z.of_nat (length (time_array u))) idx) ->
  exists u', conjugate_bls conv tol (conj_coords enu u) u = Ok u'.
Proof.
  intros Hsh HL HC HD Hx. destruct (conj_rows_total conv tol enu u Hx) as (idx & E). unfold conjugate_bls. rewrite E. cbn [bind].
  destruct (conj_rows_spec _ _ _ _ _ Hsh E) as [Hb _]. apply conj_apply_succeeds; assumption.
Qed.

Lemma conjugate_needs_both conv tol enu u : blt_shaped u -> Forall legal_pol (polarization_array u) ->
  (exists p, In p (polarization_array u) /\ ~ In (swapped p) (polarization_array u)) ->
  (exists i, (i < length (time_array u))%nat /\ asked conv tol enu u i) ->
  conjugate_bls conv tol (conj_coords enu u) u = Err ValueError.
Proof.
  intros Hsh HL HP (i & Hi & Ha). unfold conjugate_bls. destruct (conj_rows conv tol (conj_coords enu u) u) as [idx|e] eqn:E; cbn [bind].
  - destruct (conj_rows_spec _ _ _ _ _ Hsh E) as [_ H]. apply H in Ha; [|exact Hi]. destruct idx as [|x l]; [contradiction|].
    unfold conj_apply. rewrite (proj2 (reorder_conj_err _ HL) HP). reflexivity.
  - unfold conj_rows in E. destruct conv; try discriminate. destruct idx as [|z l]; [congruence|].
    match type of E with (if ?c then _ else _) = _ => destruct c; [congruence|discriminate] end.
Qed.

(** ** The convention holds afterwards; doing it again changes nothing *)
Lemma coords_turned P enu u u' i : row_turned P u u' i -> coords_at enu u' i = neg3 (coords_at enu u i).
Proof.
  intros (E1 & E2 & E3 & _). unfold coords_at. destruct enu as [pos|]; [|exact E3]. rewrite E1, E2.
  destruct (pos (nth i (ant_1_array u) 0)) as [[x1 y1] z1], (pos (nth i (ant_2_array u) 0)) as [[x2 y2] z2].
  unfold neg3. f_equal; [f_equal|]; lia.
Qed.
Lemma coords_copied enu u u' i : row_copied u i u' i -> coords_at enu u' i = coords_at enu u i.
Proof.
  intros (_ & _ & E1 & E2 & _ & _ & E3 & _). unfold coords_at. rewrite E1, E2, E3. reflexivity.
Qed.

Definition is_index (c : conj_convention) : Prop := exists idx, c = ConjIndex idx.
Definition by_antenna (c : conj_convention) : Prop := c = Ant1LtAnt2 \/ c = Ant2LtAnt1.

Lemma asked_dec conv tol enu u i : asked conv tol enu u i \/ ~ asked conv tol enu u i.
Proof.
  unfold asked. destruct (coords_at enu u i) as [[x y] z]. destruct conv; rewrite ?leading3; try lia.
  destruct (in_dec Z.eq_dec (Z.of_nat i) idx); auto.
Qed.

Lemma conjugate_done conv tol enu u u' : blt_shaped u -> Forall legal_pol (polarization_array u) -> NoDup (polarization_array u) ->
  ~ is_index conv -> (by_antenna conv \/ 0 <= tol) ->
  conjugate_bls conv tol (conj_coords enu u) u = Ok u' ->
  (forall i, (i < length (time_array u))%nat -> ~ asked conv tol enu u' i) /\
  conjugate_bls conv tol (conj_coords enu u') u' = Ok u'.
Proof.
  intros Hsh HL ND Hx Htol H. destruct (conjugate_rows _ _ _ _ _ Hsh HL ND H) as (S' & St & _ & _ & _ & _ & _ & _ & P & _ & HR).
  assert (G : forall i, (i < length (time_array u))%nat -> ~ asked conv tol enu u' i).
  { intros i Hi. destruct (HR i Hi) as [HT HK]. destruct (asked_dec conv tol enu u i) as [Y|N].
    - specialize (HT Y). pose proof (coords_turned P enu u u' i HT) as Ec. destruct HT as (E1 & E2 & _).
      unfold asked in *. rewrite Ec. destruct (coords_at enu u i) as [[x y] z]. cbn [neg3]. rewrite E1, E2.
      destruct conv; rewrite ?leading3 in *; rewrite ?Z.abs_opp, ?Z.opp_involutive in *;
        try (destruct Htol as [[?|?]|?]; try discriminate; lia).
      exfalso. apply Hx. eexists; reflexivity.
    - specialize (HK N). pose proof (coords_copied enu u u' i HK) as Ec. destruct HK as (_ & _ & E1 & E2 & _).
      unfold asked in *. rewrite Ec. destruct (coords_at enu u i) as [[x y] z]. rewrite E1, E2. exact N. }
  split; [exact G|].
  destruct (conj_rows_total conv tol enu u') as (idx & E). { intros idx ->. exfalso. apply Hx. eexists; reflexivity. }
  unfold conjugate_bls. rewrite E. cbn [bind]. destruct (conj_rows_spec _ _ _ _ _ S' E) as [Hb Ha].
  destruct idx as [|i l]; [reflexivity|]. exfalso. inversion Hb as [|? ? Hi _]; subst.
  apply (G i); [destruct St as [-> _] in Hi; exact Hi|]. apply Ha; [exact Hi|left; reflexivity].
Qed.

(** ** Twice with the same index list *)
Lemma conj_invol u P k : NoDup (polarization_array u) -> conj_positions u P -> (k < length (polarization_array u))%nat ->
  (nth k P 0 < length (polarization_array u))%nat /\ nth (nth k P 0%nat) P 0%nat = k.
Proof.
  intros ND [LP HP] Hk. destruct (HP k ltac:(lia)) as [A B]. destruct (HP _ A) as [C D]. split; [lia|].
  apply (proj1 (NoDup_nth (polarization_array u) 0) ND); try lia. rewrite D, B. apply swapped_invol.
Qed.

Lemma conjugate_twice idx tol enu u u1 u2 : blt_shaped u -> Forall legal_pol (polarization_array u) -> NoDup (polarization_array u) ->
  default_coded u ->
  conjugate_bls (ConjIndex idx) tol (conj_coords enu u) u = Ok u1 ->
  conjugate_bls (ConjIndex idx) tol (conj_coords enu u1) u1 = Ok u2 ->
  same_freq_axis u u2 /\ polarization_array u2 = polarization_array u /\ (counts_ok u -> Nbls u2 = Nbls u /\ Ntimes u2 = Ntimes u) /\
  forall i, (i < length (time_array u))%nat -> row_copied u i u2 i.
Proof.
  intros Hsh HL ND HD H1 H2.
  pose proof (conjugate_rows _ _ _ _ _ Hsh HL ND H1) as (S1 & St1 & Sf1 & Ep1 & Ef1 & En1 & C1 & D1 & _).
  assert (HL1 : Forall legal_pol (polarization_array u1)) by (rewrite Ep1; exact HL).
  assert (ND1 : NoDup (polarization_array u1)) by (rewrite Ep1; exact ND).
  pose proof (conjugate_rows _ _ _ _ _ S1 HL1 ND1 H2) as (S2 & St2 & Sf2 & Ep2 & Ef2 & En2 & C2 & D2 & _).
  assert (Rows : forall i, (i < length (time_array u))%nat -> row_copied u i u2 i).
  { apply conj_cases in H1 as (ix1 & E1 & K1). apply conj_cases in H2 as (ix2 & E2 & K2).
    assert (ix2 = ix1).
    { unfold conj_rows in E1, E2. destruct idx as [|z l]; [discriminate|]. unfold Nblts in *. destruct St1 as [Et _]. rewrite Et in E2. congruence. }
    subst ix2. destruct (conj_rows_spec _ _ _ _ _ Hsh E1) as [Hb _].
    destruct K1 as [[-> ->]|[Hne K1]], K2 as [[E ->]|[Hne2 K2]]; try congruence; [intros i Hi; apply row_copied_refl|].
    destruct (conj_apply_ok _ _ _ Hsh HL ND Hb Hne K1) as (P & m & off & HP & He & _ & _ & _ & _ & _ & _ & _ & _ & _ & _ & _ & EN1 & HT & HK & HO & Hd).
    assert (Hb1 : Forall (fun i => (i < length (time_array u1))%nat) ix1) by (destruct St1 as [-> _]; exact Hb).
    destruct (conj_apply_ok _ _ _ S1 HL1 ND1 Hb1 Hne K2) as (P' & m' & off' & HP' & He' & _ & _ & _ & _ & _ & _ & _ & _ & _ & _ & _ & EN2 & HT' & HK' & HO' & Hd').
    assert (P' = P). { apply (conj_positions_unique u1); [exact ND1|exact HP'|]. unfold conj_positions. rewrite Ep1. exact HP. }
    subst P'. intros i Hi. assert (Hi1 : (i < length (time_array u1))%nat) by (destruct St1 as [-> _]; exact Hi).
    destruct (in_dec Nat.eq_dec i ix1) as [Y|N].
    - destruct (HT i Hi Y) as ((A1 & A2 & A3 & A4) & _). destruct (HT' i Hi1 Y) as ((B1 & B2 & B3 & B4) & Bb & _).
      destruct St1 as (T1 & T2 & T3 & T4 & T5 & T6 & T7). destruct St2 as (U1 & U2 & U3 & U4 & U5 & U6 & U7).
      unfold row_copied. rewrite U1, U2, U3, U4, U5, U6, U7, T1, T2, T3, T4, T5, T6, T7, Ef2, Ef1, En2, En1.
      split; [reflexivity|]. split; [reflexivity|]. split; [congruence|]. split; [congruence|]. split.
      { rewrite Bb, B1, B2, A1, A2. destruct HD as (m0 & off0 & Hs0 & Hc0). pose proof (Hd' (D1 (ex_intro _ m0 (ex_intro _ off0 (conj Hs0 Hc0))))) as Hs'.
        rewrite EN1 in Hs'. destruct (Hc0 i Hi) as (_ & _ & ->).
        destruct Hs0 as [(-> & -> & ?)|(-> & -> & ?)], Hs' as [(-> & -> & ?)|(-> & -> & ?)]; lia. }
      split; [reflexivity|]. split. { rewrite B3, A3. destruct (nth i (uvw_array u) (0, 0, 0)) as [[x y] z]. cbn [neg3]. rewrite !Z.opp_involutive. reflexivity. }
      do 4 (split; [reflexivity|]). intros j k. split; [|split; reflexivity].
      destruct (Nat.lt_ge_cases k (length (polarization_array u))) as [Hk|Hk].
      + destruct (conj_invol u P k ND HP Hk) as [Hk' Ek]. transitivity (data_array u2 i j (nth (nth k P 0%nat) P 0%nat)); [rewrite Ek; reflexivity|].
        rewrite B4 by (rewrite Ep1; exact Hk'). rewrite A4 by exact Hk. apply cconj_invol.
      + rewrite HO' by (rewrite Ep1; exact Hk). apply HO. exact Hk.
    - destruct (HK i N) as (A1 & A2 & A3 & A4 & A5 & A6 & A7 & A8 & A9 & A10 & A11 & A12).
      destruct (HK' i N) as (B1 & B2 & B3 & B4 & B5 & B6 & B7 & B8 & B9 & B10 & B11 & B12).
      unfold row_copied. repeat (split; [congruence|]). intros j k. destruct (A12 j k) as (a & b & c), (B12 j k) as (d & e & f).
      repeat split; congruence. }
  split. { destruct Sf1 as (F1 & F2 & F3 & F4), Sf2 as (G1 & G2 & G3 & G4). repeat split; congruence. }
  split; [congruence|]. split; [|exact Rows].
  intros C. assert (Eb : baseline_array u2 = baseline_array u).
  { pose proof Hsh as (_ & _ & _ & L & _). pose proof S2 as (_ & _ & _ & L2 & _). destruct St1 as [T1 _], St2 as [T2 _].
    apply (nth_ext _ _ 0 0); [congruence|]. intros i Hi. apply Rows. rewrite L2, T2, T1 in Hi. exact Hi. }
  assert (Et : time_array u2 = time_array u) by (destruct St1 as [T1 _], St2 as [T2 _]; congruence).
  destruct (C2 (C1 C)) as [X Y]. destruct C as [X0 Y0]. rewrite Eb in X. rewrite Et in Y. apply distinct_count_unique in X, Y, X0, Y0. split; congruence.
Qed.
