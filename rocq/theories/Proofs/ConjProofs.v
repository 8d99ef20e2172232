(** Lemmas about conjugating baselines. *)
From Coq Require Import List ZArith Bool Arith Lia Sorted Permutation String ZifyBool ZifyNat.
From Verif Require Import Lib.Py Lib.Np Lib.Sorting Lib.Cube Spec.BlsSpec Spec.BltSpec Spec.UVDataSpec Spec.PolSpec Spec.AccessSpec Spec.ConjSpec
  Model.Bls Model.Pol Model.BltAxis Model.UVData Model.Reorder Model.Access
  Proofs.BlsProofs Proofs.BltProofs Proofs.PolProofs Proofs.ReorderProofs Proofs.Samples Proofs.AccessProofs Proofs.AccessRead.
Import ListNotations.
Open Scope Z_scope.
Open Scope list_scope.
Notation length := List.length.
Notation concat := List.concat.

(** ** Fancy assignment *)
Lemma assign_at_length {A} idx (vals : list A) arr : length (assign_at idx vals arr) = length arr.
Proof.
  unfold assign_at. generalize (combine idx vals). intros l. revert arr.
  induction l as [|p l IH]; intros arr; [reflexivity|]. cbn [fold_left]. rewrite IH. apply set_nth_length.
Qed.

Lemma nth_assign_map {A} idx (h : nat -> A) arr d i : Forall (fun i => (i < length arr)%nat) idx ->
  nth i (assign_at idx (map h idx) arr) d = if isinN i idx then h i else nth i arr d.
Proof.
  unfold assign_at. revert arr. induction idx as [|x idx IH]; intros arr Hb; [reflexivity|].
  inversion Hb as [|? ? Hx Hb']; subst. cbn [map combine fold_left fst snd].
  rewrite IH by (rewrite set_nth_length; exact Hb'). rewrite nth_set_nth by exact Hx.
  destruct (isinN i idx) eqn:E; destruct (isinN i (x :: idx)) eqn:E2; try reflexivity.
  - apply isinN_spec in E. apply isinN_false in E2. simpl in E2. tauto.
  - destruct (Nat.eqb_spec x i) as [->|N]; [reflexivity|]. apply isinN_spec in E2. apply isinN_false in E. simpl in E2. tauto.
  - destruct (Nat.eqb_spec x i) as [->|N]; [|reflexivity]. apply isinN_false in E2. simpl in E2. tauto.
Qed.

(** ** The data *)
Lemma conj_data_spec idx P np (orig : cube cplx) i j k :
  conj_data idx P np orig i j k =
  if isinN i idx then
    match find (fun p => (k =? nth p P 0)%nat) (rev (seq 0 np)) with
    | Some p => cconj (orig i j p) | None => orig i j k end
  else orig i j k.
Proof.
  unfold conj_data. induction np as [|np IH]; [simpl; destruct (isinN i idx); reflexivity|].
  rewrite seq_S, fold_left_app, rev_app_distr. cbn [fold_left rev app Nat.add find]. rewrite IH.
  destruct (isinN i idx); cbn [andb]; [|reflexivity]. destruct (k =? nth np P 0)%nat; reflexivity.
Qed.

Lemma conj_data_flip idx P np (orig : cube cplx) i j k : NoDup P -> length P = np -> (k < np)%nat ->
  In i idx -> conj_data idx P np orig i j (nth k P 0%nat) = cconj (orig i j k).
Proof.
  intros ND L Hk Hi. rewrite conj_data_spec. apply isinN_spec in Hi. rewrite Hi.
  destruct (find _ _) as [p|] eqn:E.
  - apply find_some in E as [Hp E]. apply in_rev, in_seq in Hp. apply Nat.eqb_eq in E.
    f_equal. f_equal. symmetry. apply (proj1 (NoDup_nth P 0%nat) ND); lia.
  - exfalso. assert (F := find_none _ _ E k ltac:(apply -> in_rev; apply in_seq; lia)). cbv beta in F. rewrite Nat.eqb_refl in F. discriminate.
Qed.
Lemma conj_data_keep idx P np (orig : cube cplx) i j k : ~ In i idx -> conj_data idx P np orig i j k = orig i j k.
Proof. intros H. rewrite conj_data_spec. apply isinN_false in H. rewrite H. reflexivity. Qed.
Lemma conj_data_out idx P np (orig : cube cplx) i j k : length P = np -> Forall (fun q => (q < np)%nat) P -> (np <= k)%nat ->
  conj_data idx P np orig i j k = orig i j k.
Proof.
  intros L Hb Hk. rewrite conj_data_spec. destruct (isinN i idx); [|reflexivity].
  destruct (find _ _) as [p|] eqn:E; [|reflexivity].
  apply find_some in E as [Hp E]. apply in_rev, in_seq in Hp. apply Nat.eqb_eq in E.
  rewrite Forall_forall in Hb. assert (H := Hb (nth p P 0%nat) ltac:(apply nth_In; lia)). lia.
Qed.

(** ** Which rows *)
Lemma leading3 tol x y z : leading_positive tol [x; y; z] <->
  tol < x \/ (Z.abs x <= tol /\ (tol < y \/ (Z.abs y <= tol /\ tol < z))).
Proof.
  split.
  - intros H. inversion H as [|? ? A B]; subst; [auto|]. right. split; [exact A|].
    inversion B as [|? ? C D]; subst; [auto|]. right. split; [exact C|]. inversion D as [|? ? E F]; subst; [auto|inversion F].
  - intros [H|(H & [K|(K & L)])]; [apply lp_here; exact H|apply lp_next; [exact H|apply lp_here; exact K]|].
    apply lp_next; [exact H|apply lp_next; [exact K|apply lp_here; exact L]].
Qed.

Lemma coords_nth enu u i : blt_shaped u -> (i < length (time_array u))%nat -> nth i (conj_coords enu u) (0, 0, 0) = coords_at enu u i.
Proof.
  intros (_ & L1 & L2 & _) Hi. unfold conj_coords, coords_at. destruct enu as [pos|]; [|reflexivity].
  rewrite (nth_map _ _ _ (0, 0)) by (rewrite combine_length; lia). rewrite combine_nth by lia. reflexivity.
Qed.
Lemma coords_length enu u : blt_shaped u -> length (conj_coords enu u) = length (time_array u).
Proof.
  intros (_ & L1 & L2 & _ & _ & L3 & _). unfold conj_coords. destruct enu; [rewrite map_length, combine_length; lia|exact L3].
Qed.

Lemma conj_rows_spec conv tol enu u idx : blt_shaped u -> conj_rows conv tol (conj_coords enu u) u = Ok idx ->
  Forall (fun i => (i < length (time_array u))%nat) idx /\
  (forall i, (i < length (time_array u))%nat -> (In i idx <-> asked conv tol enu u i)).
Proof.
  intros Hsh H. pose proof Hsh as (_ & L1 & L2 & _). pose proof (coords_length enu u Hsh) as L3.
  assert (G : forall f, Ok (nonzero f (combine (combine (ant_1_array u) (ant_2_array u)) (conj_coords enu u))) = Ok idx ->
     (forall i, (i < length (time_array u))%nat ->
        (f (nth i (ant_1_array u) 0, nth i (ant_2_array u) 0, coords_at enu u i) = true <-> asked conv tol enu u i)) ->
     Forall (fun i => (i < length (time_array u))%nat) idx /\
     (forall i, (i < length (time_array u))%nat -> (In i idx <-> asked conv tol enu u i))).
  { intros f E Hf. injection E as <-. split.
    - apply Forall_forall. intros i Hi. apply nonzero_lt in Hi. rewrite !combine_length in Hi. lia.
    - intros i Hi. rewrite (nonzero_spec (0, 0, (0, 0, 0))). rewrite !combine_length.
      rewrite combine_nth by (rewrite combine_length; lia). rewrite combine_nth by lia. rewrite coords_nth by assumption.
      rewrite <- (Hf i Hi). intuition lia. }
  destruct conv; try (apply (G _ H); intros i Hi; unfold asked; cbn [conj_test fst snd]; unfold conj_test;
    destruct (coords_at enu u i) as [[x y] z]; rewrite ?leading3; rewrite ?Z.abs_opp; lia).
  unfold conj_rows in H. destruct idx0 as [|z0 idx0]; [discriminate|].
  match type of H with (if ?c then _ else _) = _ => destruct c eqn:E; [discriminate|] end. injection H as <-.
  assert (Hf : forall z, In z (z0 :: idx0) -> 0 <= z < Z.of_nat (length (time_array u))).
  { intros z Hz. rewrite <- not_true_iff_false, existsb_exists in E. unfold Nblts in E.
    destruct (Z_lt_le_dec z 0); [exfalso; apply E; exists z; split; [exact Hz|lia]|].
    destruct (Z_lt_le_dec z (Z.of_nat (length (time_array u)))); [lia|]. exfalso; apply E; exists z; split; [exact Hz|lia]. }
  change (Z.to_nat z0 :: map Z.to_nat idx0) with (map Z.to_nat (z0 :: idx0)).
  remember (z0 :: idx0) as l eqn:El. clear El E. split.
  - apply Forall_forall. intros i Hi. apply in_map_iff in Hi as (z & <- & Hz). apply Hf in Hz. lia.
  - intros i Hi. unfold asked. destruct (coords_at enu u i) as [[q1 q2] q3]. rewrite in_map_iff. split.
    + intros (z & <- & Hz). rewrite Z2Nat.id by (apply Hf in Hz; lia). exact Hz.
    + intros Hz. exists (Z.of_nat i). split; [lia|exact Hz].
Qed.

(** ** One call *)
Lemma encode_default n m off ant1 ant2 bl : default_scheme n m off -> length ant1 = length ant2 ->
  antnums_to_baseline ant1 ant2 (Some n) false false = Ok bl ->
  Forall (fun a => 0 <= a < m) ant1 -> Forall (fun a => 0 <= a < m) ant2 ->
  bl = map (fun p => m * fst p + snd p + off) (combine ant1 ant2).
Proof.
  intros Hs Hl H F1 F2. unfold antnums_to_baseline in H.
  destruct (n >? 2147483648); [discriminate|]. destruct (existsb _ _); [discriminate|]. destruct (existsb _ _); [discriminate|].
  unfold pyx_antnums_to_baseline in H. apply bind_Ok in H as (m1 & M1 & H). apply bind_Ok in H as (m2 & M2 & H).
  replace (length ant2 <? length ant1)%nat with false in H by lia. cbv zeta in H.
  apply arraymax_Ok in M1 as [M1 _], M2 as [M2 _].
  rewrite Forall_forall in F1, F2. pose proof (F1 _ M1) as B1. pose proof (F2 _ M2) as B2. cbv beta in B1, B2.
  injection H as <-. apply map_ext_in. intros [a b] Hin. cbn [fst snd].
  pose proof (F1 _ (in_combine_l _ _ _ _ Hin)) as C1. pose proof (F2 _ (in_combine_r _ _ _ _ Hin)) as C2. cbv beta in C1, C2.
  destruct Hs as [(-> & -> & Hn)|(-> & -> & Hn)].
  - replace ((if m1 >? m2 then m1 else m2) <? 2048) with true by (destruct (m1 >? m2); lia).
    replace (negb (n >? 2048)) with true by lia. cbn [andb]. rewrite enc2048_eq by lia. lia.
  - replace (negb (n >? 2048)) with false by lia. rewrite andb_false_r. rewrite enclarge_eq by lia. lia.
Qed.

Lemma combine_map2 {A B C} (f : A -> B) (g : A -> C) l : combine (map f l) (map g l) = map (fun x => (f x, g x)) l.
Proof. induction l as [|x l IH]; [reflexivity|]. simpl. rewrite IH. reflexivity. Qed.

Lemma default_encoding n m off : default_scheme n m off -> encoding m off.
Proof. intros [(-> & -> & _)|(-> & -> & _)]; constructor. Qed.

Lemma default_coded_dec u : blt_shaped u -> default_coded u \/ ~ default_coded u.
Proof.
  intros Hsh.
  assert (D : forall m off, (forall i, (i < length (time_array u))%nat ->
    0 <= nth i (ant_1_array u) 0 < m /\ 0 <= nth i (ant_2_array u) 0 < m /\
    nth i (baseline_array u) 0 = m * nth i (ant_1_array u) 0 + nth i (ant_2_array u) 0 + off) \/
    ~ (forall i, (i < length (time_array u))%nat ->
    0 <= nth i (ant_1_array u) 0 < m /\ 0 <= nth i (ant_2_array u) 0 < m /\
    nth i (baseline_array u) 0 = m * nth i (ant_1_array u) 0 + nth i (ant_2_array u) 0 + off)).
  { intros m off. induction (length (time_array u)) as [|n [IH|IH]].
    - left. intros; lia.
    - destruct (Z_le_dec 0 (nth n (ant_1_array u) 0)), (Z_lt_dec (nth n (ant_1_array u) 0) m), (Z_le_dec 0 (nth n (ant_2_array u) 0)), (Z_lt_dec (nth n (ant_2_array u) 0) m),
       (Z.eq_dec (nth n (baseline_array u) 0) (m * nth n (ant_1_array u) 0 + nth n (ant_2_array u) 0 + off)) as [E|E];
       try (right; intros H; specialize (H n ltac:(lia)); lia).
      left. intros i Hi. destruct (Nat.eq_dec i n) as [->|]; [tauto|apply IH; lia].
    - right. intros H. apply IH. intros i Hi. apply H. lia. }
  destruct (Z_le_dec (Nants_telescope u) 2048).
  - destruct (D 2048 65536) as [H|H]; [left; exists 2048, 65536; split; [left; auto|exact H]|].
    right. intros (m & off & [(-> & -> & _)|(_ & _ & Hn)] & Hc); [auto|lia].
  - destruct (Z_le_dec (Nants_telescope u) 2147483648).
    + destruct (D 2147483648 (65536 + 4194304)) as [H|H]; [left; do 2 eexists; split; [right; split; [reflexivity|split; [reflexivity|lia]]|exact H]|].
      right. intros (m & off & [(_ & _ & Hn)|(-> & -> & _)] & Hc); [lia|auto].
    + right. intros (m & off & [(_ & _ & Hn)|(_ & _ & Hn)] & Hc); lia.
Qed.

Lemma conj_positions_of u npi : Forall legal_pol (polarization_array u) -> reorder_conj_pols (polarization_array u) = Ok npi ->
  conj_positions u npi.
Proof.
  intros HL E. assert (C : forall p, In p (polarization_array u) -> In (swapped p) (polarization_array u)).
  { intros p Hp. destruct (in_dec Z.eq_dec (swapped p) (polarization_array u)) as [|N]; [assumption|].
    assert (reorder_conj_pols (polarization_array u) = Err ValueError) by (apply reorder_conj_err; eauto). congruence. }
  destruct (reorder_conj_ok _ HL C) as (o & E' & Lo & Ho). rewrite E in E'. injection E' as <-.
  split; [exact Lo|]. rewrite Lo. exact Ho.
Qed.

Lemma conj_apply_ok idx u u' : blt_shaped u -> Forall legal_pol (polarization_array u) -> NoDup (polarization_array u) ->
  Forall (fun i => (i < length (time_array u))%nat) idx -> idx <> [] -> conj_apply idx u = Ok u' ->
  exists P m off,
  conj_positions u P /\ encoding m off /\
  blt_shaped u' /\ same_stamps u u' /\ same_freq_axis u u' /\ polarization_array u' = polarization_array u /\
  flag_array u' = flag_array u /\ nsample_array u' = nsample_array u /\
  Nbls u' = length (uniqueZ (baseline_array u')) /\ Ntimes u' = Ntimes u /\ blt_order u' = blt_order u /\
  blts_are_rectangular u' = blts_are_rectangular u /\ time_axis_faster_than_bls u' = time_axis_faster_than_bls u /\
  Nants_telescope u' = Nants_telescope u /\
  (forall i, (i < length (time_array u))%nat -> In i idx -> row_turned P u u' i /\
     nth i (baseline_array u') 0 = m * nth i (ant_1_array u') 0 + nth i (ant_2_array u') 0 + off /\
     0 <= nth i (ant_1_array u') 0 < m /\ 0 <= nth i (ant_2_array u') 0 < m) /\
  (forall i, ~ In i idx -> row_copied u i u' i) /\
  (forall i j k, (length (polarization_array u) <= k)%nat -> data_array u' i j k = data_array u i j k) /\
  (default_coded u -> default_scheme (Nants_telescope u) m off).
Proof.
  intros Hsh HL ND Hb Hne H. pose proof Hsh as (S0 & S1 & S2 & S3 & S4 & S5 & S6).
  destruct idx as [|x idx]; [congruence|]. unfold conj_apply in H. clear Hne. remember (x :: idx) as ix eqn:Eix.
  apply bind_Ok in H as (npi & Hn & H). cbv zeta in H. apply bind_Ok in H as (bl & Hbl & H).
  pose proof (conj_positions_of u npi HL Hn) as HP. pose proof (conj_positions_NoDup u npi ND HP) as NDP.
  assert (T1 : forall i, nth i (assign_at ix (take 0 (ant_2_array u) ix) (ant_1_array u)) 0 =
     if isinN i ix then nth i (ant_2_array u) 0 else nth i (ant_1_array u) 0).
  { intros i. unfold take. apply (nth_assign_map ix (fun i => nth i (ant_2_array u) 0)). rewrite S1. exact Hb. }
  assert (T2 : forall i, nth i (assign_at ix (take 0 (ant_1_array u) ix) (ant_2_array u)) 0 =
     if isinN i ix then nth i (ant_1_array u) 0 else nth i (ant_2_array u) 0).
  { intros i. unfold take. apply (nth_assign_map ix (fun i => nth i (ant_1_array u) 0)). rewrite S2. exact Hb. }
  assert (T3 : forall i, nth i (assign_at ix (map nneg (take (0, 0, 0) (uvw_array u) ix)) (uvw_array u)) (0, 0, 0) =
     if isinN i ix then nneg (nth i (uvw_array u) (0, 0, 0)) else nth i (uvw_array u) (0, 0, 0)).
  { intros i. unfold take. rewrite map_map. apply (nth_assign_map ix (fun i => nneg (nth i (uvw_array u) (0, 0, 0)))). rewrite S5. exact Hb. }
  assert (V1 : take 0 (assign_at ix (take 0 (ant_2_array u) ix) (ant_1_array u)) ix = map (fun i => nth i (ant_2_array u) 0) ix).
  { unfold take at 1. apply map_ext_in. intros i Hi. rewrite T1. apply isinN_spec in Hi. rewrite Hi. reflexivity. }
  assert (V2 : take 0 (assign_at ix (take 0 (ant_1_array u) ix) (ant_2_array u)) ix = map (fun i => nth i (ant_1_array u) 0) ix).
  { unfold take at 1. apply map_ext_in. intros i Hi. rewrite T2. apply isinN_spec in Hi. rewrite Hi. reflexivity. }
  rewrite V1, V2 in Hbl.
  assert (HB : exists m off, encoding m off /\ bl = map (fun i => m * nth i (ant_2_array u) 0 + nth i (ant_1_array u) 0 + off) ix /\
     (forall i, In i ix -> 0 <= nth i (ant_1_array u) 0 < m /\ 0 <= nth i (ant_2_array u) 0 < m) /\
     (default_coded u -> default_scheme (Nants_telescope u) m off)).
  { assert (Vals : forall m off, bl = map (fun p => m * fst p + snd p + off) (combine (map (fun i => nth i (ant_2_array u) 0) ix) (map (fun i => nth i (ant_1_array u) 0) ix)) ->
        bl = map (fun i => m * nth i (ant_2_array u) 0 + nth i (ant_1_array u) 0 + off) ix).
    { intros m off ->. rewrite combine_map2, map_map. reflexivity. }
    rewrite Forall_forall in Hb.
    destruct (default_coded_dec u Hsh) as [(m & off & Hs & Hc)|Hnd].
    - exists m, off. split; [eapply default_encoding; exact Hs|]. split; [|split; [intros i Hi; destruct (Hc i (Hb i Hi)); tauto|intros _; exact Hs]].
      apply Vals. apply (encode_default _ _ _ _ _ _ Hs); [rewrite !map_length; reflexivity|exact Hbl| |];
      apply Forall_map, Forall_forall; intros i Hi; destruct (Hc i (Hb i Hi)); tauto.
    - destruct (encode_in_regime _ _ _ _ _ Hbl) as (m & off & He & _ & _ & E & Hp). exists m, off.
      split; [exact He|]. split; [apply Vals; exact E|]. split; [|intros; contradiction].
      intros i Hi. destruct (Hp (nth i (ant_2_array u) 0, nth i (ant_1_array u) 0)); [|cbn [fst snd] in *; tauto].
      rewrite combine_map2. apply in_map_iff. exists i. auto. }
  destruct HB as (m & off & Henc & Ebl & Hr & Hdef). subst bl.
  assert (T4 : forall i, nth i (assign_at ix (map (fun i => m * nth i (ant_2_array u) 0 + nth i (ant_1_array u) 0 + off) ix) (baseline_array u)) 0 =
     if isinN i ix then m * nth i (ant_2_array u) 0 + nth i (ant_1_array u) 0 + off else nth i (baseline_array u) 0).
  { intros i. apply (nth_assign_map ix (fun i => m * nth i (ant_2_array u) 0 + nth i (ant_1_array u) 0 + off)). rewrite S3. exact Hb. }
  injection H as <-. exists npi, m, off.
  split; [exact HP|]. split; [exact Henc|].
  split. { unfold blt_shaped. cbn. rewrite !assign_at_length. tauto. }
  split; [repeat split|]. split; [repeat split|]. do 9 (split; [reflexivity|]).
  split; [|split; [|split; [|exact Hdef]]].
  - intros i Hi Hin. cbn [row_turned ant_1_array ant_2_array uvw_array data_array baseline_array]. unfold row_turned.
    cbn [row_turned ant_1_array ant_2_array uvw_array data_array baseline_array].
    pose proof (Hr i Hin) as Hri. assert (Hin' := Hin). apply isinN_spec in Hin'. rewrite T1, T2, T3, T4, Hin'.
    split; [|split; [reflexivity|tauto]].
    split; [reflexivity|]. split; [reflexivity|]. split; [reflexivity|].
    intros j k Hk. apply conj_data_flip; try assumption. apply HP.
  - intros i Hin. unfold row_copied. cbn. assert (Hin' := Hin). apply isinN_false in Hin'. rewrite T1, T2, T3, T4, Hin'.
    do 11 (split; [reflexivity|]). intros j k. split; [apply conj_data_keep; exact Hin|split; reflexivity].
  - intros i j k Hk. cbn. apply conj_data_out; [apply HP| |exact Hk].
    apply Forall_forall. intros q Hq. apply In_nth with (d := 0%nat) in Hq. destruct Hq as (r & Hr' & <-).
    destruct HP as [LP HP]. unfold Npols; rewrite <- LP. apply HP. exact Hr'.
Qed.
