(** Concrete objects for the statements about conjugation. *)
From Coq Require Import List ZArith Bool Arith Lia Sorted Permutation String ZifyBool ZifyNat.
From Verif Require Import Lib.Py Lib.Np Lib.Cube Lib.Slice Spec.BlsSpec Spec.BltSpec Spec.UVDataSpec Spec.PolSpec Spec.ToolsSpec Spec.AccessSpec Spec.ConjSpec
  Model.Bls Model.Pol Model.Tools Model.BltAxis Model.UVData Model.Reorder Model.Access
  Proofs.ReorderProofs Proofs.Samples Proofs.AccessProofs Proofs.AccessRead Proofs.ConjProofs Proofs.ConjSame Proofs.ConjQuery.
Import ListNotations.
Open Scope Z_scope.
Open Scope list_scope.
Notation length := List.length.
Notation concat := List.concat.

Lemma sample_default rows pols nb nt ord rect af :
  Forall (fun r => 0 <= snd (fst r) < 2048 /\ 0 <= snd r < 2048) rows ->
  default_coded (Samples.sample rows pols nb nt ord rect af).
Proof.
  intros HF. exists 2048, 65536. split; [left; cbn; lia|]. cbn. intros i Hi. rewrite map_length in Hi.
  rewrite (nth_map _ rows i (0, 0, 0)), (nth_map snd rows i (0, 0, 0)), (nth_map (fun r => Samples.bl0 _ _) rows i (0, 0, 0)) by exact Hi.
  rewrite Forall_forall in HF. specialize (HF (nth i rows (0, 0, 0)) ltac:(apply nth_In; exact Hi)).
  split; [apply HF|]. split; [apply HF|reflexivity].
Qed.

Definition with_flags (f : cube bool) (u : uvd) : uvd := set_flag_array f u.

(** one polarization (xy) fully flagged *)
Definition flagged_xy : uvd := with_flags (fun _ _ k => Nat.eqb k 2) square.
Lemma flagged_xy_consistent : consistent flagged_xy.
Proof. exact square_consistent. Qed.

(** the second baseline of [square] turned round *)
Definition square_turned : uvd :=
  match conjugate_bls Ant1LtAnt2 0 (conj_coords None flagged_xy) flagged_xy with Ok u => u | Err _ => flagged_xy end.

Lemma square_clean conv enu : by_antenna conv -> turns_cleanly (asked conv 0 enu flagged_xy) flagged_xy.
Proof.
  intros Hc i j Hi Hj. unfold asked. destruct (coords_at enu flagged_xy i) as [[? ?] ?], (coords_at enu flagged_xy j) as [[? ?] ?].
  cbn in Hi, Hj. do 4 (destruct i as [|i]; [do 4 (destruct j as [|j]; [destruct Hc as [-> | ->]; cbn; lia|]); exfalso; lia|]). exfalso; lia.
Qed.

Lemma square_turned_ok : conjugate_bls Ant1LtAnt2 0 (conj_coords None flagged_xy) flagged_xy = Ok square_turned.
Proof. reflexivity. Qed.
Lemma square_legal : Forall legal_pol (polarization_array square) /\ NoDup (polarization_array square).
Proof. split; [repeat constructor; unfold legal_pol; lia|]. repeat constructor; simpl; intuition discriminate. Qed.

Lemma square_turned_consistent : consistent square_turned.
Proof.
  destruct square_legal as [HL ND]. pose proof flagged_xy_consistent as (Hsh & Hc & Hr & Ht & Hp & Hn).
  assert (HD : default_coded flagged_xy) by (apply (sample_default [(1, 0, 1); (1, 2, 0); (2, 0, 1); (2, 2, 0)]); repeat constructor; simpl; lia).
  destruct (conjugate_rows _ _ _ _ _ Hsh HL ND square_turned_ok) as (S' & St & _ & Ep & _ & _ & _ & D' & _).
  split; [exact S'|]. split. { destruct (D' HD) as (m & off & Hs & H). exists m, off. split; [eapply default_encoding; exact Hs|exact H]. }
  split; [apply (conj_rectangular _ _ _ _ _ Hsh HL ND HD Hr (square_clean _ _ (or_introl eq_refl)) square_turned_ok)|].
  split; [destruct St as [-> _]; exact Ht|]. split; [rewrite Ep; exact Hp|exact Hn].
Qed.

Lemma flags_left_behind : exists conv o o' r r', reachable o /\ consistent (o_u o) /\ consistent (o_u o') /\
  obj_conjugate conv 0 (conj_coords None (o_u o)) o = (o', Ok tt) /\
  snd (get_flags (KPairN 2 0 (-7)) o) = Ok r /\ snd (get_flags (KPairN 2 0 (-7)) o') = Ok r' /\
  (forall row f, In row r -> In f (concat row) -> f = true) /\ (forall row f, In row r' -> In f (concat row) -> f = false) /\
  r <> [] /\ r' <> [].
Proof.
  exists Ant1LtAnt2, (fresh flagged_xy None), (mkobj square_turned None [] []),
    [[[true]; [true]; [true]]; [[true]; [true]; [true]]], [[[false]; [false]; [false]]; [[false]; [false]; [false]]].
  split; [apply fresh_reachable|]. split; [exact flagged_xy_consistent|]. split; [exact square_turned_consistent|].
  split; [reflexivity|]. split; [vm_compute; reflexivity|]. split; [vm_compute; reflexivity|].
  split; [|split; [|split; discriminate]]; intros row f Hr Hf; simpl in Hr; destruct Hr as [<-|[<-|[]]]; simpl in Hf; intuition congruence.
Qed.

(** three baselines, two of them the same pair in opposite directions *)
Definition doubled : uvd :=
  Samples.sample [(1, 0, 1); (1, 0, 2); (1, 1, 0); (2, 0, 1); (2, 0, 2); (2, 1, 0)] [-5; -6] 3 2 None (Some true) false.
Lemma doubled_consistent : consistent doubled /\ counts_ok doubled.
Proof.
  split; [|split; apply distinct_count_unique; reflexivity].
  split; [apply Samples.sample_shaped|]. split.
  { apply sample_coded. repeat constructor; simpl; lia. }
  split; [|split; [discriminate|split; [discriminate|simpl; lia]]].
  intros _. exists [1; 2], [Samples.bl0 0 1; Samples.bl0 0 2; Samples.bl0 1 0]. split; [reflexivity|]. split; [reflexivity|]. unfold product_layout.
  split; [repeat constructor; simpl; lia|]. split; [repeat constructor; unfold Samples.bl0; simpl; lia|]. split; reflexivity.
Qed.

Definition doubled_turned : uvd :=
  match conjugate_bls Ant1LtAnt2 0 (conj_coords None doubled) doubled with Ok u => u | Err _ => doubled end.

Lemma rect_stale : exists conv o o', reachable o /\ consistent (o_u o) /\ counts_ok (o_u o) /\
  obj_conjugate conv 0 (conj_coords None (o_u o)) o = (o', Ok tt) /\ counts_ok (o_u o') /\
  ~ rect_truthful (o_u o') /\
  pair_rows (o_u o') 0 1 = [0; 2; 3; 5]%nat /\
  exists ix, snd (antpair2ind 0 1 true o') = Ok (Some ix) /\ positions 6 ix = Ok [0; 2; 4].
Proof.
  exists Ant1LtAnt2, (fresh doubled None), (mkobj doubled_turned None [] []). split; [apply fresh_reachable|]. split; [apply doubled_consistent|]. split; [apply doubled_consistent|].
  split; [reflexivity|]. split; [split; apply distinct_count_unique; vm_compute; reflexivity|]. split.
  - cbn [o_u]. intros H.
    assert (E0 : blts_are_rectangular doubled_turned = Some true) by (vm_compute; reflexivity).
    assert (E1 : Ntimes doubled_turned = 2%nat) by (vm_compute; reflexivity).
    assert (E2 : Nbls doubled_turned = 2%nat) by (vm_compute; reflexivity).
    assert (E3 : time_axis_faster_than_bls doubled_turned = false) by (vm_compute; reflexivity).
    assert (E4 : time_array doubled_turned = [1; 1; 1; 2; 2; 2]) by (vm_compute; reflexivity).
    destruct (H E0) as (ts & bs & Lt & Lb & _ & _ & E). rewrite E3, E4 in E. destruct E as [E _]. rewrite E1 in Lt. rewrite E2 in Lb.
    destruct ts as [|? [|? [|? ?]]]; try discriminate. destruct bs as [|? [|? [|? ?]]]; discriminate.
  - split; [vm_compute; reflexivity|]. exists (ISlice {| s_start := Some 0; s_stop := None; s_step := Some 2 |}). split; vm_compute; reflexivity.
Qed.

(** baseline numbers in the 256 scheme, as attempt256 produces *)
Definition numbered256 : uvd :=
  set_baseline_array [1; 512; 1; 512] (Samples.sample [(1, 0, 1); (1, 2, 0); (2, 0, 1); (2, 2, 0)] [-5; -6] 2 2 None None false).
Lemma numbered256_consistent : consistent numbered256.
Proof.
  split; [repeat split|]. split.
  { exists 256, 0. split; [constructor|]. cbn. intros i Hi. do 4 (destruct i as [|i]; [cbn; lia|]). lia. }
  split; [discriminate|]. split; [discriminate|]. split; [discriminate|]. cbn. lia.
Qed.

Lemma schemes_mixed : exists u u', consistent u /\ conjugate_bls Ant1LtAnt2 0 (conj_coords None u) u = Ok u' /\
  ~ bl_coded u' /\ exists l a b, get_antpairs u' = Ok l /\ In (a, b) l /\ pair_rows u' a b = [].
Proof.
  exists numbered256. eexists. split; [exact numbered256_consistent|]. split; [reflexivity|]. split.
  - intros (m & off & He & H). pose proof (H 0%nat ltac:(cbn; lia)) as (A & B & C). pose proof (H 1%nat ltac:(cbn; lia)) as (D & E & F).
    cbn in *. inversion He; subst; lia.
  - exists [(0, 1); (256, 2)], 256, 2. split; [reflexivity|]. split; [simpl; auto|reflexivity].
Qed.

Lemma reorder_pols_rect req u u' : reorder_pols req u = Ok u' -> rect_truthful u -> rect_truthful u'.
Proof.
  unfold reorder_pols. intros H HR. destruct req.
  - match type of H with (if ?c then _ else _) = _ => destruct c; [discriminate|] end. injection H as <-. exact HR.
  - apply bind_Ok in H as (idx & _ & H). injection H as <-. exact HR.
Qed.

Lemma set_rect_ok u u' : blt_shaped u -> counts_ok u -> declared_order_true (time_array u) (baseline_array u) (blt_order u) ->
  set_rectangularity true u = Ok u' -> rect_truthful u'.
Proof. intros (_ & _ & _ & L & _) C D H. apply (set_rect_truthful u u'); auto. Qed.

Lemma reorder_key_rect key minor u u' : blt_shaped u -> counts_ok u -> records_distinct u ->
  reorder_blts (BltKey key) minor false None u = Ok u' -> rect_truthful u'.
Proof. intros A B C D. apply (reorder_rect key minor u u' A B C D). Qed.

Lemma conj_clean_ant conv tol enu u : by_antenna conv ->
  (forall i j, (i < length (time_array u))%nat -> (j < length (time_array u))%nat ->
     nth i (ant_1_array u) 0 = nth j (ant_2_array u) 0 -> nth i (ant_2_array u) 0 = nth j (ant_1_array u) 0 ->
     nth i (ant_1_array u) 0 = nth i (ant_2_array u) 0) ->
  turns_cleanly (asked conv tol enu u) u.
Proof.
  intros Hc H i j Hi Hj. specialize (H i j Hi Hj). unfold asked. destruct (coords_at enu u i) as [[? ?] ?], (coords_at enu u j) as [[? ?] ?].
  destruct Hc as [-> | ->]; lia.
Qed.

Lemma conj_rect_ant conv tol enu u u' : conv = Ant1LtAnt2 \/ conv = Ant2LtAnt1 ->
  blt_shaped u -> Forall legal_pol (polarization_array u) -> NoDup (polarization_array u) ->
  default_coded u -> rect_truthful u ->
  (forall i j, (i < length (time_array u))%nat -> (j < length (time_array u))%nat ->
     nth i (ant_1_array u) 0 = nth j (ant_2_array u) 0 -> nth i (ant_2_array u) 0 = nth j (ant_1_array u) 0 ->
     nth i (ant_1_array u) 0 = nth i (ant_2_array u) 0) ->
  conjugate_bls conv tol (conj_coords enu u) u = Ok u' -> rect_truthful u'.
Proof.
  intros Hc Hsh HL ND HD HR HO H. apply (conj_rectangular conv tol enu u u'); try assumption. apply conj_clean_ant; assumption.
Qed.
