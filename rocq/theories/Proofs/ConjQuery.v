(** Queries before and after conjugating baselines; the rectangularity flag. *)
From Coq Require Import List ZArith Bool Arith Lia Sorted Permutation String ZifyBool ZifyNat.
From Verif Require Import Lib.Py Lib.Np Lib.Sorting Lib.Cube Lib.Slice Spec.BlsSpec Spec.BltSpec Spec.UVDataSpec Spec.PolSpec Spec.ToolsSpec Spec.AccessSpec Spec.ConjSpec
  Model.Bls Model.Pol Model.Tools Model.BltAxis Model.UVData Model.Reorder Model.Access
  Proofs.BlsProofs Proofs.BltProofs Proofs.PolProofs Proofs.ReorderProofs Proofs.Samples Proofs.AccessProofs Proofs.AccessRead Proofs.ConjProofs Proofs.ConjSame.
Import ListNotations.
Open Scope Z_scope.
Open Scope list_scope.
Notation length := List.length.
Notation concat := List.concat.

Lemma combine_maps {A B C} (f : A -> B) (g : A -> C) l : combine (map f l) (map g l) = map (fun x => (f x, g x)) l.
Proof. apply combine_map2. Qed.

(** The content of one row as answered for the key (a, b, p). *)
Definition row_value {A} (cj : A -> A) (c : cube A) (nf : nat) (P1 P2 : list nat) (u : uvd) (a : Z) (i : nat) : list (list A) :=
  if nth i (ant_1_array u) 0 =? a
  then map (fun j => map (fun k => c i j k) P1) (seq 0 nf)
  else map (fun j => map (fun k => cj (c i j k)) P2) (seq 0 nf).

Lemma expected_rows {A} (cj : A -> A) c nf P1 P2 u a b : a <> b ->
  expected cj c nf (pair_rows u a b) P1 (reverse_rows u a b) P2 =
  map (row_value cj c nf P1 P2 u a) (pair_rows u a b ++ reverse_rows u a b).
Proof.
  intros Hab. unfold expected. rewrite map_app. f_equal.
  - apply map_ext_in. intros i Hi. apply pair_rows_In in Hi as (_ & E & _). unfold row_value. rewrite E, Z.eqb_refl. reflexivity.
  - unfold reverse_rows. replace (a =? b) with false by lia. apply map_ext_in. intros i Hi. apply pair_rows_In in Hi as (_ & E & _).
    unfold row_value. rewrite E. replace (b =? a) with false by lia. reflexivity.
Qed.

Lemma key_number_cells u xo a b p : legal_pol p ->
  key_cells u xo (KPairN a b p) (pair_rows u a b) (pol_positions u p) (reverse_rows u a b) (pol_positions u (swapped p)).
Proof. apply cells_pair_number. Qed.

Lemma pol_positions_single u p : NoDup (polarization_array u) ->
  (exists k, (k < length (polarization_array u))%nat /\ nth k (polarization_array u) 0 = p /\ pol_positions u p = [k]) \/
  (~ In p (polarization_array u) /\ pol_positions u p = []).
Proof.
  intros ND. destruct (pol_positions u p) as [|k [|k' l]] eqn:E.
  - right. split; [|reflexivity]. intros Hin. apply In_nth with (d := 0) in Hin. destruct Hin as (k & Hk & Ek).
    assert (In k (pol_positions u p)); [|rewrite E in *; contradiction]. unfold pol_positions. apply filter_In. split; [apply in_seq; lia|lia].
  - left. assert (Hin : In k (pol_positions u p)) by (rewrite E; left; reflexivity). apply filter_In in Hin as [A B]. apply in_seq in A.
    exists k. split; [lia|]. split; [lia|reflexivity].
  - exfalso. pose proof (pol_positions_sorted u p) as S. rewrite E in S. inversion S as [|? ? _ HF]; subst. inversion HF; subst.
    assert (I1 : In k (pol_positions u p)) by (rewrite E; left; reflexivity).
    assert (I2 : In k' (pol_positions u p)) by (rewrite E; right; left; reflexivity).
    apply filter_In in I1 as [A1 B1], I2 as [A2 B2]. apply in_seq in A1, A2.
    assert (k = k') by (apply (proj1 (NoDup_nth (polarization_array u) 0) ND); lia). lia.
Qed.

Lemma not_opposite u p : NoDup (polarization_array u) -> ~ opposite_order (pol_positions u p).
Proof. intros ND [H _]. destruct (pol_positions_single u p ND) as [(k & _ & _ & E)|[_ E]]; rewrite E in H; simpl in H; lia. Qed.

Lemma absent_dec R1 P1 R2 P2 : absent R1 P1 R2 P2 \/ ~ absent R1 P1 R2 P2.
Proof. unfold absent. destruct R1, P1, R2, P2; try (left; auto; fail); right; intros [[?|?] [?|?]]; discriminate. Qed.

Lemma same_self {A} (cj : A -> A) f o a b p : reachable o -> consistent (o_u o) -> NoDup (polarization_array (o_u o)) -> legal_pol p ->
  let k := KPairN a b p in
  same_answers (snd (get_times k o)) (snd (get_times k o)) (snd (get_cube cj f k o)) (snd (get_cube cj f k o)).
Proof.
  intros Hr Hc ND HL k. pose proof (key_number_cells (o_u o) (o_xo o) a b p HL) as HK. pose proof (not_opposite (o_u o) (swapped p) ND) as Ho.
  destruct (get_cells cj f o k _ _ _ _ Hr Hc HK Ho) as (G1 & G2 & G3).
  destruct (absent_dec (pair_rows (o_u o) a b) (pol_positions (o_u o) p) (reverse_rows (o_u o) a b) (pol_positions (o_u o) (swapped p))) as [Ha|Ha].
  { left. exists KeyError. split; apply G1; exact Ha. }
  pose proof (times_cells o k _ _ _ _ Hr Hc HK Ho Ha) as ET.
  assert (D : (pair_rows (o_u o) a b <> [] -> reverse_rows (o_u o) a b <> [] -> length (pol_positions (o_u o) p) = length (pol_positions (o_u o) (swapped p))) \/
    (pair_rows (o_u o) a b <> [] /\ reverse_rows (o_u o) a b <> [] /\ length (pol_positions (o_u o) p) <> length (pol_positions (o_u o) (swapped p)))).
  { destruct (pair_rows (o_u o) a b); [left; intros; congruence|]. destruct (reverse_rows (o_u o) a b); [left; intros; congruence|].
    destruct (Nat.eq_dec (length (pol_positions (o_u o) p)) (length (pol_positions (o_u o) (swapped p)))); [left; auto|right; repeat split; auto; discriminate]. }
  destruct D as [D|(D1 & D2 & D3)]; [|left; exists ValueError; split; apply G3; assumption].
  right. do 4 eexists. split; [exact ET|]. split; [exact ET|]. split; [apply G2; assumption|]. split; [apply G2; assumption|].
  assert (L : length (map (fun i => nth i (time_array (o_u o)) 0) (pair_rows (o_u o) a b ++ reverse_rows (o_u o) a b)) =
     length (expected cj (f (o_u o)) (length (freq_array (o_u o))) (pair_rows (o_u o) a b) (pol_positions (o_u o) p)
            (reverse_rows (o_u o) a b) (pol_positions (o_u o) (swapped p)))).
  { unfold expected. rewrite map_length, !app_length, !map_length. reflexivity. }
  split; [exact L|]. split; [exact L|]. apply Permutation_refl.
Qed.

Lemma obj_conjugate_cases conv tol enu o o' : obj_conjugate conv tol (conj_coords enu (o_u o)) o = (o', Ok tt) ->
  conjugate_bls conv tol (conj_coords enu (o_u o)) (o_u o) = Ok (o_u o') /\
  (o' = o \/ exists idx, conj_rows conv tol (conj_coords enu (o_u o)) (o_u o) = Ok idx /\ idx <> [] /\
     conj_apply idx (o_u o) = Ok (o_u o') /\ o_xo o' = o_xo o).
Proof.
  unfold obj_conjugate, conjugate_bls. intros H. destruct (conj_rows conv tol (conj_coords enu (o_u o)) (o_u o)) as [[|x l]|e]; [| |discriminate].
  - injection H as <-. cbn [bind]. split; [reflexivity|]. left; reflexivity.
  - cbn [bind]. destruct (conj_apply (x :: l) (o_u o)) as [u'|e] eqn:E; [|discriminate]. injection H as <-. cbn [o_u o_xo].
    split; [reflexivity|]. right. exists (x :: l). split; [reflexivity|]. split; [discriminate|]. split; [exact E|reflexivity].
Qed.

Lemma pair_rows_NoDup u a b : NoDup (pair_rows u a b).
Proof. unfold pair_rows. apply NoDup_filter, seq_NoDup. Qed.

Lemma both_rows_In u a b i : a <> b -> In i (pair_rows u a b ++ reverse_rows u a b) <->
  (i < length (time_array u))%nat /\ ((nth i (ant_1_array u) 0 = a /\ nth i (ant_2_array u) 0 = b) \/ (nth i (ant_1_array u) 0 = b /\ nth i (ant_2_array u) 0 = a)).
Proof.
  intros Hab. unfold reverse_rows. replace (a =? b) with false by lia. rewrite in_app_iff, !pair_rows_In. tauto.
Qed.
Lemma both_rows_NoDup u a b : a <> b -> NoDup (pair_rows u a b ++ reverse_rows u a b).
Proof.
  intros Hab. unfold reverse_rows. replace (a =? b) with false by lia.
  assert (D : forall i, In i (pair_rows u a b) -> ~ In i (pair_rows u b a)).
  { intros i H1 H2. apply pair_rows_In in H1 as (_ & E1 & _), H2 as (_ & E2 & _). congruence. }
  pose proof (pair_rows_NoDup u a b) as N1. pose proof (pair_rows_NoDup u b a) as N2. revert D N1.
  generalize (pair_rows u a b). intros l. induction l as [|x l IH]; intros D N1; [exact N2|].
  inversion N1; subst. cbn [app]. constructor; [rewrite in_app_iff; intros [?|?]; [contradiction|apply (D x); [left; reflexivity|assumption]]|].
  apply IH; [intros i Hi; apply D; right; exact Hi|assumption].
Qed.

Lemma conj_rows_perm u u' P (turn : nat -> Prop) a b : a <> b -> length (time_array u') = length (time_array u) ->
  (forall i, (i < length (time_array u))%nat -> (turn i -> row_turned P u u' i) /\ (~ turn i -> row_copied u i u' i)) ->
  (forall i, turn i \/ ~ turn i) ->
  Permutation (pair_rows u a b ++ reverse_rows u a b) (pair_rows u' a b ++ reverse_rows u' a b).
Proof.
  intros Hab Hl HR Hd. apply NoDup_Permutation; try (apply both_rows_NoDup; exact Hab). intros i. rewrite !both_rows_In by exact Hab. rewrite Hl.
  split; intros [Hi H]; (split; [exact Hi|]); destruct (HR i Hi) as [HT HK]; destruct (Hd i) as [Y|N].
  - destruct (HT Y) as (-> & -> & _). tauto.
  - destruct (HK N) as (_ & _ & -> & -> & _). tauto.
  - destruct (HT Y) as (E1 & E2 & _). rewrite E1, E2 in H. tauto.
  - destruct (HK N) as (_ & _ & E1 & E2 & _). rewrite E1, E2 in H. tauto.
Qed.

Lemma same_turned {A} (cj : A -> A) f o o' P a b p (turn : nat -> Prop) :
  reachable o -> consistent (o_u o) -> reachable o' -> consistent (o_u o') ->
  NoDup (polarization_array (o_u o)) -> legal_pol p -> a <> b ->
  polarization_array (o_u o') = polarization_array (o_u o) -> freq_array (o_u o') = freq_array (o_u o) ->
  time_array (o_u o') = time_array (o_u o) -> conj_positions (o_u o) P ->
  (forall i, (i < length (time_array (o_u o)))%nat -> (turn i -> row_turned P (o_u o) (o_u o') i) /\ (~ turn i -> row_copied (o_u o) i (o_u o') i)) ->
  (forall i, turn i \/ ~ turn i) ->
  (forall i k, (i < length (time_array (o_u o)))%nat -> (k < length (polarization_array (o_u o)))%nat -> pol_positions (o_u o) p = [k] -> pol_positions (o_u o) (swapped p) = [nth k P 0%nat] ->
     (nth i (ant_1_array (o_u o)) 0 = a /\ nth i (ant_2_array (o_u o)) 0 = b \/ nth i (ant_1_array (o_u o)) 0 = b /\ nth i (ant_2_array (o_u o)) 0 = a) ->
     row_value cj (f (o_u o')) (length (freq_array (o_u o))) [k] [nth k P 0%nat] (o_u o') a i =
     row_value cj (f (o_u o)) (length (freq_array (o_u o))) [k] [nth k P 0%nat] (o_u o) a i) ->
  let key := KPairN a b p in
  same_answers (snd (get_times key o)) (snd (get_times key o')) (snd (get_cube cj f key o)) (snd (get_cube cj f key o')).
Proof.
  intros Hr Hc Hr' Hc' ND HL Hab Ep Efr Et HP HR Hd HV key.
  assert (ND' : NoDup (polarization_array (o_u o'))) by (rewrite Ep; exact ND).
  assert (Epp : forall q, pol_positions (o_u o') q = pol_positions (o_u o) q) by (intros q; unfold pol_positions; rewrite Ep; reflexivity).
  pose proof (key_number_cells (o_u o) (o_xo o) a b p HL) as HK. pose proof (not_opposite (o_u o) (swapped p) ND) as Ho.
  pose proof (key_number_cells (o_u o') (o_xo o') a b p HL) as HK'. pose proof (not_opposite (o_u o') (swapped p) ND') as Ho'.
  rewrite !Epp in HK'. rewrite Epp in Ho'.
  destruct (get_cells cj f o key _ _ _ _ Hr Hc HK Ho) as (G1 & G2 & _). destruct (get_cells cj f o' key _ _ _ _ Hr' Hc' HK' Ho') as (G1' & G2' & _).
  pose proof (conj_rows_perm (o_u o) (o_u o') P turn a b Hab ltac:(rewrite Et; reflexivity) HR Hd) as Perm.
  destruct (pol_positions_single (o_u o) p ND) as [(k & Hk & Ek & E1)|[Nin E1]].
  - assert (E2 : pol_positions (o_u o) (swapped p) = [nth k P 0%nat]).
    { destruct HP as [LP HP]. destruct (HP k ltac:(lia)) as [Ha B]. rewrite Ek in B.
      destruct (pol_positions_single (o_u o) (swapped p) ND) as [(q & Hq & Eq & E)|[N _]].
      - rewrite E. f_equal. apply (proj1 (NoDup_nth (polarization_array (o_u o)) 0) ND); try lia. 
      - exfalso. apply N. rewrite <- B. apply nth_In. lia. }
    rewrite E1, E2 in *.
    destruct (pair_rows (o_u o) a b ++ reverse_rows (o_u o) a b) as [|r0 rs] eqn:Er.
    + left. exists KeyError. apply Permutation_nil in Perm. apply app_eq_nil in Er as [Z1 Z2], Perm as [Z3 Z4].
      split; [apply G1|apply G1']; split; left; assumption.
    + assert (NA : ~ absent (pair_rows (o_u o) a b) [k] (reverse_rows (o_u o) a b) [nth k P 0%nat]).
      { intros [[X|X] [Y|Y]]; try discriminate. rewrite X, Y in Er. discriminate. }
      assert (NA' : ~ absent (pair_rows (o_u o') a b) [k] (reverse_rows (o_u o') a b) [nth k P 0%nat]).
      { intros [[X|X] [Y|Y]]; try discriminate. rewrite X, Y in Perm. apply Permutation_sym, Permutation_nil in Perm. discriminate. }
      rewrite <- Er in Perm.
      right. do 4 eexists. split; [exact (times_cells o key _ _ _ _ Hr Hc HK Ho NA)|]. split; [exact (times_cells o' key _ _ _ _ Hr' Hc' HK' Ho' NA')|].
      split; [apply G2; [exact NA|reflexivity]|]. split; [apply G2'; [exact NA'|reflexivity]|].
      rewrite !expected_rows by exact Hab. rewrite Efr, Et. rewrite !map_length. split; [reflexivity|]. split; [reflexivity|].
      rewrite !combine_maps.
      etransitivity; [apply Permutation_map; exact Perm|].
      erewrite (map_ext_in _ _ (pair_rows (o_u o') a b ++ reverse_rows (o_u o') a b)); [apply Permutation_refl|].
      intros i Hi. cbv beta. f_equal. symmetry. apply (Permutation_in _ (Permutation_sym Perm)) in Hi. apply both_rows_In in Hi as [Hi Hs]; [|exact Hab].
      apply HV; auto.
  - assert (E2 : pol_positions (o_u o) (swapped p) = []).
    { destruct (pol_positions_single (o_u o) (swapped p) ND) as [(q & Hq & Eq & E)|[N E]]; [|exact E]. exfalso. apply Nin.
      destruct HP as [LP HP]. destruct (HP q ltac:(lia)) as [Ha B]. rewrite Eq, swapped_invol in B. rewrite <- B. apply nth_In. lia. }
    left. exists KeyError. rewrite E1, E2 in *. split; [apply G1|apply G1']; split; right; reflexivity.
Qed.

Lemma conj_start conv tol enu o o' : reachable o -> consistent (o_u o) -> Forall legal_pol (polarization_array (o_u o)) ->
  NoDup (polarization_array (o_u o)) -> obj_conjugate conv tol (conj_coords enu (o_u o)) o = (o', Ok tt) ->
  reachable o' /\ (o' = o \/ exists P (turn : nat -> Prop), polarization_array (o_u o') = polarization_array (o_u o) /\ freq_array (o_u o') = freq_array (o_u o) /\
    time_array (o_u o') = time_array (o_u o) /\ flag_array (o_u o') = flag_array (o_u o) /\ nsample_array (o_u o') = nsample_array (o_u o) /\
    conj_positions (o_u o) P /\ (forall i, turn i \/ ~ turn i) /\
    (forall i, (i < length (time_array (o_u o)))%nat -> (turn i -> row_turned P (o_u o) (o_u o') i) /\ (~ turn i -> row_copied (o_u o) i (o_u o') i))).
Proof.
  intros Hr Hc HL ND H. split; [eapply reach_step; [exact Hr|eapply st_conjugate; exact H]|].
  apply obj_conjugate_cases in H as [_ [H|(idx & Er & Hne & H & _)]]; [left; exact H|right].
  pose proof Hc as (Hsh & _). destruct (conj_rows_spec _ _ _ _ _ Hsh Er) as [Hb Ha].
  destruct (conj_apply_ok idx _ _ Hsh HL ND Hb Hne H) as (P & m & off & HP & He & S' & St & Sf & Ep & Ef & En & Eb & ET & _ & _ & _ & EN & HT & HK & _ & Hd).
  exists P, (fun i => In i idx). split; [exact Ep|]. split; [apply Sf|]. split; [apply St|]. split; [exact Ef|]. split; [exact En|].
  split; [exact HP|]. split; [intros i; destruct (in_dec Nat.eq_dec i idx); auto|].
  intros i Hi. split; intros Hx; [apply HT; assumption|apply HK; assumption].
Qed.

Lemma conj_visibilities conv tol enu o o' a b p : reachable o -> consistent (o_u o) -> consistent (o_u o') ->
  Forall legal_pol (polarization_array (o_u o)) -> NoDup (polarization_array (o_u o)) ->
  obj_conjugate conv tol (conj_coords enu (o_u o)) o = (o', Ok tt) -> legal_pol p -> a <> b ->
  let k := KPairN a b p in
  same_answers (snd (get_times k o)) (snd (get_times k o')) (snd (get_data k o)) (snd (get_data k o')).
Proof.
  intros Hr Hc Hc' HL ND H Hp Hab k. destruct (conj_start _ _ _ _ _ Hr Hc HL ND H) as (Hr' & [->|(P & turn & Ep & Ef & Et & _ & _ & HP & Hd & HR)]).
  - apply (same_self cconj data_array); assumption.
  - apply (same_turned cconj data_array o o' P a b p turn); try assumption.
    intros i q Hi Hq E1 E2 Hs. destruct (HR i Hi) as [HT HK]. unfold row_value.
    destruct (conj_invol (o_u o) P q ND HP Hq) as [Hq' Eq].
    destruct (Hd i) as [Y|N].
    + destruct (HT Y) as (-> & _ & _ & D).
      destruct Hs as [[-> ->]|[-> ->]]; rewrite Z.eqb_refl.
      * replace (b =? a) with false by lia. apply map_ext. intros j. cbn [map]. f_equal. rewrite D by exact Hq. apply cconj_invol.
      * replace (b =? a) with false by lia. apply map_ext. intros j. cbn [map]. f_equal.
        transitivity (data_array (o_u o') i j (nth (nth q P 0%nat) P 0%nat)); [rewrite Eq; reflexivity|]. apply D. exact Hq'.
    + destruct (HK N) as (_ & _ & -> & _ & _ & _ & _ & _ & _ & _ & _ & D).
      destruct (_ =? a); apply map_ext; intros j; cbn [map]; f_equal; rewrite (proj1 (D j _)); reflexivity.
Qed.

Lemma conj_flags {A} (f : uvd -> cube A) conv tol enu o o' a b p :
  (forall u u', flag_array u' = flag_array u -> nsample_array u' = nsample_array u -> f u' = f u) ->
  reachable o -> consistent (o_u o) -> consistent (o_u o') ->
  Forall legal_pol (polarization_array (o_u o)) -> NoDup (polarization_array (o_u o)) ->
  obj_conjugate conv tol (conj_coords enu (o_u o)) o = (o', Ok tt) -> legal_pol p -> swapped p = p -> a <> b ->
  let k := KPairN a b p in
  same_answers (snd (get_times k o)) (snd (get_times k o')) (snd (get_cube (fun x => x) f k o)) (snd (get_cube (fun x => x) f k o')).
Proof.
  intros Hf Hr Hc Hc' HL ND H Hp Hsw Hab k. destruct (conj_start _ _ _ _ _ Hr Hc HL ND H) as (Hr' & [->|(P & turn & Ep & Ef & Et & Efl & Ens & HP & Hd & HR)]).
  - apply (same_self (fun x => x) f); assumption.
  - apply (same_turned (fun x => x) f o o' P a b p turn); try assumption.
    intros i q Hi Hq E1 E2 Hs. rewrite Hsw, E1 in E2. injection E2 as E2. rewrite (Hf (o_u o) (o_u o') Efl Ens). unfold row_value. rewrite <- E2.
    destruct (_ =? a), (_ =? a); reflexivity.
Qed.

(** ** The rectangularity flag *)
Lemma conj_rectangular conv tol enu u u' : blt_shaped u -> Forall legal_pol (polarization_array u) -> NoDup (polarization_array u) ->
  default_coded u -> rect_truthful u -> turns_cleanly (asked conv tol enu u) u ->
  conjugate_bls conv tol (conj_coords enu u) u = Ok u' -> rect_truthful u'.
Proof.
  intros Hsh HL ND HD HR HT H. pose proof (conjugate_rows _ _ _ _ _ Hsh HL ND H) as (S' & St & _ & _ & _ & _ & _ & D' & P & _ & Rows).
  specialize (D' HD). apply conj_cases in H as (idx & Er & [[-> ->]|[Hne H]]); [exact HR|].
  destruct (conj_rows_spec _ _ _ _ _ Hsh Er) as [Hb _].
  destruct (conj_apply_ok _ _ _ Hsh HL ND Hb Hne H) as (P' & m' & off' & _ & _ & _ & _ & _ & _ & _ & _ & Eb & ET & _ & Erect & Efast & EN & _).
  clear H. destruct HD as (m & off & Hs & Hc). destruct D' as (m2 & off2 & Hs2 & Hc2). rewrite EN in Hs2.
  assert (Em : m2 = m /\ off2 = off) by (destruct Hs2 as [(-> & -> & ?)|(-> & -> & ?)], Hs as [(-> & -> & ?)|(-> & -> & ?)]; lia).
  destruct Em as [-> ->]. destruct St as (Et & _). rewrite Et in Hc2.
  assert (Hm : 0 < m) by (destruct Hs as [(-> & _)|(-> & _)]; lia).
  intros Erec. rewrite Erect in Erec. destruct (HR Erec) as (ts & bs & Lt & Lb & NDt & NDb & Lay).
  pose proof Hsh as (_ & L1 & L2 & L3 & _). pose proof S' as (_ & _ & _ & L3' & _). rewrite Et in L3'.
  assert (dec : forall x y x' y', 0 <= x < m -> 0 <= y < m -> 0 <= x' < m -> 0 <= y' < m -> m * x + y + off = m * x' + y' + off -> x = x' /\ y = y').
  { intros x y x' y' ? ? ? ? E. assert (x = x'). { rewrite <- (div_enc m x y off) by lia. rewrite E. apply div_enc; lia. } subst x'. lia. }
  (* the renumbering *)
  set (g := fun b => match index_of Z.eqb b (baseline_array u) with Some i => nth i (baseline_array u') 0 | None => b end).
  assert (Same : forall i j, (i < length (time_array u))%nat -> (j < length (time_array u))%nat ->
     (nth i (baseline_array u) 0 = nth j (baseline_array u) 0 <-> nth i (baseline_array u') 0 = nth j (baseline_array u') 0)).
  { intros i j Hi Hj. destruct (Hc i Hi) as (A1 & A2 & A3), (Hc j Hj) as (B1 & B2 & B3), (Hc2 i Hi) as (C1 & C2 & C3), (Hc2 j Hj) as (F1 & F2 & F3).
    destruct (HT i j Hi Hj) as [X1 X2], (HT j i Hj Hi) as [Y1 Y2]. destruct (Rows i Hi) as [RT RK], (Rows j Hj) as [RT' RK'].
    rewrite A3, B3, C3, F3.
    assert (T : forall k, (k < length (time_array u))%nat -> (asked conv tol enu u k /\ nth k (ant_1_array u') 0 = nth k (ant_2_array u) 0 /\ nth k (ant_2_array u') 0 = nth k (ant_1_array u) 0)
        \/ (~ asked conv tol enu u k /\ nth k (ant_1_array u') 0 = nth k (ant_1_array u) 0 /\ nth k (ant_2_array u') 0 = nth k (ant_2_array u) 0)).
    { intros k Hk. destruct (Rows k Hk) as [a b]. destruct (asked_dec conv tol enu u k) as [q|q].
      - left. destruct (a q) as (e1 & e2 & _). auto.
      - right. destruct (b q) as (_ & _ & e1 & e2 & _). auto. }
    split; intros E; apply dec in E as [E1 E2]; try lia.
    - destruct (T i Hi) as [(Q & -> & ->)|(Q & -> & ->)], (T j Hj) as [(Q' & -> & ->)|(Q' & -> & ->)]; try lia.
      + exfalso. apply Q'. apply X1; assumption.
      + exfalso. apply Q. apply X1; assumption.
    - destruct (T i Hi) as [(Q & Z1 & Z2)|(Q & Z1 & Z2)], (T j Hj) as [(Q' & Z3 & Z4)|(Q' & Z3 & Z4)]; rewrite Z1, Z2, Z3, Z4 in *; try lia.
      + exfalso. apply Q'. apply X2; [exact Q|lia|lia].
      + exfalso. apply Q. apply Y2; [exact Q'|lia|lia]. }
  assert (Hg : forall i, (i < length (time_array u))%nat -> g (nth i (baseline_array u) 0) = nth i (baseline_array u') 0).
  { intros i Hi. unfold g. destruct (index_of Z.eqb (nth i (baseline_array u) 0) (baseline_array u)) as [j|] eqn:Ej.
    - apply (index_of_Some _ Z.eqb_eq 0) in Ej. destruct Ej as (Hj & Ej & _). apply (Same j i); [lia|exact Hi|exact Ej].
    - apply (index_of_None _ Z.eqb_eq) in Ej. exfalso. apply Ej. apply nth_In. lia. }
  assert (Emap : baseline_array u' = map g (baseline_array u)).
  { apply (nth_ext _ _ 0 0); [rewrite map_length; lia|]. intros i Hi. rewrite (nth_map g _ _ 0) by lia. symmetry. apply Hg. lia. }
  assert (Hn : (0 < length (time_array u))%nat) by (destruct idx as [|x l]; [congruence|]; inversion Hb; subst; lia).
  assert (Hts : ts <> []).
  { intros ->. destruct (time_axis_faster_than_bls u); destruct Lay as [El _]; rewrite El in Hn.
    - clear - Hn. induction bs as [|b l IH]; simpl in Hn; [lia|apply IH; exact Hn].
    - simpl in Hn. lia. }
  assert (Mem : forall b, In b bs <-> In b (baseline_array u)).
  { intros b. destruct (time_axis_faster_than_bls u); destruct Lay as [_ ->]; rewrite in_concat; split.
    - intros Hin. exists (repeat b (length ts)). split; [apply in_map_iff; eauto|]. destruct ts; [congruence|]. left; reflexivity.
    - intros (l & Hl & Hx). apply in_map_iff in Hl as (b' & <- & Hb'). apply repeat_spec in Hx. subst. exact Hb'.
    - intros Hin. destruct ts as [|t ts]; [congruence|]. exists bs. split; [left; reflexivity|exact Hin].
    - intros (l & Hl & Hx). apply in_map_iff in Hl as (t & <- & _). exact Hx. }
  assert (NDg : NoDup (map g bs)).
  { apply NoDup_nth with (d := 0). rewrite map_length. intros i j Hi Hj E. rewrite !(nth_map g _ _ 0) in E by assumption.
    apply (proj1 (NoDup_nth bs 0) NDb); try assumption.
    assert (Ii := proj1 (Mem _) (nth_In bs 0 Hi)). assert (Ij := proj1 (Mem _) (nth_In bs 0 Hj)).
    apply In_nth with (d := 0) in Ii as (p & Hp & Ep), Ij as (q & Hq & Eq). rewrite <- Ep, <- Eq in E |- *.
    rewrite L3 in Hp, Hq. rewrite !Hg in E by assumption. apply Same; assumption. }
  exists ts, (map g bs). rewrite ET. split; [exact Lt|]. split.
  { rewrite Eb. symmetry. rewrite <- (proj1 (distinct_count_unique (baseline_array u') (length (map g bs)))); [reflexivity|].
    exists (map g bs). split; [exact NDg|]. split; [|reflexivity]. intros x. rewrite Emap, !in_map_iff. split; intros (b & <- & Hin); exists b; (split; [reflexivity|]); apply Mem; exact Hin. }
  split; [exact NDt|]. split; [exact NDg|]. rewrite Et, Efast, Emap.
  assert (Cm : forall {A B} (h : A -> B) l, map h (concat l) = concat (map (map h) l)) by (intros; apply concat_map).
  assert (Mr : forall {A B} (h : A -> B) x n, map h (repeat x n) = repeat (h x) n).
  { intros A B h x n. induction n as [|n IH]; [reflexivity|]. simpl. rewrite IH. reflexivity. }
  destruct (time_axis_faster_than_bls u); destruct Lay as [E1 E2]; rewrite E2.
  - split; [rewrite E1, map_map; reflexivity|]. rewrite Cm, !map_map. f_equal. apply map_ext. intros b. apply Mr.
  - split; [rewrite E1, map_length; reflexivity|]. rewrite Cm, map_map. reflexivity.
Qed.
