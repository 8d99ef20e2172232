From Coq Require Import List ZArith QArith Qcanon Bool Arith String Lia.
From Verif Require Import Lib.Py Lib.Np Model.UVData Model.Hdf5 Model.Access Model.Calibrate Model.EqCoeffs
  Spec.UVDataSpec Spec.AccessSpec Spec.EqCoeffsSpec Proofs.AccessProofs Proofs.AccessRead Proofs.FlagApply.
Import ListNotations.
Open Scope list_scope.
Open Scope nat_scope.

Lemma ant_position_ok numbers a i : NoDup numbers -> i < List.length numbers -> nth i numbers 0%Z = a ->
  ant_position numbers a = Ok i.
Proof.
  intros N L V. unfold ant_position.
  assert (I : In i (nonzero (Z.eqb a) numbers)) by (apply (nonzero_spec 0%Z); split; [exact L|rewrite V; apply Z.eqb_refl]).
  destruct (nonzero (Z.eqb a) numbers) as [|j t] eqn:E; [contradiction|]. f_equal.
  assert (J : In j (nonzero (Z.eqb a) numbers)) by (rewrite E; now left).
  apply (nonzero_spec 0%Z) in J. destruct J as [Lj Vj]. apply Z.eqb_eq in Vj.
  apply (proj1 (NoDup_nth numbers 0%Z) N); auto. congruence.
Qed.

Definition factor (multiply : bool) (k : Qc) : Qc := if multiply then k else (/ k)%Qc.

Lemma remove_pair_ok u numbers c m vis a b i1 i2 : consistent u -> pair_rows u a b <> [] -> NoDup numbers ->
  i1 < List.length numbers -> nth i1 numbers 0%Z = a -> i2 < List.length numbers -> nth i2 numbers 0%Z = b ->
  exists vis', remove_pair u numbers c m vis (a, b) = Ok vis' /\
  forall r f p,
    (In r (pair_rows u a b) -> vis' r f p = by_real (vis r f p) (factor m (c i1 f * c i2 f)%Qc)) /\
    (~ In r (pair_rows u a b) -> vis' r f p = vis r f p).
Proof.
  intros Hc Hne N L1 V1 L2 V2. unfold remove_pair. cbn [fst snd].
  destruct (search_rows u a b Hc Hne) as (ix & E1 & E2). rewrite E1. cbn [bind]. rewrite E2. cbn [bind].
  rewrite (ant_position_ok _ _ _ N L1 V1), (ant_position_ok _ _ _ N L2 V2). cbn [bind].
  eexists. split; [reflexivity|]. intros r f p. cbv beta. split; intros H.
  - rewrite (proj2 (isinN_spec _ _) H). destruct m; reflexivity.
  - rewrite (proj2 (isinN_false _ _) H). reflexivity.
Qed.

Lemma keys_ok o c m : consistent (e_u o) -> known o -> forall keys vis, NoDup keys ->
  (forall a b, In (a, b) keys -> pair_rows (e_u o) a b <> []) ->
  exists vis', run_keys (remove_pair (e_u o) (e_numbers o) c m) keys vis = (vis', Ok tt) /\
  forall r f p, r < Nblts (e_u o) ->
    (In (first_ant o r, second_ant o r) keys -> forall i1 i2, is_at o (first_ant o r) i1 -> is_at o (second_ant o r) i2 ->
       vis' r f p = by_real (vis r f p) (factor m (c i1 f * c i2 f)%Qc)) /\
    (~ In (first_ant o r, second_ant o r) keys -> vis' r f p = vis r f p).
Proof.
  intros Hc [N K]. induction keys as [|[a b] t IH]; intros vis ND Hr.
  - exists vis. split; [reflexivity|]. intros r f p _. split; [intros []|reflexivity].
  - inversion ND as [|k l ND1 ND2]; subst.
    assert (Hab : pair_rows (e_u o) a b <> []) by (apply Hr; now left).
    destruct (pair_rows (e_u o) a b) as [|r0 l0] eqn:Er; [contradiction|].
    assert (Hr0 : In r0 (pair_rows (e_u o) a b)) by (rewrite Er; now left).
    apply pair_rows_In in Hr0. destruct Hr0 as (Lr0 & A0 & B0).
    destruct (K r0 Lr0) as [KA KB]. unfold first_ant, second_ant in KA, KB. rewrite A0 in KA. rewrite B0 in KB.
    destruct (In_nth _ _ 0%Z KA) as (i1 & L1 & V1). destruct (In_nth _ _ 0%Z KB) as (i2 & L2 & V2).
    rewrite <- Er in Hab.
    destruct (remove_pair_ok (e_u o) (e_numbers o) c m vis a b i1 i2 Hc Hab N L1 V1 L2 V2) as (vis1 & E & S1).
    destruct (IH vis1 ND2) as (vis' & E' & S'); [intros a' b' H; apply Hr; now right|].
    exists vis'. split; [cbn [run_keys]; rewrite E; exact E'|].
    intros r f p Lr. destruct (S' r f p Lr) as [P Q]. destruct (S1 r f p) as [P1 Q1].
    assert (RI : In r (pair_rows (e_u o) a b) <-> (first_ant o r, second_ant o r) = (a, b)).
    { rewrite pair_rows_In. unfold first_ant, second_ant. split; [intros (_ & -> & ->); reflexivity|].
      intros X. injection X as -> ->. auto. }
    split.
    + intros [H|H] j1 j2 [J1 W1] [J2 W2].
      * assert (Hn : ~ In (first_ant o r, second_ant o r) t) by (rewrite <- H; exact ND1).
        rewrite (Q Hn), (P1 (proj2 RI (eq_sym H))). injection H as Ha Hb.
        replace j1 with i1 by (apply (proj1 (NoDup_nth (e_numbers o) 0%Z) N); auto; congruence).
        replace j2 with i2 by (apply (proj1 (NoDup_nth (e_numbers o) 0%Z) N); auto; congruence). reflexivity.
      * rewrite (P H j1 j2 (conj J1 W1) (conj J2 W2)). rewrite Q1; [reflexivity|].
        intros X. apply (proj1 RI) in X. apply ND1. rewrite <- X. exact H.
    + intros H. cbn in H. rewrite Q by tauto. apply Q1. intros X. apply H. left. symmetry. apply RI. exact X.
Qed.

Lemma removed o c conv : consistent (e_u o) -> known o -> e_coeffs o = Some c -> e_conv o = Some conv ->
  conv = "multiply"%string \/ conv = "divide"%string ->
  snd (remove_eq_coeffs o) = Ok tt /\ same_but_vis o (fst (remove_eq_coeffs o)) /\
  forall r f p i1 i2, r < Nblts (e_u o) -> is_at o (first_ant o r) i1 -> is_at o (second_ant o r) i2 ->
    e_vis (fst (remove_eq_coeffs o)) r f p = by_real (e_vis o r f p)
      (factor (String.eqb conv "multiply") (c i1 f * c i2 f)%Qc).
Proof.
  intros Hc K Ec Ev Hv. unfold remove_eq_coeffs. rewrite Ec, Ev.
  assert (B : (String.eqb conv "multiply" || String.eqb conv "divide") = true) by (destruct Hv as [-> | ->]; reflexivity).
  rewrite B. cbn [negb].
  destruct (get_pairs_ok (e_u o) Hc) as (aps & E & ND & I). rewrite E.
  destruct (keys_ok o c (String.eqb conv "multiply") Hc K aps (e_vis o) ND) as (vis' & R & S').
  { intros a b H. apply I. exact H. }
  rewrite R. cbn [fst snd]. split; [reflexivity|]. split; [repeat split; auto|].
  intros r f p i1 i2 Lr H1 H2. cbn [e_vis]. apply (proj1 (S' r f p Lr)); auto.
  apply I. intros X. assert (In r []); [|contradiction]. rewrite <- X. apply pair_rows_In. repeat split; auto.
Qed.

Lemma refused o : e_coeffs o = None \/ e_conv o = None \/
    (exists conv, e_conv o = Some conv /\ conv <> "multiply"%string /\ conv <> "divide"%string) ->
  remove_eq_coeffs o = (o, Err ValueError).
Proof.
  intros H. unfold remove_eq_coeffs. destruct (e_coeffs o) as [c|] eqn:E; [|reflexivity].
  destruct H as [H|[H|(conv & H & A & B)]]; [discriminate|rewrite H; reflexivity|].
  rewrite H. apply String.eqb_neq in A. apply String.eqb_neq in B. rewrite A, B. reflexivity.
Qed.

Lemma inverse o c conv conv' : consistent (e_u o) -> known o -> e_coeffs o = Some c -> e_conv o = Some conv ->
  (conv = "multiply"%string /\ conv' = "divide"%string) \/ (conv = "divide"%string /\ conv' = "multiply"%string) ->
  (forall i f, c i f <> 0)%Qc ->
  let o1 := fst (remove_eq_coeffs o) in
  let o2 := {| e_u := e_u o1; e_vis := e_vis o1; e_numbers := e_numbers o1; e_coeffs := e_coeffs o1; e_conv := Some conv' |} in
  snd (remove_eq_coeffs o2) = Ok tt /\
  forall r f p, r < Nblts (e_u o) -> e_vis (fst (remove_eq_coeffs o2)) r f p = e_vis o r f p.
Proof.
  intros Hc K Ec Ev Hv NZ. cbv zeta.
  destruct (removed o c conv Hc K Ec Ev) as (_ & SB & V); [tauto|].
  set (o1 := fst (remove_eq_coeffs o)) in *. clearbody o1. destruct SB as (S1 & S2 & S3 & S4).
  set (o2 := {| e_u := e_u o1; e_vis := e_vis o1; e_numbers := e_numbers o1; e_coeffs := e_coeffs o1; e_conv := Some conv' |}).
  assert (K2 : known o2).
  { destruct K as [N K]. unfold known, first_ant, second_ant, o2. cbn [e_u e_numbers]. rewrite S1, S2. split; assumption. }
  destruct (removed o2 c conv') as (R & _ & V2); auto.
  { cbn. rewrite S1. exact Hc. } { cbn. congruence. } { tauto. }
  split; [exact R|]. intros r f p Lr. destruct K as [N K]. destruct (K r Lr) as [KA KB].
  destruct (In_nth _ _ 0%Z KA) as (i1 & L1 & V1). destruct (In_nth _ _ 0%Z KB) as (i2 & L2 & W2).
  assert (Eu : e_u o2 = e_u o) by exact S1. assert (En : e_numbers o2 = e_numbers o) by exact S2.
  rewrite (V2 r f p i1 i2); [|rewrite Eu; exact Lr|unfold is_at, first_ant; rewrite Eu, En; auto|unfold is_at, second_ant; rewrite Eu, En; auto].
  change (e_vis o2 r f p) with (e_vis o1 r f p). rewrite (V r f p i1 i2 Lr (conj L1 V1) (conj L2 W2)).
  set (k := (c i1 f * c i2 f)%Qc).
  assert (k0 : (k <> 0)%Qc). { unfold k. intros X. apply Qcmult_integral in X. destruct X as [X|X]; exact (NZ _ _ X). }
  clearbody k. destruct (e_vis o r f p) as [a b]. unfold by_real. cbn [fst snd].
  destruct Hv as [[-> ->]|[-> ->]]; unfold factor; cbn; f_equal; field; exact k0.
Qed.
