(** Pseudo-Stokes beams (C76). *)
From Coq Require Import List ZArith Reals Bool Arith Ascii String Lia Lra Psatz.
From Verif Require Import Lib.Py Lib.Np Lib.Dict Model.Pol Model.Phase Model.Beam Spec.BeamSpec Proofs.BeamPower.
Import ListNotations.
Open Scope list_scope.
Open Scope R_scope.
Notation length := List.length.

Definition index_of_stokes (s : stokes) : nat := match s with SI => 0 | SQ => 1 | SU => 2 | SV => 3 end.

Lemma mul_by_one : forall a, cx_mul (1, 0) a = a.
Proof. intros [p q]. apply cx_eq; unfold cx_mul; cbn [fst snd]; ring. Qed.
Lemma mul_by_neg : forall a, cx_mul (-1, 0) a = (- fst a, - snd a).
Proof. intros [p q]. apply cx_eq; unfold cx_mul; cbn [fst snd]; ring. Qed.
Lemma mul_by_i : forall a, cx_mul (0, 1) a = (- snd a, fst a).
Proof. intros [p q]. apply cx_eq; unfold cx_mul; cbn [fst snd]; ring. Qed.
Lemma mul_by_minus_i : forall a, cx_mul (0, -1) a = (snd a, - fst a).
Proof. intros [p q]. apply cx_eq; unfold cx_mul; cbn [fst snd]; ring. Qed.
Lemma mul_by_zero : forall a, cx_mul (0, 0) a = (0, 0).
Proof. intros [p q]. apply cx_eq; unfold cx_mul; cbn [fst snd]; ring. Qed.
Lemma mul_comm : forall a c, cx_mul a c = cx_mul c a.
Proof. intros [p q] [r t]. apply cx_eq; unfold cx_mul; cbn [fst snd]; ring. Qed.
Lemma add_zero_l : forall a, cx_add (0, 0) a = a.
Proof. intros [p q]. apply cx_eq; unfold cx_add; cbn [fst snd]; ring. Qed.
Lemma add_zero_r : forall a, cx_add a (0, 0) = a.
Proof. intros [p q]. apply cx_eq; unfold cx_add; cbn [fst snd]; ring. Qed.
Lemma mul_one_r : forall a, cx_mul a (1, 0) = a. Proof. intros. rewrite mul_comm. apply mul_by_one. Qed.
Lemma mul_neg_r : forall a, cx_mul a (-1, 0) = (- fst a, - snd a). Proof. intros. rewrite mul_comm. apply mul_by_neg. Qed.
Lemma mul_i_r : forall a, cx_mul a (0, 1) = (- snd a, fst a). Proof. intros. rewrite mul_comm. apply mul_by_i. Qed.
Lemma mul_minus_i_r : forall a, cx_mul a (0, -1) = (snd a, - fst a). Proof. intros. rewrite mul_comm. apply mul_by_minus_i. Qed.
Lemma mul_zero_r : forall a, cx_mul a (0, 0) = (0, 0). Proof. intros. rewrite mul_comm. apply mul_by_zero. Qed.
#[local] Hint Rewrite mul_by_zero mul_zero_r mul_by_one mul_one_r mul_by_neg mul_neg_r mul_by_i mul_i_r mul_by_minus_i mul_minus_i_r add_zero_l add_zero_r : cxs.

Lemma einsum_trace : forall s j j' p, stokes_matrix (index_of_stokes s) = Ok p ->
  (forall u w, (u < 2)%nat -> (w < 2)%nat -> j u w = j' u w) ->
  cx_scale (1 / 2) (einsum p j p) = mueller s s j'.
Proof.
  intros s j j' p E H.
  pose proof (H 0 0)%nat as H00. pose proof (H 0 1)%nat as H01. pose proof (H 1 0)%nat as H10. pose proof (H 1 1)%nat as H11.
  unfold mueller. f_equal. unfold trace, mprod, madj, einsum. cbn [map List.concat app csum cx_sum fold_right].
  rewrite H00, H01, H10, H11 by lia. clear H H00 H01 H10 H11.
  destruct (j' 0 0)%nat as [a b], (j' 0 1)%nat as [c d], (j' 1 0)%nat as [e f], (j' 1 1)%nat as [g h].
  destruct s; cbn in E; injection E as <-; unfold mat_of, pauli, cx0; cbn [Nat.eqb]; autorewrite with cxs;
    apply cx_eq; unfold cx_add, cx_mul, cx_conj; cbn [fst snd]; ring.
Qed.

Lemma mueller_explicit : forall s j, mueller s s j =
  match s with
  | SI => (1 / 2 * (norm2 (j 0%nat 0%nat) + norm2 (j 0%nat 1%nat) + norm2 (j 1%nat 0%nat) + norm2 (j 1%nat 1%nat)), 0)
  | SQ => (1 / 2 * (norm2 (j 0%nat 0%nat) - norm2 (j 0%nat 1%nat) - norm2 (j 1%nat 0%nat) + norm2 (j 1%nat 1%nat)), 0)
  | SU => (fst (cx_mul (j 0%nat 0%nat) (cx_conj (j 1%nat 1%nat))) + fst (cx_mul (j 0%nat 1%nat) (cx_conj (j 1%nat 0%nat))), 0)
  | SV => (fst (cx_mul (j 0%nat 0%nat) (cx_conj (j 1%nat 1%nat))) - fst (cx_mul (j 0%nat 1%nat) (cx_conj (j 1%nat 0%nat))), 0)
  end.
Proof.
  intros s j. unfold mueller, trace, mprod, madj. cbn [csum].
  destruct (j 0 0)%nat as [a b], (j 0 1)%nat as [c d], (j 1 0)%nat as [e f], (j 1 1)%nat as [g h].
  destruct s; unfold pauli; cbn [Nat.eqb]; autorewrite with cxs; apply cx_eq; unfold norm2, cx_scale, cx_add, cx_mul, cx_conj, cx0; cbn [fst snd]; field.
Qed.
Lemma mueller_real : forall s j, snd (mueller s s j) = 0.
Proof. intros s j. rewrite mueller_explicit. destruct s; reflexivity. Qed.
Lemma mueller_bound : forall s j, Rabs (fst (mueller s s j)) <= fst (mueller SI SI j).
Proof.
  intros s j. rewrite !mueller_explicit. destruct (j 0 0)%nat as [a b], (j 0 1)%nat as [c d], (j 1 0)%nat as [e f], (j 1 1)%nat as [g h].
  pose proof (pow2_ge_0 a). pose proof (pow2_ge_0 b). pose proof (pow2_ge_0 c). pose proof (pow2_ge_0 d).
  pose proof (pow2_ge_0 e). pose proof (pow2_ge_0 f). pose proof (pow2_ge_0 g). pose proof (pow2_ge_0 h).
  pose proof (pow2_ge_0 (a - g)). pose proof (pow2_ge_0 (b - h)). pose proof (pow2_ge_0 (c - e)). pose proof (pow2_ge_0 (d - f)).
  pose proof (pow2_ge_0 (a + g)). pose proof (pow2_ge_0 (b + h)). pose proof (pow2_ge_0 (c + e)). pose proof (pow2_ge_0 (d + f)).
  destruct s; unfold norm2, cx_mul, cx_conj; cbn [fst snd]; apply Rabs_le; split; lra.
Qed.
Lemma cx_abs_real : forall a, snd a = 0 -> cx_abs a = Rabs (fst a).
Proof.
  intros [r i]; cbn [fst snd]; intros ->. unfold cx_abs; cbn [fst snd]. replace (r * r + 0 * 0) with (r²) by (unfold Rsqr; ring). apply sqrt_Rsqr_abs.
Qed.

Lemma pstokes_table : forall xo, mapM (polstr2num xo) pstokes_names = Ok [1; 2; 3; 4]%Z.
Proof.
  intros xo. unfold pstokes_names. cbn [mapM]. unfold polstr2num. rewrite !str2num_table.
  destruct (points_east xo) as [[|]|]; vm_compute; reflexivity.
Qed.

Lemma jones_same : forall b k x u w, (u < 2)%nat -> (w < 2)%nat -> jones_of (b_data b) k x u w = jones b k x u w.
Proof. intros b k x [|[|u]] [|[|w]] Hu Hw; try lia; reflexivity. Qed.

Lemma stokes_defined : forall s, exists p, stokes_matrix (index_of_stokes s) = Ok p.
Proof. intros []; eexists; reflexivity. Qed.

Lemma pstokes_ok : forall b f g, field_beam b [f; g] -> b_type b = "efield"%string -> (2 <= b_nvec b)%nat ->
  exists b', efield_to_pstokes b = (b', None) /\ b_type b' = "power"%string /\ b_nvec b' = 1%nat /\ b_pols b' = Some [1; 2; 3; 4]%Z /\
    b_npols b' = Some 4%nat /\ same_frame b b' /\ b_feeds b' = None /\
    forall s v k x z, beam_at b' (stokes_number s) v k x z <-> z = of_real (Rabs (fst (mueller s s (jones b k x)))).
Proof.
  intros b f g (T1 & T2 & T3) _ Hv. unfold efield_to_pstokes. rewrite T1, pstokes_table, T3. cbn [String.eqb negb Ascii.eqb Bool.eqb length].
  assert (E : (negb (b_nfreq b =? 0) && ((2 <? 2) || (b_nvec b <? 2)))%nat = false).
  { apply andb_false_iff. right. apply orb_false_iff. split; [reflexivity|apply Nat.ltb_ge; exact Hv]. }
  rewrite E. eexists. split; [reflexivity|]. do 4 (split; [reflexivity|]). split; [repeat split|]. split; [reflexivity|].
  intros s v k x z. unfold beam_at. cbn [b_pols b_data].
  assert (HV : forall i, nth_error [1; 2; 3; 4]%Z i = Some (stokes_number s) ->
    match construct_mueller (jones_of (b_data b) k x) i i with Ok r => of_real (Rabs r) | Err _ => cx0 end = of_real (Rabs (fst (mueller s s (jones b k x))))).
  { intros i Hi. assert (i = index_of_stokes s) as ->.
    { destruct i as [|[|[|[|i]]]]; cbn in Hi; try (destruct i; discriminate Hi); destruct s; try discriminate Hi; reflexivity. }
    destruct (stokes_defined s) as [p Ep]. unfold construct_mueller. rewrite Ep. cbn [bind].
    rewrite (einsum_trace s _ (jones b k x) p Ep (jones_same b k x)). rewrite cx_abs_real by apply mueller_real. rewrite Rabs_Rabsolu. reflexivity. }
  split.
  - intros (pols & i & Ep & Ei & Ez). injection Ep as <-. rewrite HV in Ez by exact Ei. symmetry. exact Ez.
  - intros ->. exists [1; 2; 3; 4]%Z, (index_of_stokes s). split; [reflexivity|].
    assert (Hi : nth_error [1; 2; 3; 4]%Z (index_of_stokes s) = Some (stokes_number s)) by (destruct s; reflexivity).
    split; [exact Hi|]. apply HV. exact Hi.
Qed.

(** pI is the mean of the two power beams when the basis vectors are orthonormal. *)
Lemma herm_orthonormal : forall b bv f k x, b_nvec b = 2%nat -> orthonormal bv x ->
  fst (power_of b bv f f k x) = norm2 (b_data b 0%nat f k x) + norm2 (b_data b 1%nat f k x).
Proof.
  intros b bv f k x E (O1 & O2 & O3). unfold power_of. rewrite herm2. unfold sky_field. rewrite E. cbn [csum].
  destruct (b_data b 0%nat f k x) as [a c], (b_data b 1%nat f k x) as [d e].
  unfold norm2, cx_add, cx_scale, cx_mul, cx_conj; cbn [fst snd].
  set (p := bv 0%nat 0%nat x) in *. set (q := bv 0%nat 1%nat x) in *. set (r := bv 1%nat 0%nat x) in *. set (t := bv 1%nat 1%nat x) in *.
  transitivity ((a ^ 2 + c ^ 2) * (p ^ 2 + q ^ 2) + (d ^ 2 + e ^ 2) * (r ^ 2 + t ^ 2) + 2 * (a * d + c * e) * (p * r + q * t)); [ring|].
  rewrite O1, O2, O3. ring.
Qed.
Lemma mean_power : forall b bv k x, b_nvec b = 2%nat -> orthonormal bv x ->
  fst (mueller SI SI (jones b k x)) = (fst (power_of b bv 0 0 k x) + fst (power_of b bv 1 1 k x)) / 2.
Proof.
  intros b bv k x E O. rewrite mueller_explicit. cbn [fst]. rewrite !(herm_orthonormal b bv _ k x E O). unfold jones. field.
Qed.
