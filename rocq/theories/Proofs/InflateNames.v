(** inflate_by_redundancy with numbers of one kind: antennas, kept rows, success. *)
From Coq Require Import List ZArith Bool Lia Permutation.
From Verif Require Import Lib.Py Lib.Np Lib.Cube Spec.BltSpec Spec.BlsSpec Spec.PolSpec Spec.UVDataSpec Spec.RedundancySpec Spec.ConjSpec Spec.InflateSpec.
From Verif Require Import Model.Bls Model.UVData Model.Reorder Model.Redundancy Model.Inflate.
From Verif Require Import Proofs.BlsProofs Proofs.ReorderProofs Proofs.ConjProofs Proofs.ConjSame.
From Verif Require Import Proofs.RedundancyProofs Proofs.RedundancyBaselines Proofs.RedundancyTotal Proofs.InflateProofs Proofs.InflateTop.
Import ListNotations.
Open Scope Z_scope.

Lemma scalar_default n m off a b bl : default_scheme n m off -> 0 <= a < m -> 0 <= b < m ->
  scalar_baseline a b n = Ok bl -> bl = m * a + b + off.
Proof.
  intros Hs Ha Hb H. unfold scalar_baseline in H. apply bind_Ok in H as (l & E & H).
  rewrite (encode_default n m off [a] [b] l Hs eq_refl E) in H by (repeat constructor; lia).
  cbn in H. injection H as <-. reflexivity.
Qed.

(** Every listed baseline is a numbered pair of listed antennas. *)
Lemma groups_numbered numbers positions tol grid gps cs m off : 0 <= tol ->
  default_scheme (Z.of_nat (length numbers)) m off -> Forall (fun a => 0 <= a < m) numbers ->
  get_antenna_redundancies numbers positions tol true grid = Ok (gps, cs) ->
  forall b, In b (concat gps) -> exists a1 a2, In a1 numbers /\ In a2 numbers /\ b = m * a1 + a2 + off /\
    antnums_to_baseline [a1] [a2] (Some (Z.of_nat (length numbers))) false false = Ok [b].
Proof.
  intros Ht Hs Hm H. destruct (antenna_redundancies_numbers _ _ _ _ _ _ _ Ht H) as (pgps & F & _ & P & _ & _).
  assert (F' : Forall2 (fun p bl => scalar_baseline (nth (fst p) numbers 0) (nth (snd p) numbers 0) (Z.of_nat (length numbers)) = Ok bl) (concat pgps) (concat gps)).
  { clear -F. induction F; cbn; [constructor|]. apply Forall2_app; assumption. }
  assert (B : forall p, In p (concat pgps) -> (fst p < length numbers)%nat /\ (snd p < length numbers)%nat).
  { intros p Hp. apply (in_map (fun p => (Nat.min (fst p) (snd p), Nat.max (fst p) (snd p)))) in Hp.
    apply (Permutation_in _ P) in Hp. apply ant_pairs_In in Hp. lia. }
  intros b Hb. clear -F' B Hb Hm Hs. induction F' as [|p bl ps bls E F' IH]; [destruct Hb|]. destruct Hb as [->|Hb].
  - destruct (B p ltac:(left; reflexivity)) as [B1 B2]. pose proof (nth_In numbers 0 B1) as I1. pose proof (nth_In numbers 0 B2) as I2.
    exists (nth (fst p) numbers 0), (nth (snd p) numbers 0). split; [exact I1|]. split; [exact I2|].
    rewrite Forall_forall in Hm. split; [apply (scalar_default _ _ _ _ _ _ Hs (Hm _ I1) (Hm _ I2) E)|].
    unfold scalar_baseline in E. apply bind_Ok in E as (l & El & E). rewrite El. destruct l as [|x [|]]; try discriminate.
    injection E as ->. reflexivity.
  - apply IH; [intros; apply B; right; assumption|exact Hb].
Qed.

Lemma numbered_regime m off a1 a2 : encoding m off -> 0 <= a1 < m -> 0 <= a2 < m -> in_regime m off (m * a1 + a2 + off).
Proof. intros E H1 H2. unfold in_regime. inversion E; subst; nia. Qed.

Lemma source_in_groups gps bls b r : In (b, r) (source gps bls) -> In b (concat gps).
Proof. intros H. apply source_spec in H as (gp & b0 & Hg & Hb & _). apply in_concat. exists gp. auto. Qed.

Lemma conj_keeps_nants numbers positions tol u v : conjugate_forward numbers positions tol u = Ok v -> Nants_telescope v = Nants_telescope u.
Proof.
  unfold conjugate_forward, conjugate_bls. intros H. apply bind_Ok in H as (idx & _ & H). unfold conj_apply in H.
  destruct idx as [|x idx]; [injection H as <-; reflexivity|]. apply bind_Ok in H as (P & _ & H). cbv zeta in H.
  apply bind_Ok in H as (bl & _ & H). injection H as <-. reflexivity.
Qed.

(** Each row's antennas are the ones its baseline number stands for. *)
Lemma inflate_antennas numbers positions tol grid key minor u u' :
  blt_shaped u -> Forall legal_pol (polarization_array u) -> NoDup (polarization_array u) -> NoDup numbers -> 0 <= tol ->
  one_scheme numbers -> Nants_telescope u = Z.of_nat (length numbers) ->
  inflate_by_redundancy numbers positions tol grid (BltKey key) minor u = Ok u' ->
  forall i, (i < Nblts u')%nat ->
  In (nth i (ant_1_array u') 0) numbers /\ In (nth i (ant_2_array u') 0) numbers /\
  antnums_to_baseline [nth i (ant_1_array u') 0] [nth i (ant_2_array u') 0] (Some (Nants_telescope u)) false false
    = Ok [nth i (baseline_array u') 0].
Proof.
  intros Hsh HL ND Hn Ht (m & off & Hs & Hm) HN H.
  destruct (inflate_core _ _ _ _ _ _ _ _ Hsh HL ND Hn Ht H) as (u1 & gps & v & w & sigma & keys & E1 & E2 & SV & R). cbv zeta in R.
  set (src := source gps (baseline_array v)) in *.
  destruct R as (NS & B & EA & N & P & N' & S' & RC & RR & EB & ED & _).
  destruct (redundancies_parts _ _ _ _ _ _ _ E2) as [(cs & G) E2'].
  pose proof (groups_numbered _ _ _ _ _ _ _ _ Ht Hs Hm G) as GN.
  rewrite (conj_keeps_nants _ _ _ _ _ E2'), (conj_keeps_nants _ _ _ _ _ E1) in ED.
  intros i Hi. rewrite N' in Hi.
  assert (Hj : (nth i sigma 0 < length src)%nat) by (apply perm_seq_bound; assumption).
  set (j := nth i sigma 0%nat) in *. destruct (RC i Hi) as (_ & _ & C1 & C2 & C3 & _). fold j in C1, C2, C3. rewrite C1, C2, C3. clear C1 C2 C3.
  assert (HR : Forall (in_regime m off) (map fst src)).
  { apply Forall_forall. intros b Hb. apply in_map_iff in Hb as ([b' r] & E & Hb). cbn in E. subst b'. apply source_in_groups in Hb.
    destruct (GN b Hb) as (a1 & a2 & I1 & I2 & -> & _). rewrite Forall_forall in Hm. apply numbered_regime; auto. apply (default_encoding _ _ _ Hs). }
  assert (Hne : map fst src <> []) by (destruct src; [cbn in Hj; lia|discriminate]).
  assert (Hn2 : Nants_telescope u <= 2147483648) by (rewrite HN; destruct Hs as [(_ & _ & ?)|(_ & _ & ?)]; lia).
  rewrite (decode_regime m off _ _ (default_encoding _ _ _ Hs) Hne Hn2 HR) in ED. injection ED as A1 A2.
  assert (Lj : (j < length (map fst src))%nat) by (rewrite map_length; exact Hj).
  rewrite <- A1, <- A2, EB, (nth_map _ _ _ 0 0), (nth_map (fun b => (b - off) mod m) _ _ 0 0) by exact Lj.
  pose proof (nth_In (map fst src) 0 Lj) as Hb. apply in_map_iff in Hb as ([b' r] & E & Hb). cbn in E. apply source_in_groups in Hb.
  destruct (GN b' Hb) as (a1 & a2 & I1 & I2 & Eb & En). rewrite <- E, Eb.
  rewrite Forall_forall in Hm. pose proof (Hm _ I1). pose proof (Hm _ I2).
  rewrite div_enc, mod_enc by lia. rewrite HN, <- Eb. auto.
Qed.

(** After conjugation no row points back. *)
Lemma asked_back tol enu u i : asked UGt0 tol enu u i <-> points_back tol (coords_at enu u i).
Proof.
  unfold asked. destruct (coords_at enu u i) as [[x y] z]. unfold points_back. split.
  - intros H. inversion H as [? ? A|? ? A H']; subst; [left; lia|]. inversion H' as [? ? B|? ? B H'']; subst; [right; left; lia|].
    inversion H'' as [? ? C|? ? C H3]; subst; [right; right; lia|]. inversion H3.
  - intros [H|[[H1 H2]|(H1 & H2 & H3)]].
    + apply lp_here. lia.
    + apply lp_next; [lia|]. apply lp_here. lia.
    + apply lp_next; [lia|]. apply lp_next; [lia|]. apply lp_here. lia.
Qed.

Lemma forward_rows numbers positions tol u v : blt_shaped u -> Forall legal_pol (polarization_array u) -> NoDup (polarization_array u) -> 0 <= tol ->
  conjugate_forward numbers positions tol u = Ok v ->
  forall i, (i < Nblts v)%nat -> ~ points_back tol (coords_at (Some (antpos_of numbers positions)) v i).
Proof.
  intros Hsh HL ND Ht H i Hi. destruct (conjugate_rows _ _ _ _ _ Hsh HL ND H) as (_ & (ET & _) & _ & _ & _ & _ & _ & _ & P & _ & R).
  unfold Nblts in Hi. rewrite ET in Hi. destruct (R i Hi) as [R1 R2].
  assert (D : points_back tol (coords_at (Some (antpos_of numbers positions)) u i) \/ ~ points_back tol (coords_at (Some (antpos_of numbers positions)) u i)).
  { destruct (coords_at _ u i) as [[x y] z]. unfold points_back. lia. }
  destruct D as [D|D].
  - destruct (R1 (proj2 (asked_back _ _ _ _) D)) as (T1 & T2 & _). unfold coords_at in *. rewrite T1, T2.
    destruct (antpos_of numbers positions (nth i (ant_2_array u) 0)) as [[x2 y2] z2], (antpos_of numbers positions (nth i (ant_1_array u) 0)) as [[x1 y1] z1].
    unfold points_back in *. lia.
  - assert (Q : ~ asked UGt0 tol (Some (antpos_of numbers positions)) u i) by (rewrite asked_back; exact D).
    destruct (R2 Q) as (_ & _ & T1 & T2 & _). unfold coords_at in *. rewrite T1, T2. exact D.
Qed.

Lemma forward_ants numbers positions tol u v : blt_shaped u -> Forall legal_pol (polarization_array u) -> NoDup (polarization_array u) ->
  conjugate_forward numbers positions tol u = Ok v -> forall l, 
  (forall i, (i < Nblts u)%nat -> In (nth i (ant_1_array u) 0) l /\ In (nth i (ant_2_array u) 0) l) ->
  Nblts v = Nblts u /\ forall i, (i < Nblts v)%nat -> In (nth i (ant_1_array v) 0) l /\ In (nth i (ant_2_array v) 0) l.
Proof.
  intros Hsh HL ND H l Hl. destruct (conjugate_rows _ _ _ _ _ Hsh HL ND H) as (_ & (ET & _) & _ & _ & _ & _ & _ & _ & P & _ & R).
  split; [unfold Nblts; congruence|]. intros i Hi. unfold Nblts in Hi. rewrite ET in Hi. destruct (R i Hi) as [R1 R2], (Hl i Hi) as [L1 L2].
  assert (D : points_back tol (coords_at (Some (antpos_of numbers positions)) u i) \/ ~ points_back tol (coords_at (Some (antpos_of numbers positions)) u i)).
  { destruct (coords_at _ u i) as [[x y] z]. unfold points_back. lia. }
  destruct D as [D|D].
  - destruct (R1 (proj2 (asked_back _ _ _ _) D)) as (T1 & T2 & _). rewrite T1, T2. auto.
  - assert (Q : ~ asked UGt0 tol (Some (antpos_of numbers positions)) u i) by (rewrite asked_back; exact D).
    destruct (R2 Q) as (_ & _ & T1 & T2 & _). rewrite T1, T2. auto.
Qed.

Lemma sub3_turn tol (v w : Z * Z * Z) : points_back tol (opposite (sub3 v w)) -> points_back tol (sub3 w v).
Proof. destruct v as [[x y] z], w as [[x' y'] z']. unfold points_back, opposite, sub3. lia. Qed.

(** The number of a pair that has an orientation, or of one antenna with itself, is in the groups. *)
Lemma pair_in_groups numbers positions tol grid gps cs m off a b : 0 <= tol ->
  default_scheme (Z.of_nat (length numbers)) m off -> Forall (fun x => 0 <= x < m) numbers ->
  get_antenna_redundancies numbers positions tol true grid = Ok (gps, cs) ->
  In a numbers -> In b numbers ->
  let d := sub3 (antpos_of numbers positions b) (antpos_of numbers positions a) in
  a = b \/ (oriented tol d /\ ~ points_back tol d) -> In (m * a + b + off) (concat gps).
Proof.
  intros Ht Hs Hm H Ia Ib d HO. destruct (antenna_redundancies_numbers _ _ _ _ _ _ _ Ht H) as (pgps & F & NB & P & _ & _).
  assert (F' : Forall2 (fun p bl => scalar_baseline (nth (fst p) numbers 0) (nth (snd p) numbers 0) (Z.of_nat (length numbers)) = Ok bl) (concat pgps) (concat gps)).
  { clear -F. induction F; cbn; [constructor|]. apply Forall2_app; assumption. }
  assert (IX : forall x, In x numbers -> exists i, index_of Z.eqb x numbers = Some i /\ (i < length numbers)%nat /\ nth i numbers 0 = x).
  { intros x Hx. destruct (index_of Z.eqb x numbers) as [i|] eqn:E.
    - exists i. destruct (index_of_Some Z.eqb Z.eqb_eq 0 x numbers i E) as (? & ? & _). auto.
    - exfalso. apply (proj1 (index_of_None Z.eqb Z.eqb_eq x numbers) E). exact Hx. }
  destruct (IX a Ia) as (i & Ei & Li & Ni), (IX b Ib) as (j & Ej & Lj & Nj).
  assert (Hd : d = sub3 (nth j positions (0, 0, 0)) (nth i positions (0, 0, 0))) by (unfold d, antpos_of; rewrite Ei, Ej; reflexivity).
  assert (Hin : In (i, j) (concat pgps)).
  { assert (Q : In (Nat.min i j, Nat.max i j) (ant_pairs (length numbers) true)) by (apply ant_pairs_In; lia).
    apply (Permutation_in _ (Permutation_sym P)) in Q. apply in_map_iff in Q as ([x y] & E & Q). cbn [fst snd] in E. injection E as M1 M2.
    destruct HO as [->|[HO HB]].
    - assert (i = j) by congruence. subst j. assert (x = i /\ y = i) as [-> ->] by lia. exact Q.
    - assert (X : (x = i /\ y = j) \/ (x = j /\ y = i)) by lia. destruct X as [[-> ->]|[-> ->]]; [exact Q|]. exfalso.
      apply NB in Q. cbn [fst snd] in Q. rewrite Hd in HO, HB.
      destruct (points_back_xor tol _ Ht HO) as [[C _]|[C _]]; [contradiction|]. apply Q.
      apply sub3_turn. exact C. }
  assert (exists bl, In bl (concat gps) /\ scalar_baseline a b (Z.of_nat (length numbers)) = Ok bl) as (bl & Hbl & E).
  { clear -F' Hin Ni Nj. induction F' as [|p bl ps bls E F' IH]; [destruct Hin|]. destruct Hin as [->|Hin].
    - exists bl. split; [left; reflexivity|]. cbn [fst snd] in E. rewrite Ni, Nj in E. exact E.
    - destruct (IH Hin) as (bl' & ? & ?). exists bl'. split; [right|]; assumption. }
  rewrite Forall_forall in Hm. rewrite <- (scalar_default _ _ _ _ _ _ Hs (Hm _ Ia) (Hm _ Ib) E). exact Hbl.
Qed.

Lemma coords_sub3 numbers positions u i :
  coords_at (Some (antpos_of numbers positions)) u i
  = sub3 (antpos_of numbers positions (nth i (ant_2_array u) 0)) (antpos_of numbers positions (nth i (ant_1_array u) 0)).
Proof. unfold coords_at, sub3. reflexivity. Qed.

(** What the object looks like once turned forward. *)
Lemma turned_object numbers positions tol grid u u1 gps v m off :
  blt_shaped u -> Forall legal_pol (polarization_array u) -> NoDup (polarization_array u) -> 0 <= tol ->
  default_scheme (Z.of_nat (length numbers)) m off -> Forall (fun x => 0 <= x < m) numbers ->
  Nants_telescope u = Z.of_nat (length numbers) -> default_coded u ->
  (forall i, (i < Nblts u)%nat -> In (nth i (ant_1_array u) 0) numbers /\ In (nth i (ant_2_array u) 0) numbers) ->
  conjugate_forward numbers positions 0 u = Ok u1 -> get_redundancies_antpos numbers positions tol grid u1 = Ok (gps, v) ->
  Nblts v = Nblts u /\
  forall r, (r < Nblts v)%nat ->
    In (nth r (ant_1_array v) 0) numbers /\ In (nth r (ant_2_array v) 0) numbers /\
    nth r (baseline_array v) 0 = m * nth r (ant_1_array v) 0 + nth r (ant_2_array v) 0 + off /\
    (nth r (ant_1_array v) 0 = nth r (ant_2_array v) 0 \/ oriented tol (coords_at (Some (antpos_of numbers positions)) v r) ->
     In (nth r (baseline_array v) 0) (concat gps)).
Proof.
  intros Hsh HL ND Ht Hs Hm HN HD HA E1 E2. destruct (redundancies_parts _ _ _ _ _ _ _ E2) as [(cs & G) E2'].
  destruct (conjugate_rows _ _ _ _ _ Hsh HL ND E1) as (S1 & _ & _ & P1 & _ & _ & _ & D1 & _).
  assert (HL1 : Forall legal_pol (polarization_array u1)) by (rewrite P1; exact HL).
  assert (ND1 : NoDup (polarization_array u1)) by (rewrite P1; exact ND).
  destruct (conjugate_rows _ _ _ _ _ S1 HL1 ND1 E2') as (S2 & _ & _ & _ & _ & _ & _ & D2 & _).
  destruct (forward_ants _ _ _ _ _ Hsh HL ND E1 numbers HA) as [N1 A1].
  destruct (forward_ants _ _ _ _ _ S1 HL1 ND1 E2' numbers A1) as [N2 A2].
  split; [congruence|]. intros r Hr. destruct (A2 r Hr) as [I1 I2]. split; [exact I1|]. split; [exact I2|].
  destruct (D2 (D1 HD)) as (m' & off' & Hs' & Hc). destruct (Hc r Hr) as (_ & _ & EB).
  rewrite (conj_keeps_nants _ _ _ _ _ E2'), (conj_keeps_nants _ _ _ _ _ E1), HN in Hs'.
  assert (m' = m /\ off' = off) as [-> ->] by (destruct Hs' as [(-> & -> & ?)|(-> & -> & ?)], Hs as [(-> & -> & ?)|(-> & -> & ?)]; lia).
  split; [exact EB|]. intros HO. rewrite EB. apply (pair_in_groups _ _ _ _ _ _ _ _ _ _ Ht Hs Hm G I1 I2). cbv zeta. rewrite <- coords_sub3.
  destruct HO as [HO|HO]; [left; exact HO|right]. split; [exact HO|]. apply (forward_rows _ _ _ _ _ S1 HL1 ND1 Ht E2' r Hr).
Qed.

Lemma first_present_exists gp bls b : In b gp -> In b bls -> exists b0, first_present gp bls b0.
Proof.
  intros H1 H2. destruct (find (fun bl => isinZ bl bls) gp) as [b0|] eqn:E; [exists b0; apply find_first; exact E|].
  exfalso. pose proof (find_none _ _ E b H1) as C. cbn in C. apply isinZ_spec in H2. congruence.
Qed.
Lemma first_present_in gp bls b : first_present gp bls b -> In b gp /\ In b bls.
Proof. intros (p & q & -> & H & _). split; [apply in_or_app; right; left; reflexivity|exact H]. Qed.

(** No baseline with an orientation disappears; and an object that has at most
    one baseline of each group keeps all its rows. *)
Lemma inflate_keeps numbers positions tol grid key minor u u' :
  blt_shaped u -> Forall legal_pol (polarization_array u) -> NoDup (polarization_array u) -> NoDup numbers -> 0 <= tol ->
  one_scheme numbers -> Nants_telescope u = Z.of_nat (length numbers) -> default_coded u ->
  (forall i, (i < Nblts u)%nat -> In (nth i (ant_1_array u) 0) numbers /\ In (nth i (ant_2_array u) 0) numbers) ->
  inflate_by_redundancy numbers positions tol grid (BltKey key) minor u = Ok u' ->
  exists u1 gps v,
    conjugate_forward numbers positions 0 u = Ok u1 /\
    get_redundancies_antpos numbers positions tol grid u1 = Ok (gps, v) /\
    forall r, (r < Nblts v)%nat ->
    nth r (ant_1_array v) 0 = nth r (ant_2_array v) 0 \/ oriented tol (coords_at (Some (antpos_of numbers positions)) v r) ->
    In (nth r (baseline_array v) 0) (baseline_array u') /\
    ((forall gp b b', In gp gps -> In b gp -> In b' gp -> In b (baseline_array v) -> In b' (baseline_array v) -> b = b') ->
     exists i, (i < Nblts u')%nat /\ row_copied v r u' i).
Proof.
  intros Hsh HL ND Hn Ht HO HN HD HA H. pose proof (inflate_antennas _ _ _ _ _ _ _ _ Hsh HL ND Hn Ht HO HN H) as IA.
  destruct HO as (m & off & Hs & Hm).
  destruct (inflate_rows _ _ _ _ _ _ _ _ Hsh HL ND Hn Ht H) as (u1 & gps & v & src & keys & E1 & E2 & L & NS & S & R & SU & _).
  exists u1, gps, v. split; [exact E1|]. split; [exact E2|].
  destruct (turned_object _ _ _ _ _ _ _ _ _ _ Hsh HL ND Ht Hs Hm HN HD HA E1 E2) as [NV T].
  assert (LB : length (baseline_array v) = Nblts v).
  { destruct (redundancies_parts _ _ _ _ _ _ _ E2) as [(cs & G) E2'].
    destruct (conjugate_rows _ _ _ _ _ Hsh HL ND E1) as (S1 & _ & _ & P1 & _).
    assert (HL1 : Forall legal_pol (polarization_array u1)) by (rewrite P1; exact HL).
    assert (ND1 : NoDup (polarization_array u1)) by (rewrite P1; exact ND).
    destruct (conjugate_rows _ _ _ _ _ S1 HL1 ND1 E2') as ((_ & _ & _ & LL & _) & _). exact LL. }
  intros r Hr Hor. destruct (T r Hr) as (I1 & I2 & EB & IG). specialize (IG Hor).
  apply in_concat in IG as (gp & Hgp & Hb).
  assert (HbV : In (nth r (baseline_array v) 0) (baseline_array v)) by (apply nth_In; lia).
  destruct (first_present_exists _ _ _ Hb HbV) as (b0 & Hf).
  assert (LU : length (baseline_array u') = Nblts u') by (destruct SU as (_ & _ & _ & LL & _); exact LL).
  split.
  - destruct (first_present_in _ _ _ Hf) as [_ Hb0]. apply (In_nth _ _ 0) in Hb0 as (r0 & Hr0 & Er0). rewrite LB in Hr0.
    assert (Q : In (nth r (baseline_array v) 0, r0) src) by (apply S; exists gp, b0; auto).
    apply (In_nth _ _ (0, 0%nat)) in Q as (i & Hi & Ei). rewrite L in Hi. destruct (R i Hi) as (_ & _ & EB' & _). rewrite Ei in EB'. cbn in EB'.
    rewrite <- EB'. apply nth_In. lia.
  - intros U. assert (b0 = nth r (baseline_array v) 0).
    { destruct (first_present_in _ _ _ Hf). apply (U gp); assumption. } subst b0.
    assert (Q : In (nth r (baseline_array v) 0, r) src) by (apply S; exists gp, (nth r (baseline_array v) 0); auto).
    apply (In_nth _ _ (0, 0%nat)) in Q as (i & Hi & Ei). rewrite L in Hi. pose proof (R i Hi) as RR. rewrite Ei in RR. cbn [fst snd] in RR.
    exists i. split; [exact Hi|]. destruct (IA i Hi) as (J1 & J2 & EN).
    destruct RR as (A1 & A2 & A3 & A4 & A5 & A6 & A7 & A8 & A9 & A10).
    assert (EE : scalar_baseline (nth i (ant_1_array u') 0) (nth i (ant_2_array u') 0) (Z.of_nat (length numbers)) = Ok (nth i (baseline_array u') 0)).
    { unfold scalar_baseline. rewrite <- HN, EN. reflexivity. }
    rewrite Forall_forall in Hm.
    pose proof (scalar_default _ _ _ _ _ _ Hs (Hm _ J1) (Hm _ J2) EE) as EV. rewrite A3, EB in EV.
    pose proof (Hm _ J1). pose proof (Hm _ J2). pose proof (Hm _ I1). pose proof (Hm _ I2).
    assert (EA : nth i (ant_1_array u') 0 = nth r (ant_1_array v) 0).
    { rewrite <- (div_enc m (nth i (ant_1_array u') 0) (nth i (ant_2_array u') 0) off) by lia. rewrite <- EV. apply div_enc. lia. }
    assert (EA2 : nth i (ant_2_array u') 0 = nth r (ant_2_array v) 0) by (rewrite EA in EV; lia).
    unfold row_copied. do 11 (split; [assumption|]). exact A10.
Qed.

(** When it succeeds. *)
Lemma inflate_total numbers positions tol key minor u :
  blt_shaped u -> Forall legal_pol (polarization_array u) -> NoDup (polarization_array u) ->
  (forall p, In p (polarization_array u) -> In (swapped p) (polarization_array u)) ->
  NoDup numbers -> (2 <= length numbers)%nat -> 0 < tol ->
  one_scheme numbers -> Nants_telescope u = Z.of_nat (length numbers) -> default_coded u ->
  (forall i, (i < Nblts u)%nat -> In (nth i (ant_1_array u) 0) numbers /\ In (nth i (ant_2_array u) 0) numbers) ->
  (exists r, (r < Nblts u)%nat /\ (nth r (ant_1_array u) 0 = nth r (ant_2_array u) 0 \/ oriented tol (coords_at (Some (antpos_of numbers positions)) u r))) ->
  (minor = None \/ exists m, minor = Some m /\ m <> KBda /\ key <> KBda /\ (key = KBaseline -> m <> KAnt1 /\ m <> KAnt2)) ->
  exists u', inflate_by_redundancy numbers positions tol true (BltKey key) minor u = Ok u'.
Proof.
  intros Hsh HL ND HP Hn H2 Ht HO HN HD HA HR Hmin. destruct HO as (m & off & Hs & Hm).
  unfold inflate_by_redundancy.
  destruct (conjugate_succeeds UGt0 0 (Some (antpos_of numbers positions)) u Hsh HL HP HD ltac:(discriminate)) as (u1 & E1).
  fold (conjugate_forward numbers positions 0 u) in E1. rewrite E1. cbn [bind].
  destruct (conjugate_rows _ _ _ _ _ Hsh HL ND E1) as (S1 & _ & _ & P1 & _ & _ & _ & D1 & PP1 & _ & R1).
  assert (HL1 : Forall legal_pol (polarization_array u1)) by (rewrite P1; exact HL).
  assert (ND1 : NoDup (polarization_array u1)) by (rewrite P1; exact ND).
  destruct (conjugate_succeeds UGt0 tol (Some (antpos_of numbers positions)) u1 S1 HL1 ltac:(rewrite P1; exact HP) (D1 HD) ltac:(discriminate)) as (v & E2).
  fold (conjugate_forward numbers positions tol u1) in E2.
  destruct (conjugate_rows _ _ _ _ _ S1 HL1 ND1 E2) as (S2 & _ & _ & P2 & _ & _ & _ & D2 & PP2 & _ & R2).
  destruct (antenna_total numbers positions tol true Hn) as (gps & cs & G); [|destruct Hs as [(_ & _ & ?)|(_ & _ & ?)]; lia|exact H2|exact Ht|].
  { eapply Forall_impl; [|exact Hm]. cbv beta. intros a. destruct Hs as [(-> & _ & ?)|(-> & _ & ?)]; lia. }
  assert (E3 : get_redundancies_antpos numbers positions tol true u1 = Ok (gps, v)) by (unfold get_redundancies_antpos; rewrite G; cbn [bind]; rewrite E2; reflexivity).
  rewrite E3. cbn [bind]. rewrite inflate_map_source. cbn [bind]. set (src := source gps (baseline_array v)).
  destruct (turned_object _ _ _ _ _ _ _ _ _ _ Hsh HL ND (Z.lt_le_incl _ _ Ht) Hs Hm HN HD HA E1 E3) as [NV T].
  assert (LB : length (baseline_array v) = Nblts v) by (destruct S2 as (_ & _ & _ & LL & _); exact LL).
  (* the orientation of a row does not change when it is turned *)
  assert (TO : forall tol0 w w', blt_shaped w -> Forall legal_pol (polarization_array w) -> NoDup (polarization_array w) ->
     conjugate_forward numbers positions tol0 w = Ok w' -> forall r, (r < Nblts w)%nat ->
     (nth r (ant_1_array w) 0 = nth r (ant_2_array w) 0 \/ oriented tol (coords_at (Some (antpos_of numbers positions)) w r)) ->
     (r < Nblts w')%nat /\ (nth r (ant_1_array w') 0 = nth r (ant_2_array w') 0 \/ oriented tol (coords_at (Some (antpos_of numbers positions)) w' r))).
  { intros t w w' A1 A2 A3 A4 r Hr Ho. destruct (conjugate_rows _ _ _ _ _ A1 A2 A3 A4) as (_ & (ET & _) & _ & _ & _ & _ & _ & _ & P & _ & R).
    split; [unfold Nblts; rewrite ET; exact Hr|]. destruct (R r Hr) as [Ra Rb].
    assert (D : points_back t (coords_at (Some (antpos_of numbers positions)) w r) \/ ~ points_back t (coords_at (Some (antpos_of numbers positions)) w r)).
    { destruct (coords_at _ w r) as [[x y] z]. unfold points_back. lia. }
    destruct D as [D|D].
    - destruct (Ra (proj2 (asked_back _ _ _ _) D)) as (T1 & T2 & _). unfold coords_at in *. rewrite T1, T2.
      destruct Ho as [Ho|Ho]; [left; congruence|right].
      destruct (antpos_of numbers positions (nth r (ant_2_array w) 0)) as [[x2 y2] z2], (antpos_of numbers positions (nth r (ant_1_array w) 0)) as [[x1 y1] z1].
      unfold oriented in *. lia.
    - assert (Q : ~ asked UGt0 t (Some (antpos_of numbers positions)) w r) by (rewrite asked_back; exact D).
      destruct (Rb Q) as (_ & _ & T1 & T2 & _). unfold coords_at in *. rewrite T1, T2. exact Ho. }
  destruct HR as (r & Hr & Ho). destruct (TO 0 u u1 Hsh HL ND E1 r Hr Ho) as [Hr1 Ho1]. destruct (TO tol u1 v S1 HL1 ND1 E2 r Hr1 Ho1) as [Hr2 Ho2].
  destruct (T r Hr2) as (_ & _ & _ & IG). specialize (IG Ho2). apply in_concat in IG as (gp & Hgp & Hb).
  assert (HbV : In (nth r (baseline_array v) 0) (baseline_array v)) by (apply nth_In; lia).
  destruct (first_present_exists _ _ _ Hb HbV) as (b0 & Hf). destruct (first_present_in _ _ _ Hf) as [_ Hb0].
  apply (In_nth _ _ 0) in Hb0 as (r0 & Hr0 & Er0).
  assert (Q : In (nth r (baseline_array v) 0, r0) src) by (apply source_spec; exists gp, b0; auto).
  assert (GN : Forall (in_regime m off) (map fst src)).
  { apply Forall_forall. intros b Hbb. apply in_map_iff in Hbb as ([b' r'] & E & Hbb). cbn in E. subst b'. apply source_in_groups in Hbb.
    destruct (groups_numbered _ _ _ _ _ _ _ _ (Z.lt_le_incl _ _ Ht) Hs Hm G b Hbb) as (a1 & a2 & I1 & I2 & -> & _). rewrite Forall_forall in Hm.
    apply numbered_regime; auto. apply (default_encoding _ _ _ Hs). }
  assert (NA : Nants_telescope v <= 2147483648).
  { rewrite (conj_keeps_nants _ _ _ _ _ E2), (conj_keeps_nants _ _ _ _ _ E1), HN. destruct Hs as [(_ & _ & ?)|(_ & _ & ?)]; lia. }
  assert (Hne : map fst src <> []) by (destruct src; [destruct Q|discriminate]).
  assert (exists w, inflate_apply (map snd src) (map fst src) v = Ok w) as (w & EW).
  { unfold inflate_apply. rewrite (decode_regime m off _ _ (default_encoding _ _ _ Hs) Hne NA GN). cbn [bind]. eexists. reflexivity. }
  rewrite EW. cbn [bind].
  assert (B : forall p, In p src -> (snd p < Nblts v)%nat).
  { intros [b r'] Hp. apply source_spec in Hp as (_ & _ & _ & _ & _ & Hr' & _). cbn. lia. }
  destruct (apply_rows _ _ _ S2 EW B) as (N & _ & _ & SW & _).
  apply reorder_total; [exact SW| |exact Hmin]. intros C. unfold Nblts in N. rewrite C in N. destruct src; [destruct Q|discriminate].
Qed.
