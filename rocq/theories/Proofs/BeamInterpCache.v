(** Proofs about interpolation of beams to directions and saved splines. *)
From Coq Require Import List ZArith QArith Qcanon Bool Arith Lia Lqa Permutation Sorted.
From Verif Require Import Lib.Py Lib.Np Lib.Dict Lib.Sorting Model.BeamInterp Spec.BeamInterpSpec Proofs.BeamInterpProofs.
Import ListNotations.
Notation length := List.length.
Open Scope list_scope.
Open Scope Qc_scope.

Lemma key_eqb_eq x y : key_eqb x y = true <-> x = y.
Proof.
  destruct x as [[f p] a], y as [[g q] b]. unfold key_eqb. rewrite !andb_true_iff, !qle_iff, !Nat.eqb_eq. split.
  - intros [[[H1 H2] ->] ->]. rewrite (Qcle_antisym _ _ H1 H2). reflexivity.
  - intros H. injection H as -> -> ->. repeat split; apply Qcle_refl.
Qed.
Lemma position_eqb_eq x y : position_eqb x y = true <-> x = y.
Proof.
  destruct x as [[f p] a], y as [[g q] b]. unfold position_eqb. rewrite !andb_true_iff, !Nat.eqb_eq. split.
  - intros [[-> ->] ->]. reflexivity.
  - intros H. injection H as -> -> ->. auto.
Qed.

Lemma positions_In n m l a p i : In (a, p, i) (positions n m l) <-> (a < n /\ p < m /\ i < l)%nat.
Proof.
  unfold positions. rewrite in_flat_map. split.
  - intros (i' & I & H). apply in_flat_map in H as (a' & A & H). apply in_map_iff in H as (p' & E & P). injection E as -> -> ->.
    apply in_seq in I, A, P. lia.
  - intros (A & P & I). exists i. split; [apply in_seq; lia|]. apply in_flat_map. exists a. split; [apply in_seq; lia|].
    apply in_map_iff. exists p. split; [reflexivity|apply in_seq; lia].
Qed.

Section S.
  Context {opts : Type}.
  Variable spline : opts -> list Qc -> Qc * Qc -> Qc.
  Local Notation round := (round spline).
  Local Notation interp := (interp spline).
  Local Notation make_lut := (make_lut spline).

  (** the beam at a frequency, by one kind of interpolation *)
  Definition img (m : kind) (b : beam) (a p : nat) (f : Qc) (x : nat) : C :=
    match m with
    | Nearest => b_data b a p (nearest_ind (b_freqs b) f) x
    | Linear => (lin (b_freqs b) (fun j => fst (b_data b a p j x)) f, lin (b_freqs b) (fun j => snd (b_data b a p j x)) f)
    end.

  Lemma img_own m b a p i x : NoDup (b_freqs b) -> (i < length (b_freqs b))%nat -> img m b a p (nth i (b_freqs b) 0) x = b_data b a p i x.
  Proof.
    intros ND L. destruct m; cbn [img].
    - rewrite nearest_own by assumption. reflexivity.
    - rewrite (lin_own _ (fun j => fst (b_data b a p j x))), (lin_own _ (fun j => snd (b_data b a p j x))) by assumption. destruct (b_data b a p i x); reflexivity.
  Qed.

  Lemma interp_freq_img b k fs data band : interp_freq b k fs = Ok (data, band) ->
    forall a p i x, (i < length fs)%nat -> data a p i x = img k b a p (nth i fs 0) x.
  Proof.
    unfold interp_freq. destruct k.
    - intros H. injection H as <- _. intros a p i x L. cbn [img]. rewrite (nth_map (nearest_ind (b_freqs b)) fs i 0 0%nat) by exact L. reflexivity.
    - destruct (_ =? 1)%nat; [discriminate|]. destruct (_ || _); [discriminate|]. intros H. injection H as <- _. intros. reflexivity.
  Qed.

  Lemma make_lut_ext o n f g : (forall x, f x = g x) -> forall q, make_lut o n f q = make_lut o n g q.
  Proof.
    intros H q. unfold BeamInterp.make_lut. f_equal; f_equal; apply map_ext; intros x; rewrite H; reflexivity.
  Qed.

  Definition entry (b : beam) (c : call (opts := opts)) (data : nat -> nat -> nat -> nat -> C) (inds : list nat) (at_ : position) : list C :=
    let '(a, p, i) := at_ in map (make_lut (c_opts c) (b_npix b) (data a (nth p inds 0%nat) i)) (c_points c).

  (** every saved function is the one of its key *)
  Definition good (m : kind) (o : opts) (b : beam) (s : cache) : Prop :=
    forall f p a g, dget key_eqb (f, p, a) s = Ok g -> forall q, g q = make_lut o (b_npix b) (img m b a p f) q.

  (** what a call reads is the beam at its frequencies by kind m *)
  Definition faithful (m : kind) (o : opts) (b : beam) (c : call (opts := opts)) (data : nat -> nat -> nat -> nat -> C) (fs : list Qc) : Prop :=
    c_reuse c = true -> c_opts c = o /\ forall a p i x, (i < length fs)%nat -> data a p i x = img m b a p (nth i fs 0) x.

  Lemma round_spec m o b c data fs inds st a p i :
    faithful m o b c data fs -> (i < length fs)%nat -> good m o b (snd st) ->
    good m o b (snd (round b c data fs inds st (a, p, i))) /\
    fst (round b c data fs inds st (a, p, i)) (a, p, i) = entry b c data inds (a, p, i) /\
    (forall q, q <> (a, p, i) -> fst (round b c data fs inds st (a, p, i)) q = fst st q).
  Proof.
    intros Fa L G. unfold BeamInterp.round.
    set (fresh := make_lut (c_opts c) (b_npix b) (data a (nth p inds 0%nat) i)).
    set (k := (nth i fs 0, nth p inds 0%nat, a)).
    assert (O : forall (f : lut) s, (let '(f0, saved) := (f, s) in ((fun q => if position_eqb q (a, p, i) then map f0 (c_points c) else fst st q), saved : cache)) =
      ((fun q => if position_eqb q (a, p, i) then map f (c_points c) else fst st q), s)) by reflexivity.
    assert (Fin : forall (f : lut) (s : cache), (forall q, f q = fresh q) -> good m o b s ->
      good m o b (snd ((fun q => if position_eqb q (a, p, i) then map f (c_points c) else fst st q), s)) /\
      fst ((fun q => if position_eqb q (a, p, i) then map f (c_points c) else fst st q), s) (a, p, i) = entry b c data inds (a, p, i) /\
      (forall q, q <> (a, p, i) -> fst ((fun q => if position_eqb q (a, p, i) then map f (c_points c) else fst st q), s) q = fst st q)).
    { intros f s E Gs. cbn [fst snd]. split; [exact Gs|]. split.
      - rewrite (proj2 (position_eqb_eq _ _) eq_refl). unfold entry. apply map_ext. exact E.
      - intros q D. destruct (position_eqb q (a, p, i)) eqn:Q; [apply position_eqb_eq in Q; contradiction|reflexivity]. }
    destruct (c_reuse c) eqn:R; [|apply (Fin fresh (snd st)); [reflexivity|exact G]].
    destruct (Fa R) as [Eo Ed].
    assert (FT : forall q, fresh q = make_lut o (b_npix b) (img m b a (nth p inds 0%nat) (nth i fs 0)) q).
    { intros q. unfold fresh. rewrite Eo. apply make_lut_ext. intros x. apply Ed, L. }
    destruct (dget key_eqb k (snd st)) as [f|e] eqn:D.
    - apply (Fin f (snd st)); [|exact G]. intros q. rewrite FT. apply (G _ _ _ _ D).
    - apply (Fin fresh (dset key_eqb k fresh (snd st))); [reflexivity|].
      intros f0 p0 a0 g H q. rewrite (dget_dset _ key_eqb_eq) in H. destruct (key_eqb (f0, p0, a0) k) eqn:E.
      + injection H as <-. apply key_eqb_eq in E. unfold k in E. injection E as -> -> ->. apply FT.
      + apply (G _ _ _ _ H).
  Qed.

  Lemma loop_spec m o b c data fs inds l : faithful m o b c data fs -> (forall a p i, In (a, p, i) l -> (i < length fs)%nat) ->
    forall st, good m o b (snd st) ->
    let st' := fold_left (round b c data fs inds) l st in
    good m o b (snd st') /\ (forall q, In q l -> fst st' q = entry b c data inds q) /\ (forall q, ~ In q l -> fst st' q = fst st q).
  Proof.
    intros Fa. induction l as [|[[a p] i] l IH]; intros B st G; cbn [fold_left].
    - split; [exact G|]. split; [intros q []|reflexivity].
    - destruct (round_spec m o b c data fs inds st a p i Fa (B _ _ _ (or_introl eq_refl)) G) as (G1 & R1 & O1).
      destruct (IH (fun a p i H => B a p i (or_intror H)) _ G1) as (G2 & R2 & O2). split; [exact G2|].
      assert (DEC : forall q : position, In q l \/ ~ In q l).
      { intros q. destruct (in_dec (fun x y => match Bool.bool_dec (position_eqb x y) true with left e => left (proj1 (position_eqb_eq x y) e) | right n => right (fun e => n (proj2 (position_eqb_eq x y) e)) end) q l); auto. }
      split.
      + intros q H. destruct (DEC q) as [I|I]; [apply R2, I|]. rewrite (O2 q I). destruct H as [<-|H]; [exact R1|contradiction].
      + intros q H. rewrite (O2 q (fun I => H (or_intror I))). apply O1. intros ->. apply H. left. reflexivity.
  Qed.

  (** The frequencies of a call, and the kind of interpolation it uses *)
  Definition steady (m : kind) (o : opts) (b : beam) (c : call (opts := opts)) : Prop :=
    c_reuse c = true -> c_opts c = o /\
    match c_freqs c with
    | None => True
    | Some fs => (forall f, In f fs -> In f (b_freqs b)) \/ effective_kind b (c_kind c) (c_tol c) fs = m
    end.

  Lemma steady_faithful m o b c data fs band : NoDup (b_freqs b) -> steady m o b c ->
    at_freqs b (c_kind c) (c_tol c) (c_freqs c) = Ok (data, fs, band) -> faithful m o b c data fs.
  Proof.
    intros ND S' H R. destruct (S' R) as [Eo X]. split; [exact Eo|]. intros a p i x L. unfold at_freqs in H. destruct (c_freqs c) as [fs0|].
    - apply bind_Ok in H as ([d bd] & H & E). injection E as <- <- <-. cbn [fst] in *.
      rewrite (interp_freq_img _ _ _ _ _ H) by exact L. destruct X as [X| ->]; [|reflexivity].
      destruct (In_nth _ _ 0 (X (nth i fs0 0) (nth_In _ _ L))) as (j & J & E). rewrite <- E. rewrite !img_own by assumption. reflexivity.
    - injection H as <- <- _. symmetry. apply img_own; assumption.
  Qed.

  Lemma interp_spec m o b s c : NoDup (b_freqs b) -> steady m o b c -> good m o b s ->
    match at_freqs b (c_kind c) (c_tol c) (c_freqs c), pol_inds b (c_pols c) with
    | Ok (data, fs, band), Ok inds =>
        exists out s', interp b s c = Ok (out, length inds, fs, band, s') /\ good m o b s' /\
          (forall a p i, (a < b_naxes b)%nat -> (p < length inds)%nat -> (i < length fs)%nat -> out (a, p, i) = entry b c data inds (a, p, i)) /\
          (forall a p i, ~ (a < b_naxes b /\ p < length inds /\ i < length fs)%nat -> out (a, p, i) = [])
    | Err e, _ => interp b s c = Err e
    | Ok _, Err e => interp b s c = Err e
    end.
  Proof.
    intros ND S' G. unfold BeamInterp.interp.
    destruct (at_freqs b (c_kind c) (c_tol c) (c_freqs c)) as [[[data fs] band]|e] eqn:A; cbn [bind]; [|reflexivity].
    destruct (pol_inds b (c_pols c)) as [inds|e] eqn:P; cbn [bind]; [|reflexivity].
    pose proof (steady_faithful _ _ _ _ _ _ _ ND S' A) as Fa.
    destruct (loop_spec m o b c data fs inds (positions (b_naxes b) (length inds) (length fs)) Fa) with (st := ((fun _ : position => []) : position -> list C, s)) as (G' & R & O).
    - intros a p i H. apply positions_In in H. lia.
    - exact G.
    - eexists _, _. split; [reflexivity|]. split; [exact G'|]. split.
      + intros a p i X Y Z. apply R. apply positions_In. lia.
      + intros a p i X. apply O. intros H. apply positions_In in H. exact (X H).
  Qed.

  Lemma history m o b l : NoDup (b_freqs b) -> Forall (steady m o b) l -> forall s, good m o b s -> good m o b (fold_left (after spline b) l s).
  Proof.
    intros ND F. induction F as [|c l H F IH]; intros s G; cbn [fold_left]; [exact G|]. apply IH.
    unfold after. pose proof (interp_spec m o b s c ND H G) as X.
    destruct (at_freqs b (c_kind c) (c_tol c) (c_freqs c)) as [[[data fs] band]|e]; [|rewrite X; exact G].
    destruct (pol_inds b (c_pols c)) as [inds|e]; [|rewrite X; exact G].
    destruct X as (out & s' & -> & G' & _). exact G'.
  Qed.
End S.
