(** C99: interpolation of beams. *)
From Coq Require Import List ZArith QArith Qcanon Bool Arith Lia Lqa.
From Verif Require Import Lib.Py Lib.Np Lib.Dict Model.BeamInterp Spec.BeamInterpSpec Proofs.BeamInterpProofs Proofs.BeamInterpCache.
Import ListNotations.
Notation length := List.length.
Open Scope list_scope.
Open Scope Qc_scope.

(** If every requested frequency is within the tolerance of one of the beam, or with kind "nearest",
    the beam of a nearest frequency is given at each, in data and bandpass. *)
Theorem C99_nearest : forall b k tol freqs, b_freqs b <> [] ->
  all_close (b_freqs b) tol freqs \/ k = Nearest ->
  exists b', interp_freqs b k tol freqs = Ok b' /\ b_freqs b' = freqs /\ length (b_band b') = length freqs /\
  forall i, (i < length freqs)%nat -> exists j, nearest (b_freqs b) (nth i freqs 0) j /\
    nth i (b_band b') 0 = nth j (b_band b) 0 /\ forall a p x, b_data b' a p i x = b_data b a p j x.
Proof.
  intros b k tol freqs NE H. unfold interp_freqs, at_freqs.
  assert (E : effective_kind b k tol freqs = Nearest).
  { destruct H as [H| ->]; [apply effective, H|]. unfold effective_kind. destruct (existsb _ _); reflexivity. }
  rewrite E. cbn [interp_freq bind fst snd]. eexists. split; [reflexivity|]. cbn [b_freqs b_band b_data].
  split; [reflexivity|]. split; [rewrite !map_length; reflexivity|]. intros i L. exists (nearest_ind (b_freqs b) (nth i freqs 0)).
  split; [apply nearest_ind_spec, NE|]. split.
  - rewrite map_map, (nth_map (fun f => nth (nearest_ind (b_freqs b) f) (b_band b) 0) freqs i 0 0) by exact L. reflexivity.
  - intros a p x. rewrite (nth_map (nearest_ind (b_freqs b)) freqs i 0 0%nat) by exact L. reflexivity.
Qed.
Print Assumptions C99_nearest.

(** Otherwise the data at each frequency (real and imaginary parts) and the bandpass are on the
    straight line between the two neighbouring frequencies of the beam, in whatever order it lists them. *)
Theorem C99_linear : forall b tol freqs, NoDup (b_freqs b) -> length (b_freqs b) <> 1%nat ->
  ~ all_close (b_freqs b) tol freqs -> (forall f, In f freqs -> in_range (b_freqs b) f) ->
  exists b', interp_freqs b Linear tol freqs = Ok b' /\ b_freqs b' = freqs /\ length (b_band b') = length freqs /\
  forall i, (i < length freqs)%nat -> exists lo hi, neighbours (b_freqs b) (nth i freqs 0) lo hi /\
    on_line (nth lo (b_freqs b) 0) (nth lo (b_band b) 0) (nth hi (b_freqs b) 0) (nth hi (b_band b) 0) (nth i freqs 0) (nth i (b_band b') 0) /\
    forall a p x,
      on_line (nth lo (b_freqs b) 0) (fst (b_data b a p lo x)) (nth hi (b_freqs b) 0) (fst (b_data b a p hi x)) (nth i freqs 0) (fst (b_data b' a p i x)) /\
      on_line (nth lo (b_freqs b) 0) (snd (b_data b a p lo x)) (nth hi (b_freqs b) 0) (snd (b_data b a p hi x)) (nth i freqs 0) (snd (b_data b' a p i x)).
Proof.
  intros b tol freqs ND N1 NC R. unfold interp_freqs, at_freqs. rewrite (proj2 (effective b Linear tol freqs) NC).
  unfold interp_freq. rewrite (proj2 (Nat.eqb_neq _ _) N1), (range_check _ _ R). cbn [bind fst snd]. eexists. split; [reflexivity|]. cbn [b_freqs b_band b_data].
  split; [reflexivity|]. split; [rewrite map_length; reflexivity|]. intros i L.
  assert (Ri := R _ (nth_In _ 0 L)). exists (fst (bracket (b_freqs b) (nth i freqs 0))), (snd (bracket (b_freqs b) (nth i freqs 0))).
  split; [apply bracket_spec; assumption|]. split.
  - rewrite (nth_map (lin (b_freqs b) (fun j => nth j (b_band b) 0)) freqs i 0 0) by exact L.
    apply (lin_on_line (b_freqs b) (fun j => nth j (b_band b) 0)); assumption.
  - intros a p x. cbn [fst snd]. split.
    + apply (lin_on_line (b_freqs b) (fun j => fst (b_data b a p j x))); assumption.
    + apply (lin_on_line (b_freqs b) (fun j => snd (b_data b a p j x))); assumption.
Qed.
Print Assumptions C99_linear.

(** At frequencies of the beam the result is the beam itself, by any kind and tolerance. *)
Theorem C99_own : forall b k tol freqs b', NoDup (b_freqs b) ->
  interp_freqs b k tol freqs = Ok b' ->
  forall i j, (i < length freqs)%nat -> (j < length (b_freqs b))%nat -> nth i freqs 0 = nth j (b_freqs b) 0 ->
    nth i (b_band b') 0 = nth j (b_band b) 0 /\ forall a p x, b_data b' a p i x = b_data b a p j x.
Proof.
  intros b k tol freqs b' ND H i j I J E. unfold interp_freqs, at_freqs in H.
  apply bind_Ok in H as ([[data fs] band] & H & E'). injection E' as <-. apply bind_Ok in H as ([d bd] & H & E'). cbn [fst snd] in E'. injection E' as <- <- <-.
  cbn [b_band b_data]. split.
  - unfold interp_freq in H. destruct (effective_kind b k tol freqs).
    + injection H as _ <-. rewrite map_map, (nth_map (fun f => nth (nearest_ind (b_freqs b) f) (b_band b) 0) freqs i 0 0) by exact I.
      rewrite E, nearest_own by assumption. reflexivity.
    + destruct (_ =? 1)%nat; [discriminate|]. destruct (_ || _); [discriminate|]. injection H as _ <-.
      rewrite (nth_map (lin (b_freqs b) (fun j => nth j (b_band b) 0)) freqs i 0 0) by exact I. rewrite E.
      apply (lin_own (b_freqs b) (fun j => nth j (b_band b) 0)); assumption.
  - intros a p x. rewrite (interp_freq_img _ _ _ _ _ H) by exact I. rewrite E. apply img_own; assumption.
Qed.
Print Assumptions C99_own.

(** Interpolation from one frequency or to a frequency outside of the range is refused. *)
Theorem C99_refused : forall b tol freqs, ~ all_close (b_freqs b) tol freqs ->
  (length (b_freqs b) = 1%nat \/ ~ (forall f, In f freqs -> in_range (b_freqs b) f)) ->
  interp_freqs b Linear tol freqs = Err ValueError.
Proof.
  intros b tol freqs NC H. unfold interp_freqs, at_freqs. rewrite (proj2 (effective b Linear tol freqs) NC).
  unfold interp_freq. destruct (_ =? 1)%nat eqn:E1; [reflexivity|]. apply Nat.eqb_neq in E1.
  destruct (_ || _) eqn:E2; [reflexivity|]. exfalso. destruct H as [H|H]; [contradiction|]. apply H, range_check_in, E2.
Qed.
Print Assumptions C99_refused.

(** At directions: each entry is the spline through one image, that of its axis and frequency and of
    the requested polarization. [data] are the values at the frequencies, as above, or the data of the beam. *)
Theorem C99_directions : forall opts (spline : opts -> list Qc -> Qc * Qc -> Qc) b saved c, c_reuse c = false ->
  NoDup (b_freqs b) -> (forall l, c_pols c = Some l -> forall p, In p l -> In p (b_pols b)) ->
  forall data fs band, at_freqs b (c_kind c) (c_tol c) (c_freqs c) = Ok (data, fs, band) ->
  exists out n saved', interp spline b saved c = Ok (out, n, fs, band, saved') /\
  (n = if b_power b then match c_pols c with Some l => length l | None => length (b_pols b) end else b_nfeeds b) /\
  forall a p i, (a < b_naxes b)%nat -> (p < n)%nat -> (i < length fs)%nat ->
  exists j, out (a, p, i) = map (through spline (c_opts c) (b_npix b) (data a j i)) (c_points c) /\
    match b_power b, c_pols c with
    | true, Some l => (j < length (b_pols b))%nat /\ nth j (b_pols b) 0%Z = nth p l 0%Z
    | _, _ => j = p
    end.
Proof.
  intros opts spline b saved c R ND HP data fs band A.
  assert (P : exists inds, pol_inds b (c_pols c) = Ok inds /\
    (length inds = if b_power b then match c_pols c with Some l => length l | None => length (b_pols b) end else b_nfeeds b) /\
    forall p, (p < length inds)%nat -> match b_power b, c_pols c with
    | true, Some l => (nth p inds 0 < length (b_pols b))%nat /\ nth (nth p inds 0%nat) (b_pols b) 0%Z = nth p l 0%Z
    | _, _ => nth p inds 0%nat = p end).
  { unfold pol_inds. destruct (b_power b).
    - destruct (c_pols c) as [l|] eqn:El.
      + specialize (HP l eq_refl). clear El. induction l as [|x l IH].
        * exists []. split; [reflexivity|]. split; [reflexivity|]. cbn. intros; lia.
        * destruct IH as (inds & E & L & H); [intros p I; apply HP; right; exact I|].
          cbn [mapM]. destruct (index_of Z.eqb x (b_pols b)) as [i|] eqn:Ei.
          -- rewrite E. cbn [bind]. exists (i :: inds). split; [reflexivity|]. split; [cbn; lia|].
             destruct (index_of_Some _ Z.eqb_eq 0%Z _ _ _ Ei) as (B & N & _).
             intros [|p] Lp; cbn [nth]; [split; assumption|]. apply H. cbn in Lp. lia.
          -- exfalso. apply (index_of_None _ Z.eqb_eq) in Ei. apply Ei, HP. left. reflexivity.
      + exists (seq 0 (length (b_pols b))). rewrite seq_length. split; [reflexivity|]. split; [reflexivity|]. intros p Lp. apply seq_nth, Lp.
    - exists (seq 0 (b_nfeeds b)). rewrite seq_length. split; [reflexivity|]. split; [reflexivity|]. intros p Lp. apply seq_nth, Lp. }
  destruct P as (inds & EP & LP & HPi).
  assert (St : steady Nearest (c_opts c) b c) by (intros R'; rewrite R in R'; discriminate).
  unfold interp. rewrite A. cbn [bind]. rewrite EP. cbn [bind].
  pose proof (loop_spec spline) as LS.
  assert (G : forall l st q, fst (fold_left (round spline b c data fs inds) l st) q = if existsb (position_eqb q) l then entry spline b c data inds q else fst st q).
  { induction l as [|[[a p] i] l IH]; intros st q; cbn [fold_left existsb]; [reflexivity|]. rewrite IH. unfold round at 1. rewrite R. cbn [fst].
    destruct (position_eqb q (a, p, i)) eqn:Q; cbn [orb]; [|reflexivity]. apply position_eqb_eq in Q. subst q. destruct (existsb _ l); reflexivity. }
  eexists _, _, _. split; [reflexivity|]. split; [exact LP|]. intros a p i La Lp Li. exists (nth p inds 0%nat). split; [|apply HPi, Lp].
  rewrite G. replace (existsb (position_eqb (a, p, i)) (positions (b_naxes b) (length inds) (length fs))) with true; [reflexivity|].
  symmetry. apply existsb_exists. exists (a, p, i). split; [apply positions_In; lia|apply position_eqb_eq; reflexivity].
Qed.
Print Assumptions C99_directions.

(** A polarization the beam does not have is refused. *)
Theorem C99_unknown : forall opts (spline : opts -> list Qc -> Qc * Qc -> Qc) b saved c l p, b_power b = true -> c_pols c = Some l -> In p l -> ~ In p (b_pols b) ->
  interp spline b saved c = Err ValueError.
Proof.
  intros opts spline b saved c l p B E I N. unfold interp.
  assert (A : forall e, at_freqs b (c_kind c) (c_tol c) (c_freqs c) = Err e -> e = ValueError).
  { intros e. unfold at_freqs, interp_freq. destruct (c_freqs c) as [fs|]; [|discriminate]. destruct (effective_kind _ _ _ _); [discriminate|].
    destruct (_ =? 1)%nat; [intros [= <-]; reflexivity|]. destruct (_ || _); [intros [= <-]; reflexivity|discriminate]. }
  destruct (at_freqs b (c_kind c) (c_tol c) (c_freqs c)) as [[[data fs] band]|e]; [|rewrite (A e eq_refl); reflexivity]. cbn [bind].
  unfold pol_inds. rewrite B, E.
  match goal with |- context [mapM ?f l] => assert (M : mapM f l = Err ValueError) end.
  { clear E. induction l as [|x l IH]; [contradiction|]. cbn [mapM]. destruct (index_of Z.eqb x (b_pols b)) as [i|] eqn:Ei; [|reflexivity]. cbn [bind].
    destruct I as [->|I]; [|rewrite (IH I); reflexivity]. exfalso. apply N. destruct (index_of_Some _ Z.eqb_eq 0%Z _ _ _ Ei) as (L & X & _). rewrite <- X. apply nth_In, L. }
  rewrite M. reflexivity.
Qed.
Print Assumptions C99_unknown.

(** A new object on a grid: its pixel (z, a) is at the zenith angle z and azimuth a of its axes. *)
Theorem C99_grid : forall opts (spline : opts -> list Qc -> Qc * Qc -> Qc) b saved c az za, c_reuse c = false ->
  NoDup (b_freqs b) -> c_pols c = None ->
  forall data fs band, at_freqs b (c_kind c) (c_tol c) (c_freqs c) = Ok (data, fs, band) ->
  exists b' saved', interp_grid spline b saved c az za = Ok (b', saved') /\ b_axis1 b' = az /\ b_axis2 b' = za /\ b_freqs b' = fs /\ b_pols b' = b_pols b /\
  (c_freqs c = None -> b_band b' = b_band b) /\ (forall l, band = Array l -> b_band b' = l) /\
  forall ax p i z a, (ax < b_naxes b)%nat -> (p < if b_power b then length (b_pols b) else b_nfeeds b)%nat -> (i < length fs)%nat ->
    (z < length za)%nat -> (a < length az)%nat ->
    b_data b' ax p i (z * length az + a)%nat = through spline (c_opts c) (b_npix b) (data ax p i) (nth z za 0, nth a az 0).
Proof.
  intros opts spline b saved c az za R ND HP data fs band A. unfold interp_grid.
  set (c' := {| c_freqs := c_freqs c; c_kind := c_kind c; c_tol := c_tol c; c_pols := c_pols c; c_points := grid az za; c_reuse := c_reuse c; c_opts := c_opts c |}).
  destruct (C99_directions opts spline b saved c' R ND) with (data := data) (fs := fs) (band := band) as (out & n & s' & E & N & H).
  - cbn. rewrite HP. discriminate.
  - exact A.
  - rewrite E. cbn [bind]. cbn [c' c_pols c_freqs] in N, H. rewrite HP in N, H.
    replace (b_power b && negb (n =? length (b_pols b))%nat) with false.
    + eexists _, _. split; [reflexivity|]. cbn [b_axis1 b_axis2 b_freqs b_pols b_band b_data]. repeat (split; [reflexivity|]).
      split; [|split].
      * intros F. unfold at_freqs in A. rewrite F in A. injection A as _ _ <-. reflexivity.
      * intros l ->. reflexivity.
      * intros ax p i z a Lx Lp Li Lz La. destruct (H ax p i Lx) as (j & Ho & Ej); [rewrite N; exact Lp|exact Li|].
        assert (j = p) by (destruct (b_power b); exact Ej). subst j. rewrite Ho. cbn [c' c_opts c_points].
        assert (GR : forall za z, (z < length za)%nat -> (z * length az + a < length (grid az za))%nat /\ nth (z * length az + a) (grid az za) (0, 0) = (nth z za 0, nth a az 0)).
        { clear - La. induction za as [|y za IH]; intros z Lz; [cbn in Lz; lia|]. unfold grid. cbn [flat_map]. rewrite app_length, map_length.
          destruct z as [|z].
          - split; [cbn; lia|]. rewrite app_nth1 by (rewrite map_length; cbn; lia). cbn [Nat.mul Nat.add nth].
            rewrite (nth_map (fun a => (y, a)) az a 0 (0, 0)) by exact La. reflexivity.
          - destruct (IH z) as [L1 L2]; [cbn in Lz; lia|]. fold (grid az za). split; [cbn [Nat.mul]; lia|].
            rewrite app_nth2 by (rewrite map_length; cbn [Nat.mul]; lia). rewrite map_length.
            replace (S z * length az + a - length az)%nat with (z * length az + a)%nat by (cbn [Nat.mul]; lia). exact L2. }
        destruct (GR za z Lz) as [L1 L2]. rewrite (nth_map (through spline (c_opts c) (b_npix b) (data ax p i)) (grid az za) _ (0, 0) (0, 0)) by exact L1. rewrite L2. reflexivity.
    + destruct (b_power b); [|reflexivity]. subst n. rewrite Nat.eqb_refl. reflexivity.
Qed.
Print Assumptions C99_grid.

(** Saved splines: after any history of calls on an object, a call gives what it gives without
    them, if all calls that save or reuse splines have the same options and, except at frequencies of
    the beam, the same kind of interpolation in frequency. *)
Theorem C99_reuse : forall opts (spline : opts -> list Qc -> Qc * Qc -> Qc) b m o hist c, NoDup (b_freqs b) ->
  Forall (consistent m o b) hist -> consistent m o b c ->
  same_result (interp spline b (fold_left (after spline b) hist []) c) (interp spline b [] (without_reuse c)).
Proof.
  intros opts spline b m o hist c ND F Hc.
  assert (ST : forall x, consistent m o b x -> steady m o b x).
  { intros x H R. destruct (H R) as [Eo X]. split; [exact Eo|]. destruct (c_freqs x) as [fs|]; [|exact I].
    destruct X as [X|[[-> [X|X]]|(-> & X & Y)]]; [left; exact X|right|right|right].
    - rewrite X. unfold effective_kind. destruct (existsb _ _); reflexivity.
    - apply effective, X.
    - rewrite <- X. apply effective, Y. }
  assert (G0 : good spline m o b []) by (intros f p a g H; discriminate H).
  assert (G : good spline m o b (fold_left (after spline b) hist [])).
  { apply history; [exact ND| |exact G0]. eapply Forall_impl; [|exact F]. exact ST. }
  assert (Sw : steady m o b (without_reuse c)) by (intros R; discriminate R).
  pose proof (interp_spec spline m o b _ c ND (ST c Hc) G) as X1.
  pose proof (interp_spec spline m o b _ (without_reuse c) ND Sw G0) as X2.
  cbn [without_reuse c_kind c_tol c_freqs c_pols] in X2.
  destruct (at_freqs b (c_kind c) (c_tol c) (c_freqs c)) as [[[data fs] band]|e]; [|rewrite X1, X2; reflexivity].
  destruct (pol_inds b (c_pols c)) as [inds|e]; [|rewrite X1, X2; reflexivity].
  destruct X1 as (out & s & -> & _ & I1 & O1), X2 as (out' & s' & -> & _ & I2 & O2). cbn [same_result].
  split; [|repeat split; reflexivity]. intros [[a p] i].
  destruct (lt_dec a (b_naxes b)) as [La|La]; [|rewrite O1, O2 by lia; reflexivity].
  destruct (lt_dec p (length inds)) as [Lp|Lp]; [|rewrite O1, O2 by lia; reflexivity].
  destruct (lt_dec i (length fs)) as [Li|Li]; [|rewrite O1, O2 by lia; reflexivity].
  rewrite I1, I2 by assumption. reflexivity.
Qed.
Print Assumptions C99_reuse.

(** A beam with two polarizations and two frequencies (listed from high to low), one axis and two pixels. *)
Definition z (x : Z) : Qc := Q2Qc (inject_Z x).
Definition beam1 : beam :=
  {| b_power := true; b_freqs := [z 20; z 10]; b_pols := [-5; -6]%Z; b_nfeeds := 2; b_naxes := 1; b_npix := 2; b_axis1 := [z 0; z 1]; b_axis2 := [z 0];
     b_data := fun a p i x => (z (Z.of_nat (100 * p + 10 * i + x)), z 0); b_band := [z 1; z 3] |}.
Definition first_value (o : unit) (image : list Qc) (q : Qc * Qc) : Qc := nth 0 image 0.
Definition request (fs : option (list Qc)) (pols : option (list Z)) : call :=
  {| c_freqs := fs; c_kind := Linear; c_tol := z 2; c_pols := pols; c_points := [(z 0, z 0)]; c_reuse := true; c_opts := tt |}.
Definition values (r : result ((position -> list C) * nat * list Qc * bandpass * cache)) (q : position) : list Q :=
  match r with Ok (out, _, _, _, _) => map (fun v => this (fst v)) (out q) | Err _ => [] end.

Example C99_example :
  NoDup (b_freqs beam1) /\ all_close (b_freqs beam1) (z 2) [z 11; z 20] /\ ~ all_close (b_freqs beam1) (z 2) [z 15; z 20] /\
  (forall f, In f [z 15; z 20] -> in_range (b_freqs beam1) f) /\ ~ in_range (b_freqs beam1) (z 25) /\
  match interp_freqs beam1 Linear (z 2) [z 15; z 20] with Ok b => map this (b_band b) = [2; 1]%Q /\ this (fst (b_data b 0 1 0 0)%nat) = 105%Q | Err _ => False end /\
  values (interp first_value beam1 [] (request (Some [z 11]) None)) (0, 1, 0)%nat = [110%Q].
Proof.
  assert (D : z 20 <> z 10) by (intros E; apply (f_equal this) in E; discriminate).
  split. { constructor; [intros [E|[]]; symmetry in E; contradiction|]. constructor; [intros []|constructor]. }
  split. { intros f [<-|[<-|[]]]; [exists (z 10)|exists (z 20)]; (split; [cbn; auto|split; reflexivity]). }
  split. { intros H. destruct (H (z 15)) as (x & [<-|[<-|[]]] & W1 & W2); [left; reflexivity|discriminate W1|discriminate W2]. }
  split. { intros f [<-|[<-|[]]]; (split; [exists (z 10)|exists (z 20)]); (split; [cbn; auto|]); apply qle_iff; reflexivity. }
  split. { intros [_ (x & [<-|[<-|[]]] & L)]; apply qle_iff in L; discriminate. }
  split; [vm_compute; split; reflexivity|]. vm_compute. reflexivity.
Qed.

Example C99_unknown_example : In (-7)%Z [-5; -7]%Z /\ ~ In (-7)%Z (b_pols beam1) /\ interp first_value beam1 [] (request None (Some [-5; -7]%Z)) = Err ValueError.
Proof. split; [right; left; reflexivity|]. split; [intros [H|[H|[]]]; discriminate|reflexivity]. Qed.

Example C99_reuse_example :
  Forall (consistent Nearest tt beam1) [request None None; request (Some [z 11; z 20]) (Some [-6]%Z)] /\
  consistent Nearest tt beam1 (request (Some [z 11]) (Some [-6; -5]%Z)) /\
  consistent Linear tt beam1 (request (Some [z 15; z 20]) None) /\
  length (fold_left (after first_value beam1) [request None None; request (Some [z 11; z 20]) (Some [-6]%Z)] []) = 5%nat /\
  at_freqs beam1 Linear (z 2) None = Ok (b_data beam1, [z 20; z 10], Scalar (z 1)).
Proof.
  destruct C99_example as (_ & AC & NC & _).
  split; [|split; [|split; [|split]]].
  - constructor; [intros _; split; [reflexivity|exact I]|]. constructor; [|constructor]. intros _. split; [reflexivity|]. right. left. split; [reflexivity|]. right. exact AC.
  - intros _. split; [reflexivity|]. right. left. split; [reflexivity|]. right. intros f [<-|[]]. apply AC. left. reflexivity.
  - intros _. split; [reflexivity|]. right. right. split; [reflexivity|]. split; [reflexivity|exact NC].
  - vm_compute. reflexivity.
  - reflexivity.
Qed.

(** Saved splines are not keyed by the kind of interpolation, which depends on the other
    frequencies of a call: a call can get the nearest beam where it would interpolate. *)
Theorem C99_reuse_refuted : exists b c1 c2, NoDup (b_freqs b) /\ c_kind c1 = c_kind c2 /\ c_tol c1 = c_tol c2 /\ c_opts c1 = c_opts c2 /\
  ~ same_result (interp first_value b (after first_value b [] c1) c2) (interp first_value b [] (without_reuse c2)).
Proof.
  exists beam1, (request (Some [z 11]) None), (request (Some [z 11; z 15]) None). split; [exact (proj1 C99_example)|]. split; [reflexivity|]. split; [reflexivity|]. split; [reflexivity|].
  intros H.
  assert (E : values (interp first_value beam1 (after first_value beam1 [] (request (Some [z 11]) None)) (request (Some [z 11; z 15]) None)) (0, 0, 0)%nat =
              values (interp first_value beam1 [] (without_reuse (request (Some [z 11; z 15]) None))) (0, 0, 0)%nat).
  { unfold same_result in H. unfold values. destruct (interp _ _ _ (request (Some [z 11; z 15]) None)) as [[[[[? ?] ?] ?] ?]|]; destruct (interp _ _ _ (without_reuse _)) as [[[[[? ?] ?] ?] ?]|]; try contradiction; [|reflexivity].
    destruct H as [H _]. rewrite H. reflexivity. }
  vm_compute in E. discriminate E.
Qed.
Print Assumptions C99_reuse_refuted.

(** Selecting polarizations keeps the saved splines, whose keys count the polarizations before the
    selection: the second polarization, selected, is interpolated as the first. *)
Theorem C99_select_refuted : exists b c pols, NoDup (b_freqs b) /\ c_freqs c = None /\
  ~ same_result (interp first_value (select_pols b pols) (after first_value b [] c) c) (interp first_value (select_pols b pols) [] (without_reuse c)).
Proof.
  exists beam1, (request None None), [-6]%Z. split; [exact (proj1 C99_example)|]. split; [reflexivity|].
  intros H.
  assert (E : values (interp first_value (select_pols beam1 [-6]%Z) (after first_value beam1 [] (request None None)) (request None None)) (0, 0, 0)%nat =
              values (interp first_value (select_pols beam1 [-6]%Z) [] (without_reuse (request None None))) (0, 0, 0)%nat).
  { unfold same_result in H. unfold values. destruct (interp _ _ _ (request None None)) as [[[[[? ?] ?] ?] ?]|]; destruct (interp _ _ _ (without_reuse _)) as [[[[[? ?] ?] ?] ?]|]; try contradiction; [|reflexivity].
    destruct H as [H _]. rewrite H. reflexivity. }
  vm_compute in E. discriminate E.
Qed.
Print Assumptions C99_select_refuted.

(** Without frequencies the bandpass returned is the number of the first frequency, not the array. *)
Theorem C99_bandpass_refuted : exists b c, length (b_band b) = length (b_freqs b) /\
  match interp first_value b [] c with Ok (_, _, fs, band, _) => length fs = 2%nat /\ (forall l, band <> Array l) /\ (exists x, band = Scalar x) | Err _ => False end.
Proof. exists beam1, (request None None). split; [reflexivity|]. cbn -[z round positions]. split; [reflexivity|]. split; [discriminate|]. eexists. reflexivity. Qed.
Print Assumptions C99_bandpass_refuted.

(** A new object keeps the polarizations of the beam, in its order, whatever order of them was
    requested: data of one polarization get the label of another. *)
Theorem C99_polarizations_refuted : exists b c az za b' s, c_pols c = Some [-6; -5]%Z /\ interp_grid first_value b [] c az za = Ok (b', s) /\
  b_pols b' = [-5; -6]%Z /\ b_pols b = [-5; -6]%Z /\ this (fst (b_data b 0 0 0 0)%nat) = 0%Q /\ this (fst (b_data b' 0 0 0 0)%nat) = 100%Q.
Proof.
  exists beam1, (request None (Some [-6; -5]%Z)), [z 0], [z 0]. eexists _, _. split; [reflexivity|]. split; [reflexivity|].
  cbn [b_pols]. split; [reflexivity|]. split; [reflexivity|]. split; vm_compute; reflexivity.
Qed.
Print Assumptions C99_polarizations_refuted.
