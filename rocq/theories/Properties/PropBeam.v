(** C75-C77: power beams, pseudo-Stokes beams, peak normalization and beam areas. *)
From Coq Require Import List ZArith Reals Bool Arith String Lia Lra.
From Verif Require Import Lib.Py Model.Pol Model.Phase Model.Beam Spec.BeamSpec
  Proofs.BeamPower Proofs.BeamStokes Proofs.BeamPeak Proofs.BeamCases.
Import ListNotations.
Open Scope list_scope.
Open Scope R_scope.
Notation length := List.length.

(** * C75: power *)
(** The power beam has one polarization for each wanted product of feeds, labelled with
    its number, and its value is the Hermitian product of the fields of the two feeds on
    the sky. *)
Theorem C75_power : forall cross b feeds bv, field_beam b feeds -> good_feeds (b_xo b) feeds -> b_nvec b = 2%nat -> b_basis b = Some bv ->
  exists b', efield_to_power cross false b = (b', None) /\ b_type b' = "power"%string /\ b_nvec b' = 1%nat /\
    (exists pols, b_pols b' = Some pols /\ b_npols b' = Some (length pols) /\ NoDup pols /\
       forall n, In n pols <-> exists f g, product_of cross feeds f g /\ label (b_xo b) feeds f g = Some n) /\
    same_frame b b' /\
    forall f g n, product_of cross feeds f g -> label (b_xo b) feeds f g = Some n -> forall k x z,
      beam_at b' n 0 k x z <-> z = herm 2 (sky_field b bv f k x) (sky_field b bv g k x).
Proof.
  intros cross b feeds bv H1 H2 H3 H4. destruct (power_at cross false b feeds bv H1 H2 (or_intror (conj H3 H4))) as (b' & A & B & C & D & E & F).
  exists b'. do 5 (split; [assumption|]). intros f g n Hp Hl k x z. exact (F f g n Hp Hl 0%nat k x z).
Qed.
Print Assumptions C75_power.
Example C75_power_case : field_beam skew ["n"; "e"]%string /\ good_feeds (b_xo skew) ["n"; "e"]%string /\ b_nvec skew = 2%nat /\ b_basis skew = Some axes /\
  exists b', efield_to_power true false skew = (b', None) /\ b_pols b' = Some [-6; -5; -8; -7]%Z /\
  beam_at b' (-6) 0 0 0 (2, 0) /\ beam_at b' (-5) 0 0 0 (4, 0) /\ beam_at b' (-8) 0 0 0 (0, 2) /\ beam_at b' (-7) 0 0 0 (0, -2).
Proof. split; [apply made_field|]. split; [exact two_feeds|]. split; [reflexivity|]. split; [reflexivity|]. exact skew_power. Qed.

(** With keep_basis_vector the products are taken component by component. *)
Theorem C75_keep : forall cross b feeds, field_beam b feeds -> good_feeds (b_xo b) feeds ->
  exists b', efield_to_power cross true b = (b', None) /\ b_nvec b' = b_nvec b /\ b_type b' = "power"%string /\ same_frame b b' /\
    forall f g n, product_of cross feeds f g -> label (b_xo b) feeds f g = Some n -> forall v k x z,
      beam_at b' n v k x z <-> z = cx_mul (b_data b v f k x) (cx_conj (b_data b v g k x)).
Proof.
  intros cross b feeds H1 H2. destruct (power_at cross true b feeds axes H1 H2 (or_introl eq_refl)) as (b' & A & B & C & D & E & F).
  exists b'. do 4 (split; [assumption|]). exact F.
Qed.
Print Assumptions C75_keep.
Example C75_keep_case : field_beam skew ["n"; "e"]%string /\ good_feeds (b_xo skew) ["n"; "e"]%string.
Proof. split; [apply made_field|exact two_feeds]. Qed.

(** Automatic products are real and not negative, the two cross products are conjugate,
    and they are bounded by the automatic ones. *)
Theorem C75_hermitian : forall b feeds bv b' f g aa ac ca cc k x zaa zac zca zcc,
  field_beam b feeds -> good_feeds (b_xo b) feeds -> b_nvec b = 2%nat -> b_basis b = Some bv ->
  efield_to_power true false b = (b', None) -> (f < length feeds)%nat -> (g < length feeds)%nat ->
  label (b_xo b) feeds f f = Some aa -> label (b_xo b) feeds f g = Some ac -> label (b_xo b) feeds g f = Some ca -> label (b_xo b) feeds g g = Some cc ->
  beam_at b' aa 0 k x zaa -> beam_at b' ac 0 k x zac -> beam_at b' ca 0 k x zca -> beam_at b' cc 0 k x zcc ->
  (snd zaa = 0 /\ 0 <= fst zaa) /\ zca = cx_conj zac /\ norm2 zac <= fst zaa * fst zcc.
Proof.
  intros b feeds bv b' f g aa ac ca cc k x zaa zac zca zcc H1 H2 H3 H4 E Hf Hg L1 L2 L3 L4 B1 B2 B3 B4.
  destruct (power_at true false b feeds bv H1 H2 (or_intror (conj H3 H4))) as (b2 & E2 & _ & _ & _ & _ & V). rewrite E in E2. injection E2 as <-.
  apply (V f f aa) in B1; [|split; [assumption|split; [assumption|left; reflexivity]]|assumption].
  apply (V f g ac) in B2; [|split; [assumption|split; [assumption|left; reflexivity]]|assumption].
  apply (V g f ca) in B3; [|split; [assumption|split; [assumption|left; reflexivity]]|assumption].
  apply (V g g cc) in B4; [|split; [assumption|split; [assumption|left; reflexivity]]|assumption].
  unfold value_of, power_of in *. subst. split; [split; apply herm_self|]. split; [apply herm_conj|apply schwarz].
Qed.
Print Assumptions C75_hermitian.
Example C75_hermitian_case : exists b', efield_to_power true false skew = (b', None) /\ label (b_xo skew) ["n"; "e"]%string 0 1 = Some (-8)%Z /\
  beam_at b' (-8) 0 0 0 (0, 2) /\ beam_at b' (-7) 0 0 0 (0, -2).
Proof. destruct skew_power as (b' & E & _ & _ & _ & A & B). exists b'. split; [exact E|]. split; [reflexivity|]. split; assumption. Qed.

(** Fields that are the same on the sky give the same power, whatever basis they are in. *)
Theorem C75_same_sky : forall cross b c feeds bv cv b' c' f g n k x z, field_beam b feeds -> field_beam c feeds -> b_xo c = b_xo b ->
  good_feeds (b_xo b) feeds -> b_nvec b = 2%nat -> b_nvec c = 2%nat -> b_basis b = Some bv -> b_basis c = Some cv ->
  (forall f a, (a < 2)%nat -> (f < length feeds)%nat -> sky_field b bv f k x a = sky_field c cv f k x a) ->
  efield_to_power cross false b = (b', None) -> efield_to_power cross false c = (c', None) ->
  product_of cross feeds f g -> label (b_xo b) feeds f g = Some n -> beam_at b' n 0 k x z <-> beam_at c' n 0 k x z.
Proof.
  intros cross b c feeds bv cv b' c' f g n k x z Hb Hc X G Vb Vc Bb Bc HS Eb Ec Hp Hl.
  assert (G' : good_feeds (b_xo c) feeds) by (rewrite X; exact G).
  destruct (power_at cross false b feeds bv Hb G (or_intror (conj Vb Bb))) as (b2 & E2 & _ & _ & _ & _ & V). rewrite Eb in E2. injection E2 as <-.
  destruct (power_at cross false c feeds cv Hc G' (or_intror (conj Vc Bc))) as (c2 & E2 & _ & _ & _ & _ & W). rewrite Ec in E2. injection E2 as <-.
  rewrite (V f g n Hp Hl 0%nat k x z). rewrite X in W. rewrite (W f g n Hp Hl 0%nat k x z).
  unfold value_of, power_of. destruct Hp as (Hf & Hg & _). rewrite !herm2. rewrite !HS by (assumption || lia). reflexivity.
Qed.
Print Assumptions C75_same_sky.
(** The components of [skew] listed in the other order, with the basis vectors *)
Definition relisted : beam := made 2 1 ["n"; "e"]%string (fun v a _ => if Nat.eqb v a then 0 else 1)
  (fun v f _ _ => match v, f with 1%nat, 0%nat => (1, 0) | 0%nat, 0%nat => (0, 1) | 0%nat, 1%nat => (2, 0) | _, _ => (0, 0) end).
Example C75_same_sky_case : field_beam relisted ["n"; "e"]%string /\ forall f a, (a < 2)%nat -> (f < 2)%nat ->
  sky_field skew axes f 0 0 a = sky_field relisted (fun v a _ => if Nat.eqb v a then 0 else 1) f 0 0 a.
Proof.
  split; [apply made_field|]. intros [|[|f]] [|[|a]] Ha Hf; try lia; unfold sky_field, skew, relisted, made, axes; cbn;
    apply cx_eq; unfold cx_add, cx_scale; cbn [fst snd]; ring.
Qed.

(** A refused conversion is not undone. *)
Theorem C75_three_vector_refuted : exists b b' e, field_beam b ["x"%string] /\ b_nvec b = 3%nat /\ efield_to_power true false b = (b', Some e) /\
  b_type b' = "power"%string /\ b_nvec b' = 1%nat /\ b_data b' = b_data b.
Proof. exact three_vector. Qed.
Print Assumptions C75_three_vector_refuted.

(** * C76: pseudo-Stokes *)
(** The beams of pI, pQ, pU and pV are the absolute values of the diagonal of the Mueller
    matrix of the Jones matrix, which is real. *)
Theorem C76_mueller : forall b f g, field_beam b [f; g] -> (2 <= b_nvec b)%nat ->
  exists b', efield_to_pstokes b = (b', None) /\ b_type b' = "power"%string /\ b_nvec b' = 1%nat /\ b_pols b' = Some [1; 2; 3; 4]%Z /\
    b_npols b' = Some 4%nat /\ same_frame b b' /\
    forall s k x z, snd (mueller s s (jones b k x)) = 0 /\
      (beam_at b' (stokes_number s) 0 k x z <-> z = of_real (Rabs (fst (mueller s s (jones b k x))))).
Proof.
  intros b f g H V. destruct (pstokes_ok b f g H (proj1 H) V) as (b' & A & B & C & D & E & F & _ & G). exists b'. do 6 (split; [assumption|]).
  intros s k x z. split; [apply mueller_real|apply G].
Qed.
Print Assumptions C76_mueller.
Example C76_mueller_case : field_beam swapped ["x"; "y"]%string /\ (2 <= b_nvec swapped)%nat /\ exists b', efield_to_pstokes swapped = (b', None) /\
  beam_at b' (stokes_number SI) 0 0 0 (1, 0).
Proof. split; [apply made_field|]. split; [apply le_n|]. destruct swapped_stokes as (b' & E & _ & _ & A). exists b'. split; assumption. Qed.

(** pI is half the total power of the two feeds, and no other beam exceeds it. *)
Theorem C76_total : forall b f g b', field_beam b [f; g] -> (2 <= b_nvec b)%nat -> efield_to_pstokes b = (b', None) ->
  forall k x zi, beam_at b' (stokes_number SI) 0 k x zi ->
  zi = of_real (1 / 2 * (norm2 (b_data b 0%nat 0%nat k x) + norm2 (b_data b 0%nat 1%nat k x) + norm2 (b_data b 1%nat 0%nat k x) + norm2 (b_data b 1%nat 1%nat k x))) /\
  forall s z, beam_at b' (stokes_number s) 0 k x z -> snd z = 0 /\ 0 <= fst z <= fst zi.
Proof.
  intros b f g b' H V E k x zi Hi. destruct (pstokes_ok b f g H (proj1 H) V) as (b2 & E2 & _ & _ & _ & _ & _ & _ & G). rewrite E in E2. injection E2 as <-.
  apply G in Hi. assert (P : 0 <= fst (mueller SI SI (jones b k x))) by (eapply Rle_trans; [apply Rabs_pos|apply (mueller_bound SI)]).
  rewrite (Rabs_right _ (Rle_ge _ _ P)) in Hi. split; [rewrite Hi, mueller_explicit; reflexivity|].
  intros s z Hz. apply G in Hz. subst. unfold of_real; cbn [fst snd]. split; [reflexivity|]. split; [apply Rabs_pos|apply mueller_bound].
Qed.
Print Assumptions C76_total.
Example C76_total_case : exists b', efield_to_pstokes swapped = (b', None) /\ beam_at b' (stokes_number SI) 0 0 0 (1, 0) /\ beam_at b' (stokes_number SQ) 0 0 0 (1, 0).
Proof. destruct swapped_stokes as (b' & E & _ & A & B). exists b'. split; [exact E|]. split; assumption. Qed.

(** With orthonormal basis vectors pI is the mean of the two automatic power beams. *)
Theorem C76_mean : forall b f g bv b1 b2 n m k x zi za zc, field_beam b [f; g] -> good_feeds (b_xo b) [f; g] -> b_nvec b = 2%nat -> b_basis b = Some bv ->
  orthonormal bv x -> efield_to_pstokes b = (b1, None) -> efield_to_power true false b = (b2, None) ->
  label (b_xo b) [f; g] 0 0 = Some n -> label (b_xo b) [f; g] 1 1 = Some m ->
  beam_at b1 (stokes_number SI) 0 k x zi -> beam_at b2 n 0 k x za -> beam_at b2 m 0 k x zc -> fst zi = (fst za + fst zc) / 2.
Proof.
  intros b f g bv b1 b2 n m k x zi za zc H G V B O E1 E2 L1 L2 Hi Ha Hc.
  destruct (power_at true false b [f; g] bv H G (or_intror (conj V B))) as (c2 & E3 & _ & _ & _ & _ & W). rewrite E2 in E3. injection E3 as <-.
  apply (W 0%nat 0%nat n) in Ha; [|split; [simpl; lia|split; [simpl; lia|left; reflexivity]]|assumption].
  apply (W 1%nat 1%nat m) in Hc; [|split; [simpl; lia|split; [simpl; lia|left; reflexivity]]|assumption].
  assert (V2 : (2 <= b_nvec b)%nat) by (rewrite V; apply le_n).
  destruct (C76_total b f g b1 H V2 E1 k x zi Hi) as [Hz _]. subst. unfold value_of. cbn [fst of_real].
  rewrite <- (mean_power b bv k x V O). rewrite mueller_explicit. reflexivity.
Qed.
Print Assumptions C76_mean.
Example C76_mean_case : field_beam skew ["n"; "e"]%string /\ (forall x, orthonormal axes x) /\ b_basis skew = Some axes.
Proof. split; [apply made_field|]. split; [exact axes_orthonormal|reflexivity]. Qed.

(** The sign of a Mueller matrix element is lost. *)
Theorem C76_sign_refuted : exists b b', field_beam b ["x"; "y"]%string /\ efield_to_pstokes b = (b', None) /\ fst (mueller SQ SQ (jones b 0 0)) = -1 /\
  beam_at b' (stokes_number SQ) 0 0 0 (1, 0).
Proof. exists swapped. destruct swapped_stokes as (b' & E & M & A & _). exists b'. split; [apply made_field|]. split; [exact E|]. split; assumption. Qed.
Print Assumptions C76_sign_refuted.

(** The basis vectors are not used, unlike in the power beam. *)
Theorem C76_basis_refuted : exists b b1 b2, field_beam b ["x"; "y"]%string /\ efield_to_pstokes b = (b1, None) /\ efield_to_power true false b = (b2, None) /\
  beam_at b1 (stokes_number SI) 0 0 0 (1, 0) /\ beam_at b2 (-5) 0 0 0 (4, 0) /\ beam_at b2 (-6) 0 0 0 (0, 0).
Proof. exists along. destruct along_differs as (b1 & b2 & A). exists b1, b2. split; [apply made_field|exact A]. Qed.
Print Assumptions C76_basis_refuted.

Theorem C76_one_feed_refuted : exists b b' e, field_beam b ["x"%string] /\ b_nvec b = 2%nat /\ b_pols b = None /\ efield_to_pstokes b = (b', Some e) /\
  b_type b' = "efield"%string /\ b_pols b' = Some [1; 2; 3; 4]%Z.
Proof. exact one_feed_stokes. Qed.
Print Assumptions C76_one_feed_refuted.

(** * C77: peak normalization and areas *)
(** Normalizing moves the largest absolute value of each frequency into the bandpass:
    gains are kept, the largest is 1, and a zero frequency is all that stops it. *)
Theorem C77_normalize : forall b, length (b_bandpass b) = b_nfreq b -> b_norm b <> "solid_angle"%string ->
  (forall k, (k < b_nfreq b)%nat -> exists v p x, in_cells b v p k x /\ b_data b v p k x <> (0, 0)) ->
  exists b', peak_normalize b = Ok b' /\ b_norm b' = "peak"%string /\
  (forall v p k x, in_cells b v p k x -> in_cells b' v p k x /\ cx_abs (b_data b' v p k x) <= 1 /\ total_gain b' v p k x = total_gain b v p k x) /\
  (forall k, (k < b_nfreq b)%nat -> exists m v p x, 0 < m /\ in_cells b v p k x /\ cx_abs (b_data b' v p k x) = 1 /\
     forall v p x, b_data b' v p k x = cx_scale (/ m) (b_data b v p k x)) /\
  b_pols b' = b_pols b /\ b_feeds b' = b_feeds b /\ b_type b' = b_type b /\ b_basis b' = b_basis b.
Proof.
  intros b L N Z. destruct (normalize_ok b N L Z) as [b' E]. exists b'. split; [exact E|].
  destruct (normalize_peak b b' L E) as [A B]. apply normalize_spec in E as (_ & C & (T & _ & _ & _ & _ & _ & _ & F & _ & P & _ & S) & D); [|exact L].
  split; [exact C|]. split; [exact A|]. split; [|do 3 (split; [assumption|]); assumption].
  intros k Hk. destruct (B k Hk) as (v & p & x & I & J). destruct (D k Hk) as (m & Pm & _ & _ & M). exists m, v, p, x. do 3 (split; [assumption|]). exact M.
Qed.
Print Assumptions C77_normalize.
Example C77_normalize_case : length (b_bandpass (flat 2)) = b_nfreq (flat 2) /\ exists b', peak_normalize (flat 2) = Ok b' /\
  b_data (flat 2) 0%nat 0%nat 0%nat 3%nat = (2, 0) /\ b_data b' 0%nat 0%nat 0%nat 3%nat = (1, 0) /\ nth 0 (b_bandpass b') 0 = 2.
Proof.
  split; [reflexivity|]. destruct (flat_normal 2) as (b' & E & _ & _ & _ & _ & _ & _ & _ & _ & _ & _ & _ & B & D); [lra|].
  exists b'. split; [exact E|]. split; [reflexivity|]. split; [apply D|exact B].
Qed.

Theorem C77_again : forall b b' b'', length (b_bandpass b) = b_nfreq b -> peak_normalize b = Ok b' -> peak_normalize b' = Ok b'' ->
  forall k, (k < b_nfreq b)%nat -> nth k (b_bandpass b'') 0 = nth k (b_bandpass b') 0 /\ forall v p x, b_data b'' v p k x = b_data b' v p k x.
Proof. exact normalize_again. Qed.
Print Assumptions C77_again.
Example C77_again_case : exists b' b'', peak_normalize (flat 2) = Ok b' /\ peak_normalize b' = Ok b''.
Proof.
  destruct (flat_normal 2) as (b' & E & T & _ & F & _ & V & _ & N & _ & X & K & _ & _ & D); [lra|]. destruct (normalize_ok b') as [b'' E''].
  - rewrite N. discriminate.
  - apply normalize_spec in E as (L & _); [rewrite L, K; reflexivity|reflexivity].
  - intros k Hk. exists 0%nat, 0%nat, 0%nat. split; [unfold in_cells, b_npol_axis; rewrite T, F, V, X, K in *; simpl in *; lia|].
    rewrite K in Hk. assert (k = 0%nat) by lia. subst k. rewrite D. intros C. injection C as C. lra.
  - exists b', b''. split; assumption.
Qed.

(** The area of a peak-normalized beam with values from 0 to 1 is their sum times the
    solid angle of a pixel; its square area is no larger, and neither exceeds the sky. *)
Theorem C77_area : forall b pol n pols w, polstr2num (b_xo b) pol = Ok n -> b_type b = "power"%string -> b_nvec b = 1%nat ->
  b_norm b = "peak"%string -> b_cs b = "healpix"%string -> (0 < b_nside b)%nat -> (b_npix b <= 12 * b_nside b ^ 2)%nat ->
  b_pols b = Some pols -> NoDup pols -> In n pols ->
  (forall k x, in_beam b k x -> beam_at b n 0 k x (of_real (w k x)) /\ 0 <= w k x <= 1) ->
  exists areas squares, get_beam_area b pol = Ok areas /\ get_beam_sq_area b pol = Ok squares /\ length areas = b_nfreq b /\ length squares = b_nfreq b /\
  forall k, (k < b_nfreq b)%nat ->
    nth k areas (0, 0) = of_real (pixel_area (b_nside b) * rsum (b_npix b) (w k)) /\
    nth k squares (0, 0) = of_real (pixel_area (b_nside b) * rsum (b_npix b) (fun x => w k x ^ 2)) /\
    0 <= fst (nth k squares (0, 0)) <= fst (nth k areas (0, 0)) /\ fst (nth k areas (0, 0)) <= 4 * PI.
Proof.
  intros b pol n pols w A1 A2 A3 A4 A5 A6 A7 P ND I W. exact (area_real b pol n A1 A2 A3 A4 A5 A6 A7 w (ex_intro _ pols (conj P ND)) W (ex_intro _ pols (conj P I))).
Qed.
Print Assumptions C77_area.
Definition half_sky : beam :=
  {| b_type := "power"; b_ant := "simple"; b_norm := "peak"; b_cs := "healpix"; b_nvec := 1; b_nfreq := 1; b_npix := 2;
     b_nside := 1; b_feeds := None; b_npols := Some 2%nat; b_pols := Some [-6; -5]%Z; b_xo := None; b_basis := None;
     b_data := fun _ p _ x => if Nat.eqb p 1 then (if Nat.eqb x 0 then (1, 0) else (1 / 2, 0)) else (0, 1); b_bandpass := [1]; b_hist := "" |}.
Example C77_area_case : polstr2num (b_xo half_sky) "xx" = Ok (-5)%Z /\ (b_npix half_sky <= 12 * b_nside half_sky ^ 2)%nat /\
  forall k x, in_beam half_sky k x -> beam_at half_sky (-5) 0 k x (of_real (if Nat.eqb x 0 then 1 else 1 / 2)) /\ 0 <= (if Nat.eqb x 0 then 1 else 1 / 2) <= 1.
Proof.
  split; [vm_compute; reflexivity|]. split; [simpl; lia|]. intros k x _. split.
  - exists [-6; -5]%Z, 1%nat. split; [reflexivity|]. split; [reflexivity|]. simpl. destruct (Nat.eqb x 0); reflexivity.
  - destruct (Nat.eqb x 0); lra.
Qed.

(** A beam normalized as a field and converted to power is still called peak normalized. *)
Theorem C77_converted_refuted : exists b b1 b2, peak_normalize b = Ok b1 /\ efield_to_power true false b1 = (b2, None) /\ b_norm b2 = "peak"%string /\
  b_data b2 0%nat 0%nat 0%nat 0%nat = (2, 0) /\ get_beam_area b2 "xx" = Ok [(8 * PI, 0)].
Proof. exact too_large. Qed.
Print Assumptions C77_converted_refuted.

(** Power times bandpass depends on whether the beam was normalized before or after. *)
Theorem C77_order_refuted : exists b b1 b2 b3 b4, peak_normalize b = Ok b1 /\ efield_to_power true false b1 = (b2, None) /\
  efield_to_power true false b = (b3, None) /\ peak_normalize b3 = Ok b4 /\
  total_gain b2 0 0 0 0 = (4, 0) /\ total_gain b3 0 0 0 0 = (8, 0) /\ total_gain b4 0 0 0 0 = (8, 0).
Proof. exact order_matters. Qed.
Print Assumptions C77_order_refuted.
