(** Concrete beams for C75-C77. *)
From Coq Require Import List ZArith Reals Bool Arith Ascii String Lia Lra Psatz.
From Verif Require Import Lib.Py Lib.Np Lib.Dict Model.Pol Model.Phase Model.Beam Spec.BeamSpec Proofs.BeamPower Proofs.BeamStokes Proofs.BeamPeak.
Import ListNotations.
Open Scope list_scope.
Open Scope R_scope.
Notation length := List.length.

Definition axes : nat -> nat -> nat -> R := fun v a _ => if Nat.eqb v a then 1 else 0.
(** A field beam with data [d]; the two parts of a complex value are both used. *)
Definition made (nvec npix : nat) (feeds : list string) (bv : nat -> nat -> nat -> R) (d : bdata) : beam :=
  {| b_type := "efield"; b_ant := "simple"; b_norm := "physical"; b_cs := "healpix"; b_nvec := nvec; b_nfreq := 1; b_npix := npix;
     b_nside := 1; b_feeds := Some feeds; b_npols := None; b_pols := None; b_xo := Some "east"%string; b_basis := Some bv;
     b_data := d; b_bandpass := [1]; b_hist := "" |}.
Lemma made_field : forall nvec npix feeds bv d, field_beam (made nvec npix feeds bv d) feeds.
Proof. intros. split; [reflexivity|]. split; [discriminate|reflexivity]. Qed.
Lemma axes_orthonormal : forall x, orthonormal axes x.
Proof. intros x. unfold orthonormal, axes. cbn [Nat.eqb]. repeat split; ring. Qed.

Lemma one_feed : good_feeds (Some "east"%string) ["x"%string].
Proof.
  split; [left; reflexivity|]. split; intros [|f] [|g] Hf Hg; simpl in Hf, Hg; try lia; try (eexists; reflexivity); reflexivity.
Qed.
Lemma two_feeds : good_feeds (Some "east"%string) ["n"%string; "e"%string].
Proof.
  split; [right; reflexivity|]. split.
  - intros [|[|f]] [|[|g]] Hf Hg; simpl in Hf, Hg; try lia; eexists; reflexivity.
  - intros [|[|f]] [|[|g]] Hf Hg; simpl in Hf, Hg; try lia; intros H; try reflexivity; vm_compute in H; discriminate.
Qed.
Lemma two_feeds_xy : good_feeds (Some "east"%string) ["x"%string; "y"%string].
Proof.
  split; [right; reflexivity|]. split.
  - intros [|[|f]] [|[|g]] Hf Hg; simpl in Hf, Hg; try lia; eexists; reflexivity.
  - intros [|[|f]] [|[|g]] Hf Hg; simpl in Hf, Hg; try lia; intros H; try reflexivity; vm_compute in H; discriminate.
Qed.

(** feed n: (1, i); feed e: (0, 2) *)
Definition skew : beam := made 2 1 ["n"; "e"]%string axes
  (fun v f _ _ => match v, f with 0%nat, 0%nat => (1, 0) | 1%nat, 0%nat => (0, 1) | 1%nat, 1%nat => (2, 0) | _, _ => (0, 0) end).

Lemma skew_power : exists b', efield_to_power true false skew = (b', None) /\ b_pols b' = Some [-6; -5; -8; -7]%Z /\
  beam_at b' (-6) 0 0 0 (2, 0) /\ beam_at b' (-5) 0 0 0 (4, 0) /\ beam_at b' (-8) 0 0 0 (0, 2) /\ beam_at b' (-7) 0 0 0 (0, -2).
Proof.
  destruct (to_power true false skew ["n"; "e"]%string axes (made_field _ _ _ _ _) two_feeds (or_intror (conj eq_refl eq_refl)))
    as (b' & pols & order & E & _ & _ & P & _).
  destruct (power_at true false skew ["n"; "e"]%string axes (made_field _ _ _ _ _) two_feeds (or_intror (conj eq_refl eq_refl)))
    as (b'' & E' & _ & _ & _ & _ & V). rewrite E in E'. injection E' as <-. exists b'. split; [exact E|].
  split.
  { clear - E. assert (G : b_pols (fst (efield_to_power true false skew)) = b_pols b') by (rewrite E; reflexivity). rewrite <- G.
    unfold efield_to_power, skew, made. cbn [b_type b_ant b_feeds String.eqb negb Ascii.eqb Bool.eqb length Nat.eqb b_xo].
    replace (do names <- mapM (pol_name ["n"; "e"]%string) (feed_pol_order 2 true); mapM (polstr2num (Some "east"%string)) names)
      with (@Ok (list Z) [-6; -5; -8; -7]%Z) by (vm_compute; reflexivity).
    match goal with |- b_pols (fst match ?c with _ => _ end) = _ => destruct c end; reflexivity. }
  assert (W : forall f g, (f < 2)%nat -> (g < 2)%nat -> product_of true ["n"; "e"]%string f g) by (intros; split; [assumption|split; [assumption|left; reflexivity]]).
  split; [|split; [|split]].
  - apply (V 0%nat 0%nat); [apply W; lia|reflexivity|]. unfold value_of, power_of. rewrite herm2. unfold sky_field, skew, made, axes. cbn.
    apply cx_eq; unfold cx_add, cx_scale, cx_mul, cx_conj; cbn [fst snd]; ring.
  - apply (V 1%nat 1%nat); [apply W; lia|reflexivity|]. unfold value_of, power_of. rewrite herm2. unfold sky_field, skew, made, axes. cbn.
    apply cx_eq; unfold cx_add, cx_scale, cx_mul, cx_conj; cbn [fst snd]; ring.
  - apply (V 0%nat 1%nat); [apply W; lia|reflexivity|]. unfold value_of, power_of. rewrite herm2. unfold sky_field, skew, made, axes. cbn.
    apply cx_eq; unfold cx_add, cx_scale, cx_mul, cx_conj; cbn [fst snd]; ring.
  - apply (V 1%nat 0%nat); [apply W; lia|reflexivity|]. unfold value_of, power_of. rewrite herm2. unfold sky_field, skew, made, axes. cbn.
    apply cx_eq; unfold cx_add, cx_scale, cx_mul, cx_conj; cbn [fst snd]; ring.
Qed.

(** * What goes wrong *)
(** Three-vector fields are refused, but only after the object calls itself a power beam. *)
Lemma three_vector : exists b b' e, field_beam b ["x"%string] /\ b_nvec b = 3%nat /\ efield_to_power true false b = (b', Some e) /\
  b_type b' = "power"%string /\ b_nvec b' = 1%nat /\ b_data b' = b_data b.
Proof.
  exists (made 3 1 ["x"%string] axes (fun _ _ _ _ => (1, 0))). unfold efield_to_power, made.
  cbn [b_type b_ant b_feeds String.eqb negb Ascii.eqb Bool.eqb length Nat.eqb b_xo].
  replace (do names <- mapM (pol_name ["x"%string]) (feed_pol_order 1 false); mapM (polstr2num (Some "east"%string)) names)
      with (@Ok (list Z) [-5]%Z) by (vm_compute; reflexivity).
  eexists. eexists. split; [apply made_field|]. split; [reflexivity|]. split; [reflexivity|]. repeat split.
Qed.

(** With one feed the pseudo-Stokes conversion fails after replacing the polarizations. *)
Lemma one_feed_stokes : exists b b' e, field_beam b ["x"%string] /\ b_nvec b = 2%nat /\ b_pols b = None /\ efield_to_pstokes b = (b', Some e) /\
  b_type b' = "efield"%string /\ b_pols b' = Some [1; 2; 3; 4]%Z.
Proof.
  exists (made 2 1 ["x"%string] axes (fun _ _ _ _ => (1, 0))). unfold efield_to_pstokes. rewrite pstokes_table.
  cbn. eexists. eexists. split; [apply made_field|]. do 2 (split; [reflexivity|]). split; [reflexivity|]. split; reflexivity.
Qed.

(** Swapped feeds: M_QQ = -1, reported as 1. *)
Definition swapped : beam := made 2 1 ["x"; "y"]%string axes (fun v f _ _ => if Nat.eqb v f then (0, 0) else (1, 0)).
Lemma swapped_stokes : exists b', efield_to_pstokes swapped = (b', None) /\ fst (mueller SQ SQ (jones swapped 0 0)) = -1 /\
  beam_at b' (stokes_number SQ) 0 0 0 (1, 0) /\ beam_at b' (stokes_number SI) 0 0 0 (1, 0).
Proof.
  destruct (pstokes_ok swapped "x" "y" (made_field _ _ _ _ _) eq_refl (le_n 2)) as (b' & E & _ & _ & _ & _ & _ & _ & V).
  exists b'. split; [exact E|].
  assert (M : fst (mueller SQ SQ (jones swapped 0 0)) = -1). { rewrite mueller_explicit. unfold jones, swapped, made, norm2. cbn. lra. }
  split; [exact M|]. split; apply V.
  - rewrite M. unfold of_real. f_equal. rewrite Rabs_left by lra. lra.
  - rewrite mueller_explicit. unfold jones, swapped, made, norm2. cbn. unfold of_real. f_equal. rewrite Rabs_right by lra. lra.
Qed.

(** Both components along the same axis: the power is (1+1)^2, the pseudo-Stokes I beam
    ignores it. *)
Definition along : beam := made 2 1 ["x"; "y"]%string (fun _ a _ => if Nat.eqb a 0 then 1 else 0) (fun _ f _ _ => if Nat.eqb f 0 then (1, 0) else (0, 0)).
Lemma along_differs : exists b1 b2, efield_to_pstokes along = (b1, None) /\ efield_to_power true false along = (b2, None) /\
  beam_at b1 (stokes_number SI) 0 0 0 (1, 0) /\ beam_at b2 (-5) 0 0 0 (4, 0) /\ beam_at b2 (-6) 0 0 0 (0, 0).
Proof.
  destruct (pstokes_ok along "x" "y" (made_field _ _ _ _ _) eq_refl (le_n 2)) as (b1 & E1 & _ & _ & _ & _ & _ & _ & V1).
  destruct (power_at true false along ["x"; "y"]%string (fun _ a _ => if Nat.eqb a 0 then 1 else 0) (made_field _ _ _ _ _) two_feeds_xy (or_intror (conj eq_refl eq_refl)))
    as (b2 & E2 & _ & _ & _ & _ & V2).
  exists b1, b2. split; [exact E1|]. split; [exact E2|]. split; [|split].
  - apply V1. rewrite mueller_explicit. unfold jones, along, made, norm2. cbn. unfold of_real. f_equal. rewrite Rabs_right by lra. lra.
  - apply (V2 0%nat 0%nat); [split; [simpl; lia|split; [simpl; lia|left; reflexivity]]|reflexivity|].
    unfold value_of, power_of. rewrite herm2. unfold sky_field, along, made. cbn. apply cx_eq; unfold cx_add, cx_scale, cx_mul, cx_conj; cbn [fst snd]; ring.
  - apply (V2 1%nat 1%nat); [split; [simpl; lia|split; [simpl; lia|left; reflexivity]]|reflexivity|].
    unfold value_of, power_of. rewrite herm2. unfold sky_field, along, made. cbn. apply cx_eq; unfold cx_add, cx_scale, cx_mul, cx_conj; cbn [fst snd]; ring.
Qed.

(** * Normalization and conversion in both orders *)
Definition flat (r : R) : beam := made 2 12 ["x"%string] axes (fun _ _ _ _ => (r, 0)).
Lemma flat_normal : forall r, 0 < r -> exists b', peak_normalize (flat r) = Ok b' /\ b_type b' = "efield"%string /\ b_ant b' = "simple"%string /\
  b_feeds b' = Some ["x"%string] /\ b_xo b' = Some "east"%string /\ b_nvec b' = 2%nat /\ b_basis b' = Some axes /\ b_norm b' = "peak"%string /\
  b_cs b' = "healpix"%string /\ b_npix b' = 12%nat /\ b_nfreq b' = 1%nat /\ b_nside b' = 1%nat /\
  nth 0 (b_bandpass b') 0 = r /\ forall v p x, b_data b' v p 0%nat x = (1, 0).
Proof.
  intros r Hr. destruct (normalize_ok (flat r)) as [b' E]; [discriminate|reflexivity| |].
  - intros k Hk. exists 0%nat, 0%nat, 0%nat. split; [unfold in_cells, b_npol_axis; simpl; simpl in Hk; lia|]. simpl. unfold cx0. intros C. injection C as C. lra.
  - exists b'. split; [exact E|]. pose proof E as E0. apply normalize_spec in E as (_ & N & (T & A & C & V & F & X & S & FE & _ & _ & XO & B) & Hk); [|reflexivity].
    destruct (Hk 0%nat) as (m & Pm & P & B1 & B2); [simpl; lia|].
    assert (m = r) as ->.
    { destruct P as [_ (v & p & x & _ & _ & _ & <-)]. simpl. unfold cx_abs; cbn [fst snd]. replace (r * r + 0 * 0) with (r * r) by ring. apply sqrt_square. lra. }
    rewrite T, A, FE, XO, V, B, N, C, X, F, S. do 11 (split; [reflexivity|]). split.
    + rewrite B1. simpl. ring.
    + intros v p x. rewrite B2. simpl. apply cx_eq; unfold cx_scale; cbn [fst snd]; field; lra.
Qed.

Lemma flat_converted : forall b, b_type b = "efield"%string -> b_ant b = "simple"%string -> b_feeds b = Some ["x"%string] -> b_xo b = Some "east"%string ->
  b_nvec b = 2%nat -> b_basis b = Some axes -> forall r, (forall v p x, b_data b v p 0%nat x = (r, 0)) ->
  exists b', efield_to_power true false b = (b', None) /\ b_type b' = "power"%string /\ b_nvec b' = 1%nat /\ b_pols b' = Some [-5]%Z /\ b_npols b' = Some 1%nat /\
    same_frame b b' /\ forall x, b_data b' 0%nat 0%nat 0%nat x = (2 * r ^ 2, 0).
Proof.
  intros b T A F XO V B r D.
  destruct (to_power true false b ["x"%string] axes) as (b' & pols & order & E & T' & _ & P & NP & V' & _ & SF & L & _ & HO & HV).
  - split; [exact T|]. split; [rewrite A; discriminate|exact F].
  - rewrite XO. exact one_feed.
  - right. split; assumption.
  - assert (order = [(0, 0)]%nat) as ->.
    { assert (I : In (0, 0)%nat order) by (apply HO; split; [simpl; lia|split; [simpl; lia|right; reflexivity]]).
      assert (LP : (length order <= 1)%nat).
      { assert (ND : forall i j, (i < length order)%nat -> (j < length order)%nat -> i = j); [|destruct (Nat.le_gt_cases (length order) 1); [assumption|specialize (ND 0%nat 1%nat ltac:(lia) ltac:(lia)); discriminate]].
        intros i j Hi Hj. destruct (nth_error order i) as [[f g]|] eqn:Ei; [|apply nth_error_None in Ei; lia].
        destruct (nth_error order j) as [[f' g']|] eqn:Ej; [|apply nth_error_None in Ej; lia].
        pose proof (proj1 (HO f g) (nth_error_In _ _ Ei)) as (K1 & K2 & _). pose proof (proj1 (HO f' g') (nth_error_In _ _ Ej)) as (K3 & K4 & _). simpl in K1, K2, K3, K4.
        assert (f = 0%nat /\ g = 0%nat /\ f' = 0%nat /\ g' = 0%nat) as (-> & -> & -> & ->) by lia.
        clear I. destruct (HV i _ _ Ei) as (n & Ln & En & _). destruct (HV j _ _ Ej) as (n' & Ln' & En' & _). rewrite Ln in Ln'. injection Ln' as <-.
        destruct (to_power true false b ["x"%string] axes) as (b2 & pols2 & order2 & E2 & _ & _ & P2 & _ & _ & _ & _ & _ & ND & _);
          [split; [exact T|split; [rewrite A; discriminate|exact F]]|rewrite XO; exact one_feed|right; split; assumption|].
        rewrite E in E2. injection E2 as <-. rewrite P in P2. injection P2 as <-.
        apply (proj1 (NoDup_nth_error pols) ND); [apply nth_error_Some; congruence|congruence]. }
      destruct order as [|o [|o' order]]; [destruct I|destruct I as [<-|[]]; reflexivity|simpl in LP; lia]. }
    destruct (HV 0%nat 0%nat 0%nat eq_refl) as (n & Ln & En & Hz).
    assert (n = -5)%Z as -> by (rewrite XO in Ln; vm_compute in Ln; congruence).
    destruct pols as [|n pols]; [discriminate|]. destruct pols; [|simpl in L; lia]. simpl in En. injection En as ->.
    exists b'. split; [exact E|]. split; [exact T'|]. split; [exact V'|]. split; [exact P|]. split; [exact NP|]. split; [exact SF|].
    intros x. rewrite Hz. unfold value_of, power_of. rewrite herm2. unfold sky_field. rewrite V. cbn [csum]. rewrite !D. unfold axes. cbn [Nat.eqb].
    apply cx_eq; unfold cx_add, cx_scale, cx_mul, cx_conj; cbn [fst snd]; ring.
Qed.

(** A beam normalized as a field and then converted still says "peak", but it is 2
    everywhere and its area is twice the whole sky. *)
Lemma too_large : exists b b1 b2, peak_normalize b = Ok b1 /\ efield_to_power true false b1 = (b2, None) /\ b_norm b2 = "peak"%string /\
  b_data b2 0%nat 0%nat 0%nat 0%nat = (2, 0) /\ get_beam_area b2 "xx" = Ok [(8 * PI, 0)].
Proof.
  exists (flat 1). destruct (flat_normal 1) as (b1 & E1 & H1 & H2 & H3 & H4 & H5 & H6 & H7 & H8 & H9 & H10 & H11 & _ & H12); [lra|].
  destruct (flat_converted b1 H1 H2 H3 H4 H5 H6 1 H12) as (b2 & E2 & T & V & P & _ & (S1 & S2 & S3 & S4 & S5 & S6 & _) & D).
  exists b1, b2. split; [exact E1|]. split; [exact E2|]. split; [congruence|]. split; [rewrite D; f_equal; ring|].
  destruct (area_spec (fun a => a) b2 "xx" (-5)%Z 0%nat [-5]%Z) as (l & El & Ll & Vl); try assumption; try congruence; try reflexivity.
  - rewrite S6, H4. vm_compute. reflexivity.
  - repeat constructor. simpl. tauto.
  - unfold get_beam_area. rewrite El. rewrite S1, H10 in Ll, Vl. destruct l as [|a [|]]; try discriminate Ll. f_equal. f_equal.
    specialize (Vl 0%nat ltac:(lia)). simpl in Vl. rewrite Vl. rewrite S2, H9, S3, H11. 
    rewrite (map_ext _ (fun _ => (2, 0))) by (intros x; rewrite D; f_equal; ring). simpl.
    apply cx_eq; unfold cx_scale, cx_add, cx0; cbn [fst snd]; [field|ring].
Qed.

(** Power times bandpass depends on the order of the two steps. *)
Lemma order_matters : exists b b1 b2 b3 b4, peak_normalize b = Ok b1 /\ efield_to_power true false b1 = (b2, None) /\
  efield_to_power true false b = (b3, None) /\ peak_normalize b3 = Ok b4 /\
  total_gain b2 0 0 0 0 = (4, 0) /\ total_gain b3 0 0 0 0 = (8, 0) /\ total_gain b4 0 0 0 0 = (8, 0).
Proof.
  exists (flat 2). destruct (flat_normal 2) as (b1 & E1 & H1 & H2 & H3 & H4 & H5 & H6 & H7 & H8 & H9 & H10 & H11 & HB & H12); [lra|].
  destruct (flat_converted b1 H1 H2 H3 H4 H5 H6 1 H12) as (b2 & E2 & _ & _ & _ & _ & SF & D).
  destruct (flat_converted (flat 2) eq_refl eq_refl eq_refl eq_refl eq_refl eq_refl 2 (fun _ _ _ => eq_refl)) as (b3 & E3 & T3 & V3 & P3 & NP3 & SF3 & D3).
  destruct SF3 as (S1 & S2 & S3 & S4 & S5 & S6 & S7 & S8).
  assert (G3 : total_gain b3 0 0 0 0 = (8, 0)). { unfold total_gain. rewrite S8, D3. simpl. apply cx_eq; unfold cx_scale; cbn [fst snd]; ring. }
  assert (NA : b_npol_axis b3 = 1%nat) by (unfold b_npol_axis; rewrite T3, NP3; reflexivity).
  destruct (normalize_ok b3) as [b4 E4].
  - rewrite S4. discriminate.
  - rewrite S8, S1. reflexivity.
  - intros k Hk. rewrite S1 in Hk. simpl in Hk. assert (k = 0%nat) by lia. subst k. exists 0%nat, 0%nat, 0%nat. split.
    + unfold in_cells. rewrite V3, NA, S1, S2. simpl. lia.
    + rewrite D3. intros C. injection C as C. lra.
  - exists b1, b2, b3, b4. do 4 (split; [assumption|]). split; [|split; [exact G3|]].
    + unfold total_gain. destruct SF as (_ & _ & _ & _ & _ & _ & _ & ->). rewrite HB, D. apply cx_eq; unfold cx_scale; cbn [fst snd]; ring.
    + rewrite <- G3. apply (normalize_peak b3 b4); [rewrite S8, S1; reflexivity|exact E4|]. unfold in_cells. rewrite V3, NA, S1, S2. simpl. lia.
Qed.
