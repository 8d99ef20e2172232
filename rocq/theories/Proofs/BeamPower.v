(** Power beams (C75). *)
From Coq Require Import List ZArith Reals Bool Arith Ascii String Lia Lra Psatz.
From Verif Require Import Lib.Py Lib.Np Lib.Dict Model.Pol Model.Phase Model.Beam Spec.BeamSpec Proofs.SelectTotal.
Import ListNotations.
Open Scope list_scope.
Open Scope R_scope.
Notation length := List.length.

Lemma cx_eq : forall a c : cx, fst a = fst c -> snd a = snd c -> a = c.
Proof. intros [a1 a2] [c1 c2]; simpl; intros; subst; reflexivity. Qed.

(** * Names *)
Lemma xo_cases : forall xo, (points_east xo = Some true /\ exists s, xo = Some s /\ x_orientation_pol_map s = Ok ("e", "n")%char) \/
  (points_east xo = Some false /\ exists s, xo = Some s /\ x_orientation_pol_map s = Ok ("n", "e")%char) \/
  (points_east xo = None /\ (xo = None \/ exists s e, xo = Some s /\ x_orientation_pol_map s = Err e)).
Proof.
  intros [s|]; [|right; right; split; [reflexivity|left; reflexivity]].
  assert (M : x_orientation_pol_map s = match points_east (Some s) with Some true => Ok ("e", "n")%char | Some false => Ok ("n", "e")%char | None => Err ValueError end).
  { unfold points_east, x_orientation_pol_map, XORIENTMAP. generalize (lower s). intros t. cbn [dget fst snd].
    destruct (String.eqb t "east") eqn:E1; [reflexivity|].
    destruct (String.eqb t "north") eqn:E2; [apply String.eqb_eq in E2; subst t; reflexivity|].
    destruct (String.eqb t "e") eqn:E3; [reflexivity|].
    destruct (String.eqb t "n") eqn:E4; [apply String.eqb_eq in E4; subst t; reflexivity|].
    destruct (String.eqb t "ew") eqn:E5; [reflexivity|].
    destruct (String.eqb t "ns") eqn:E6; reflexivity. }
  destruct (points_east (Some s)) as [[|]|].
  - left. split; [reflexivity|]. exists s. split; [reflexivity|exact M].
  - right; left. split; [reflexivity|]. exists s. split; [reflexivity|exact M].
  - right; right. split; [reflexivity|]. right. exists s. eexists. split; [reflexivity|exact M].
Qed.

Definition table (e : option bool) : list (string * Z) :=
  match e with
  | Some true => str2num_dict POL_STR2NUM_DICT (Some "east"%string)
  | Some false => str2num_dict POL_STR2NUM_DICT (Some "north"%string)
  | None => str2num_dict POL_STR2NUM_DICT None
  end.
Lemma str2num_table : forall xo, str2num_dict POL_STR2NUM_DICT xo = table (points_east xo).
Proof.
  intros xo. destruct (xo_cases xo) as [(E & s & -> & M)|[(E & s & -> & M)|(E & [->|(s & e & -> & M)])]]; rewrite E.
  - unfold table, str2num_dict at 1. rewrite M. vm_compute. reflexivity.
  - unfold table, str2num_dict at 1. rewrite M. vm_compute. reflexivity.
  - reflexivity.
  - unfold table, str2num_dict at 1. rewrite M. vm_compute. reflexivity.
Qed.

Lemma hand_names : forall xo s h, hand_of xo s = Some h ->
  In s ["x"; "y"; "r"; "l"; "e"; "n"]%string.
Proof.
  intros xo s h. unfold hand_of.
  repeat match goal with |- context [String.eqb s ?k] => destruct (String.eqb s k) eqn:?E end; intros H;
    repeat match goal with E : String.eqb s ?k = true |- _ => apply String.eqb_eq in E; subst s end;
    try (simpl; tauto); destruct (points_east xo) as [[|]|]; discriminate.
Qed.

Lemma product_named : forall xo s t a c n, compass s = compass t -> hand_of xo s = Some a -> hand_of xo t = Some c -> product_number a c = Some n ->
  polstr2num xo (s ++ t)%string = Ok n.
Proof.
  intros xo s t a c n Hc Hs Ht Hn. pose proof (hand_names _ _ _ Hs) as Is. pose proof (hand_names _ _ _ Ht) as It.
  unfold polstr2num. rewrite str2num_table. unfold hand_of in Hs, Ht. destruct (points_east xo) as [[|]|];
  simpl in Is, It;
  repeat (destruct Is as [<-|Is]); try contradiction; repeat (destruct It as [<-|It]); try contradiction;
  cbn in Hc, Hs, Ht; try discriminate; injection Hs as <-; injection Ht as <-; cbn in Hn; try discriminate; injection Hn as <-; vm_compute; reflexivity.
Qed.

Lemma auto_number : forall a n, product_number a a = Some n -> is_auto n = Ok true.
Proof. intros [] n H; injection H as <-; reflexivity. Qed.
Lemma cross_number : forall a c n, a <> c -> product_number a c = Some n -> is_auto n = Ok false.
Proof. intros [] [] n N H; try discriminate; try (contradict N; reflexivity); injection H as <-; reflexivity. Qed.

(** * Values *)
Lemma power_axis_spec : forall b bv f g comp k x, b_nvec b = 2%nat ->
  power_axis (b_data b) bv (f, g) comp k x =
  cx_mul (sky_field b bv f k x comp) (cx_conj (sky_field b bv g k x comp)).
Proof.
  intros b bv f g comp k x E. unfold power_axis, sky_field. rewrite E. cbn [csum].
  apply cx_eq; unfold cx_add, cx_scale, cx_mul, cx_conj; cbn [fst snd]; ring.
Qed.
Lemma power_spec : forall b bv f g k x, b_nvec b = 2%nat ->
  cx_add (cx_add cx0 (power_axis (b_data b) bv (f, g) 0 k x)) (power_axis (b_data b) bv (f, g) 1 k x) = power_of b bv f g k x.
Proof.
  intros. rewrite !power_axis_spec by assumption. reflexivity.
Qed.

Lemma csum_nonneg_real : forall n f, (forall i, (i < n)%nat -> 0 <= fst (f i) /\ snd (f i) = 0) -> 0 <= fst (csum n f) /\ snd (csum n f) = 0.
Proof.
  induction n as [|n IH]; intros f H; simpl; [split; [lra|reflexivity]|].
  destruct (IH f) as [A B]; [intros i Hi; apply H; lia|]. destruct (H n) as [C D]; [lia|]. split; lra.
Qed.
Lemma self_product : forall a, 0 <= fst (cx_mul a (cx_conj a)) /\ snd (cx_mul a (cx_conj a)) = 0.
Proof. intros [r i]. unfold cx_mul, cx_conj; cbn [fst snd]. split; [|ring]. nra. Qed.
Lemma herm_self : forall n u, 0 <= fst (herm n u u) /\ snd (herm n u u) = 0.
Proof. intros n u. apply csum_nonneg_real. intros i _. apply self_product. Qed.
Lemma herm_conj : forall n u w, herm n w u = cx_conj (herm n u w).
Proof.
  unfold herm. intros n u w. induction n as [|n IH]; simpl; [apply cx_eq; simpl; ring|]. rewrite IH.
  apply cx_eq; unfold cx_add, cx_conj, cx_mul; cbn [fst snd]; ring.
Qed.
Lemma herm2 : forall u w, herm 2 u w = cx_add (cx_mul (u 0%nat) (cx_conj (w 0%nat))) (cx_mul (u 1%nat) (cx_conj (w 1%nat))).
Proof. intros. unfold herm. simpl. apply cx_eq; unfold cx_add; cbn [fst snd]; ring. Qed.
Lemma schwarz : forall u w, norm2 (herm 2 u w) <= fst (herm 2 u u) * fst (herm 2 w w).
Proof.
  intros u w. rewrite !herm2. destruct (u 0%nat) as [a b], (u 1%nat) as [c d], (w 0%nat) as [e f], (w 1%nat) as [g h].
  unfold norm2, cx_add, cx_mul, cx_conj; cbn [fst snd].
  (* difference is |u0 w1 - u1 w0|^2 *)
  assert (H : 0 <= (a * g - b * h - (c * e - d * f)) ^ 2 + (a * h + b * g - (c * f + d * e)) ^ 2) by (apply Rplus_le_le_0_compat; apply pow2_ge_0).
  nra.
Qed.

Lemma abs_real : forall a, 0 <= fst a -> snd a = 0 -> of_real (cx_abs a) = a.
Proof.
  intros [r i]; cbn [fst snd]; intros H ->. unfold of_real, cx_abs; cbn [fst snd].
  replace (r * r + 0 * 0) with (r * r) by ring. rewrite sqrt_square by exact H. reflexivity.
Qed.
Lemma real_real : forall a, snd a = 0 -> of_real (fst a) = a.
Proof. intros [r i]; cbn [fst snd]; intros ->; reflexivity. Qed.

(** Making automatic products real leaves real non-negative ones alone. *)
Lemma check_auto_id : forall nvec nfreq npix pols d, 
  (forall i n, nth_error pols i = Some n -> exists a, is_auto n = Ok a /\ (a = true -> forall v k x, 0 <= fst (d v i k x) /\ snd (d v i k x) = 0)) ->
  exists d', check_auto_power nvec nfreq npix pols d = Ok d' /\ forall v i k x, (i < length pols)%nat -> d' v i k x = d v i k x.
Proof.
  intros nvec nfreq npix pols d H. unfold check_auto_power.
  assert (exists sc, mapM is_auto pols = Ok sc /\ length sc = length pols /\
    forall i, nth i sc false = true -> forall v k x, 0 <= fst (d v i k x) /\ snd (d v i k x) = 0) as (sc & -> & L & G).
  { destruct (mapM_total is_auto pols) as [sc E].
    - intros n Hn. apply In_nth_error in Hn as [i Hi]. destruct (H i n Hi) as (a & E & _). exists a. exact E.
    - exists sc. pose proof (mapM_Ok_length _ _ _ E) as L. split; [exact E|]. split; [exact L|]. intros i Hs.
      assert (Hi : (i < length pols)%nat). { destruct (Nat.lt_ge_cases i (length sc)); [lia|]. rewrite nth_overflow in Hs by lia; discriminate. }
      destruct (nth_error pols i) as [n|] eqn:En; [|apply nth_error_None in En; lia].
      destruct (H i n En) as (a & Ea & G). apply G.
      pose proof (mapM_Ok_nth is_auto _ _ 0%Z false E i Hi) as Em. rewrite (nth_error_nth _ _ _ En) in Em. congruence. }
  cbn [bind]. match goal with |- context [if ?c then _ else _] => destruct c end.
  - eexists. split; [reflexivity|]. intros v i k x Hi. unfold fix_auto_power. destruct (nth i sc false) eqn:E; [|reflexivity].
    destruct (G i E v k x). apply abs_real; assumption.
  - exists d. split; reflexivity.
Qed.

(** * The conversion *)
Definition value_of (keep : bool) (b : beam) (bv : nat -> nat -> nat -> R) (f g v k x : nat) : cx :=
  if keep then cx_mul (b_data b v f k x) (cx_conj (b_data b v g k x)) else power_of b bv f g k x.
Definition can_convert (keep : bool) (b : beam) (bv : nat -> nat -> nat -> R) : Prop :=
  keep = true \/ (b_nvec b = 2%nat /\ b_basis b = Some bv).

Lemma value_auto : forall keep b bv f v k x, 0 <= fst (value_of keep b bv f f v k x) /\ snd (value_of keep b bv f f v k x) = 0.
Proof. intros [] b bv f v k x; unfold value_of; [apply self_product|apply herm_self]. Qed.

Lemma power_data_spec : forall keep b bv order, can_convert keep b bv ->
  exists d, power_data keep (b_nvec b) (b_data b) (b_basis b) order = Ok d /\
    forall v i k x f g, nth_error order i = Some (f, g) -> d v i k x = value_of keep b bv f g v k x.
Proof.
  intros keep b bv order [->|[E1 E2]]; unfold power_data.
  - eexists. split; [reflexivity|]. intros v i k x f g H. cbv beta. rewrite H. reflexivity.
  - unfold value_of. destruct keep.
    + eexists. split; [reflexivity|]. intros v i k x f g H. cbv beta. rewrite H. reflexivity.
    + rewrite E1, E2. cbn [Nat.eqb negb]. eexists. split; [reflexivity|]. intros v i k x f g H. cbv beta. rewrite H. apply power_spec. exact E1.
Qed.

Lemma label_named : forall xo feeds f g n, label xo feeds f g = Some n ->
  (do s <- pol_name feeds (f, g); polstr2num xo s) = Ok n.
Proof.
  intros xo feeds f g n. unfold label, pol_name; cbn [fst snd].
  destruct (nth_error feeds f) as [s|]; [|discriminate]. destruct (nth_error feeds g) as [t|]; [|discriminate].
  destruct (Bool.eqb (compass s) (compass t)) eqn:E; [|discriminate]. apply eqb_prop in E.
  destruct (hand_of xo s) as [a|] eqn:Ea; [|discriminate]. destruct (hand_of xo t) as [c|] eqn:Ec; [|discriminate].
  intros H. cbn [bind]. exact (product_named _ _ _ _ _ _ E Ea Ec H).
Qed.
Lemma names_labels : forall xo feeds order pols,
  Forall2 (fun pr n => label xo feeds (fst pr) (snd pr) = Some n) order pols ->
  (do names <- mapM (pol_name feeds) order; mapM (polstr2num xo) names) = Ok pols.
Proof.
  intros xo feeds order pols H. induction H as [|[f g] n order pols H _ IH]; [reflexivity|]. cbn [fst snd] in H.
  apply label_named in H. apply bind_Ok in H as (s & Es & En). apply bind_Ok in IH as (names & E1 & E2).
  cbn [mapM]. rewrite Es. cbn [bind]. rewrite E1. cbn [bind]. cbn [mapM]. rewrite En. cbn [bind]. rewrite E2. reflexivity.
Qed.

Lemma label_auto : forall xo feeds f n, label xo feeds f f = Some n -> is_auto n = Ok true.
Proof.
  intros xo feeds f n. unfold label. destruct (nth_error feeds f) as [s|]; [|discriminate]. destruct (Bool.eqb _ _); [|discriminate].
  destruct (hand_of xo s) as [a|]; [|discriminate]. apply auto_number.
Qed.
Lemma label_cross : forall xo feeds f g n, label xo feeds f f <> label xo feeds g g -> label xo feeds f g = Some n -> is_auto n = Ok false.
Proof.
  intros xo feeds f g n. unfold label. destruct (nth_error feeds f) as [s|]; [|discriminate]. destruct (nth_error feeds g) as [t|]; [|discriminate].
  rewrite !eqb_reflx. destruct (Bool.eqb (compass s) _); [|discriminate].
  destruct (hand_of xo s) as [a|]; [|discriminate]. destruct (hand_of xo t) as [c|]; [|discriminate].
  intros N. apply cross_number. intros ->. apply N. reflexivity.
Qed.
Lemma label_inj : forall xo feeds f g f' g' n, label xo feeds f g = Some n -> label xo feeds f' g' = Some n ->
  label xo feeds f f = label xo feeds f' f' /\ label xo feeds g g = label xo feeds g' g'.
Proof.
  intros xo feeds f g f' g' n. unfold label.
  destruct (nth_error feeds f) as [s|]; [|discriminate]. destruct (nth_error feeds g) as [t|]; [|discriminate].
  destruct (nth_error feeds f') as [s'|]; [|discriminate]. destruct (nth_error feeds g') as [t'|]; [|discriminate].
  rewrite !eqb_reflx. destruct (Bool.eqb (compass s) _); [|discriminate]. destruct (Bool.eqb (compass s') _); [|discriminate].
  destruct (hand_of xo s) as [a|]; [|discriminate]. destruct (hand_of xo t) as [c|]; [|discriminate].
  destruct (hand_of xo s') as [a'|]; [|discriminate]. destruct (hand_of xo t') as [c'|]; [|discriminate].
  intros H1 H2. destruct a, c; try discriminate H1; injection H1 as <-; destruct a', c'; try discriminate H2; split; reflexivity.
Qed.

Lemma order_products : forall feeds cross, (length feeds = 1%nat \/ length feeds = 2%nat) -> forall f g,
  In (f, g) (feed_pol_order (length feeds) (if Nat.eqb (length feeds) 1 then false else cross)) <-> product_of cross feeds f g.
Proof.
  intros feeds cross L f g. unfold product_of. destruct L as [-> | ->]; unfold feed_pol_order; cbn [Nat.eqb Nat.ltb Nat.leb app].
  - simpl. split.
    + intros [H|[]]. injection H as <- <-. (split; [lia|split; [lia|right; reflexivity]]).
    + intros (H1 & H2 & _). left. f_equal; lia.
  - destruct cross; simpl; split.
    + intros [H|[H|[H|[H|[]]]]]; injection H as <- <-; (split; [lia|split; [lia|left; reflexivity]]).
    + intros (H1 & H2 & _). destruct f as [|[|f]], g as [|[|g]]; try lia; tauto.
    + intros [H|[H|[]]]; injection H as <- <-; (split; [lia|split; [lia|right; reflexivity]]).
    + intros (H1 & H2 & [H|H]); [discriminate|]. subst g. destruct f as [|[|f]]; try lia; tauto.
Qed.
Lemma order_length : forall n cross, (n = 1%nat \/ n = 2%nat) ->
  length (feed_pol_order n (if Nat.eqb n 1 then false else cross)) = (if (if Nat.eqb n 1 then false else cross) then n * n else n)%nat /\
  NoDup (feed_pol_order n (if Nat.eqb n 1 then false else cross)).
Proof.
  intros n cross [->| ->]; [|destruct cross]; split; try reflexivity; cbn; repeat constructor; simpl; intuition discriminate.
Qed.

Lemma pick_labels : forall xo feeds order, (forall f g, In (f, g) order -> exists n, label xo feeds f g = Some n) ->
  exists pols, Forall2 (fun pr n => label xo feeds (fst pr) (snd pr) = Some n) order pols.
Proof.
  intros xo feeds order. induction order as [|[f g] order IH]; intros H; [exists []; constructor|].
  destruct IH as [pols HP]; [intros f' g' I; apply H; right; exact I|]. destruct (H f g (or_introl eq_refl)) as [n Hn].
  exists (n :: pols). constructor; assumption.
Qed.
Lemma Forall2_nth {A B} (P : A -> B -> Prop) : forall l m, Forall2 P l m -> length l = length m /\
  forall i a, nth_error l i = Some a -> exists c, nth_error m i = Some c /\ P a c.
Proof.
  intros l m H. induction H as [|a c l m H _ [L IH]]; [split; [reflexivity|intros [|i] a; discriminate]|].
  split; [simpl; f_equal; exact L|]. intros [|i] a' E; [injection E as <-; exists c; split; [reflexivity|exact H]|]. exact (IH i a' E).
Qed.

Lemma to_power : forall cross keep b feeds bv, field_beam b feeds -> good_feeds (b_xo b) feeds -> can_convert keep b bv ->
  exists b' pols order, efield_to_power cross keep b = (b', None) /\ b_type b' = "power"%string /\ b_feeds b' = None /\
    b_pols b' = Some pols /\ b_npols b' = Some (length pols) /\ b_nvec b' = (if keep then b_nvec b else 1%nat) /\
    b_basis b' = (if keep then b_basis b else None) /\ same_frame b b' /\ length order = length pols /\ NoDup pols /\
    (forall f g, In (f, g) order <-> product_of cross feeds f g) /\
    (forall i f g, nth_error order i = Some (f, g) -> exists n, label (b_xo b) feeds f g = Some n /\ nth_error pols i = Some n /\
       forall v k x, b_data b' v i k x = value_of keep b bv f g v k x).
Proof.
  intros cross keep b feeds bv (T1 & T2 & T3) (G1 & G2 & G3) Hc. unfold efield_to_power. rewrite T1, T3. cbn [String.eqb negb Ascii.eqb Bool.eqb].
  destruct (String.eqb (b_ant b) "phased_array") eqn:Ea; [apply String.eqb_eq in Ea; contradiction|].
  set (cr := if Nat.eqb (length feeds) 1 then false else cross). set (order := feed_pol_order (length feeds) cr).
  pose proof (order_products feeds cross G1) as HO. fold cr in HO. fold order in HO.
  destruct (order_length (length feeds) cross G1) as [HL HN]. fold cr in HL, HN. fold order in HL, HN.
  destruct (pick_labels (b_xo b) feeds order) as [pols HP].
  { intros f g I. apply HO in I as (A & C & _). apply G2; assumption. }
  rewrite (names_labels _ _ _ _ HP). destruct (Forall2_nth _ _ _ HP) as [LP NP].
  destruct (power_data_spec keep b bv order Hc) as (d & -> & Hd). cbn [bind].
  assert (ND : NoDup pols).
  { apply NoDup_nth_error. intros i j Hi E. destruct (nth_error pols i) as [n|] eqn:En; [|apply nth_error_None in En; lia].
    destruct (nth_error order i) as [[f g]|] eqn:Ei; [|apply nth_error_None in Ei; lia].
    assert (Hj : (j < length pols)%nat) by (apply nth_error_Some; congruence).
    destruct (nth_error order j) as [[f' g']|] eqn:Ej; [|apply nth_error_None in Ej; lia].
    destruct (NP i _ Ei) as (n1 & E1 & L1). destruct (NP j _ Ej) as (n2 & E2 & L2). cbn [fst snd] in L1, L2.
    assert (n1 = n) by congruence. assert (n2 = n) by congruence. subst n1 n2.
    destruct (label_inj _ _ _ _ _ _ _ L1 L2) as [I1 I2].
    pose proof (proj1 (HO f g) (nth_error_In _ _ Ei)) as (A1 & A2 & _). pose proof (proj1 (HO f' g') (nth_error_In _ _ Ej)) as (A3 & A4 & _).
    apply G3 in I1; [|assumption|assumption]. apply G3 in I2; [|assumption|assumption]. subst f' g'.
    apply (proj1 (NoDup_nth_error order) HN); [rewrite <- LP in Hi; exact Hi|congruence]. }
  assert (exists d', (if cr then check_auto_power (if keep then b_nvec b else 1%nat) (b_nfreq b) (b_npix b) pols d else Ok (real_part d)) = Ok d' /\
    forall i f g, nth_error order i = Some (f, g) -> forall v k x, d' v i k x = value_of keep b bv f g v k x) as (d' & -> & Hd').
  { destruct cr eqn:Ecr.
    - destruct (check_auto_id (if keep then b_nvec b else 1%nat) (b_nfreq b) (b_npix b) pols d) as (d' & Ed & Hv).
      + intros i n En. destruct (nth_error order i) as [[f g]|] eqn:Ei; [|apply nth_error_None in Ei; assert (i < length pols)%nat by (apply nth_error_Some; congruence); lia].
        destruct (NP i _ Ei) as (n' & E' & Lb). cbn [fst snd] in Lb. assert (n' = n) by congruence. subst n'.
        pose proof (proj1 (HO f g) (nth_error_In _ _ Ei)) as (A1 & A2 & _).
        destruct (Nat.eq_dec f g) as [->|Nfg].
        * exists true. split; [exact (label_auto _ _ _ _ Lb)|]. intros _ v k x. rewrite (Hd v i k x g g Ei). apply value_auto.
        * exists false. split; [|discriminate]. apply (label_cross (b_xo b) feeds f g n); [|exact Lb]. intros C. apply Nfg. apply G3; assumption.
      + exists d'. split; [exact Ed|]. intros i f g Ei v k x. rewrite Hv; [apply Hd; exact Ei|]. rewrite <- LP. apply nth_error_Some. congruence.
    - exists (real_part d). split; [reflexivity|]. intros i f g Ei v k x. unfold real_part. rewrite (Hd v i k x f g Ei).
      assert (f = g). { pose proof (nth_error_In _ _ Ei) as I. unfold order in I. destruct G1 as [E|E]; rewrite E in I; cbn in I; intuition congruence. }
      subst g. apply real_real. apply value_auto. }
  eexists _, pols, order. split; [reflexivity|]. cbn [b_type b_feeds b_pols b_npols b_nvec b_basis b_data].
  do 3 (split; [reflexivity|]). split; [rewrite <- LP; rewrite HL; reflexivity|]. do 2 (split; [reflexivity|]).
  split; [repeat split|]. split; [exact LP|]. split; [exact ND|]. split; [exact HO|].
  intros i f g Ei. destruct (NP i _ Ei) as (n & E' & Lb). exists n. split; [exact Lb|]. split; [exact E'|]. apply Hd'. exact Ei.
Qed.

(** What the new beam says about each product *)
Lemma power_at : forall cross keep b feeds bv, field_beam b feeds -> good_feeds (b_xo b) feeds -> can_convert keep b bv ->
  exists b', efield_to_power cross keep b = (b', None) /\ b_type b' = "power"%string /\ b_nvec b' = (if keep then b_nvec b else 1%nat) /\
    (exists pols, b_pols b' = Some pols /\ b_npols b' = Some (length pols) /\ NoDup pols /\
       forall n, In n pols <-> exists f g, product_of cross feeds f g /\ label (b_xo b) feeds f g = Some n) /\
    same_frame b b' /\
    forall f g n, product_of cross feeds f g -> label (b_xo b) feeds f g = Some n -> forall v k x z,
      beam_at b' n v k x z <-> z = value_of keep b bv f g v k x.
Proof.
  intros cross keep b feeds bv Hb Hg Hc. destruct (to_power cross keep b feeds bv Hb Hg Hc)
    as (b' & pols & order & E & T & _ & P1 & P2 & V & _ & SF & LP & ND & HO & HV).
  exists b'. do 3 (split; [assumption|]). split; [|split; [exact SF|]].
  - exists pols. do 3 (split; [assumption|]). intros n. split.
    + intros I. apply In_nth_error in I as [i Hi]. destruct (nth_error order i) as [[f g]|] eqn:Ei.
      * destruct (HV i f g Ei) as (n' & Lb & En & _). exists f, g. split; [apply HO; exact (nth_error_In _ _ Ei)|congruence].
      * apply nth_error_None in Ei. assert (i < length pols)%nat by (apply nth_error_Some; congruence). lia.
    + intros (f & g & Hp & Lb). apply HO in Hp. apply In_nth_error in Hp as [i Hi]. destruct (HV i f g Hi) as (n' & Lb' & En & _).
      rewrite Lb in Lb'. injection Lb' as <-. exact (nth_error_In _ _ En).
  - intros f g n Hp Lb v k x z. apply HO in Hp. apply In_nth_error in Hp as [i Hi]. destruct (HV i f g Hi) as (n' & Lb' & En & Hz).
    rewrite Lb in Lb'. injection Lb' as <-. split.
    + intros (pols' & j & Ep & Ej & <-). rewrite P1 in Ep. injection Ep as <-. assert (j = i) as ->; [|apply Hz].
      symmetry. apply (proj1 (NoDup_nth_error pols) ND); [apply nth_error_Some; congruence|congruence].
    + intros ->. exists pols, i. split; [exact P1|]. split; [exact En|apply Hz].
Qed.
