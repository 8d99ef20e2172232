(** Peak normalization and beam areas (C77). *)
From Coq Require Import List ZArith Reals Bool Arith Ascii String Lia Lra Psatz.
From Verif Require Import Lib.Py Lib.Np Lib.Dict Model.Pol Model.Phase Model.Beam Spec.BeamSpec Proofs.BeamPower Proofs.BeamStokes.
Import ListNotations.
Open Scope list_scope.
Open Scope R_scope.
Notation length := List.length.

Lemma fold_max : forall l x, (forall y, In y l -> y <= fold_left Rmax l x) /\ x <= fold_left Rmax l x /\ (fold_left Rmax l x = x \/ In (fold_left Rmax l x) l).
Proof.
  induction l as [|y l IH]; intros x; simpl; [split; [intros y []|split; [lra|left; reflexivity]]|].
  destruct (IH (Rmax x y)) as (A & C & D). pose proof (Rmax_l x y). pose proof (Rmax_r x y). split; [|split; [lra|]].
  - intros z [<-|I]; [lra|apply A; exact I].
  - destruct D as [D|D]; [|right; right; exact D]. rewrite D. unfold Rmax. destruct (Rle_dec x y); [right; left; reflexivity|left; reflexivity].
Qed.
Lemma maximum_spec : forall l, l <> [] -> exists m, maximum l = Ok m /\ In m l /\ forall y, In y l -> y <= m.
Proof.
  intros [|x l] H; [contradiction|]. destruct (fold_max l x) as (A & C & D). exists (fold_left Rmax l x). split; [reflexivity|]. split.
  - destruct D as [->|D]; [left; reflexivity|right; exact D].
  - intros y [<-|I]; [exact C|apply A; exact I].
Qed.
Lemma In_cells : forall nvec npol npix v p x, In (v, p, x) (cells nvec npol npix) <-> (v < nvec)%nat /\ (p < npol)%nat /\ (x < npix)%nat.
Proof.
  intros. unfold cells. rewrite in_concat. split.
  - intros (l & Hl & I). apply in_map_iff in Hl as (v' & <- & Hv). apply in_concat in I as (l & Hl & I).
    apply in_map_iff in Hl as (p' & <- & Hp). apply in_map_iff in I as (x' & E & Hx). injection E as -> -> ->.
    apply in_seq in Hv, Hp, Hx. lia.
  - intros (Hv & Hp & Hx). eexists. split; [apply in_map_iff; exists v; split; [reflexivity|apply in_seq; lia]|].
    apply in_concat. eexists. split; [apply in_map_iff; exists p; split; [reflexivity|apply in_seq; lia]|].
    apply in_map_iff. exists x. split; [reflexivity|apply in_seq; lia].
Qed.

(** [m] is the largest absolute value at frequency [k]. *)
Definition is_peak (nvec npol npix : nat) (d : bdata) (k : nat) (m : R) : Prop :=
  (forall v p x, (v < nvec)%nat -> (p < npol)%nat -> (x < npix)%nat -> cx_abs (d v p k x) <= m) /\
  exists v p x, (v < nvec)%nat /\ (p < npol)%nat /\ (x < npix)%nat /\ cx_abs (d v p k x) = m.
Lemma peak_spec : forall nvec npol npix d k m, peak nvec npol npix d k = Ok m -> is_peak nvec npol npix d k m.
Proof.
  intros nvec npol npix d k m H. unfold peak in H.
  destruct (map (fun c => match c with (v, p, x) => cx_abs (d v p k x) end) (cells nvec npol npix)) as [|y l] eqn:E; [discriminate|].
  destruct (maximum_spec (y :: l)) as (m' & E' & I & A); [discriminate|]. assert (m' = m) as -> by congruence. rewrite <- E in I, A. split.
  - intros v p x Hv Hp Hx. apply A. apply in_map_iff. exists (v, p, x). split; [reflexivity|]. apply In_cells. tauto.
  - apply in_map_iff in I as ([[v p] x] & Em & I). apply In_cells in I. exists v, p, x. tauto.
Qed.
Lemma peak_total : forall nvec npol npix d k, (0 < nvec)%nat -> (0 < npol)%nat -> (0 < npix)%nat -> exists m, peak nvec npol npix d k = Ok m.
Proof.
  intros nvec npol npix d k A C D. unfold peak. destruct (maximum_spec (map (fun c => match c with (v, p, x) => cx_abs (d v p k x) end) (cells nvec npol npix))) as (m & E & _).
  - intros E. apply map_eq_nil in E. assert (I : In (0, 0, 0)%nat (cells nvec npol npix)) by (apply In_cells; tauto). rewrite E in I. destruct I.
  - exists m. exact E.
Qed.
Lemma cx_abs_nonneg : forall a, 0 <= cx_abs a. Proof. intros. apply sqrt_pos. Qed.
Lemma cx_abs_scale : forall r a, cx_abs (cx_scale r a) = Rabs r * cx_abs a.
Proof.
  intros r [p q]. unfold cx_abs, cx_scale; cbn [fst snd]. replace (r * p * (r * p) + r * q * (r * q)) with (r² * (p * p + q * q)) by (unfold Rsqr; ring).
  rewrite sqrt_mult; [|apply Rle_0_sqr|nra]. rewrite sqrt_Rsqr_abs. reflexivity.
Qed.
Lemma is_peak_nonneg : forall nvec npol npix d k m, is_peak nvec npol npix d k m -> 0 <= m.
Proof. intros nvec npol npix d k m (_ & v & p & x & _ & _ & _ & <-). apply cx_abs_nonneg. Qed.
Lemma is_peak_ext : forall nvec npol npix d d' k m, (forall v p x, d v p k x = d' v p k x) -> is_peak nvec npol npix d k m -> is_peak nvec npol npix d' k m.
Proof.
  intros nvec npol npix d d' k m H [A (v & p & x & C1 & C2 & C3 & C4)]. split.
  - intros. rewrite <- H. apply A; assumption.
  - exists v, p, x. rewrite <- H. tauto.
Qed.

Lemma peak_loop_spec : forall nvec npol npix ks d bp d' bp', NoDup ks -> (forall k, In k ks -> (k < length bp)%nat) ->
  peak_loop nvec npol npix ks (d, bp) = Ok (d', bp') ->
  length bp' = length bp /\
  (forall k, In k ks -> exists m, is_peak nvec npol npix d k m /\ 0 < m /\ nth k bp' 0 = nth k bp 0 * m /\ forall v p x, d' v p k x = cx_scale (/ m) (d v p k x)) /\
  (forall k, ~ In k ks -> nth k bp' 0 = nth k bp 0 /\ forall v p x, d' v p k x = d v p k x).
Proof.
  intros nvec npol npix ks. induction ks as [|k ks IH]; intros d bp d' bp' ND HL H; cbn [peak_loop] in H.
  - injection H as <- <-. split; [reflexivity|]. split; [intros k []|]. intros k _. split; reflexivity.
  - apply bind_Ok in H as ([d1 bp1] & E & H). unfold peak_step in E. apply bind_Ok in E as (m & Em & E).
    destruct (Req_EM_T m 0) as [|Nm]; [discriminate|]. apply (f_equal (fun r => match r with Ok p => p | Err _ => (d, bp) end)) in E.
    apply pair_equal_spec in E as [Ed Eb]. inversion ND as [|? ? Nk ND']; subst.
    apply peak_spec in Em. pose proof (is_peak_nonneg _ _ _ _ _ _ Em) as Pm.
    apply IH in H as (L & A & C); [|exact ND'|].
    2: { intros k' I. rewrite set_nth_length. apply HL. right; exact I. }
    rewrite set_nth_length in L. split; [exact L|]. split.
    + intros k' [<-|I].
      * exists m. split; [exact Em|]. split; [lra|]. destruct (C k Nk) as [C1 C2]. split.
        -- rewrite C1. rewrite nth_set_nth by (apply HL; left; reflexivity). rewrite Nat.eqb_refl. reflexivity.
        -- intros v p x. rewrite C2, Nat.eqb_refl. reflexivity.
      * destruct (A k' I) as (m' & P & Pm' & B1 & B2). assert (Nkk : k' <> k) by (intros ->; contradiction).
        exists m'. split; [|split; [exact Pm'|split]].
        -- apply (is_peak_ext _ _ _ _ d _ _) in P; [exact P|]. intros v p x. cbv beta. rewrite (proj2 (Nat.eqb_neq k' k) Nkk). reflexivity.
        -- rewrite B1. f_equal. rewrite nth_set_nth by (apply HL; left; reflexivity). rewrite (proj2 (Nat.eqb_neq _ _)); [reflexivity|congruence].
        -- intros v p x. rewrite B2. rewrite (proj2 (Nat.eqb_neq k' k) Nkk). reflexivity.
    + intros k' I. destruct (C k') as [C1 C2]; [intros J; apply I; right; exact J|]. assert (Nkk : k' <> k) by (intros ->; apply I; left; reflexivity). split.
      * rewrite C1. rewrite nth_set_nth by (apply HL; left; reflexivity). rewrite (proj2 (Nat.eqb_neq _ _)); [reflexivity|congruence].
      * intros v p x. rewrite C2. rewrite (proj2 (Nat.eqb_neq k' k) Nkk). reflexivity.
Qed.

Lemma peak_loop_total : forall nvec npol npix ks (d : bdata) (bp : list R), NoDup ks ->
  (forall k, In k ks -> exists v p x, (v < nvec)%nat /\ (p < npol)%nat /\ (x < npix)%nat /\ d v p k x <> cx0) ->
  exists r, peak_loop nvec npol npix ks (d, bp) = Ok r.
Proof.
  intros nvec npol npix ks. induction ks as [|k ks IH]; intros d bp ND H; cbn [peak_loop]; [eexists; reflexivity|].
  destruct (H k (or_introl eq_refl)) as (v & p & x & Hv & Hp & Hx & Hn).
  destruct (peak_total nvec npol npix d k) as [m Em]; [lia|lia|lia|]. unfold peak_step. rewrite Em. cbn [bind].
  destruct (Req_EM_T m 0) as [->|Nm].
  - exfalso. apply peak_spec in Em as [A _]. specialize (A v p x Hv Hp Hx). apply Hn. destruct (d v p k x) as [r i].
    assert (E : cx_abs (r, i) = 0) by (pose proof (cx_abs_nonneg (r, i)); lra). unfold cx_abs in E; cbn [fst snd] in E.
    apply sqrt_eq_0 in E; [|nra]. unfold cx0. f_equal; nra.
  - cbn [bind]. inversion ND as [|? ? Nk ND']; subst. apply IH; [exact ND'|]. intros k' I. destruct (H k' (or_intror I)) as (v' & p' & x' & A & C & D & E).
    exists v', p', x'. rewrite (proj2 (Nat.eqb_neq k' k)); [tauto|]. intros ->; contradiction.
Qed.

Lemma normalize_ok : forall b, b_norm b <> "solid_angle"%string -> length (b_bandpass b) = b_nfreq b ->
  (forall k, (k < b_nfreq b)%nat -> exists v p x, in_cells b v p k x /\ b_data b v p k x <> cx0) ->
  exists b', peak_normalize b = Ok b'.
Proof.
  intros b N L H. unfold peak_normalize. destruct (String.eqb (b_norm b) "solid_angle") eqn:E; [apply String.eqb_eq in E; contradiction|].
  destruct (peak_loop_total (b_nvec b) (b_npol_axis b) (b_npix b) (seq 0 (b_nfreq b)) (b_data b) (b_bandpass b) (seq_NoDup _ _)) as [r Er].
  - intros k I. apply in_seq in I. destruct (H k) as (v & p & x & (A & C & D & F) & G); [lia|]. exists v, p, x. tauto.
  - eexists. unfold bind. rewrite Er. reflexivity.
Qed.

Lemma normalize_spec : forall b b', length (b_bandpass b) = b_nfreq b -> peak_normalize b = Ok b' ->
  length (b_bandpass b') = b_nfreq b /\ b_norm b' = "peak"%string /\
  (b_type b' = b_type b /\ b_ant b' = b_ant b /\ b_cs b' = b_cs b /\ b_nvec b' = b_nvec b /\ b_nfreq b' = b_nfreq b /\ b_npix b' = b_npix b /\
   b_nside b' = b_nside b /\ b_feeds b' = b_feeds b /\ b_npols b' = b_npols b /\ b_pols b' = b_pols b /\ b_xo b' = b_xo b /\ b_basis b' = b_basis b) /\
  forall k, (k < b_nfreq b)%nat -> exists m, 0 < m /\ is_peak (b_nvec b) (b_npol_axis b) (b_npix b) (b_data b) k m /\
    nth k (b_bandpass b') 0 = nth k (b_bandpass b) 0 * m /\ forall v p x, b_data b' v p k x = cx_scale (/ m) (b_data b v p k x).
Proof.
  intros b b' L H. unfold peak_normalize in H. destruct (String.eqb (b_norm b) "solid_angle"); [discriminate|].
  apply bind_Ok in H as ([d bp] & E & H). injection H as <-. cbn [fst snd].
  apply peak_loop_spec in E as (E1 & E2 & _); [|apply seq_NoDup|intros k I; apply in_seq in I; lia].
  cbn [b_bandpass b_norm b_type b_ant b_cs b_nvec b_nfreq b_npix b_nside b_feeds b_npols b_pols b_xo b_basis b_data].
  split; [congruence|]. split; [reflexivity|]. split; [repeat split|].
  intros k Hk. destruct (E2 k) as (m & A & C & D & F); [apply in_seq; lia|]. exists m. tauto.
Qed.

Lemma normalize_peak : forall b b', length (b_bandpass b) = b_nfreq b -> peak_normalize b = Ok b' ->
  (forall v p k x, in_cells b v p k x -> in_cells b' v p k x /\ cx_abs (b_data b' v p k x) <= 1 /\ total_gain b' v p k x = total_gain b v p k x) /\
  (forall k, (k < b_nfreq b)%nat -> exists v p x, in_cells b v p k x /\ cx_abs (b_data b' v p k x) = 1).
Proof.
  intros b b' L H. apply normalize_spec in H as (_ & _ & (T & _ & _ & V & F & X & _ & FE & NP & _) & Hk); [|exact L]. split.
  - intros v p k x (A & C & D & E). split; [|destruct (Hk k D) as (m & Pm & [M _] & B1 & B2); split].
    + unfold in_cells, b_npol_axis. rewrite V, F, X, T, FE, NP. fold (b_npol_axis b). tauto.
    + rewrite B2, cx_abs_scale, Rabs_right by (apply Rle_ge, Rlt_le, Rinv_0_lt_compat; exact Pm).
      specialize (M v p x A C E). apply (Rmult_le_reg_l m); [exact Pm|]. rewrite <- Rmult_assoc, Rinv_r by lra. lra.
    + unfold total_gain. rewrite B1, B2. apply cx_eq; unfold cx_scale; cbn [fst snd]; field; lra.
  - intros k D. destruct (Hk k D) as (m & Pm & [_ (v & p & x & A & C & E & M)] & B1 & B2). exists v, p, x. split; [unfold in_cells; tauto|].
    rewrite B2, cx_abs_scale, Rabs_right by (apply Rle_ge, Rlt_le, Rinv_0_lt_compat; exact Pm). rewrite M. apply Rinv_l. lra.
Qed.

Lemma peak_unique : forall nvec npol npix d k m m', is_peak nvec npol npix d k m -> is_peak nvec npol npix d k m' -> m = m'.
Proof.
  intros nvec npol npix d k m m' [A (v & p & x & B1 & B2 & B3 & B4)] [A' (v' & p' & x' & B1' & B2' & B3' & B4')].
  specialize (A v' p' x' B1' B2' B3'). specialize (A' v p x B1 B2 B3). lra.
Qed.

(** Normalizing again changes nothing. *)
Lemma normalize_again : forall b b' b'', length (b_bandpass b) = b_nfreq b -> peak_normalize b = Ok b' -> peak_normalize b' = Ok b'' ->
  forall k, (k < b_nfreq b)%nat -> nth k (b_bandpass b'') 0 = nth k (b_bandpass b') 0 /\ forall v p x, b_data b'' v p k x = b_data b' v p k x.
Proof.
  intros b b' b'' L H H' k Hk. destruct (normalize_peak b b' L H) as [N1 N2]. apply normalize_spec in H as (L' & _ & (T & _ & _ & V & F & X & _ & FE & NP & _) & Ha); [|exact L].
  apply normalize_spec in H' as (_ & _ & _ & Hb); [|congruence]. destruct (Hb k) as (m & Pm & P & B1 & B2); [congruence|].
  assert (m = 1).
  { apply (peak_unique (b_nvec b') (b_npol_axis b') (b_npix b') (b_data b') k _ _ P). unfold b_npol_axis. rewrite V, X, T, FE, NP. fold (b_npol_axis b). split.
    - intros v p x A C D. apply (N1 v p k x). unfold in_cells. tauto.
    - destruct (N2 k Hk) as (v & p & x & (A & C & D & E) & M). exists v, p, x. tauto. }
  subst m. split; [rewrite B1; ring|]. intros v p x. rewrite B2. rewrite Rinv_1. apply cx_eq; unfold cx_scale; cbn [fst snd]; ring.
Qed.

(** * Areas *)
Lemma cx_sum_real : forall l f, (forall x : nat, In x l -> snd (f x) = 0) -> cx_sum (map f l) = of_real (fold_right Rplus 0 (map (fun x => fst (f x)) l)).
Proof.
  intros l f H. induction l as [|x l IH]; [reflexivity|]. simpl. rewrite IH by (intros y I; apply H; right; exact I).
  apply cx_eq; unfold cx_add, of_real; cbn [fst snd]; [reflexivity|]. rewrite (H x (or_introl eq_refl)). ring.
Qed.
Lemma rsum_seq : forall n f, fold_right Rplus 0 (map f (seq 0 n)) = rsum n f.
Proof.
  induction n as [|n IH]; intros f; [reflexivity|]. rewrite seq_S, map_app, fold_right_app. simpl. rewrite <- IH.
  generalize (seq 0 n). intros l. induction l as [|x l IHl]; simpl; [ring|rewrite IHl; ring].
Qed.
Lemma rsum_le : forall n f g, (forall i, (i < n)%nat -> f i <= g i) -> rsum n f <= rsum n g.
Proof. induction n as [|n IH]; intros f g H; simpl; [lra|]. apply Rplus_le_compat; [apply IH; intros; apply H; lia|apply H; lia]. Qed.
Lemma rsum_const : forall n c, rsum n (fun _ => c) = INR n * c.
Proof. induction n as [|n IH]; intros c; [simpl; ring|]. rewrite S_INR. simpl. rewrite IH. ring. Qed.

Lemma area_spec : forall f b pol n i pols, polstr2num (b_xo b) pol = Ok n -> b_type b = "power"%string -> b_nvec b = 1%nat ->
  b_norm b = "peak"%string -> b_cs b = "healpix"%string -> b_pols b = Some pols -> NoDup pols -> nth_error pols i = Some n ->
  exists l, beam_integral f b pol = Ok l /\ length l = b_nfreq b /\ forall k, (k < b_nfreq b)%nat ->
    nth k l cx0 = cx_scale (PI / (3 * INR (b_nside b) ^ 2)) (cx_sum (map (fun x => f (b_data b 0%nat i k x)) (seq 0 (b_npix b)))).
Proof.
  intros f b pol n i pols H1 H2 H3 H4 H5 H6 ND Hi. unfold beam_integral, get_beam. rewrite H1. cbn [bind]. rewrite H2, H3, H4, H5, H6.
  cbn [String.eqb negb Ascii.eqb Bool.eqb Nat.ltb Nat.leb].
  assert (index_of Z.eqb n pols = Some i) as ->.
  { clear - ND Hi. revert i Hi. induction ND as [|m pols Nm ND IH]; intros [|i] Hi; try discriminate; simpl in *.
    - injection Hi as ->. rewrite Z.eqb_refl. reflexivity.
    - destruct (Z.eqb_spec n m) as [->|_]; [apply nth_error_In in Hi; contradiction|]. rewrite (IH i Hi). reflexivity. }
  cbn [bind]. eexists. split; [reflexivity|]. split; [rewrite map_length, seq_length; reflexivity|].
  intros k Hk. erewrite nth_indep with (d' := _) by (rewrite map_length, seq_length; exact Hk).
  match goal with |- nth _ (map ?F _) _ = _ => rewrite (map_nth F (seq 0 (b_nfreq b)) 0%nat k) end. rewrite seq_nth by exact Hk. reflexivity.
Qed.

Lemma area_real : forall b pol n, polstr2num (b_xo b) pol = Ok n -> b_type b = "power"%string -> b_nvec b = 1%nat ->
  b_norm b = "peak"%string -> b_cs b = "healpix"%string -> (0 < b_nside b)%nat -> (b_npix b <= 12 * b_nside b ^ 2)%nat ->
  forall w, (exists pols, b_pols b = Some pols /\ NoDup pols) -> 
  (forall k x, in_beam b k x -> beam_at b n 0 k x (of_real (w k x)) /\ 0 <= w k x <= 1) -> (exists pols, b_pols b = Some pols /\ In n pols) ->
  exists areas squares, get_beam_area b pol = Ok areas /\ get_beam_sq_area b pol = Ok squares /\ length areas = b_nfreq b /\ length squares = b_nfreq b /\
  forall k, (k < b_nfreq b)%nat ->
    nth k areas cx0 = of_real (pixel_area (b_nside b) * rsum (b_npix b) (w k)) /\
    nth k squares cx0 = of_real (pixel_area (b_nside b) * rsum (b_npix b) (fun x => w k x ^ 2)) /\
    0 <= fst (nth k squares cx0) <= fst (nth k areas cx0) /\ fst (nth k areas cx0) <= 4 * PI.
Proof.
  intros b pol n H1 H2 H3 H4 H5 Hn Hpix w (pols & P & ND) Hw (pols' & P' & I). rewrite P in P'. injection P' as <-.
  apply In_nth_error in I as [i Hi].
  destruct (area_spec (fun a => a) b pol n i pols H1 H2 H3 H4 H5 P ND Hi) as (la & Ea & La & Va).
  destruct (area_spec (fun a => cx_mul a a) b pol n i pols H1 H2 H3 H4 H5 P ND Hi) as (ls & Es & Ls & Vs).
  exists la, ls. do 4 (split; [assumption|]). intros k Hk.
  assert (D : forall x, (x < b_npix b)%nat -> b_data b 0%nat i k x = of_real (w k x) /\ 0 <= w k x <= 1).
  { intros x Hx. destruct (Hw k x (conj Hk Hx)) as [(pols' & j & Ep & Ej & E) W]. split; [|exact W]. rewrite P in Ep. injection Ep as <-.
    rewrite <- E. f_equal. apply (proj1 (NoDup_nth_error pols) ND); [apply nth_error_Some; congruence|congruence]. }
  assert (Pn : 0 < INR (b_nside b)) by (apply lt_0_INR; exact Hn).
  assert (Pa : 0 < pixel_area (b_nside b)). { unfold pixel_area. pose proof PI_RGT_0. apply Rdiv_lt_0_compat; [lra|]. nra. }
  assert (A1 : nth k la cx0 = of_real (pixel_area (b_nside b) * rsum (b_npix b) (w k))).
  { rewrite (Va k Hk). rewrite cx_sum_real by (intros x J; apply in_seq in J; rewrite (proj1 (D x ltac:(lia))); reflexivity).
    rewrite (map_ext_in _ (w k)) by (intros x J; apply in_seq in J; rewrite (proj1 (D x ltac:(lia))); reflexivity). rewrite rsum_seq.
    apply cx_eq; unfold cx_scale, of_real, pixel_area; cbn [fst snd]; [field; lra|ring]. }
  assert (A2 : nth k ls cx0 = of_real (pixel_area (b_nside b) * rsum (b_npix b) (fun x => w k x ^ 2))).
  { rewrite (Vs k Hk). rewrite cx_sum_real by (intros x J; apply in_seq in J; rewrite (proj1 (D x ltac:(lia))); unfold cx_mul, of_real; cbn [fst snd]; ring).
    rewrite (map_ext_in _ (fun x => w k x ^ 2)) by (intros x J; apply in_seq in J; rewrite (proj1 (D x ltac:(lia))); unfold cx_mul, of_real; cbn [fst snd]; ring). rewrite rsum_seq.
    apply cx_eq; unfold cx_scale, of_real, pixel_area; cbn [fst snd]; [field; lra|ring]. }
  split; [exact A1|]. split; [exact A2|]. rewrite A1, A2. unfold of_real; cbn [fst].
  assert (S0 : 0 <= rsum (b_npix b) (fun x => w k x ^ 2)).
  { replace 0 with (rsum (b_npix b) (fun _ => 0)) by (rewrite rsum_const; ring). apply rsum_le. intros. apply pow2_ge_0. }
  assert (S1 : rsum (b_npix b) (fun x => w k x ^ 2) <= rsum (b_npix b) (w k)).
  { apply rsum_le. intros x Hx. destruct (D x Hx) as [_ W]. nra. }
  assert (S2 : rsum (b_npix b) (w k) <= INR (b_npix b)).
  { replace (INR (b_npix b)) with (rsum (b_npix b) (fun _ => 1)) by (rewrite rsum_const; ring). apply rsum_le. intros x Hx. destruct (D x Hx) as [_ W]. lra. }
  split; [split; [nra|nra]|].
  apply Rle_trans with (pixel_area (b_nside b) * INR (b_npix b)); [nra|].
  assert (S3 : INR (b_npix b) <= 12 * INR (b_nside b) ^ 2).
  { apply le_INR in Hpix. rewrite mult_INR, pow_INR in Hpix. replace (INR 12) with 12 in Hpix by (simpl; ring). exact Hpix. }
  apply Rle_trans with (pixel_area (b_nside b) * (12 * INR (b_nside b) ^ 2)); [nra|]. unfold pixel_area. right. field. lra.
Qed.
