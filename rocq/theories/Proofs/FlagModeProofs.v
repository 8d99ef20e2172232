(** Flags and metrics. *)
From Coq Require Import List ZArith Bool Arith QArith Qcanon Reals Qreals Lia Lra.
From Verif Require Import Lib.Py Lib.Np Lib.QSum Model.Access Model.UVFlag Model.FlagSelect Model.Collapse Model.FlagMode
  Spec.CollapseSpec Spec.FlagSpec Spec.FlagModeSpec Proofs.FlagProofs Proofs.FlagApply.
Import ListNotations.
Open Scope list_scope.
Notation length := List.length.

(** * Thresholds *)
Lemma qleb_spec x y : qleb x y = true <-> (Q2R (this x) <= Q2R (this y))%R.
Proof.
  unfold qleb. destruct (Qclt_le_dec y x) as [H|H].
  - split; [discriminate|]. intros L. exfalso. apply Qlt_Rlt in H. lra.
  - split; [|reflexivity]. intros _. apply Qle_Rle. exact H.
Qed.
Lemma Q2R_qcmult x y : Q2R (this (x * y)%Qc) = (Q2R (this x) * Q2R (this y))%R.
Proof. cbn [this Q2Qc Qcmult]. rewrite (Qeq_eqR _ _ (Qred_correct _)), Q2R_mult. reflexivity. Qed.
Lemma Q2R_qc0 : Q2R (this 0%Qc) = 0%R.
Proof. change (this 0%Qc) with 0%Q. apply RMicromega.Q2R_0. Qed.

Lemma sqrt_neg x : (x <= 0 -> sqrt x = 0)%R.
Proof. intros H. destruct (Req_dec x 0) as [->|]; [apply sqrt_0|]. apply sqrt_neg_0. lra. Qed.

Lemma le_sqrt t x : (t <= sqrt x <-> t <= 0 \/ t * t <= x)%R.
Proof.
  split.
  - intros H. destruct (Rle_dec t 0) as [|N]; [left; assumption|right].
    destruct (Rle_dec x 0) as [X|X]; [rewrite (sqrt_neg x X) in H; lra|].
    rewrite <- (sqrt_sqrt x) by lra. apply Rmult_le_compat; lra.
  - pose proof (sqrt_pos x). intros [H'|H']; [lra|]. destruct (Rle_dec t 0); [lra|].
    rewrite <- (sqrt_square t) by lra. apply sqrt_le_1_alt. exact H'.
Qed.
Lemma sqrt_le t x : (sqrt t <= x <-> 0 <= x /\ t <= x * x)%R.
Proof.
  pose proof (sqrt_pos t) as P. split.
  - intros H. split; [lra|]. destruct (Rle_dec t 0) as [T|T]; [pose proof (Rle_0_sqr x) as Q; unfold Rsqr in Q; lra|].
    rewrite <- (sqrt_sqrt t) by lra. apply Rmult_le_compat; lra.
  - intros [A B]. rewrite <- (sqrt_square x) by lra. apply sqrt_le_1_alt. exact B.
Qed.
Lemma sqrt_le_sqrt t x : (sqrt t <= sqrt x <-> t <= 0 \/ t <= x)%R.
Proof.
  pose proof (sqrt_pos x) as P. split.
  - intros H. destruct (Rle_dec t 0) as [|T]; [left; assumption|right].
    destruct (Rle_dec x 0) as [X|X].
    + rewrite (sqrt_neg x X) in H. pose proof (sqrt_lt_R0 t ltac:(lra)). lra.
    + apply sqrt_le_0; lra.
  - intros [H|H]; [rewrite (sqrt_neg t H); lra|]. apply sqrt_le_1_alt. exact H.
Qed.

Lemma reaches_spec t x : reaches t x = true <-> at_least x t.
Proof.
  unfold at_least, reaches. destruct x as [x|n|x], t as [t|n'|t]; cbn [real_of].
  - rewrite qleb_spec. split; [intros H; right; right; do 2 eexists; split; [reflexivity|]; split; [reflexivity|exact H]|].
    intros [X|[X|(a & b & X & Y & H)]]; try discriminate. injection X as <-. injection Y as <-. exact H.
  - split; [intros ->; right; left; reflexivity|]. intros [X|[X|(a & b & X & Y & H)]]; try discriminate. injection X as ->. reflexivity.
  - rewrite andb_true_iff, !qleb_spec, Q2R_qcmult, Q2R_qc0, <- sqrt_le.
    split; [intros H; right; right; do 2 eexists; split; [reflexivity|]; split; [reflexivity|exact H]|].
    intros [X|[X|(a & b & X & Y & H)]]; try discriminate. injection X as <-. injection Y as <-. exact H.
  - rewrite negb_true_iff. split; [intros ->; left; reflexivity|]. intros [X|[X|(a & b & X & Y & H)]]; try discriminate. injection X as ->. reflexivity.
  - destruct n, n'; cbn; split; auto; try discriminate. intros [X|[X|(a & b & X & Y & H)]]; discriminate.
  - rewrite negb_true_iff. split; [intros ->; left; reflexivity|]. intros [X|[X|(a & b & X & Y & H)]]; try discriminate. injection X as ->. reflexivity.
  - rewrite orb_true_iff, !qleb_spec, Q2R_qcmult, Q2R_qc0, <- le_sqrt.
    split; [intros H; right; right; do 2 eexists; split; [reflexivity|]; split; [reflexivity|exact H]|].
    intros [X|[X|(a & b & X & Y & H)]]; try discriminate. injection X as <-. injection Y as <-. exact H.
  - split; [intros ->; right; left; reflexivity|]. intros [X|[X|(a & b & X & Y & H)]]; try discriminate. injection X as ->. reflexivity.
  - rewrite orb_true_iff, !qleb_spec, Q2R_qc0, <- sqrt_le_sqrt.
    split; [intros H; right; right; do 2 eexists; split; [reflexivity|]; split; [reflexivity|exact H]|].
    intros [X|[X|(a & b & X & Y & H)]]; try discriminate. injection X as <-. injection Y as <-. exact H.
Qed.

Lemma shape_eqb_spec a b : shape_eqb a b = true <-> a = b.
Proof. unfold shape_eqb. destruct (list_eq_dec Nat.eq_dec a b); split; congruence. Qed.
Lemma with_mode_labels m u : same_labels u (with_mode m u).
Proof. repeat split. Qed.

Lemma to_flag_ok rc t u m w sq : o_mode u = Metrics m w sq -> shape m = form u ->
  exists v f, to_flag rc t u = Ok v /\ same_labels u v /\ flags_are v f /\ forall x, at_ f x = true <-> at_least (at_ m x) t.
Proof.
  intros M H. unfold to_flag. rewrite M. unfold checked.
  assert (C : check_shapes (with_mode (Flags (mkarr (shape m) (fun ix => reaches t (at_ m ix)))) u) = true)
    by (unfold check_shapes; cbn [o_mode with_mode shape]; apply shape_eqb_spec; exact H).
  rewrite C. cbn [negb]. rewrite andb_false_r.
  do 2 eexists. split; [reflexivity|]. split; [apply with_mode_labels|].
  split; [split; [reflexivity|cbn [shape]; exact H]|]. intros x. cbn [at_]. apply reaches_spec.
Qed.

(** * Weights *)
Lemma fold_point {K} (g : K -> (index -> Qc) -> index -> Qc) (hit : K -> bool) (c : Qc) (ix : index) : (c * c = c)%Qc ->
  forall l w, (forall i w, In i l -> g i w ix = if hit i then (w ix * c)%Qc else w ix) ->
  fold_left (fun w i => g i w) l w ix = if existsb hit l then (w ix * c)%Qc else w ix.
Proof.
  intros C. induction l as [|i l IH]; intros w H; [reflexivity|]. cbn [fold_left existsb].
  rewrite IH by (intros; apply H; right; assumption). rewrite (H i w (or_introl eq_refl)).
  destruct (hit i), (existsb hit l); cbn [orb]; try reflexivity. rewrite <- Qcmult_assoc, C. reflexivity.
Qed.
Lemma b2q_idem b : (b2q b * b2q b = b2q b)%Qc.
Proof. destruct b; cbn [b2q]; ring. Qed.
Lemma existsb_seq p n : existsb (fun i => (p =? i)%nat) (seq 0 n) = (p <? n)%nat.
Proof.
  destruct (p <? n)%nat eqn:L.
  - apply existsb_exists. exists p. apply Nat.ltb_lt in L. rewrite in_seq, Nat.eqb_refl. split; [lia|reflexivity].
  - destruct (existsb _ _) eqn:X; [|reflexivity]. apply existsb_exists in X. destruct X as (i & I & E).
    apply in_seq in I. apply Nat.eqb_eq in E. apply Nat.ltb_ge in L. lia.
Qed.

Lemma within3 a b c x : within [a; b; c] x <-> exists i j k, x = [i; j; k] /\ (i < a /\ j < b /\ k < c)%nat.
Proof.
  split.
  - intros H. inversion H as [|i ? x1 ? A H1]; subst. inversion H1 as [|j ? x2 ? B H2]; subst. inversion H2 as [|k ? x3 ? C H3]; subst.
    inversion H3; subst. exists i, j, k. auto.
  - intros (i & j & k & -> & A & B & C). repeat constructor; assumption.
Qed.
Lemma within4 a b c d x : within [a; b; c; d] x <-> exists i j k l, x = [i; j; k; l] /\ (i < a /\ j < b /\ k < c /\ l < d)%nat.
Proof.
  split.
  - intros H. inversion H as [|i ? x1 ? A H1]; subst. apply within3 in H1. destruct H1 as (j & k & l & -> & B & C & D).
    exists i, j, k, l. auto.
  - intros (i & j & k & l & -> & A & B & C & D). repeat constructor; assumption.
Qed.

Lemma weight_of_line b (P : Prop) (w : Qc) : (b = true <-> P) -> w = b2q (negb b) -> (P -> w = 0%Qc) /\ (~ P -> w = 1%Qc).
Proof.
  intros [A B] ->. split.
  - intros p. rewrite (B p). reflexivity.
  - intros np. destruct b; [exfalso; apply np, A; reflexivity|reflexivity].
Qed.

Lemma existsb_ext_local (a : nat) l : existsb (fun b => (a =? b)%nat && true) l = existsb (fun b => (a =? b)%nat) l.
Proof. induction l as [|x l IH]; [reflexivity|]. cbn [existsb]. rewrite IH, andb_true_r. reflexivity. Qed.
Lemma existsb_false_local (a : nat) l : existsb (fun b => (a =? b)%nat && false) l = false.
Proof. induction l as [|x l IH]; [reflexivity|]. cbn [existsb]. rewrite IH, andb_false_r. reflexivity. Qed.

Section Weights.
Variable u : mobj.
Variable f : arr bool.
Hypothesis HF : flags_are u f.

Lemma weights_wf : o_type u = TypeWaterfall -> exists w, flag_weights u f = Ok w /\
  forall x, within (shape f) x -> (whole_line u f x -> w x = 0%Qc) /\ (~ whole_line u f x -> w x = 1%Qc).
Proof.
  intros T. destruct HF as [_ SH]. unfold form in SH. rewrite T in SH. unfold flag_weights. rewrite T.
  eexists. split; [reflexivity|]. intros x Wx. rewrite SH in Wx. apply within3 in Wx. destruct Wx as (t & j & p & -> & Lt & Lj & Lp).
  set (arc := and_rows_cols (length (o_time u)) (length (o_freq u)) (fun t j => at_ f [t; j; p]) t j).
  apply (weight_of_line arc).
  - unfold arc. rewrite and_rows_cols_spec by assumption. unfold whole_line, same_time_line, same_channel_line. rewrite T, SH. split.
    + intros [H|H]; [right|left]; intros y Wy S; apply within3 in Wy; destruct Wy as (t' & j' & p' & -> & A & B & C); destruct S as [-> ->]; apply H; assumption.
    + intros [H|H]; [right|left]; intros k Lk; apply H; try (apply within3; do 3 eexists; split; [reflexivity|auto]); auto.
  - rewrite (fold_point (fun i => clear_wf i f) (fun i => (p =? i)%nat) (b2q (negb arc))); [| |].
    + rewrite existsb_seq. rewrite (proj2 (Nat.ltb_lt _ _) Lp). ring.
    + apply b2q_idem.
    + intros i w _. unfold clear_wf. destruct (p =? i)%nat eqn:E; [|reflexivity]. apply Nat.eqb_eq in E. subst i.
      rewrite SH. reflexivity.
Qed.

Lemma weights_ant : o_type u = TypeAntenna -> exists w, flag_weights u f = Ok w /\
  forall x, within (shape f) x -> (whole_line u f x -> w x = 0%Qc) /\ (~ whole_line u f x -> w x = 1%Qc).
Proof.
  intros T. destruct HF as [_ SH]. unfold form in SH. rewrite T in SH. unfold flag_weights. rewrite T.
  eexists. split; [reflexivity|]. intros x Wx. rewrite SH in Wx. apply within4 in Wx. destruct Wx as (a & j & t & p & -> & La & Lj & Lt & Lp).
  set (arc := and_rows_cols (length (o_freq u)) (length (o_time u)) (fun j t => at_ f [a; j; t; p]) j t).
  apply (weight_of_line arc).
  - unfold arc. rewrite and_rows_cols_spec by assumption. unfold whole_line, same_time_line, same_channel_line. rewrite T, SH. split.
    + intros [H|H]; [left|right]; intros y Wy S; apply within4 in Wy; destruct Wy as (a' & j' & t' & p' & -> & A & B & C & D); destruct S as (-> & -> & ->); apply H; assumption.
    + intros [H|H]; [left|right]; intros k Lk; apply H; try (apply within4; do 4 eexists; split; [reflexivity|auto]); auto.
  - rewrite (fold_point (fun i w => fold_left (fun w a => clear_ant i a f w) (seq 0 (nth 0 (shape f) 0%nat)) w) (fun i => (p =? i)%nat) (b2q (negb arc))); [| |].
    + rewrite existsb_seq. rewrite (proj2 (Nat.ltb_lt _ _) Lp). ring.
    + apply b2q_idem.
    + intros i w _.
      rewrite (fold_point (fun b => clear_ant i b f) (fun b => (a =? b)%nat && (p =? i)%nat) (b2q (negb arc))); [| apply b2q_idem |].
      * destruct (p =? i)%nat.
        -- rewrite (existsb_ext_local a). rewrite SH. cbn [nth]. rewrite existsb_seq. rewrite (proj2 (Nat.ltb_lt _ _) La). reflexivity.
        -- rewrite existsb_false_local. reflexivity.
      * intros b w' _. unfold clear_ant. destruct (a =? b)%nat eqn:E; [|reflexivity]. destruct (p =? i)%nat eqn:E'; [|reflexivity].
        apply Nat.eqb_eq in E, E'. subst b i. rewrite SH. reflexivity.
Qed.
Lemma weights_bl : o_type u = TypeBaseline -> flag_consistent (as_rows u) -> exists w, flag_weights u f = Ok w /\
  forall x, within (shape f) x -> (whole_line u f x -> w x = 0%Qc) /\ (~ whole_line u f x -> w x = 1%Qc).
Proof.
  intros T FC. destruct HF as [_ SH]. unfold form in SH. rewrite T in SH. unfold flag_weights. rewrite T.
  destruct (seq 0 (pol_size (o_pols u))) as [|q ql] eqn:EP.
  { eexists. split; [reflexivity|]. intros x Wx. rewrite SH in Wx. apply within3 in Wx. destruct Wx as (t & j & p & -> & Lt & Lj & Lp).
    destruct (pol_size (o_pols u)); [lia|discriminate EP]. }
  rewrite <- EP. clear q ql EP. destruct (f_pairs_ok _ FC) as (pairs & EP & PP). rewrite EP. cbn [bind].
  eexists. split; [reflexivity|]. intros x Wx. rewrite SH in Wx. apply within3 in Wx. destruct Wx as (r & j & p & -> & Lr & Lj & Lp).
  set (me := (nth r (o_ant1 u) 0%Z, nth r (o_ant2 u) 0%Z)).
  set (inds := flag_rows (as_rows u) (fst me) (snd me)).
  assert (In_inds : forall i, In i inds <-> (i < length (o_time u))%nat /\ same_pair u i r).
  { intros i. unfold inds. rewrite flag_rows_In. unfold same_pair, me. cbn [fst snd as_rows f_time f_ant1 f_ant2]. tauto. }
  assert (Ir : In r inds) by (apply In_inds; split; [exact Lr|split; reflexivity]).
  destruct (index_of Nat.eqb r inds) as [k|] eqn:EK; [|apply (index_of_None Nat.eqb Nat.eqb_eq) in EK; contradiction].
  destruct (index_of_Some Nat.eqb Nat.eqb_eq 0%nat _ _ _ EK) as (Lk & Nk & _).
  set (arc := and_rows_cols (length inds) (length (o_freq u)) (fun k j => at_ f [nth k inds 0%nat; j; p]) k j).
  apply (weight_of_line arc).
  - unfold arc. rewrite and_rows_cols_spec by assumption. unfold whole_line, same_time_line, same_channel_line. rewrite T, SH, Nk. split.
    + intros [H|H].
      * right. intros y Wy S. apply within3 in Wy. destruct Wy as (r' & j' & p' & -> & A & B & C). destruct S as (SP & <- & <-).
        assert (I : In r' inds) by (apply In_inds; split; [exact A|destruct SP; split; congruence]).
        apply In_nth with (d := 0%nat) in I. destruct I as (k' & Lk' & <-). apply H. exact Lk'.
      * left. intros y Wy S. apply within3 in Wy. destruct Wy as (r' & j' & p' & -> & A & B & C). destruct S as [<- <-]. apply H. exact B.
    + intros [H|H].
      * right. intros j' Lj'. apply H; [apply within3; do 3 eexists; split; [reflexivity|auto]|auto].
      * left. intros k' Lk'. assert (I : In (nth k' inds 0%nat) inds) by (apply nth_In; exact Lk'). apply In_inds in I. destruct I as (A & B).
        apply H; [apply within3; do 3 eexists; split; [reflexivity|auto]|]. destruct B. repeat split; congruence.
  - rewrite (fold_point (fun i w => fold_left (fun w q => clear_pair i (f_pair_rows (as_rows u) (fst q) (snd q)) f w) pairs w)
               (fun i => (p =? i)%nat) (b2q (negb arc))); [| |].
    + rewrite existsb_seq. rewrite (proj2 (Nat.ltb_lt _ _) Lp). ring.
    + apply b2q_idem.
    + intros i w _.
      rewrite (fold_point (fun q => clear_pair i (f_pair_rows (as_rows u) (fst q) (snd q)) f) (fun q => zpair_eqb q me && (p =? i)%nat) (b2q (negb arc)));
        [| apply b2q_idem |].
      * destruct (p =? i)%nat eqn:E.
        -- assert (X : existsb (fun q => zpair_eqb q me && true) pairs = true); [|rewrite X; reflexivity].
           apply existsb_exists. exists me. rewrite andb_true_r. split; [|apply pair_eqb_eq; reflexivity].
           rewrite (surjective_pairing me). apply PP. fold inds. intros N. rewrite N in Ir. contradiction.
        -- assert (X : existsb (fun q => zpair_eqb q me && false) pairs = false); [|rewrite X; reflexivity].
           clear. induction pairs as [|x l IH]; [reflexivity|]. cbn [existsb]. rewrite IH, andb_false_r. reflexivity.
      * intros q w' _. rewrite f_pair_rows_spec by exact FC. unfold clear_pair. destruct (zpair_eqb q me) eqn:E.
        -- apply pair_eqb_eq in E. subst q. fold inds. rewrite EK. destruct (p =? i)%nat eqn:E'; [|reflexivity].
           apply Nat.eqb_eq in E'. subst i. rewrite SH. reflexivity.
        -- destruct (index_of Nat.eqb r (flag_rows (as_rows u) (fst q) (snd q))) as [k'|] eqn:EK'; [|reflexivity]. exfalso.
           destruct (index_of_Some Nat.eqb Nat.eqb_eq 0%nat _ _ _ EK') as (Lk' & Nk' & _).
           pose proof (nth_In _ 0%nat Lk') as I. rewrite Nk' in I. apply flag_rows_In in I. cbn [as_rows f_time f_ant1 f_ant2] in I.
           destruct I as (_ & A & B). assert (zpair_eqb q me = true); [|congruence]. apply pair_eqb_eq. destruct q; unfold me; cbn [fst snd] in *. congruence.
Qed.

Lemma flag_weights_ok : rows_ok u -> exists w, flag_weights u f = Ok w /\
  forall x, within (shape f) x -> (whole_line u f x -> w x = 0%Qc) /\ (~ whole_line u f x -> w x = 1%Qc).
Proof.
  intros R. destruct (o_type u) eqn:T.
  - apply weights_wf. exact T.
  - apply weights_bl; [exact T|]. apply R. exact T.
  - apply weights_ant. exact T.
Qed.

Lemma to_metric_ok rc (c : bool) : (c = true -> rows_ok u) ->
  exists v m w, to_metric rc c u = Ok v /\ same_labels u v /\ o_mode v = Metrics m w None /\ shape m = form u /\ shape w = form u /\
    (forall x, at_ m x = Fin (if at_ f x then 1%Qc else 0%Qc)) /\
    forall x, within (form u) x ->
      (c = true /\ whole_line u f x -> at_ w x = 0%Qc) /\ (~ (c = true /\ whole_line u f x) -> at_ w x = 1%Qc).
Proof.
  intros R. destruct HF as [M SH]. unfold to_metric. rewrite M.
  assert (W : exists w, (if c then flag_weights u f else Ok (fun _ : index => 1%Qc)) = Ok w /\
    forall x, within (form u) x -> (c = true /\ whole_line u f x -> w x = 0%Qc) /\ (~ (c = true /\ whole_line u f x) -> w x = 1%Qc)).
  { destruct c.
    - destruct (flag_weights_ok (R eq_refl)) as (w & E & H). exists w. split; [exact E|]. rewrite <- SH. intros x Wx.
      destruct (H x Wx) as [A B]. split; [intros [_ X]; auto|intros X; apply B; intros Y; apply X; auto].
    - eexists. split; [reflexivity|]. intros x _. split; [intros [X _]; discriminate X|reflexivity]. }
  destruct W as (w & E & H). rewrite E. cbn [bind]. unfold checked, check_shapes. cbn [o_mode with_mode shape as_metric].
  change (form (with_mode _ u)) with (form u). rewrite (proj2 (shape_eqb_spec _ _) SH). cbn [andb negb]. rewrite andb_false_r.
  do 3 eexists. split; [reflexivity|]. split; [apply with_mode_labels|]. split; [reflexivity|]. cbn [shape as_metric at_].
  split; [exact SH|]. split; [exact SH|]. split; [|exact H]. intros x. destruct (at_ f x); reflexivity.
Qed.
End Weights.

(** * Or *)
Lemma fits_spec : forall a b, fits a b = true <->
  (length a <= length b)%nat /\ forall k, (k < length a)%nat -> nth k a 0%nat = nth k b 0%nat \/ nth k a 0%nat = 1%nat.
Proof.
  induction a as [|d a IH]; intros b; [cbn; split; [intros _; split; [lia|intros; lia]|reflexivity]|].
  destruct b as [|n b]; cbn [fits length]; [split; [discriminate|intros [X _]; lia]|].
  rewrite andb_true_iff, orb_true_iff, !Nat.eqb_eq, IH. split.
  - intros (A & L & H). split; [lia|]. intros [|k] Lk; [exact A|]. cbn [nth]. apply H. lia.
  - intros (L & H). split; [apply (H 0%nat); lia|]. split; [lia|]. intros k Lk. apply (H (S k)). lia.
Qed.
Lemma aligned_nth : forall s ix k, (length s <= length ix)%nat -> (k < length s)%nat ->
  nth k (aligned s ix) 0%nat = if (nth k s 0 =? 1)%nat then 0%nat else nth k ix 0%nat.
Proof.
  induction s as [|d s IH]; intros ix k L Lk; cbn [length] in *; [lia|]. destruct ix as [|i ix]; [cbn in L; lia|]. cbn [aligned].
  destruct k as [|k]; cbn [nth]; [reflexivity|]. apply IH; cbn [length] in *; lia.
Qed.
Lemma aligned_length : forall s ix, (length s <= length ix)%nat -> length (aligned s ix) = length s.
Proof.
  induction s as [|d s IH]; intros ix L; [reflexivity|]. destruct ix as [|i ix]; [cbn in L; lia|]. cbn [aligned length] in *. rewrite IH; lia.
Qed.
Lemma goes_with_unique s x y z : goes_with s x y -> goes_with s x z -> y = z.
Proof.
  intros [L H] [L' H']. rewrite <- (rev_involutive y), <- (rev_involutive z). f_equal.
  apply nth_ext with (d := 0%nat) (d' := 0%nat); [rewrite !rev_length; congruence|].
  intros k Lk. rewrite rev_length, L in Lk. rewrite H, H' by exact Lk. reflexivity.
Qed.

Lemma or_ok rc u v f g : flags_are u f -> flags_are v g -> spreads (form u) (form v) ->
  exists w h, or_flags rc u v = Ok w /\ same_labels u w /\ flags_are w h /\
    forall x y, within (form u) x -> goes_with (form v) x y -> at_ h x = at_ f x || at_ g y.
Proof.
  intros [M SH] [M' SH'] [L S]. unfold or_flags. rewrite M, M', SH, SH'.
  assert (F : fits (rev (form v)) (rev (form u)) = true) by (apply fits_spec; rewrite !rev_length; split; [exact L|exact S]).
  rewrite F. unfold checked, check_shapes. cbn [o_mode with_mode shape]. change (form (with_mode _ u)) with (form u).
  rewrite (proj2 (shape_eqb_spec (form u) (form u)) eq_refl). cbn [negb]. rewrite andb_false_r.
  do 2 eexists. split; [reflexivity|]. split; [apply with_mode_labels|]. split; [split; reflexivity|].
  intros x y Wx G. cbn [at_]. f_equal. f_equal. apply (goes_with_unique (form v) x); [|exact G].
  assert (Lx : (length (rev (form v)) <= length (rev x))%nat).
  { rewrite !rev_length. assert (length x = length (form u)); [|lia]. clear -Wx. induction Wx; cbn; congruence. }
  split; [rewrite rev_length, aligned_length by exact Lx; apply rev_length|].
  intros k Lk. rewrite rev_involutive. apply aligned_nth; [exact Lx|rewrite rev_length; exact Lk].
Qed.
Lemma or_refuses rc u v f g : o_mode u = Flags f -> o_mode v = Flags g -> shape f = form u -> shape g = form v ->
  ~ spreads (form u) (form v) -> or_flags rc u v = Err ValueError.
Proof.
  intros M M' SH SH' N. unfold or_flags. rewrite M, M', SH, SH'. destruct (fits _ _) eqn:F; [|reflexivity].
  exfalso. apply N. apply fits_spec in F. rewrite !rev_length in F. exact F.
Qed.
