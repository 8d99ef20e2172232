(** C81: gains of delays. *)
From Coq Require Import List ZArith Reals Bool Arith Lia String Lra.
From Verif Require Import Lib.Py Lib.Cube Model.Phase Model.Beam Model.UVCal Model.CalGain Spec.AddSpec Spec.CalSpec Spec.CalGainSpec.
Import ListNotations.
Notation length := List.length.
Open Scope list_scope.
Open Scope Z_scope.

Lemma sign_cases c : (exists s, delay_sign c = Ok s /\ sign_of c s) \/ (delay_sign c = Err ValueError /\ forall s, ~ sign_of c s).
Proof.
  unfold delay_sign. destruct (String.eqb_spec c "minus") as [->|N].
  - left. exists (-1)%R. split; [reflexivity|right; auto].
  - destruct (String.eqb_spec c "plus") as [->|N'].
    + left. exists 1%R. split; [reflexivity|left; auto].
    + right. split; [reflexivity|]. intros s [[H _]|[H _]]; contradiction.
Qed.
Lemma sign_fun c s s' : sign_of c s -> sign_of c s' -> s = s'.
Proof. intros [[-> ->]|[-> ->]] [[H ->]|[H ->]]; try reflexivity; discriminate. Qed.

Lemma outside_false r fs : outside r fs = false <-> match r with (lo, hi) :: _ => forall v, In v fs -> lo <= v <= hi | [] => True end.
Proof.
  destruct r as [|[lo hi] r]; cbn [outside]; [tauto|]. rewrite orb_false_iff. split.
  - intros [A B] v Hv. split.
    + apply Z.nlt_ge. intros L. assert (existsb (fun v => v <? lo) fs = true) by (apply existsb_exists; exists v; split; [exact Hv|apply Z.ltb_lt, L]). congruence.
    + apply Z.nlt_ge. intros L. assert (existsb (fun v => v >? hi) fs = true) by (apply existsb_exists; exists v; split; [exact Hv|apply Z.gtb_lt, L]). congruence.
  - intros H. split.
    + destruct (existsb _ _) eqn:E; [|reflexivity]. apply existsb_exists in E. destruct E as [v [Hv L]]. apply Z.ltb_lt in L. specialize (H v Hv). lia.
    + destruct (existsb _ _) eqn:E; [|reflexivity]. apply existsb_exists in E. destruct E as [v [Hv L]]. apply Z.gtb_lt in L. specialize (H v Hv). lia.
Qed.

Section conv.
Variables (secs hz : Z -> R).

Lemma convert_when fa wa c u :
  (exists rg, convert_to_gain secs hz fa wa c u = Ok rg) <->
  exists fs ws, fa = Freqs fs /\ wa = Widths ws /\ conversion_ok u fs ws c.
Proof.
  unfold convert_to_gain, conversion_ok. split.
  - intros [rg H]. destruct (c_gain u); [discriminate|].
    destruct (c_spws u) as [|w [|w' l]]; cbn [length Nat.ltb Nat.leb] in H; try discriminate.
    + apply bind_Ok in H. destruct H as [s [_ H]]. destruct fa; [|discriminate]. destruct wa; [|discriminate].
      destruct (negb _); [discriminate|]. destruct (outside _ _); discriminate.
    + destruct (sign_cases c) as [[s [E1 E2]]|[E1 _]]; rewrite E1 in H; [|discriminate]. cbn [bind] in H.
      destruct fa as [fs|]; [|discriminate]. destruct wa as [ws|]; [|discriminate].
      destruct (negb (length ws =? length fs)%nat) eqn:L; [discriminate|]. destruct (outside _ _) eqn:O; [discriminate|].
      exists fs, ws. split; [reflexivity|]. split; [reflexivity|]. split; [reflexivity|]. split; [eauto|]. split; [eauto|].
      split; [apply negb_false_iff, Nat.eqb_eq in L; exact L|]. apply outside_false, O.
  - intros [fs [ws [-> [-> [G [[w W] [[s E] [L F]]]]]]]]. rewrite G, W. cbn [length Nat.ltb Nat.leb].
    destruct (sign_cases c) as [[s' [E1 E2]]|[_ E2]]; [|elim (E2 s E)]. rewrite E1. cbn [bind].
    rewrite L, Nat.eqb_refl. cbn [negb]. apply outside_false in F. rewrite F. eexists. reflexivity.
Qed.

Lemma convert_inv fs ws c u r g : convert_to_gain secs hz (Freqs fs) (Widths ws) c u = Ok (r, g) ->
  exists s w, sign_of c s /\ c_spws u = [w] /\ length ws = length fs /\
  r = {| c_gain := true; c_wide := false; c_compat := c_compat u; c_ants := c_ants u; c_spws := c_spws u;
               c_freq_range := []; c_freqs := fs; c_widths := ws; c_flex := repeat w (length fs);
               c_flex_jones := c_flex_jones u; c_time_array := c_time_array u; c_time_range := c_time_range u;
               c_lst_array := c_lst_array u; c_lst_range := c_lst_range u; c_ref_ant := c_ref_ant u;
               c_int_time := c_int_time u; c_jones := c_jones u; c_sol := fun _ _ _ _ => (0, 0);
               c_flags := repeat1 (length fs) (c_flags u); c_qual := option_map (repeat1 (length fs)) (c_qual u);
               c_tqual := option_map (repeat0 (length fs)) (c_tqual u) |} /\
  g = fun a f t j => exp_i (s * 2 * PI * (secs (fst (c_sol u a 0%nat t j)) * hz (nth f fs 0%Z)))%R.
Proof.
  intros H. unfold convert_to_gain in H. destruct (c_gain u); [discriminate|].
  destruct (c_spws u) as [|w [|w' l]]; cbn [length Nat.ltb Nat.leb] in H; try discriminate.
  { apply bind_Ok in H. destruct H as [s [_ H]]. destruct (negb _); [discriminate|]. destruct (outside _ _); discriminate. }
  destruct (sign_cases c) as [[s [E1 E2]]|[E1 _]]; rewrite E1 in H; [|discriminate]. cbn [bind] in H.
  destruct (negb (length ws =? length fs)%nat) eqn:L; [discriminate|]. destruct (outside _ _) eqn:O; [discriminate|].
  injection H as <- <-. exists s, w. split; [exact E2|]. split; [reflexivity|].
  split; [apply negb_false_iff, Nat.eqb_eq in L; exact L|]. split; reflexivity.
Qed.

Lemma convert_valid fs ws c u r g : cal_ok u -> NoDup fs -> fs <> [] ->
  convert_to_gain secs hz (Freqs fs) (Widths ws) c u = Ok (r, g) -> cal_ok r.
Proof.
  intros [T [_ [N [J [A [_ [Ti Jo]]]]]]] Nf Ne H. destruct (convert_inv _ _ _ _ _ _ H) as [s [w [S1 [W [L [-> _]]]]]].
  split; [exact T|]. split; [|split; [exact N|split; [exact J|split; [exact A|split; [|split; [exact Ti|exact Jo]]]]]].
  - cbn [c_wide c_widths c_freqs c_flex c_spws]. split; [exact L|]. split; [apply repeat_length|]. intros v. rewrite W. split.
    + intros Hv. apply repeat_spec in Hv. left. congruence.
    + intros [<-|[]]. destruct fs; [contradiction|left; reflexivity].
  - intros i j Hi Hj E. unfold Nchans in *. cbn [c_wide c_freqs] in *. unfold chan_at in E. cbn [c_wide c_flex c_freqs] in E.
    injection E as _ E. rewrite NoDup_nth in Nf. apply (Nf i j Hi Hj E).
Qed.
End conv.

Lemma conj_exp a : cx_conj (exp_i a) = exp_i (- a).
Proof. unfold cx_conj, exp_i. cbn [fst snd]. now rewrite cos_neg, sin_neg. Qed.
Lemma mul_exp a b : cx_mul (exp_i a) (exp_i b) = exp_i (a + b).
Proof. unfold cx_mul, exp_i. cbn [fst snd]. rewrite cos_plus, sin_plus. f_equal. ring. Qed.
Lemma abs_exp a : cx_abs (exp_i a) = 1%R.
Proof.
  unfold cx_abs, exp_i. cbn [fst snd]. pose proof (sin2_cos2 a) as H. unfold Rsqr in H.
  replace (cos a * cos a + sin a * sin a)%R with 1%R by lra. apply sqrt_1.
Qed.
