(** C81: turning delays into gains. *)
From Coq Require Import List ZArith Reals Bool Arith Lia String Lra.
From Verif Require Import Lib.Py Lib.Cube Model.Phase Model.Beam Model.UVCal Model.CalGain Spec.CalSpec Spec.CalGainSpec
  Proofs.CalGainProofs.
Import ListNotations.
Notation length := List.length.
Open Scope list_scope.
Open Scope Z_scope.

(** One window of 100 to 200, two antennas, one time, two Jones terms; antenna 4 has delays 3 and 5,
    antenna 7 delays 13 and 15; the second Jones term of antenna 7 is flagged. *)
Definition delays : ucal :=
  {| c_gain := false; c_wide := true; c_compat := 0; c_ants := [4; 7]; c_spws := [2]; c_freq_range := [(100, 200)];
     c_freqs := []; c_widths := []; c_flex := []; c_flex_jones := None; c_time_array := Some [50]; c_time_range := None;
     c_lst_array := Some [60]; c_lst_range := None; c_ref_ant := None; c_int_time := [10]; c_jones := [-5; -6];
     c_sol := fun a f t j => (3 + 10 * Z.of_nat a + 2 * Z.of_nat j, 0);
     c_flags := fun a f t j => ((a =? 1)%nat && (j =? 1)%nat)%bool;
     c_qual := Some (fun a f t j => Z.of_nat a); c_tqual := Some (fun f t j => Z.of_nat j) |}.

(** It is refused, with a ValueError or for lack of a window, unless all of this holds. *)
Theorem C81_when : forall secs hz freq_array channel_width convention u,
  (exists rg, convert_to_gain secs hz freq_array channel_width convention u = Ok rg) <->
  exists fs ws, freq_array = Freqs fs /\ channel_width = Widths ws /\ conversion_ok u fs ws convention.
Proof. exact convert_when. Qed.
Print Assumptions C81_when.
Example C81_when_case : conversion_ok delays [100; 150; 200] [50; 50; 50] "minus" /\ ~ conversion_ok delays [99] [1] "minus".
Proof.
  split.
  - split; [reflexivity|]. split; [exists 2; reflexivity|]. split; [exists (-1)%R; right; auto|]. split; [reflexivity|].
    cbn. intros v [<-|[<-|[<-|[]]]]; lia.
  - intros [_ [_ [_ [_ H]]]]. cbn in H. specialize (H 99 (or_introl eq_refl)). lia.
Qed.

(** The result is a valid gain object with the frequencies asked for, in the window
    of the delays, and the same antennas, times and Jones terms ... *)
Theorem C81_object : forall secs hz fs ws convention u r g,
  cal_ok u -> NoDup fs -> fs <> [] -> convert_to_gain secs hz (Freqs fs) (Widths ws) convention u = Ok (r, g) ->
  cal_ok r /\ c_gain r = true /\ c_wide r = false /\ c_compat r = c_compat u /\
  same_ants u r /\ same_times u r /\ same_jones u r /\
  c_freqs r = fs /\ c_widths r = ws /\ c_spws r = c_spws u /\ c_flex_jones r = c_flex_jones u /\
  (forall w, In w (c_flex r) <-> In w (c_spws u)) /\ c_freq_range r = [].
Proof.
  intros secs hz fs ws c u r g V N Ne H. pose proof (convert_valid secs hz fs ws c u r g V N Ne H) as V'.
  pose proof V' as [_ [VC _]]. destruct (convert_inv _ _ _ _ _ _ _ _ H) as [s [w [S1 [W [L [E _]]]]]].
  split; [exact V'|]. rewrite E in VC |- *. cbn [c_wide c_spws c_flex] in VC.
  repeat (split; [reflexivity|]). split; [repeat split|]. repeat (split; [reflexivity|]).
  split; [exact (proj2 (proj2 VC))|reflexivity].
Qed.
Print Assumptions C81_object.
Example C81_object_case : cal_ok delays /\
  match convert_to_gain IZR IZR (Freqs [150; 100]) (Widths [50; 60]) "plus" delays with
  | Ok (r, _) => c_freqs r = [150; 100] /\ c_flex r = [2; 2] /\ c_flags r 1%nat 1%nat 0%nat 1%nat = true /\ c_flags r 0%nat 1%nat 0%nat 1%nat = false
  | Err _ => False
  end.
Proof.
  split.
  - split; [repeat split; intros l H; injection H as <- || discriminate; reflexivity|]. split; [reflexivity|].
    split; [constructor; [intros []|constructor]|]. split; [discriminate|].
    split; [intros [|[|i]] [|[|j]] Hi Hj E; cbn in *; try reflexivity; try discriminate; lia|].
    split; [intros [|i] [|j] Hi Hj E; cbn in *; try reflexivity; lia|].
    split; [intros [|i] [|j] Hi Hj E; cbn in *; try reflexivity; lia|].
    intros [|[|i]] [|[|j]] Hi Hj E; cbn in *; try reflexivity; try discriminate; lia.
  - cbn. repeat split; reflexivity.
Qed.

(** ... whose gains are exp(+ or - 2 pi i delay frequency), each channel with the flag
    and the qualities of its delay. *)
Theorem C81_gains : forall secs hz fs ws convention u r g a f t j,
  convert_to_gain secs hz (Freqs fs) (Widths ws) convention u = Ok (r, g) -> (f < length fs)%nat ->
  (exists s, sign_of convention s /\
     let turns := (secs (fst (c_sol u a 0%nat t j)) * hz (nth f fs 0%Z))%R in
     g a f t j = (cos (s * (2 * PI * turns)), sin (s * (2 * PI * turns)))%R) /\
  c_flags r a f t j = c_flags u a 0%nat t j /\
  option_map (fun q => q a f t j) (c_qual r) = option_map (fun q => q a 0%nat t j) (c_qual u) /\
  option_map (fun q => q f t j) (c_tqual r) = option_map (fun q => q 0%nat t j) (c_tqual u).
Proof.
  intros secs hz fs ws c u r g a f t j H L. destruct (convert_inv _ _ _ _ _ _ _ _ H) as [s [w [S1 [W [_ [-> ->]]]]]].
  split.
  - exists s. split; [exact S1|]. cbv zeta. unfold exp_i. f_equal; f_equal; ring.
  - cbn [c_flags c_qual c_tqual]. unfold repeat1, repeat0. rewrite (Nat.div_small f (length fs) L).
    split; [reflexivity|]. destruct (c_qual u), (c_tqual u); cbn [option_map]; rewrite ?(Nat.div_small f (length fs) L); split; reflexivity.
Qed.
Print Assumptions C81_gains.
(** a delay of 13 and a frequency of 1/4: a quarter of a turn, backwards *)
Example C81_gains_case : exists r g,
  convert_to_gain IZR (fun z => / 400 * IZR z)%R (Freqs [100; 200]) (Widths [100; 100]) "minus" delays = Ok (r, g) /\
  g 1%nat 0%nat 0%nat 0%nat = (0, -1)%R /\ g 1%nat 1%nat 0%nat 0%nat = (-1, 0)%R.
Proof.
  eexists. eexists. split; [reflexivity|]. cbv beta. unfold exp_i.
  change (fst (c_sol delays 1%nat 0%nat 0%nat 0%nat)) with 13. change (nth 0 [100; 200] 0) with 100. change (nth 1 [100; 200] 0) with 200.
  split; f_equal.
  - replace (-1 * 2 * PI * (13 * (/ 400 * 100)))%R with (- (PI / 2 + 2 * INR 3 * PI))%R by (cbn [INR]; field).
    rewrite cos_neg, cos_period. apply cos_PI2.
  - replace (-1 * 2 * PI * (13 * (/ 400 * 100)))%R with (- (PI / 2 + 2 * INR 3 * PI))%R by (cbn [INR]; field).
    rewrite sin_neg, sin_period, sin_PI2. reflexivity.
  - replace (-1 * 2 * PI * (13 * (/ 400 * 200)))%R with (- (PI + 2 * INR 6 * PI))%R by (cbn [INR]; field).
    rewrite cos_neg, cos_period. apply cos_PI.
  - replace (-1 * 2 * PI * (13 * (/ 400 * 200)))%R with (- (PI + 2 * INR 6 * PI))%R by (cbn [INR]; field).
    rewrite sin_neg, sin_period, sin_PI. apply Ropp_0.
Qed.

(** Gains of delays have modulus one ... *)
Theorem C81_modulus : forall secs hz fs ws convention u r g a f t j,
  convert_to_gain secs hz (Freqs fs) (Widths ws) convention u = Ok (r, g) -> cx_abs (g a f t j) = 1%R.
Proof.
  intros secs hz fs ws c u r g a f t j H. destruct (convert_inv _ _ _ _ _ _ _ _ H) as [s [w [_ [_ [_ [_ ->]]]]]]. apply abs_exp.
Qed.
Print Assumptions C81_modulus.

(** ... those of the two conventions are conjugate, so applying one after the other
    changes nothing ... *)
Theorem C81_conventions : forall secs hz fs ws u r g r' g' a f t j,
  convert_to_gain secs hz (Freqs fs) (Widths ws) "plus" u = Ok (r, g) ->
  convert_to_gain secs hz (Freqs fs) (Widths ws) "minus" u = Ok (r', g') ->
  g' a f t j = cx_conj (g a f t j) /\ cx_mul (g a f t j) (g' a f t j) = (1, 0)%R.
Proof.
  intros secs hz fs ws u r g r' g' a f t j H H'.
  destruct (convert_inv _ _ _ _ _ _ _ _ H) as [s [w [S1 [_ [_ [_ ->]]]]]]. destruct (convert_inv _ _ _ _ _ _ _ _ H') as [s' [w' [S2 [_ [_ [_ ->]]]]]].
  destruct S1 as [[_ ->]|[X _]]; [|discriminate]. destruct S2 as [[X _]|[_ ->]]; [discriminate|].
  split.
  - rewrite conj_exp. f_equal. ring.
  - rewrite mul_exp. unfold exp_i. match goal with |- (cos ?x, _) = _ => replace x with 0%R by ring end. now rewrite cos_0, sin_0.
Qed.
Print Assumptions C81_conventions.

(** ... the gains of a sum of delays are the products of the gains ... *)
Theorem C81_sum : forall secs hz fs ws convention u u' v r g r' g' rv gv a f t j,
  convert_to_gain secs hz (Freqs fs) (Widths ws) convention u = Ok (r, g) ->
  convert_to_gain secs hz (Freqs fs) (Widths ws) convention u' = Ok (r', g') ->
  convert_to_gain secs hz (Freqs fs) (Widths ws) convention v = Ok (rv, gv) ->
  (secs (fst (c_sol v a 0%nat t j)) = secs (fst (c_sol u a 0%nat t j)) + secs (fst (c_sol u' a 0%nat t j)))%R ->
  gv a f t j = cx_mul (g a f t j) (g' a f t j).
Proof.
  intros secs hz fs ws c u u' v r g r' g' rv gv a f t j H H' Hv E.
  destruct (convert_inv _ _ _ _ _ _ _ _ H) as [s [w [S1 [_ [_ [_ ->]]]]]]. destruct (convert_inv _ _ _ _ _ _ _ _ H') as [s' [w' [S2 [_ [_ [_ ->]]]]]].
  destruct (convert_inv _ _ _ _ _ _ _ _ Hv) as [s'' [w'' [S3 [_ [_ [_ ->]]]]]].
  rewrite (sign_fun _ _ _ S2 S1), (sign_fun _ _ _ S3 S1), mul_exp, E. f_equal. ring.
Qed.
Print Assumptions C81_sum.

(** ... and of a baseline only the difference of the delays matters: one delay added
    to all antennas changes no calibrated visibility. *)
Theorem C81_baseline : forall secs hz fs ws convention u r g a b f t j,
  convert_to_gain secs hz (Freqs fs) (Widths ws) convention u = Ok (r, g) ->
  exists s, sign_of convention s /\
    cx_mul (g a f t j) (cx_conj (g b f t j)) =
    exp_i (s * (2 * PI * ((secs (fst (c_sol u a 0%nat t j)) - secs (fst (c_sol u b 0%nat t j))) * hz (nth f fs 0%Z)))).
Proof.
  intros secs hz fs ws c u r g a b f t j H. destruct (convert_inv _ _ _ _ _ _ _ _ H) as [s [w [S1 [_ [_ [_ ->]]]]]].
  exists s. split; [exact S1|]. rewrite conj_exp, mul_exp. f_equal. ring.
Qed.
Print Assumptions C81_baseline.
Example C81_baseline_case : exists r g,
  convert_to_gain IZR IZR (Freqs [150; 100]) (Widths [50; 60]) "minus" delays = Ok (r, g).
Proof. eexists. eexists. reflexivity. Qed.
