(** Concatenating calibration solutions *)
From Coq Require Import List ZArith QArith Bool Arith Lia Sorted.
From Verif Require Import Lib.Py Lib.Np Lib.Cube Model.Freq Model.Times Model.Param Model.Concat Model.UVCal Model.CalConcat
  Spec.FreqSpec Spec.ConcatSpec Spec.CalSpec Spec.CalConcatSpec Proofs.FreqReorder Proofs.FlexPolLayout Proofs.ParamProofs Proofs.SelectTotal Proofs.ConcatProofs.
Import ListNotations.
Notation length := List.length.
Open Scope list_scope.
Open Scope Z_scope.

(** ** Blocks *)
Lemma nth_joined {A} (get : ucal -> list A) (size : ucal -> nat) l b v i d : (forall u, In u l -> length (get u) = size u) ->
  nth_error l b = Some v -> (i < size v)%nat -> nth (list_sum (map size (firstn b l)) + i) (joined_lists get l) d = nth i (get v) d.
Proof.
  unfold joined_lists. intros Hs. revert b. induction l as [|u l IH]; intros [|b] Hb Hi; cbn [nth_error] in Hb; try discriminate.
  - injection Hb as ->. cbn [firstn map list_sum fold_right List.concat]. rewrite Nat.add_0_l, app_nth1; [reflexivity|]. rewrite Hs by (left; reflexivity). exact Hi.
  - cbn [firstn map list_sum fold_right List.concat].
    change (fold_right Init.Nat.add 0%nat (map size (firstn b l))) with (list_sum (map size (firstn b l))).
    rewrite app_nth2; rewrite (Hs u (or_introl eq_refl)); [|lia].
    replace (size u + list_sum (map size (firstn b l)) + i - size u)%nat with (list_sum (map size (firstn b l)) + i)%nat by lia.
    apply IH; [intros w Hw; apply Hs; right; exact Hw|exact Hb|exact Hi].
Qed.
Lemma joined_length {A} (get : ucal -> list A) (size : ucal -> nat) l : (forall u, In u l -> length (get u) = size u) ->
  length (joined_lists get l) = list_sum (map size l).
Proof.
  unfold joined_lists. induction l as [|u l IH]; intros Hs; [reflexivity|]. cbn [map List.concat list_sum fold_right]. rewrite app_length, Hs by (left; reflexivity).
  f_equal. apply IH. intros w Hw. apply Hs. right. exact Hw.
Qed.
Lemma locate_cal axis l b v i : nth_error l b = Some v -> (i < axis_size axis v)%nat ->
  locate (map (axis_size axis) l) (cal_start axis l b + i) = (b, i).
Proof.
  intros Hb Hi. unfold cal_start. rewrite <- firstn_map. apply list_sum_firstn.
  - rewrite map_length. apply nth_error_Some. congruence.
  - rewrite (nth_error_nth (map (axis_size axis) l) b 0%nat (x := axis_size axis v)); [exact Hi|]. apply map_nth_error. exact Hb.
Qed.

Definition unopt {A} (get : ucal -> option (list A)) (v : ucal) : list A := match get v with Some x => x | None => [] end.
Lemma all_some_spec {A} (get : ucal -> option (list A)) l ls : all_some (map get l) = Some ls ->
  (forall v, In v l -> get v <> None) /\ ls = map (unopt get) l.
Proof.
  revert ls. induction l as [|u l IH]; intros ls; cbn [map all_some].
  - intros E. injection E as <-. split; [intros v []|reflexivity].
  - destruct (get u) as [x|] eqn:G; [|discriminate]. destruct (all_some (map get l)) as [ls'|]; cbn [option_map]; [|discriminate].
    intros E. injection E as <-. destruct (IH _ eq_refl) as [H ->]. split.
    + intros v [<-|Hv]; [congruence|auto].
    + cbn [map]. unfold unopt at 2. rewrite G. reflexivity.
Qed.
Lemma all_some_ok {A} (get : ucal -> option (list A)) l : (forall v, In v l -> get v <> None) -> all_some (map get l) = Some (map (unopt get) l).
Proof.
  induction l as [|u l IH]; intros H; [reflexivity|]. cbn [map all_some]. unfold unopt at 1.
  destruct (get u) as [x|] eqn:G; [|exfalso; apply (H u); [left; reflexivity|exact G]].
  rewrite IH by (intros v Hv; apply H; right; exact Hv). reflexivity.
Qed.
Lemma joined_opt_spec {A} (get : ucal -> option (list A)) u l o : joined_opt get u l = Ok o ->
  (get u = None /\ o = None) \/
  (get u <> None /\ (forall v, In v l -> get v <> None) /\ o = Some (joined_lists (unopt get) l)).
Proof.
  unfold joined_opt. destruct (get u) as [x|] eqn:G.
  - destruct (all_some (map get l)) as [ls|] eqn:E; [|discriminate]. intros H. injection H as <-. right.
    apply all_some_spec in E as [H ->]. split; [congruence|]. split; [exact H|reflexivity].
  - intros H. injection H as <-. left. split; reflexivity.
Qed.

(** ** What is compared *)
Lemma both_or_neither_spec {A B} (x : option A) (y : option B) : both_or_neither x y = true <-> both_or_none x y.
Proof. unfold both_or_neither, both_or_none. destruct x, y; cbn; split; intros H; try reflexivity; try discriminate; try (split; congruence); destruct H as [H1 H2]; try (discriminate (H1 eq_refl)); discriminate (H2 eq_refl). Qed.
Lemma same_opt_near {A} (eqb : A -> A -> bool) (near : A -> A -> Prop) : (forall x y, eqb x y = true <-> near x y) ->
  forall x y, same_opt eqb x y = true <-> opt_near near x y.
Proof. intros H [x|] [y|]; cbn; try (apply list_eqb_Forall2; exact H); split; (reflexivity || discriminate || tauto). Qed.
Lemma close2_near t x y : close2 t x y = true <-> near_pair t x y.
Proof. unfold close2, near_pair. rewrite andb_true_iff, !closeZ_near. reflexivity. Qed.
Lemma times_near_spec t u v : same_time_params t u v = true <-> times_near t u v.
Proof.
  unfold same_time_params, times_near. rewrite !andb_true_iff, same_arr_near.
  rewrite !(same_opt_near _ _ (closeZ_near _)), !(same_opt_near _ _ (close2_near _)). tauto.
Qed.
Lemma freqs_near_spec t u v : same_freq_params t u v = true <-> freqs_near t u v.
Proof.
  unfold same_freq_params, freqs_near. rewrite orb_true_iff, andb_true_iff, !same_arr_near. destruct (c_wide u); intuition congruence.
Qed.
Lemma compatible_spec t axis u v : cal_compatible t axis u v = true <-> cal_fits t axis u v.
Proof.
  unfold cal_compatible, cal_fits. rewrite !andb_true_iff, both_or_neither_spec, !eqb_true_iff, Z.eqb_eq.
  destruct axis; unfold time_param_check; rewrite ?andb_true_iff, ?both_or_neither_spec, ?same_arr_near, ?times_near_spec, ?freqs_near_spec; intuition congruence.
Qed.
Lemma allowed_spec u axis : axis_allowed u axis = true <-> axis_of u axis.
Proof. unfold axis_of. destruct axis; cbn; rewrite ?andb_true_iff, ?negb_true_iff; intuition congruence. Qed.

(** ** The result *)
Definition along_time {A} (axis : cal_axis) (get : ucal -> option (list A)) (u : ucal) (l : list ucal) : result (option (list A)) :=
  match axis with CalTime => joined_opt get u l | _ => Ok (get u) end.
Definition new_spws (axis : cal_axis) (u : ucal) (l : list ucal) : list Z :=
  match axis with
  | CalFreq => take 0 (joined_lists c_flex l) (first_positions (joined_lists c_flex l))
  | CalSpw => joined_lists c_spws l
  | _ => c_spws u
  end.
Lemma concat_inv t axis u others r : cal_concat t axis u others = Ok r ->
  axis_of u axis /\ (forall v, In v others -> cal_fits t axis u v) /\ (forall v, In v others -> shapes_match axis u v = true) /\
  match axis with
  | CalFreq => freq_flex_jones (new_spws axis u (u :: others)) u others
  | CalSpw => joined_opt c_flex_jones u (u :: others)
  | _ => Ok (c_flex_jones u)
  end = Ok (c_flex_jones r) /\
  along_time axis c_time_array u (u :: others) = Ok (c_time_array r) /\
  along_time axis c_time_range u (u :: others) = Ok (c_time_range r) /\
  along_time axis c_lst_array u (u :: others) = Ok (c_lst_array r) /\
  along_time axis c_lst_range u (u :: others) = Ok (c_lst_range r) /\
  along_time axis c_ref_ant u (u :: others) = Ok (c_ref_ant r) /\
  let l := u :: others in
  r = {| c_gain := c_gain u; c_wide := c_wide u; c_compat := c_compat u;
            c_ants := match axis with CalAnt => joined_lists c_ants l | _ => c_ants u end;
            c_spws := new_spws axis u l;
            c_freq_range := match axis with CalSpw => joined_lists c_freq_range l | _ => c_freq_range u end;
            c_freqs := match axis with CalFreq => joined_lists c_freqs l | _ => c_freqs u end;
            c_widths := match axis with CalFreq => joined_lists c_widths l | _ => c_widths u end;
            c_flex := match axis with CalFreq => joined_lists c_flex l | _ => c_flex u end;
            c_flex_jones := c_flex_jones r;
            c_time_array := c_time_array r; c_time_range := c_time_range r; c_lst_array := c_lst_array r; c_lst_range := c_lst_range r;
            c_ref_ant := c_ref_ant r;
            c_int_time := match axis with CalTime => joined_lists c_int_time l | _ => c_int_time u end;
            c_jones := match axis with CalJones => joined_lists c_jones l | _ => c_jones u end;
            c_sol := cat4 axis c_sol u l;
            c_flags := cat4 axis c_flags u l;
            c_qual := if existsb (fun v => negb (is_none (c_qual v))) l then Some (cat4 axis quality u l) else None;
            c_tqual := match axis with
                       | CalAnt => None
                       | _ => if existsb (fun v => negb (is_none (c_tqual v))) l then Some (cat3 axis tquality u l) else None
                       end |}.
Proof.
  unfold cal_concat. destruct (axis_allowed u axis) eqn:A; [|discriminate]. cbn [negb].
  destruct (forallb (cal_compatible t axis u) others) eqn:C; [|discriminate]. cbn [negb]. intros H.
  apply bind_Ok in H as (fj & E1 & H). apply bind_Ok in H as (ta & E2 & H). apply bind_Ok in H as (tr & E3 & H).
  apply bind_Ok in H as (la & E4 & H). apply bind_Ok in H as (lr & E5 & H). apply bind_Ok in H as (ra & E6 & H).
  destruct (forallb (shapes_match axis u) others) eqn:S1; [|discriminate]. cbn [negb] in H.
  rewrite forallb_forall in C, S1. apply allowed_spec in A.
  split; [exact A|]. split; [intros v Hv; apply compatible_spec; auto|]. split; [exact S1|].
  injection H as <-. cbn [c_flex_jones c_time_array c_time_range c_lst_array c_lst_range c_ref_ant].
  split; [destruct axis; exact E1|]. split; [exact E2|]. split; [exact E3|]. split; [exact E4|]. split; [exact E5|]. split; [exact E6|]. reflexivity.
Qed.

Lemma existsb_some {A} (get : ucal -> option A) l :
  existsb (fun v => negb (is_none (get v))) l = true <-> exists v, In v l /\ get v <> None.
Proof.
  rewrite existsb_exists. split; intros (v & Hv & H); exists v; (split; [exact Hv|]); destruct (get v); cbn in *; congruence.
Qed.

Lemma entry_copied axis l (u v r : ucal) b i a f t j a' f' t' j' :
  c_sol r = cat4 axis c_sol u l -> c_flags r = cat4 axis c_flags u l ->
  c_qual r = (if existsb (fun v => negb (is_none (c_qual v))) l then Some (cat4 axis quality u l) else None) ->
  nth_error l b = Some v -> (i < axis_size axis v)%nat ->
  (let k := (cal_start axis l b + i)%nat in
   match axis with
   | CalAnt => a = i /\ a' = k /\ f' = f /\ t' = t /\ j' = j
   | CalFreq | CalSpw => f = i /\ f' = k /\ a' = a /\ t' = t /\ j' = j
   | CalTime => t = i /\ t' = k /\ a' = a /\ f' = f /\ j' = j
   | CalJones => j = i /\ j' = k /\ a' = a /\ f' = f /\ t' = t
   end) -> same_entry l v r a f t j a' f' t' j'.
Proof.
  intros ES EF EQ Hb Hi K. cbv zeta in K. pose proof (locate_cal axis l b v i Hb Hi) as L.
  assert (C : forall X (get : ucal -> arr4 X), cat4 axis get u l a' f' t' j' = get v a f t j).
  { intros X get. unfold cat4. destruct axis; destruct K as (-> & -> & -> & -> & ->); rewrite L, (nth_error_nth _ _ _ Hb); reflexivity. }
  unfold same_entry. rewrite ES, EF, EQ, !C. split; [reflexivity|]. split; [reflexivity|].
  destruct (existsb _ l) eqn:X.
  - apply (existsb_some c_qual) in X. split; [|intros N; contradiction]. intros _. eexists. split; [reflexivity|]. rewrite C. unfold quality. destruct (c_qual v); reflexivity.
  - split; [|reflexivity]. intros N. apply (existsb_some c_qual) in N. congruence.
Qed.
Lemma total_copied axis l (u v r : ucal) b i f t j f' t' j' : axis <> CalAnt ->
  c_tqual r = (if existsb (fun v => negb (is_none (c_tqual v))) l then Some (cat3 axis tquality u l) else None) ->
  nth_error l b = Some v -> (i < axis_size axis v)%nat ->
  (let k := (cal_start axis l b + i)%nat in
   match axis with
   | CalAnt => False
   | CalFreq | CalSpw => f = i /\ f' = k /\ t' = t /\ j' = j
   | CalTime => t = i /\ t' = k /\ f' = f /\ j' = j
   | CalJones => j = i /\ j' = k /\ f' = f /\ t' = t
   end) -> same_total l v r f t j f' t' j'.
Proof.
  intros NA EQ Hb Hi K. cbv zeta in K. pose proof (locate_cal axis l b v i Hb Hi) as L.
  assert (C : cat3 axis tquality u l f' t' j' = tquality v f t j).
  { unfold cat3. destruct axis; [congruence|..]; destruct K as (-> & -> & -> & ->); rewrite L, (nth_error_nth _ _ _ Hb); reflexivity. }
  unfold same_total. rewrite EQ. destruct (existsb _ l) eqn:X.
  - apply (existsb_some c_tqual) in X. split; [|intros N; contradiction]. intros _. eexists. split; [reflexivity|]. rewrite C. unfold tquality. destruct (c_tqual v); reflexivity.
  - split; [|reflexivity]. intros N. apply (existsb_some c_tqual) in N. congruence.
Qed.

(** ** Times *)
Lemma keys_joined u others tr ta :
  (forall v, In v others -> both_or_none (c_time_array u) (c_time_array v) /\ both_or_none (c_time_range u) (c_time_range v)) ->
  joined_opt c_time_array u (u :: others) = Ok ta -> joined_opt c_time_range u (u :: others) = Ok tr ->
  match tr with Some r => map fst r | None => match ta with Some t => t | None => [] end end = joined_lists time_keys (u :: others).
Proof.
  intros K E1 E2. apply joined_opt_spec in E1. apply joined_opt_spec in E2.
  destruct E2 as [[N2 ->]|(S2 & A2 & ->)].
  - assert (N : forall v, In v (u :: others) -> c_time_range v = None).
    { intros v [<-|Hv]; [exact N2|]. apply (K v Hv). exact N2. }
    destruct E1 as [[N1 ->]|(S1 & A1 & ->)].
    + assert (N' : forall v, In v (u :: others) -> time_keys v = []).
      { intros v Hv. unfold time_keys. rewrite (N v Hv). destruct Hv as [<-|Hv]; [rewrite N1; reflexivity|].
        rewrite (proj1 (proj1 (K v Hv)) N1). reflexivity. }
      clear - N'. unfold joined_lists. induction (u :: others) as [|x l IH]; [reflexivity|]. cbn [map List.concat].
      rewrite (N' x (or_introl eq_refl)), <- IH; [reflexivity|]. intros v Hv. apply N'. right. exact Hv.
    + unfold joined_lists. f_equal. apply map_ext_in. intros v Hv. unfold unopt, time_keys. rewrite (N v Hv). reflexivity.
  - unfold joined_lists. rewrite concat_map, map_map. f_equal. apply map_ext_in. intros v Hv. unfold unopt, time_keys.
    specialize (A2 v Hv). destruct (c_time_range v); [reflexivity|congruence].
Qed.

Lemma info_joined {A} (get : ucal -> option (list A)) u l o b v i d :
  In u l -> (forall w, In w l -> both_or_none (get u) (get w)) -> (forall w x, In w l -> get w = Some x -> length x = Ntimes w) ->
  joined_opt get u l = Ok o -> nth_error l b = Some v -> (i < Ntimes v)%nat ->
  option_map (fun x => nth (cal_start CalTime l b + i) x d) o = option_map (fun x => nth i x d) (get v).
Proof.
  intros Hu K Len E Hb Hi. pose proof (nth_error_In _ _ Hb) as Hv. apply joined_opt_spec in E as [[N ->]|(S1 & A1 & ->)].
  - rewrite (proj1 (K v Hv) N). reflexivity.
  - destruct (get v) as [x|] eqn:G; [|exfalso; exact (A1 v Hv G)]. cbn [option_map]. f_equal.
    unfold cal_start. rewrite (nth_joined (unopt get) (axis_size CalTime) l b v i d).
    + unfold unopt. rewrite G. reflexivity.
    + intros w Hw. unfold unopt. destruct (get w) as [y|] eqn:Gw; [exact (Len w y Hw Gw)|]. exfalso. exact (A1 w Hw Gw).
    + exact Hb.
    + exact Hi.
Qed.

Theorem blocks t axis u others r :
  (forall v, In v (u :: others) -> cal_shaped v) ->
  (axis = CalTime -> forall v, In v others -> same_time_kinds u v) ->
  cal_concat t axis u others = Ok r ->
  let l := u :: others in
  axis_size axis r = cal_total axis l /\ others_kept axis u r /\
  forall b v i, nth_error l b = Some v -> (i < axis_size axis v)%nat -> copied axis l v i r (cal_start axis l b + i).
Proof.
  intros Sh Kd H. cbv zeta. apply concat_inv in H as (Ax & Ft & _ & E1 & E2 & E3 & E4 & E5 & E6 & R). cbv zeta in R.
  set (l := u :: others) in *.
  assert (Wd : forall v, In v l -> c_wide v = c_wide u).
  { intros v [<-|Hv]; [reflexivity|]. symmetry. apply (Ft v Hv). }
  assert (Rw : c_wide r = c_wide u) by (rewrite R; reflexivity).
  assert (Ra : c_ants r = match axis with CalAnt => joined_lists c_ants l | _ => c_ants u end) by (rewrite R; reflexivity).
  assert (Rs : c_spws r = new_spws axis u l) by (rewrite R; reflexivity).
  assert (Rr : c_freq_range r = match axis with CalSpw => joined_lists c_freq_range l | _ => c_freq_range u end) by (rewrite R; reflexivity).
  assert (Rf : c_freqs r = match axis with CalFreq => joined_lists c_freqs l | _ => c_freqs u end) by (rewrite R; reflexivity).
  assert (Rwd : c_widths r = match axis with CalFreq => joined_lists c_widths l | _ => c_widths u end) by (rewrite R; reflexivity).
  assert (Rfl : c_flex r = match axis with CalFreq => joined_lists c_flex l | _ => c_flex u end) by (rewrite R; reflexivity).
  assert (Ri : c_int_time r = match axis with CalTime => joined_lists c_int_time l | _ => c_int_time u end) by (rewrite R; reflexivity).
  assert (Rj : c_jones r = match axis with CalJones => joined_lists c_jones l | _ => c_jones u end) by (rewrite R; reflexivity).
  assert (Q1 : c_sol r = cat4 axis c_sol u l) by (rewrite R; reflexivity).
  assert (Q2 : c_flags r = cat4 axis c_flags u l) by (rewrite R; reflexivity).
  assert (Q3 : c_qual r = if existsb (fun v => negb (is_none (c_qual v))) l then Some (cat4 axis quality u l) else None) by (rewrite R; reflexivity).
  assert (Q4 : c_tqual r = match axis with
                       | CalAnt => None
                       | _ => if existsb (fun v => negb (is_none (c_tqual v))) l then Some (cat3 axis tquality u l) else None
                       end) by (rewrite R; reflexivity).
  clear R.
  assert (Len : forall v, In v l -> length (c_int_time v) = Ntimes v /\
     (c_wide u = true -> length (c_freq_range v) = length (c_spws v)) /\
     (c_wide u = false -> length (c_widths v) = length (c_freqs v) /\ length (c_flex v) = length (c_freqs v))).
  { intros v Hv. pose proof (Sh v Hv) as (I1 & _ & _ & _ & _ & _ & I2). rewrite (Wd v Hv) in I2. split; [exact I1|].
    destruct (c_wide u); split; intros X; (discriminate || exact I2). }
  assert (Tk : axis = CalTime -> time_keys r = joined_lists time_keys l).
  { intros ->. cbn [along_time] in E2, E3. unfold time_keys at 1. apply (keys_joined u others); [|exact E2|exact E3].
    intros v Hv. apply (Ft v Hv). reflexivity. }
  assert (Tk0 : axis <> CalTime -> same_times u r).
  { intros N. unfold same_times. rewrite Ri. destruct axis; cbn [along_time] in *; try congruence; repeat split; congruence. }
  assert (Ck0 : axis <> CalFreq -> axis <> CalSpw -> same_chans u r).
  { intros N N'. unfold same_chans. rewrite Rs, Rr, Rf, Rwd, Rfl. destruct axis; try congruence; cbn [new_spws]; repeat split; congruence. }
  split; [|split].
  - unfold cal_total. destruct axis; cbn [axis_size].
    + unfold Nants at 1. rewrite Ra. apply joined_length. reflexivity.
    + rewrite Rf. apply joined_length. reflexivity.
    + rewrite Rs. apply joined_length. reflexivity.
    + unfold Ntimes at 1. rewrite (Tk eq_refl). apply joined_length. reflexivity.
    + unfold Njones at 1. rewrite Rj. apply joined_length. reflexivity.
  - split; [|split; [exact Ck0|split; [exact Tk0|]]].
    + intros N. unfold same_ants. rewrite Ra. destruct axis; (congruence || reflexivity).
    + intros N. unfold same_jones. rewrite Rj. destruct axis; (congruence || reflexivity).
  - intros b v i Hb Hi. pose proof (nth_error_In _ _ Hb) as Hv.
    assert (NJ : forall X (get : ucal -> list X) d, (forall w, In w l -> length (get w) = axis_size axis w) ->
      nth (cal_start axis l b + i) (joined_lists get l) d = nth i (get v) d).
    { intros X get d Hl. unfold cal_start. apply nth_joined; assumption. }
    destruct axis; cbn [copied].
    + split; [|split; [|exact Q4]].
      * unfold ant_at. rewrite Ra. apply NJ. reflexivity.
      * intros f t' j. apply (entry_copied CalAnt l u v r b i); auto.
    + destruct (proj2 Ax eq_refl) as [Wf _].
      split; [|split; [|split]].
      * unfold chan_at. rewrite Rw, (Wd v Hv), Wf, Rfl, Rf. f_equal; apply NJ; [|reflexivity]. intros w Hw. apply (Len w Hw). exact Wf.
      * unfold chan_info. rewrite Rw, (Wd v Hv), Wf, Rwd. f_equal. apply NJ. intros w Hw. apply (Len w Hw). exact Wf.
      * intros a t' j. apply (entry_copied CalFreq l u v r b i); auto.
      * intros t' j. apply (total_copied CalFreq l u v r b i); auto. discriminate.
    + pose proof (proj1 Ax eq_refl) as Wt.
      split; [|split; [|split]].
      * unfold chan_at. rewrite Rw, (Wd v Hv), Wt, Rs. f_equal. apply NJ. reflexivity.
      * unfold chan_info. rewrite Rw, (Wd v Hv), Wt, Rr. apply NJ. intros w Hw. apply (Len w Hw). exact Wt.
      * intros a t' j. apply (entry_copied CalSpw l u v r b i); auto.
      * intros t' j. apply (total_copied CalSpw l u v r b i); auto. discriminate.
    + split; [|split; [|split]].
      * unfold time_at. rewrite (Tk eq_refl). apply NJ. reflexivity.
      * assert (Both : forall w, In w l -> both_or_none (c_time_array u) (c_time_array w) /\ both_or_none (c_time_range u) (c_time_range w) /\ same_time_kinds u w).
        { intros w [<-|Hw].
          - unfold same_time_kinds, both_or_none. tauto.
          - destruct (Ft w Hw) as (_ & _ & _ & _ & _ & _ & _ & X & _). specialize (X eq_refl). specialize (Kd eq_refl w Hw). tauto. }
        cbn [along_time] in *. unfold time_info. cbn [axis_size] in Hi. assert (Hu : In u l) by (left; reflexivity).
        rewrite (info_joined c_time_array u l _ b v i 0 Hu) with (1 := fun w Hw => proj1 (Both w Hw)) (3 := E2); try assumption; [|intros w x Hw; apply (Sh w Hw)].
        rewrite (info_joined c_time_range u l _ b v i (0, 0) Hu) with (1 := fun w Hw => proj1 (proj2 (Both w Hw))) (3 := E3); try assumption;
          [|intros w x Hw E; unfold Ntimes, time_keys; rewrite E, map_length; reflexivity].
        rewrite (info_joined c_lst_array u l _ b v i 0 Hu) with (1 := fun w Hw => proj1 (proj2 (proj2 (Both w Hw)))) (3 := E4); try assumption; [|intros w x Hw; apply (Sh w Hw)].
        rewrite (info_joined c_lst_range u l _ b v i (0, 0) Hu) with (1 := fun w Hw => proj1 (proj2 (proj2 (proj2 (Both w Hw))))) (3 := E5); try assumption; [|intros w x Hw; apply (Sh w Hw)].
        rewrite (info_joined c_ref_ant u l _ b v i 0 Hu) with (1 := fun w Hw => proj2 (proj2 (proj2 (proj2 (Both w Hw))))) (3 := E6); try assumption; [|intros w x Hw; apply (Sh w Hw)].
        rewrite Ri. f_equal. apply NJ. intros w Hw. apply (Len w Hw).
      * intros a f j. apply (entry_copied CalTime l u v r b i); auto.
      * intros f j. apply (total_copied CalTime l u v r b i); auto. discriminate.
    + split; [|split].
      * unfold jones_at. rewrite Rj. apply NJ. reflexivity.
      * intros a f t'. apply (entry_copied CalJones l u v r b i); auto 10.
      * intros f t'. apply (total_copied CalJones l u v r b i); auto. discriminate.
Qed.

(** ** Jones terms of the windows *)
Lemma index_of_self l rest k : NoDup l -> (k < length l)%nat -> index_of Z.eqb (nth k l 0) (l ++ rest) = Some k.
Proof.
  intros N Hk. destruct (index_of Z.eqb (nth k l 0) (l ++ rest)) as [i|] eqn:E.
  - apply (index_of_Some _ Z.eqb_eq 0) in E as (Hi & Hn & Hf). f_equal.
    destruct (Nat.lt_trichotomy i k) as [L|[->|L]]; [|reflexivity|].
    + rewrite app_nth1 in Hn by lia. apply (proj1 (NoDup_nth l 0) N); (lia || exact Hn).
    + exfalso. apply (Hf k L). rewrite app_nth1 by exact Hk. reflexivity.
  - apply (proj1 (index_of_None _ Z.eqb_eq _ _)) in E. exfalso. apply E, in_or_app. left. apply nth_In, Hk.
Qed.
Lemma freq_jones_spec spws u others o : NoDup spws -> freq_flex_jones spws u others = Ok o ->
  (c_flex_jones u = None /\ o = None) \/
  (c_flex_jones u <> None /\ (forall v, In v (u :: others) -> c_flex_jones v <> None) /\
   exists fj, o = Some fj /\ length fj = length spws /\
     forall k, (k < length spws)%nat -> nth_error (joined_lists (unopt c_flex_jones) (u :: others)) k = Some (nth k fj 0)).
Proof.
  intros N. unfold freq_flex_jones. destruct (c_flex_jones u) as [x|] eqn:U; [|intros H; injection H as <-; left; split; reflexivity].
  intros H. apply bind_Ok in H as (all & E & H). apply bind_Ok in H as (fj & F & H). injection H as <-.
  apply joined_opt_spec in E as [[E _]|(E1 & E2 & ->)]; [congruence|]. right. split; [discriminate|]. split; [exact E2|].
  exists fj. split; [reflexivity|]. split; [exact (mapM_Ok_length _ _ _ F)|]. intros k Hk.
  pose proof (mapM_Ok_nth _ _ _ 0 0 F k Hk) as X. cbv beta in X. rewrite (index_of_self _ _ _ N Hk) in X.
  destruct (nth_error (joined_lists (unopt c_flex_jones) (u :: others)) k); [injection X as ->; reflexivity|discriminate X].
Qed.

Lemma joined_In {A} (get : ucal -> list A) l x : In x (joined_lists get l) <-> exists v, In v l /\ In x (get v).
Proof.
  unfold joined_lists. rewrite in_concat. split.
  - intros (y & Hy & Hx). apply in_map_iff in Hy as (v & <- & Hv). exists v. auto.
  - intros (v & Hv & Hx). exists (get v). split; [apply in_map, Hv|exact Hx].
Qed.

Lemma sorted_app {A} (P : A -> A -> Prop) l m : StronglySorted P l -> StronglySorted P m -> (forall x y, In x l -> In y m -> P x y) -> StronglySorted P (l ++ m).
Proof.
  intros Hl Hm H. induction Hl as [|x l Hl IH Hx]; [exact Hm|]. cbn [app]. constructor.
  - apply IH. intros y z Hy Hz. apply H; [right; exact Hy|exact Hz].
  - apply Forall_app. split; [exact Hx|]. apply Forall_forall. intros y Hy. apply H; [left; reflexivity|exact Hy].
Qed.
Lemma sorted_impl {A} (P Q : A -> A -> Prop) l : (forall x y, In x l -> In y l -> P x y -> Q x y) -> StronglySorted P l -> StronglySorted Q l.
Proof.
  intros H Hs. induction Hs as [|x l Hl IH Hx]; [constructor|]. constructor.
  - apply IH. intros y z Hy Hz. apply H; right; assumption.
  - rewrite Forall_forall in *. intros y Hy. apply H; [left; reflexivity|right; exact Hy|exact (Hx y Hy)].
Qed.
Lemma appearance_app l1 s1 l2 s2 : appearance_order l1 s1 -> appearance_order l2 s2 -> (forall w, In w s1 -> ~ In w s2) ->
  appearance_order (l1 ++ l2) (s1 ++ s2).
Proof.
  intros [M1 S1] [M2 S2] D. split.
  - intros w. rewrite !in_app_iff, M1, M2. reflexivity.
  - apply sorted_app.
    + eapply sorted_impl; [|exact S1]. intros x y _ _ (i & Hi & Hj). exists i.
      assert (L : (i < length l1)%nat) by (apply nth_error_Some; congruence).
      split; [rewrite nth_error_app1 by exact L; exact Hi|]. intros j Lj. rewrite nth_error_app1 by lia. apply Hj, Lj.
    + eapply sorted_impl; [|exact S2]. intros x y _ Hy (i & Hi & Hj). exists (length l1 + i)%nat.
      split; [rewrite nth_error_app2 by lia; replace (length l1 + i - length l1)%nat with i by lia; exact Hi|].
      intros j Lj E. destruct (Nat.lt_ge_cases j (length l1)) as [L|L].
      * rewrite nth_error_app1 in E by exact L. apply nth_error_In in E. apply M1 in E. exact (D y E Hy).
      * rewrite nth_error_app2 in E by exact L. apply (Hj (j - length l1)%nat); [lia|exact E].
    + intros x y Hx Hy. apply M1 in Hx. apply In_nth_error in Hx as (i & Hi). exists i.
      assert (L : (i < length l1)%nat) by (apply nth_error_Some; congruence).
      split; [rewrite nth_error_app1 by exact L; exact Hi|]. intros j Lj E. rewrite nth_error_app1 in E by lia.
      apply nth_error_In in E. apply M1 in E. exact (D y E Hy).
Qed.
Lemma appearance_joined l : (forall v, In v l -> windows_in_order v) -> windows_apart l ->
  appearance_order (joined_lists c_flex l) (joined_lists c_spws l).
Proof.
  induction l as [|u l IH]; intros O A.
  - split; [intros w; reflexivity|constructor].
  - unfold joined_lists. cbn [map List.concat]. cbn [windows_apart] in A. destruct A as [A1 A2]. apply appearance_app.
    + apply O. left. reflexivity.
    + apply IH; [intros v Hv; apply O; right; exact Hv|exact A2].
    + intros w Hw Hw2. apply (joined_In c_spws) in Hw2 as (v & Hv & Hw2). exact (A1 v w Hv Hw Hw2).
Qed.

Lemma joined_pairs (a b : ucal -> list Z) l : (forall v, In v l -> length (b v) = length (a v)) -> forall w p,
  (exists k, (k < length (joined_lists a l))%nat /\ nth k (joined_lists a l) 0 = w /\ nth_error (joined_lists b l) k = Some p) <->
  (exists v k, In v l /\ (k < length (a v))%nat /\ nth k (a v) 0 = w /\ nth_error (b v) k = Some p).
Proof.
  unfold joined_lists. induction l as [|u l IH]; intros H w p; cbn [map List.concat].
  - split; [intros (k & Hk & _); cbn in Hk; lia|intros (v & k & [] & _)].
  - pose proof (H u (or_introl eq_refl)) as Hu. assert (H' : forall v, In v l -> length (b v) = length (a v)) by (intros v Hv; apply H; right; exact Hv).
    specialize (IH H' w p). split.
    + intros (k & Hk & Hn & He). rewrite app_length in Hk. destruct (Nat.lt_ge_cases k (length (a u))) as [L|L].
      * rewrite app_nth1 in Hn by exact L. rewrite nth_error_app1 in He by (rewrite Hu; exact L). exists u, k. split; [left; reflexivity|auto].
      * rewrite app_nth2 in Hn by lia. rewrite nth_error_app2 in He by lia. rewrite Hu in He.
        destruct (proj1 IH) as (v & j & Hv & X); [exists (k - length (a u))%nat; split; [lia|auto]|]. exists v, j. split; [right; exact Hv|exact X].
    + intros (v & k & [<-|Hv] & Hk & Hn & He).
      * exists k. rewrite app_length, app_nth1, nth_error_app1 by lia. split; [lia|auto].
      * destruct (proj2 IH) as (j & Hj & Hn' & He'); [exists v, k; auto|]. exists (length (a u) + j)%nat.
        rewrite app_length, app_nth2, nth_error_app2 by lia. rewrite Hu. replace (length (a u) + j - length (a u))%nat with j by lia.
        split; [lia|auto].
Qed.
Lemma window_jones_unopt u w p : c_flex_jones u <> None -> window_jones u w p <->
  exists k, (k < length (c_spws u))%nat /\ nth k (c_spws u) 0 = w /\ nth_error (unopt c_flex_jones u) k = Some p.
Proof.
  unfold window_jones, unopt. destruct (c_flex_jones u) as [fj|]; [|congruence]. intros _. split.
  - intros (x & k & E & H). injection E as <-. exists k. exact H.
  - intros (k & H). exists fj, k. split; [reflexivity|exact H].
Qed.

Theorem windows t axis u others r :
  axis = CalFreq \/ axis = CalSpw ->
  (forall v, In v (u :: others) -> cal_shaped v) ->
  (axis = CalFreq -> (forall v, In v (u :: others) -> windows_in_order v) /\ windows_apart (u :: others)) ->
  cal_concat t axis u others = Ok r ->
  forall w p, window_jones r w p <-> exists v, In v (u :: others) /\ window_jones v w p.
Proof.
  intros Ha Sh Hw H. apply concat_inv in H as (Ax & Ft & _ & E1 & _ & _ & _ & _ & _ & R). cbv zeta in R. set (l := u :: others) in *.
  assert (Rs : c_spws r = new_spws axis u l) by (rewrite R; reflexivity). clear R.
  assert (None_all : c_flex_jones u = None -> forall v, In v l -> c_flex_jones v = None).
  { intros N v [<-|Hv]; [exact N|]. apply (Ft v Hv). exact N. }
  assert (Key : c_spws r = joined_lists c_spws l /\
    ((c_flex_jones u = None /\ c_flex_jones r = None) \/
     ((forall v, In v l -> c_flex_jones v <> None) /\ c_flex_jones r = Some (joined_lists (unopt c_flex_jones) l)))).
  { assert (LJ : (forall v, In v l -> c_flex_jones v <> None) -> forall v, In v l -> length (unopt c_flex_jones v) = length (c_spws v)).
    { intros S1 v Hv. pose proof (Sh v Hv) as (_ & _ & _ & _ & _ & X & _). specialize (S1 v Hv). unfold unopt. destruct (c_flex_jones v); [apply X; reflexivity|congruence]. }
    destruct Ha as [->| ->].
    - destruct (Hw eq_refl) as [O A]. cbn [new_spws] in Rs, E1.
      assert (Es : take 0 (joined_lists c_flex l) (first_positions (joined_lists c_flex l)) = joined_lists c_spws l).
      { eapply appearance_unique; [apply first_positions_spec|]. apply appearance_joined; assumption. }
      rewrite Es in *. split; [exact Rs|].
      assert (N : NoDup (joined_lists c_spws l)) by (rewrite <- Es; eapply appearance_NoDup, first_positions_spec).
      apply (freq_jones_spec _ _ _ _ N) in E1 as [[N1 N2]|(S1 & S2 & fj & E & Lf & X)]; [left; auto|]. right. split; [exact S2|].
      rewrite E. f_equal.
      assert (LL : length (joined_lists (unopt c_flex_jones) l) = length (joined_lists c_spws l)).
      { rewrite (joined_length (unopt c_flex_jones) (fun v => length (c_spws v)) l (LJ S2)). symmetry. apply joined_length. reflexivity. }
      apply (nth_ext _ _ 0 0); [congruence|]. intros k Hk. rewrite Lf in Hk. symmetry. apply nth_error_nth. exact (X k Hk).
    - cbn [new_spws] in Rs. split; [exact Rs|]. apply joined_opt_spec in E1 as [[N1 N2]|(S1 & S2 & E)]; [left; auto|right; auto]. }
  destruct Key as [Ks [[N1 N2]|[S2 E]]]; intros w p.
  - split.
    + intros (fj & k & X & _). congruence.
    + intros (v & Hv & fj & k & X & _). rewrite (None_all N1 v Hv) in X. discriminate.
  - rewrite window_jones_unopt by congruence. unfold unopt at 1. rewrite E, Ks. rewrite (joined_pairs c_spws (unopt c_flex_jones)).
    + split.
      * intros (v & k & Hv & X). exists v. split; [exact Hv|]. apply (window_jones_unopt v w p (S2 v Hv)). exists k. exact X.
      * intros (v & Hv & X). apply (window_jones_unopt v w p (S2 v Hv)) in X as (k & X). exists v, k. auto.
    + intros v Hv. pose proof (Sh v Hv) as (_ & _ & _ & _ & _ & X & _). specialize (S2 v Hv). unfold unopt. destruct (c_flex_jones v); [apply X; reflexivity|congruence].
Qed.

(** The windows are listed in the order of their channels. *)
Theorem new_windows t u others r : cal_concat t CalFreq u others = Ok r -> windows_in_order r.
Proof.
  intros H. apply concat_inv in H as (_ & _ & _ & _ & _ & _ & _ & _ & _ & R). cbv zeta in R. unfold windows_in_order. rewrite R. cbn [c_flex c_spws new_spws]. apply first_positions_spec.
Qed.

(** ** What is refused and what is accepted *)
Theorem refused t axis u others : ~ axis_of u axis \/ (exists v, In v others /\ ~ cal_fits t axis u v) -> cal_concat t axis u others = Err ValueError.
Proof.
  intros H. unfold cal_concat. destruct (axis_allowed u axis) eqn:A; [|reflexivity]. cbn [negb].
  destruct (forallb (cal_compatible t axis u) others) eqn:C; [|reflexivity]. exfalso. apply allowed_spec in A. destruct H as [H|(v & Hv & H)]; [exact (H A)|].
  rewrite forallb_forall in C. apply H, compatible_spec, C, Hv.
Qed.
Lemma joined_opt_ok {A} (get : ucal -> option (list A)) u others : (forall v, In v others -> both_or_none (get u) (get v)) ->
  exists o, joined_opt get u (u :: others) = Ok o.
Proof.
  intros H. unfold joined_opt. destruct (get u) as [x|] eqn:G; [|eauto]. rewrite all_some_ok; [eauto|].
  intros v [<-|Hv]; [congruence|]. intros N. apply (H v Hv) in N. discriminate.
Qed.
Lemma near_length {A} (P : A -> A -> Prop) x y : Forall2 P x y -> length x = length y.
Proof. induction 1; cbn; congruence. Qed.
Theorem accepted t axis u others :
  axis_of u axis -> (forall v, In v others -> cal_fits t axis u v) ->
  (forall v, In v (u :: others) -> cal_shaped v) ->
  (axis = CalTime -> forall v, In v others -> same_time_kinds u v) ->
  (axis = CalFreq -> forall v w, In v (u :: others) -> In w (c_flex v) -> In w (c_spws v)) ->
  (axis <> CalFreq -> axis <> CalSpw -> c_wide u = true -> forall v, In v others -> length (c_spws u) = length (c_spws v)) ->
  exists r, cal_concat t axis u others = Ok r.
Proof.
  intros Ax Ft Sh Kd Wn Ws. unfold cal_concat. rewrite (proj2 (allowed_spec u axis) Ax). cbn [negb].
  replace (forallb (cal_compatible t axis u) others) with true; [|symmetry; apply forallb_forall; intros v Hv; apply compatible_spec, Ft, Hv]. cbn [negb].
  set (l := u :: others) in *.
  assert (Sm : forallb (shapes_match axis u) others = true).
  { apply forallb_forall. intros v Hv. destruct (Ft v Hv) as (_ & Wd & _ & _ & F1 & F2 & F3 & _ & F4).
    assert (X1 : axis <> CalAnt -> (Nants u =? Nants v)%nat = true) by (intros N; apply Nat.eqb_eq; exact (near_length _ _ _ (F1 N))).
    assert (X2 : axis <> CalJones -> (Njones u =? Njones v)%nat = true) by (intros N; apply Nat.eqb_eq; exact (near_length _ _ _ (F4 N))).
    assert (X3 : axis <> CalTime -> (Ntimes u =? Ntimes v)%nat = true).
    { intros N. apply Nat.eqb_eq. destruct (F3 N) as (T1 & _ & _ & T2 & _). unfold Ntimes, time_keys.
      destruct (c_time_range u), (c_time_range v); cbn [opt_near] in T2; try contradiction.
      - rewrite !map_length. exact (near_length _ _ _ T2).
      - destruct (c_time_array u), (c_time_array v); cbn [opt_near] in T1; try contradiction; [exact (near_length _ _ _ T1)|reflexivity]. }
    assert (X4 : axis <> CalFreq -> axis <> CalSpw -> (Nchans u =? Nchans v)%nat = true).
    { intros N N'. apply Nat.eqb_eq. unfold Nchans. rewrite <- Wd. destruct (c_wide u) eqn:W; [exact (Ws N N' eq_refl v Hv)|].
      exact (near_length _ _ _ (proj1 (F2 N N' W))). }
    unfold shapes_match. destruct axis; rewrite ?X1, ?X2, ?X3, ?X4 by discriminate; reflexivity. }
  assert (Bt : forall A (get : ucal -> option (list A)), (forall v, In v others -> axis = CalTime -> both_or_none (get u) (get v)) ->
    exists o, match axis with CalTime => joined_opt get u l | _ => Ok (get u) end = Ok o).
  { intros A get H. destruct axis; eauto. apply joined_opt_ok. intros v Hv. apply H; auto. }
  destruct (Bt _ c_time_array) as (ta & E2); [intros v Hv E; apply (Ft v Hv), E|].
  destruct (Bt _ c_time_range) as (tr & E3); [intros v Hv E; apply (Ft v Hv), E|].
  destruct (Bt _ c_lst_array) as (la & E4); [intros v Hv E; apply (Kd E v Hv)|].
  destruct (Bt _ c_lst_range) as (lr & E5); [intros v Hv E; apply (Kd E v Hv)|].
  destruct (Bt _ c_ref_ant) as (ra & E6); [intros v Hv E; apply (Kd E v Hv)|].
  assert (E1 : exists fj, match axis with
             | CalFreq => freq_flex_jones (new_spws axis u l) u others
             | CalSpw => joined_opt c_flex_jones u l
             | _ => Ok (c_flex_jones u)
             end = Ok fj).
  { destruct axis; eauto.
    - unfold freq_flex_jones. destruct (c_flex_jones u) as [x|] eqn:U; [|eauto].
      assert (S2 : forall v, In v l -> c_flex_jones v <> None).
      { intros v [<-|Hv]; [congruence|]. intros N. apply (Ft v Hv) in N. congruence. }
      unfold joined_opt. rewrite U. fold l. rewrite all_some_ok by exact S2. cbn [bind].
      set (sp := new_spws CalFreq u l).
      assert (AO : appearance_order (joined_lists c_flex l) sp) by apply first_positions_spec.
      assert (N : NoDup sp) by exact (appearance_NoDup _ _ AO).
      assert (LE : (length sp <= length (joined_lists (unopt c_flex_jones) l))%nat).
      { rewrite (joined_length (unopt c_flex_jones) (fun v => length (c_spws v))).
        - rewrite <- (joined_length c_spws (fun v => length (c_spws v)) l) by reflexivity. apply NoDup_incl_length; [exact N|].
          intros w Hw. apply AO in Hw. apply joined_In in Hw as (v & Hv & Hw). apply joined_In. exists v. split; [exact Hv|]. apply Wn; auto.
        - intros v Hv. pose proof (Sh v Hv) as (_ & _ & _ & _ & _ & X & _). specialize (S2 v Hv). unfold unopt. destruct (c_flex_jones v); [apply X; reflexivity|congruence]. }
      destruct (SelectTotal.mapM_total (fun w => match index_of Z.eqb w (sp ++ joined_lists c_spws others) with
                             | Some i => match nth_error (List.concat (map (unopt c_flex_jones) l)) i with
                                         | Some p => Ok p | None => Err IndexError end
                             | None => Err IndexError end) sp) as (ys & Hy).
      + intros w Hw. apply (In_nth _ _ 0) in Hw as (k & Hk & <-). rewrite (index_of_self _ _ _ N Hk).
        destruct (nth_error (List.concat (map (unopt c_flex_jones) l)) k) eqn:Z; [eauto|]. apply nth_error_None in Z. unfold joined_lists in LE. lia.
      + rewrite Hy. cbn [bind]. eauto.
    - apply joined_opt_ok. intros v Hv. apply (Ft v Hv). }
  destruct E1 as (fj & E1). cbv zeta. fold l.
  unfold new_spws in E1. rewrite E1.
  cbn [bind]. rewrite E2. cbn [bind]. rewrite E3. cbn [bind]. rewrite E4. cbn [bind]. rewrite E5. cbn [bind]. rewrite E6. cbn [bind]. rewrite Sm. cbn [negb]. eauto.
Qed.
