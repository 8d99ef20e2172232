(** unproject_phase, set_uvws_from_antenna_positions and update_antenna_positions. *)
From Coq Require Import List ZArith Reals Bool Arith String QArith Lia Lra.
From Verif Require Import Lib.Py Lib.Np Lib.Dict Lib.Cube Model.PhaseCenter Model.Coordinates Model.Rotation Model.Phase
  Spec.PhaseSpec Spec.CoordinatesSpec Spec.RotationSpec Spec.PhasingSpec Proofs.PhaseProofs Proofs.PhaseOps Proofs.PhaseSplit Proofs.PhasePhase
  Proofs.CalcUvw Proofs.CalcUvwAnts Proofs.CalcUvwRoutes Proofs.PhasingProofs.
Import ListNotations.
Open Scope list_scope.
Open Scope R_scope.
Notation length := List.length.

(** * The number of coordinates *)
Lemma unique_map_length m : length (unique_map m) = length m.
Proof. unfold unique_map. rewrite cumsum_length. destruct m; reflexivity. Qed.

Lemma ants_length junk enu g a1 a2 new : ant_1 g = Some a1 -> ant_2 g = Some a2 -> length a2 = length a1 -> a1 <> [] ->
  (enu = false -> exists lst ra dec, lst_array g = Some lst /\ app_ra g = Some ra /\ app_dec g = Some dec /\
     length lst = length a1 /\ length ra = length a1 /\ length dec = length a1) ->
  calc_uvw_ants junk enu g = Ok new -> length new = length a1.
Proof.
  intros E1 E2 L Hne Henu H. unfold calc_uvw_ants in H. rewrite E1, E2 in H.
  destruct (antenna_positions g) as [pos|]; [|discriminate]. destruct (antenna_numbers g) as [nums|]; [|discriminate].
  destruct (telescope_lon g) as [lon|]; [|discriminate]. destruct (_ && _); [discriminate|]. cbn zeta in H.
  apply bind_Ok in H as (i1 & H1 & H). apply bind_Ok in H as (i2 & H2 & H). apply bind_Ok in H as (r & Hr & H).
  destruct r as [[[mask gha] dec] pa]. apply bind_Ok in H as (s1 & _ & H). apply bind_Ok in H as (s2 & _ & H).
  apply mapM_Ok_length in H1, H2, H. rewrite H, combine_length, combine_length, unique_map_length, H1, H2, L.
  assert (Hm : length mask = length a1); [|lia].
  destruct enu.
  - apply bind_Ok in Hr as (lat & _ & Hr). injection Hr as <- _ _ _. destruct i1; [simpl in H1; simpl; lia|]. simpl in *. rewrite map_length. exact H1.
  - destruct (Henu eq_refl) as (lst & ra & dec' & E3 & E4 & E5 & L3 & L4 & L5). rewrite E3, E4, E5 in Hr. cbn [need bind] in Hr.
    injection Hr as <- _ _ _. cbn [length]. rewrite changes_length.
    + rewrite combine_length, minus_length by lia. lia.
    + destruct a1; [contradiction|]. destruct lst; [discriminate|]. destruct ra; [discriminate|]. destruct dec'; [discriminate|]. simpl. discriminate.
Qed.

Lemma nonempty {A} (l : list A) n : length l = n -> n <> 0%nat -> l <> [].
Proof. intros H1 H2 ->. simpl in H1. lia. Qed.

Lemma enu_length junk ant s new : whole s ->
  calc_uvw junk ant false true (uvw_call None None None (o_lst s) (o_uvw s) (o_pos s) (o_ant1 s) (o_ant2 s) s) = Ok new ->
  length new = o_Nblts s.
Proof.
  intros (Hc & L0 & L1 & L2 & L3 & L4 & L5 & L6 & L7 & L8) H. destruct ant.
  - change (calc_uvw_ants junk true (uvw_call None None None (o_lst s) (o_uvw s) (o_pos s) (o_ant1 s) (o_ant2 s) s) = Ok new) in H.
    apply ants_length with (a1 := o_ant1 s) (a2 := o_ant2 s) in H; try reflexivity; try congruence.
    eapply nonempty; eassumption.
  - destruct (to_enu_spec junk (uvw_call None None None (o_lst s) (o_uvw s) (o_pos s) (o_ant1 s) (o_ant2 s) s)
      (o_uvw s) (o_ra s) (o_dec s) (o_lst s) (o_lat s)) as (new' & H' & L' & _);
      try reflexivity; try congruence; try (eapply nonempty; eassumption).
Qed.
Lemma uvws_from_length junk pos s new : whole s -> uvws_from junk pos s = Ok new -> length new = o_Nblts s.
Proof.
  intros (Hc & L0 & L1 & L2 & L3 & L4 & L5 & L6 & L7 & L8) H. unfold uvws_from in H.
  match type of H with calc_uvw _ _ _ _ ?g = _ => change (calc_uvw_ants junk false g = Ok new) in H end.
  apply ants_length with (a1 := o_ant1 s) (a2 := o_ant2 s) in H; try reflexivity; try congruence.
  - eapply nonempty; eassumption.
  - intros _. cbn. exists (o_lst s), (o_ra s), (o_dec s). repeat (split; [congruence|]). congruence.
Qed.

(** * unproject_phase *)
Lemma unproject_parts junk pop ant mask name s s' : unproject_phase junk pop ant mask name s = Ok s' ->
  exists m sel, mask_rows (o_Nblts s) mask = Ok m /\
    sel = map (fun p : bool * bool => negb (fst p) && snd p) (combine (check_for_cat_type "unprojected" (o_pc s)) m) /\
    calc_uvw junk ant false true (uvw_call None None None (o_lst s) (o_uvw s) (o_pos s) (o_ant1 s) (o_ant2 s) s) = Ok (o_uvw s') /\
    apply_w_proj (ANum 0) (AArr (map w_of (o_uvw s))) (Mask sel) s = Ok (o_data s') /\
    unproject_catalog pop name mask (o_pc s) = Ok (o_pc s') /\
    o_ra s' = put sel (masked sel (o_lst s)) (o_ra s) /\ o_dec s' = put sel (repeat (o_lat s) (count sel)) (o_dec s) /\
    o_pa s' = put sel (repeat 0 (count sel)) (o_pa s) /\
    o_time s' = o_time s /\ o_lst s' = o_lst s /\ o_ant1 s' = o_ant1 s /\ o_ant2 s' = o_ant2 s /\ o_freq s' = o_freq s /\
    o_pos s' = o_pos s /\ o_nums s' = o_nums s /\ o_lat s' = o_lat s /\ o_lon s' = o_lon s.
Proof.
  unfold unproject_phase. intros H. apply bind_Ok in H as (m & Hm & H). cbn zeta in H.
  apply bind_Ok in H as (uvw & Hu & H). apply bind_Ok in H as (data & Hd & H). apply bind_Ok in H as (pc & Hpc & H). injection H as <-.
  exists m. eexists. split; [exact Hm|]. split; [reflexivity|]. cbn. repeat (split; [assumption || reflexivity|]). reflexivity.
Qed.

Lemma unproject_sel s mask m i : pc_consistent (o_pc s) -> (i < o_Nblts s)%nat -> mask_rows (o_Nblts s) mask = Ok m ->
  let sel := map (fun p : bool * bool => negb (fst p) && snd p) (combine (check_for_cat_type "unprojected" (o_pc s)) m) in
  length sel = o_Nblts s /\ (nth i sel false = true <-> projected s i /\ in_mask s mask i).
Proof.
  intros Hc Hi Hm sel. destruct (mask_chosen s mask m i Hm) as [Lm Hch].
  assert (Lc := check_length "unprojected" (o_pc s)). fold (o_Nblts s) in Lc.
  split; [unfold sel; rewrite map_length, combine_length; lia|].
  unfold sel. rewrite (nth_combine_pair _ _ _ _ false false) by lia. cbn [fst snd]. rewrite andb_true_iff, negb_true_iff, Hch.
  pose proof (check_unprojected s i Hc Hi) as Hk. split; intros [H1 H2]; (split; [|exact H2]).
  - destruct (row_cases s i Hc Hi) as [H|H]; [|exact H]. apply Hk in H. congruence.
  - destruct (nth i (check_for_cat_type "unprojected" (o_pc s)) false) eqn:E; [|reflexivity].
    exfalso. apply (not_both s i Hc); [apply Hk; reflexivity|exact H1].
Qed.

Lemma unproject_whole junk pop ant mask name s s' : picks pop -> whole s ->
  unproject_phase junk pop ant mask name s = Ok s' -> whole s' /\ same_setting s s'.
Proof.
  intros Hp Hw H. pose proof Hw as (Hc & L0 & L1 & L2 & L3 & L4 & L5 & L6 & L7 & L8).
  apply unproject_parts in H as (m & sel & Hm & Esel & Hu & Hd & Hpc & Hra & Hdec & Hpa & E1 & E2 & E3 & E4 & E5 & E6 & E7 & E8 & E9).
  destruct (unproject_effect _ _ _ _ _ Hp Hc Hpc) as (Hc' & Hl & _). apply (enu_length _ _ _ _ Hw) in Hu.
  split.
  - unfold whole, o_Nblts in *. rewrite E1, E2, E3, E4, Hl, Hra, Hdec, Hpa, !put_length. repeat (split; [assumption|]). assumption.
  - unfold same_setting. do 8 (split; [assumption|]). split; [exact Hl|].
    apply apply_w_proj_spec in Hd as [[Hn Hn']|(d & d' & sel' & Hd & Hd' & _)]; [tauto|]. rewrite Hd, Hd'. split; discriminate.
Qed.

Lemma unproject_rows junk pop ant mask name s s' i : picks pop -> whole s -> (i < o_Nblts s)%nat ->
  unproject_phase junk pop ant mask name s = Ok s' ->
  (in_mask s mask i \/ unprojected s i -> unprojected s' i) /\
  (~ in_mask s mask i -> forall e, points (o_pc s) i e -> points (o_pc s') i e).
Proof.
  intros Hp (Hc & _) Hi H.
  apply unproject_parts in H as (m & sel & Hm & Esel & Hu & Hd & Hpc & _).
  destruct (unproject_effect _ _ _ _ _ Hp Hc Hpc) as (Hc' & Hl & Hr).
  pose proof Hc as (_ & _ & Hpts). destruct (Hpts i Hi) as (e & He). split.
  - intros Hm'. destruct (is_unprojected_dec e) as [Hue|Hue].
    + exists e. split; [|exact Hue]. apply (Hr i e He). tauto.
    + destruct (Hr i e He) as [H1 _]. destruct H1 as (e' & He' & _ & Hu').
      * split; [|exact Hue]. destruct Hm' as [Hm'|(e1 & He1 & Hu1)]; [exact Hm'|].
        assert (e = e1) by exact (points_unique _ _ _ _ Hc He He1). subst. contradiction.
      * exists e'. auto.
  - intros Hn e1 He1. apply (Hr i e1 He1). unfold in_mask, o_Nblts in Hn. tauto.
Qed.

Lemma unproject_keeps junk pop ant mask name s s' : picks pop -> whole s ->
  unproject_phase junk pop ant mask name s = Ok s' ->
  forall i j k v, (i < o_Nblts s)%nat -> in_mask s mask i \/ unprojected s i -> measured s' i j k v <-> measured s i j k v.
Proof.
  intros Hp Hw H i j k v Hi Hm. destruct (unproject_whole _ _ _ _ _ _ _ Hp Hw H) as [Hw' Hs].
  destruct (unproject_rows _ _ _ _ _ _ _ i Hp Hw Hi H) as [Hun _]. specialize (Hun Hm).
  pose proof Hw as (Hc & L0 & L1 & L2 & L3 & L4 & L5 & L6 & L7 & L8). pose proof Hw' as (Hc' & _).
  apply unproject_parts in H as (m & sel & Hmr & Esel & Hu & Hd & Hpc & Hra & Hdec & Hpa & E1 & E2 & E3 & E4 & E5 & E6 & E7 & E8 & E9).
  destruct (unproject_sel s mask m i Hc Hi Hmr) as [Ls Hsel]. rewrite <- Esel in *.
  apply apply_w_proj_spec in Hd as [[Hn Hn']|(d & d' & sel' & Hd & Hd' & Hb & Hval)]; [apply measured_none; assumption|].
  cbn [row_bools] in Hb. rewrite Ls, Nat.eqb_refl in Hb. injection Hb as <-. specialize (Hval i j k).
  assert (Hw0 : w_has s' i j 0) by (left; auto).
  destruct (nth i sel false) eqn:Ei.
  - destruct (proj1 Hsel eq_refl) as [Hpr _].
    eapply (measured_kept s s' i j k v d d' (w_waves s i j) 0); try eassumption; [right; auto|].
    rewrite Hval. do 2 f_equal. rewrite (w_at_arr _ (o_Nblts s)); [|rewrite map_length; exact L5|exact Hi].
    rewrite (nth_indep _ 0 (w_of origin)) by (rewrite map_length, L5; exact Hi). rewrite map_nth. unfold w_waves, w_of. cbn [w_at].
    unfold Rdiv. ring.
  - assert (Hu0 : unprojected s i).
    { destruct (row_cases s i Hc Hi) as [Hq|Hq]; [exact Hq|]. destruct Hm as [Hm|Hm]; [|exact Hm].
      assert (false = true) by (apply Hsel; auto). discriminate. }
    eapply (measured_kept s s' i j k v d d' 0 0); try eassumption; [left; auto|].
    rewrite Hval, Rminus_0_r, turn_zero. reflexivity.
Qed.

(** * Coordinates from antenna positions *)
Lemma set_uvws_parts junk upd s s' : set_uvws_from_antenna_positions junk upd s = Ok s' ->
  exists new data, uvws_from junk (o_pos s) s = Ok new /\ s' = with_uvw new data (o_pos s) s /\
    ((existsb negb (check_for_cat_type "unprojected" (o_pc s)) && upd = true /\
      apply_w_proj (AArr (map w_of new)) (AArr (zero_where (check_for_cat_type "unprojected" (o_pc s)) (map w_of (o_uvw s)))) AllRows s = Ok data) \/
     (existsb negb (check_for_cat_type "unprojected" (o_pc s)) && upd = false /\ data = o_data s)).
Proof.
  unfold set_uvws_from_antenna_positions. intros H. cbn zeta in H. apply bind_Ok in H as (new & Hn & H). apply bind_Ok in H as (data & Hd & H).
  injection H as <-. exists new, data. split; [exact Hn|]. split; [reflexivity|].
  destruct (existsb negb _ && upd); [left|right]; (split; [reflexivity|]); [exact Hd|congruence].
Qed.

Lemma some_projected s i : pc_consistent (o_pc s) -> (i < o_Nblts s)%nat -> projected s i ->
  existsb negb (check_for_cat_type "unprojected" (o_pc s)) = true.
Proof.
  intros Hc Hi Hp. apply existsb_exists. exists false. split; [|reflexivity].
  assert (E : nth i (check_for_cat_type "unprojected" (o_pc s)) false = false).
  { destruct (nth i (check_for_cat_type "unprojected" (o_pc s)) false) eqn:E; [|reflexivity].
    exfalso. apply (not_both s i Hc); [apply check_unprojected; assumption|exact Hp]. }
  assert (Hin : In (nth i (check_for_cat_type "unprojected" (o_pc s)) false) (check_for_cat_type "unprojected" (o_pc s)))
    by (apply nth_In; rewrite check_length; exact Hi).
  rewrite E in Hin. exact Hin.
Qed.
Lemma none_projected s : pc_consistent (o_pc s) -> (forall i, (i < o_Nblts s)%nat -> unprojected s i) ->
  existsb negb (check_for_cat_type "unprojected" (o_pc s)) = false.
Proof.
  intros Hc Hall. apply not_true_iff_false. intros H. apply existsb_exists in H as (b & Hin & Hb).
  destruct b; [discriminate|]. apply (In_nth _ _ false) in Hin as (i & Hi & E). rewrite check_length in Hi.
  rewrite (proj2 (check_unprojected s i Hc Hi) (Hall i Hi)) in E. discriminate.
Qed.

Lemma set_uvws_whole junk upd s s' : whole s -> set_uvws_from_antenna_positions junk upd s = Ok s' -> whole s' /\ same_setting s s' /\ o_pc s' = o_pc s.
Proof.
  intros Hw H. pose proof Hw as (Hc & L0 & L1 & L2 & L3 & L4 & L5 & L6 & L7 & L8).
  apply set_uvws_parts in H as (new & data & Hn & -> & Hd). apply (uvws_from_length _ _ _ _ Hw) in Hn.
  split; [|split; [|reflexivity]].
  - unfold whole, o_Nblts in *. cbn. repeat (split; [assumption|]). assumption.
  - unfold same_setting. cbn. do 8 (split; [reflexivity|]). split; [reflexivity|].
    destruct Hd as [[_ Hd]|[_ ->]]; [|tauto].
    apply apply_w_proj_spec in Hd as [[Hn' ->]|(d & d' & sel' & Hd & -> & _)]; [tauto|]. rewrite Hd. split; discriminate.
Qed.

Lemma set_uvws_keeps junk s s' : whole s -> set_uvws_from_antenna_positions junk true s = Ok s' ->
  forall i j k v, (i < o_Nblts s)%nat -> projected s i \/ (forall q, (q < o_Nblts s)%nat -> unprojected s q) ->
  measured s' i j k v <-> measured s i j k v.
Proof.
  intros Hw H i j k v Hi Hm. destruct (set_uvws_whole _ _ _ _ Hw H) as (Hw' & Hs & Epc).
  pose proof Hw as (Hc & L0 & L1 & L2 & L3 & L4 & L5 & L6 & L7 & L8). pose proof Hw' as (Hc' & _).
  apply set_uvws_parts in H as (new & data & Hn & -> & Hd). apply (uvws_from_length _ _ _ _ Hw) in Hn.
  rewrite andb_true_r in Hd. destruct Hm as [Hm|Hm].
  - rewrite (some_projected s i Hc Hi Hm) in Hd. destruct Hd as [[_ Hd]|[Hd _]]; [|discriminate].
    apply apply_w_proj_spec in Hd as [[Hn0 ->]|(d & d' & sel' & Hd & -> & Hb & Hval)]; [apply measured_none; [exact Hn0|reflexivity]|].
    cbn [row_bools] in Hb. injection Hb as <-. specialize (Hval i j k).
    assert (Er : nth i (repeat true (o_Nblts s)) false = true).
    { rewrite (nth_indep _ false true) by (rewrite repeat_length; exact Hi). apply nth_repeat. }
    rewrite Er in Hval.
    eapply (measured_kept s _ i j k v d d'); [exact Hc|exact Hc'|exact Hd|reflexivity|exact (old_w_has s i j Hw Hi)| |].
    + right. split; [exact Hm|reflexivity].
    + rewrite Hval. do 2 f_equal. unfold w_waves. cbn [with_uvw o_uvw o_freq].
      rewrite (w_at_arr (map w_of new) (o_Nblts s) i); [|rewrite map_length; exact Hn|exact Hi].
      rewrite (nth_indep _ 0 (w_of origin)) by (rewrite map_length, Hn; exact Hi). rewrite map_nth. unfold w_of at 1. unfold Rdiv. ring.
  - rewrite (none_projected s Hc Hm) in Hd. destruct Hd as [[Hd _]|[_ ->]]; [discriminate|].
    destruct (o_data s) as [d|] eqn:Ed.
    + eapply (measured_kept s _ i j k v d d 0 0); try eassumption; try reflexivity; try (left; split; [apply Hm; exact Hi|reflexivity]).
      rewrite Rminus_0_r, turn_zero. reflexivity.
    + apply measured_none; [exact Ed|reflexivity].
Qed.

(** Replacing the positions only *)
Lemma positions_whole pos s : whole s -> whole (with_uvw (o_uvw s) (o_data s) pos s).
Proof. intros H. exact H. Qed.

Lemma positions_parts junk new upd s s' : update_antenna_positions junk new false upd s = Ok s' ->
  s' = s \/ exists pos, set_uvws_from_antenna_positions junk upd (with_uvw (o_uvw s) (o_data s) pos s) = Ok s'.
Proof.
  unfold update_antenna_positions. destruct (forallb _ _); [intros [= <-]; left; reflexivity|]. intros H. right. eexists. exact H.
Qed.

Lemma positions_keeps junk new s s' : whole s -> update_antenna_positions junk new false true s = Ok s' ->
  whole s' /\ same_setting s s' /\
  forall i j k v, (i < o_Nblts s)%nat -> projected s i \/ (forall q, (q < o_Nblts s)%nat -> unprojected s q) ->
  measured s' i j k v <-> measured s i j k v.
Proof.
  intros Hw H. apply positions_parts in H as [->|(pos & H)].
  - split; [exact Hw|]. split; [unfold same_setting; tauto|]. tauto.
  - destruct (set_uvws_whole _ _ _ _ (positions_whole pos s Hw) H) as (Hw' & Hs & _). split; [exact Hw'|]. split; [exact Hs|].
    intros i j k v Hi Hm. exact (set_uvws_keeps _ _ _ (positions_whole pos s Hw) H i j k v Hi Hm).
Qed.

(** * Histories *)
Lemma step_keeps s s' : phasing_step s s' -> whole s -> whole s' /\ same_setting s s' /\
  forall i j k v, (i < o_Nblts s)%nat -> measured s' i j k v <-> measured s i j k v.
Proof.
  intros H Hw. destruct H as [sky junk pop name p ant mask cleanup s s' Hp Hf H|junk pop ant name s s' Hp H|junk s s' Hu H|junk new s s' Hu H].
  - destruct (phase_whole _ _ _ _ _ _ _ _ _ _ Hp Hw Hf H) as [Hw' Hs]. split; [exact Hw'|]. split; [exact Hs|].
    intros. eapply phase_keeps; eassumption.
  - destruct (unproject_whole _ _ _ _ _ _ _ Hp Hw H) as [Hw' Hs]. split; [exact Hw'|]. split; [exact Hs|].
    intros i j k v Hi. eapply unproject_keeps; try eassumption. left. split; [exact Hi|exact I].
  - destruct (set_uvws_whole _ _ _ _ Hw H) as (Hw' & Hs & _). split; [exact Hw'|]. split; [exact Hs|].
    intros i j k v Hi. eapply set_uvws_keeps; try eassumption. destruct Hu as [Hu|Hu]; [left; apply Hu; exact Hi|right; exact Hu].
  - destruct (positions_keeps _ _ _ _ Hw H) as (Hw' & Hs & Hm). split; [exact Hw'|]. split; [exact Hs|].
    intros i j k v Hi. apply Hm; [exact Hi|]. destruct Hu as [Hu|Hu]; [left; apply Hu; exact Hi|right; exact Hu].
Qed.
Lemma same_setting_trans a b c : same_setting a b -> same_setting b c -> same_setting a c.
Proof.
  unfold same_setting. intros (A1 & A2 & A3 & A4 & A5 & A6 & A7 & A8 & A9 & A10) (B1 & B2 & B3 & B4 & B5 & B6 & B7 & B8 & B9 & B10).
  repeat (split; [congruence|]). tauto.
Qed.
Lemma history_keeps s s' : phasing_history s s' -> whole s -> whole s' /\ same_setting s s' /\
  forall i j k v, (i < o_Nblts s)%nat -> measured s' i j k v <-> measured s i j k v.
Proof.
  intros H. induction H as [s|s1 s2 s3 H H' IH]; intros Hw.
  - split; [exact Hw|]. split; [unfold same_setting; tauto|]. tauto.
  - destruct (step_keeps _ _ H Hw) as (Hw2 & Hs2 & Hm2). destruct (IH Hw2) as (Hw3 & Hs3 & Hm3).
    split; [exact Hw3|]. split; [eapply same_setting_trans; eassumption|]. intros i j k v Hi.
    assert (Hi2 : (i < o_Nblts s2)%nat) by (destruct Hs2 as (_ & _ & _ & _ & _ & _ & _ & _ & -> & _); exact Hi).
    rewrite (Hm3 i j k v Hi2). apply Hm2. exact Hi.
Qed.

(** Unprojecting gives back the visibilities of an unprojected object *)
Lemma measured_is_vis s i j k v : pc_consistent (o_pc s) -> unprojected s i -> measured s i j k v <-> vis_of s i j k = Some v.
Proof.
  intros Hc Hu. unfold vis_of. destruct (o_data s) as [d|] eqn:Ed.
  - rewrite (measured_w s i j k v d 0) by (try assumption; left; auto). rewrite turn_zero. split; [intros ->; reflexivity|intros [= ->]; reflexivity].
  - split; [intros (d & Hd & _); congruence|discriminate].
Qed.
Lemma round_trip junk pop ant name s s1 s2 : whole s -> picks pop -> phasing_history s s1 ->
  unproject_phase junk pop ant None name s1 = Ok s2 ->
  forall i j k v, (i < o_Nblts s)%nat -> unprojected s2 i /\ (measured s i j k v <-> vis_of s2 i j k = Some v).
Proof.
  intros Hw Hp Hh H i j k v Hi. destruct (history_keeps _ _ Hh Hw) as (Hw1 & Hs1 & Hm1).
  assert (Hi1 : (i < o_Nblts s1)%nat) by (destruct Hs1 as (_ & _ & _ & _ & _ & _ & _ & _ & -> & _); exact Hi).
  destruct (unproject_whole _ _ _ _ _ _ _ Hp Hw1 H) as [Hw2 Hs2].
  assert (Hin : in_mask s1 None i) by (split; [exact Hi1|exact I]).
  destruct (unproject_rows _ _ _ _ _ _ _ i Hp Hw1 Hi1 H) as [Hu _]. specialize (Hu (or_introl Hin)). split; [exact Hu|].
  rewrite <- (Hm1 i j k v Hi). rewrite <- (unproject_keeps _ _ _ _ _ _ _ Hp Hw1 H i j k v Hi1 (or_introl Hin)).
  apply measured_is_vis; [apply Hw2|exact Hu].
Qed.
