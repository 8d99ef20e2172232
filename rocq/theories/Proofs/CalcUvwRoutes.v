(** The routes of calc_uvw in terms of the baseline, there and back, and the
    position angles it loses. *)
From Coq Require Import List ZArith Reals Bool Arith Lia Lra.
From Verif Require Import Lib.Py Lib.Dict Lib.Np Model.Coordinates Model.Rotation Spec.CoordinatesSpec Spec.RotationSpec Proofs.RotationProofs Proofs.CalcUvw Proofs.CalcUvwAnts.
Import ListNotations.
Open Scope R_scope.

Lemma move_spec junk g uvw ra dec pa ora odec opa :
  uvw_array g = Some uvw -> uvw <> [] ->
  app_ra g = Some ra -> app_dec g = Some dec -> frame_pa g = Some pa ->
  old_app_ra g = Some ora -> old_app_dec g = Some odec -> old_frame_pa g = Some opa ->
  length ra = length uvw -> length dec = length uvw -> length pa = length uvw -> length ora = length uvw -> length odec = length uvw -> length opa = length uvw ->
  exists new, calc_uvw junk false false false g = Ok new /\ length new = length uvw /\
    forall i H b, (i < length uvw)%nat -> nth i uvw origin = uvw_of H (nth i odec 0) (nth i opa 0) b ->
      nth i new origin = uvw_of (H + nth i ora 0 - nth i ra 0) (nth i dec 0) (nth i pa 0) b.
Proof.
  intros Hu Hne E1 E2 E3 E4 E5 E6 L1 L2 L3 L4 L5 L6.
  destruct (phased_to_phased junk g uvw Hu Hne ra dec pa ora odec opa E1 E2 E3 E4 E5 E6 L1 L2 L3 L4 L5 L6) as (new & N1 & N2 & N3).
  exists new. split; [exact N1|]. split; [exact N2|]. intros i H b Hi Hb. change origin with zero3 in *. rewrite (N3 i Hi), Hb, !uvw_of_turns, from_to.
  rewrite (turn_inv 0 (- _)) by ring. rewrite (turn_inv 1 (- _)) by ring. rewrite (turn_add 2). do 4 f_equal. ring.
Qed.

Lemma from_enu_spec junk g uvw ra dec lst lat :
  uvw_array g = Some uvw -> uvw <> [] ->
  app_ra g = Some ra -> app_dec g = Some dec -> lst_array g = Some lst -> telescope_lat g = Some lat -> old_app_dec g = None ->
  length ra = length uvw -> length dec = length uvw -> length lst = length uvw -> fits_opt (length uvw) (frame_pa g) ->
  exists new, calc_uvw junk false true false g = Ok new /\ length new = length uvw /\
    forall i lon b, (i < length uvw)%nat -> nth i uvw origin = east_north_up lat lon b ->
      nth i new origin = uvw_of (nth i lst 0 - nth i ra 0 - lon) (nth i dec 0) (pa_at (frame_pa g) i) b.
Proof.
  intros Hu Hne E1 E2 E3 E4 E5 L1 L2 L3 L4.
  destruct (enu_to_phased junk g uvw Hu Hne ra dec lst lat E1 E2 E3 E4 E5 L1 L2 L3 L4) as (new & N1 & N2 & N3).
  exists new. split; [exact N1|]. split; [exact N2|]. intros i lon b Hi Hb. change origin with zero3 in *. rewrite (N3 i Hi), Hb, enu_is_uvw, !uvw_of_turns, from_to, turn_0.
  rewrite (turn_inv 1 (- _)) by ring. rewrite (turn_add 2). do 4 f_equal. 
Qed.

Lemma to_enu_spec junk g uvw ora odec lst lat :
  uvw_array g = Some uvw -> uvw <> [] ->
  old_app_ra g = Some ora -> old_app_dec g = Some odec -> lst_array g = Some lst -> telescope_lat g = Some lat -> app_dec g = None ->
  length ora = length uvw -> length odec = length uvw -> length lst = length uvw -> fits_opt (length uvw) (old_frame_pa g) ->
  exists new, calc_uvw junk false false true g = Ok new /\ length new = length uvw /\
    forall i lon b, (i < length uvw)%nat -> nth i uvw origin = uvw_of (nth i lst 0 - nth i ora 0 - lon) (nth i odec 0) (pa_at (old_frame_pa g) i) b ->
      nth i new origin = east_north_up lat lon b.
Proof.
  intros Hu Hne E1 E2 E3 E4 E5 L1 L2 L3 L4.
  destruct (phased_to_enu junk g uvw Hu Hne ora odec lst lat E1 E2 E3 E4 E5 L1 L2 L3 L4) as (new & N1 & N2 & N3).
  exists new. split; [exact N1|]. split; [exact N2|]. intros i lon b Hi Hb. change origin with zero3 in *. rewrite (N3 i Hi), Hb, enu_is_uvw, !uvw_of_turns, from_to, turn_0.
  rewrite (turn_inv 0 (- _)) by ring. rewrite (turn_inv 1 (- _)) by ring. rewrite (turn_add 2). do 3 f_equal. ring.
Qed.

Lemma nth_ext0 (l m : list vec) : length l = length m -> (forall i, (i < length m)%nat -> nth i l zero3 = nth i m zero3) -> l = m.
Proof. intros H G. apply (nth_ext _ _ zero3 zero3 H). intros i Hi. apply G. lia. Qed.

(** There and back *)
Lemma move_back junk g g' uvw new ra dec pa ora odec opa :
  uvw_array g = Some uvw -> uvw <> [] ->
  app_ra g = Some ra -> app_dec g = Some dec -> frame_pa g = Some pa ->
  old_app_ra g = Some ora -> old_app_dec g = Some odec -> old_frame_pa g = Some opa ->
  length ra = length uvw -> length dec = length uvw -> length pa = length uvw -> length ora = length uvw -> length odec = length uvw -> length opa = length uvw ->
  calc_uvw junk false false false g = Ok new ->
  uvw_array g' = Some new ->
  app_ra g' = Some ora -> app_dec g' = Some odec -> frame_pa g' = Some opa ->
  old_app_ra g' = Some ra -> old_app_dec g' = Some dec -> old_frame_pa g' = Some pa ->
  calc_uvw junk false false false g' = Ok uvw.
Proof.
  intros Hu Hne E1 E2 E3 E4 E5 E6 L1 L2 L3 L4 L5 L6 HC Hu' F1 F2 F3 F4 F5 F6.
  destruct (move_spec junk g uvw ra dec pa ora odec opa Hu Hne E1 E2 E3 E4 E5 E6 L1 L2 L3 L4 L5 L6) as (new' & N1 & N2 & N3).
  rewrite HC in N1. injection N1 as <-.
  destruct (move_spec junk g' new ora odec opa ra dec pa Hu') as (b & M1 & M2 & M3); auto; try congruence.
  { intros Hz. rewrite Hz in N2. destruct uvw; [congruence|discriminate N2]. }
  rewrite M1. f_equal. apply nth_ext0; [congruence|]. intros i Hi.
  destruct (uvw_of_onto 0 (nth i odec 0) (nth i opa 0) (nth i uvw zero3)) as [p Hp].
  change zero3 with origin in *. rewrite (M3 i (0 + nth i ora 0 - nth i ra 0) p); [|lia|apply N3; assumption]. rewrite Hp. f_equal. ring.
Qed.
Lemma enu_and_back junk g g' uvw new ora odec lst lat :
  uvw_array g = Some uvw -> uvw <> [] ->
  old_app_ra g = Some ora -> old_app_dec g = Some odec -> lst_array g = Some lst -> telescope_lat g = Some lat -> app_dec g = None ->
  length ora = length uvw -> length odec = length uvw -> length lst = length uvw -> fits_opt (length uvw) (old_frame_pa g) ->
  calc_uvw junk false false true g = Ok new ->
  uvw_array g' = Some new -> app_ra g' = Some ora -> app_dec g' = Some odec -> lst_array g' = Some lst -> telescope_lat g' = Some lat -> old_app_dec g' = None ->
  frame_pa g' = old_frame_pa g ->
  calc_uvw junk false true false g' = Ok uvw.
Proof.
  intros Hu Hne E1 E2 E3 E4 E5 L1 L2 L3 L4 HC Hu' F1 F2 F3 F4 F5 F6.
  destruct (to_enu_spec junk g uvw ora odec lst lat Hu Hne E1 E2 E3 E4 E5 L1 L2 L3 L4) as (new' & N1 & N2 & N3).
  rewrite HC in N1. injection N1 as <-.
  destruct (from_enu_spec junk g' new ora odec lst lat Hu') as (b & M1 & M2 & M3); auto; try congruence.
  { intros Hz. rewrite Hz in N2. destruct uvw; [congruence|discriminate N2]. }
  rewrite M1. f_equal. apply nth_ext0; [congruence|]. intros i Hi.
  destruct (uvw_of_onto (nth i lst 0 - nth i ora 0 - 0) (nth i odec 0) (pa_at (old_frame_pa g) i) (nth i uvw zero3)) as [p Hp].
  change zero3 with origin in *. rewrite (M3 i 0 p); [|lia|apply N3; assumption]. rewrite Hp, F6. reflexivity.
Qed.
(** The lengths of the baselines *)
Lemma move_lengths junk g uvw new ra dec pa ora odec opa :
  uvw_array g = Some uvw -> uvw <> [] ->
  app_ra g = Some ra -> app_dec g = Some dec -> frame_pa g = Some pa ->
  old_app_ra g = Some ora -> old_app_dec g = Some odec -> old_frame_pa g = Some opa ->
  length ra = length uvw -> length dec = length uvw -> length pa = length uvw -> length ora = length uvw -> length odec = length uvw -> length opa = length uvw ->
  calc_uvw junk false false false g = Ok new -> map len3 new = map len3 uvw.
Proof.
  intros Hu Hne E1 E2 E3 E4 E5 E6 L1 L2 L3 L4 L5 L6 HC.
  destruct (move_spec junk g uvw ra dec pa ora odec opa Hu Hne E1 E2 E3 E4 E5 E6 L1 L2 L3 L4 L5 L6) as (new' & N1 & N2 & N3).
  rewrite HC in N1. injection N1 as <-. assert (N2' : @length point new = @length point uvw) by exact N2. rewrite (map_seq_nth len3 new origin), (map_seq_nth len3 uvw origin), N2'. apply map_ext_in. intros i Hi. apply in_seq in Hi. destruct Hi as [_ Hi]. rewrite Nat.add_0_l in Hi.
  destruct (uvw_of_onto 0 (nth i odec 0) (nth i opa 0) (nth i uvw origin)) as [p Hp]. pose proof (N3 i 0 p Hi Hp) as Hq.
  transitivity (len3 p); [|symmetry]; [transitivity (len3 (nth i new origin)); [reflexivity|]; rewrite Hq | transitivity (len3 (nth i uvw origin)); [reflexivity|]; rewrite Hp]; apply uvw_of_len.
Qed.

(** * A position angle that is lost: two records of one baseline towards the same
    place, whose frames differ by a quarter turn *)
Definition two_frames : uvw_args :=
  {| app_ra := Some [0; 0]; app_dec := Some [0; 0]; frame_pa := Some [0; PI / 2]; lst_array := Some [0; 0];
     uvw_array := None; antenna_positions := Some [(0, 0, 0); (0, 1, 0)]; antenna_numbers := Some [0%Z; 1%Z];
     ant_1 := Some [0%Z; 0%Z]; ant_2 := Some [1%Z; 1%Z]; old_app_ra := None; old_app_dec := None; old_frame_pa := None;
     telescope_lat := Some 0; telescope_lon := Some 0 |}.
Lemma isz_0 : isz 0 = true. Proof. apply isz_spec. reflexivity. Qed.
Lemma isz_00 : isz (0 - 0 - 0) = true. Proof. apply isz_spec. ring. Qed.
Lemma neqR_same a : neqR a a = false. Proof. apply neqR_spec. reflexivity. Qed.
Lemma two_frames_result junk : calc_uvw junk true false false two_frames = Ok [(1 - 0, 0 - 0, 0 - 0); (1 - 0, 0 - 0, 0 - 0)].
Proof.
  unfold calc_uvw, two_frames. cbn [app_ra app_dec frame_pa lst_array isNone negb andb orb].
  unfold calc_uvw_ants. cbn [app_ra app_dec frame_pa lst_array antenna_positions antenna_numbers ant_1 ant_2 telescope_lon isNone negb andb orb need bind].
  unfold minus_arr. cbn [combine map fst snd changes]. rewrite !neqR_same. cbn [orb masked map].
  unfold rotate_two_axis, rotate_one_axis. cbn [no_rot forallb]. rewrite isz_00, isz_0. cbn. reflexivity.
Qed.
Lemma two_frames_lost junk : exists new, calc_uvw junk true false false two_frames = Ok new /\
  nth 1 new origin <> uvw_of (0 - 0 - 0) 0 (PI / 2) (minus3 (0, 1, 0) (0, 0, 0)).
Proof.
  eexists. split; [apply two_frames_result|]. cbn [nth]. unfold uvw_of, tilted, textbook_uvw, minus3. rewrite !Rminus_0_r, cos_0, sin_0, cos_PI2, sin_PI2.
  intros H. injection H as H1 _ _. lra.
Qed.
(** No position angle, same place *)
Definition no_angle : uvw_args :=
  {| app_ra := Some [0]; app_dec := Some [0]; frame_pa := None; lst_array := None; uvw_array := Some [(1, 0, 0)];
     antenna_positions := None; antenna_numbers := None; ant_1 := None; ant_2 := None;
     old_app_ra := Some [0]; old_app_dec := Some [0]; old_frame_pa := None; telescope_lat := None; telescope_lon := None |}.
Lemma no_angle_raises junk : calc_uvw junk false false false no_angle = Err TypeError.
Proof.
  unfold calc_uvw, no_angle. cbn [app_ra app_dec isNone negb andb orb]. unfold calc_uvw_old.
  cbn [app_ra app_dec frame_pa lst_array uvw_array old_app_ra old_app_dec old_frame_pa isNone negb andb orb need bind]. unfold minus_arr. cbn [combine map fst snd no_rot forallb same_dec].
  rewrite neqR_same. replace (isz (0 - 0)) with true by (symmetry; apply isz_spec; ring). reflexivity.
Qed.
