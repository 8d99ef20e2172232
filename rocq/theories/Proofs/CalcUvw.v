(** Every route of calc_uvw agrees with the textbook. *)
From Coq Require Import List ZArith Reals Bool Arith Lia Lra.
From Verif Require Import Lib.Py Lib.Dict Lib.Np Model.Coordinates Model.Rotation Spec.CoordinatesSpec Spec.RotationSpec Proofs.RotationProofs.
Import ListNotations.
Open Scope R_scope.

Lemma uvw_of_turns H d pa b : uvw_of H d pa b = to_uvw (turn 0 pa (turn 1 d (turn 2 H b))).
Proof. destruct b as [[X Y] Z]. unfold uvw_of, tilted, textbook_uvw, to_uvw, turn. apply vec_eq; ring. Qed.
Lemma enu_is_uvw lat lon b : east_north_up lat lon b = uvw_of (- lon) lat 0 b.
Proof. destruct b as [[X Y] Z]. unfold east_north_up, uvw_of, tilted, textbook_uvw. rewrite cos_neg, sin_neg, cos_0, sin_0. apply vec_eq; ring. Qed.
Lemma from_to v : from_uvw (to_uvw v) = v.
Proof. destruct v as [[x y] z]. reflexivity. Qed.
Lemma to_from v : to_uvw (from_uvw v) = v.
Proof. destruct v as [[x y] z]. reflexivity. Qed.
Lemma len_to v : len3 (to_uvw v) = len3 v.
Proof. destruct v as [[x y] z]. unfold to_uvw, len3. f_equal. ring. Qed.
Lemma len_from v : len3 (from_uvw v) = len3 v.
Proof. destruct v as [[x y] z]. unfold from_uvw, len3. f_equal. ring. Qed.
Lemma uvw_of_len H d pa b : len3 (uvw_of H d pa b) = len3 b.
Proof. rewrite uvw_of_turns, len_to, !turn_len. reflexivity. Qed.
Lemma uvw_of_minus H d pa p q : uvw_of H d pa (minus3 p q) = minus3 (uvw_of H d pa p) (uvw_of H d pa q).
Proof. rewrite !uvw_of_turns, !turn_minus. destruct (turn 0 pa (turn 1 d (turn 2 H p))) as [[? ?] ?], (turn 0 pa (turn 1 d (turn 2 H q))) as [[? ?] ?]. reflexivity. Qed.
Lemma uvw_of_onto H d pa v : exists b, v = uvw_of H d pa b.
Proof.
  exists (turn 2 (- H) (turn 1 (- d) (turn 0 (- pa) (from_uvw v)))). rewrite uvw_of_turns.
  rewrite (turn_inv 2) by ring. rewrite (turn_inv 1) by ring. rewrite (turn_inv 0) by ring. symmetry. apply to_from.
Qed.

Lemma neqR_spec a b : neqR a b = false <-> a = b.
Proof. unfold neqR. destruct (Req_EM_T a b); split; intros; try discriminate; auto; contradiction. Qed.
Lemma minus_length a b : length a = length b -> length (minus_arr a b) = length b.
Proof. intros H. unfold minus_arr. rewrite map_length, combine_length. lia. Qed.
Lemma minus_nth a b i : length a = length b -> nth i (minus_arr a b) 0 = nth i a 0 - nth i b 0.
Proof.
  intros H. unfold minus_arr. destruct (Nat.lt_ge_cases i (length b)) as [Hi|Hi].
  - rewrite (nth_map _ _ _ (0, 0) 0) by (rewrite combine_length; lia). rewrite combine_nth by exact H. reflexivity.
  - rewrite !nth_overflow by (rewrite ?map_length, ?combine_length; lia). ring.
Qed.

Lemma arr_of_angle o i : angle_at (arr_of o) i = pa_at o i.
Proof. destruct o; reflexivity. Qed.
Lemma arr_of_fits n o : fits_opt n o -> fits n (arr_of o).
Proof. destruct o; exact (fun H => H). Qed.

Lemma rows_back vs : map (fun r => to_uvw (hd zero3 r)) (column vs) = map to_uvw vs.
Proof. unfold column. rewrite map_map. reflexivity. Qed.
Lemma rows_in uvw : map (fun v => [from_uvw v]) uvw = column (map from_uvw uvw).
Proof. unfold column. rewrite map_map. reflexivity. Qed.
Lemma nth_from uvw i : nth i (map from_uvw uvw) zero3 = from_uvw (nth i uvw zero3).
Proof. rewrite <- (map_nth from_uvw uvw zero3 i). reflexivity. Qed.
Lemma nth_to vs i : nth i (map to_uvw vs) zero3 = to_uvw (nth i vs zero3).
Proof. rewrite <- (map_nth to_uvw vs zero3 i). reflexivity. Qed.

Lemma same_dec_nth a b i : same_dec (Some a) (Some b) = true -> length a = length b -> nth i a 0 = nth i b 0.
Proof.
  cbn [same_dec]. intros H HL. destruct (Nat.lt_ge_cases i (length b)) as [Hi|Hi].
  - rewrite forallb_forall in H. assert (Hin : In (nth i a 0, nth i b 0) (combine a b)).
    { rewrite <- combine_nth by exact HL. apply nth_In. rewrite combine_length. lia. }
    apply H in Hin. apply negb_true_iff in Hin. apply neqR_spec in Hin. exact Hin.
  - rewrite !nth_overflow by lia. reflexivity.
Qed.

Section Old.
Variables (junk : mat) (g : uvw_args) (uvw : list vec).
Hypothesis (Hu : uvw_array g = Some uvw) (Hne : uvw <> []).
Notation n := (length uvw).

(** From one position of the sky to another *)
Lemma phased_to_phased ra dec pa ora odec opa :
  app_ra g = Some ra -> app_dec g = Some dec -> frame_pa g = Some pa ->
  old_app_ra g = Some ora -> old_app_dec g = Some odec -> old_frame_pa g = Some opa ->
  length ra = n -> length dec = n -> length pa = n -> length ora = n -> length odec = n -> length opa = n ->
  exists new, calc_uvw junk false false false g = Ok new /\ length new = n /\
    forall i, (i < n)%nat ->
      nth i new zero3 = to_uvw (turn 0 (nth i pa 0) (turn 1 (nth i dec 0) (turn 2 (nth i ora 0 - nth i ra 0)
        (turn 1 (- nth i odec 0) (turn 0 (- nth i opa 0) (from_uvw (nth i uvw zero3))))))).
Proof.
  intros E1 E2 E3 E4 E5 E6 L1 L2 L3 L4 L5 L6. unfold calc_uvw. rewrite E1, E2. cbn [isNone negb andb orb].
  unfold calc_uvw_old. rewrite Hu, E1, E2, E3, E4, E5, E6. cbn [isNone negb andb orb bind need]. rewrite rows_in.
  assert (Hn' : map from_uvw uvw <> []) by (destruct uvw; [congruence|discriminate]).
  destruct (no_rot (AArr (minus_arr ora ra)) && same_dec (Some odec) (Some dec)) eqn:Et.
  - apply andb_prop in Et as [Eg Ed].
    rewrite rotate_one_rows; [|exact Hn'|lia|cbn [fits]; rewrite map_length, minus_length; lia].
    cbn [bind]. rewrite rows_back. eexists. split; [reflexivity|]. rewrite map_length, turned_length, map_length. split; [reflexivity|].
    intros i Hi. rewrite nth_to, turned_nth by (rewrite map_length; exact Hi). rewrite nth_from. cbn [angle_at]. rewrite minus_nth by lia.
    pose proof (no_rot_angle _ i Eg) as G. cbn [angle_at] in G. rewrite minus_nth in G by lia. rewrite G, turn_0.
    rewrite (same_dec_nth odec dec i Ed) by lia. rewrite (turn_inv 1) by ring. rewrite turn_add. reflexivity.
  - cbn [arr_of amount_neg needed bind].
    rewrite rotate_two_rows; [|exact Hn'|lia|lia|cbn [fits]; rewrite !map_length; lia|cbn [fits]; rewrite !map_length; lia].
    cbn [bind].
    rewrite rotate_two_rows; [| |lia|lia|cbn [fits]; rewrite !turned_length, !map_length, minus_length; lia|cbn [fits]; rewrite !turned_length, !map_length; lia].
    2:{ intros Hz. apply (f_equal (@length vec)) in Hz. rewrite !turned_length, map_length in Hz. destruct uvw; [congruence|discriminate Hz]. }
    cbn [bind].
    rewrite rotate_one_rows; [| |lia|cbn [fits]; rewrite !turned_length, !map_length; lia].
    2:{ intros Hz. apply (f_equal (@length vec)) in Hz. rewrite !turned_length, map_length in Hz. destruct uvw; [congruence|discriminate Hz]. }
    cbn [bind]. rewrite rows_back. eexists. split; [reflexivity|]. rewrite map_length, !turned_length, map_length. split; [reflexivity|].
    intros i Hi. rewrite nth_to, !turned_nth by (rewrite ?turned_length, map_length; exact Hi). rewrite nth_from. cbn [angle_at].
    rewrite minus_nth by lia. rewrite !(nth_map _ _ _ 0 0) by lia. reflexivity.
Qed.

(** From east, north and up to a position of the sky *)
Lemma enu_to_phased ra dec lst lat :
  app_ra g = Some ra -> app_dec g = Some dec -> lst_array g = Some lst -> telescope_lat g = Some lat -> old_app_dec g = None ->
  length ra = n -> length dec = n -> length lst = n -> fits_opt n (frame_pa g) ->
  exists new, calc_uvw junk false true false g = Ok new /\ length new = n /\
    forall i, (i < n)%nat ->
      nth i new zero3 = to_uvw (turn 0 (pa_at (frame_pa g) i) (turn 1 (nth i dec 0) (turn 2 (nth i lst 0 - nth i ra 0)
        (turn 1 (- lat) (from_uvw (nth i uvw zero3)))))).
Proof.
  intros E1 E2 E3 E4 E5 L1 L2 L3 Lp. unfold calc_uvw. rewrite E1, E2. cbn [isNone negb andb orb].
  unfold calc_uvw_old. rewrite Hu, E1, E2, E3, E4, E5. cbn [isNone negb andb orb bind need]. rewrite rows_in.
  assert (Hn' : map from_uvw uvw <> []) by (destruct uvw; [congruence|discriminate]).
  assert (Hd : same_dec None (Some dec) = false). { destruct dec; [|reflexivity]. destruct uvw; [congruence|discriminate L2]. }
  rewrite Hd, andb_false_r. cbn [bind].
  rewrite rotate_two_rows; [|exact Hn'|lia|lia|exact I|exact I]. cbn [bind].
  rewrite rotate_two_rows; [| |lia|lia|cbn [fits]; rewrite !turned_length, !map_length, minus_length; lia|cbn [arr_of fits]; rewrite !turned_length, !map_length; lia].
  2:{ intros Hz. apply (f_equal (@length vec)) in Hz. rewrite !turned_length, map_length in Hz. destruct uvw; [congruence|discriminate Hz]. }
  cbn [bind].
  rewrite rotate_one_rows; [| |lia|apply arr_of_fits; rewrite !turned_length, map_length; exact Lp].
  2:{ intros Hz. apply (f_equal (@length vec)) in Hz. rewrite !turned_length, map_length in Hz. destruct uvw; [congruence|discriminate Hz]. }
  cbn [bind]. rewrite rows_back. eexists. split; [reflexivity|]. rewrite map_length, !turned_length, map_length. split; [reflexivity|].
  intros i Hi. rewrite nth_to, !turned_nth by (rewrite ?turned_length, map_length; exact Hi). rewrite nth_from, arr_of_angle. cbn [angle_at arr_of].
  rewrite minus_nth by lia. rewrite turn_0. reflexivity.
Qed.

(** From a position of the sky to east, north and up *)
Lemma phased_to_enu ora odec lst lat :
  old_app_ra g = Some ora -> old_app_dec g = Some odec -> lst_array g = Some lst -> telescope_lat g = Some lat -> app_dec g = None ->
  length ora = n -> length odec = n -> length lst = n -> fits_opt n (old_frame_pa g) ->
  exists new, calc_uvw junk false false true g = Ok new /\ length new = n /\
    forall i, (i < n)%nat ->
      nth i new zero3 = to_uvw (turn 1 lat (turn 2 (nth i ora 0 - nth i lst 0)
        (turn 1 (- nth i odec 0) (turn 0 (- pa_at (old_frame_pa g) i) (from_uvw (nth i uvw zero3)))))).
Proof.
  intros E1 E2 E3 E4 E5 L1 L2 L3 Lp. unfold calc_uvw. rewrite E3, E4. cbn [isNone negb andb orb].
  unfold calc_uvw_old. rewrite Hu, E1, E2, E3, E4, E5. rewrite !orb_true_r. cbn [isNone negb andb orb bind need]. rewrite !andb_false_r. cbn [bind]. rewrite rows_in.
  assert (Hn' : map from_uvw uvw <> []) by (destruct uvw; [congruence|discriminate]).
  assert (Hd : same_dec (Some odec) None = false). { destruct odec; [|reflexivity]. destruct uvw; [congruence|discriminate L2]. }
  rewrite Hd, andb_false_r. cbn [arr_of amount_neg needed bind].
  rewrite rotate_two_rows; [|exact Hn'|lia|lia| |cbn [fits]; rewrite !map_length; lia].
  2:{ destruct (old_frame_pa g); cbn [fits amount_neg]; [rewrite !map_length; exact Lp|exact I]. }
  cbn [bind].
  rewrite rotate_two_rows; [| |lia|lia|cbn [fits]; rewrite !turned_length, !map_length, minus_length; lia|exact I].
  2:{ intros Hz. apply (f_equal (@length vec)) in Hz. rewrite !turned_length, map_length in Hz. destruct uvw; [congruence|discriminate Hz]. }
  cbn [bind]. rewrite rows_back. eexists. split; [reflexivity|]. rewrite map_length, !turned_length, map_length. split; [reflexivity|].
  intros i Hi. rewrite nth_to, !turned_nth by (rewrite ?turned_length, map_length; exact Hi). rewrite nth_from. cbn [angle_at].
  rewrite minus_nth by lia. rewrite (nth_map _ _ _ 0 0) by lia. destruct (old_frame_pa g) as [o|]; cbn [amount_neg angle_at pa_at fits_opt] in *; [|rewrite Ropp_0; reflexivity].
  rewrite (nth_map _ _ _ 0 0) by lia. reflexivity.
Qed.
End Old.
