(** Rotations: the matrices are what they should be, and calc_uvw agrees with the
    textbook whichever way it goes. *)
From Coq Require Import List ZArith Reals Bool Arith Lia Lra.
From Verif Require Import Lib.Py Lib.Dict Lib.Np Model.Coordinates Model.Rotation Spec.CoordinatesSpec Spec.RotationSpec.
Import ListNotations.
Open Scope R_scope.

Lemma vec_eq (a b c a' b' c' : R) : a = a' -> b = b' -> c = c' -> (a, b, c) = (a', b', c').
Proof. intros -> -> ->. reflexivity. Qed.
Lemma sc a : cos a * cos a = 1 - sin a * sin a.
Proof. pose proof (sin2_cos2 a) as H. unfold Rsqr in H. lra. Qed.

(** * One turn *)
Lemma turn_0 axis p : turn axis 0 p = p.
Proof. destruct p as [[x y] z]. unfold turn. rewrite cos_0, sin_0. destruct axis as [|[|?]]; apply vec_eq; ring. Qed.
Lemma turn_add axis a b p : turn axis a (turn axis b p) = turn axis (a + b) p.
Proof. destruct p as [[x y] z]. unfold turn. destruct axis as [|[|?]]; rewrite cos_plus, sin_plus; apply vec_eq; ring. Qed.
Lemma turn_inv axis a b p : a + b = 0 -> turn axis a (turn axis b p) = p.
Proof. intros H. rewrite turn_add, H. apply turn_0. Qed.
Lemma turn_minus axis a p q : turn axis a (minus3 p q) = minus3 (turn axis a p) (turn axis a q).
Proof. destruct p as [[x y] z], q as [[x' y'] z']. unfold turn, minus3. destruct axis as [|[|?]]; apply vec_eq; ring. Qed.
Lemma turn_len axis a p : len3 (turn axis a p) = len3 p.
Proof.
  destruct p as [[x y] z]. unfold turn, len3. pose proof (sc a) as H.
  destruct axis as [|[|?]]; f_equal.
  - replace (x * x + (cos a * y - sin a * z) * (cos a * y - sin a * z) + (sin a * y + cos a * z) * (sin a * y + cos a * z))
      with (x * x + (cos a * cos a + sin a * sin a) * (y * y + z * z)) by ring. rewrite H. ring.
  - replace ((cos a * x + sin a * z) * (cos a * x + sin a * z) + y * y + (- sin a * x + cos a * z) * (- sin a * x + cos a * z))
      with (y * y + (cos a * cos a + sin a * sin a) * (x * x + z * z)) by ring. rewrite H. ring.
  - replace ((cos a * x - sin a * y) * (cos a * x - sin a * y) + (sin a * x + cos a * y) * (sin a * x + cos a * y) + z * z)
      with (z * z + (cos a * cos a + sin a * sin a) * (x * x + y * y)) by ring. rewrite H. ring.
Qed.

(** * The matrices *)
Lemma one_axis_turn axis a v : (axis < 3)%nat -> mulv (one_axis_matrix axis a) v = turn axis a v.
Proof.
  intros H. destruct v as [[x y] z]. destruct axis as [|[|[|?]]]; [| | |lia];
    cbv [mulv one_axis_matrix mset Nat.modulo Nat.divmod Nat.add Nat.eqb andb Nat.sub fst snd turn]; apply vec_eq; ring.
Qed.
Lemma two_axis_turn junk ax1 ax2 a1 a2 v : (ax1 < 3)%nat -> (ax2 < 3)%nat -> ax1 <> ax2 ->
  mulv (two_axis_matrix junk ax1 ax2 a1 a2) v = turn ax2 a2 (turn ax1 a1 v).
Proof.
  intros H1 H2 Hn. destruct v as [[x y] z].
  destruct ax1 as [|[|[|?]]]; [| | |lia]; (destruct ax2 as [|[|[|?]]]; [| | |lia]); try (exfalso; apply Hn; reflexivity);
    lazy -[Rplus Rmult Ropp Rminus sin cos IZR]; apply vec_eq; ring.
Qed.

(** * Arrays *)
Lemma isz_spec r : isz r = true <-> r = 0.
Proof. unfold isz. destruct (Req_EM_T r 0); split; intros; try discriminate; auto; try contradiction. Qed.
Lemma no_rot_angle a i : no_rot a = true -> angle_at a i = 0.
Proof.
  destruct a as [|r|l]; cbn [no_rot angle_at]; intros H; [reflexivity|apply isz_spec, H|].
  destruct (Nat.lt_ge_cases i (length l)) as [Hi|Hi]; [|apply nth_overflow, Hi].
  apply isz_spec. rewrite forallb_forall in H. apply H, nth_In, Hi.
Qed.
Lemma concat_column vs : concat (column vs) = vs.
Proof. induction vs as [|v vs IH]; [reflexivity|]. cbn [column map concat app]. f_equal. exact IH. Qed.
Lemma column_length vs : length (column vs) = length vs.
Proof. apply map_length. Qed.
Lemma n_vec_column vs : vs <> [] -> n_vec (column vs) = 1%nat.
Proof. destruct vs; [congruence|reflexivity]. Qed.

Lemma column_pairs (ms : list mat) vs : map (fun p => map (mulv (fst p)) (snd p)) (combine ms (map (fun v : vec => [v]) vs)) =
  column (map (fun p => mulv (fst p) (snd p)) (combine ms vs)).
Proof. revert vs. induction ms as [|a ms IH]; destruct vs as [|w vs]; try reflexivity. cbn [combine map fst snd column]. f_equal. apply IH. Qed.

(** One matrix for each record *)
Lemma apply_rot_each (ms : list mat) vs : length ms = length vs ->
  apply_rot ms (column vs) = Ok (column (map (fun p => mulv (fst p) (snd p)) (combine ms vs))).
Proof.
  intros HL. destruct ms as [|m [|m' ms]]; destruct vs as [|v [|v' vs]]; try discriminate HL; try reflexivity.
  unfold apply_rot, rotate_matmul. cbn [column map]. cbn [length] in *. rewrite map_length, HL, Nat.eqb_refl. do 1 f_equal. cbn [combine map fst snd column]. do 2 f_equal.
  apply column_pairs.
Qed.
(** One matrix for all of them *)
Lemma apply_rot_all (m : mat) vs : vs <> [] -> apply_rot [m] (column vs) = Ok (column (map (mulv m) vs)).
Proof.
  intros Hv. unfold apply_rot. rewrite n_vec_column by exact Hv. cbn [Nat.eqb]. rewrite concat_column. cbn [rotate_matmul bind map concat].
  rewrite app_nil_r. reflexivity.
Qed.

Lemma map_seq_nth {A B} (f : A -> B) (l : list A) d : map f l = map (fun i => f (nth i l d)) (seq 0 (length l)).
Proof.
  induction l as [|x l IH]; [reflexivity|]. cbn [map length seq nth]. f_equal. rewrite IH, <- seq_shift, map_map. reflexivity.
Qed.
Lemma combine_seq_nth {A B C} (f : A * B -> C) (l : list A) (m : list B) d e : length l = length m ->
  map f (combine l m) = map (fun i => f (nth i l d, nth i m e)) (seq 0 (length m)).
Proof.
  intros H. rewrite (map_seq_nth f (combine l m) (d, e)). rewrite combine_length, H, Nat.min_id. apply map_ext_in. intros i Hi. rewrite combine_nth by exact H. reflexivity.
Qed.
Lemma nth_repeat_in {A} (x d : A) n i : (i < n)%nat -> nth i (repeat x n) d = x.
Proof. revert i. induction n as [|n IH]; intros i Hi; [lia|]. destruct i as [|i]; [reflexivity|]. cbn [repeat nth]. apply IH. lia. Qed.

Definition turned (axis : nat) (a : amount) (vs : list vec) : list vec :=
  map (fun i => turn axis (angle_at a i) (nth i vs zero3)) (seq 0 (length vs)).
Lemma turned_length axis a vs : length (turned axis a vs) = length vs.
Proof. unfold turned. rewrite map_length, seq_length. reflexivity. Qed.
Lemma turned_nth axis a vs i : (i < length vs)%nat -> nth i (turned axis a vs) zero3 = turn axis (angle_at a i) (nth i vs zero3).
Proof.
  intros H. unfold turned. rewrite (nth_map _ _ _ 0%nat zero3) by (rewrite seq_length; exact H). rewrite seq_nth by exact H. reflexivity.
Qed.
Lemma turned_none axis a vs : no_rot a = true -> turned axis a vs = vs.
Proof.
  intros H. unfold turned. transitivity (map (fun x => x) vs); [|apply map_id]. rewrite (map_seq_nth (fun x => x) vs zero3). apply map_ext. intros i. rewrite no_rot_angle by exact H. apply turn_0.
Qed.

Lemma rotate_one_rows axis a vs : vs <> [] -> (axis < 3)%nat -> fits (length vs) a ->
  rotate_one_axis (column vs) a axis = Ok (column (turned axis a vs)).
Proof.
  intros Hv Hx Hf. unfold rotate_one_axis. destruct (no_rot a) eqn:En; [rewrite turned_none by exact En; reflexivity|].
  destruct a as [|r|l]; [discriminate En| |].
  - cbn [n_rot spread repeat bind map]. rewrite apply_rot_all by exact Hv. do 2 f_equal. unfold turned. cbn [angle_at].
    rewrite (map_seq_nth (mulv (one_axis_matrix axis r)) vs zero3). apply map_ext. intros i. apply one_axis_turn, Hx.
  - cbn [fits] in Hf. cbn [n_rot spread]. rewrite Nat.eqb_refl. cbn [bind]. rewrite apply_rot_each by (rewrite map_length; exact Hf).
    do 2 f_equal. rewrite (combine_seq_nth _ _ _ (one_axis_matrix axis 0) zero3) by (rewrite map_length; exact Hf). unfold turned. apply map_ext_in. intros i _. cbn [fst snd angle_at].
    rewrite (map_nth (one_axis_matrix axis) l 0 i). apply one_axis_turn, Hx.
Qed.

Lemma spread_fits n a l : fits n a -> spread n a = Ok l -> length l = n /\ forall i, (i < n)%nat -> nth i l 0 = angle_at a i.
Proof.
  destruct a as [|r|k]; cbn [spread fits angle_at]; intros Hf H; [discriminate H| |].
  - injection H as <-. split; [apply repeat_length|]. intros i Hi. apply nth_repeat_in, Hi.
  - rewrite Hf, Nat.eqb_refl in H. injection H as <-. split; [exact Hf|reflexivity].
Qed.
Lemma spread_ok n a : fits n a -> a <> ANone -> exists l, spread n a = Ok l.
Proof. destruct a as [|r|k]; cbn [spread fits]; intros Hf H; [congruence|eauto|]. rewrite Hf, Nat.eqb_refl. eauto. Qed.
Lemma not_none a : no_rot a = false -> a <> ANone.
Proof. intros H ->. discriminate H. Qed.

Lemma fits_max n a1 a2 : (1 <= n)%nat -> fits n a1 -> fits n a2 ->
  Nat.max (n_rot a1) (n_rot a2) = n \/ (Nat.max (n_rot a1) (n_rot a2) = 1%nat /\ (exists r, a1 = ANum r \/ a1 = ANone) /\ (exists r, a2 = ANum r \/ a2 = ANone)).
Proof.
  destruct a1 as [|r1|l1], a2 as [|r2|l2]; cbn [fits n_rot]; intros Hn F1 F2; try (left; lia);
    right; (split; [reflexivity|]); split; first [exists 0; right; reflexivity | eexists; left; reflexivity].
Qed.
Lemma rotate_two_rows junk ax1 ax2 a1 a2 vs : vs <> [] -> (ax1 < 3)%nat -> (ax2 < 3)%nat -> fits (length vs) a1 -> fits (length vs) a2 ->
  rotate_two_axis junk (column vs) a1 a2 ax1 ax2 = Ok (column (turned ax2 a2 (turned ax1 a1 vs))).
Proof.
  intros Hv H1 H2 F1 F2. unfold rotate_two_axis.
  destruct (no_rot a1) eqn:E1; [rewrite (turned_none ax1) by exact E1|]; destruct (no_rot a2) eqn:E2.
  - rewrite turned_none by exact E2. reflexivity.
  - apply rotate_one_rows; assumption.
  - rewrite (turned_none ax2) by exact E2. apply rotate_one_rows; assumption.
  - assert (HL : (1 <= length vs)%nat) by (destruct vs; [congruence|cbn; lia]).
    pose proof (not_none _ E1) as N1. pose proof (not_none _ E2) as N2.
    destruct (Nat.eqb ax1 ax2) eqn:Ex.
    + apply Nat.eqb_eq in Ex as <-.
      assert (G : exists a, amount_add a1 a2 = Ok a /\ fits (length vs) a /\ forall i, (i < length vs)%nat -> angle_at a i = angle_at a2 i + angle_at a1 i).
      { destruct a1 as [|r1|l1]; [congruence| |]; (destruct a2 as [|r2|l2]; [congruence| |]); cbn [amount_add fits] in *.
        - exists (ANum (r1 + r2)). split; [reflexivity|]. split; [exact I|]. intros i _. cbn. ring.
        - exists (AArr (map (Rplus r1) l2)). split; [reflexivity|]. split; [cbn; rewrite map_length; exact F2|]. intros i Hi. cbn [angle_at].
          rewrite (nth_map _ _ _ 0 0) by lia. ring.
        - exists (AArr (map (fun x => x + r2) l1)). split; [reflexivity|]. split; [cbn; rewrite map_length; exact F1|]. intros i Hi. cbn [angle_at].
          rewrite (nth_map _ _ _ 0 0) by lia. ring.
        - rewrite F1, F2, Nat.max_id. cbn [spread]. rewrite F1, F2, Nat.eqb_refl. cbn [bind].
          eexists. split; [reflexivity|]. split; [cbn; rewrite map_length, combine_length; lia|]. intros i Hi. cbn [angle_at].
          rewrite (nth_map _ _ _ (0, 0) 0) by (rewrite combine_length; lia). rewrite combine_nth by lia. cbn [fst snd]. ring. }
      destruct G as (a & Ea & Fa & Ha). rewrite Ea. cbn [bind]. rewrite rotate_one_rows by assumption. do 2 f_equal. unfold turned at 1 2.
      rewrite turned_length. apply map_ext_in. intros i Hi. apply in_seq in Hi. rewrite turned_nth by lia. rewrite turn_add, Ha by lia. reflexivity.
    + apply Nat.eqb_neq in Ex.
      destruct (fits_max (length vs) a1 a2 HL F1 F2) as [Hm|(Hm & (r1 & D1) & (r2 & D2))].
      * rewrite Hm. destruct (spread_ok _ _ F1 N1) as [l1 S1]. destruct (spread_ok _ _ F2 N2) as [l2 S2]. rewrite S1, S2. cbn [bind].
        destruct (spread_fits _ _ _ F1 S1) as [L1 A1]. destruct (spread_fits _ _ _ F2 S2) as [L2 A2].
        rewrite apply_rot_each by (rewrite map_length, combine_length; lia). do 2 f_equal.
        rewrite (combine_seq_nth _ _ _ (two_axis_matrix junk ax1 ax2 0 0) zero3) by (rewrite map_length, combine_length; lia).
        unfold turned at 1. rewrite turned_length. apply map_ext_in. intros i Hi. apply in_seq in Hi. cbn [fst snd].
        rewrite (nth_map _ _ _ (0, 0)) by (rewrite combine_length; lia). rewrite combine_nth by lia. cbn [fst snd].
        rewrite turned_nth by lia. rewrite A1, A2 by lia. apply two_axis_turn; assumption.
      * destruct D1 as [->| ->]; [|congruence]. destruct D2 as [->| ->]; [|congruence]. cbn [n_rot Nat.max spread repeat bind combine map fst snd].
        rewrite apply_rot_all by exact Hv. do 2 f_equal. rewrite (map_seq_nth (mulv (two_axis_matrix junk ax1 ax2 r1 r2)) vs zero3).
        unfold turned at 1. rewrite turned_length. apply map_ext_in. intros i Hi. apply in_seq in Hi. rewrite turned_nth by lia. cbn [angle_at]. apply two_axis_turn; assumption.
Qed.
