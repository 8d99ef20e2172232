(** calc_uvw from antenna positions. *)
From Coq Require Import List ZArith Reals Bool Arith Lia Lra.
From Verif Require Import Lib.Py Lib.Dict Lib.Np Model.Coordinates Model.Rotation Spec.CoordinatesSpec Spec.RotationSpec Proofs.RotationProofs Proofs.CalcUvw.
Import ListNotations.
Open Scope R_scope.

(** * Which rotation each record takes *)
(** [R i] relates record [i] to the one before: no rotation of its own *)
Lemma cumsum_length n m : length (cumsum n m) = length m.
Proof. revert n. induction m as [|b m IH]; intros n; [reflexivity|]. cbn [cumsum length]. rewrite IH. reflexivity. Qed.
Lemma masked_length {A B} (m : list bool) (l : list A) (k : list B) : length l = length k -> length (masked m l) = length (masked m k).
Proof.
  revert l k. induction m as [|b m IH]; intros [|x l] [|y k] H; try discriminate H; try reflexivity.
  cbn [masked]. destruct b; cbn [length]; rewrite (IH l k) by (cbn [length] in H; lia); reflexivity.
Qed.
Lemma masked_map {A B} (f : A -> B) m l : masked m (map f l) = map f (masked m l).
Proof. revert l. induction m as [|b m IH]; intros [|x l]; try reflexivity. cbn [masked map]. destruct b; cbn [map]; rewrite IH; reflexivity. Qed.

(** [x] was the last record; [t] are the records after it, with their mask *)
Lemma locate_masked {A} (x : A) (t : list A) (m : list bool) d : length m = length t ->
  (forall i, (i < length t)%nat -> nth i m true = false -> nth i t d = nth i (x :: t) d) ->
  forall (pre : list A) k, k = length pre -> forall i, (i < length t)%nat ->
    (nth i (cumsum k m) 0%nat < length (pre ++ x :: masked m t))%nat /\
    nth (nth i (cumsum k m) 0%nat) (pre ++ x :: masked m t) d = nth i t d.
Proof.
  revert x m. induction t as [|y t IH]; intros x m HL Hsame pre k Hk i Hi; [cbn in Hi; lia|].
  destruct m as [|b m]; [discriminate HL|]. cbn [length] in *. cbn [cumsum masked].
  assert (HL' : length m = length t) by lia.
  assert (Hnext : forall j, (j < length t)%nat -> nth j m true = false -> nth j t d = nth j (y :: t) d).
  { intros j Hj Hm. specialize (Hsame (S j) ltac:(lia)). cbn [nth] in Hsame. apply Hsame, Hm. }
  destruct b.
  - specialize (IH y m HL' Hnext (pre ++ [x]) (S k)). rewrite <- app_assoc in IH. cbn [app] in IH.
    specialize (IH ltac:(rewrite app_length; cbn; lia)).
    destruct i as [|i].
    + cbn [nth]. split; [rewrite app_length; cbn [length]; lia|]. rewrite app_nth2 by lia. replace (S k - length pre)%nat with 1%nat by lia. reflexivity.
    + cbn [nth]. apply IH. lia.
  - assert (y = x) as <-. { specialize (Hsame 0%nat ltac:(lia) eq_refl). exact Hsame. }
    specialize (IH y m HL' Hnext pre k Hk). destruct i as [|i].
    + cbn [nth]. split; [rewrite app_length; cbn [length]; lia|]. rewrite app_nth2 by lia. replace (k - length pre)%nat with 0%nat by lia. reflexivity.
    + cbn [nth]. apply IH. lia.
Qed.
Lemma locate_records {A} (l : list A) (m : list bool) d : l <> [] -> length m = length l -> hd false m = true ->
  (forall i, (S i < length l)%nat -> nth (S i) m true = false -> nth (S i) l d = nth i l d) ->
  forall i, (i < length l)%nat ->
    (nth i (unique_map m) 0%nat < length (masked m l))%nat /\ nth (nth i (unique_map m) 0%nat) (masked m l) d = nth i l d.
Proof.
  intros Hl HL Hm Hsame i Hi. destruct l as [|x l]; [congruence|]. destruct m as [|b m]; [discriminate HL|]. cbn [hd] in Hm. subst b.
  unfold unique_map. cbn [cumsum masked]. cbn [length] in *.
  destruct i as [|i]; [cbn [nth length]; split; [lia|reflexivity]|].
  cbn [nth]. apply (locate_masked x l m d ltac:(lia)) with (pre := []) (k := 0%nat); [|reflexivity|lia].
  intros j Hj. apply (Hsame j). lia.
Qed.

Lemma changes_length l : l <> [] -> S (length (changes l)) = length l.
Proof.
  induction l as [|a l IH]; [congruence|]. intros _. destruct l as [|b l]; [reflexivity|].
  cbn [changes length] in *. rewrite IH by discriminate. reflexivity.
Qed.
Lemma changes_nth l i : (S i < length l)%nat -> nth i (changes l) true = false <-> nth (S i) l (0, 0) = nth i l (0, 0).
Proof.
  revert i. induction l as [|a l IH]; intros i Hi; [cbn in Hi; lia|]. destruct l as [|b l]; [cbn in Hi; lia|].
  destruct i as [|i].
  - cbn [changes nth]. destruct a as [a1 a2], b as [b1 b2]. cbn [fst snd]. rewrite orb_false_iff, !neqR_spec. split; [intros [-> ->]; reflexivity|].
    intros H. injection H as -> ->. split; reflexivity.
  - change (nth (S i) (changes (a :: b :: l)) true) with (nth i (changes (b :: l)) true). change (nth (S (S i)) (a :: b :: l) (0, 0)) with (nth (S i) (b :: l) (0, 0)).
    change (nth (S i) (a :: b :: l) (0, 0)) with (nth i (b :: l) (0, 0)). apply IH. cbn [length] in *. lia.
Qed.
Lemma masked_all_false {A} m (l : list A) : (forall i, (i < length m)%nat -> nth i m true = false) -> masked m l = [].
Proof.
  revert l. induction m as [|b m IH]; intros l H; [reflexivity|]. destruct l as [|x l]; [reflexivity|].
  pose proof (H 0%nat ltac:(cbn; lia)) as H0. cbn in H0. subst b. cbn [masked]. apply IH. intros i Hi. apply (H (S i)). cbn. lia.
Qed.
(** If all rotations are the same there is only one *)
Lemma masked_single l : l <> [] -> let m := true :: changes l in (forall p, In p (masked m l) -> p = (0, 0)) -> length (masked m l) = 1%nat.
Proof.
  intros Hl m H. pose proof (changes_length l Hl) as HL.
  assert (Hz : forall i, (i < length l)%nat -> nth i l (0, 0) = (0, 0)).
  { intros i Hi. destruct (locate_records l m (0, 0) Hl) with (i := i) as [H1 H2]; [cbn; lia|reflexivity| |exact Hi|].
    - intros j Hj. cbn [m nth]. apply changes_nth, Hj.
    - rewrite <- H2. apply H, nth_In, H1. }
  destruct l as [|x l]; [congruence|]. cbn [m masked length]. f_equal. rewrite masked_all_false; [reflexivity|].
  intros i Hi. cbn [length] in HL. apply changes_nth; [cbn [length]; lia|]. rewrite !Hz by (cbn [length]; lia). reflexivity.
Qed.

(** * Rotating one set of antennas many times *)
Lemma rotate_matmul_set ms r : rotate_matmul ms [r] = Ok (map (fun m => map (mulv m) r) ms).
Proof. reflexivity. Qed.
Lemma apply_rot_set ms r : apply_rot ms [r] = Ok (map (fun m => map (mulv m) r) ms).
Proof.
  unfold apply_rot. destruct ms as [|m [|m' ms]]; [reflexivity| |reflexivity]. cbn [n_vec]. destruct r as [|v [|v' r]]; reflexivity.
Qed.
Lemma one_axis_set axis l r : (axis < 3)%nat -> no_rot (AArr l) = false \/ length l = 1%nat ->
  rotate_one_axis [r] (AArr l) axis = Ok (map (fun a => map (turn axis a) r) l).
Proof.
  intros Hx H. unfold rotate_one_axis. destruct (no_rot (AArr l)) eqn:En.
  - destruct H as [H|H]; [discriminate H|]. destruct l as [|a [|? ?]]; try discriminate H. cbn [map]. do 2 f_equal.
    pose proof (no_rot_angle (AArr [a]) 0 En) as Ha. cbn in Ha. subst a. transitivity (map (fun v : vec => v) r); [symmetry; apply map_id|]. apply map_ext. intros v. symmetry. apply turn_0.
  - cbn [n_rot spread]. rewrite Nat.eqb_refl. cbn [bind]. rewrite apply_rot_set, map_map. f_equal. apply map_ext. intros a. apply map_ext. intros v. apply one_axis_turn, Hx.
Qed.
Lemma map_turn_0 axis (r : list vec) : map (turn axis 0) r = r.
Proof. transitivity (map (fun v : vec => v) r); [|apply map_id]. apply map_ext. intros v. apply turn_0. Qed.
Lemma zeros l : no_rot (AArr l) = true -> forall a, In a l -> a = 0.
Proof. cbn [no_rot]. rewrite forallb_forall. intros H a Ha. apply isz_spec, H, Ha. Qed.
Lemma two_axis_set junk (ps : list (R * R)) r :
  ((forall p, In p ps -> p = (0, 0)) -> length ps = 1%nat) ->
  rotate_two_axis junk [r] (AArr (map fst ps)) (AArr (map snd ps)) 2 1 = Ok (map (fun p => map (fun v => turn 1 (snd p) (turn 2 (fst p) v)) r) ps).
Proof.
  intros Hz. unfold rotate_two_axis.
  destruct (no_rot (AArr (map fst ps))) eqn:E1, (no_rot (AArr (map snd ps))) eqn:E2.
  - assert (HL : length ps = 1%nat).
    { apply Hz. intros [a b] Hp. rewrite (zeros _ E1 a) by (apply in_map_iff; exists (a, b); auto). rewrite (zeros _ E2 b) by (apply in_map_iff; exists (a, b); auto). reflexivity. }
    destruct ps as [|[a b] [|? ?]]; try discriminate HL. cbn [map fst snd] in *.
    rewrite (zeros _ E1 a) by (left; reflexivity). rewrite (zeros _ E2 b) by (left; reflexivity). do 2 f_equal.
    transitivity (map (fun v : vec => v) r); [symmetry; apply map_id|]. apply map_ext. intros v. rewrite !turn_0. reflexivity.
  - rewrite one_axis_set by (lia || auto). rewrite map_map. f_equal. apply map_ext_in. intros [a b] Hp. apply map_ext. intros v. cbn [fst snd].
    rewrite (zeros _ E1 a) by (apply in_map_iff; exists (a, b); auto). rewrite turn_0. reflexivity.
  - rewrite one_axis_set by (lia || auto). rewrite map_map. f_equal. apply map_ext_in. intros [a b] Hp. apply map_ext. intros v. cbn [fst snd].
    rewrite (zeros _ E2 b) by (apply in_map_iff; exists (a, b); auto). rewrite turn_0. reflexivity.
  - cbn [Nat.eqb n_rot spread]. rewrite !map_length, Nat.max_id, Nat.eqb_refl. cbn [bind]. rewrite apply_rot_set. f_equal. rewrite map_map.
    assert (Hc : combine (map fst ps) (map snd ps) = ps) by (clear; induction ps as [|[a b] ps IH]; [reflexivity|]; cbn [map combine fst snd]; f_equal; exact IH).
    rewrite Hc. apply map_ext. intros [a b]. apply map_ext. intros v. cbn [fst snd]. apply two_axis_turn; lia.
Qed.
(** One more turn for each of the sets *)
Lemma one_axis_sets axis (l : list R) (s : stack) : (axis < 3)%nat -> length l = length s ->
  rotate_one_axis s (AArr l) axis = Ok (map (fun p => map (turn axis (fst p)) (snd p)) (combine l s)).
Proof.
  intros Hx HL. destruct s as [|r [|r' s]].
  - destruct l; [|discriminate HL]. reflexivity.
  - destruct l as [|a [|? ?]]; try discriminate HL. rewrite one_axis_set by (lia || auto). reflexivity.
  - unfold rotate_one_axis. destruct (no_rot (AArr l)) eqn:En.
    + pose proof (zeros _ En) as Hz. clear En. f_equal. remember (r :: r' :: s) as t eqn:Et. clear Et. revert t HL. induction l as [|a l IH]; intros [|u t] HL; try discriminate HL; [reflexivity|].
      cbn [combine map fst snd]. rewrite (Hz a) by (left; reflexivity). rewrite map_turn_0. f_equal. apply IH; [|cbn in HL; lia]. intros b Hb. apply Hz. right. exact Hb.
    + cbn [n_rot spread]. rewrite Nat.eqb_refl. cbn [bind]. unfold apply_rot. destruct l as [|a [|a' l]]; try discriminate HL.
      cbn [map]. unfold rotate_matmul. cbn [length] in *. rewrite map_length, <- HL, Nat.eqb_refl. f_equal. cbn [combine map fst snd].
      f_equal; [apply map_ext; intros v; apply one_axis_turn, Hx|]. f_equal; [apply map_ext; intros v; apply one_axis_turn, Hx|].
      assert (HL' : length l = length s) by lia. clear - HL' Hx. revert s HL'. induction l as [|a l IH]; intros [|u s] HL'; try discriminate HL'; [reflexivity|].
      cbn [map combine fst snd]. f_equal; [apply map_ext; intros v; apply one_axis_turn, Hx|]. apply IH. cbn in HL'. lia.
Qed.

Lemma nth_error_blocks {A} (s : list (list A)) N m r i v : (forall q, In q s -> length q = N) -> nth_error s m = Some r -> nth_error r i = Some v ->
  nth_error (concat s) (m * N + i) = Some v.
Proof.
  revert m. induction s as [|q s IH]; intros m HN Hm Hi; [destruct m; discriminate Hm|].
  cbn [concat]. assert (Hq : length q = N) by (apply HN; left; reflexivity). destruct m as [|m].
  - injection Hm as ->. cbn [Nat.mul Nat.add]. rewrite nth_error_app1; [exact Hi|]. apply nth_error_Some. congruence.
  - cbn [nth_error] in Hm. rewrite nth_error_app2 by lia. replace (S m * N + i - length q)%nat with (m * N + i)%nat by lia.
    apply IH; [|exact Hm|exact Hi]. intros p Hp. apply HN. right. exact Hp.
Qed.

(** * The antenna lookup *)
Lemma dget_foldl (l : list (Z * nat)) : forall d k v, NoDup (map fst l) -> In (k, v) l -> dget Z.eqb k (fold_left (fun d p => dset Z.eqb (fst p) (snd p) d) l d) = Ok v.
Proof.
  assert (Hout : forall l d k, ~ In k (map fst l) -> dget Z.eqb k (fold_left (fun d p => dset Z.eqb (fst p) (snd p) d) l d) = dget (V := nat) Z.eqb k d).
  { clear l. induction l as [|[a b] l IH]; intros d k Hk; [reflexivity|]. cbn [fold_left fst snd]. rewrite IH by (intros H; apply Hk; right; exact H).
    rewrite (dget_dset Z.eqb Z.eqb_eq). replace (Z.eqb k a) with false; [reflexivity|]. symmetry. apply Z.eqb_neq. intros ->. apply Hk. left. reflexivity. }
  induction l as [|[a b] l IH]; intros d k v Hn Hin; [contradiction|]. cbn [map fst] in Hn. inversion Hn as [|? ? Ha Hn']; subst. cbn [fold_left fst snd].
  destruct Hin as [H|H].
  - injection H as -> ->. rewrite Hout by exact Ha. rewrite (dget_dset Z.eqb Z.eqb_eq), Z.eqb_refl. reflexivity.
  - apply IH; assumption.
Qed.
Lemma map_fst_combine {A B} (l : list A) (m : list B) : length l = length m -> map fst (combine l m) = l.
Proof. revert m. induction l as [|a l IH]; intros [|b m] H; try discriminate H; [reflexivity|]. cbn [combine map fst]. f_equal. apply IH. cbn in H. lia. Qed.
Lemma ant_index nums k a : NoDup nums -> nth_error nums k = Some a -> dget Z.eqb a (dict_of Z.eqb (combine nums (seq 0 (length nums)))) = Ok k.
Proof.
  intros Hn Hk. apply dget_foldl; [rewrite map_fst_combine by (rewrite seq_length; reflexivity); exact Hn|].
  assert (Hl : (k < length nums)%nat) by (apply nth_error_Some; congruence).
  replace (a, k) with (nth k (combine nums (seq 0 (length nums))) (0%Z, 0%nat)).
  - apply nth_In. rewrite combine_length, seq_length. lia.
  - rewrite combine_nth by (rewrite seq_length; reflexivity). rewrite seq_nth by exact Hl. rewrite (nth_error_nth _ _ _ Hk). reflexivity.
Qed.
Lemma all_indexed nums l : NoDup nums -> (forall a, In a l -> In a nums) ->
  exists is, mapM (fun n => dget Z.eqb n (dict_of Z.eqb (combine nums (seq 0 (length nums))))) l = Ok is /\ Forall2 (fun a k => nth_error nums k = Some a) l is.
Proof.
  intros Hn. induction l as [|a l IH]; intros Hin; [exists []; split; [reflexivity|constructor]|].
  destruct IH as (is & E & F); [intros b Hb; apply Hin; right; exact Hb|].
  destruct (In_nth_error _ _ (Hin a (or_introl eq_refl))) as [k Hk]. exists (k :: is). cbn [mapM]. rewrite (ant_index _ _ _ Hn Hk), E. cbn [bind].
  split; [reflexivity|constructor; assumption].
Qed.
Lemma indexed_nth nums l is i k : NoDup nums -> Forall2 (fun a k => nth_error nums k = Some a) l is -> (i < length l)%nat ->
  nth_error nums k = Some (nth i l 0%Z) -> nth i is 0%nat = k /\ length is = length l.
Proof.
  intros Hn F Hi Hk. assert (HL : length is = length l) by (clear - F; induction F; [reflexivity|cbn; congruence]). split; [|exact HL].
  assert (Hx : nth_error nums (nth i is 0%nat) = Some (nth i l 0%Z)).
  { clear Hk HL. revert i Hi. induction F as [|a j l is Ha F IH]; intros i Hi; [cbn in Hi; lia|]. destruct i as [|i]; [exact Ha|]. cbn [nth]. apply IH. cbn in Hi. lia. }
  rewrite NoDup_nth_error in Hn. apply Hn; [apply nth_error_Some; congruence|congruence].
Qed.

(** * The result *)
Section Ants.
Variables (junk : mat) (g : uvw_args) (pos : list vec) (nums a1 a2 : list Z) (lon : R).
Hypothesis (E1 : antenna_positions g = Some pos) (E2 : antenna_numbers g = Some nums) (E3 : ant_1 g = Some a1) (E4 : ant_2 g = Some a2) (E5 : telescope_lon g = Some lon).
Hypothesis (Hn : NoDup nums) (HL : length nums = length pos) (H1 : forall a, In a a1 -> In a nums) (H2 : forall a, In a a2 -> In a nums).
Hypothesis (H12 : length a2 = length a1) (Hne : a1 <> []).
Notation n := (length a1).

(** The rotated antennas, read out for each baseline *)
Lemma baselines (s : stack) (um : list nat) i1 i2 (f : nat -> vec -> vec) :
  Forall2 (fun a k => nth_error nums k = Some a) a1 i1 -> Forall2 (fun a k => nth_error nums k = Some a) a2 i2 ->
  length um = n -> (forall m r, nth_error s m = Some r -> length r = length pos) ->
  (forall i, (i < n)%nat -> nth_error s (nth i um 0%nat) = Some (map (f i) pos)) ->
  exists new, mapM (fun p =>
      do c1 <- match nth_error (concat s) (fst p * length pos + fst (snd p)) with Some v => Ok v | None => Err IndexError end;
      do c2 <- match nth_error (concat s) (fst p * length pos + snd (snd p)) with Some v => Ok v | None => Err IndexError end;
      Ok (to_uvw (vsub c2 c1))) (combine um (combine i1 i2)) = Ok new /\ length new = n /\
    forall i k1 k2, (i < n)%nat -> nth_error nums k1 = Some (nth i a1 0%Z) -> nth_error nums k2 = Some (nth i a2 0%Z) ->
      nth i new zero3 = to_uvw (vsub (f i (nth k2 pos zero3)) (f i (nth k1 pos zero3))).
Proof.
  intros F1 F2 Lm Ls Hs.
  assert (L1 : length i1 = n) by (clear - F1; induction F1; [reflexivity|cbn; congruence]).
  assert (L2 : length i2 = n) by (rewrite <- H12; clear - F2; induction F2; [reflexivity|cbn; congruence]).
  assert (Hin : forall q, In q s -> length q = length pos).
  { intros q Hq. apply In_nth_error in Hq as [m Hq]. apply (Ls m q Hq). }
  set (F := fun p : nat * (nat * nat) => _).
  assert (Hrow : forall i k1 k2, (i < n)%nat -> nth_error nums k1 = Some (nth i a1 0%Z) -> nth_error nums k2 = Some (nth i a2 0%Z) ->
    F (nth i (combine um (combine i1 i2)) (0%nat, (0%nat, 0%nat))) = Ok (to_uvw (vsub (f i (nth k2 pos zero3)) (f i (nth k1 pos zero3))))).
  { intros i k1 k2 Hi K1 K2. rewrite combine_nth by (rewrite combine_length; lia). rewrite combine_nth by lia. unfold F. cbn [fst snd].
    destruct (indexed_nth nums a1 i1 i k1 Hn F1 Hi K1) as [-> _]. destruct (indexed_nth nums a2 i2 i k2 Hn F2 ltac:(lia) K2) as [-> _].
    assert (D : forall k a, nth_error nums k = Some a -> nth_error (concat s) (nth i um 0%nat * length pos + k) = Some (f i (nth k pos zero3))).
    { intros k a Hk. apply (nth_error_blocks s (length pos) _ (map (f i) pos)); [exact Hin|apply Hs, Hi|].
      apply map_nth_error. apply nth_error_nth'. rewrite <- HL. apply nth_error_Some. congruence. }
    rewrite (D k1 _ K1), (D k2 _ K2). cbn [bind]. reflexivity. }
  assert (Hk : forall i, (i < n)%nat -> exists k1 k2, nth_error nums k1 = Some (nth i a1 0%Z) /\ nth_error nums k2 = Some (nth i a2 0%Z)).
  { intros i Hi. destruct (In_nth_error nums (nth i a1 0%Z)) as [k1 K1]; [apply H1, nth_In, Hi|]. destruct (In_nth_error nums (nth i a2 0%Z)) as [k2 K2]; [apply H2, nth_In; lia|]. eauto. }
  assert (Hall : exists new, mapM F (combine um (combine i1 i2)) = Ok new).
  { assert (G : forall p, In p (combine um (combine i1 i2)) -> exists y, F p = Ok y).
    { intros p Hp. apply (In_nth _ _ (0%nat, (0%nat, 0%nat))) in Hp as (i & Hi & <-). rewrite !combine_length in Hi. destruct (Hk i ltac:(lia)) as (k1 & k2 & K1 & K2).
      eexists. apply (Hrow i k1 k2); [lia|exact K1|exact K2]. }
    clear - G. revert G. generalize (combine um (combine i1 i2)). intros l. induction l as [|p l IH]; intros G; [exists []; reflexivity|].
    destruct (G p (or_introl eq_refl)) as [y Hy]. destruct IH as [ys Hys]; [intros q Hq; apply G; right; exact Hq|]. exists (y :: ys). cbn [mapM]. rewrite Hy, Hys. reflexivity. }
  destruct Hall as [new Hnew]. exists new. split; [exact Hnew|]. pose proof (mapM_Ok_length _ _ _ Hnew) as Ln. rewrite !combine_length in Ln. split; [lia|].
  intros i k1 k2 Hi K1 K2. pose proof (Hrow i k1 k2 Hi K1 K2) as Hr.
  pose proof (mapM_Ok_nth F _ _ (0%nat, (0%nat, 0%nat)) zero3 Hnew i) as Hm. rewrite !combine_length in Hm. rewrite Hm in Hr by lia. injection Hr as ->. reflexivity.
Qed.

Lemma ants_to_phased ra dec lst :
  app_ra g = Some ra -> app_dec g = Some dec -> lst_array g = Some lst -> length ra = n -> length dec = n -> length lst = n -> fits_opt n (frame_pa g) ->
  (forall i, (S i < n)%nat -> nth (S i) lst 0 - nth (S i) ra 0 = nth i lst 0 - nth i ra 0 -> nth (S i) dec 0 = nth i dec 0 ->
     pa_at (frame_pa g) (S i) = pa_at (frame_pa g) i) ->
  exists new, calc_uvw junk true false false g = Ok new /\ length new = n /\
    forall i k1 k2, (i < n)%nat -> nth_error nums k1 = Some (nth i a1 0%Z) -> nth_error nums k2 = Some (nth i a2 0%Z) ->
      nth i new zero3 = uvw_of (nth i lst 0 - nth i ra 0 - lon) (nth i dec 0) (pa_at (frame_pa g) i) (minus3 (nth k2 pos zero3) (nth k1 pos zero3)).
Proof.
  intros A1 A2 A3 L1 L2 L3 Lp Hpa. unfold calc_uvw. rewrite A1, A2. cbn [isNone negb andb orb].
  unfold calc_uvw_ants. rewrite E1, E2, E3, E4, E5, A1, A2, A3. cbn [isNone negb andb orb].
  destruct (all_indexed nums a1 Hn H1) as (i1 & X1 & F1). destruct (all_indexed nums a2 Hn H2) as (i2 & X2 & F2). rewrite X1. cbn [bind]. rewrite X2. cbn [bind need].
  set (ha := minus_arr lst ra). set (prs := combine ha dec). set (mask := true :: changes prs).
  assert (Lh : length ha = n) by (unfold ha; rewrite minus_length; lia).
  assert (Lpr : length prs = n) by (unfold prs; rewrite combine_length; lia).
  assert (Hpr : prs <> []) by (intros Hz; rewrite Hz in Lpr; destruct a1; [congruence|discriminate Lpr]).
  assert (Lm : length mask = n) by (unfold mask; cbn [length]; rewrite changes_length by exact Hpr; exact Lpr).
  assert (Nm : forall i, (S i < n)%nat -> nth (S i) mask true = false <-> nth (S i) prs (0, 0) = nth i prs (0, 0)).
  { intros i Hi. unfold mask. cbn [nth]. apply changes_nth. lia. }
  assert (Hprn : forall i, nth i prs (0, 0) = (nth i ha 0, nth i dec 0)) by (intros i; unfold prs; apply combine_nth; lia).
  (* the pairs of the rotations *)
  set (ps := masked mask (map (fun p => (fst p - lon, snd p)) prs)).
  assert (P1 : map (fun h => h - lon) (masked mask ha) = map fst ps).
  { unfold ps. rewrite <- masked_map, <- masked_map. f_equal. rewrite map_map. cbn [fst]. rewrite <- (map_map fst (fun h => h - lon)). f_equal. unfold prs. symmetry. apply map_fst_combine. lia. }
  assert (P2 : masked mask dec = map snd ps).
  { unfold ps. rewrite <- masked_map. f_equal. rewrite map_map. cbn [snd]. unfold prs. clear - Lh L2. rewrite <- Lh in L2. clear Lh. revert dec L2. induction ha as [|h ha IH]; intros [|d dec] H; try discriminate H; [reflexivity|].
    cbn [combine map snd]. f_equal. apply IH. cbn in H. lia. }
  rewrite P1, P2.
  assert (Hloc : forall i, (i < n)%nat -> (nth i (unique_map mask) 0%nat < length ps)%nat /\ nth (nth i (unique_map mask) 0%nat) ps (0, 0) = (nth i ha 0 - lon, nth i dec 0)).
  { intros i Hi. destruct (locate_records prs mask (0, 0) Hpr ltac:(lia) eq_refl) with (i := i) as [G1 G2]; [|lia|].
    - intros j Hj. apply Nm. lia.
    - unfold ps. rewrite masked_map, map_length. split; [exact G1|]. rewrite (nth_map _ _ _ (0, 0)) by exact G1. rewrite G2, Hprn. reflexivity. }
  assert (Hone : (forall p, In p ps -> p = (0, 0)) -> length ps = 1%nat).
  { intros Hz. unfold ps. rewrite masked_map, map_length.
    assert (Hc : forall i, (i < n)%nat -> nth i prs (0, 0) = (0 + lon, 0)).
    { intros i Hi. destruct (Hloc i Hi) as [G1 G2]. rewrite (Hz (nth (nth i (unique_map mask) 0%nat) ps (0, 0))) in G2 by (apply nth_In, G1). injection G2 as G3 G4. rewrite Hprn. f_equal; lra. }
    clear - Hc Lpr Hpr Lm Nm. unfold mask in *. destruct prs as [|x t]; [congruence|]. cbn [masked length]. f_equal. rewrite masked_all_false; [reflexivity|].
    intros i Hi. cbn [length] in *. apply (proj2 (Nm i ltac:(lia))). rewrite !Hc by lia. reflexivity. }
  cbn [bind]. rewrite (two_axis_set junk ps pos Hone). cbn [bind].
  set (s1 := map (fun p => map (fun v => turn 1 (snd p) (turn 2 (fst p) v)) pos) ps).
  assert (Lu : length (unique_map mask) = n) by (unfold unique_map, mask; rewrite cumsum_length; exact Lm).
  (* the last turn *)
  assert (G : exists s2, rotate_one_axis s1 (match frame_pa g with None => ANum 0 | Some pa => AArr (masked mask pa) end) 0 = Ok s2 /\
    (forall m r, nth_error s2 m = Some r -> length r = length pos) /\
    forall i, (i < n)%nat -> nth_error s2 (nth i (unique_map mask) 0%nat) = Some (map (fun v => turn 0 (pa_at (frame_pa g) i) (turn 1 (nth i dec 0) (turn 2 (nth i ha 0 - lon) v))) pos)).
  { destruct (frame_pa g) as [pa|] eqn:Ep; cbn [pa_at fits_opt] in *.
    - assert (Lq : length (masked mask pa) = length ps) by (unfold ps; apply masked_length; rewrite map_length; lia).
      rewrite one_axis_sets; [|lia|unfold s1; rewrite map_length; exact Lq]. eexists. split; [reflexivity|]. split.
      + intros m r Hr. apply nth_error_In in Hr. apply in_map_iff in Hr as ([q r'] & <- & Hin). cbn [fst snd]. rewrite map_length. apply in_combine_r in Hin. unfold s1 in Hin. apply in_map_iff in Hin as (p & <- & _). apply map_length.
      + intros i Hi. destruct (Hloc i Hi) as [G1 G2].
        destruct (locate_records pa mask 0 ltac:(intros Hz; rewrite Hz in Lp; destruct a1; [congruence|discriminate Lp]) ltac:(lia) eq_refl) with (i := i) as [Q1 Q2]; [|lia|].
        * intros j Hj Hm. apply Hpa; [lia| |].
          -- apply (Nm j ltac:(lia)) in Hm. rewrite !Hprn in Hm. injection Hm as Hm1 Hm2. unfold ha in Hm1. rewrite !minus_nth in Hm1 by lia. exact Hm1.
          -- apply (Nm j ltac:(lia)) in Hm. rewrite !Hprn in Hm. injection Hm as Hm1 Hm2. exact Hm2.
        * set (m := nth i (unique_map mask) 0%nat) in *.
          assert (Hc : nth_error (combine (masked mask pa) s1) m = Some (nth i pa 0, map (fun v => turn 1 (nth i dec 0) (turn 2 (nth i ha 0 - lon) v)) pos)).
          { rewrite (nth_error_nth' _ (0, [])) by (rewrite combine_length; unfold s1; rewrite map_length; lia). rewrite combine_nth by (unfold s1; rewrite map_length; exact Lq).
            rewrite Q2. unfold s1. rewrite (nth_map _ _ _ (0, 0)) by exact G1. rewrite G2. reflexivity. }
          rewrite (map_nth_error _ _ _ Hc). cbn [fst snd]. rewrite map_map. reflexivity.
    - exists s1. split; [unfold rotate_one_axis; cbn [no_rot]; replace (isz 0) with true by (symmetry; apply isz_spec; reflexivity); reflexivity|]. split.
      + intros m r Hr. apply nth_error_In in Hr. unfold s1 in Hr. apply in_map_iff in Hr as (p & <- & _). apply map_length.
      + intros i Hi. destruct (Hloc i Hi) as [G1 G2]. set (m := nth i (unique_map mask) 0%nat) in *.
        unfold s1. rewrite (map_nth_error _ _ _ (nth_error_nth' ps (0, 0) G1)). rewrite G2. cbn [fst snd]. f_equal. apply map_ext. intros v. rewrite turn_0. reflexivity. }
  destruct G as (s2 & -> & Ls & Hs). cbn [bind].
  destruct (baselines s2 (unique_map mask) i1 i2 (fun i v => turn 0 (pa_at (frame_pa g) i) (turn 1 (nth i dec 0) (turn 2 (nth i ha 0 - lon) v))) F1 F2 Lu Ls Hs) as (new & N1 & N2 & N3).
  exists new. split; [exact N1|]. split; [exact N2|]. intros i k1 k2 Hi K1 K2. rewrite (N3 i k1 k2 Hi K1 K2). rewrite uvw_of_turns. unfold ha. rewrite minus_nth by lia.
  change vsub with minus3. rewrite !turn_minus. reflexivity.
Qed.

Lemma ants_to_enu lat : telescope_lat g = Some lat ->
  exists new, calc_uvw junk true false true g = Ok new /\ length new = n /\
    forall i k1 k2, (i < n)%nat -> nth_error nums k1 = Some (nth i a1 0%Z) -> nth_error nums k2 = Some (nth i a2 0%Z) ->
      nth i new zero3 = east_north_up lat lon (minus3 (nth k2 pos zero3) (nth k1 pos zero3)).
Proof.
  intros A1. unfold calc_uvw. rewrite A1. cbn [isNone negb andb orb]. rewrite andb_false_r. cbn [orb].
  unfold calc_uvw_ants. rewrite E1, E2, E3, E4, E5, A1. rewrite andb_false_r.
  destruct (all_indexed nums a1 Hn H1) as (i1 & X1 & F1). destruct (all_indexed nums a2 Hn H2) as (i2 & X2 & F2). rewrite X1. cbn [bind]. rewrite X2. cbn [bind need].
  change [0 - lon] with (map fst [(0 - lon, 0 + lat)]). change [0 + lat] with (map snd [(0 - lon, 0 + lat)]). rewrite two_axis_set by reflexivity. cbn [map bind fst snd rotate_one_axis no_rot].
  assert (L1 : length i1 = n) by (clear - F1; induction F1; [reflexivity|cbn; congruence]).
  set (um := unique_map _).
  assert (Hum : um = repeat 0%nat n).
  { unfold um, unique_map. destruct i1 as [|i0 i1]; [destruct a1; [congruence|discriminate L1]|]. rewrite <- L1. clear. cbn [cumsum length repeat]. f_equal. induction i1 as [|x i1 IH]; [reflexivity|]. cbn [map cumsum length repeat]. f_equal. exact IH. }
  set (s := [map (fun v : vec => turn 1 (0 + lat) (turn 2 (0 - lon) v)) pos]).
  destruct (baselines s um i1 i2 (fun i v => turn 1 (0 + lat) (turn 2 (0 - lon) v)) F1 F2) as (new & N1 & N2 & N3).
  - rewrite Hum. apply repeat_length.
  - intros [|m] r Hr; [|destruct m; discriminate Hr]. injection Hr as <-. apply map_length.
  - intros i Hi. rewrite Hum, nth_repeat_in by exact Hi. reflexivity.
  - exists new. split; [exact N1|]. split; [exact N2|]. intros i k1 k2 Hi K1 K2. rewrite (N3 i k1 k2 Hi K1 K2). rewrite enu_is_uvw, uvw_of_turns, turn_0.
    change vsub with minus3. rewrite !turn_minus. rewrite Rplus_0_l, Rminus_0_l. reflexivity.
Qed.
End Ants.
