(** Proofs about new objects. *)
From Coq Require Import List ZArith Bool Arith String Lia Sorting.Sorted Sorting.Permutation.
From Verif Require Import Lib.Py Lib.Np Lib.Dict Model.NewData Spec.NewDataSpec.
Import ListNotations.
Notation length := List.length.
Open Scope list_scope.
Open Scope Z_scope.

(** * Unique values *)
Lemma unique_count (l u : list Z) : NoDup u -> (forall x, In x u <-> In x l) -> length u = distinct_times l.
Proof. intros N H. apply Permutation_length, NoDup_Permutation; [exact N | apply NoDup_nodup | intros x; rewrite nodup_In; apply H]. Qed.
Lemma uniqueZ_count l : length (uniqueZ l) = distinct_times l.
Proof. apply unique_count; [apply uniqueZ_NoDup | intros x; apply uniqueZ_In]. Qed.
Lemma nodup_count {A} (dec : forall x y : A, {x = y} + {x <> y}) l : length (nodup dec l) = length l <-> NoDup l.
Proof.
  split; intros H; [|rewrite (nodup_fixed_point dec H); reflexivity].
  apply (NoDup_incl_NoDup (NoDup_nodup dec l)); [lia | intros x; apply nodup_In].
Qed.
Lemma uniqueZ_all l : length (uniqueZ l) = length l <-> NoDup l.
Proof. rewrite uniqueZ_count. apply nodup_count. Qed.
Lemma pair_eqb_eq p q : pair_eqb p q = true <-> p = q.
Proof. destruct p, q. unfold pair_eqb. cbn. rewrite andb_true_iff, !Z.eqb_eq. split; [intros (-> & ->); reflexivity | intros [= -> ->]; auto]. Qed.
Lemma pair_leb_lt p q : pair_eqb p q = false -> pair_leb p q = true -> pair_lt p q.
Proof. destruct p as [a b], q as [c d]. unfold pair_eqb, pair_leb, pair_lt. cbn. rewrite andb_false_iff, orb_true_iff, andb_true_iff, !Z.eqb_neq, Z.ltb_lt, Z.eqb_eq, Z.leb_le. lia. Qed.
Lemma pair_leb_gt p q : pair_leb p q = false -> pair_lt q p.
Proof. destruct p as [a b], q as [c d]. unfold pair_leb, pair_lt. cbn. rewrite orb_false_iff, andb_false_iff, Z.ltb_ge, Z.eqb_neq, Z.leb_gt. lia. Qed.
Lemma pair_lt_trans p q r : pair_lt p q -> pair_lt q r -> pair_lt p r.
Proof. unfold pair_lt. lia. Qed.
Lemma insert_pair_In p q l : In q (insert_pair p l) <-> q = p \/ In q l.
Proof.
  induction l as [|x l IH]; cbn; [intuition congruence|]. destruct (pair_eqb p x) eqn:E; [apply pair_eqb_eq in E; subst; cbn; intuition congruence|]. destruct (pair_leb p x); cbn; [intuition congruence|]. rewrite IH. intuition congruence.
Qed.
Lemma unique_pairs_In q l : In q (unique_pairs l) <-> In q l.
Proof. induction l as [|x l IH]; cbn; [tauto|]. fold (unique_pairs l). rewrite insert_pair_In, IH. intuition congruence. Qed.
Lemma insert_pair_sorted p l : StronglySorted pair_lt l -> StronglySorted pair_lt (insert_pair p l).
Proof.
  induction 1 as [|x l S' IH F]; cbn; [repeat constructor|]. destruct (pair_eqb p x) eqn:E; [constructor; assumption|]. destruct (pair_leb p x) eqn:L.
  - pose proof (pair_leb_lt p x E L) as PL. constructor; [constructor; assumption|]. constructor; [exact PL|]. rewrite Forall_forall in *. intros y I. apply (pair_lt_trans _ _ _ PL (F y I)).
  - constructor; [exact IH|]. apply Forall_forall. intros y I. apply insert_pair_In in I as [-> | I]; [apply pair_leb_gt, L | rewrite Forall_forall in F; apply F, I].
Qed.
Lemma unique_pairs_sorted l : StronglySorted pair_lt (unique_pairs l).
Proof. induction l as [|x l IH]; cbn; [constructor | apply insert_pair_sorted, IH]. Qed.
Lemma sorted_NoDup {A} (R : A -> A -> Prop) l : (forall x, ~ R x x) -> StronglySorted R l -> NoDup l.
Proof. intros I. induction 1 as [|x l S' IH F]; constructor; [|exact IH]. intros J. rewrite Forall_forall in F. apply (I x), F, J. Qed.
Lemma unique_pairs_NoDup l : NoDup (unique_pairs l).
Proof. apply (sorted_NoDup pair_lt); [intros x; unfold pair_lt; lia | apply unique_pairs_sorted]. Qed.
Lemma unique_pairs_count l : length (unique_pairs l) = distinct_pairs l.
Proof. apply Permutation_length, NoDup_Permutation; [apply unique_pairs_NoDup | apply NoDup_nodup | intros x; rewrite nodup_In; apply unique_pairs_In]. Qed.
Lemma unique_pairs_all l : length (unique_pairs l) = length l <-> NoDup l.
Proof. rewrite unique_pairs_count. apply nodup_count. Qed.
Lemma sorted_unique l : StronglySorted Z.lt l -> uniqueZ l = l.
Proof. intros S'. symmetry. apply uniqueZ_char; [exact S' | tauto]. Qed.

(** * Tiles and repeats *)
Lemma tile_length {A} (l : list A) n : length (tile l n) = (n * length l)%nat.
Proof. unfold tile. induction n as [|n IH]; cbn; [reflexivity|]. rewrite app_length, IH. reflexivity. Qed.
Lemma tile_nth {A} (d : A) l n k : (k < n * length l)%nat -> nth k (tile l n) d = nth (k mod length l) l d.
Proof.
  unfold tile. revert k. induction n as [|n IH]; cbn; intros k L; [lia|]. destruct (Nat.lt_ge_cases k (length l)) as [K | K].
  - rewrite app_nth1 by exact K. rewrite Nat.mod_small by exact K. reflexivity.
  - rewrite app_nth2 by exact K. rewrite IH by lia. f_equal. rewrite <- (Nat.mod_add (k - length l) 1) by lia. f_equal. lia.
Qed.
Lemma repeats_length {A} (l : list A) n : length (repeats l n) = (length l * n)%nat.
Proof. unfold repeats. induction l as [|x l IH]; cbn; [reflexivity|]. rewrite app_length, repeat_length, IH. reflexivity. Qed.
Lemma repeats_nth {A} (d : A) l n k : (k < length l * n)%nat -> nth k (repeats l n) d = nth (k / n) l d.
Proof.
  unfold repeats. revert k. induction l as [|x l IH]; cbn; intros k L; [lia|]. destruct (Nat.lt_ge_cases k n) as [K | K].
  - rewrite app_nth1 by (rewrite repeat_length; exact K). rewrite Nat.div_small by exact K. cbn. revert K. generalize n. clear. intros n. revert k. induction n as [|n IH]; intros k K; [lia|]. destruct k; [reflexivity|]. cbn. apply IH. lia.
  - rewrite app_nth2 by (rewrite repeat_length; exact K). rewrite repeat_length, IH by lia. replace (k / n)%nat with (S ((k - n) / n)); [reflexivity|]. replace k with ((k - n) + 1 * n)%nat at 2 by lia. rewrite Nat.div_add by lia. lia.
Qed.

(** * Times *)
Lemma diffs_length l : length (diffs l) = (length l - 1)%nat.
Proof. induction l as [|x [|y r] IH]; try reflexivity. change (length (diffs (x :: y :: r))) with (S (length (diffs (y :: r)))). rewrite IH. cbn. lia. Qed.
Lemma diffs_nth l : forall j, (S j < length l)%nat -> nth j (diffs l) 0 = nth (S j) l 0 - nth j l 0.
Proof.
  induction l as [|x [|y r] IH]; intros j L; cbn in L; try lia. destruct j as [|j]; [reflexivity|]. change (nth (S j) (diffs (x :: y :: r)) 0) with (nth j (diffs (y :: r)) 0). rewrite IH by (cbn; lia). reflexivity.
Qed.
Lemma repeat_last_length l : l <> [] -> length (repeat_last l) = S (length l).
Proof. intros H. destruct l; [contradiction|]. unfold repeat_last. rewrite app_length. cbn. lia. Qed.
Lemma repeat_last_nth l j : (j < length l)%nat -> nth j (repeat_last l) 0 = nth j l 0.
Proof. intros L. unfold repeat_last. apply app_nth1, L. Qed.
Lemma repeat_last_last l : l <> [] -> nth (length l) (repeat_last l) 0 = nth (length l - 1) l 0.
Proof. intros H. unfold repeat_last. rewrite app_nth2, Nat.sub_diag by lia. destruct l as [|x r]; [contradiction|]. set (l := x :: r) in *. cbn [nth]. destruct (exists_last H) as (l' & a & ->). rewrite last_last, app_length. cbn. rewrite app_nth2 by lia. replace (length l' + 1 - 1 - length l')%nat with 0%nat by lia. reflexivity. Qed.
Lemma usable_dec times integ : {usable times integ} + {~ usable times integ}.
Proof.
  destruct integ as [|z|l]; cbn; [|left; exact I | apply Nat.eq_dec].
  destruct times as [|t r]; [right; intros (H & _); congruence|]. destruct (ListDec.NoDup_dec Z.eq_dec (t :: r)); [left; split; [discriminate | assumption] | right; tauto].
Qed.
Lemma times_usable lst times integ : (exists r, get_time_params lst times integ = Ok r) <-> usable times integ.
Proof.
  unfold get_time_params, usable. destruct integ as [|z|l].
  - rewrite <- uniqueZ_all. destruct (1 <? length (uniqueZ times))%nat eqn:E.
    + apply Nat.ltb_lt in E. assert (NE : map (fun d => d * 86400) (diffs (uniqueZ times)) <> []) by (intros X; apply (f_equal (@length Z)) in X; rewrite map_length, diffs_length in X; cbn in X; lia).
      rewrite (repeat_last_length _ NE), map_length, diffs_length. destruct (Nat.eqb_spec (S (length (uniqueZ times) - 1)) (length times)) as [Q | Q].
      * split; [intros _; split; [intros ->; cbn in E; lia | lia] | eauto].
      * split; [intros (r & X); discriminate | intros (_ & X); lia].
    + apply Nat.ltb_ge in E. cbn [length]. destruct (Nat.eqb_spec 1 (length times)) as [Q | Q].
      * split; [intros _ | eauto]. split; [intros ->; discriminate Q|]. destruct (uniqueZ times) eqn:U; [apply (proj1 (uniqueZ_nil _)) in U; rewrite U in Q; discriminate Q | cbn in *; lia].
      * split; [intros (r & X); discriminate|]. intros (X & Y). destruct times as [|a [|b r]]; cbn in *; try congruence. lia.
  - rewrite repeat_length, Nat.eqb_refl. split; eauto.
  - destruct (Nat.eqb_spec (length l) (length times)) as [Q | Q]; split; eauto; [intros (r & X); discriminate | intros X; contradiction].
Qed.
Lemma times_exact lst times integ r : (integ = Unset -> StronglySorted Z.lt times) -> get_time_params lst times integ = Ok r -> fst r = map lst times /\ integrations times integ (snd r).
Proof.
  intros HS. unfold get_time_params, integrations. destruct integ as [|z|l].
  - specialize (HS eq_refl). rewrite (sorted_unique times HS). destruct (1 <? length times)%nat eqn:E.
    + apply Nat.ltb_lt in E. set (D := map (fun d => d * 86400) (diffs times)). assert (LD : length D = (length times - 1)%nat) by (unfold D; rewrite map_length; apply diffs_length).
      assert (NE : D <> []) by (intros X; rewrite X in LD; cbn in LD; lia). rewrite (repeat_last_length _ NE), LD. destruct (Nat.eqb_spec (S (length times - 1)) (length times)) as [Q | Q]; [|discriminate].
      intros [= <-]. cbn [fst snd]. split; [reflexivity|]. rewrite (repeat_last_length _ NE), LD. split; [lia|]. split; [lia|]. split.
      * intros j L. rewrite repeat_last_nth by lia. unfold D. rewrite (nth_map (fun d => d * 86400) _ _ 0 0) by (rewrite diffs_length; lia). rewrite diffs_nth by exact L. lia.
      * intros _. rewrite <- LD at 1. rewrite (repeat_last_last _ NE), repeat_last_nth by lia. f_equal. lia.
    + apply Nat.ltb_ge in E. cbn [length]. destruct (Nat.eqb_spec 1 (length times)) as [Q | Q]; [|discriminate]. intros [= <-]. cbn [fst snd length]. split; [reflexivity|]. split; [exact Q|]. split; [reflexivity|]. split; lia.
  - rewrite repeat_length, Nat.eqb_refl. intros [= <-]. cbn [fst snd]. split; [reflexivity|]. rewrite repeat_length. split; [reflexivity|]. intros j L. clear HS. revert j L. generalize (length times). intros n. induction n as [|n IH]; intros j L; [lia|]. destruct j; [reflexivity|]. cbn. apply IH. lia.
  - destruct (Nat.eqb_spec (length l) (length times)) as [Q | Q]; [|discriminate]. intros [= <-]. cbn [fst snd]. auto.
Qed.

Lemma times_lengths lst times integ r : get_time_params lst times integ = Ok r -> fst r = map lst times /\ length (snd r) = length times.
Proof. unfold get_time_params. cbv zeta. match goal with |- (if (length ?i =? _)%nat then _ else _) = _ -> _ => destruct (Nat.eqb_spec (length i) (length times)) as [Q | Q] end; [|discriminate]. intros [= <-]. auto. Qed.

(** * The baseline-time axis *)
Section Blts.
Variables (times : list Z) (pairs : list (Z * Z)).
Lemma nd_times : {NoDup times} + {~ NoDup times}. Proof. apply ListDec.NoDup_dec, Z.eq_dec. Qed.
Lemma nd_pairs : {NoDup pairs} + {~ NoDup pairs}. Proof. apply ListDec.NoDup_dec, zpair_eq_dec. Qed.
Lemma eqb_nt : (length (uniqueZ times) =? length times)%nat = if nd_times then true else false.
Proof. destruct nd_times as [X | X]; [apply Nat.eqb_eq, uniqueZ_all, X | apply Nat.eqb_neq; rewrite uniqueZ_all; exact X]. Qed.
Lemma eqb_nb : (length (unique_pairs pairs) =? length pairs)%nat = if nd_pairs then true else false.
Proof. destruct nd_pairs as [X | X]; [apply Nat.eqb_eq, unique_pairs_all, X | apply Nat.eqb_neq; rewrite unique_pairs_all; exact X]. Qed.
Lemma decide_spec outer : match decide times pairs outer with
  | Ok true => outer = Some true \/ outer = None /\ length times <> length pairs /\ NoDup times /\ NoDup pairs
  | Ok false => outer = Some false \/ outer = None /\ length times = length pairs /\ ~ (NoDup times /\ NoDup pairs)
  | Err _ => outer = None /\ (length times <> length pairs /\ ~ (NoDup times /\ NoDup pairs) \/ length times = length pairs /\ NoDup times /\ NoDup pairs)
  end.
Proof.
  unfold decide. cbv zeta. rewrite eqb_nt, eqb_nb. destruct outer as [[|]|]; auto. destruct (Nat.eqb_spec (length times) (length pairs)); destruct nd_times, nd_pairs; cbn; tauto.
Qed.
Definition laid (fast : option bool) (lsts ints : list Z) : rows :=
  if match fast with Some f => f | None => false end
  then {| r_nbls := length pairs; r_ntimes := length times; r_rect := Some true; r_fast := Some true; r_time := tile (uniqueZ times) (length pairs); r_pair := repeats (unique_pairs pairs) (length times); r_lst := tile lsts (length pairs); r_int := tile ints (length pairs) |}
  else {| r_nbls := length pairs; r_ntimes := length times; r_rect := Some true; r_fast := Some false; r_time := repeats times (length pairs); r_pair := tile pairs (length times); r_lst := repeats lsts (length pairs); r_int := repeats ints (length pairs) |}.
Lemma product_spec fast lsts ints : match product times pairs fast lsts ints with
  | Ok r => NoDup times /\ NoDup pairs /\ r = laid fast lsts ints
  | Err _ => ~ (NoDup times /\ NoDup pairs)
  end.
Proof.
  unfold product. cbv zeta. rewrite eqb_nt, eqb_nb. destruct nd_times as [NT | NT]; cbn [negb]; [|tauto]. destruct nd_pairs as [NP | NP]; cbn [negb]; [|tauto].
  rewrite (proj2 (uniqueZ_all times) NT), (proj2 (unique_pairs_all pairs) NP). unfold laid. destruct fast as [[|]|]; auto.
Qed.
Lemma as_given_spec rect lsts ints : match as_given times pairs rect lsts ints with
  | Ok r => (rect = Some true -> length times = length pairs /\ length times = (distinct_times times * distinct_pairs pairs)%nat /\ (2 <= length times)%nat) /\
      r_time r = times /\ r_pair r = pairs /\ r_lst r = lsts /\ r_int r = ints /\ r_nbls r = distinct_pairs pairs /\ r_ntimes r = distinct_times times
  | Err _ => rect = Some true /\ ~ (length times = length pairs /\ length times = (distinct_times times * distinct_pairs pairs)%nat /\ (2 <= length times)%nat)
  end.
Proof.
  unfold as_given. cbv zeta. rewrite uniqueZ_count, unique_pairs_count. destruct rect as [[|]|]; [|cbn; split; [discriminate | auto 8] | cbn; split; [discriminate | auto 8]].
  destruct (Nat.eqb_spec (length times) (length pairs)) as [E1 | E1]; [|cbn; tauto]. destruct (Nat.eqb_spec (length times) (distinct_times times * distinct_pairs pairs)) as [E2 | E2]; [|cbn; tauto]. cbn [negb orb].
  assert (LT : (2 <= length times)%nat \/ (length times < 2)%nat) by lia. destruct times as [|t0 [|t1 r]]; [split; [reflexivity | cbn; lia] | split; [reflexivity | cbn; lia]|]. cbn [r_time r_pair r_lst r_int r_nbls r_ntimes]. split; [intros _; cbn; cbn in E1, E2; lia | auto 8].
Qed.
End Blts.

(** Which requests succeed *)
Theorem blts_refused lst ants times pairs outer rect fast integ :
  (exists o, new_blts lst ants times (Some pairs) outer rect fast integ = Ok o) <-> usable times integ /\ (all_wanted outer times pairs \/ each_wanted outer rect times pairs).
Proof.
  rewrite <- (times_usable lst). unfold new_blts. destruct (get_time_params lst times integ) as [li|] eqn:E; cbn [bind]; [|split; [intros (o & X); discriminate | intros ((r & X) & _); discriminate]].
  assert (HE : exists r, Ok li = Ok r) by eauto. unfold configure, all_wanted, each_wanted. pose proof (decide_spec times pairs outer) as D. destruct (decide times pairs outer) as [[|]|]; cbn [bind].
  - pose proof (product_spec times pairs fast (fst li) (snd li)) as P. destruct (product times pairs fast (fst li) (snd li)) as [r|]; cbn [bind].
    + destruct P as (NT & NP & ->).
      assert (EL : length (r_time (laid times pairs fast (fst li) (snd li))) = length (r_pair (laid times pairs fast (fst li) (snd li)))).
      { unfold laid. destruct (match fast with Some f => f | None => false end); cbn; rewrite ?tile_length, ?repeats_length, ?(proj2 (uniqueZ_all times) NT), ?(proj2 (unique_pairs_all pairs) NP); lia. }
      rewrite EL, Nat.eqb_refl, andb_false_r. split; [intros _ | eauto]. split; [exact HE|]. left. tauto.
    + split; [intros (o & X); discriminate|]. intros (_ & [X | X]); [tauto|]. exfalso. destruct X as ([X | (X & Y)] & Z' & _); destruct D as [D | (D & D' & _)]; try congruence.
  - pose proof (as_given_spec times pairs rect (fst li) (snd li)) as P. destruct (as_given times pairs rect (fst li) (snd li)) as [r|]; cbn [bind].
    + destruct P as (RC & PT & PP & _). rewrite PT, PP. destruct (Nat.eqb_spec (length times) (length pairs)) as [E1 | E1]; cbn [negb].
      * rewrite andb_false_r. split; [intros _ | eauto]. split; [exact HE|]. right. tauto.
      * destruct D as [-> | (_ & D & _)]; [|contradiction]. cbn [negb andb]. split; [intros (o & X); discriminate|]. intros (_ & [([X | (X & _)] & _) | (_ & X & _)]); try discriminate. contradiction.
    + split; [intros (o & X); discriminate|]. intros (_ & [X | X]); [|tauto]. exfalso. destruct X as ([X | (X & Y)] & _); destruct D as [D | (D & D' & _)]; congruence.
  - split; [intros (o & X); discriminate|]. intros (_ & [X | X]); exfalso; destruct D as (-> & D); destruct X as ([X | (_ & X)] & Y); try discriminate; tauto.
Qed.

(** The rows when each pair has each time *)
Lemma default_order lst ants times pairs rect fast integ o : new_blts lst ants times (Some pairs) (Some true) rect fast integ = Ok o -> n_order o = None.
Proof.
  unfold new_blts. destruct (get_time_params lst times integ); [|discriminate]. cbn [bind]. destruct (configure _ _ _ _ _ _ _); [|discriminate]. cbn [bind negb andb]. intros [= <-]. reflexivity.
Qed.
Theorem blts_all lst ants times pairs outer rect fast integ : all_wanted outer times pairs -> usable times integ -> (fast = Some true \/ integ = Unset -> StronglySorted Z.lt times) ->
  exists o ints, new_blts lst ants times (Some pairs) outer rect fast integ = Ok o /\ integrations times integ ints /\ filled o times pairs fast lst ints.
Proof.
  intros AW US SO. destruct (proj2 (times_usable lst times integ) US) as (li & E). destruct (times_exact lst times integ li (fun H => SO (or_intror H)) E) as (EL & EI).
  unfold new_blts. rewrite E. cbn [bind]. unfold configure. pose proof (decide_spec times pairs outer) as D. destruct AW as (AO & NT & NP).
  assert (ED : decide times pairs outer = Ok true). { destruct (decide times pairs outer) as [[|]|]; [reflexivity | exfalso | exfalso]. - destruct AO as [-> | (-> & X)]; [destruct D as [D | (D & _)]; discriminate | destruct D as [D | (_ & D & _)]; [discriminate | contradiction]]. - destruct D as (-> & D). destruct AO as [AO | (_ & X)]; [discriminate | tauto]. }
  rewrite ED. cbn [bind]. pose proof (product_spec times pairs fast (fst li) (snd li)) as P. destruct (product times pairs fast (fst li) (snd li)) as [r|]; [|tauto]. destruct P as (_ & _ & ->). cbn [bind].
  pose proof (proj2 (uniqueZ_all times) NT) as LU. pose proof (proj2 (unique_pairs_all pairs) NP) as LP. destruct EI as (LI & EI). rewrite EL.
  assert (EQ : length (r_time (laid times pairs fast (map lst times) (snd li))) = length (r_pair (laid times pairs fast (map lst times) (snd li)))).
  { unfold laid. destruct (match fast with Some f => f | None => false end); cbn; rewrite ?tile_length, ?repeats_length, ?LU, ?LP; lia. }
  rewrite EQ, Nat.eqb_refl, andb_false_r. eexists. exists (snd li). split; [reflexivity|]. split; [split; assumption|]. unfold filled, laid. cbv zeta. destruct (match fast with Some f => f | None => false end) eqn:F; cbn [n_nbls n_ntimes n_time n_pair n_lst n_int r_nbls r_ntimes r_time r_pair r_lst r_int].
  - assert (ST : StronglySorted Z.lt times) by (apply SO; left; destruct fast as [[|]|]; congruence). rewrite (sorted_unique times ST) in *. rewrite !tile_length, !repeats_length, map_length, LI, LP.
    split; [reflexivity|]. split; [reflexivity|]. split; [lia|]. split; [lia|]. split; [lia|]. split; [lia|]. exists (unique_pairs pairs). split; [intros p; apply unique_pairs_In|]. split; [exact LP|]. split; [apply unique_pairs_sorted|]. intros k K.
    assert (N0 : length times <> 0%nat) by (intros X; rewrite X in K; lia). pose proof (Nat.mod_upper_bound k (length times) N0) as MB. split; [exact MB|]. split; [apply Nat.div_lt_upper_bound; lia|].
    rewrite tile_nth by lia. split; [reflexivity|]. rewrite repeats_nth by lia. split; [reflexivity|]. rewrite tile_nth by (rewrite map_length; lia). rewrite map_length. split; [rewrite (nth_map lst _ _ 0 0) by exact MB; reflexivity|]. rewrite tile_nth by lia. rewrite LI. reflexivity.
  - rewrite !tile_length, !repeats_length, map_length, LI. split; [reflexivity|]. split; [reflexivity|]. split; [lia|]. split; [lia|]. split; [lia|]. split; [lia|]. exists pairs. split; [tauto|]. split; [reflexivity|]. split; [reflexivity|]. intros k K.
    assert (N0 : length pairs <> 0%nat) by (intros X; rewrite X in K; lia). assert (JB : (k / length pairs < length times)%nat) by (apply Nat.div_lt_upper_bound; lia). split; [exact JB|]. split; [apply Nat.mod_upper_bound; lia|].
    rewrite repeats_nth by lia. split; [reflexivity|]. rewrite tile_nth by lia. split; [reflexivity|]. rewrite repeats_nth by (rewrite map_length; lia). split; [rewrite (nth_map lst _ _ 0 0) by exact JB; reflexivity|]. rewrite repeats_nth by lia. reflexivity.
Qed.
Theorem blts_each lst ants times pairs outer rect fast integ : each_wanted outer rect times pairs -> usable times integ -> (integ = Unset -> StronglySorted Z.lt times) ->
  exists o ints, new_blts lst ants times (Some pairs) outer rect fast integ = Ok o /\ integrations times integ ints /\
  n_time o = times /\ n_pair o = pairs /\ n_lst o = map lst times /\ n_int o = ints /\ n_nbls o = distinct_pairs pairs /\ n_ntimes o = distinct_times times /\ n_order o = None.
Proof.
  intros EW US SO. destruct (proj2 (times_usable lst times integ) US) as (li & E). destruct (times_exact lst times integ li SO E) as (EL & EI).
  unfold new_blts. rewrite E. cbn [bind]. unfold configure. pose proof (decide_spec times pairs outer) as D. destruct EW as (AO & LE & RC).
  assert (ED : decide times pairs outer = Ok false). { destruct (decide times pairs outer) as [[|]|]; [exfalso | reflexivity | exfalso]. - destruct AO as [-> | (-> & X)]; [destruct D as [D | (D & _)]; discriminate | destruct D as [D | (_ & D & _)]; [discriminate | contradiction]]. - destruct D as (-> & D). destruct AO as [AO | (_ & X)]; [discriminate | tauto]. }
  rewrite ED. cbn [bind]. pose proof (as_given_spec times pairs rect (fst li) (snd li)) as P. destruct (as_given times pairs rect (fst li) (snd li)) as [r|]; [|destruct P as (-> & P); specialize (RC eq_refl); tauto]. destruct P as (_ & PT & PP & PL & PI & PB & PN). cbn [bind].
  rewrite PT, PP, LE, Nat.eqb_refl, andb_false_r. eexists. exists (snd li). split; [reflexivity|]. split; [exact EI|]. cbn [n_time n_pair n_lst n_int n_nbls n_ntimes n_order]. rewrite PL. repeat (split; [assumption || reflexivity|]). reflexivity.
Qed.

(** * All pairs of antennas *)
Lemma comb_in a b l : In (a, b) (combinations l) -> In a l /\ In b l.
Proof. induction l as [|x r IH]; [intros []|]. cbn [combinations]. rewrite in_app_iff, in_map_iff. intros [(y & [= <- <-] & I) | I]; [split; [left; reflexivity | exact I]|]. destruct (IH I). split; right; assumption. Qed.
Lemma comb_total a b l : In a l -> In b l -> In (a, b) (combinations l) \/ In (b, a) (combinations l).
Proof.
  induction l as [|x r IH]; [intros []|]. cbn [combinations]. rewrite !in_app_iff, !in_map_iff. intros [-> | A] IB.
  - left. left. exists b. auto.
  - destruct IB as [-> | IB]; [right; left; exists a; split; [reflexivity | right; exact A]|]. destruct (IH A IB); auto.
Qed.
Lemma comb_antisym a b l : NoDup l -> In (a, b) (combinations l) -> In (b, a) (combinations l) -> a = b.
Proof.
  induction 1 as [|x r NI ND IH]; [intros []|]. cbn [combinations]. rewrite !in_app_iff, !in_map_iff. intros [(y & [= <- <-] & I) | I] [(z & [= <- <-] & J) | J]; try reflexivity.
  - destruct (comb_in _ _ _ J) as (_ & X). contradiction.
  - destruct (comb_in _ _ _ I) as (_ & X). contradiction.
  - apply IH; assumption.
Qed.
Lemma NoDup_app2 {A} (l l' : list A) : NoDup l -> NoDup l' -> (forall x, In x l -> ~ In x l') -> NoDup (l ++ l').
Proof. induction 1 as [|x l NI ND IH]; intros N' D; [exact N'|]. cbn. constructor; [rewrite in_app_iff; intros [X | X]; [contradiction | exact (D x (or_introl eq_refl) X)]|]. apply IH; [exact N' | intros y I; apply D; right; exact I]. Qed.
Lemma comb_NoDup l : NoDup l -> NoDup (combinations l).
Proof.
  induction 1 as [|x r NI ND IH]; [constructor|]. cbn [combinations]. apply NoDup_app2.
  - apply FinFun.Injective_map_NoDup; [intros u v [= E]; exact E | constructor; assumption].
  - exact IH.
  - intros (a, b) I J. apply in_map_iff in I as (y & [= <- <-] & I). destruct (comb_in _ _ _ J) as (X & _). contradiction.
Qed.
Lemma sorted_app {A} (R : A -> A -> Prop) l l' : StronglySorted R l -> StronglySorted R l' -> (forall x y, In x l -> In y l' -> R x y) -> StronglySorted R (l ++ l').
Proof. induction 1 as [|x l S1 IH F]; intros S2 D; [exact S2|]. cbn. constructor; [apply IH; [exact S2 | intros; apply D; [right|]; assumption]|]. apply Forall_app. split; [exact F|]. apply Forall_forall. intros y I. apply D; [left; reflexivity | exact I]. Qed.
Lemma comb_sorted l : StronglySorted Z.lt l -> StronglySorted pair_lt (combinations l).
Proof.
  induction 1 as [|x r SR IH F]; [constructor|]. cbn [combinations]. apply sorted_app.
  - assert (SX : StronglySorted Z.lt (x :: r)) by (constructor; assumption). clear IH. revert SX. generalize (x :: r). intros l. induction 1 as [|y l SL IHl FL]; cbn; constructor; [exact IHl|]. apply Forall_map. rewrite Forall_forall in *. intros z I. right. split; [reflexivity | apply FL, I].
  - exact IH.
  - intros (a, b) (c, d) I J. apply in_map_iff in I as (y & [= <- <-] & I). left. cbn. rewrite Forall_forall in F. apply F, (comb_in _ _ _ J).
Qed.
Theorem blts_default lst ants times outer rect fast integ : new_blts lst ants times None outer rect fast integ =
  do o <- new_blts lst ants times (Some (combinations ants)) (Some true) rect fast integ;
  Ok {| n_time := n_time o; n_pair := n_pair o; n_lst := n_lst o; n_int := n_int o; n_nbls := n_nbls o; n_ntimes := n_ntimes o;
        n_order := Some (if match fast with Some f => f | None => false end then ("ant1", "ant2") else ("time", "ant1"))%string |}.
Proof.
  unfold new_blts. destruct (get_time_params lst times integ) as [li|]; [|reflexivity]. cbn [bind]. unfold configure, decide. cbn [bind].
  pose proof (product_spec times (combinations ants) fast (fst li) (snd li)) as P. destruct (product times (combinations ants) fast (fst li) (snd li)) as [r|]; [|reflexivity]. cbn [bind negb andb]. destruct P as (_ & _ & ->). unfold laid. destruct (match fast with Some f => f | None => false end); reflexivity.
Qed.
Lemma sorted_nth {A} (R : A -> A -> Prop) d l : StronglySorted R l -> forall i j, (i < j < length l)%nat -> R (nth i l d) (nth j l d).
Proof.
  induction 1 as [|x l SL IH F]; intros i j L; cbn in L; [lia|]. destruct j as [|j]; [lia|]. destruct i as [|i]; cbn; [rewrite Forall_forall in F; apply F, nth_In; lia | apply IH; lia].
Qed.
(** A row before another *)
Theorem rows_sorted o times pairs fast lst ints k k' : filled o times pairs fast lst ints -> StronglySorted pair_lt pairs -> StronglySorted Z.lt times -> (k < k' < length times * length pairs)%nat ->
  if match fast with Some f => f | None => false end
  then fst (nth k (n_pair o) (0, 0)) < fst (nth k' (n_pair o) (0, 0)) \/ fst (nth k (n_pair o) (0, 0)) = fst (nth k' (n_pair o) (0, 0)) /\ snd (nth k (n_pair o) (0, 0)) <= snd (nth k' (n_pair o) (0, 0))
  else nth k (n_time o) 0 < nth k' (n_time o) 0 \/ nth k (n_time o) 0 = nth k' (n_time o) 0 /\ fst (nth k (n_pair o) (0, 0)) <= fst (nth k' (n_pair o) (0, 0)).
Proof.
  intros FI SP ST (L & L'). unfold filled in FI. cbv zeta in FI. destruct FI as (_ & _ & _ & _ & _ & _ & ps & _ & LP & SO & H). destruct (H k ltac:(lia)) as (J & B & T & P & _). destruct (H k' L') as (J' & B' & T' & P' & _). destruct (match fast with Some f => f | None => false end).
  - rewrite P, P'. assert (LE : (k / length times <= k' / length times)%nat) by (apply Nat.div_le_mono; lia). destruct (Nat.eq_dec (k / length times) (k' / length times)) as [-> | NE]; [right; split; [reflexivity | lia]|].
    destruct (sorted_nth pair_lt (0, 0) ps SO (k / length times) (k' / length times)) as [X | (X & Y)]; [lia | left; exact X | right; split; [exact X | lia]].
  - rewrite T, T', P, P'. subst ps. assert (LE : (k / length pairs <= k' / length pairs)%nat) by (apply Nat.div_le_mono; lia). destruct (Nat.eq_dec (k / length pairs) (k' / length pairs)) as [EQ | NE].
    + right. rewrite EQ. split; [reflexivity|]. pose proof (Nat.div_mod k (length pairs) ltac:(lia)) as D1. pose proof (Nat.div_mod k' (length pairs) ltac:(lia)) as D2. rewrite EQ in D1.
      destruct (sorted_nth pair_lt (0, 0) pairs SP (k mod length pairs) (k' mod length pairs)) as [X | (X & Y)]; [lia | lia | lia].
    + left. apply (sorted_nth Z.lt 0 times ST). lia.
Qed.

(** * Frequencies, windows, arrays *)
Theorem freqs_exact freqs width : (exists r, get_freq_params freqs width = Ok r) <-> match width with Unset => freqs <> [] | Scalar _ => True | Array l => length l = length freqs end.
Proof.
  unfold get_freq_params. destruct width as [|z|l].
  - destruct (1 <? length freqs)%nat eqn:E.
    + apply Nat.ltb_lt in E. assert (NE : diffs freqs <> []) by (intros X; apply (f_equal (@length Z)) in X; rewrite diffs_length in X; cbn in X; lia). rewrite (repeat_last_length _ NE), diffs_length. destruct (Nat.eqb_spec (S (length freqs - 1)) (length freqs)) as [Q | Q]; [|lia]. split; [intros _ ->; cbn in E; lia | eauto].
    + apply Nat.ltb_ge in E. cbn [length]. destruct freqs as [|a [|b r]]; cbn in *; [split; [intros (r & X); discriminate | congruence] | split; [discriminate | eauto] | lia].
  - rewrite repeat_length, Nat.eqb_refl. split; eauto.
  - destruct (Nat.eqb_spec (length l) (length freqs)) as [Q | Q]; split; eauto; [intros (r & X); discriminate | intros X; contradiction].
Qed.
Theorem widths_exact freqs width r : get_freq_params freqs width = Ok r -> fst r = freqs /\ length (snd r) = length freqs /\
  match width with
  | Unset => (length freqs = 1%nat -> snd r = [1]) /\ (forall j, (S j < length freqs)%nat -> nth j (snd r) 0 = nth (S j) freqs 0 - nth j freqs 0) /\ ((2 <= length freqs)%nat -> nth (length freqs - 1) (snd r) 0 = nth (length freqs - 2) (snd r) 0)
  | Scalar z => forall j, (j < length freqs)%nat -> nth j (snd r) 0 = z
  | Array l => snd r = l
  end.
Proof.
  unfold get_freq_params. destruct width as [|z|l].
  - destruct (1 <? length freqs)%nat eqn:E.
    + apply Nat.ltb_lt in E. assert (LD : length (diffs freqs) = (length freqs - 1)%nat) by apply diffs_length. assert (NE : diffs freqs <> []) by (intros X; rewrite X in LD; cbn in LD; lia). rewrite (repeat_last_length _ NE), LD. destruct (Nat.eqb_spec (S (length freqs - 1)) (length freqs)) as [Q | Q]; [|discriminate].
      intros [= <-]. cbn [fst snd]. split; [reflexivity|]. rewrite (repeat_last_length _ NE), LD. split; [lia|]. split; [lia|]. split.
      * intros j L. rewrite repeat_last_nth by lia. apply diffs_nth. exact L.
      * intros _. rewrite <- LD at 1. rewrite (repeat_last_last _ NE), repeat_last_nth by lia. f_equal. lia.
    + apply Nat.ltb_ge in E. cbn [length]. destruct (Nat.eqb_spec 1 (length freqs)) as [Q | Q]; [|discriminate]. intros [= <-]. cbn [fst snd length]. split; [reflexivity|]. split; [exact Q|]. split; [reflexivity|]. split; lia.
  - rewrite repeat_length, Nat.eqb_refl. intros [= <-]. cbn [fst snd]. split; [reflexivity|]. rewrite repeat_length. split; [reflexivity|]. intros j L. revert j L. generalize (length freqs). intros n. induction n as [|n IH]; intros j L; [lia|]. destruct j; [reflexivity|]. cbn. apply IH. lia.
  - destruct (Nat.eqb_spec (length l) (length freqs)) as [Q | Q]; [|discriminate]. intros [= <-]. cbn [fst snd]. auto.
Qed.
Lemma shape_eqb_eq a b : shape_eqb a b = true <-> a = b.
Proof. destruct a as [[a1 a2] a3], b as [[b1 b2] b3]. unfold shape_eqb. cbn. rewrite !andb_true_iff, !Nat.eqb_eq. split; [intros ((-> & ->) & ->); reflexivity | intros [= -> -> ->]; auto]. Qed.
