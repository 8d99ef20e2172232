(** Conversions between the three types of flag objects. *)
From Coq Require Import List ZArith Bool Arith Sorted Lia.
From Verif Require Import Lib.Py Lib.Np Lib.Cube Model.Bls Model.UVData Model.Hdf5 Model.Access Model.UVFlag
  Spec.BlsSpec Spec.UVDataSpec Spec.AccessSpec Spec.FlagSpec Proofs.BlsProofs Proofs.AccessProofs Proofs.SelectTotal Proofs.FlagProofs.
Import ListNotations.
Open Scope Z_scope.
Open Scope list_scope.
Notation length := List.length.

Lemma sorted_uniqueZ l : StronglySorted Z.lt l -> uniqueZ l = l.
Proof. intros H. symmetry. apply uniqueZ_char; [exact H|tauto]. Qed.

Lemma all_near_spec tol a b : all_near tol a b = true <->
  length a = length b /\ forall j, (j < length a)%nat -> Z.abs (nth j a 0 - nth j b 0) <= tol.
Proof.
  unfold all_near, near. rewrite andb_true_iff, Nat.eqb_eq, forallb_forall. split; intros [E H]; split; try exact E.
  - intros j Hj. specialize (H (nth j a 0, nth j b 0)). apply Z.leb_le. apply H.
    rewrite <- combine_nth by exact E. apply nth_In. rewrite combine_length. lia.
  - intros p Hp. apply In_nth with (d := (0, 0)) in Hp. destruct Hp as (j & Hj & <-). rewrite combine_length in Hj.
    rewrite combine_nth by exact E. apply Z.leb_le. apply H. lia.
Qed.

Lemma pairwise_eqb l t : (length l =? length t)%nat && forallb (fun q => fst q =? snd q) (combine l t) = true <-> l = t.
Proof.
  rewrite andb_true_iff, Nat.eqb_eq. split.
  - intros [E H]. revert t E H. induction l as [|x l IH]; intros [|y t] E H; simpl in *; try discriminate; [reflexivity|].
    apply andb_true_iff in H. destruct H as [H1 H2]. apply Z.eqb_eq in H1. f_equal; [exact H1|]. apply IH; [lia|exact H2].
  - intros <-. split; [reflexivity|]. induction l as [|x l IH]; [reflexivity|]. simpl. rewrite Z.eqb_refl. exact IH.
Qed.

Lemma match_pols_iff force p target : (exists rep, match_pols force p target = Ok rep) <-> pols_fit force p target.
Proof.
  unfold match_pols, pols_fit. destruct (force && (pol_size p =? 1)%nat) eqn:E.
  - apply andb_true_iff in E. destruct E as [-> E]. apply Nat.eqb_eq in E. split; [intros _; right; auto|intros _; eauto].
  - assert (N : ~ (force = true /\ pol_size p = 1%nat)).
    { intros [-> H]. rewrite H in E. discriminate. }
    destruct p as [l|l].
    + destruct ((length l =? length target)%nat && forallb (fun q => fst q =? snd q) (combine l target)) eqn:E2.
      * apply pairwise_eqb in E2. subst. split; [auto|eauto].
      * split; [intros (? & H); discriminate|]. intros [H|H]; [|tauto]. injection H as ->. rewrite (proj2 (pairwise_eqb target target) eq_refl) in E2. discriminate.
    + split; [intros (? & H); discriminate|]. intros [H|H]; [discriminate|tauto].
Qed.
Lemma match_pols_at force p target rep q : match_pols force p target = Ok rep -> pol_at rep q = pol_of force p q.
Proof.
  unfold match_pols, pol_of, pol_at. destruct force; cbn [andb].
  - fold (pol_size p). destruct (pol_size p =? 1)%nat eqn:E.
    + intros H. injection H as <-. apply Nat.eqb_eq in E. rewrite E. reflexivity.
    + intros H. assert (rep = false). { destruct p; [|discriminate]. destruct (_ && _) in H; [congruence|discriminate]. }
      subst. unfold shared. destruct (pol_size p) as [|[]]; [reflexivity|discriminate|reflexivity].
  - intros H. assert (rep = false). { destruct p; [|discriminate]. destruct (_ && _) in H; [congruence|discriminate]. } subst. reflexivity.
Qed.

(** ** Waterfall to baseline *)
Lemma near_same tol times t k : (k < length times)%nat -> near tol t (nth k times 0) = true <-> same_time tol times t k.
Proof. intros Hk. unfold near, same_time. rewrite Z.leb_le. tauto. Qed.
Lemma clear_unique tol times t k k' : clear_times tol times -> same_time tol times t k -> same_time tol times t k' -> k = k'.
Proof.
  intros [_ H] [Hk A] [Hk' B]. destruct (Nat.lt_trichotomy k k') as [L|[L|L]]; [|exact L|].
  - specialize (H k k' (conj L Hk')). lia.
  - specialize (H k' k (conj L Hk)). lia.
Qed.

Definition put_row (ttol : Z) (ut : list Z) (sarr : cube bool) (arr : cube bool) (it : nat * Z) : cube bool :=
  fun i j p : nat => if existsb (Nat.eqb i) (nonzero (fun x => near ttol x (snd it)) ut) then sarr (fst it) j p else arr i j p.
Lemma put_rows_none ttol ut sarr L arr i j p : (i < length ut)%nat ->
  (forall it, In it L -> near ttol (nth i ut 0) (snd it) = false) ->
  fold_left (put_row ttol ut sarr) L arr i j p = arr i j p.
Proof.
  intros Hi. revert arr. induction L as [|it L IH]; intros arr H; [reflexivity|]. cbn [fold_left]. rewrite IH by (intros; apply H; right; assumption).
  unfold put_row. destruct (existsb (Nat.eqb i) _) eqn:E; [|reflexivity]. exfalso.
  apply existsb_exists in E. destruct E as (x & Hx & E). apply Nat.eqb_eq in E. subst x. apply (nonzero_spec 0) in Hx.
  destruct Hx as [_ Hx]. cbv beta in Hx. rewrite H in Hx by (left; reflexivity). discriminate.
Qed.
Lemma put_rows_one ttol ut sarr L arr i j p k : (i < length ut)%nat ->
  (forall it, In it L -> near ttol (nth i ut 0) (snd it) = true -> fst it = k) ->
  (exists it, In it L /\ near ttol (nth i ut 0) (snd it) = true) ->
  fold_left (put_row ttol ut sarr) L arr i j p = sarr k j p.
Proof.
  intros Hi. revert arr. induction L as [|it L IH]; intros arr Hk (it0 & Hin & Hn); [contradiction|]. cbn [fold_left].
  destruct (existsb (fun x => near ttol (nth i ut 0) (snd x)) L) eqn:E.
  - apply IH; [intros; apply Hk; [right; assumption|assumption]|]. apply existsb_exists in E. exact E.
  - rewrite put_rows_none; [|exact Hi|].
    + assert (it0 = it). { destruct Hin as [->|Hin]; [reflexivity|]. exfalso.
        assert (existsb (fun x => near ttol (nth i ut 0) (snd x)) L = true) by (apply existsb_exists; eauto). congruence. }
      subst it0. unfold put_row. replace (existsb (Nat.eqb i) _) with true.
      * rewrite (Hk it); [reflexivity|left; reflexivity|exact Hn].
      * symmetry. apply existsb_exists. exists i. split; [|apply Nat.eqb_refl]. apply (nonzero_spec 0). auto.
    + intros x Hx. destruct (near ttol (nth i ut 0) (snd x)) eqn:E2; [|reflexivity].
      assert (existsb (fun x => near ttol (nth i ut 0) (snd x)) L = true) by (apply existsb_exists; eauto). congruence.
Qed.
Lemma combine_seq_In (l : list Z) it : In it (combine (seq 0 (length l)) l) <-> (fst it < length l)%nat /\ snd it = nth (fst it) l 0.
Proof.
  split.
  - intros H. apply In_nth with (d := (0%nat, 0)) in H. destruct H as (k & Hk & <-). rewrite combine_length, seq_length in Hk.
    rewrite combine_nth by apply seq_length. cbn [fst snd]. rewrite seq_nth by lia. split; [lia|reflexivity].
  - intros [H E]. destruct it as [k t]. cbn [fst snd] in *. subst t.
    replace (k, nth k l 0) with (nth k (combine (seq 0 (length l)) l) (0%nat, 0)).
    + apply nth_In. rewrite combine_length, seq_length. lia.
    + rewrite combine_nth by apply seq_length. rewrite seq_nth by lia. reflexivity.
Qed.

Lemma broadcast_rows_hit ttol wt ut sarr i j p k : clear_times ttol wt -> (i < length ut)%nat ->
  same_time ttol wt (nth i ut 0) k -> broadcast_rows ttol wt ut sarr i j p = sarr k j p.
Proof.
  intros Hc Hi Hk. unfold broadcast_rows. rewrite (sorted_uniqueZ wt) by apply Hc.
  apply (put_rows_one ttol ut sarr); [exact Hi| |].
  - intros it Hin Hn. apply combine_seq_In in Hin. destruct Hin as [H1 H2]. rewrite H2 in Hn. apply near_same in Hn; [|exact H1].
    eapply clear_unique; eassumption.
  - exists (k, nth k wt 0). split; [apply combine_seq_In; cbn [fst snd]; split; [apply Hk|reflexivity]|]. cbn [snd]. apply near_same; [apply Hk|exact Hk].
Qed.
Lemma broadcast_rows_miss ttol wt ut sarr i j p : StronglySorted Z.lt wt -> (i < length ut)%nat ->
  (forall k, ~ same_time ttol wt (nth i ut 0) k) -> broadcast_rows ttol wt ut sarr i j p = false.
Proof.
  intros Hc Hi Hk. unfold broadcast_rows. rewrite (sorted_uniqueZ wt) by apply Hc.
  rewrite (put_rows_none ttol ut sarr); [reflexivity|exact Hi|].
  intros it Hin. apply combine_seq_In in Hin. destruct Hin as [H1 H2]. rewrite H2.
  destruct (near ttol (nth i ut 0) (nth (fst it) wt 0)) eqn:E; [|reflexivity]. apply near_same in E; [|exact H1]. elim (Hk _ E).
Qed.


Lemma to_baseline_waterfall ttol ftol force chk w u f : clear_times ttol (w_time w) ->
  to_baseline ttol ftol force chk (Waterfall w) u = Ok f ->
  rows_like f u /\ f_freq f = w_freq w /\ f_Ntimes f = length (w_time w) /\
  (length (w_freq w) = length (freq_array u) /\ forall j, (j < length (w_freq w))%nat -> Z.abs (nth j (w_freq w) 0 - nth j (freq_array u) 0) <= ftol) /\
  pols_fit force (w_pol w) (polarization_array u) /\
  (chk = true -> length (w_time w) = length (uniqueZ (time_array u))) /\
  forall i j p, (i < length (time_array u))%nat ->
    (forall k, same_time ttol (w_time w) (nth i (time_array u) 0) k -> f_flags f i j p = w_flags w k j (pol_of force (w_pol w) p)) /\
    ((forall k, ~ same_time ttol (w_time w) (nth i (time_array u) 0) k) -> f_flags f i j p = false).
Proof.
  intros Hc H. unfold to_baseline in H. destruct (all_near ftol (w_freq w) (freq_array u)) eqn:En; cbn [negb] in H; [|discriminate].
  apply bind_Ok in H as (rep & Er & H). cbn [bind] in H.
  destruct (chk && negb (length (w_time w) =? length (uniqueZ (time_array u)))%nat) eqn:Ec; [discriminate|]. injection H as <-.
  unfold rows_like. cbn [f_time f_ant1 f_ant2 f_bl f_pol f_np f_Nants f_freq f_Ntimes f_flags].
  split; [auto 10|]. split; [reflexivity|]. split; [reflexivity|]. split; [apply all_near_spec; exact En|].
  split; [apply match_pols_iff; eauto|]. split.
  - intros ->. cbn [andb] in Ec. apply negb_false_iff, Nat.eqb_eq in Ec. exact Ec.
  - intros i j p Hi. split.
    + intros k Hk. rewrite (broadcast_rows_hit _ _ _ _ _ _ _ k Hc Hi Hk). rewrite (match_pols_at _ _ _ _ p Er). reflexivity.
    + intros Hk. apply broadcast_rows_miss; [apply Hc|exact Hi|exact Hk].
Qed.

Lemma to_baseline_waterfall_total ttol ftol force chk w u :
  length (w_freq w) = length (freq_array u) -> (forall j, (j < length (w_freq w))%nat -> Z.abs (nth j (w_freq w) 0 - nth j (freq_array u) 0) <= ftol) ->
  pols_fit force (w_pol w) (polarization_array u) ->
  (chk = true -> length (w_time w) = length (uniqueZ (time_array u))) ->
  exists f, to_baseline ttol ftol force chk (Waterfall w) u = Ok f.
Proof.
  intros H1 H2 H3 H4. unfold to_baseline. rewrite (proj2 (all_near_spec _ _ _) (conj H1 H2)). cbn [negb].
  apply match_pols_iff in H3. destruct H3 as (rep & ->). cbn [bind].
  destruct chk; cbn [andb]; [|eauto]. rewrite H4, Nat.eqb_refl by reflexivity. cbn [negb]. eauto.
Qed.

(** ** Antenna to baseline *)

Lemma mapM_Ok_nth' {A B} (f : A -> result B) l r : mapM f l = Ok r -> forall i d d', (i < length l)%nat -> f (nth i l d) = Ok (nth i r d').
Proof.
  revert r. induction l as [|x l IH]; intros r H i d d' Hi; [simpl in Hi; lia|]. cbn [mapM] in H.
  apply bind_Ok in H as (y & Ey & H). apply bind_Ok in H as (ys & Eys & H). injection H as <-.
  destruct i; [exact Ey|]. simpl. apply IH; [exact Eys|simpl in Hi; lia].
Qed.

Lemma nonzero_eq_NoDup (x : Z) l i : NoDup l -> (i < length l)%nat -> nth i l 0 = x -> nonzero (Z.eqb x) l = [i].
Proof.
  intros ND Hi E. symmetry. apply (nonzero_unique 0).
  - repeat constructor.
  - intros k. rewrite Z.eqb_eq. split.
    + intros [<-|[]]. auto.
    + intros [Hk Ek]. left. apply (proj1 (NoDup_nth l 0) ND); auto. congruence.
Qed.

Lemma decode_row u i : consistent u -> (i < length (time_array u))%nat ->
  baseline_to_antnums [nth i (baseline_array u) 0] (Nants_telescope u) = Ok ([nth i (ant_1_array u) 0], [nth i (ant_2_array u) 0]).
Proof.
  intros Hc Hi. destruct Hc as (_ & (m & off & He & Hcod) & _ & _ & _ & Hn). destruct (Hcod i Hi) as (A & B & C).
  rewrite (decode_regime m off _ _ He).
  - rewrite C. cbn [map]. rewrite div_enc, mod_enc by assumption. reflexivity.
  - discriminate.
  - exact Hn.
  - constructor; [|constructor]. rewrite C. unfold in_regime. inversion He; subst; nia.
Qed.

Section AntennaRows.
Variables (ttol : Z) (a : aflag) (u : uvd) (rep : bool).
Hypothesis (Hc : consistent u) (ND : NoDup (a_ants a)).
Let new_ants := filter (fun x => negb (isinZ x (a_ants a))) (uniqueZ (ant_1_array u ++ ant_2_array u)).
Let ants := a_ants a ++ new_ants.
Let flags := fun i j k p : nat => if (i <? length (a_ants a))%nat then a_flags a i j k (pol_at rep p) else true.

Lemma ants_NoDup : NoDup ants.
Proof.
  unfold ants, new_ants. induction (a_ants a) as [|x l IH] eqn:E in ND |- *.
  - simpl. apply NoDup_filter, uniqueZ_NoDup.
  - inversion ND as [|y l' Hx Hl]; subst. clear IH.
    assert (G : forall m, NoDup m -> (forall z, In z m -> ~ In z (a_ants a)) -> forall l, NoDup l -> incl l (a_ants a) -> NoDup (l ++ m)).
    { intros m Hm Hdis. induction l0 as [|z l0 IH]; intros Hl0 Hi; [exact Hm|]. inversion Hl0; subst. simpl. constructor.
      - rewrite in_app_iff. intros [K|K]; [contradiction|]. apply (Hdis z K). apply Hi. left; reflexivity.
      - apply IH; [assumption|]. intros z' Hz'. apply Hi. right; assumption. }
    rewrite <- E in *. apply G; [apply NoDup_filter, uniqueZ_NoDup| |exact ND|apply incl_refl].
    intros z Hz. apply filter_In in Hz. destruct Hz as [_ Hz]. apply negb_true_iff, isinZ_false in Hz. exact Hz.
Qed.

Lemma ant_index x : In x (ant_1_array u ++ ant_2_array u) ->
  exists n, nonzero (Z.eqb x) ants = [n] /\ forall j k p, flags n j k p = true <-> ant_flagged a x j k (pol_at rep p).
Proof.
  intros Hx. destruct (isinZ x (a_ants a)) eqn:E.
  - apply isinZ_spec in E. apply In_nth with (d := 0) in E. destruct E as (n & Hn & E). exists n. split.
    + apply nonzero_eq_NoDup; [apply ants_NoDup|unfold ants; rewrite app_length; lia|]. unfold ants. rewrite app_nth1 by exact Hn. exact E.
    + intros j k p. unfold flags. rewrite (proj2 (Nat.ltb_lt _ _) Hn). unfold ant_flagged. split.
      * intros H. right. exists n. split; [|exact H]. rewrite (nth_error_nth' _ 0 Hn). congruence.
      * intros [H|(n' & H & Hf)]; [elim H; rewrite <- E; apply nth_In; exact Hn|].
        assert (n' = n). { apply (proj1 (NoDup_nth_error (a_ants a)) ND); [apply nth_error_Some; congruence|]. rewrite H, (nth_error_nth' _ 0 Hn). congruence. }
        subst. exact Hf.
  - apply isinZ_false in E.
    assert (Hin : In x new_ants). { apply filter_In. split; [apply uniqueZ_In; exact Hx|]. apply negb_true_iff, isinZ_false. exact E. }
    apply In_nth with (d := 0) in Hin. destruct Hin as (n & Hn & En). exists (length (a_ants a) + n)%nat. split.
    + apply nonzero_eq_NoDup; [apply ants_NoDup|unfold ants; rewrite app_length; lia|]. unfold ants. rewrite app_nth2_plus. exact En.
    + intros j k p. unfold flags. rewrite (proj2 (Nat.ltb_ge _ _)) by lia. unfold ant_flagged. tauto.
Qed.

Lemma in_ants i : (i < length (time_array u))%nat -> In (nth i (ant_1_array u) 0) (ant_1_array u ++ ant_2_array u) /\ In (nth i (ant_2_array u) 0) (ant_1_array u ++ ant_2_array u).
Proof.
  intros Hi. destruct Hc as ((_ & L1 & L2 & _) & _). rewrite !in_app_iff. split; [left|right]; apply nth_In; lia.
Qed.

Lemma or_row_spec i : (i < length (time_array u))%nat ->
  (forall k, ~ same_time ttol (a_time a) (nth i (time_array u) 0) k) ->
  or_row ttol a ants flags (Nants_telescope u) (nth i (time_array u) 0) (nth i (baseline_array u) 0) = Ok (fun _ _ : nat => true).
Proof.
  intros Hi Hk. unfold or_row. destruct (nonzero (fun x => near ttol (nth i (time_array u) 0) x) (a_time a)) as [|k l] eqn:E; [reflexivity|].
  exfalso. assert (Hin : In k (k :: l)) by (left; reflexivity). rewrite <- E in Hin. apply (nonzero_spec 0) in Hin. destruct Hin as [H1 H2].
  apply near_same in H2; [|exact H1]. exact (Hk k H2).
Qed.
Lemma or_row_hit i k r : (i < length (time_array u))%nat -> same_time ttol (a_time a) (nth i (time_array u) 0) k ->
  or_row ttol a ants flags (Nants_telescope u) (nth i (time_array u) 0) (nth i (baseline_array u) 0) = Ok r ->
  forall j p, r j p = true <-> ant_flagged a (nth i (ant_1_array u) 0) j k (pol_at rep p) \/ ant_flagged a (nth i (ant_2_array u) 0) j k (pol_at rep p).
Proof.
  intros Hi Hk. unfold or_row. destruct (nonzero (fun x => near ttol (nth i (time_array u) 0) x) (a_time a)) as [|k1 l] eqn:E.
  - exfalso. assert (Hin : In k (nonzero (fun x => near ttol (nth i (time_array u) 0) x) (a_time a))).
    { apply (nonzero_spec 0). split; [apply Hk|]. apply near_same; [apply Hk|exact Hk]. }
    rewrite E in Hin. contradiction.
  - rewrite decode_row by assumption. cbn [bind nth]. destruct (in_ants i Hi) as [I1 I2].
    destruct (ant_index _ I1) as (n1 & E1 & F1). destruct (ant_index _ I2) as (n2 & E2 & F2). rewrite E1, E2.
    destruct l as [|]; [|discriminate]. intros H. injection H as <-. intros j p.
    assert (k = k1). { assert (Hin : In k (nonzero (fun x => near ttol (nth i (time_array u) 0) x) (a_time a))).
      { apply (nonzero_spec 0). split; [apply Hk|]. apply near_same; [apply Hk|exact Hk]. }
      rewrite E in Hin. destruct Hin as [->|[]]. reflexivity. }
    subst k1. rewrite orb_true_iff, F1, F2. tauto.
Qed.
Lemma or_row_total i : clear_times ttol (a_time a) -> (i < length (time_array u))%nat ->
  exists r, or_row ttol a ants flags (Nants_telescope u) (nth i (time_array u) 0) (nth i (baseline_array u) 0) = Ok r.
Proof.
  intros Hcl Hi. unfold or_row. destruct (nonzero (fun x => near ttol (nth i (time_array u) 0) x) (a_time a)) as [|k1 l] eqn:E; [eauto|].
  rewrite decode_row by assumption. cbn [bind nth]. destruct (in_ants i Hi) as [I1 I2].
  destruct (ant_index _ I1) as (n1 & -> & F1). destruct (ant_index _ I2) as (n2 & -> & F2).
  destruct l as [|k2 l]; [eauto|]. exfalso.
  assert (A : forall k, In k (k1 :: k2 :: l) -> same_time ttol (a_time a) (nth i (time_array u) 0) k).
  { intros k Hk. rewrite <- E in Hk. apply (nonzero_spec 0) in Hk. destruct Hk as [H1 H2]. apply near_same; assumption. }
  assert (k1 = k2) by (apply (clear_unique ttol (a_time a) (nth i (time_array u) 0)); [exact Hcl|apply A; left; reflexivity|apply A; right; left; reflexivity]).
  subst k2. pose proof (nonzero_NoDup (fun x => near ttol (nth i (time_array u) 0) x) (a_time a)) as N. rewrite E in N. inversion N as [|? ? N1 ?]; subst. apply N1. left; reflexivity.
Qed.
End AntennaRows.

Lemma to_baseline_antenna ttol ftol force chk a u f : consistent u -> NoDup (a_ants a) ->
  to_baseline ttol ftol force chk (Antenna a) u = Ok f ->
  rows_like f u /\ f_freq f = a_freq a /\ f_Ntimes f = length (a_time a) /\ length (a_freq a) = length (freq_array u) /\
  forall i j p, (i < length (time_array u))%nat ->
    (forall k, same_time ttol (a_time a) (nth i (time_array u) 0) k ->
       (f_flags f i j p = true <-> ant_flagged a (nth i (ant_1_array u) 0) j k (pol_of force (a_pol a) p) \/
                                   ant_flagged a (nth i (ant_2_array u) 0) j k (pol_of force (a_pol a) p))) /\
    ((forall k, ~ same_time ttol (a_time a) (nth i (time_array u) 0) k) -> f_flags f i j p = true).
Proof.
  intros Hc ND H. unfold to_baseline in H. destruct (all_near ftol (a_freq a) (freq_array u)) eqn:En; cbn [negb] in H; [|discriminate].
  apply bind_Ok in H as (rep & Er & H). apply bind_Ok in H as (fl & Ef & H).
  destruct (chk && negb (length (a_time a) =? length (uniqueZ (time_array u)))%nat) eqn:Ec; [discriminate|]. injection H as <-.
  unfold rows_like. cbn [f_time f_ant1 f_ant2 f_bl f_pol f_np f_Nants f_freq f_Ntimes f_flags].
  split; [auto 10|]. split; [reflexivity|]. split; [reflexivity|]. split; [apply all_near_spec in En; tauto|].
  unfold rows_of_antenna in Ef. apply bind_Ok in Ef as (rows & Em & Ef). injection Ef as <-.
  assert (Lb : length (baseline_array u) = length (time_array u)) by (destruct Hc as ((_ & _ & _ & L & _) & _); exact L).
  intros i j p Hi. pose proof (mapM_Ok_nth' _ _ _ Em i (0, 0) (fun _ _ : nat => true)) as Hr. rewrite combine_length in Hr.
  specialize (Hr ltac:(lia)). rewrite combine_nth in Hr by (symmetry; exact Lb). cbn [fst snd] in Hr. split.
  - intros k Hk. rewrite <- (match_pols_at _ _ _ _ p Er). apply (or_row_hit ttol a u rep Hc ND i k _ Hi Hk Hr).
  - intros Hk. rewrite (or_row_spec ttol a u rep i Hi Hk) in Hr. injection Hr as Hr. rewrite <- Hr. reflexivity.
Qed.

Lemma to_baseline_antenna_total ttol ftol force chk a u : consistent u -> NoDup (a_ants a) -> clear_times ttol (a_time a) ->
  length (a_freq a) = length (freq_array u) -> (forall j, (j < length (a_freq a))%nat -> Z.abs (nth j (a_freq a) 0 - nth j (freq_array u) 0) <= ftol) ->
  pols_fit force (a_pol a) (polarization_array u) ->
  (chk = true -> length (a_time a) = length (uniqueZ (time_array u))) ->
  exists f, to_baseline ttol ftol force chk (Antenna a) u = Ok f.
Proof.
  intros Hc ND Hcl H1 H2 H3 H4. unfold to_baseline. rewrite (proj2 (all_near_spec _ _ _) (conj H1 H2)). cbn [negb].
  apply match_pols_iff in H3. destruct H3 as (rep & ->). cbn [bind]. unfold rows_of_antenna.
  assert (Lb : length (baseline_array u) = length (time_array u)) by (destruct Hc as ((_ & _ & _ & L & _) & _); exact L).
  match goal with |- context [mapM ?g ?l] => assert (T : exists r, mapM g l = Ok r) end.
  { apply mapM_total. intros x Hx. apply In_nth with (d := (0, 0)) in Hx. destruct Hx as (i & Hi & <-).
    rewrite combine_length in Hi. rewrite combine_nth by (symmetry; exact Lb). cbn [fst snd]. apply or_row_total; auto. lia. }
  destruct T as (r & ->). cbn [bind]. destruct chk; cbn [andb]; [|eauto]. rewrite H4, Nat.eqb_refl by reflexivity. cbn [negb]. eauto.
Qed.

(** ** To waterfall *)
Lemma collapse_or l : collapse MOr l = true <-> In true l.
Proof. cbn [collapse]. rewrite existsb_exists. split; [intros (x & H & ->); exact H|intros H; exists true; auto]. Qed.
Lemma collapse_and l : collapse MAnd l = true <-> ~ In false l.
Proof.
  cbn [collapse]. rewrite forallb_forall. split; [intros H K; specialize (H _ K); discriminate|].
  intros H x Hx. destruct x; [reflexivity|contradiction].
Qed.
Lemma collapse_const m b l : l <> [] -> (forall x, In x l -> x = b) -> collapse m l = b.
Proof.
  intros Hne H. destruct l as [|x l]; [congruence|]. destruct m.
  - destruct b; [apply collapse_or; left; apply H; left; reflexivity|]. apply not_true_iff_false. intros K. apply collapse_or in K. specialize (H _ K). discriminate.
  - destruct b; [apply collapse_and; intros K; specialize (H _ K); discriminate|]. apply not_true_iff_false. intros K. apply collapse_and in K. apply K. left. apply H. left; reflexivity.
Qed.

Lemma waterfall_or f i j p : (i < length (uniqueZ (f_time f)))%nat ->
  w_flags (waterfall_of_baseline MOr true f) i j p = true <->
  exists r, In r (at_time (f_time f) (nth i (uniqueZ (f_time f)) 0)) /\ f_flags f r j p = true.
Proof.
  intros Hi. unfold waterfall_of_baseline. cbn [w_flags]. rewrite rows_at_spec, collapse_or, in_map_iff. firstorder.
Qed.
Lemma waterfall_and f i j p : (i < length (uniqueZ (f_time f)))%nat ->
  w_flags (waterfall_of_baseline MAnd true f) i j p = true <->
  forall r, In r (at_time (f_time f) (nth i (uniqueZ (f_time f)) 0)) -> f_flags f r j p = true.
Proof.
  intros Hi. unfold waterfall_of_baseline. cbn [w_flags]. rewrite rows_at_spec, collapse_and, in_map_iff. split.
  - intros H r Hr. destruct (f_flags f r j p) eqn:E; [reflexivity|]. elim H. eauto.
  - intros H (r & E & Hr). rewrite H in E by exact Hr. discriminate.
Qed.
Lemma last_or v pols : (1 < length pols)%nat ->
  forall p, collapse_last MOr (Pols pols) v p = true <-> exists q, (q < length pols)%nat /\ v q = true.
Proof.
  intros Hl p. unfold collapse_last. rewrite (proj2 (Nat.ltb_lt _ _) Hl), collapse_or, in_map_iff. split.
  - intros (q & E & Hq). apply in_seq in Hq. exists q. split; [lia|exact E].
  - intros (q & Hq & E). exists q. split; [exact E|]. apply in_seq. lia.
Qed.
Lemma last_and v pols : (1 < length pols)%nat ->
  forall p, collapse_last MAnd (Pols pols) v p = true <-> forall q, (q < length pols)%nat -> v q = true.
Proof.
  intros Hl p. unfold collapse_last. rewrite (proj2 (Nat.ltb_lt _ _) Hl), collapse_and, in_map_iff. split.
  - intros H q Hq. destruct (v q) eqn:E; [reflexivity|]. elim H. exists q. split; [exact E|]. apply in_seq. lia.
  - intros H (q & E & Hq). apply in_seq in Hq. rewrite H in E by lia. discriminate.
Qed.
Lemma waterfall_or_pols f pols i j p : (i < length (uniqueZ (f_time f)))%nat -> f_pol f = Pols pols -> (1 < length pols)%nat ->
  w_flags (waterfall_of_baseline MOr false f) i j p = true <->
  exists r q, In r (at_time (f_time f) (nth i (uniqueZ (f_time f)) 0)) /\ (q < length pols)%nat /\ f_flags f r j q = true.
Proof.
  intros Hi Hp Hl. unfold waterfall_of_baseline. cbn [w_flags]. rewrite rows_at_spec, collapse_or, in_map_iff, Hp. split.
  - intros (r & E & Hr). apply last_or in E; [|exact Hl]. destruct E as (q & Hq & E). eauto.
  - intros (r & q & Hr & Hq & E). exists r. split; [|exact Hr]. apply last_or; eauto.
Qed.
Lemma waterfall_and_pols f pols i j p : (i < length (uniqueZ (f_time f)))%nat -> f_pol f = Pols pols -> (1 < length pols)%nat ->
  w_flags (waterfall_of_baseline MAnd false f) i j p = true <->
  forall r q, In r (at_time (f_time f) (nth i (uniqueZ (f_time f)) 0)) -> (q < length pols)%nat -> f_flags f r j q = true.
Proof.
  intros Hi Hp Hl. unfold waterfall_of_baseline. cbn [w_flags]. rewrite rows_at_spec, collapse_and, in_map_iff, Hp. split.
  - intros H r q Hr Hq. destruct (f_flags f r j q) eqn:E; [reflexivity|]. elim H. exists r. split; [|exact Hr].
    apply not_true_iff_false. intros K. pose proof (proj1 (last_and (f_flags f r j) pols Hl p) K q Hq). congruence.
  - intros H (r & E & Hr). assert (K : collapse_last MAnd (Pols pols) (f_flags f r j) p = true) by (apply last_and; auto). congruence.
Qed.

Lemma round_trip_baseline ttol ftol force w u f m : clear_times ttol (w_time w) ->
  to_baseline ttol ftol force true (Waterfall w) u = Ok f ->
  (forall k, (k < length (w_time w))%nat -> Z.abs (nth k (uniqueZ (time_array u)) 0 - nth k (w_time w) 0) <= ttol) ->
  let w' := waterfall_of_baseline m true f in
  w_time w' = uniqueZ (time_array u) /\ length (w_time w') = length (w_time w) /\ w_freq w' = w_freq w /\ w_pol w' = Pols (polarization_array u) /\
  forall k j p, (k < length (w_time w))%nat -> w_flags w' k j p = w_flags w k j (pol_of force (w_pol w) p).
Proof.
  intros Hc H Hn w'. destruct (to_baseline_waterfall _ _ _ _ _ _ _ Hc H) as ((E1 & E2 & E3 & E4 & E5 & E6 & E7) & Ef & En & _ & _ & Hcnt & Hfl).
  specialize (Hcnt eq_refl). unfold w', waterfall_of_baseline. cbn [w_time w_freq w_pol w_flags]. rewrite E1.
  split; [reflexivity|]. split; [congruence|]. split; [exact Ef|]. split; [exact E5|].
  intros k j p Hk. rewrite rows_at_spec. apply collapse_const.
  - assert (Hin : In (nth k (uniqueZ (time_array u)) 0) (uniqueZ (time_array u))) by (apply nth_In; lia).
    apply (proj1 (uniqueZ_In _ _)) in Hin. apply In_nth with (d := 0) in Hin. destruct Hin as (r & Hr & E).
    intros En'. apply map_eq_nil in En'. assert (Hx : In r (at_time (time_array u) (nth k (uniqueZ (time_array u)) 0))) by (apply at_time_In; auto).
    rewrite En' in Hx. contradiction.
  - intros b Hb. apply in_map_iff in Hb. destruct Hb as (r & <- & Hr). apply at_time_In in Hr. destruct Hr as [Hr Er].
    apply (proj1 (Hfl r j p Hr)). split; [exact Hk|]. rewrite Er. apply Hn. exact Hk.
Qed.

(** ** To antenna *)
Lemma to_antenna_spec ftol force w ants freq pols a : to_antenna ftol force w ants freq pols = Ok a ->
  a_time a = w_time w /\ a_freq a = w_freq w /\ a_pol a = Pols pols /\ a_ants a = ants /\
  forall n j t p, a_flags a n j t p = w_flags w t j (pol_of force (w_pol w) p).
Proof.
  unfold to_antenna. destruct (all_near ftol (w_freq w) freq); cbn [negb]; [|discriminate]. intros H. apply bind_Ok in H as (rep & Er & H).
  injection H as <-. cbn. repeat split. intros n j t p. rewrite (match_pols_at _ _ _ _ p Er). reflexivity.
Qed.
Lemma to_antenna_total ftol force w ants freq pols :
  length (w_freq w) = length freq -> (forall j, (j < length (w_freq w))%nat -> Z.abs (nth j (w_freq w) 0 - nth j freq 0) <= ftol) ->
  pols_fit force (w_pol w) pols -> exists a, to_antenna ftol force w ants freq pols = Ok a.
Proof.
  intros H1 H2 H3. unfold to_antenna. rewrite (proj2 (all_near_spec _ _ _) (conj H1 H2)). cbn [negb].
  apply match_pols_iff in H3. destruct H3 as (rep & ->). cbn [bind]. eauto.
Qed.
Lemma round_trip_antenna ftol force w ants freq pols a m : to_antenna ftol force w ants freq pols = Ok a -> ants <> [] ->
  let w' := waterfall_of_antenna m true a in
  w_time w' = w_time w /\ w_freq w' = w_freq w /\ w_pol w' = Pols pols /\
  forall k j p, w_flags w' k j p = w_flags w k j (pol_of force (w_pol w) p).
Proof.
  intros H Hne w'. destruct (to_antenna_spec _ _ _ _ _ _ _ H) as (E1 & E2 & E3 & E4 & E5).
  unfold w', waterfall_of_antenna. cbn [w_time w_freq w_pol w_flags]. split; [exact E1|]. split; [exact E2|]. split; [exact E3|].
  intros k j p. apply collapse_const.
  - rewrite E4. destruct ants; [congruence|discriminate].
  - intros b Hb. apply in_map_iff in Hb. destruct Hb as (n & <- & _). apply E5.
Qed.
