(** The solutions of an antenna. *)
From Coq Require Import List ZArith Bool Arith QArith Lia String.
From Verif Require Import Lib.Py Lib.Np Lib.Cube Spec.AddSpec Spec.CalSpec Spec.CalSelectSpec
  Model.Pol Model.Select Model.UVCal Model.CalSelect Proofs.CalSelectTop.
Import ListNotations.
Notation length := List.length.
Open Scope list_scope.
Open Scope Z_scope.

Lemma argmin_from_le l best i k : (i < k)%nat -> (argmin_from best i k l < k + length l)%nat /\
  forall d, d = (if (argmin_from best i k l <? k)%nat then best else nth (argmin_from best i k l - k) l 0) ->
    (argmin_from best i k l = i \/ (k <= argmin_from best i k l)%nat) /\ d <= best /\ forall x, In x l -> d <= x.
Proof.
  revert best i k. induction l as [|x l IH]; intros best i k L; cbn [argmin_from length].
  - split; [lia|]. intros d ->. replace (i <? k)%nat with true by (symmetry; apply Nat.ltb_lt; lia). split; [auto|]. split; [lia | intros x []].
  - destruct (x <? best) eqn:E.
    + destruct (IH x k (S k)) as (B & H); [lia|]. split; [lia|]. intros d ->. specialize (H _ eq_refl). destruct H as (C & H1 & H2).
      apply Z.ltb_lt in E. set (m := argmin_from x k (S k) l) in *.
      assert (X : (m = k \/ S k <= m)%nat) by exact C.
      replace (m <? k)%nat with false by (symmetry; apply Nat.ltb_ge; lia). split; [right; lia|].
      destruct X as [-> | X].
      * rewrite Nat.sub_diag. cbn [nth]. replace (k <? S k)%nat with true in * by (symmetry; apply Nat.ltb_lt; lia).
        split; [lia|]. intros y [<- | I]; [lia | apply H2, I].
      * replace (m <? S k)%nat with false in * by (symmetry; apply Nat.ltb_ge; lia). replace (m - k)%nat with (S (m - S k)) by lia. cbn [nth].
        split; [lia|]. intros y [<- | I]; [exact H1 | apply H2, I].
    + destruct (IH best i (S k)) as (B & H); [lia|]. split; [lia|]. intros d ->. specialize (H _ eq_refl). destruct H as (C & H1 & H2).
      apply Z.ltb_ge in E. set (m := argmin_from best i (S k) l) in *.
      destruct C as [C | C].
      * rewrite C in *. replace (i <? k)%nat with true by (symmetry; apply Nat.ltb_lt; lia). replace (i <? S k)%nat with true in * by (symmetry; apply Nat.ltb_lt; lia).
        split; [auto|]. split; [lia|]. intros y [<- | I]; [lia | apply H2, I].
      * replace (m <? k)%nat with false by (symmetry; apply Nat.ltb_ge; lia). replace (m <? S k)%nat with false in * by (symmetry; apply Nat.ltb_ge; lia).
        replace (m - k)%nat with (S (m - S k)) by lia. cbn [nth]. split; [right; lia|]. split; [exact H1|]. intros y [<- | I]; [lia | apply H2, I].
Qed.

Lemma nearest_spec n l : In n l -> (nearest n l < length l)%nat /\ nth (nearest n l) l 0 = n.
Proof.
  intros I. unfold nearest. destruct l as [|y l]; [destruct I|]. cbn [map].
  pose proof (argmin_from_le (map (fun x => Z.abs (x - n)) l) (Z.abs (y - n)) 0 1 (Nat.lt_0_succ 0)) as (B & H).
  specialize (H _ eq_refl). destruct H as (C & H1 & H2). set (m := argmin_from _ _ _ _) in *. rewrite map_length in B. cbn [length].
  split; [lia|]. assert (Z0 : forall z, Z.abs (z - n) <= 0 -> z = n) by (intros; lia).
  destruct C as [C | C].
  - rewrite C in *. cbn in H1, H2 |- *. apply Z0. destruct I as [-> | I]; [rewrite Z.sub_diag; reflexivity|].
    specialize (H2 (Z.abs (n - n))). rewrite Z.sub_diag in H2. apply H2. apply in_map_iff. exists n. split; [rewrite Z.sub_diag; reflexivity | exact I].
  - replace (m <? 1)%nat with false in * by (symmetry; apply Nat.ltb_ge; lia). destruct m as [|m]; [lia|]. cbn [nth].
    replace (S m - 1)%nat with m in * by lia. rewrite (nth_map (fun x => Z.abs (x - n)) l m 0 0) in * by lia. apply Z0.
    destruct I as [-> | I]; [rewrite Z.sub_diag in H1; exact H1|].
    apply H2. apply in_map_iff. exists n. split; [rewrite Z.sub_diag; reflexivity | exact I].
Qed.

Section Get.
Variables (xo : option string) (u : ucal).
Hypothesis OK : cal_ok u.

Lemma ant2ind_spec n a : ant2ind u n = Ok a <-> (a < Nants u)%nat /\ ant_at u a = n.
Proof.
  pose proof OK as (_ & _ & _ & _ & DA & _). unfold ant2ind. split.
  - destruct (isinZ n (c_ants u)) eqn:E; [|discriminate]. intros X. injection X as <-. apply isinZ_spec in E. apply nearest_spec, E.
  - intros (L & E). assert (I : In n (c_ants u)) by (rewrite <- E; apply nth_In, L). pose proof (nearest_spec _ _ I) as (L' & E').
    apply isinZ_spec in I. rewrite I. f_equal. apply DA; [exact L' | exact L | unfold ant_at in *; congruence].
Qed.
Lemma jones2ind_spec p j : jpol2ind xo u p = Ok j <-> exists m, jones_number xo p = Ok m /\ (j < Njones u)%nat /\ jones_at u j = m.
Proof.
  pose proof OK as (_ & _ & _ & _ & _ & _ & _ & DJ). unfold jpol2ind. split.
  - intros H. apply bind_Ok in H as (m & Hm & H). exists m. split; [exact Hm|].
    destruct (isinZ m (c_jones u)) eqn:E; [|discriminate]. injection H as <-. apply isinZ_spec in E. apply nearest_spec, E.
  - intros (m & Hm & L & E). rewrite Hm. cbn [bind]. assert (I : In m (c_jones u)) by (rewrite <- E; apply nth_In, L).
    pose proof (nearest_spec _ _ I) as (L' & E'). apply isinZ_spec in I. rewrite I. f_equal. apply DJ; [exact L' | exact L | unfold jones_at in *; congruence].
Qed.

Theorem slice_part {A} (c : arr4 A) n jpol sq s : slice_array xo u c n jpol sq = Ok s -> part_for xo u c n jpol sq s.
Proof.
  pose proof OK as (_ & _ & _ & _ & DA & _ & _ & DJ).
  unfold slice_array, part_for. intros H. apply bind_Ok in H as (a & Ha & H). apply ant2ind_spec in Ha as (La & Ea).
  assert (HA : has_ant u n) by (exists a; auto).
  assert (UA : forall a', (a' < Nants u)%nat -> ant_at u a' = n -> a' = a) by (intros a' L' E'; apply DA; congruence).
  destruct jpol as [p|].
  - apply bind_Ok in H as (j & Hj & H). injection H as <-. apply jones2ind_spec in Hj as (m & Hm & Lj & Ej).
    exists (fun f t => c a f t j), m. split; [reflexivity|]. split; [exact Hm|]. split; [exact HA|]. split; [exists j; auto|].
    intros a' j' La' Lj' Ea' Ej' f t. rewrite (UA a' La' Ea'). assert (j' = j) as -> by (apply DJ; congruence). reflexivity.
  - injection H as <-. split; [exact HA|]. destruct (sq && (Njones u =? 1)%nat); eexists; (split; [reflexivity|]);
      intros a' La' Ea'; rewrite (UA a' La' Ea'); reflexivity.
Qed.
Theorem slice_total {A} (c : arr4 A) n jpol sq : has_ant u n -> (forall p, jpol = Some p -> exists m, jones_number xo p = Ok m /\ has_jones u m) ->
  exists s, slice_array xo u c n jpol sq = Ok s.
Proof.
  intros (a & La & Ea) HJ. unfold slice_array. rewrite (proj2 (ant2ind_spec n a) (conj La Ea)). cbn [bind]. destruct jpol as [p|]; [|eexists; reflexivity].
  destruct (HJ p eq_refl) as (m & Hm & j & Lj & Ej). rewrite (proj2 (jones2ind_spec p j)); [eexists; reflexivity|]. exists m. auto.
Qed.
End Get.
