(** Histories of catalog operations *)
From Coq Require Import List ZArith Bool Arith String QArith Lia.
From Verif Require Import Lib.Py Lib.Np Lib.Slice Lib.Dict Model.PhaseCenter
  Spec.PhaseSpec Proofs.PhaseProofs Proofs.PhaseOps Proofs.PhaseSplit Proofs.PhaseMerge Proofs.PhasePhase Proofs.PhaseConsolidate.
Import ListNotations.
Open Scope Z_scope.
Open Scope list_scope.
Notation length := List.length.

Lemma step_consistent s s' : pc_consistent s -> pc_step s s' -> pc_consistent s'.
Proof.
  intros Hc H. destruct H as [pop name info p force id s s' k Hp H|i nm s s' H|pop i nm mask id down s s' Hp H|l force ign s s' Ho H
    |s s' H|pop name p mask cl s s' Hp H|pop name mask s s' Hp H|pop ref ign s s' Hp Hr Hd H].
  - apply (add_consistent _ _ _ _ _ _ _ _ _ Hp Hc H).
  - apply (rename_consistent _ _ _ _ Hc H).
  - destruct (split_relabels _ _ _ _ _ _ _ _ Hp Hc H) as (c & _ & H1 & _). exact H1.
  - apply (merge_relabels _ _ _ _ _ Hc Ho H).
  - apply (clear_consistent _ _ Hc H).
  - apply (phase_consistent _ _ _ _ _ _ _ Hp Hc H).
  - apply (unproject_effect _ _ _ _ _ Hp Hc H).
  - destruct (consolidate_effect pop ref ign s Hp Hc Hr Hd) as (s1 & H1 & H2 & _). congruence.
Qed.

Lemma history_consistent s s' : pc_consistent s -> pc_history s s' -> pc_consistent s'.
Proof. intros Hc H. induction H as [|a b c Hs Hh IH]; [exact Hc|]. apply IH. eapply step_consistent; eassumption. Qed.

Lemma split_separates pop i nm mask id down s s' c e r r' : picks pop -> pc_consistent s ->
  split_phase_center pop i (Some nm) mask id down s = Ok s' -> named_by s i c -> stored s c e -> e_name e <> nm ->
  nth_error (pc_ids s) r = Some c -> nth_error (pc_ids s) r' = Some c ->
  chosen (length (pc_ids s)) mask r -> ~ chosen (length (pc_ids s)) mask r' ->
  nth_error (pc_ids s') r <> nth_error (pc_ids s') r'.
Proof.
  intros Hp Hc H Hn He Hne Hr Hr' Hch Hch' Heq.
  destruct (split_relabels _ _ _ _ _ _ _ _ Hp Hc H) as (c' & Hname & Hc' & _ & Hrows & _).
  apply Hname in Hn. subst c'.
  assert (P1 : points s r e) by (exists c; auto). assert (P2 : points s r' e) by (exists c; auto).
  destruct (proj1 (Hrows r e P1) (conj Hch Hr)) as (e1 & (k1 & Hk1 & He1) & Hn1 & _).
  destruct (proj2 (Hrows r' e P2)) as [(k2 & Hk2 & He2) _]; [tauto|].
  assert (k1 = k2) by congruence. subst k2. apply consistent_keys in Hc' as ((Hnd & _) & _).
  assert (e1 = e) by (eapply cat_unique; eassumption). subst e1. simpl in Hn1. congruence.
Qed.

Lemma clear_exact s : pc_consistent s -> exists s', clear_unused_phase_centers s = Ok s' /\ pc_consistent s' /\
  pc_ids s' = pc_ids s /\ (forall k e, stored s' k e <-> stored s k e /\ In k (pc_ids s)).
Proof.
  intros Hc. destruct (clear_spec s Hc) as (s' & H & Hids & Hcat & Hn). exists s'. split; [exact H|].
  split; [apply (clear_consistent _ _ Hc H)|]. split; [exact Hids|]. intros k e. unfold stored. rewrite Hcat, filter_In.
  simpl. rewrite isinZ_spec. reflexivity.
Qed.
