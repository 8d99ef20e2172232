(** convert_to_flex_pol, and back. *)
From Coq Require Import List ZArith Bool Arith Lia Sorted Permutation.
From Verif Require Import Lib.Py Lib.Np Lib.Cube Lib.Sorting Spec.UVDataSpec Spec.FreqSpec Spec.PhaseSpec Spec.FlexPolSpec
  Model.UVData Model.Freq Model.PhaseCenter Model.FlexPol Proofs.AccessProofs Proofs.PhaseProofs Proofs.FreqProofs Proofs.FreqReorder
  Proofs.FlexPolSets Proofs.FlexPolLayout Proofs.FlexPolProofs Proofs.FlexPolCombine Proofs.FlexPolTop.
Import ListNotations.
Notation length := List.length.
Open Scope Z_scope.

(** the number given to the copy of [w], if the copies of [sp] are [news] *)
Definition newid (sp news : list Z) (w d : Z) : Z :=
  match index_of Z.eqb w sp with Some i => nth i news 0 | None => d end.

Lemma pop_new pop total used : picks pop -> (length used <= total)%nat -> NoDup used -> ~ In (pop (free_ids total used)) used.
Proof.
  intros P L N. apply (free_ids_pop pop total used P). transitivity (length used); [|exact L].
  apply (NoDup_incl_length (uniqueZ_NoDup used)). intros x Hx. apply (proj1 (uniqueZ_In _ _)) in Hx. exact Hx.
Qed.

Lemma newid_cons sp news w v i d : newid (v :: sp) (i :: news) w d = if w =? v then i else newid sp news w d.
Proof.
  unfold newid. cbn [index_of]. destruct (w =? v); [reflexivity|]. destruct (index_of Z.eqb w sp); reflexivity.
Qed.

Lemma fold_ids pop total flex pol sp : picks pop -> NoDup sp -> forall spws fps col,
  (length spws + length sp <= total)%nat -> NoDup spws -> length col = length flex ->
  exists news, length news = length sp /\ NoDup (spws ++ news) /\
  fold_left (id_step pop total flex pol) sp (spws, fps, col) =
  (spws ++ news, fps ++ repeat pol (length sp), map (fun p => newid sp news (fst p) (snd p)) (combine flex col)).
Proof.
  intros P. induction sp as [|v sp IH]; intros Nsp spws fps col HT N L.
  - exists []. rewrite !app_nil_r. split; [reflexivity|]. split; [exact N|]. cbn [fold_left]. repeat f_equal.
    clear -L. revert col L. induction flex as [|x l IH]; intros [|y c] L; simpl in *; try lia; [reflexivity|]. f_equal. apply IH. lia.
  - apply NoDup_cons_iff in Nsp. destruct Nsp as [Nv Nsp]. cbn [length] in HT. cbn [fold_left id_step].
    set (i := pop (free_ids total spws)).
    assert (Ni : ~ In i spws) by (apply pop_new; [exact P | lia | exact N]).
    destruct (IH Nsp (spws ++ [i]) (fps ++ [pol]) (map (fun p => if fst p =? v then i else snd p) (combine flex col))) as (news & L1 & N1 & E).
    + rewrite app_length. simpl. lia.
    + apply Permutation_NoDup with (l := i :: spws); [apply Permutation_cons_append|]. constructor; assumption.
    + rewrite map_length, combine_length. lia.
    + exists (i :: news). split; [simpl; lia|]. split; [rewrite <- app_assoc in N1; exact N1|]. rewrite E. cbn [length repeat].
      rewrite <- !app_assoc. cbn [app]. f_equal.
      clear -L Nv. revert col L. induction flex as [|x l IH]; intros [|y c] L; simpl in L; try lia; [reflexivity|].
      cbn [combine map fst snd]. rewrite IH by lia. f_equal. rewrite newid_cons. destruct (Z.eqb_spec x v) as [->|]; [|reflexivity].
      unfold newid. destruct (index_of Z.eqb v sp) as [k|] eqn:E2; [|reflexivity].
      apply (index_of_Some Z.eqb Z.eqb_eq 0) in E2. exfalso. apply Nv. destruct E2 as (A & <- & _). apply nth_In, A.
Qed.

Lemma ids_columns pop total sp flex : picks pop -> NoDup sp -> forall pols spws fps,
  (length spws + length sp * length pols <= total)%nat -> NoDup spws ->
  exists idl, length idl = length pols /\ (forall news, In news idl -> length news = length sp) /\ NoDup (spws ++ concat idl) /\
  id_columns pop total sp flex pols spws fps =
  (spws ++ concat idl, fps ++ concat (map (fun p => repeat p (length sp)) pols), map (fun news => map (fun w => newid sp news w 0) flex) idl).
Proof.
  intros P Nsp. induction pols as [|pol pols IH]; intros spws fps HT N.
  - exists []. cbn [id_columns map concat]. rewrite !app_nil_r. repeat split; [intros ? [] | exact N].
  - cbn [length] in HT. cbn [id_columns].
    destruct (fold_ids pop total flex pol sp P Nsp spws fps (repeat 0 (length flex))) as (news & L1 & N1 & E1); [lia|exact N|apply repeat_length|].
    rewrite E1. destruct (IH (spws ++ news) (fps ++ repeat pol (length sp))) as (idl & L2 & L3 & N2 & E2); [rewrite app_length; lia|exact N1|].
    rewrite E2. exists (news :: idl). cbn [length concat map]. rewrite <- !app_assoc in *. repeat split; try assumption.
    + lia.
    + intros x [<-|Hx]; [exact L1 | apply L3, Hx].
    + f_equal. f_equal. clear. induction flex as [|x l IH]; [reflexivity|]. cbn [length repeat combine map fst snd]. rewrite IH. reflexivity.
Qed.

Lemma newid_self sp w : In w sp -> newid sp sp w 0 = w.
Proof.
  intros H. unfold newid. destruct (index_of Z.eqb w sp) as [k|] eqn:E.
  - apply (index_of_Some Z.eqb Z.eqb_eq 0) in E. apply E.
  - apply (index_of_None Z.eqb Z.eqb_eq) in E. contradiction.
Qed.

Lemma concat_length_all {A} n (ll : list (list A)) : (forall l, In l ll -> length l = n) -> length (concat ll) = (length ll * n)%nat.
Proof.
  induction ll as [|l ll IH]; intros H; [reflexivity|]. cbn [concat length]. rewrite app_length, IH by (intros; apply H; right; assumption).
  rewrite (H l) by (left; reflexivity). reflexivity.
Qed.

Lemma concat_nth {A} (d : A) n (ll : list (list A)) k i : (forall l, In l ll -> length l = n) -> (k < length ll)%nat -> (i < n)%nat ->
  nth (i + n * k) (concat ll) d = nth i (nth k ll []) d.
Proof.
  intros H. revert k. induction ll as [|l ll IH]; intros k Hk Hi; [simpl in Hk; lia|]. cbn [concat].
  assert (L : length l = n) by (apply H; left; reflexivity). destruct k as [|k].
  - rewrite Nat.mul_0_r, Nat.add_0_r. cbn [nth]. apply app_nth1. lia.
  - cbn [nth]. rewrite app_nth2 by nia. rewrite <- IH; [|intros; apply H; right; assumption | simpl in Hk; lia | exact Hi]. f_equal. nia.
Qed.

Lemma concat_repeat_nth {A} (d : A) (l : list A) m k i : (k < m)%nat -> (i < length l)%nat -> nth (i + length l * k) (concat (repeat l m)) d = nth i l d.
Proof.
  intros Hk Hi. rewrite (concat_nth d (length l)); [|intros x Hx; apply repeat_spec in Hx; congruence | rewrite repeat_length; exact Hk | exact Hi].
  f_equal. assert (In (nth k (repeat l m) []) (repeat l m)) by (apply nth_In; rewrite repeat_length; exact Hk). apply repeat_spec in H. exact H.
Qed.

Lemma made pop o : picks pop -> freq_axis_ok (fo_uvd o) -> flex_spw_polarization_array o = None ->
  polarization_array (fo_uvd o) <> [] -> (0 < Nfreqs (fo_uvd o))%nat ->
  exists o', convert_to_flex_pol pop o = Ok o' /\ flex_pol_made o o'.
Proof.
  intros P ((Lw & Lx) & Nsp & M) Ef Np Hnf. unfold Nfreqs in Hnf. unfold convert_to_flex_pol. rewrite Ef.
  set (u := fo_uvd o) in *. destruct (polarization_array u) as [|pol0 pols] eqn:EP; [congruence|]. clear Np.
  set (sp := spw_array u) in *. set (flex := flex_spw_id_array u) in *. set (nf := length (freq_array u)) in *.
  set (tot := (length sp * length (pol0 :: pols))%nat).
  destruct (ids_columns pop tot sp flex P Nsp pols sp (repeat pol0 (length sp))) as (idl & L1 & L2 & N1 & E1); [unfold tot; cbn [length]; nia | exact Nsp |].
  rewrite E1. eexists. split; [reflexivity|].
  set (S := sp ++ concat idl) in *. set (FP := repeat pol0 (length sp) ++ concat (map (fun p => repeat p (length sp)) pols)).
  set (srt := argsortZ S). set (all := sp :: idl). set (np := length (pol0 :: pols)) in *.
  assert (Lall : length all = np) by (unfold all, np; simpl; lia).
  assert (Hall : forall l, In l all -> length l = length sp) by (intros l [<-|H]; [reflexivity | apply L2, H]).
  assert (LS : length S = (length sp * np)%nat).
  { unfold S. change (sp ++ concat idl) with (concat all). rewrite (concat_length_all (length sp)); [rewrite Lall; lia | exact Hall]. }
  assert (LFP : length FP = length S).
  { unfold FP. change (length (concat (map (fun p => repeat p (length sp)) (pol0 :: pols))) = length S). rewrite LS.
    clear. unfold np. induction (pol0 :: pols) as [|p l IH]; [simpl; lia|].
    cbn [map concat length]. rewrite app_length, repeat_length, IH. nia. }
  assert (Psrt : Permutation srt (seq 0 (length S))) by apply argsortZ_perm.
  assert (PSp : Permutation (take 0 S srt) S) by (apply take_perm; exact Psrt).
  set (idk := fun k w => newid sp (nth k all []) w 0).
  set (flex' := concat (flex :: map (fun news => map (fun w => newid sp news w 0) flex) idl)).
  assert (Hflex' : flex' = concat (map (fun news => map (fun w => newid sp news w 0) flex) all)).
  { unfold flex', all. cbn [map concat]. f_equal. rewrite <- (map_id flex) at 1. apply map_ext_in. intros w Hw. symmetry. apply newid_self, M, Hw. }
  assert (Lfx : length flex = nf) by exact Lx.
  assert (LF' : length flex' = (nf * np)%nat).
  { rewrite Hflex'. rewrite (concat_length_all nf); [rewrite map_length, Lall; lia|].
    intros l H. apply in_map_iff in H. destruct H as (x & <- & _). rewrite map_length. exact Lfx. }
  assert (NF' : forall j k, (j < nf)%nat -> (k < np)%nat -> nth (j + nf * k) flex' 0 = idk k (nth j flex 0)).
  { intros j k Hj Hk. rewrite Hflex', (concat_nth 0 nf).
    - rewrite (nth_map _ all k [] []) by lia. rewrite (nth_map _ flex j 0 0) by lia. reflexivity.
    - intros l H. apply in_map_iff in H. destruct H as (x & <- & _). rewrite map_length. exact Lfx.
    - rewrite map_length, Lall. exact Hk.
    - exact Hj. }
  assert (Pos : forall w, In w sp -> exists i, index_of Z.eqb w sp = Some i /\ (i < length sp)%nat /\ nth i sp 0 = w).
  { intros w Hw. destruct (index_of Z.eqb w sp) as [i|] eqn:E.
    - apply (index_of_Some Z.eqb Z.eqb_eq 0) in E. exists i. tauto.
    - apply (index_of_None Z.eqb Z.eqb_eq) in E. contradiction. }
  assert (IdS : forall k w, (k < np)%nat -> In w sp -> exists i, (i < length sp)%nat /\ nth i sp 0 = w /\ idk k w = nth (i + length sp * k) S 0).
  { intros k w Hk Hw. destruct (Pos w Hw) as (i & E & Hi & Ei). exists i. split; [exact Hi|]. split; [exact Ei|].
    unfold S. change (sp ++ concat idl) with (concat all). rewrite (concat_nth 0 (length sp)); [|exact Hall|lia|exact Hi].
    unfold idk, newid. rewrite E. reflexivity. }
  assert (Inj : forall k w k' w', (k < np)%nat -> (k' < np)%nat -> In w sp -> In w' sp -> idk k w = idk k' w' -> k = k' /\ w = w').
  { intros k w k' w' Hk Hk' Hw Hw' E. destruct (IdS k w Hk Hw) as (i & Hi & Ei & E2). destruct (IdS k' w' Hk' Hw') as (i' & Hi' & Ei' & E3).
    rewrite E2, E3 in E. assert (Q : (i + length sp * k = i' + length sp * k')%nat).
    { apply (proj1 (NoDup_nth S 0) N1); try (rewrite LS; nia). exact E. }
    destruct (divmod_at (length sp) i k Hi) as [D1 M1]. destruct (divmod_at (length sp) i' k' Hi') as [D2 M2].
    split; [rewrite <- D1, Q; exact D2|]. rewrite <- Ei, <- Ei'. f_equal. rewrite <- M1, Q. exact M2. }
  assert (Mem' : forall w, In w flex' <-> In w S).
  { intros w. split.
    - intros H. destruct (In_nth _ _ 0 H) as (c & Hc & <-). rewrite LF' in Hc.
      assert (Hk : (c / nf < np)%nat) by (apply Nat.div_lt_upper_bound; lia). assert (Hj : (c mod nf < nf)%nat) by (apply Nat.mod_upper_bound; lia).
      replace c with (c mod nf + nf * (c / nf))%nat by (pose proof (Nat.div_mod c nf ltac:(lia)); lia).
      rewrite NF' by assumption. destruct (IdS (c / nf)%nat (nth (c mod nf) flex 0) Hk) as (i & Hi & _ & ->); [apply M, nth_In; lia|].
      apply nth_In. rewrite LS. nia.
    - intros H. destruct (In_nth _ _ 0 H) as (q & Hq & <-). rewrite LS in Hq. assert (Hs : (0 < length sp)%nat) by nia.
      assert (Hk : (q / length sp < np)%nat) by (apply Nat.div_lt_upper_bound; lia). assert (Hi : (q mod length sp < length sp)%nat) by (apply Nat.mod_upper_bound; lia).
      set (w := nth (q mod length sp) sp 0). assert (Hw : In w sp) by (apply nth_In, Hi).
      assert (Hw2 : In w flex) by (apply M, Hw). destruct (In_nth _ _ 0 Hw2) as (j & Hj & Ej). rewrite Lfx in Hj.
      destruct (IdS (q / length sp)%nat w Hk Hw) as (i & Hi2 & Ei & E2).
      assert (i = (q mod length sp)%nat) by (apply (proj1 (NoDup_nth sp 0) Nsp); assumption). subst i.
      assert (EQ : nth q S 0 = nth (j + nf * (q / length sp)) flex' 0).
      { rewrite NF', Ej, E2 by assumption. f_equal. pose proof (Nat.div_mod q (length sp) ltac:(lia)). lia. }
      rewrite EQ. apply nth_In. rewrite LF'. nia. }
  assert (Ltile : forall l : list Z, length l = nf -> length (concat (repeat l np)) = (nf * np)%nat).
  { intros l Hl. rewrite (concat_length_all nf); [rewrite repeat_length; lia|]. intros x Hx. apply repeat_spec in Hx. congruence. }
  assert (WP : forall k w, (k < np)%nat -> In w sp -> forall pol, nth k (pol0 :: pols) 0 = pol ->
     exists q, (q < length S)%nat /\ nth q (take 0 S srt) 0 = idk k w /\ nth_error (take 0 FP srt) q = Some pol).
  { intros k w Hk Hw pol Hp. destruct (IdS k w Hk Hw) as (i & Hi & Ei & E2).
    destruct (perm_seq_facts _ _ Psrt) as (Ls & Ns & Bs & Is).
    assert (Hq : (i + length sp * k < length S)%nat) by (rewrite LS; nia).
    destruct (In_nth _ _ 0%nat (proj2 (Is _) Hq)) as (q & Hq2 & Eq). rewrite Ls in Hq2. exists q. split; [exact Hq2|].
    split; [rewrite nth_take by lia; rewrite Eq; symmetry; exact E2|].
    rewrite (nth_error_nth' _ 0) by (rewrite take_length; lia). f_equal. rewrite nth_take by lia. rewrite Eq.
    unfold FP. change (nth (i + length sp * k) (concat (map (fun p => repeat p (length sp)) (pol0 :: pols))) 0 = pol).
    rewrite (concat_nth 0 (length sp)); [| | rewrite map_length; exact Hk | exact Hi].
    - rewrite (nth_map _ (pol0 :: pols) k 0 []) by exact Hk. rewrite (nth_indep _ 0 (nth k (pol0 :: pols) 0)) by (rewrite repeat_length; exact Hi). rewrite nth_repeat. exact Hp.
    - intros l H. apply in_map_iff in H. destruct H as (x & <- & _). apply repeat_length. }
  unfold flex_pol_made, flex_pol_ok, set_axes, Nfreqs, Npols, obj_ok, freq_axis_ok, freq_shaped, window_pol, sample_copied, off_freq_pol_same.
  cbn [fo_uvd flex_spw_polarization_array freq_array channel_width flex_spw_id_array spw_array polarization_array data_array flag_array nsample_array].
  fold u. rewrite EP. fold flex np. change (length (pol0 :: pols)) with np. fold nf.
  split; [|split; [|split; [|split; [|split]]]].
  - split; [split; [split; [split; [|]|split; [|]]|]|split; [|split; [|]]].
    + rewrite !Ltile; [reflexivity | reflexivity | exact Lw].
    + rewrite !Ltile; [exact LF' | reflexivity].
    + apply (Permutation_NoDup (Permutation_sym PSp)), N1.
    + intros w. rewrite Mem'. split; apply Permutation_in; [symmetry|]; exact PSp.
    + intros fp E. injection E as <-. rewrite !take_length. reflexivity.
    + discriminate.
    + reflexivity.
    + rewrite Ltile by reflexivity. unfold np. simpl. nia.
  - repeat split.
  - apply Ltile. reflexivity.
  - intros j k Hj Hk. split; [split; [|split]|].
    + apply (concat_repeat_nth 0 (freq_array u)); assumption.
    + rewrite <- Lw in *. fold nf in Hj. replace nf with (length (channel_width u)) by exact Lw. apply concat_repeat_nth; [assumption | lia].
    + intros i. unfold pol_slowest. destruct (divmod_at nf j k Hj) as [-> ->]. auto.
    + rewrite NF' by assumption. destruct (WP k (nth j flex 0) Hk) with (pol := nth k (pol0 :: pols) 0) as (q & Hq & E2 & E3); [apply M, nth_In; lia | reflexivity |].
      exists (take 0 FP srt), q. split; [reflexivity|]. split; [rewrite take_length, (Permutation_length Psrt), seq_length; exact Hq|]. auto.
  - intros j k j' k' Hj Hk Hj' Hk'. rewrite !NF' by assumption. split.
    + intros E. apply Inj in E; try assumption; apply M, nth_In; lia.
    + intros [-> ->]. reflexivity.
  - intros j Hj. unfold flex'. cbn [concat]. apply app_nth1. lia.
Qed.
