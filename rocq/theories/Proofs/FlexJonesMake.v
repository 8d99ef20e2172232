(** C82: convert_to_flex_jones lays out the channels. *)
From Coq Require Import List ZArith QArith Bool Arith Lia Permutation Sorted.
From Verif Require Import Lib.Py Lib.Np Lib.Cube Lib.Sorting Spec.AddSpec Spec.CalSpec Spec.FlexJonesSpec
  Model.Times Model.UVCal Model.FlexJones Proofs.CalArrange Proofs.CalMove Proofs.FlexJonesBase Proofs.FlexJonesRemove Proofs.FlexJonesMatch Proofs.FlexJonesConvert.
Import ListNotations.
Notation length := List.length.
Open Scope list_scope.
Open Scope Z_scope.
Notation Ntimes := UVCal.Ntimes.

Lemma concat_rows {A} (rows : list (list A)) n : (forall r, In r rows -> length r = n) -> length (List.concat rows) = (length rows * n)%nat.
Proof.
  induction rows as [|r rows IH]; intros H; [reflexivity|]. cbn [List.concat length]. rewrite app_length, IH, H by (try (left; reflexivity); intros; apply H; right; assumption). lia.
Qed.
Lemma nth_rows {A} (d : A) (rows : list (list A)) n k f : (forall r, In r rows -> length r = n) -> (k < length rows)%nat -> (f < n)%nat ->
  nth (k * n + f) (List.concat rows) d = nth f (nth k rows []) d.
Proof.
  revert k. induction rows as [|r rows IH]; intros k H Hk Hf; [cbn in Hk; lia|]. cbn [List.concat]. destruct k as [|k].
  - cbn [Nat.mul Nat.add nth]. apply app_nth1. rewrite H by (left; reflexivity). exact Hf.
  - rewrite app_nth2; rewrite H by (left; reflexivity); [|lia]. cbn [nth length] in *. rewrite <- IH; [f_equal; lia| |lia|exact Hf].
    intros x Hx. apply H. right. exact Hx.
Qed.
Lemma nth_tile {A} (d : A) n l k f : (k < n)%nat -> (f < length l)%nat -> nth (k * length l + f) (tile n l) d = nth f l d.
Proof.
  intros Hk Hf. unfold tile. rewrite nth_rows; [|intros r H; apply repeat_spec in H; congruence|rewrite repeat_length; exact Hk|exact Hf].
  f_equal. assert (I : In (nth k (repeat l n) []) (repeat l n)) by (apply nth_In; rewrite repeat_length; exact Hk). now apply repeat_spec in I.
Qed.
Lemma tile_length {A} n (l : list A) : length (tile n l) = (n * length l)%nat.
Proof. unfold tile. rewrite (concat_rows _ (length l)); [now rewrite repeat_length|]. intros r H. apply repeat_spec in H. congruence. Qed.
Lemma rows_flat {A} (l : list A) n : flat_map (fun p => repeat p n) l = List.concat (map (fun p => repeat p n) l).
Proof. apply flat_map_concat_map. Qed.

Lemma free_enough n l : (n <= length (free_windows n l) + length l)%nat.
Proof.
  set (all := map Z.of_nat (seq 1 n)).
  assert (LA : length all = n) by (unfold all; now rewrite map_length, seq_length).
  assert (NA : NoDup all) by (apply FinFun.Injective_map_NoDup; [intros x y H; lia|apply seq_NoDup]).
  assert (LI : (length all <= length (free_windows n l ++ l))%nat).
  { apply NoDup_incl_length; [exact NA|]. intros x Hx. apply in_or_app. destruct (isinZ x l) eqn:E.
    - right. now apply isinZ_spec.
    - left. unfold free_windows. apply filter_In. rewrite E. auto. }
  rewrite app_length in LI. lia.
Qed.

(** [listed] gives the elements of a list in some order. *)
Definition lister (listed : list Z -> list Z) : Prop := forall l, Permutation l (listed l).

Lemma new_spws listed l nj : lister listed -> NoDup l -> (0 < nj)%nat ->
  let spws := l ++ firstn (length l * (nj - 1)) (listed (free_windows (length l * nj) l)) in
  length spws = (nj * length l)%nat /\ NoDup spws /\ firstn (length l) spws = l.
Proof.
  intros HL N Hj spws. set (fr := listed (free_windows (length l * nj) l)) in *.
  assert (P : Permutation (free_windows (length l * nj) l) fr) by apply HL.
  pose proof (free_enough (length l * nj) l) as FE. rewrite (Permutation_length P) in FE.
  assert (LF : length (firstn (length l * (nj - 1)) fr) = (length l * (nj - 1))%nat) by (apply firstn_length_le; nia).
  split; [|split].
  - unfold spws. rewrite app_length, LF. nia.
  - unfold spws. assert (NF : NoDup fr).
    { apply (Permutation_NoDup P). unfold free_windows. apply NoDup_filter, FinFun.Injective_map_NoDup; [intros x y H; lia|apply seq_NoDup]. }
    assert (DF : forall x, In x fr -> ~ In x l).
    { intros x Hx. apply (Permutation_in x (Permutation_sym P)) in Hx. unfold free_windows in Hx. apply filter_In in Hx. destruct Hx as [_ Hx].
      apply negb_true_iff in Hx. now apply isinZ_false in Hx. }
    set (m := (length l * (nj - 1))%nat) in *. clearbody m fr. clear -N NF DF. revert N DF. induction l as [|y l IH]; intros N DF.
    + cbn [app]. rewrite <- (firstn_skipn m fr) in NF. clear -NF. induction (firstn m fr) as [|x q IH]; [constructor|]. cbn [app] in NF. inversion NF as [|? ? N1 N2]; subst.
      constructor; [intros H; apply N1, in_or_app; auto|exact (IH N2)].
    + cbn [app]. inversion N as [|? ? N1 N2]; subst. constructor.
      * intros H. apply in_app_or in H. destruct H as [H|H]; [contradiction|]. apply (DF y); [|left; reflexivity]. rewrite <- (firstn_skipn m fr). apply in_or_app. auto.
      * apply IH; [exact N2|]. intros x Hx C. apply (DF x Hx). right. exact C.
  - unfold spws. rewrite firstn_app, Nat.sub_diag, firstn_O, app_nil_r. apply firstn_all.
Qed.

Lemma nth_row (l : list Z) k n i : (i < n)%nat -> nth i (firstn n (skipn (k * n) l)) 0 = nth (k * n + i) l 0.
Proof.
  intros H. set (m := (k * n)%nat). clearbody m. revert l. assert (A : forall l, nth i (firstn n l) 0 = nth i l 0).
  { revert i H. induction n as [|n IH]; intros i H l; [lia|]. destruct l as [|x l]; [destruct i; reflexivity|]. destruct i as [|i]; [reflexivity|]. cbn [firstn nth]. apply IH. lia. }
  intros l. rewrite A. clear A H. revert l. induction m as [|m IH]; intros l; [reflexivity|]. destruct l as [|x l]; [destruct i; reflexivity|]. cbn [skipn Nat.add nth]. apply IH.
Qed.

Lemma rename_spec old new flex r : rename old new flex = Ok r ->
  length r = length flex /\ forall f, (f < length flex)%nat -> nth f r 0 = nth (pos (nth f flex 0) old) new 0.
Proof.
  unfold rename. intros H. split; [apply (mapM_Ok_length _ _ _ H)|]. intros f Hf.
  pose proof (mapM_Ok_nth _ _ _ 0 0 H f Hf) as E. cbv beta in E. unfold pos. destruct (index_of Z.eqb (nth f flex 0) old); [|discriminate]. congruence.
Qed.
Lemma rename_total old new flex : (forall w, In w flex -> In w old) -> exists r, rename old new flex = Ok r.
Proof.
  intros H. unfold rename. induction flex as [|w flex IH]; [eexists; reflexivity|]. cbn [mapM].
  destruct (index_of Z.eqb w old) as [i|] eqn:E.
  - cbn [bind]. destruct IH as [r Er]; [intros x Hx; apply H; right; exact Hx|]. rewrite Er. cbn [bind]. eauto.
  - exfalso. apply (index_of_None Z.eqb Z.eqb_eq) in E. apply E, H. left. reflexivity.
Qed.

Lemma converted_laid listed u v : lister listed -> cal_ok u -> c_spws u <> [] -> convert_to_flex_jones listed u = Ok v ->
  laid u v /\ (0 < Njones u)%nat /\ c_flex_jones u = None.
Proof.
  intros HL Hu HS H. pose proof Hu as (HT & HC & HN & HFJ & Da & Db & Dc & Dd). unfold convert_to_flex_jones in H. destruct (c_flex_jones u) as [fj|] eqn:FJ; [discriminate|].
  destruct (c_jones u) as [|p [|q l]] eqn:J; [discriminate| |].
  - injection H as <-. split; [|split; [unfold Njones; rewrite J; cbn; lia|reflexivity]].
    assert (NJ : Njones u = 1%nat) by (unfold Njones; now rewrite J).
    split; cbn [set_jones c_spws c_tqual c_wide c_freq_range c_widths c_freqs c_flex c_flex_jones c_jones c_sol c_flags c_qual]; try reflexivity.
    + repeat split; intros X; exact X.
    + auto.
    + rewrite NJ. lia.
    + exact HN.
    + apply firstn_all.
    + rewrite NJ. unfold Nchans. cbn [set_jones c_wide c_spws c_freqs]. lia.
    + destruct (c_wide u); [exact HC|]. split; apply HC.
    + intros k f Hk Hf. replace k with O by lia. cbn [Nat.mul Nat.add]. split; [|reflexivity].
      change (chan_at (set_jones [0] (Some (map (fun _ => p) (c_spws u))) u) f) with (chan_at u f). rewrite (surjective_pairing (chan_at u f)) at 1. f_equal.
      unfold wk. cbn [Nat.mul Nat.add set_jones c_spws]. symmetry. apply pos_In. apply (chan_In u Hu). exact Hf.
    + intros k f a t Hk Hf. replace k with O by lia. reflexivity.
    + rewrite J. cbn [flat_map]. rewrite app_nil_r. f_equal. clear. induction (c_spws u) as [|x l IH]; [reflexivity|]. cbn [map length repeat]. now rewrite IH.
  - cbv zeta in H. rewrite <- J in H. set (n := length (c_spws u)) in *. set (nj := length (c_jones u)) in *. assert (Hnj : (0 < nj)%nat) by (unfold nj; rewrite J; cbn; lia).
    destruct (new_spws listed (c_spws u) nj HL HN Hnj) as (S1 & S2 & S3). cbv zeta in S1, S2, S3. fold n in S1, S2, S3.
    set (spws := c_spws u ++ firstn (n * (nj - 1)) (listed (free_windows (n * nj) (c_spws u)))) in *.
    apply bind_Ok in H. destruct H as (flex & EF & H). destruct (c_tqual u) eqn:TQ; [discriminate|]. injection H as <-.
    assert (FX : c_wide u = false -> length flex = (nj * length (c_flex u))%nat /\
       forall k f, (k < nj)%nat -> (f < length (c_flex u))%nat -> nth (k * length (c_flex u) + f) flex 0 = nth (k * n + pos (nth f (c_flex u) 0) (c_spws u)) spws 0).
    { intros W. rewrite W in EF. apply bind_Ok in EF. destruct EF as (rows & ER & EF). injection EF as <-.
      assert (RL : length rows = nj) by (rewrite (mapM_Ok_length _ _ _ ER), seq_length; reflexivity).
      assert (RK : forall k, (k < nj)%nat -> rename (c_spws u) (firstn n (skipn (k * n) spws)) (c_flex u) = Ok (nth k rows [])).
      { intros k Hk. pose proof (mapM_Ok_nth _ _ _ O [] ER k) as E. rewrite seq_length in E. specialize (E Hk). cbv beta in E. rewrite seq_nth in E by exact Hk. exact E. }
      assert (RR : forall r, In r rows -> length r = length (c_flex u)).
      { intros r Hr. destruct (In_nth _ _ [] Hr) as (k & Lk & <-). apply (rename_spec _ _ _ _ (RK k ltac:(lia))). }
      split; [rewrite (concat_rows _ _ RR), RL; reflexivity|]. intros k f Hk Hf. rewrite (nth_rows _ _ _ _ _ RR) by (try exact Hf; lia).
      destruct (rename_spec _ _ _ _ (RK k Hk)) as [_ E]. rewrite (E f Hf). apply nth_row. apply pos_In. pose proof HC as HC'. rewrite W in HC'. apply HC', nth_In, Hf. }
    split; [|split; [exact Hnj|reflexivity]].
    split; cbn [c_spws c_tqual c_wide c_freq_range c_widths c_freqs c_flex c_flex_jones c_jones c_sol c_flags c_qual]; fold n; try reflexivity.
    + repeat split; try (intros X; exact X); cbn [c_qual]; destruct (c_qual u); cbn [option_map]; intros X; try discriminate X; reflexivity.
    + rewrite TQ. auto.
    + exact S1.
    + exact S2.
    + exact S3.
    + unfold Nchans. cbn [c_wide c_spws c_freqs]. change (Njones u) with nj. destruct (c_wide u); [exact S1|apply tile_length].
    + rewrite !tile_length. destruct (c_wide u) eqn:W; [rewrite HC, S1; reflexivity|]. destruct HC as (C1 & C2 & _). rewrite C1. split; [reflexivity|].
      rewrite (proj1 (FX eq_refl)), C2. reflexivity.
    + change (Njones u) with nj. intros k f Hk Hf.
      assert (TL : forall (A : Type) (d : A) (l : list A), length l = Nchans u -> nth (k * Nchans u + f) (tile nj l) d = nth f l d).
      { intros A d l0 L0. rewrite <- L0. apply nth_tile; [exact Hk|]. rewrite L0. exact Hf. }
      unfold chan_at, chan_info, wk. cbn [c_wide c_spws c_freq_range c_widths c_freqs c_flex]. fold n. destruct (c_wide u) eqn:W.
      * assert (NC : Nchans u = n) by (unfold Nchans; rewrite W; reflexivity). rewrite TL by (rewrite NC; exact HC). split; [|reflexivity]. f_equal.
        cbn [fst]. rewrite NC in *. rewrite pos_nth by assumption. reflexivity.
      * assert (NC : Nchans u = length (c_freqs u)) by (unfold Nchans; rewrite W; reflexivity). destruct HC as (C1 & C2 & C3).
        rewrite !TL by lia. split; [|reflexivity]. f_equal. cbn [fst]. rewrite NC, <- C2. apply FX; [reflexivity|exact Hk|lia].
    + change (Njones u) with nj. intros k f a t Hk Hf. unfold entry. cbn [c_sol c_flags c_qual]. unfold jones_slowest.
      assert (E1 : ((k * Nchans u + f) mod Nchans u = f)%nat) by (rewrite Nat.add_comm, Nat.mod_add, Nat.mod_small; lia).
      assert (E2 : ((k * Nchans u + f) / Nchans u = k)%nat) by (rewrite Nat.div_add_l, Nat.div_small; lia). rewrite E1, E2. f_equal.
      destruct (c_qual u); cbn [option_map]; [|reflexivity]. now rewrite E1, E2.
Qed.

Lemma convert_total listed u : cal_ok u -> c_flex_jones u = None -> (0 < Njones u)%nat -> c_tqual u = None -> exists v, convert_to_flex_jones listed u = Ok v.
Proof.
  intros Hu FJ HJ TQ. unfold convert_to_flex_jones. rewrite FJ. unfold Njones in HJ. destruct (c_jones u) as [|p [|q l]] eqn:J; [cbn in HJ; lia|eauto|].
  cbv zeta. rewrite TQ. destruct (c_wide u) eqn:W; [cbn [bind]; eauto|].
  match goal with |- context [mapM ?g ?s] => assert (M : exists rows, mapM g s = Ok rows) end.
  { induction (seq 0 _) as [|k s IH]; [eexists; reflexivity|]. cbn [mapM].
    destruct (rename_total (c_spws u) (firstn (length (c_spws u)) (skipn (k * length (c_spws u)) (c_spws u ++ firstn (length (c_spws u) * (length (p :: q :: l) - 1)) (listed (free_windows (length (c_spws u) * length (p :: q :: l)) (c_spws u)))))) (c_flex u)) as [r Er].
    { destruct Hu as (_ & HC & _). rewrite W in HC. intros w Hw. apply HC, Hw. }
    rewrite Er. cbn [bind]. destruct IH as [rows E]. rewrite E. cbn [bind]. eauto. }
  destruct M as [rows E]. rewrite E. cbn [bind]. eauto.
Qed.
