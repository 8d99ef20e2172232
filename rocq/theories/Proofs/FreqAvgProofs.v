From Coq Require Import List ZArith QArith Qcanon Bool Arith Lia Sorted Permutation.
From Verif Require Import Lib.Py Lib.Np Lib.Cube Lib.QSum Model.FreqAvg Spec.FreqAvgSpec.
Import ListNotations.
Open Scope nat_scope.

Lemma chunks_length n r l : length (chunks n r l) = r.
Proof. revert l. induction r as [|r IH]; intros l; simpl; [reflexivity|]. rewrite IH. reflexivity. Qed.

Lemma chunks_each n r l : r * n <= length l -> forall b, In b (chunks n r l) -> length b = n.
Proof.
  revert l. induction r as [|r IH]; intros l H b Hb; simpl in *; [destruct Hb|].
  destruct Hb as [<-|Hb]; [apply firstn_length_le; lia|].
  apply (IH (skipn n l)); [rewrite skipn_length; lia | exact Hb].
Qed.

Lemma chunks_concat n r l : concat (chunks n r l) = firstn (r * n) l.
Proof.
  revert l. induction r as [|r IH]; intros l; simpl; [reflexivity|]. rewrite IH. symmetry.
  rewrite <- (firstn_skipn n l) at 1.
  destruct (Nat.le_gt_cases n (length l)) as [L|L].
  - rewrite firstn_app, firstn_firstn, firstn_length_le by exact L.
    replace (Nat.min (n + r * n) n) with n by lia. f_equal. f_equal. lia.
  - rewrite (firstn_all2 l), (skipn_all2 l) by lia. rewrite app_nil_r, firstn_nil, app_nil_r.
    apply firstn_all2. lia.
Qed.

(** The bins of a window, regular and ragged. *)
Definition all_bins n keep idx := regular_bins n idx ++ match ragged_bin n keep idx with None => [] | Some b => [b] end.

Lemma all_bins_ok n keep idx : n <> 0 -> is_binning n keep idx (all_bins n keep idx).
Proof.
  intros Hn. unfold all_bins, regular_bins, ragged_bin.
  pose proof (Nat.div_mod (length idx) n Hn) as DM. pose proof (Nat.mod_upper_bound (length idx) n Hn) as MB.
  set (q := length idx / n) in *. set (r := length idx mod n) in *. clearbody q r.
  assert (Lq : q * n <= length idx) by nia.
  pose proof (chunks_each n q idx Lq) as E. pose proof (chunks_concat n q idx) as C. pose proof (chunks_length n q idx) as Lc.
  assert (Ls : length (skipn (q * n) idx) = r) by (rewrite skipn_length; nia).
  assert (Eh : forall c, c < q -> length (nth c (chunks n q idx) []) = n).
  { intros c Hc. apply E. apply nth_In. lia. }
  unfold is_binning. destruct ((r =? 0) || negb keep) eqn:R.
  - rewrite app_nil_r. split; [intros b Hb; rewrite (E b Hb); lia|]. split; [intros c Hc; apply Eh; lia|].
    destruct keep.
    + rewrite C. apply firstn_all2. apply Nat.eqb_eq in R || (rewrite orb_false_r in R; apply Nat.eqb_eq in R). nia.
    + split; [exact E|]. exists (skipn (q * n) idx). rewrite C, firstn_skipn. split; [reflexivity | lia].
  - apply orb_false_iff in R. destruct R as [R K]. apply Nat.eqb_neq in R. destruct keep; [|discriminate K].
    split; [|split].
    + intros b Hb. apply in_app_iff in Hb. destruct Hb as [Hb|[<-|[]]]; [rewrite (E b Hb); lia|]. lia.
    + intros c Hc. rewrite app_length in Hc. simpl in Hc. rewrite app_nth1 by lia. apply Eh. lia.
    + rewrite concat_app, C. simpl. rewrite app_nil_r. apply firstn_skipn.
Qed.

Lemma final_flag_spec p flag bin i k :
  final_flag p flag bin i k = true <->
  if p then exists j, In j bin /\ flag i j k = true else forall j, In j bin -> flag i j k = true.
Proof. unfold final_flag. destruct p; [apply existsb_exists | apply forallb_forall]. Qed.

(** What one output channel should be. *)
Definition out_ok (summing p : bool) (o : favg) (w : Z) (bin : list nat) (x : outchan) : Prop :=
  oc_spw x = w /\ oc_freq x = qmean (map (fun j => nth j (fa_freq o) 0%Qc) bin) /\
  oc_width x = qsum (map (fun j => nth j (fa_width o) 0%Qc) bin) /\
  (forall e a, fa_eq o = Some e -> exists e', oc_eq x = Some e' /\ e' a = qmean (map (e a) bin)) /\
  (forall i k, i < fa_nblts o -> k < fa_npols o ->
     (oc_flag x i k = true <-> if p then exists j, In j bin /\ fa_flag o i j k = true
                               else forall j, In j bin -> fa_flag o i j k = true) /\
     exists used, counted o bin i k used /\
     let weight := qsum (map (fun j => fa_ns o i j k) used) in
     oc_ns x i k = (weight / qnat (length bin))%Qc /\
     if summing
     then fst (oc_data x i k) = qsum (map (fun j => fst (fa_data o i j k)) used) /\
          snd (oc_data x i k) = qsum (map (fun j => snd (fa_data o i j k)) used)
     else weight <> 0%Qc ->
          fst (oc_data x i k) = (qsum (map (fun j => fa_ns o i j k * fst (fa_data o i j k)) used) / weight)%Qc /\
          snd (oc_data x i k) = (qsum (map (fun j => fa_ns o i j k * snd (fa_data o i j k)) used) / weight)%Qc).

Lemma make_out_ok s p o w bin clear :
  (forall i k, i < fa_nblts o -> k < fa_npols o -> clear i k = forallb (fun j => fa_flag o i j k) bin) ->
  out_ok s p o w bin (make_out s p o w bin clear).
Proof.
  intros Hc. unfold out_ok, make_out. cbn [oc_spw oc_freq oc_width oc_eq oc_flag oc_data oc_ns].
  split; [reflexivity|]. split; [reflexivity|]. split; [reflexivity|].
  split; [intros e a ->; eexists; split; reflexivity|].
  intros i k Hi Hk. split; [apply final_flag_spec|].
  exists (unmasked (fa_flag o) (clear i k) bin i k). rewrite (Hc i k Hi Hk). split.
  - unfold counted, unmasked. destruct (forallb (fun j => fa_flag o i j k) bin) eqn:F.
    + clear F Hc. induction bin as [|x bin IH]; [reflexivity|]. simpl. rewrite andb_false_r. simpl. f_equal. exact IH.
    + apply filter_ext. intros j. rewrite andb_true_r. reflexivity.
  - cbn zeta. set (used := unmasked _ _ _ _ _). split; [reflexivity|].
    unfold avg_data. destruct s.
    + unfold csum. cbn [fst snd]. rewrite !map_map. split; reflexivity.
    + intros Hw. unfold cdiv, csum. destruct (Qc_eq_dec _ _) as [E|_]; [contradiction|]. cbn [fst snd].
      rewrite !map_map. split; reflexivity.
Qed.

Lemma Forall2_map_seq {A B} (R : A -> B -> Prop) (d : A) l (g : nat -> B) :
  (forall m, m < length l -> R (nth m l d) (g m)) -> Forall2 R l (map g (seq 0 (length l))).
Proof.
  revert g. induction l as [|a l IH]; intros g H; simpl; constructor.
  - apply (H 0). simpl. lia.
  - rewrite <- seq_shift, map_map. apply IH. intros m Hm. apply (H (S m)). simpl. lia.
Qed.

Definition no_flags (o : favg) (idx : list nat) : Prop :=
  forall i j k, i < fa_nblts o -> k < fa_npols o -> In j idx -> fa_flag o i j k = false.

Lemma regular_in n idx b j : n <> 0 -> In b (regular_bins n idx) -> In j b -> In j idx.
Proof.
  intros Hn Hb Hj. assert (In j (concat (regular_bins n idx))) as H by (apply in_concat; eauto).
  unfold regular_bins in H. rewrite chunks_concat in H.
  rewrite <- (firstn_skipn (length idx / n * n) idx). apply in_app_iff. left. exact H.
Qed.

Lemma regular_nonempty n idx b : n <> 0 -> In b (regular_bins n idx) -> b <> [].
Proof.
  intros Hn Hb E. apply chunks_each in Hb; [subst b; simpl in Hb; lia|].
  pose proof (Nat.div_mod (length idx) n Hn). nia.
Qed.

Lemma all_flag_final p flag bin i k : bin <> [] -> forallb (fun j => flag i j k) bin = true -> final_flag p flag bin i k = true.
Proof.
  intros Hb F. apply final_flag_spec. destruct p; [|rewrite forallb_forall in F; exact F].
  destruct bin as [|j bin]; [congruence|]. exists j. split; [left; reflexivity|]. simpl in F. apply andb_prop in F. apply F.
Qed.

Lemma no_flag_final p o bin i k : bin <> [] -> i < fa_nblts o -> k < fa_npols o -> no_flags o bin ->
  final_flag p (fa_flag o) bin i k = false /\ forallb (fun j => fa_flag o i j k) bin = false.
Proof.
  intros Hb Hi Hk N. assert (F : final_flag p (fa_flag o) bin i k = false).
  { destruct (final_flag p (fa_flag o) bin i k) eqn:E; [|reflexivity]. exfalso. apply final_flag_spec in E.
    destruct p.
    - destruct E as [j [Hj E]]. rewrite N in E by assumption. discriminate.
    - destruct bin as [|j bin]; [congruence|]. specialize (E j (or_introl eq_refl)).
      rewrite N in E by (try assumption; left; reflexivity). discriminate. }
  split; [exact F|]. destruct (forallb _ bin) eqn:E; [|reflexivity].
  apply (all_flag_final p) in E; [congruence | exact Hb].
Qed.

Lemma window_ok n s p keep o off spw :
  n <> 0 -> let idx := nonzero (Z.eqb spw) (fa_flex o) in
  off = 0 \/ no_flags o idx ->
  exists outs, average_window n s p keep o off spw = Ok outs /\ Forall2 (out_ok s p o spw) (all_bins n keep idx) outs.
Proof.
  intros Hn idx H. unfold average_window. fold idx. set (bins := regular_bins n idx).
  assert (NF : no_flags o idx -> forall c, c < length bins -> no_flags o (nth c bins [])).
  { intros N c Hc i j k Hi Hk Hj. apply N; try assumption.
    apply (regular_in n idx (nth c bins []) j Hn); [apply nth_In; exact Hc | exact Hj]. }
  assert (CF : clearing_fails p (fa_flag o) off bins (fa_nblts o) (fa_npols o) = false).
  { unfold clearing_fails. destruct (existsb _ _) eqn:E; [|reflexivity]. exfalso.
    apply existsb_exists in E. destruct E as [c [Hc E]]. apply in_seq in Hc.
    apply andb_prop in E. destruct E as [E1 E2]. apply Nat.leb_le in E1.
    destruct H as [H|H]; [lia|].
    apply existsb_exists in E2. destruct E2 as [i [Hi E2]]. apply existsb_exists in E2. destruct E2 as [k [Hk E2]].
    apply in_seq in Hi. apply in_seq in Hk.
    destruct (no_flag_final p o (nth c bins []) i k) as [F _]; try lia; [|apply NF; [exact H|lia]|congruence].
    apply (regular_nonempty n idx _ Hn). apply nth_In. unfold bins in *. lia. }
  rewrite CF. eexists. split; [reflexivity|]. unfold all_bins. apply Forall2_app.
  - apply (Forall2_map_seq _ []). intros m Hm. apply make_out_ok. intros i k Hi Hk. unfold cleared.
    assert (Bm : nth m bins [] <> []) by (apply (regular_nonempty n idx _ Hn); apply nth_In; exact Hm).
    destruct (forallb (fun j => fa_flag o i j k) (nth m bins [])) eqn:F; [|rewrite andb_false_r; reflexivity].
    destruct H as [->|H].
    + rewrite Nat.sub_0_r, (all_flag_final p _ _ _ _ Bm F). reflexivity.
    + destruct (no_flag_final p o (nth m bins []) i k Bm Hi Hk (NF H m Hm)) as [_ F']. congruence.
  - destruct (ragged_bin n keep idx) as [bin|] eqn:R; constructor; [|constructor].
    apply make_out_ok. intros i k Hi Hk.
    destruct (forallb (fun j => fa_flag o i j k) bin) eqn:F; [|rewrite andb_false_r; reflexivity].
    rewrite (all_flag_final p _ bin i k); [reflexivity| |exact F].
    unfold ragged_bin in R. destruct (_ || _) eqn:E in R; [discriminate|]. injection R as <-.
    apply orb_false_iff in E. destruct E as [E _]. apply Nat.eqb_neq in E. intros C.
    apply (f_equal (@length nat)) in C. rewrite skipn_length in C. simpl in C.
    pose proof (Nat.div_mod (length idx) n Hn). nia.
Qed.

Lemma windows_ok n s p keep o spws off :
  n <> 0 ->
  (forall w, In w (if off =? 0 then tl spws else spws) -> no_flags o (nonzero (Z.eqb w) (fa_flex o))) ->
  exists outs, average_windows n s p keep o off spws = Ok outs /\
  Forall2 (fun wb => out_ok s p o (fst wb) (snd wb))
    (concat (map (fun w => map (pair w) (all_bins n keep (nonzero (Z.eqb w) (fa_flex o)))) spws)) outs.
Proof.
  intros Hn. revert off. induction spws as [|w spws IH]; intros off H; cbn [average_windows].
  - exists []. split; [reflexivity | constructor].
  - destruct (window_ok n s p keep o off w Hn) as [here [E F]].
    { destruct (Nat.eqb_spec off 0) as [Eo|D]; [left; exact Eo|]. right. apply H. left. reflexivity. }
    rewrite E. cbn [bind]. destruct (IH (off + length here)) as [rest [E' F']].
    { intros v Hv. apply H. destruct (Nat.eqb_spec off 0); simpl.
      - destruct (off + length here =? 0); [|exact Hv]. destruct spws; [exact Hv | right; exact Hv].
      - right. destruct (Nat.eqb_spec (off + length here) 0); [lia|]. exact Hv. }
    rewrite E'. cbn [bind]. eexists. split; [reflexivity|]. simpl. apply Forall2_app; [|exact F'].
    clear -F. induction F; simpl; constructor; assumption.
Qed.

Lemma F2_length {A B} (R : A -> B -> Prop) l l' : Forall2 R l l' -> length l = length l'.
Proof. induction 1; simpl; congruence. Qed.

Lemma NoDup_append {A} (a b : list A) : NoDup a -> NoDup b -> (forall x, In x a -> ~ In x b) -> NoDup (a ++ b).
Proof.
  induction 1 as [|x a Hx Na IH]; intros Nb D; simpl; [exact Nb|]. constructor.
  - rewrite in_app_iff. intros [H|H]; [contradiction|]. exact (D x (or_introl eq_refl) H).
  - apply IH; [exact Nb|]. intros y Hy. apply D. right. exact Hy.
Qed.

Lemma Forall2_nth_error {A B} (R : A -> B -> Prop) (l : list A) (l' : list B) (d : B) c a :
  Forall2 R l l' -> nth_error l c = Some a -> R a (nth c l' d) /\ c < length l'.
Proof.
  intros F. revert c. induction F as [|x y l l' H F IH]; intros c E; [destruct c; discriminate|].
  destruct c as [|c]; simpl in *; [injection E as <-; split; [exact H | lia]|]. destruct (IH c E). split; [assumption | lia].
Qed.

Lemma window_channels_nonzero flex w : window_channels flex w (nonzero (Z.eqb w) flex).
Proof.
  split; [apply nonzero_sorted|]. intros j. rewrite (nonzero_spec 0%Z). rewrite Z.eqb_eq. intuition congruence.
Qed.

Lemma frequency_average_ok n s p respect keep o :
  n <> 0 -> let m := merge_windows respect o in
  (forall w, In w (tl (fa_spws m)) -> no_flags m (nonzero (Z.eqb w) (fa_flex m))) ->
  exists o', frequency_average n s p respect keep o = Ok o' /\ frequency_averaged n s p keep (fa_flex m) (fa_spws m) m o'.
Proof.
  intros Hn m H. unfold frequency_average. fold m. destruct (Nat.eqb_spec n 0); [contradiction|].
  destruct (windows_ok n s p keep m (fa_spws m) 0 Hn H) as [outs [E F]]. rewrite E. cbn [bind].
  eexists. split; [reflexivity|].
  exists (fun w => all_bins n keep (nonzero (Z.eqb w) (fa_flex m))). split.
  { intros w Hw. exists (nonzero (Z.eqb w) (fa_flex m)). split; [apply window_channels_nonzero | apply all_bins_ok; exact Hn]. }
  cbn zeta. cbn [fa_freq fa_width fa_flex fa_spws fa_nblts fa_npols]. rewrite !map_length.
  rewrite <- (F2_length _ _ _ F). repeat (split; [reflexivity|]).
  intros c w bin Hc. destruct (Forall2_nth_error _ _ _ out0 _ _ F Hc) as [[A1 [A2 [A3 [A4 A5]]]] L]. cbn [fst snd] in *.
  unfold averages. cbn [fa_freq fa_width fa_flex fa_data fa_flag fa_ns fa_eq].
  rewrite (nth_indep (map oc_spw outs) 0%Z (oc_spw out0)), (nth_indep (map oc_freq outs) 0%Qc (oc_freq out0)),
    (nth_indep (map oc_width outs) 0%Qc (oc_width out0)), !map_nth by (rewrite map_length; exact L).
  split; [exact A1|]. split; [exact A2|]. split; [exact A3|]. split; [|exact A5].
  intros e a Ee. rewrite Ee. destruct (A4 e a Ee) as [e' [Ee' Ea]]. eexists. split; [reflexivity|]. cbv beta. rewrite Ee'. exact Ea.
Qed.

(** Total channel width. *)
Lemma sum_over_windows flex (f : nat -> Qc) spws :
  NoDup spws -> (forall w, In w flex -> In w spws) ->
  qsum (map f (concat (map (fun w => nonzero (Z.eqb w) flex) spws))) = qsum (map f (seq 0 (length flex))).
Proof.
  intros N H. apply qsum_perm, Permutation_map, NoDup_Permutation.
  - clear H. induction N as [|w spws Hw N IH]; simpl; [constructor|]. apply NoDup_append; [apply nonzero_NoDup | exact IH |].
    intros j Hj Hj'. apply in_concat in Hj'. destruct Hj' as [l [Hl Hj']]. apply in_map_iff in Hl. destruct Hl as [v [<- Hv]].
    apply (nonzero_spec 0%Z) in Hj. apply (nonzero_spec 0%Z) in Hj'. destruct Hj as [_ Hj], Hj' as [_ Hj'].
    apply Z.eqb_eq in Hj, Hj'. congruence.
  - apply seq_NoDup.
  - intros j. rewrite in_seq. split.
    + intros Hj. apply in_concat in Hj. destruct Hj as [l [Hl Hj]]. apply in_map_iff in Hl. destruct Hl as [v [<- Hv]].
      apply nonzero_lt in Hj. lia.
    + intros [_ Hj]. apply in_concat. exists (nonzero (Z.eqb (nth j flex 0%Z)) flex). split.
      * apply in_map_iff. exists (nth j flex 0%Z). split; [reflexivity|]. apply H. apply nth_In. lia.
      * apply (nonzero_spec 0%Z). split; [lia | apply Z.eqb_refl].
Qed.

Lemma average_window_width n s p o off spw outs : n <> 0 ->
  average_window n s p true o off spw = Ok outs ->
  qsum (map oc_width outs) = qsum (map (fun j => nth j (fa_width o) 0%Qc) (nonzero (Z.eqb spw) (fa_flex o))).
Proof.
  intros Hn H. unfold average_window in H. set (idx := nonzero _ _) in *.
  destruct (clearing_fails _ _ _ _ _ _); [discriminate|]. injection H as <-.
  destruct (all_bins_ok n true idx Hn) as [_ [_ C]]. transitivity (qsum (map (fun j => nth j (fa_width o) 0%Qc) (concat (all_bins n true idx)))); [|rewrite C; reflexivity].
  unfold all_bins.
  rewrite concat_app, !map_app, !qsum_app. f_equal.
  - rewrite map_map. cbn [make_out oc_width]. set (bins := regular_bins n idx).
    rewrite concat_map, qsum_concat, map_map.
    rewrite <- (map_map (fun m => nth m bins []) (fun b => qsum (take 0%Qc (fa_width o) b))).
    fold (take [] bins (seq 0 (length bins))). rewrite take_seq. reflexivity.
  - destruct (ragged_bin n true idx); [|reflexivity]. simpl. rewrite app_nil_r. unfold take. simpl.
    rewrite Qcplus_0_r. reflexivity.
Qed.

Lemma average_windows_width n s p o spws : n <> 0 -> forall off outs,
  average_windows n s p true o off spws = Ok outs ->
  qsum (map oc_width outs) = qsum (map (fun j => nth j (fa_width o) 0%Qc) (concat (map (fun w => nonzero (Z.eqb w) (fa_flex o)) spws))).
Proof.
  intros Hn. induction spws as [|w spws IH]; intros off outs H; cbn [average_windows] in H.
  - injection H as <-. reflexivity.
  - apply bind_Ok in H. destruct H as [here [E1 H]]. apply bind_Ok in H. destruct H as [rest [E2 H]]. injection H as <-.
    simpl. rewrite !map_app, !qsum_app. rewrite (average_window_width _ _ _ _ _ _ _ Hn E1), (IH _ _ E2). reflexivity.
Qed.

Lemma merge_favg_ok respect o : favg_ok o -> favg_ok (merge_windows respect o).
Proof.
  intros [A [B [C D]]]. unfold merge_windows. destruct (_ && _); [|repeat split; assumption].
  unfold favg_ok. simpl. split; [exact A|]. split; [apply repeat_length|]. split; [repeat constructor; simpl; tauto|].
  intros w Hw. apply repeat_spec in Hw. left. congruence.
Qed.

Lemma width_conserved n s p respect o o' : favg_ok o ->
  frequency_average n s p respect true o = Ok o' -> qsum (fa_width o') = qsum (fa_width o).
Proof.
  intros K H. unfold frequency_average in H. destruct (Nat.eqb_spec n 0); [discriminate|].
  apply bind_Ok in H. destruct H as [outs [E H]]. injection H as <-. cbn [fa_width].
  pose proof (merge_favg_ok respect o K) as [A [B [C D]]].
  rewrite (average_windows_width _ _ _ _ _ n0 _ _ E). rewrite sum_over_windows by assumption.
  replace (fa_width (merge_windows respect o)) with (fa_width o) in * by (unfold merge_windows; destruct (_ && _); reflexivity).
  rewrite B, <- A. f_equal. fold (take 0%Qc (fa_width o) (seq 0 (length (fa_width o)))). apply take_seq.
Qed.
