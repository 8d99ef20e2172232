(** Lemmas about reordering the polarization and baseline-time axes. *)
From Coq Require Import List ZArith Bool Arith Lia Sorted Permutation ZifyBool ZifyNat.
From Verif Require Import Lib.Py Lib.Np Lib.Sorting Lib.Cube Spec.BltSpec Spec.UVDataSpec Spec.PolSpec
  Model.Pol Model.BltAxis Model.UVData Model.Reorder Proofs.BltProofs Proofs.PolProofs Proofs.Samples.
Import ListNotations.
Open Scope Z_scope.

(** ** Polarizations *)
Lemma take_pols_copied idx u k : (k < length idx)%nat -> pol_copied u (nth k idx 0%nat) (take_pols idx u) k.
Proof.
  intros H. unfold pol_copied. split; [|intros; repeat split; reflexivity].
  change (polarization_array (take_pols idx u)) with (take 0 (polarization_array u) idx).
  apply nth_take. exact H.
Qed.

Lemma take_pols_rest idx u : same_blt_axis u (take_pols idx u) /\ same_freq_axis u (take_pols idx u).
Proof. repeat split. Qed.

Lemma reorder_pols_named o u u' : reorder_pols (PolOrder o) u = Ok u' ->
  exists sigma, Permutation sigma (seq 0 (Npols u)) /\ Npols u' = Npols u /\
   (forall k, (k < Npols u)%nat -> pol_copied u (nth k sigma 0%nat) u' k) /\
   same_blt_axis u u' /\ same_freq_axis u u' /\
   match o with
   | AIPS => StronglySorted (fun a b => Z.abs a <= Z.abs b) (polarization_array u')
   | CASA => Forall legal_pol (polarization_array u) -> StronglySorted (fun a b => casa_rank a <= casa_rank b) (polarization_array u')
   | OtherOrder => False
   end.
Proof.
  intros H. unfold reorder_pols in H. apply bind_Ok in H as (idx & Hidx & H). injection H as <-.
  assert (Hp : Permutation idx (seq 0 (Npols u))).
  { destruct o.
    - destruct (aips_order (polarization_array u)) as (i & E & Hp & _). rewrite Hidx in E. injection E as <-. exact Hp.
    - unfold determine_pol_order in Hidx. apply bind_Ok in Hidx as (inds & Hi & E). injection E as <-.
      unfold Npols. rewrite <- (mapM_Ok_length _ _ _ Hi). apply argsortZ_perm.
    - discriminate. }
  assert (Hl : length idx = Npols u) by (rewrite (Permutation_length Hp); apply seq_length).
  exists idx. split; [exact Hp|]. split; [change (length (take 0 (polarization_array u) idx) = Npols u); rewrite take_length; exact Hl|].
  split; [intros k Hk; apply take_pols_copied; lia|]. split; [apply take_pols_rest|]. split; [apply take_pols_rest|].
  change (polarization_array (take_pols idx u)) with (take 0 (polarization_array u) idx).
  destruct o.
  - destruct (aips_order (polarization_array u)) as (i & E & _ & Hs). rewrite Hidx in E. injection E as <-. exact Hs.
  - intros Hl'. destruct (casa_order_sorted (polarization_array u) Hl') as (i & E & _ & Hs). rewrite Hidx in E. injection E as <-. exact Hs.
  - discriminate.
Qed.

Lemma reorder_pols_succeeds o u : o <> OtherOrder -> Forall legal_pol (polarization_array u) ->
  exists u', reorder_pols (PolOrder o) u = Ok u'.
Proof.
  intros Ho Hl. unfold reorder_pols. destruct o; [| |congruence].
  - eexists; reflexivity.
  - destruct (casa_order_sorted (polarization_array u) Hl) as (i & E & _). rewrite E. eexists; reflexivity.
Qed.

Lemma reorder_pols_index idx u u' : reorder_pols (PolIndex idx) u = Ok u' ->
  length idx = Npols u /\ Npols u' = Npols u /\
  Forall (fun i => 0 <= i < Z.of_nat (Npols u)) idx /\
  (forall k, (k < Npols u)%nat -> pol_copied u (Z.to_nat (nth k idx 0)) u' k) /\
  same_blt_axis u u' /\ same_freq_axis u u'.
Proof.
  unfold reorder_pols. intros H.
  match type of H with (if ?c then _ else _) = _ => destruct c eqn:E; [discriminate|] end.
  injection H as <-. apply orb_false_iff in E as [E E3]. apply orb_false_iff in E as [E1 E2].
  assert (Hl : length idx = Npols u) by lia.
  assert (Hf : Forall (fun i => 0 <= i < Z.of_nat (Npols u)) idx).
  { apply Forall_forall. intros x Hx. apply not_true_iff_false in E3.
    destruct (x <? 0) eqn:A; [exfalso; apply E3, existsb_exists; exists x; split; [exact Hx|lia]|].
    destruct (Z.of_nat (Npols u) <=? x) eqn:B; [exfalso; apply E3, existsb_exists; exists x; split; [exact Hx|lia]|]. lia. }
  split; [exact Hl|]. split; [change (length (take 0 (polarization_array u) (map Z.to_nat idx)) = Npols u); rewrite take_length, map_length; exact Hl|].
  split; [exact Hf|]. split; [|apply take_pols_rest].
  intros k Hk. replace (Z.to_nat (nth k idx 0)) with (nth k (map Z.to_nat idx) 0%nat).
  - apply take_pols_copied. rewrite map_length. lia.
  - change 0%nat with (Z.to_nat 0) at 1. apply map_nth.
Qed.

(** ** Blts *)
Lemma take_blts_copied idx u i : (i < length idx)%nat -> row_copied u (nth i idx 0%nat) (take_blts idx u) i.
Proof.
  intros H. unfold row_copied.
  repeat (split; [match goal with |- nth i (?f (take_blts idx u)) ?d = nth _ (?f u) ?d =>
     change (f (take_blts idx u)) with (take d (f u) idx) end; apply nth_take; exact H|]).
  intros; repeat split; reflexivity.
Qed.

Lemma set_rect_fields u u' : set_rectangularity true u = Ok u' ->
  same_blt_axis u u' /\ same_freq_axis u u' /\ polarization_array u' = polarization_array u /\
  data_array u' = data_array u /\ flag_array u' = flag_array u /\ nsample_array u' = nsample_array u /\
  blt_order u' = blt_order u /\ Nbls u' = Nbls u /\ Ntimes u' = Ntimes u /\ Nants_telescope u' = Nants_telescope u /\
  exists rect fast, blts_are_rectangular u' = Some rect /\ time_axis_faster_than_bls u' = fast /\
    determine_rectangularity (time_array u) (baseline_array u) (Nbls u) (Ntimes u) (blt_order u) = Ok (rect, fast).
Proof.
  unfold set_rectangularity. intros H.
  assert (H' : exists a b, determine_rectangularity (time_array u) (baseline_array u) (Nbls u) (Ntimes u) (blt_order u) = Ok (a, b)
     /\ u' = set_time_axis_faster_than_bls b (set_blts_are_rectangular (Some a) u)).
  { destruct (blts_are_rectangular u); apply bind_Ok in H as ([ra rb] & H1 & H2); injection H2 as <-; eauto. }
  destruct H' as (a & b & H1 & ->). repeat split. exists a, b. auto.
Qed.

Definition key3 (k : list Z * list Z * list Z) (i : nat) : Z * Z * Z :=
  let '(k1, k2, k3) := k in (nth i k1 0, nth i k2 0, nth i k3 0).
Definition gleb (k : list Z * list Z * list Z) (i j : nat) : bool := lex3_leb (key3 k i) (key3 k j).

Lemma lex3_total x y : lex3_leb x y = true \/ lex3_leb y x = true.
Proof. destruct x as [[a b] c], y as [[a' b'] c']. unfold lex3_leb. lia. Qed.
Lemma lex3_trans x y z : lex3_leb x y = true -> lex3_leb y z = true -> lex3_leb x z = true.
Proof. destruct x as [[a b] c], y as [[a' b'] c'], z as [[a'' b''] c'']. unfold lex3_leb. lia. Qed.

Lemma lexsort_part k1 k2 k3 inds :
  take 0%nat inds (lexsort3 (take 0 k3 inds) (take 0 k2 inds) (take 0 k1 inds)) = isort (gleb (k1, k2, k3)) inds.
Proof.
  unfold lexsort3, argsort_by. rewrite take_length.
  rewrite (isort_ext _ (fun p q => gleb (k1, k2, k3) (nth p inds 0%nat) (nth q inds 0%nat))).
  - unfold take. rewrite (isort_map (fun p => nth p inds 0%nat)). f_equal. apply (take_seq 0%nat inds).
  - intros x y Hx Hy. apply in_seq in Hx, Hy. unfold gleb, key3. rewrite !nth_take by lia. reflexivity.
Qed.

Lemma order_index_eq k m af u :
  order_index k m af u = concat (map (isort (gleb (sort_keys k m u))) (autos_split af u)).
Proof.
  unfold order_index. destruct (sort_keys k m u) as [[k1 k2] k3]. f_equal. apply map_ext. intros. apply lexsort_part.
Qed.

Lemma nonzero_split_perm {A} (f : A -> bool) l :
  Permutation (nonzero f l ++ nonzero (fun x => negb (f x)) l) (seq 0 (length l)).
Proof.
  unfold nonzero. generalize 0%nat as n. induction l as [|x l IH]; intros n; simpl; [constructor|].
  destruct (f x); simpl.
  - constructor. apply IH.
  - rewrite <- Permutation_middle. constructor. apply IH.
Qed.

Lemma autos_split_perm af u : blt_shaped u -> Permutation (concat (autos_split af u)) (seq 0 (Nblts u)).
Proof.
  intros (_ & H1 & H2 & _). unfold autos_split. destruct af; simpl; rewrite app_nil_r; [|reflexivity].
  replace (Nblts u) with (length (combine (ant_1_array u) (ant_2_array u))).
  - apply (nonzero_split_perm (fun p => fst p =? snd p)).
  - rewrite combine_length. unfold Nblts. lia.
Qed.

Lemma concat_isort_perm leb L : Permutation (concat (map (isort leb) L)) (concat L : list nat).
Proof.
  induction L as [|l L IH]; simpl; [constructor|]. apply Permutation_app; [|exact IH]. symmetry. apply isort_perm.
Qed.

Lemma order_index_perm k m af u : blt_shaped u -> Permutation (order_index k m af u) (seq 0 (Nblts u)).
Proof. intros H. rewrite order_index_eq, concat_isort_perm. apply autos_split_perm, H. Qed.

(** What the sort keys mean. *)
Lemma minor_keys k minor m u i j : minor_of k minor = Ok m -> gleb (sort_keys k m u) i j = true ->
  in_order (match m with None => [k] | Some m => [k; m] end) u i j.
Proof.
  intros Hm. unfold gleb, key3, lex3_leb.
  destruct k; destruct minor as [[]|]; cbn in Hm; try discriminate; injection Hm as <-; cbn [sort_keys in_order axis_value]; lia.
Qed.

Lemma auto_combine u i : blt_shaped u -> (i < Nblts u)%nat ->
  (let p := nth i (combine (ant_1_array u) (ant_2_array u)) (0, 0) in fst p =? snd p) = true <-> is_auto u i.
Proof.
  intros (_ & H1 & H2 & _) Hi. rewrite combine_nth by lia. simpl. unfold is_auto. lia.
Qed.

(** The sequence of source rows is sorted. *)
Lemma order_index_sorted k m (af : bool) u : blt_shaped u ->
  StronglySorted (fun i j : nat => if af then (is_auto u i /\ ~ is_auto u j) \/ ((is_auto u i <-> is_auto u j) /\ gleb (sort_keys k m u) i j = true)
                             else gleb (sort_keys k m u) i j = true) (order_index k m af u).
Proof.
  intros Hsh. rewrite order_index_eq. set (g := gleb (sort_keys k m u)).
  assert (S : forall l, StronglySorted (fun i j => g i j = true) (isort g l)).
  { intros l. apply isort_sorted; unfold g, gleb; intros; [apply lex3_total|eapply lex3_trans; eassumption]. }
  unfold autos_split. destruct af; simpl; rewrite app_nil_r; [|apply S].
  assert (Hauto : forall i, In i (isort g (nonzero (fun p => fst p =? snd p) (combine (ant_1_array u) (ant_2_array u)))) -> is_auto u i).
  { intros i Hi. apply (proj1 (isort_In _ _ _)) in Hi. pose proof Hi as Hlt. apply nonzero_lt in Hlt.
    apply (nonzero_spec (0, 0)) in Hi. destruct Hi as [_ Hi].
    apply (auto_combine u i Hsh); [|exact Hi]. destruct Hsh as (_ & H1 & H2 & _). rewrite combine_length in Hlt. unfold Nblts. lia. }
  assert (Hcross : forall i, In i (isort g (nonzero (fun p => negb (fst p =? snd p)) (combine (ant_1_array u) (ant_2_array u)))) -> ~ is_auto u i).
  { intros i Hi. apply (proj1 (isort_In _ _ _)) in Hi. pose proof Hi as Hlt. apply nonzero_lt in Hlt.
    apply (nonzero_spec (0, 0)) in Hi. destruct Hi as [_ Hi]. intros Ha.
    apply (auto_combine u i Hsh) in Ha; [cbv zeta in Ha; rewrite Ha in Hi; discriminate|].
    destruct Hsh as (_ & H1 & H2 & _). rewrite combine_length in Hlt. unfold Nblts. lia. }
  apply StronglySorted_app. split; [|split].
  - eapply StronglySorted_impl; [|apply S]. intros x y Hx Hy Hg. right. split; [|exact Hg]. pose proof (Hauto x Hx). pose proof (Hauto y Hy). tauto.
  - eapply StronglySorted_impl; [|apply S]. intros x y Hx Hy Hg. right. split; [|exact Hg]. pose proof (Hcross x Hx). pose proof (Hcross y Hy). tauto.
  - intros x y Hx Hy. left. auto.
Qed.

Lemma take_blts_axis k idx u i : (i < length idx)%nat ->
  axis_value k (take_blts idx u) i = axis_value k u (nth i idx 0%nat).
Proof.
  intros H. destruct (take_blts_copied idx u i H) as (H1 & H2 & H3 & H4 & H5 & H6 & _).
  destruct k; simpl; assumption.
Qed.

Lemma in_order_take ks idx u i j : (i < length idx)%nat -> (j < length idx)%nat ->
  (in_order ks (take_blts idx u) i j <-> in_order ks u (nth i idx 0%nat) (nth j idx 0%nat)).
Proof.
  intros Hi Hj. induction ks as [|k ks IH]; simpl; [tauto|].
  rewrite !take_blts_axis by assumption. rewrite IH. tauto.
Qed.

Lemma is_auto_take idx u i : (i < length idx)%nat -> (is_auto (take_blts idx u) i <-> is_auto u (nth i idx 0%nat)).
Proof.
  intros Hi. unfold is_auto. pose proof (take_blts_axis KAnt1 idx u i Hi) as E1. pose proof (take_blts_axis KAnt2 idx u i Hi) as E2.
  cbn [axis_value] in E1, E2. rewrite E1, E2. tauto.
Qed.

Lemma in_order_fields ks u u' i j : same_blt_axis u u' -> (in_order ks u' i j <-> in_order ks u i j).
Proof.
  intros (H1 & H2 & H3 & H4 & H5 & H6 & _). induction ks as [|k ks IH]; simpl; [tauto|].
  assert (forall i, axis_value k u' i = axis_value k u i) as E by (intros; destruct k; simpl; congruence).
  rewrite !E, IH. tauto.
Qed.

Lemma reorder_named_unfold k minor af u u' :
  reorder_blts (BltKey k) minor af None u = Ok u' ->
  exists m, minor_of k minor = Ok m /\
  let ks := match m with None => [k] | Some m => [k; m] end in
  let v := set_blt_order (Some ks) u in
  set_rectangularity true (take_blts (order_index k m af v) v) = Ok u'.
Proof.
  unfold reorder_blts. intros H. apply bind_Ok in H as (m & Hm & H). cbn [bind] in H. exists m. auto.
Qed.

Lemma set_order_sort k m o u : sort_keys k m (set_blt_order o u) = sort_keys k m u.
Proof. destruct k; destruct m as [[]|]; reflexivity. Qed.

Lemma row_copied_same u u' v i i' : same_blt_axis u u' -> data_array u' = data_array u -> flag_array u' = flag_array u ->
  nsample_array u' = nsample_array u -> row_copied v i u i' -> row_copied v i u' i'.
Proof.
  intros (A1 & A2 & A3 & A4 & A5 & A6 & A7 & A8 & A9 & A10 & A11) B1 B2 B3 H. unfold row_copied in *.
  rewrite A1, A2, A3, A4, A5, A6, A7, A8, A9, A10, A11, B1, B2, B3. exact H.
Qed.

Lemma reorder_named k minor (af : bool) u u' : blt_shaped u ->
  reorder_blts (BltKey k) minor af None u = Ok u' ->
  exists m sigma, minor_of k minor = Ok m /\
  let ks := match m with None => [k] | Some m => [k; m] end in
  blt_order u' = Some ks /\
  Permutation sigma (seq 0 (Nblts u)) /\ Nblts u' = Nblts u /\ blt_shaped u' /\
  (forall i, (i < Nblts u)%nat -> row_copied u (nth i sigma 0%nat) u' i) /\
  polarization_array u' = polarization_array u /\ same_freq_axis u u' /\
  axis_sorted af ks u' /\
  StronglySorted (fun i j : nat => if af then (is_auto u i /\ ~ is_auto u j) \/ ((is_auto u i <-> is_auto u j) /\ gleb (sort_keys k m u) i j = true)
                             else gleb (sort_keys k m u) i j = true) sigma.
Proof.
  intros Hsh H. destruct (reorder_named_unfold _ _ _ _ _ H) as (m & Hm & H'). cbv zeta in H'.
  set (ks := match m with None => [k] | Some m => [k; m] end) in *.
  set (v := set_blt_order (Some ks) u) in *. set (sg := order_index k m af v) in *.
  assert (Hshv : blt_shaped v) by exact Hsh.
  destruct (set_rect_fields _ _ H') as (F1 & F2 & F3 & F4 & F5 & F6 & F7 & F8 & F9 & F10 & _).
  pose proof (order_index_perm k m af v Hshv) as Hp. fold sg in Hp. change (Nblts v) with (Nblts u) in Hp.
  assert (Hl : length sg = Nblts u) by (rewrite (Permutation_length Hp); apply seq_length).
  pose proof (order_index_sorted k m af v Hshv) as Hs. fold sg in Hs. unfold v in Hs at 5 6. rewrite !set_order_sort in Hs.
  exists m, sg. split; [exact Hm|]. cbv zeta. fold ks. split; [exact F7|]. split; [exact Hp|].
  assert (HN : Nblts u' = Nblts u).
  { unfold Nblts at 1. destruct F1 as (F1 & _). rewrite F1. change (length (take 0 (time_array v) sg) = Nblts u). rewrite take_length. exact Hl. }
  split; [exact HN|]. split.
  { destruct F1 as (A1 & A2 & A3 & A4 & A5 & A6 & A7 & A8 & A9 & A10 & A11). unfold blt_shaped.
    rewrite A1, A2, A3, A4, A5, A6, A7, A8, A9, A10, A11.
    repeat split; unfold take_blts; cbn; rewrite ?take_length; reflexivity. }
  split. { intros i Hi. eapply row_copied_same; [exact F1|exact F4|exact F5|exact F6|].
           change (row_copied v (nth i sg 0%nat) (take_blts sg v) i). apply take_blts_copied. lia. }
  split; [exact F3|]. split; [exact F2|]. split; [|exact Hs].
  intros i j [Hij Hj]. change (length (time_array u')) with (Nblts u') in Hj. rewrite HN in Hj.
  pose proof (proj1 (StronglySorted_nth _ 0%nat sg) Hs i j) as Hg. cbv beta in Hg. specialize (Hg ltac:(lia) ltac:(lia)).
  assert (Ha : forall i, (i < Nblts u)%nat -> (is_auto u' i <-> is_auto u (nth i sg 0%nat))).
  { intros i' Hi'. destruct F1 as (A1 & A2 & A3 & A4 & _). unfold is_auto at 1. rewrite A3, A4.
    apply (is_auto_take sg v i'). lia. }
  assert (Hio : in_order ks u' i j <-> in_order ks v (nth i sg 0%nat) (nth j sg 0%nat)).
  { rewrite (in_order_fields ks (take_blts sg v) u' i j F1). apply in_order_take; lia. }
  assert (Ho : gleb (sort_keys k m u) (nth i sg 0%nat) (nth j sg 0%nat) = true -> in_order ks v (nth i sg 0%nat) (nth j sg 0%nat)).
  { intros G. apply (minor_keys k minor m v); [exact Hm|]. unfold v. rewrite set_order_sort. exact G. }
  pose proof (Ha i ltac:(lia)) as Hai. pose proof (Ha j ltac:(lia)) as Haj.
  change (is_auto v) with (is_auto u) in Hg. destruct af.
  - destruct Hg as [Hg|[Hg1 Hg2]]; [left; tauto|right; split; [tauto|apply Hio; auto]].
  - apply Hio; auto.
Qed.

(** ** Applying the same named order twice *)
Lemma where_from_seq {A} (f : A -> bool) l n : (forall x, In x l -> f x = true) -> where_from n f l = seq n (length l).
Proof.
  revert n; induction l as [|x l IH]; intros n H; simpl; [reflexivity|].
  rewrite (H x (or_introl eq_refl)). f_equal. apply IH. intros; apply H; right; assumption.
Qed.
Lemma where_from_none {A} (f : A -> bool) l n : (forall x, In x l -> f x = false) -> where_from n f l = [].
Proof.
  revert n; induction l as [|x l IH]; intros n H; simpl; [reflexivity|].
  rewrite (H x (or_introl eq_refl)). apply IH. intros; apply H; right; assumption.
Qed.

(** If all members of a class precede all others, the two index lists are intervals. *)
Lemma nonzero_prefix {A} (d : A) (f : A -> bool) l n :
  (forall i j, (i < j < length l)%nat -> f (nth j l d) = true -> f (nth i l d) = true) ->
  exists a, (a <= length l)%nat /\ where_from n f l = seq n a /\ where_from n (fun x => negb (f x)) l = seq (n + a) (length l - a).
Proof.
  revert n; induction l as [|x l IH]; intros n H.
  - exists 0%nat. simpl. repeat split; lia.
  - destruct (f x) eqn:E.
    + destruct (IH (S n)) as (a & Ha & H1 & H2).
      { intros i j Hij Hf. apply (H (S i) (S j)); [simpl; lia|exact Hf]. }
      exists (S a). simpl. rewrite E, H1. simpl. split; [lia|]. split; [reflexivity|]. rewrite H2. f_equal. lia.
    + assert (Hall : forall y, In y l -> f y = false).
      { intros y Hy. destruct (In_nth l y d Hy) as (j & Hj & <-). destruct (f (nth j l d)) eqn:E2; [|reflexivity].
        rewrite <- E. symmetry. apply (H 0%nat (S j)); [simpl; lia|exact E2]. }
      exists 0%nat. split; [lia|]. cbn [where_from]. rewrite E, (where_from_none f) by exact Hall. split; [reflexivity|].
      simpl. rewrite where_from_seq by (intros y Hy; rewrite (Hall y Hy); reflexivity). rewrite Nat.add_0_r. reflexivity.
Qed.

Lemma order_index_sorted_id k m (af : bool) v : blt_shaped v ->
  (forall i j, (i < j < Nblts v)%nat -> if af then (is_auto v i /\ ~ is_auto v j) \/ ((is_auto v i <-> is_auto v j) /\ gleb (sort_keys k m v) i j = true)
      else gleb (sort_keys k m v) i j = true) ->
  order_index k m af v = seq 0 (Nblts v).
Proof.
  intros Hsh Hs. rewrite order_index_eq. set (g := gleb (sort_keys k m v)) in *.
  assert (Sid : forall a n, (forall i j, (a <= i < j)%nat -> (j < a + n)%nat -> g i j = true) -> isort g (seq a n) = seq a n).
  { intros a n Hg. apply isort_sorted_id.
    revert a Hg; induction n as [|n IH]; intros a Hg; simpl; constructor.
    - apply IH. intros; apply Hg; lia.
    - apply Forall_forall. intros j Hj. apply in_seq in Hj. apply Hg; lia. }
  unfold autos_split. destruct af.
  - set (l := combine (ant_1_array v) (ant_2_array v)).
    assert (Hll : length l = Nblts v) by (unfold l; rewrite combine_length; destruct Hsh as (_ & H1 & H2 & _); unfold Nblts; lia).
    assert (Hau : forall i, (i < Nblts v)%nat -> (let p := nth i l (0, 0) in fst p =? snd p) = true <-> is_auto v i) by (intros; apply auto_combine; assumption).
    destruct (nonzero_prefix (0, 0) (fun p => fst p =? snd p) l 0) as (a & Ha & N1 & N2).
    { intros i j Hij Hf. cbv beta in *. rewrite Hll in Hij. apply (Hau j) in Hf; [|lia]. apply (Hau i); [lia|].
      destruct (Hs i j Hij) as [[? ?]|[? ?]]; tauto. }
    unfold nonzero. cbn [map concat]. rewrite N1, N2, app_nil_r, Nat.add_0_l.
    assert (Hlow : forall i, (i < a)%nat -> is_auto v i).
    { intros i Hi. apply (Hau i); [lia|]. assert (Hin : In i (nonzero (fun p => fst p =? snd p) l)) by (unfold nonzero; rewrite N1; apply in_seq; lia).
      apply (nonzero_spec (0,0)) in Hin. tauto. }
    assert (Hhigh : forall i, (a <= i < Nblts v)%nat -> ~ is_auto v i).
    { intros i Hi Hc. apply (Hau i) in Hc; [|lia].
      assert (Hin : In i (nonzero (fun p => negb (fst p =? snd p)) l)) by (unfold nonzero; rewrite N2; apply in_seq; lia).
      apply (nonzero_spec (0,0)) in Hin. destruct Hin as [_ Hin]. cbv zeta in Hc. rewrite Hc in Hin. discriminate. }
    rewrite !Sid.
    + rewrite Hll. change (seq a (Nblts v - a)) with (seq (0 + a) (Nblts v - a)). rewrite <- seq_app. f_equal. lia.
    + intros i j Hi Hj. destruct (Hs i j ltac:(lia)) as [[Hc1 Hc2]|[_ Hg]]; [|exact Hg]. exfalso. apply (Hhigh i); [lia|exact Hc1].
    + intros i j Hi Hj. destruct (Hs i j ltac:(lia)) as [[Hc1 Hc2]|[_ Hg]]; [|exact Hg]. exfalso. apply Hc2, Hlow. lia.
  - simpl. rewrite app_nil_r. apply Sid. intros i j Hi Hj. apply Hs. lia.
Qed.

Lemma gleb_moved k m u u' i j i0 j0 : row_copied u i0 u' i -> row_copied u j0 u' j ->
  gleb (sort_keys k m u') i j = gleb (sort_keys k m u) i0 j0.
Proof.
  intros (H1 & H2 & H3 & H4 & H5 & H6 & _) (G1 & G2 & G3 & G4 & G5 & G6 & _). unfold gleb, key3.
  destruct k; destruct m as [[]|]; cbn [sort_keys]; congruence.
Qed.

Lemma reorder_twice k minor af u u1 u2 : blt_shaped u ->
  reorder_blts (BltKey k) minor af None u = Ok u1 ->
  reorder_blts (BltKey k) minor af None u1 = Ok u2 ->
  same_blt_axis u1 u2 /\ (forall i, (i < Nblts u)%nat -> row_copied u1 i u2 i) /\
  polarization_array u2 = polarization_array u1 /\ same_freq_axis u1 u2 /\ blt_order u2 = blt_order u1.
Proof.
  intros Hsh H1 H2.
  destruct (reorder_named _ _ _ _ _ Hsh H1) as (m & sg & Hm & R1 & R2 & R3 & R4 & R5 & R6 & R7 & R8 & R9).
  destruct (reorder_named_unfold _ _ _ _ _ H2) as (m' & Hm' & H'). rewrite Hm in Hm'. injection Hm' as <-. cbv zeta in H'.
  set (ks := match m with None => [k] | Some m => [k; m] end) in *. set (v := set_blt_order (Some ks) u1) in *.
  assert (Hshv : blt_shaped v) by exact R4.
  assert (Hl : length sg = Nblts u) by (rewrite (Permutation_length R2); apply seq_length).
  assert (E : order_index k m af v = seq 0 (Nblts v)).
  { apply order_index_sorted_id; [exact Hshv|]. intros i j Hij. change (Nblts v) with (Nblts u1) in Hij. rewrite R3 in Hij.
    unfold v. rewrite set_order_sort.
    pose proof (R5 i ltac:(lia)) as Ci. pose proof (R5 j ltac:(lia)) as Cj.
    rewrite (gleb_moved k m u u1 i j _ _ Ci Cj).
    pose proof (proj1 (StronglySorted_nth _ 0%nat sg) R9 i j ltac:(lia) ltac:(lia)) as G. cbv beta in G.
    assert (Ai : is_auto (set_blt_order (Some ks) u1) i <-> is_auto u (nth i sg 0%nat)).
    { unfold is_auto. destruct Ci as (_ & _ & C3 & C4 & _). cbn. rewrite C3, C4. tauto. }
    assert (Aj : is_auto (set_blt_order (Some ks) u1) j <-> is_auto u (nth j sg 0%nat)).
    { unfold is_auto. destruct Cj as (_ & _ & C3 & C4 & _). cbn. rewrite C3, C4. tauto. }
    destruct af; [rewrite Ai, Aj; exact G|exact G]. }
  rewrite E in H'.
  destruct (set_rect_fields _ _ H') as (F1 & F2 & F3 & F4 & F5 & F6 & F7 & _).
  change (Nblts v) with (Nblts u1) in *.
  assert (T : forall l : list Z, length l = Nblts u1 -> take 0 l (seq 0 (Nblts u1)) = l) by (intros l <-; apply take_seq).
  assert (T' : forall l : list (Z*Z*Z), length l = Nblts u1 -> take (0,0,0) l (seq 0 (Nblts u1)) = l) by (intros l <-; apply take_seq).
  assert (S : same_blt_axis u1 (take_blts (seq 0 (Nblts u1)) v)).
  { destruct R4 as (L1 & L2 & L3 & L4 & L5 & L6 & L7 & L8 & L9 & L10).
    unfold same_blt_axis. unfold take_blts, v. cbn. rewrite !T, T' by first [reflexivity|assumption]. repeat split. }
  split.
  { destruct F1 as (A1 & A2 & A3 & A4 & A5 & A6 & A7 & A8 & A9 & A10 & A11).
    destruct S as (B1 & B2 & B3 & B4 & B5 & B6 & B7 & B8 & B9 & B10 & B11). unfold same_blt_axis.
    repeat split; congruence. }
  split. { intros i Hi. eapply row_copied_same; [exact F1|exact F4|exact F5|exact F6|].
    pose proof (take_blts_copied (seq 0 (Nblts u1)) v i) as C. rewrite seq_length, seq_nth in C by lia. apply C. lia. }
  split; [exact F3|]. split; [exact F2|]. rewrite F7, R1. reflexivity.
Qed.

(** ** Rectangularity after reordering *)
Lemma distinct_count_unique l n : distinct_count l n <-> n = length (uniqueZ l).
Proof.
  split.
  - intros (d & Hd & Hi & <-). apply Permutation_length. apply NoDup_Permutation; [exact Hd|apply uniqueZ_NoDup|].
    intros x. rewrite Hi, uniqueZ_In. reflexivity.
  - intros ->. exists (uniqueZ l). split; [apply uniqueZ_NoDup|]. split; [|reflexivity]. intros x. apply uniqueZ_In.
Qed.

Lemma set_rect_truthful u u' : length (time_array u) = length (baseline_array u) -> counts_ok u ->
  declared_order_true (time_array u) (baseline_array u) (blt_order u) ->
  set_rectangularity true u = Ok u' -> rect_truthful u'.
Proof.
  intros Hl [Hb Ht] Hd H. apply distinct_count_unique in Hb, Ht.
  destruct (set_rect_fields _ _ H) as (F1 & _ & _ & _ & _ & _ & _ & F8 & F9 & _ & rect & fast & E1 & E2 & E3).
  intros Hr. rewrite E1 in Hr. injection Hr as ->. rewrite F8, F9, E2.
  destruct F1 as (A1 & _ & _ & _ & A5 & _). rewrite A1, A5, Hb, Ht. rewrite Hb, Ht in E3.
  apply (rect_sound _ _ (blt_order u)); assumption.
Qed.

Lemma records_distinct_combine u : length (time_array u) = length (baseline_array u) -> records_distinct u ->
  NoDup (combine (time_array u) (baseline_array u)) /\ NoDup (combine (baseline_array u) (time_array u)).
Proof.
  intros Hl Hd. split; apply (NoDup_nth _ (0, 0)); intros i j Hi Hj; rewrite combine_length in Hi, Hj;
    rewrite !combine_nth by lia; intros E; injection E as E1 E2; apply Hd; auto; lia.
Qed.

Lemma sorted_declared u : length (time_array u) = length (baseline_array u) -> records_distinct u ->
  (forall ks, blt_order u = Some ks -> axis_sorted false ks u) ->
  declared_order_true (time_array u) (baseline_array u) (blt_order u).
Proof.
  intros Hl Hd Hs. destruct (records_distinct_combine u Hl Hd) as [N1 N2].
  split; intros Ho; (split; [assumption|]); specialize (Hs _ Ho); apply (StronglySorted_nth _ (0, 0));
    intros i j Hij Hj; rewrite combine_length in Hj; rewrite !combine_nth by lia; cbn [fst snd];
    specialize (Hs i j ltac:(lia)); cbn [in_order axis_value] in Hs; lia.
Qed.

Lemma records_distinct_moved sigma u u' : Permutation sigma (seq 0 (Nblts u)) -> Nblts u' = Nblts u ->
  (forall i, (i < Nblts u)%nat -> row_copied u (nth i sigma 0%nat) u' i) -> records_distinct u -> records_distinct u'.
Proof.
  intros Hp HN Hc Hd i j Hi Hj Et Eb. change (length (time_array u')) with (Nblts u') in Hi, Hj. rewrite HN in Hi, Hj.
  assert (Hl : length sigma = Nblts u) by (rewrite (Permutation_length Hp); apply seq_length).
  assert (HND : NoDup sigma) by (eapply Permutation_NoDup; [symmetry; exact Hp|apply seq_NoDup]).
  assert (Hin : forall i, (i < Nblts u)%nat -> (nth i sigma 0 < Nblts u)%nat).
  { intros i' Hi'. assert (In (nth i' sigma 0%nat) (seq 0 (Nblts u))) as Hin by (eapply Permutation_in; [exact Hp|apply nth_In; lia]).
    apply in_seq in Hin. lia. }
  apply (proj1 (NoDup_nth sigma 0%nat) HND); [lia|lia|].
  destruct (Hc i Hi) as (T1 & _ & _ & _ & B1 & _), (Hc j Hj) as (T2 & _ & _ & _ & B2 & _).
  apply Hd; [apply Hin; exact Hi|apply Hin; exact Hj|congruence|congruence].
Qed.

Lemma counts_moved (u v : uvd) : Permutation (time_array v) (time_array u) -> Permutation (baseline_array v) (baseline_array u) ->
  Nbls v = Nbls u -> Ntimes v = Ntimes u -> counts_ok u -> counts_ok v.
Proof.
  intros Pt Pb Eb Et [(d & D1 & D2 & D3) (e & E1 & E2 & E3)]. split.
  - exists d. rewrite Eb. split; [exact D1|]. split; [|exact D3]. intros x. rewrite D2. split; apply Permutation_in; [symmetry|]; exact Pb.
  - exists e. rewrite Et. split; [exact E1|]. split; [|exact E3]. intros x. rewrite E2. split; apply Permutation_in; [symmetry|]; exact Pt.
Qed.

Lemma reorder_rect k minor u u' : blt_shaped u -> counts_ok u -> records_distinct u ->
  reorder_blts (BltKey k) minor false None u = Ok u' -> counts_ok u' /\ records_distinct u' /\ rect_truthful u'.
Proof.
  intros Hsh Hc Hd H.
  destruct (reorder_named _ _ _ _ _ Hsh H) as (m & sg & Hm & R1 & R2 & R3 & R4 & R5 & R6 & R7 & R8 & R9).
  destruct (reorder_named_unfold _ _ _ _ _ H) as (m' & Hm' & H'). rewrite Hm in Hm'. injection Hm' as <-. cbv zeta in H'.
  set (ks := match m with None => [k] | Some m => [k; m] end) in *. set (v := set_blt_order (Some ks) u) in *.
  destruct (set_rect_fields _ _ H') as (F1 & _ & _ & _ & _ & _ & F7 & F8 & F9 & _).
  pose proof (order_index_perm k m false v Hsh) as Hp. change (Nblts v) with (Nblts u) in Hp.
  set (w := take_blts (order_index k m false v) v) in *.
  assert (Hcw : counts_ok w).
  { apply (counts_moved u); [apply take_perm; exact Hp| |reflexivity|reflexivity|exact Hc].
    apply take_perm. destruct Hsh as (_ & _ & _ & E & _). change (baseline_array v) with (baseline_array u).
    rewrite E. exact Hp. }
  assert (Hd' : records_distinct u') by exact (records_distinct_moved sg u u' R2 R3 R5 Hd).
  destruct F1 as (A1 & _ & _ & _ & A5 & _).
  split; [|split; [exact Hd'|]].
  { unfold counts_ok. rewrite A1, A5, F8, F9. exact Hcw. }
  apply (set_rect_truthful w); [|exact Hcw| |exact H'].
  - unfold w, take_blts. cbn. rewrite !take_length. reflexivity.
  - rewrite <- A1, <- A5, <- F7. apply sorted_declared; [|exact Hd'|].
    + destruct R4 as (_ & _ & _ & E & _). symmetry. exact E.
    + intros ks' E. rewrite R1 in E. injection E as <-. exact R8.
Qed.

Lemma rect_total times bls nb nt o : length times = length bls -> times <> [] ->
  exists r, determine_rectangularity times bls nb nt o = Ok r.
Proof.
  intros Hl Hn. unfold determine_rectangularity.
  destruct (length times =? nb * nt)%nat eqn:E; [|eexists; reflexivity]. apply Nat.eqb_eq in E. cbn [negb].
  destruct (nb * nt =? 1)%nat eqn:E1; [eexists; reflexivity|].
  destruct (nb =? 1)%nat eqn:E2; [eexists; reflexivity|].
  destruct (nt =? 1)%nat eqn:E3; [eexists; reflexivity|].
  destruct (order_is o KBaseline KTime); [eexists; reflexivity|].
  destruct (order_is o KTime KBaseline); [eexists; reflexivity|].
  destruct times as [|t0 [|t1 times]]; [congruence| |].
  { simpl in E. symmetry in E. apply Nat.eqb_neq in E1. lia. }
  destruct bls as [|b0 [|b1 bls]]; [discriminate|discriminate|].
  repeat match goal with |- exists r, (if ?c then _ else _) = _ => destruct c; [eexists; reflexivity|] end.
  destruct (negb (t1 =? t0)).
  - repeat match goal with |- exists r, (let x := _ in _) = _ => cbv zeta | |- exists r, (if ?c then _ else _) = _ => destruct c; [eexists; reflexivity|] end. eexists; reflexivity.
  - repeat match goal with |- exists r, (let x := _ in _) = _ => cbv zeta | |- exists r, (if ?c then _ else _) = _ => destruct c; [eexists; reflexivity|] end. eexists; reflexivity.
Qed.

Lemma set_rect_total force u : length (time_array u) = length (baseline_array u) -> time_array u <> [] ->
  exists u', set_rectangularity force u = Ok u'.
Proof.
  intros Hl Hn. unfold set_rectangularity.
  destruct (rect_total (time_array u) (baseline_array u) (Nbls u) (Ntimes u) (blt_order u) Hl Hn) as ([r f] & ->).
  destruct (blts_are_rectangular u), force; eexists; reflexivity.
Qed.

Lemma reorder_total k minor af u : blt_shaped u -> time_array u <> [] ->
  (minor = None \/ exists m, minor = Some m /\ m <> KBda /\ k <> KBda /\ (k = KBaseline -> m <> KAnt1 /\ m <> KAnt2)) ->
  exists u', reorder_blts (BltKey k) minor af None u = Ok u'.
Proof.
  intros Hsh Hn Hm. assert (exists m, minor_of k minor = Ok m) as (m & Em).
  { destruct Hm as [->|(m & -> & H1 & H2 & H3)]; [destruct k; eexists; reflexivity|].
    destruct k, m; try congruence; try (eexists; reflexivity); destruct (H3 eq_refl); congruence. }
  unfold reorder_blts. rewrite Em. cbn [bind].
  set (v := set_blt_order _ u). apply set_rect_total.
  - unfold take_blts. cbn. rewrite !take_length. reflexivity.
  - pose proof (order_index_perm k m af v Hsh) as Hp. intros E.
    assert (L : length (take 0 (time_array v) (order_index k m af v)) = 0%nat) by (change (length (time_array (take_blts (order_index k m af v) v)) = 0%nat); rewrite E; reflexivity).
    rewrite take_length, (Permutation_length Hp), seq_length in L. unfold Nblts in L.
    change (time_array v) with (time_array u) in L. destruct (time_array u); [congruence|discriminate].
Qed.

(** With [conj_convention] the rows are conjugated first. *)
Lemma reorder_conj_first k minor af c u u' : reorder_blts (BltKey k) minor af (Some c) u = Ok u' ->
  exists v, conjugate_bls (fst (fst c)) (snd (fst c)) (snd c) u = Ok v /\ reorder_blts (BltKey k) minor af None v = Ok u'.
Proof.
  unfold reorder_blts. intros H. apply bind_Ok in H as (m & Hm & H). destruct c as [[cv tol] co].
  apply bind_Ok in H as (v & Hv & H). exists v. split; [exact Hv|]. rewrite Hm. exact H.
Qed.

(** An index list moves the named rows. *)
Lemma norm_index_spec n z i : norm_index n z = Some i ->
  - Z.of_nat n <= z < Z.of_nat n /\ Z.to_nat (z mod Z.of_nat n) = i /\ (i < n)%nat.
Proof.
  unfold norm_index. intros H. destruct ((0 <=? z) && (z <? Z.of_nat n)) eqn:E.
  - injection H as <-. rewrite Z.mod_small by lia. lia.
  - destruct ((z <? 0) && (0 <=? z + Z.of_nat n)) eqn:E2; [|discriminate]. injection H as <-.
    split; [lia|]. split; [|lia]. f_equal.
    rewrite <- (Z_mod_plus_full z 1), Z.mul_1_l. apply Z.mod_small. lia.
Qed.

Lemma reorder_index idx af u u' : blt_shaped u -> reorder_blts (BltIndex idx) None af None u = Ok u' ->
  length idx = Nblts u /\ Nblts u' = Nblts u /\ blt_order u' = None /\ blt_shaped u' /\
  Forall (fun z => - Z.of_nat (Nblts u) <= z < Z.of_nat (Nblts u)) idx /\
  (forall i, (i < Nblts u)%nat -> row_copied u (Z.to_nat ((nth i idx 0) mod Z.of_nat (Nblts u))) u' i) /\
  polarization_array u' = polarization_array u /\ same_freq_axis u u'.
Proof.
  intros Hsh H. unfold reorder_blts in H.
  destruct (length idx =? Nblts u)%nat eqn:El; [|discriminate]. cbn [negb] in H.
  apply Nat.eqb_eq in El. split; [exact El|].
  cbn [bind] in H. apply bind_Ok in H as (ii & Hi & H). set (v := set_blt_order None u) in *.
  destruct (set_rect_fields _ _ H) as (F1 & F2 & F3 & F4 & F5 & F6 & F7 & _).
  change (Nblts v) with (Nblts u) in Hi. unfold norm_indices in Hi.
  pose proof (mapM_Ok_length _ _ _ Hi) as Lii.
  assert (Hn : forall k, (k < length idx)%nat -> norm_index (Nblts u) (nth k idx 0) = Some (nth k ii 0%nat)).
  { intros k Hk. pose proof (mapM_Ok_nth _ _ _ 0 0%nat Hi k Hk) as E. cbv beta in E. destruct (norm_index (Nblts u) (nth k idx 0)); congruence. }
  split. { unfold Nblts at 1. destruct F1 as (A & _). rewrite A. change (length (take 0 (time_array u) ii) = Nblts u). rewrite take_length. lia. }
  split; [exact F7|]. split.
  { destruct F1 as (A1 & A2 & A3 & A4 & A5 & A6 & A7 & A8 & A9 & A10 & A11). unfold blt_shaped.
    rewrite A1, A2, A3, A4, A5, A6, A7, A8, A9, A10, A11.
    repeat split; unfold take_blts; cbn; rewrite ?take_length; reflexivity. }
  split. { apply Forall_forall. intros z Hz. destruct (In_nth idx z 0 Hz) as (k & Hk & <-). specialize (Hn k Hk).
    apply norm_index_spec in Hn. tauto. }
  split; [|split; [exact F3|exact F2]].
  intros i Hi'. eapply row_copied_same; [exact F1|exact F4|exact F5|exact F6|].
  pose proof (take_blts_copied ii v i ltac:(lia)) as C.
  replace (Z.to_nat (nth i idx 0 mod Z.of_nat (Nblts u))) with (nth i ii 0%nat); [exact C|].
  specialize (Hn i ltac:(lia)). apply norm_index_spec in Hn. symmetry. tauto.
Qed.

(** ** Statements in terms of distinct counts *)
Lemma rect_complete_counts times bls ts bs faster o :
  (2 <= length ts)%nat -> (2 <= length bs)%nat -> product_layout times bls ts bs faster ->
  o <> Some [KBaseline; KTime] -> o <> Some [KTime; KBaseline] ->
  determine_rectangularity times bls (length bs) (length ts) o = Ok (true, faster).
Proof.
  intros Ht Hb Hp H1 H2. pose proof Hp as (N1 & N2 & Hl).
  assert (forall x, In x bs <-> In x bls) as Ib.
  { intros x. destruct faster; destruct Hl as [_ ->]; rewrite in_concat.
    - split.
      + intros Hx. exists (repeat x (length ts)). split; [apply in_map_iff; eauto|]. destruct (length ts); [lia|left; reflexivity].
      + intros (l & Hl & Hx). apply in_map_iff in Hl as (b & <- & Hb'). apply repeat_spec in Hx. congruence.
    - split.
      + intros Hx. destruct ts as [|t ts]; [simpl in Ht; lia|]. exists bs. split; [left; reflexivity|exact Hx].
      + intros (l & Hl & Hx). apply in_map_iff in Hl as (b & <- & Hb'). exact Hx. }
  assert (forall x, In x ts <-> In x times) as It.
  { intros x. destruct faster; destruct Hl as [-> _]; rewrite in_concat.
    - split.
      + intros Hx. destruct bs as [|t bs]; [simpl in Hb; lia|]. exists ts. split; [left; reflexivity|exact Hx].
      + intros (l & Hl & Hx). apply in_map_iff in Hl as (b & <- & Hb'). exact Hx.
    - split.
      + intros Hx. exists (repeat x (length bs)). split; [apply in_map_iff; eauto|]. destruct (length bs); [lia|left; reflexivity].
      + intros (l & Hl & Hx). apply in_map_iff in Hl as (b & <- & Hb'). apply repeat_spec in Hx. congruence. }
  rewrite (proj1 (distinct_count_unique bls (length bs))) by (exists bs; auto).
  rewrite (proj1 (distinct_count_unique times (length ts))) by (exists ts; auto).
  exact (rect_complete times bls ts bs faster o Ht Hb Hp H1 H2).
Qed.

Lemma order_sorted_counts rows nb nt ks :
  distinct_count (map r_bl rows) nb -> distinct_count (map r_time rows) nt ->
  determine_blt_order rows nb nt = Ok (Some ks) -> sorted_by ks rows.
Proof. intros Hb Ht. apply distinct_count_unique in Hb, Ht. subst. apply determine_order_sorted. Qed.

Lemma rect_declared_refuted :
  exists times bls nbls ntimes order,
  length times = length bls /\ distinct_count bls nbls /\ distinct_count times ntimes /\
  determine_rectangularity times bls nbls ntimes order = Ok (true, true) /\
  ~ exists ts bs faster, length ts = ntimes /\ length bs = nbls /\ product_layout times bls ts bs faster.
Proof.
  exists [1; 2; 1; 2], [7; 7; 7; 9], 2%nat, 2%nat, (Some [KBaseline; KTime]).
  split; [reflexivity|]. split; [apply distinct_count_unique; reflexivity|]. split; [apply distinct_count_unique; reflexivity|].
  split; [reflexivity|]. intros (ts & bs & f & L1 & L2 & _ & _ & H).
  destruct ts as [|t0 [|t1 [|]]]; try discriminate. destruct bs as [|b0 [|b1 [|]]]; try discriminate.
  destruct f; destruct H as [H1 H2]; simpl in H1, H2; congruence.
Qed.

Lemma order_assertion_refuted :
  exists rows nbls ntimes ts bs,
  distinct_count (map r_bl rows) nbls /\ distinct_count (map r_time rows) ntimes /\
  product_layout (map r_time rows) (map r_bl rows) ts bs true /\
  (forall r, In r rows -> r_bl r = 2048 * r_ant1 r + r_ant2 r + 65536) /\
  sorted_by [KBaseline; KTime] rows /\
  determine_blt_order rows nbls ntimes = Err AssertionError.
Proof.
  set (row := fun t a b => {| r_time := t; r_ant1 := a; r_ant2 := b; r_bl := 2048 * a + b + 65536 |}).
  exists [row 1 0 1; row 2 0 1; row 1 1 2; row 2 1 2], 2%nat, 2%nat, [1; 2], [65537; 67586].
  split; [apply distinct_count_unique; reflexivity|]. split; [apply distinct_count_unique; reflexivity|].
  split; [repeat split; repeat (constructor; [simpl; lia|]); constructor|].
  split; [intros r [<-|[<-|[<-|[<-|[]]]]]; reflexivity|].
  split; [|reflexivity].
  repeat (constructor; [|repeat (constructor; [simpl; lia|]); constructor]). constructor.
Qed.

Lemma reorder_index_refuted :
  exists u u' v v', blt_shaped u /\
  reorder_blts (BltIndex [0; 0]) None false None u = Ok u' /\ (forall i, (i < Nblts u')%nat -> ~ row_copied u 1 u' i) /\
  reorder_pols (PolIndex [1; 1]) v = Ok v' /\ (forall k, (k < Npols v')%nat -> ~ pol_copied v 0 v' k).
Proof.
  exists (sample [(1, 0, 1); (2, 0, 1)] [-5] 1 2 None None false). eexists.
  exists (sample [(1, 0, 1)] [-5; -6] 1 1 None None false). eexists.
  split; [apply sample_shaped|]. split; [reflexivity|]. split.
  - intros i Hi (H & _). destruct i as [|[|i]]; [discriminate H|discriminate H|]. cbn in Hi. lia.
  - split; [reflexivity|]. intros i Hi (H & _). destruct i as [|[|i]]; [discriminate H|discriminate H|]. cbn in Hi. lia.
Qed.

Lemma reorder_autos_rect_refuted :
  exists u u', blt_shaped u /\ counts_ok u /\ records_distinct u /\
  reorder_blts (BltKey KTime) None true None u = Ok u' /\
  ~ axis_sorted false [KTime; KBaseline] u' /\ blt_order u' = Some [KTime; KBaseline] /\ ~ rect_truthful u'.
Proof.
  exists (sample [(1, 0, 0); (1, 0, 1); (2, 0, 0); (2, 0, 1)] [-5] 2 2 None None false). eexists.
  split; [apply sample_shaped|].
  split; [split; apply distinct_count_unique; reflexivity|].
  split.
  { intros i j Hi Hj. cbn in Hi, Hj.
    destruct i as [|[|[|[|i]]]]; [| | | |lia]; (destruct j as [|[|[|[|j]]]]; [| | | |lia]); cbn; intros; try reflexivity; lia. }
  split; [vm_compute; reflexivity|].
  split. { intros H. specialize (H 1%nat 2%nat). cbn in H. lia. }
  split; [reflexivity|].
  intros H. destruct (H eq_refl) as (ts & bs & L1 & L2 & _ & _ & H1 & H2). cbn in L1, L2, H1, H2.
  destruct ts as [|t0 [|t1 [|]]]; try discriminate. destruct bs as [|b0 [|b1 [|]]]; try discriminate.
  simpl in H1, H2. congruence.
Qed.

Lemma reorder_named_keys k minor af u u' : blt_shaped u ->
  reorder_blts (BltKey k) minor af None u = Ok u' ->
  exists keys sigma,
  blt_order u' = Some keys /\ hd_error keys = Some k /\
  (forall m, minor = Some m -> m <> k -> keys = [k; m]) /\
  Permutation sigma (seq 0 (Nblts u)) /\ Nblts u' = Nblts u /\ blt_shaped u' /\
  (forall i, (i < Nblts u)%nat -> row_copied u (nth i sigma 0%nat) u' i) /\
  polarization_array u' = polarization_array u /\ same_freq_axis u u' /\ axis_sorted af keys u'.
Proof.
  intros Hsh H. destruct (reorder_named _ _ _ _ _ Hsh H) as (m & sg & Hm & R1 & R2 & R3 & R4 & R5 & R6 & R7 & R8 & _).
  exists (match m with None => [k] | Some m => [k; m] end), sg. split; [exact R1|].
  split; [destruct m; reflexivity|]. split; [|split; [exact R2|split; [exact R3|split; [exact R4|split; [exact R5|split; [exact R6|split; [exact R7|exact R8]]]]]]].
  intros m' -> Hne. destruct k, m'; try congruence; cbn in Hm; try discriminate; injection Hm as <-; reflexivity.
Qed.
