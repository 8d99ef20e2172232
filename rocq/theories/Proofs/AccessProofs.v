From Coq Require Import List ZArith Bool Arith Lia ZifyBool ZifyNat Sorted String Relations.
From Verif Require Import Lib.Py Lib.Np Lib.Sorting Lib.Slice Lib.Cube Lib.Dict Spec.BlsSpec Spec.BltSpec Spec.PolSpec
  Spec.ToolsSpec Spec.UVDataSpec Spec.AccessSpec
  Model.Bls Model.Tools Model.Pol Model.BltAxis Model.UVData Model.Reorder Model.Hdf5 Model.Access
  Proofs.BlsProofs Proofs.ToolsProofs Proofs.PolProofs Proofs.Hdf5Proofs.
Import ListNotations.
Open Scope Z_scope.
Open Scope list_scope.
Notation length := List.length.
Notation concat := List.concat.

(** ** slices *)
Lemma range_len_up start stop step k : 0 < step -> start + step * (k - 1) < stop -> stop <= start + step * k -> 0 < k ->
  range_len start stop step = Z.to_nat k.
Proof.
  intros Hs H1 H2 Hk. unfold range_len. replace (step >? 0) with true by lia. replace (start <? stop) with true by nia.
  f_equal. assert (E : (stop - start - 1) / step = k - 1); [|lia].
  symmetry. apply Z.div_unique with (r := stop - start - 1 - step * (k - 1)); [left; nia|lia].
Qed.

Lemma slice_every step k : 0 < step -> 0 < k ->
  slice_indices (mkslice None None (Some step)) (step * k) = Ok (arith 0 step (Z.to_nat k)).
Proof.
  intros Hs Hk. unfold slice_indices. cbn [s_start s_stop s_step].
  replace (step =? 0) with false by lia. replace (step <? 0) with false by lia. cbv iota beta zeta.
  unfold py_range. rewrite (range_len_up 0 (step * k) step k) by nia. reflexivity.
Qed.

Lemma slice_from q step k : 0 <= q < step -> 0 < k ->
  slice_indices (mkslice (Some q) None (Some step)) (step * k) = Ok (arith q step (Z.to_nat k)).
Proof.
  intros Hq Hk. unfold slice_indices. cbn [s_start s_stop s_step].
  replace (step =? 0) with false by lia. replace (step <? 0) with false by lia. cbv iota beta zeta.
  replace (q <? 0) with false by lia. cbv iota. replace (q <? 0) with false by lia. cbv iota.
  replace (q >? step * k) with false by nia. cbv iota.
  unfold py_range. rewrite (range_len_up q (step * k) step k) by nia. reflexivity.
Qed.

Lemma slice_between a b n : 0 <= a -> a <= b -> b <= n ->
  slice_indices (mkslice (Some a) (Some b) None) n = Ok (arith a 1 (Z.to_nat (b - a))).
Proof.
  intros Ha Hb Hn. unfold slice_indices. cbn [s_start s_stop s_step].
  change (1 =? 0) with false. change (1 <? 0) with false. cbv iota beta zeta.
  replace (a <? 0) with false by lia. cbv iota. replace (a <? 0) with false by lia. cbv iota.
  replace (a >? n) with false by lia. cbv iota.
  replace (b <? 0) with false by lia. cbv iota. replace (b <? 0) with false by lia. cbv iota.
  replace (b >? n) with false by lia. cbv iota.
  unfold py_range. f_equal. f_equal. destruct (Z.eq_dec a b) as [->|].
  - rewrite Z.sub_diag. unfold range_len. change (1 >? 0) with true. rewrite Z.ltb_irrefl. reflexivity.
  - rewrite (range_len_up a b 1 (b - a)) by lia. reflexivity.
Qed.

Lemma slice_upto b n : 0 <= b -> b <= n ->
  slice_indices (mkslice None (Some b) None) n = Ok (arith 0 1 (Z.to_nat b)).
Proof.
  intros Hb Hn. pose proof (slice_between 0 b n ltac:(lia) Hb Hn) as E. rewrite Z.sub_0_r in E. rewrite <- E.
  unfold slice_indices. cbn [s_start s_stop s_step].
  change (1 =? 0) with false. change (1 <? 0) with false. change (0 <? 0) with false. cbv iota beta zeta.
  change (0 <? 0) with false. cbv iota. replace (0 >? n) with false by lia. reflexivity.
Qed.

(** ** rows of a pair *)
Lemma pair_rows_In u a b i : In i (pair_rows u a b) <->
  (i < length (time_array u))%nat /\ nth i (ant_1_array u) 0 = a /\ nth i (ant_2_array u) 0 = b.
Proof. unfold pair_rows. rewrite filter_In, in_seq, andb_true_iff, !Z.eqb_eq. intuition lia. Qed.

Lemma seq_sorted s n : StronglySorted lt (seq s n).
Proof.
  revert s; induction n as [|n IH]; intros s; simpl; constructor; [apply IH|].
  apply Forall_forall. intros x Hx. apply in_seq in Hx. lia.
Qed.
Lemma filter_sorted {A} (R : A -> A -> Prop) f l : StronglySorted R l -> StronglySorted R (filter f l).
Proof.
  induction 1 as [|x l Hl IH Hx]; simpl; [constructor|]. destruct (f x); [|exact IH]. constructor; [exact IH|].
  apply Forall_forall. intros y Hy. apply filter_In in Hy. rewrite Forall_forall in Hx. apply Hx. tauto.
Qed.
Lemma pair_rows_sorted u a b : StronglySorted lt (pair_rows u a b).
Proof. apply filter_sorted, seq_sorted. Qed.
Lemma pol_positions_sorted u p : StronglySorted lt (pol_positions u p).
Proof. apply filter_sorted, seq_sorted. Qed.

Lemma zpair_eqb_eq x y : zpair_eqb x y = true <-> x = y.
Proof.
  destruct x as [a b], y as [c d]. unfold zpair_eqb. simpl. rewrite andb_true_iff, !Z.eqb_eq.
  split; [intros [-> ->]; reflexivity|]. intros E; injection E; auto.
Qed.

Lemma combine_nth' (l l' : list Z) i : length l = length l' -> nth i (combine l l') (0, 0) = (nth i l 0, nth i l' 0).
Proof. intros H. apply combine_nth. exact H. Qed.

Lemma pair_where_rows u a b : blt_shaped u -> pair_where u a b = map Z.of_nat (pair_rows u a b).
Proof.
  intros H. unfold pair_where. f_equal. symmetry. destruct H as (_ & H1 & H2 & _).
  apply (nonzero_unique (0, 0)); [apply pair_rows_sorted|]. intros i.
  rewrite pair_rows_In, combine_length, combine_nth', zpair_eqb_eq by lia.
  split; [intros (Hi & -> & ->); split; [lia|reflexivity]|]. intros (Hi & E). injection E as -> ->. repeat split. lia.
Qed.

Lemma pol_where_positions u p : pol_where u p = map Z.of_nat (pol_positions u p).
Proof.
  unfold pol_where. f_equal. symmetry. apply (nonzero_unique 0); [apply pol_positions_sorted|].
  intros i. unfold pol_positions. rewrite filter_In, in_seq. intuition lia.
Qed.

Lemma of_nat_increasing n l : StronglySorted lt l -> Forall (fun i => (i < n)%nat) l ->
  increasing_in (Z.of_nat n) (map Z.of_nat l).
Proof.
  intros Hs Hb. split.
  - apply (proj1 (StronglySorted_map Z.lt Z.of_nat l)). eapply StronglySorted_impl; [|exact Hs]. intros x y; simpl; lia.
  - apply Forall_forall. intros x Hx. apply in_map_iff in Hx. destruct Hx as (i & <- & Hi).
    rewrite Forall_forall in Hb. specialize (Hb i Hi). lia.
Qed.

Lemma pair_rows_bound u a b : Forall (fun i => (i < length (time_array u))%nat) (pair_rows u a b).
Proof. apply Forall_forall. intros i Hi. apply pair_rows_In in Hi. tauto. Qed.
Lemma pol_positions_bound u p : Forall (fun i => (i < Npols u)%nat) (pol_positions u p).
Proof. apply Forall_forall. intros i Hi. apply filter_In in Hi. destruct Hi as [Hi _]. apply in_seq in Hi. unfold Npols. lia. Qed.

(** positions and at_index *)
Lemma at_index_list n l : Forall (fun i => (i < n)%nat) l -> at_index n (IList (map Z.of_nat l)) = Ok l.
Proof.
  intros H. unfold at_index. rewrite list_positions_in.
  - f_equal. unfold posn. rewrite map_map. rewrite <- (map_id l) at 2. apply map_ext. intros i. lia.
  - apply Forall_forall. intros x Hx. apply in_map_iff in Hx. destruct Hx as (i & <- & Hi).
    rewrite Forall_forall in H. specialize (H i Hi). lia.
Qed.

Lemma at_index_slice n s l : slice_indices s (Z.of_nat n) = Ok (map Z.of_nat l) -> at_index n (ISlice s) = Ok l.
Proof.
  intros H. unfold at_index, slice_positions. rewrite H. cbn [bind]. f_equal. rewrite map_map.
  rewrite <- (map_id l) at 2. apply map_ext. intros i. lia.
Qed.

(** A slice with non-negative bounds and positive step, or a list. *)
Definition tame (ix : axis_index) : Prop :=
  match ix with
  | ISlice s => match s_start s with None => True | Some v => 0 <= v end /\
                match s_stop s with None => True | Some v => 0 <= v end /\
                match s_step s with None => True | Some v => 0 < v end
  | IList _ => True
  | _ => False
  end.

Lemma slicify_at n l : l <> [] -> StronglySorted lt l -> Forall (fun i => (i < n)%nat) l ->
  exists ix, slicify (Some (IList (map Z.of_nat l))) = Some ix /\ at_index n ix = Ok l /\
             positions (Z.of_nat n) ix = Ok (map Z.of_nat l) /\ tame ix.
Proof.
  intros Hne Hs Hb. destruct (slicify_correct (Z.of_nat n) (map Z.of_nat l)) as (ix & E & HP).
  - destruct l; [congruence|discriminate].
  - apply of_nat_increasing; assumption.
  - exists ix. split; [exact E|].
    destruct l as [|x [|y l]]; [congruence| |].
    + cbn in E. injection E as <-. split; [apply at_index_slice; exact HP|]. split; [exact HP|]. cbn. lia.
    + cbn [map slicify] in E. match type of E with (if ?c then _ else _) = _ => destruct c end; injection E as <-.
      * split; [apply at_index_slice; exact HP|]. split; [exact HP|]. cbn [tame s_start s_stop s_step mk].
        inversion Hs as [|? ? _ HF]; subst. inversion HF; subst. split; [lia|]. split; [|cbv iota; lia].
        match goal with |- 0 <= ?t + 1 => change t with (last (Z.of_nat x :: Z.of_nat y :: map Z.of_nat l) 0) end.
        assert (0 <= last (Z.of_nat x :: Z.of_nat y :: map Z.of_nat l) 0); [|lia].
        change (Z.of_nat x :: Z.of_nat y :: map Z.of_nat l) with (map Z.of_nat (x :: y :: l)).
        assert (Hl : In (last (map Z.of_nat (x :: y :: l)) 0) (map Z.of_nat (x :: y :: l))).
        { rewrite (app_removelast_last 0 (l := map Z.of_nat (x :: y :: l))) at 2 by discriminate.
          apply in_or_app. right. left. reflexivity. }
        apply in_map_iff in Hl. destruct Hl as (k & <- & _). lia.
      * split; [exact (at_index_list n (x :: y :: l) Hb)|]. split; [exact HP|exact I].
Qed.

Lemma at_index_all n : at_index n sliceall = Ok (seq 0 n).
Proof. unfold sliceall, at_index. rewrite slice_full by lia. rewrite Nat2Z.id. reflexivity. Qed.

(** ** product layouts *)
Lemma nth_concat_repeat (bs : list Z) n i : (i < length bs * n)%nat ->
  nth i (concat (map (fun b => repeat b n) bs)) 0 = nth (i / n) bs 0.
Proof.
  revert i; induction bs as [|b bs IH]; intros i Hi; [simpl in Hi; lia|]. simpl map. simpl concat.
  assert (Hn : n <> 0%nat) by (intros ->; simpl in Hi; lia).
  destruct (Nat.lt_ge_cases i n) as [H|H].
  - rewrite app_nth1 by (rewrite repeat_length; exact H). rewrite (Nat.div_small i n H). simpl.
    apply (repeat_spec n b (nth i (repeat b n) 0)). apply nth_In. rewrite repeat_length. exact H.
  - rewrite app_nth2 by (rewrite repeat_length; exact H). rewrite repeat_length. rewrite IH by (simpl in Hi; lia).
    replace (i / n)%nat with (S ((i - n) / n)); [reflexivity|].
    replace i with ((i - n) + 1 * n)%nat at 2 by lia. rewrite Nat.div_add by lia. lia.
Qed.
Lemma nth_concat_same {A} (bs : list Z) (ts : list A) i : (i < length ts * length bs)%nat ->
  nth i (concat (map (fun _ => bs) ts)) 0 = nth (i mod length bs) bs 0.
Proof.
  revert i; induction ts as [|t ts IH]; intros i Hi; [simpl in Hi; lia|]. simpl map. simpl concat.
  assert (Hn : length bs <> 0%nat) by (intros E; rewrite E in Hi; simpl in Hi; lia).
  destruct (Nat.lt_ge_cases i (length bs)) as [H|H].
  - rewrite app_nth1 by exact H. rewrite Nat.mod_small by exact H. reflexivity.
  - rewrite app_nth2 by exact H. rewrite IH by (simpl in Hi; lia). f_equal.
    replace i with ((i - length bs) + 1 * length bs)%nat at 2 by lia. rewrite Nat.mod_add by lia. reflexivity.
Qed.
Lemma concat_len {A B} (f : A -> list B) l m : (forall a, length (f a) = m) -> length (concat (map f l)) = (length l * m)%nat.
Proof. intros H. induction l; simpl; [reflexivity|]. rewrite app_length, H, IHl. reflexivity. Qed.

(** Row numbers of a rectangular axis: where baseline number q sits. *)
Record rect_axis (u : uvd) (bs : list Z) : Prop := {
  ra_nodup : NoDup bs;
  ra_nt : (0 < Ntimes u)%nat;
  ra_nb : (0 < Nbls u)%nat;
  ra_len : length bs = Nbls u;
  ra_n : length (time_array u) = (Nbls u * Ntimes u)%nat;
  ra_bl : forall i, (i < length (time_array u))%nat ->
    nth i (baseline_array u) 0 = nth (if time_axis_faster_than_bls u then i / Ntimes u else i mod Nbls u)%nat bs 0
}.

Lemma rect_axis_of u : consistent u -> blts_are_rectangular u = Some true -> exists bs, rect_axis u bs.
Proof.
  intros (Hsh & _ & Hr & Hne & _) Hrect. destruct (Hr Hrect) as (ts & bs & Ht & Hb & Nts & Nbs & HL).
  exists bs. destruct Hsh as (_ & _ & _ & Lb & _).
  assert (Hn : length (time_array u) = (Nbls u * Ntimes u)%nat).
  { destruct (time_axis_faster_than_bls u); destruct HL as [-> _].
    - rewrite (concat_len _ _ (length ts)) by reflexivity. lia.
    - rewrite (concat_len _ _ (length bs)) by (intros; apply repeat_length). lia. }
  assert (Hpos : (0 < Nbls u * Ntimes u)%nat) by (rewrite <- Hn; destruct (time_array u); [congruence|simpl; lia]).
  split; try assumption; try nia.
  intros i Hi. destruct (time_axis_faster_than_bls u); destruct HL as [_ ->].
  - rewrite nth_concat_repeat by nia. rewrite Ht. reflexivity.
  - rewrite nth_concat_same by nia. rewrite Hb. reflexivity.
Qed.

Lemma arith_of_nat a s k : arith (Z.of_nat a) (Z.of_nat s) k = map Z.of_nat (map (fun i => (a + s * i)%nat) (seq 0 k)).
Proof. unfold arith. rewrite map_map. apply map_ext. intros i. lia. Qed.

Lemma take_slice_ok {A} (d : A) s l p : slice_indices s (Z.of_nat (length l)) = Ok (map Z.of_nat p) ->
  take_slice d s l = Ok (take d l p).
Proof.
  intros H. unfold take_slice, slice_positions. rewrite H. cbn [bind]. do 2 f_equal. rewrite map_map.
  rewrite <- (map_id p) at 2. apply map_ext. intros i. lia.
Qed.

(** The first row of each baseline. *)
Definition firsts (u : uvd) : list nat :=
  map (fun q => (0 + (if time_axis_faster_than_bls u then Ntimes u else 1) * q)%nat) (seq 0 (Nbls u)).

Lemma rect_take {A} (d : A) u bs (l : list A) : rect_axis u bs -> length l = length (time_array u) ->
  take_slice d (if time_axis_faster_than_bls u then mkslice None None (Some (Z.of_nat (Ntimes u)))
                else mkslice None (Some (Z.of_nat (Nbls u))) None) l = Ok (take d l (firsts u)).
Proof.
  intros H Hl. destruct H. apply take_slice_ok. rewrite Hl, ra_n0. unfold firsts.
  destruct (time_axis_faster_than_bls u).
  - replace (Z.of_nat (Nbls u * Ntimes u)) with (Z.of_nat (Ntimes u) * Z.of_nat (Nbls u)) by lia.
    rewrite slice_every by lia. rewrite Nat2Z.id. change 0 with (Z.of_nat 0). rewrite arith_of_nat. reflexivity.
  - rewrite slice_upto by nia. rewrite Nat2Z.id. change 0 with (Z.of_nat 0). change 1 with (Z.of_nat 1).
    rewrite arith_of_nat. reflexivity.
Qed.

Lemma firsts_row u bs q : rect_axis u bs -> (q < Nbls u)%nat ->
  (nth q (firsts u) 0 < length (time_array u))%nat /\
  (if time_axis_faster_than_bls u then nth q (firsts u) 0 / Ntimes u else nth q (firsts u) 0 mod Nbls u)%nat = q.
Proof.
  intros [] Hq. unfold firsts. rewrite (nth_map _ _ _ 0%nat) by (rewrite seq_length; exact Hq). rewrite seq_nth by exact Hq.
  rewrite ra_n0. destruct (time_axis_faster_than_bls u).
  - split; [nia|]. replace (0 + Ntimes u * (0 + q))%nat with (q * Ntimes u)%nat by lia. apply Nat.div_mul. lia.
  - split; [nia|]. rewrite Nat.mod_small; lia.
Qed.
Lemma firsts_length u : length (firsts u) = Nbls u.
Proof. unfold firsts. rewrite map_length, seq_length. reflexivity. Qed.

Lemma rect_bls u bs : blt_shaped u -> rect_axis u bs -> blts_are_rectangular u = Some true -> get_baseline_nums u = Ok bs.
Proof.
  intros Hsh H Hr. unfold get_baseline_nums. rewrite Hr.
  pose proof (rect_take 0 u bs (baseline_array u) H) as E. destruct Hsh as (_ & _ & _ & Lb & _). specialize (E Lb).
  transitivity (Ok (take 0 (baseline_array u) (firsts u))).
  - destruct (time_axis_faster_than_bls u); exact E.
  - f_equal. apply (nth_ext _ _ 0 0).
    + rewrite take_length, firsts_length. destruct H. lia.
    + intros q Hq. rewrite take_length, firsts_length in Hq. unfold take. rewrite (nth_map _ _ _ 0%nat) by (rewrite firsts_length; exact Hq).
      destruct (firsts_row u bs q H Hq) as [H1 H2]. rewrite (ra_bl u bs H) by exact H1. rewrite H2. reflexivity.
Qed.

Lemma coded_div m a b off : 0 <= b < m -> (m * a + b + off - off) / m = a.
Proof. intros. apply div_enc. assumption. Qed.

(** the antenna pairs of a rectangular axis are those of the first rows *)
Lemma rect_pairs u bs : consistent u -> rect_axis u bs -> blts_are_rectangular u = Some true ->
  get_antpairs u = Ok (map (fun i => (nth i (ant_1_array u) 0, nth i (ant_2_array u) 0)) (firsts u)).
Proof.
  intros (Hsh & (m & off & Henc & Hc) & _ & _ & _ & Hn) H Hr. unfold get_antpairs. rewrite (rect_bls u bs Hsh H Hr). cbn [bind].
  assert (Ebs : bs = map (fun i => m * nth i (ant_1_array u) 0 + nth i (ant_2_array u) 0 + off) (firsts u)).
  { apply (nth_ext _ _ 0 0); [rewrite map_length, firsts_length; destruct H; lia|]. intros q Hq.
    assert (Hq' : (q < Nbls u)%nat) by (destruct H; lia).
    rewrite (nth_map _ _ _ 0%nat) by (rewrite firsts_length; exact Hq').
    destruct (firsts_row u bs q H Hq') as [H1 H2]. destruct (Hc _ H1) as (_ & _ & <-).
    rewrite (ra_bl u bs H) by exact H1. rewrite H2. reflexivity. }
  assert (Hin : forall i, In i (firsts u) -> (i < length (time_array u))%nat).
  { intros i Hi. apply In_nth with (d := 0%nat) in Hi. destruct Hi as (q & Hq & <-). rewrite firsts_length in Hq.
    apply (firsts_row u bs q H Hq). }
  rewrite (decode_regime m off bs (Nants_telescope u) Henc).
  - cbn [bind]. f_equal. rewrite Ebs, !map_map. clear - Hc Hin Henc.
    assert (forall l, (forall i, In i l -> (i < length (time_array u))%nat) ->
      combine (map (fun x => (m * nth x (ant_1_array u) 0 + nth x (ant_2_array u) 0 + off - off) / m) l)
              (map (fun x => (m * nth x (ant_1_array u) 0 + nth x (ant_2_array u) 0 + off - off) mod m) l)
      = map (fun i => (nth i (ant_1_array u) 0, nth i (ant_2_array u) 0)) l) as G.
    { induction l as [|i l IH]; intros Hl; [reflexivity|]. simpl map. simpl combine. rewrite IH by (intros; apply Hl; right; assumption).
      destruct (Hc i (Hl i (or_introl eq_refl))) as (_ & Hb & _). rewrite div_enc, mod_enc by exact Hb. reflexivity. }
    apply G. exact Hin.
  - destruct H. destruct bs; [simpl in *; lia|discriminate].
  - exact Hn.
  - rewrite Ebs. apply Forall_forall. intros b Hb. apply in_map_iff in Hb. destruct Hb as (i & <- & Hi).
    destruct (Hc i (Hin i Hi)) as (Ha & Hb & _). unfold in_regime. inversion Henc; subst; nia.
Qed.

Lemma enc_inj m off a b c d : 0 <= b < m -> 0 <= d < m -> m * a + b + off = m * c + d + off -> a = c /\ b = d.
Proof.
  intros Hb Hd E. pose proof (div_enc m a b off Hb) as D1. pose proof (mod_enc m a b off Hb) as M1.
  rewrite E in D1, M1. rewrite (div_enc m c d off Hd) in D1. rewrite (mod_enc m c d off Hd) in M1. auto.
Qed.

(** a row has the antennas of the first row of its baseline *)
Lemma row_first u bs i : consistent u -> rect_axis u bs -> (i < length (time_array u))%nat ->
  let q := (if time_axis_faster_than_bls u then i / Ntimes u else i mod Nbls u)%nat in
  (q < Nbls u)%nat /\
  nth (nth q (firsts u) 0%nat) (ant_1_array u) 0 = nth i (ant_1_array u) 0 /\
  nth (nth q (firsts u) 0%nat) (ant_2_array u) 0 = nth i (ant_2_array u) 0.
Proof.
  intros (_ & (m & off & Henc & Hc) & _) H Hi q.
  assert (Hq : (q < Nbls u)%nat).
  { subst q. destruct H. destruct (time_axis_faster_than_bls u).
    - apply Nat.div_lt_upper_bound; lia.
    - apply Nat.mod_upper_bound. lia. }
  split; [exact Hq|]. destruct (firsts_row u bs q H Hq) as [H1 H2].
  assert (E : nth (nth q (firsts u) 0%nat) (baseline_array u) 0 = nth i (baseline_array u) 0).
  { rewrite !(ra_bl u bs H) by assumption. rewrite H2. reflexivity. }
  destruct (Hc _ H1) as (A1 & A2 & E1). destruct (Hc _ Hi) as (B1 & B2 & E2). rewrite E1, E2 in E.
  destruct (enc_inj m off _ _ _ _ A2 B2 E). auto.
Qed.

(** distinct baselines have distinct antenna pairs *)
Lemma first_inj u bs q q' : consistent u -> rect_axis u bs -> (q < Nbls u)%nat -> (q' < Nbls u)%nat ->
  nth (nth q (firsts u) 0%nat) (ant_1_array u) 0 = nth (nth q' (firsts u) 0%nat) (ant_1_array u) 0 ->
  nth (nth q (firsts u) 0%nat) (ant_2_array u) 0 = nth (nth q' (firsts u) 0%nat) (ant_2_array u) 0 -> q = q'.
Proof.
  intros (_ & (m & off & Henc & Hc) & _) H Hq Hq' E1 E2.
  destruct (firsts_row u bs q H Hq) as [H1 H2]. destruct (firsts_row u bs q' H Hq') as [H1' H2'].
  destruct (Hc _ H1) as (_ & _ & B). destruct (Hc _ H1') as (_ & _ & B').
  rewrite (ra_bl u bs H) in B, B' by assumption. rewrite H2 in B. rewrite H2' in B'.
  destruct H. apply (proj1 (NoDup_nth bs 0) ra_nodup0); [lia|lia|]. rewrite B, B', E1, E2. reflexivity.
Qed.

Lemma firsts_pairs_nth u q : (q < Nbls u)%nat ->
  nth q (map (fun i => (nth i (ant_1_array u) 0, nth i (ant_2_array u) 0)) (firsts u)) (0, 0)
  = (nth (nth q (firsts u) 0%nat) (ant_1_array u) 0, nth (nth q (firsts u) 0%nat) (ant_2_array u) 0).
Proof. intros Hq. rewrite (nth_map _ _ _ 0%nat) by (rewrite firsts_length; exact Hq). reflexivity. Qed.

Definition rect_rows (u : uvd) (q : nat) : list nat :=
  map (fun i => ((if time_axis_faster_than_bls u then Ntimes u * q else q)
                 + (if time_axis_faster_than_bls u then 1 else Nbls u) * i)%nat) (seq 0 (Ntimes u)).

Lemma rect_rows_In u bs q i : rect_axis u bs -> (q < Nbls u)%nat ->
  In i (rect_rows u q) <-> (i < length (time_array u))%nat /\
    (if time_axis_faster_than_bls u then i / Ntimes u else i mod Nbls u)%nat = q.
Proof.
  intros H Hq. destruct H. unfold rect_rows. rewrite in_map_iff, ra_n0. destruct (time_axis_faster_than_bls u).
  - split.
    + intros (r & <- & Hr). apply in_seq in Hr. split; [nia|].
      symmetry. apply Nat.div_unique with (r := r); lia.
    + intros (Hi & E). exists (i mod Ntimes u)%nat. rewrite in_seq.
      pose proof (Nat.div_mod i (Ntimes u) ltac:(lia)). pose proof (Nat.mod_upper_bound i (Ntimes u) ltac:(lia)). subst q. lia.
  - split.
    + intros (r & <- & Hr). apply in_seq in Hr. split; [nia|].
      symmetry. apply Nat.mod_unique with (q := r); lia.
    + intros (Hi & E). exists (i / Nbls u)%nat. rewrite in_seq.
      pose proof (Nat.div_mod i (Nbls u) ltac:(lia)). split; [lia|].
      split; [apply Nat.le_0_l|]. apply Nat.div_lt_upper_bound; [lia|exact Hi].
Qed.

Lemma map_seq_sorted (f : nat -> nat) n : (forall i j, (i < j)%nat -> (f i < f j)%nat) -> StronglySorted lt (map f (seq 0 n)).
Proof.
  intros H. apply (proj1 (StronglySorted_map lt f (seq 0 n))). eapply StronglySorted_impl; [|apply seq_sorted]. intros x y _ _; apply H.
Qed.

Lemma rect_rows_pair u bs q : consistent u -> rect_axis u bs -> (q < Nbls u)%nat ->
  rect_rows u q = pair_rows u (nth (nth q (firsts u) 0%nat) (ant_1_array u) 0) (nth (nth q (firsts u) 0%nat) (ant_2_array u) 0).
Proof.
  intros Hcons H Hq. apply (sorted_unique lt); try (intros; lia).
  - apply map_seq_sorted. intros i j Hij. destruct H. destruct (time_axis_faster_than_bls u); nia.
  - apply pair_rows_sorted.
  - intros i. rewrite (rect_rows_In u bs q i H Hq), pair_rows_In. split.
    + intros (Hi & E). destruct (row_first u bs i Hcons H Hi) as (_ & E1 & E2). rewrite E in E1, E2. auto.
    + intros (Hi & E1 & E2). split; [exact Hi|]. destruct (row_first u bs i Hcons H Hi) as (Hq' & F1 & F2).
      apply (first_inj u bs _ _ Hcons H Hq' Hq); congruence.
Qed.

Lemma rect_slice_at u bs q : rect_axis u bs -> (q < Nbls u)%nat ->
  slice_indices (if time_axis_faster_than_bls u
     then mkslice (Some (Z.of_nat (Ntimes u * q))) (Some (Z.of_nat (Ntimes u * (q + 1)))) None
     else mkslice (Some (Z.of_nat q)) None (Some (Z.of_nat (Nbls u)))) (Z.of_nat (length (time_array u)))
  = Ok (map Z.of_nat (rect_rows u q)).
Proof.
  intros H Hq. destruct H. unfold rect_rows. rewrite ra_n0. destruct (time_axis_faster_than_bls u).
  - rewrite slice_between by nia. rewrite <- arith_of_nat. f_equal. f_equal. nia.
  - replace (Z.of_nat (Nbls u * Ntimes u)) with (Z.of_nat (Nbls u) * Z.of_nat (Ntimes u)) by lia.
    rewrite slice_from by lia. rewrite Nat2Z.id. rewrite arith_of_nat. reflexivity.
Qed.

(** An answer "selects the rows", in both senses. *)
Definition hits (n : nat) (ix : option axis_index) (rows : list nat) : Prop :=
  match ix with
  | None => rows = []
  | Some ix => rows <> [] /\ at_index n ix = Ok rows /\ positions (Z.of_nat n) ix = Ok (map Z.of_nat rows) /\ tame ix
  end.

Lemma rect_slice_hits u bs a b : consistent u -> rect_axis u bs -> 
  hits (Nblts u) (rect_slice u (map (fun i => (nth i (ant_1_array u) 0, nth i (ant_2_array u) 0)) (firsts u)) a b) (pair_rows u a b) /\
  forall ix, rect_slice u (map (fun i => (nth i (ant_1_array u) 0, nth i (ant_2_array u) 0)) (firsts u)) a b = Some ix -> exists s, ix = ISlice s.
Proof.
  intros Hcons H. unfold rect_slice.
  destruct (index_of zpair_eqb (a, b) (map (fun i => (nth i (ant_1_array u) 0, nth i (ant_2_array u) 0)) (firsts u))) as [q|] eqn:E.
  - split; [|intros ix Eix; injection Eix as <-; eexists; reflexivity].
    apply (index_of_Some _ zpair_eqb_eq (0, 0)) in E. destruct E as (Hq & E & _). rewrite map_length, firsts_length in Hq.
    rewrite firsts_pairs_nth in E by exact Hq. injection E as <- <-.
    pose proof (rect_slice_at u bs q H Hq) as S. pose proof (rect_rows_pair u bs q Hcons H Hq) as R. rewrite R in S.
    cbn [hits]. split; [|split].
    + rewrite <- R. unfold rect_rows. destruct H. destruct (Ntimes u); [lia|discriminate].
    + apply at_index_slice. exact S.
    + split; [exact S|]. cbn [tame]. destruct H. destruct (time_axis_faster_than_bls u); cbn [s_start s_stop s_step]; lia.
  - split; [|intros ix Eix; discriminate].
    cbn [hits]. apply (index_of_None _ zpair_eqb_eq) in E. destruct (pair_rows u a b) as [|i l] eqn:El; [reflexivity|]. exfalso.
    assert (Hi : In i (pair_rows u a b)) by (rewrite El; left; reflexivity). apply pair_rows_In in Hi. destruct Hi as (Hi & E1 & E2).
    apply E. destruct (row_first u bs i Hcons H Hi) as (Hq & F1 & F2).
    apply in_map_iff. eexists. split; [|apply nth_In; rewrite firsts_length; exact Hq]. rewrite F1, F2, E1, E2. reflexivity.
Qed.

(** ** antpair2ind without the cache *)
Definition wanted (u : uvd) (a b : Z) (ordered : bool) : list nat :=
  pair_rows u a b ++ (if ordered then [] else pair_rows u b a).

(** The rows answered: as wanted, except that two rows in decreasing order are
    mangled by slicify. *)
Definition canon (u : uvd) (a b : Z) (ordered : bool) : option axis_index :=
  slicify (some_list (map Z.of_nat (wanted u a b ordered))).

Definition same_sel (n : nat) (x y : option axis_index) : Prop :=
  match x, y with
  | None, None => True
  | Some i, Some j => at_index n i = at_index n j /\ positions (Z.of_nat n) i = positions (Z.of_nat n) j /\ (tame i <-> tame j)
  | _, _ => False
  end.
Lemma same_sel_refl n x : same_sel n x x.
Proof. destruct x; simpl; tauto. Qed.
Lemma same_sel_sym n x y : same_sel n x y -> same_sel n y x.
Proof. destruct x, y; simpl; auto. intros (-> & -> & ?). tauto. Qed.
Lemma same_sel_trans n x y z : same_sel n x y -> same_sel n y z -> same_sel n x z.
Proof. destruct x, y, z; simpl; auto; try tauto. intros (-> & -> & ?) (-> & -> & ?). tauto. Qed.

Lemma hits_same n x y rows : hits n x rows -> hits n y rows -> same_sel n x y.
Proof.
  destruct x, y; simpl; auto.
  - intros (_ & A & B & T) (_ & C & D & T'). split; [congruence|]. split; [congruence|tauto].
  - intros (H & _) E. contradiction.
  - intros E (H & _). contradiction.
Qed.

Lemma canon_hits u rows : StronglySorted lt rows -> Forall (fun i => (i < length (time_array u))%nat) rows ->
  hits (Nblts u) (slicify (some_list (map Z.of_nat rows))) rows.
Proof.
  intros Hs Hb. destruct rows as [|i l]; [reflexivity|]. unfold some_list. cbn [map].
  destruct (slicify_at (Nblts u) (i :: l)) as (ix & E & A & P); [discriminate|exact Hs|exact Hb|].
  cbn [map] in E. rewrite E. cbn [hits]. split; [discriminate|]. split; [assumption|exact P].
Qed.

Lemma canon_ordered u a b : hits (Nblts u) (canon u a b true) (pair_rows u a b).
Proof. unfold canon, wanted. rewrite app_nil_r. apply canon_hits; [apply pair_rows_sorted|apply pair_rows_bound]. Qed.

Lemma antpair_search_ok u a b ordered : consistent u ->
  exists v, antpair_search u a b ordered = Ok v /\ same_sel (Nblts u) v (canon u a b ordered).
Proof.
  intros Hc. unfold antpair_search.
  assert (Non : exists v, Ok (slicify (match pair_where u a b ++ (if ordered then [] else pair_where u b a) with
                       | [] => None | z :: l => Some (IList (pair_where u a b ++ (if ordered then [] else pair_where u b a))) end)) = Ok v
                     /\ same_sel (Nblts u) v (canon u a b ordered)).
  { eexists. split; [reflexivity|]. rewrite !pair_where_rows by apply Hc.
    replace (map Z.of_nat (pair_rows u a b) ++ (if ordered then [] else map Z.of_nat (pair_rows u b a)))
      with (map Z.of_nat (wanted u a b ordered)) by (unfold wanted; rewrite map_app; destruct ordered; reflexivity).
    unfold canon, some_list. destruct (map Z.of_nat (wanted u a b ordered)); apply same_sel_refl. }
  destruct (blts_are_rectangular u) as [[]|] eqn:Er; [|exact Non|exact Non].
  destruct (rect_axis_of u Hc Er) as (bs & H). rewrite (rect_pairs u bs Hc H Er). cbn [bind].
  destruct (rect_slice_hits u bs a b Hc H) as [H1 S1]. destruct (rect_slice_hits u bs b a Hc H) as [H2 S2].
  set (L := map _ (firsts u)) in *.
  assert (Slf : forall ix, (exists s, ix = ISlice s) -> slicify (Some ix) = Some ix) by (intros ix [s ->]; reflexivity).
  destruct ordered.
  - cbn [bind]. eexists. split; [reflexivity|]. eapply hits_same; [|apply canon_ordered].
    destruct (rect_slice u L a b) as [ix|] eqn:E1; [rewrite Slf by (apply S1; reflexivity)|]; exact H1.
  - unfold canon, wanted. destruct (rect_slice u L b a) as [i2|] eqn:E2.
    + destruct (rect_slice u L a b) as [i1|] eqn:E1.
      * cbn [hits] in H1, H2. destruct H1 as (N1 & A1 & _). destruct H2 as (N2 & A2 & _). rewrite A1, A2. cbn [bind].
        eexists. split; [reflexivity|]. unfold some_list.
        destruct (map Z.of_nat (pair_rows u a b ++ pair_rows u b a)) as [|z l] eqn:El; [|apply same_sel_refl].
        apply map_eq_nil in El. apply app_eq_nil in El. destruct El. congruence.
      * cbn [hits] in H1. rewrite H1. cbn [bind app]. eexists. split; [reflexivity|].
        rewrite Slf by (apply S2; reflexivity). eapply hits_same; [exact H2|].
        apply canon_hits; [apply pair_rows_sorted|apply pair_rows_bound].
    + cbn [hits] in H2. rewrite H2, app_nil_r. cbn [bind]. eexists. split; [reflexivity|]. eapply hits_same; [|apply canon_hits; [apply pair_rows_sorted|apply pair_rows_bound]].
      destruct (rect_slice u L a b) as [ix|] eqn:E1; [rewrite Slf by (apply S1; reflexivity)|]; exact H1.
Qed.

(** ** the caches *)
Lemma apkey_eqb_eq x y : apkey_eqb x y = true <-> x = y.
Proof.
  destruct x as [[a b] o], y as [[c d] q]. unfold apkey_eqb. rewrite !andb_true_iff, !Z.eqb_eq, Bool.eqb_true_iff.
  split; [intros [[-> ->] ->]; reflexivity|]. intros E; injection E; auto.
Qed.
Lemma ukey_eqb_eq x y : ukey_eqb x y = true <-> x = y.
Proof.
  destruct x, y; simpl; rewrite ?andb_true_iff, ?Z.eqb_eq, ?String.eqb_eq; split; try discriminate;
    try (intros E; injection E; auto; fail); intuition (subst; reflexivity).
Qed.

Definition same_entry (n : nat) (e e' : entry) : Prop :=
  let '(i1, i2, p) := e in let '(j1, j2, q) := e' in same_sel n i1 j1 /\ same_sel n i2 j2 /\ p = q.
Definition same_res (n : nat) (r r' : result entry) : Prop :=
  match r, r' with
  | Ok e, Ok e' => same_entry n e e'
  | Err x, Err y => x = y
  | _, _ => False
  end.

Lemma same_entry_refl n e : same_entry n e e.
Proof. destruct e as [[i j] p]. repeat split; apply same_sel_refl. Qed.
Lemma same_res_refl n r : same_res n r r.
Proof. destruct r; [apply same_entry_refl|reflexivity]. Qed.
Lemma same_entry_sym n e f : same_entry n e f -> same_entry n f e.
Proof. destruct e as [[? ?] ?], f as [[? ?] ?]. simpl. intros (A & B & ->). repeat split; apply same_sel_sym; assumption. Qed.
Lemma same_entry_trans n e f g : same_entry n e f -> same_entry n f g -> same_entry n e g.
Proof.
  destruct e as [[? ?] ?], f as [[? ?] ?], g as [[? ?] ?]. simpl. intros (A & B & ->) (C & D & ->).
  repeat split; eapply same_sel_trans; eassumption.
Qed.
Lemma same_res_sym n r s : same_res n r s -> same_res n s r.
Proof. destruct r, s; simpl; auto. apply same_entry_sym. Qed.
Lemma same_res_trans n r s t : same_res n r s -> same_res n s t -> same_res n r t.
Proof. destruct r, s, t; simpl; try tauto; try congruence. apply same_entry_trans. Qed.

Lemma pair_entry_sim u n i1 i2 j1 j2 pol : same_sel n i1 j1 -> same_sel n i2 j2 ->
  same_res n (pair_entry u i1 i2 pol) (pair_entry u j1 j2 pol).
Proof.
  intros H1 H2. unfold pair_entry.
  destruct i1 as [i1|], j1 as [j1|]; cbn [same_sel] in H1; try contradiction;
  destruct i2 as [i2|], j2 as [j2|]; cbn [same_sel] in H2; try contradiction;
    destruct pol as [p|]; cbn [bind];
    try (destruct (conj_pol p) as [cp|e]; cbn [bind]; [|reflexivity]);
    try (destruct (reorder_conj_pols (polarization_array u)) as [l|[]]; cbn [bind]);
    try (destruct (some_list (pol_where u p)));
    try (destruct (some_list (pol_where u cp)));
    cbn; auto.
Qed.

Definition canon_pair (u : uvd) (xo : option string) (k : ukey) (a b : Z) : result entry :=
  match canon u a b true, (if a =? b then None else canon u b a true) with
  | None, None => Err KeyError
  | i1, i2 => do pol <- pair_pol k xo; pair_entry u i1 i2 pol
  end.

Definition canon_key (u : uvd) (xo : option string) (k : ukey) : result entry :=
  match k with
  | KPol s => do p <- polstr2num xo s; pol_entry u p
  | KNum n =>
      if n <? 5 then pol_entry u n else
      match baseline_to_antnums [n] (Nants_telescope u) with
      | Ok ([a], [b]) => canon_pair u xo (KPair a b) a b
      | Ok _ => Err Undefined
      | Err e => Err e
      end
  | KPair a b | KPairS a b _ | KPairN a b _ => canon_pair u xo k a b
  end.

Definition apc_ok (u : uvd) (c : list (apkey * option axis_index)) : Prop :=
  forall a b ord v, dget apkey_eqb (a, b, ord) c = Ok v -> same_sel (Nblts u) v (canon u a b ord).
Definition kc_ok (u : uvd) (xo : option string) (c : list (ukey * entry)) : Prop :=
  forall k e, dget ukey_eqb k c = Ok e -> (forall n, k <> KNum n) -> same_res (Nblts u) (Ok e) (canon_key u xo k).
Definition inv (o : obj) : Prop := apc_ok (o_u o) (o_apc o) /\ kc_ok (o_u o) (o_xo o) (o_kc o).

Lemma antpair2ind_inv a b ord o : consistent (o_u o) -> inv o ->
  exists v, antpair2ind a b ord o = (fst (antpair2ind a b ord o), Ok v) /\
    same_sel (Nblts (o_u o)) v (canon (o_u o) a b ((a =? b) || ord)) /\
    o_u (fst (antpair2ind a b ord o)) = o_u o /\ o_xo (fst (antpair2ind a b ord o)) = o_xo o /\ inv (fst (antpair2ind a b ord o)).
Proof.
  intros Hc [HA HK]. unfold antpair2ind. set (od := (a =? b) || ord).
  destruct (dget apkey_eqb (a, b, od) (o_apc o)) as [v|] eqn:E.
  - exists v. cbn [fst]. repeat split; auto.
  - destruct (antpair_search_ok (o_u o) a b od Hc) as (v & Ev & Hv). rewrite Ev. cbn [fst o_u o_xo].
    exists v. repeat split; auto.
    intros a' b' od' v' E'. cbn [o_apc o_u] in *. rewrite (dget_dset _ apkey_eqb_eq) in E'.
    destruct (apkey_eqb (a', b', od') (a, b, od)) eqn:Ek.
    + apply apkey_eqb_eq in Ek. injection Ek as -> -> ->. injection E' as <-. exact Hv.
    + apply HA. exact E'.
Qed.

Lemma pair_lookup_inv a b o : consistent (o_u o) -> inv o ->
  exists o' i1 i2, pair_lookup a b o = (o', Ok (i1, i2)) /\
    same_sel (Nblts (o_u o)) i1 (canon (o_u o) a b true) /\
    same_sel (Nblts (o_u o)) i2 (if a =? b then None else canon (o_u o) b a true) /\
    o_u o' = o_u o /\ o_xo o' = o_xo o /\ inv o'.
Proof.
  intros Hc Hi. unfold pair_lookup.
  destruct (antpair2ind_inv a b true o Hc Hi) as (v & E & S & U & X & I). rewrite E.
  rewrite orb_true_r in S. destruct (a =? b) eqn:Eab.
  - do 3 eexists. split; [reflexivity|]. repeat split; auto; try apply I.
  - remember (fst (antpair2ind a b true o)) as o1 eqn:Eo1. rewrite <- U in Hc.
    destruct (antpair2ind_inv b a true o1 Hc I) as (v2 & E2 & S2 & U2 & X2 & I2). rewrite E2.
    rewrite orb_true_r in S2. rewrite U in S2, U2. rewrite X in X2.
    do 3 eexists. split; [reflexivity|]. repeat split; auto; try apply I2.
Qed.

Lemma remember_inv k o r r' : inv o -> same_res (Nblts (o_u o)) r r' -> r' = canon_key (o_u o) (o_xo o) k \/ (exists n, k = KNum n) ->
  let o' := fst (remember k o r) in
  o_u o' = o_u o /\ o_xo o' = o_xo o /\ inv o' /\ same_res (Nblts (o_u o)) (snd (remember k o r)) r'.
Proof.
  intros [HA HK] Hs Hk. unfold remember. destruct r as [e|x]; cbn [fst snd o_u o_xo]; repeat split; auto.
  intros k' e' E Hn. cbn [o_kc o_u o_xo] in *. rewrite (dget_dset _ ukey_eqb_eq) in E.
  destruct (ukey_eqb k' k) eqn:Ek; [|apply HK; assumption].
  apply ukey_eqb_eq in Ek. subst k'. injection E as <-. destruct Hk as [<-|(n & ->)]; [exact Hs|]. exfalso. exact (Hn n eq_refl).
Qed.

Lemma pair_key_inv k a b o : consistent (o_u o) -> inv o -> canon_key (o_u o) (o_xo o) k = canon_pair (o_u o) (o_xo o) k a b ->
  let r := pair_key k a b o in
  o_u (fst r) = o_u o /\ o_xo (fst r) = o_xo o /\ inv (fst r) /\ same_res (Nblts (o_u o)) (snd r) (canon_pair (o_u o) (o_xo o) k a b).
Proof.
  intros Hc Hi Hk. unfold pair_key.
  destruct (pair_lookup_inv a b o Hc Hi) as (o' & i1 & i2 & E & S1 & S2 & U & X & I). rewrite E.
  unfold canon_pair.
  assert (G : forall r r', same_res (Nblts (o_u o)) r r' -> r' = canon_pair (o_u o) (o_xo o) k a b ->
     o_u (fst (remember k o' r)) = o_u o /\ o_xo (fst (remember k o' r)) = o_xo o /\ inv (fst (remember k o' r)) /\
     same_res (Nblts (o_u o)) (snd (remember k o' r)) r').
  { intros r r' Hs Er'. rewrite <- U in Hs. destruct (remember_inv k o' r r' I Hs) as (A & B & C & D).
    - left. rewrite U, X, Hk. exact Er'.
    - rewrite U in A, D. rewrite X in B. repeat split; auto; apply C. }
  unfold canon_pair in G.
  destruct (canon (o_u o) a b true) as [c1|], i1 as [j1|]; cbn [same_sel] in S1; try contradiction;
  destruct (if a =? b then None else canon (o_u o) b a true) as [c2|], i2 as [j2|]; cbn [same_sel] in S2; try contradiction;
  cbv zeta; try (apply G; [|reflexivity]; rewrite U, X; destruct (pair_pol k (o_xo o)) as [pol|]; cbn [bind];
      [apply pair_entry_sim; cbn [same_sel]; auto|reflexivity]).
  cbn [fst snd]. repeat split; auto; apply I.
Qed.

Lemma key2inds_inv k o : consistent (o_u o) -> inv o ->
  let r := key2inds k o in
  o_u (fst r) = o_u o /\ o_xo (fst r) = o_xo o /\ inv (fst r) /\ same_res (Nblts (o_u o)) (snd r) (canon_key (o_u o) (o_xo o) k).
Proof.
  intros Hc Hi. unfold key2inds.
  assert (Hit : forall e, dget ukey_eqb k (o_kc o) = Ok e -> (forall n, k <> KNum n) ->
     o_u (fst (o, Ok e)) = o_u o /\ o_xo (fst (o, Ok e)) = o_xo o /\ inv (fst (o, Ok e)) /\
     same_res (Nblts (o_u o)) (snd (o, Ok e)) (canon_key (o_u o) (o_xo o) k)).
  { intros e E Hn. cbn [fst snd]. split; [reflexivity|]. split; [reflexivity|]. split; [exact Hi|]. exact (proj2 Hi k e E Hn). }
  destruct k as [s|n|a b|a b s|a b p].
  - destruct (dget ukey_eqb (KPol s) (o_kc o)) as [e|] eqn:E; [apply Hit; [reflexivity|discriminate]|].
    apply remember_inv; [exact Hi|apply same_res_refl|left; reflexivity].
  - cbn [canon_key]. destruct (n <? 5).
    + apply remember_inv; [exact Hi|apply same_res_refl|right; eauto].
    + destruct (baseline_to_antnums [n] (Nants_telescope (o_u o))) as [[[|a [|? ?]] [|b [|? ?]]]|e]; cbn [fst snd];
        try (repeat split; auto; apply Hi).
      apply pair_key_inv; auto.
  - destruct (dget ukey_eqb (KPair a b) (o_kc o)) as [e|] eqn:E; [apply Hit; [reflexivity|discriminate]|].
    apply pair_key_inv; auto.
  - destruct (dget ukey_eqb (KPairS a b s) (o_kc o)) as [e|] eqn:E; [apply Hit; [reflexivity|discriminate]|].
    apply pair_key_inv; auto.
  - destruct (dget ukey_eqb (KPairN a b p) (o_kc o)) as [e|] eqn:E; [apply Hit; [reflexivity|discriminate]|].
    apply pair_key_inv; auto.
Qed.

(** ** histories keep the caches right *)
Lemma pair_rows_same u u' a b : same_ants u u' -> pair_rows u' a b = pair_rows u a b.
Proof. intros (H1 & H2 & H3). unfold pair_rows. rewrite H1, H2, H3. reflexivity. Qed.
Lemma canon_same u u' a b ord : same_ants u u' -> canon u' a b ord = canon u a b ord.
Proof. intros H. unfold canon, wanted. rewrite !(pair_rows_same u u') by exact H. reflexivity. Qed.
Lemma pair_entry_same u u' i1 i2 pol : same_pols u u' -> pair_entry u' i1 i2 pol = pair_entry u i1 i2 pol.
Proof. intros H. unfold pair_entry, pol_where. rewrite H. reflexivity. Qed.

Lemma canon_key_same u u' xo k : same_ants u u' -> same_pols u u' -> (forall n, k <> KNum n) ->
  canon_key u' xo k = canon_key u xo k.
Proof.
  intros HA HP Hn.
  assert (Hpair : forall a b, canon_pair u' xo k a b = canon_pair u xo k a b).
  { intros a b. unfold canon_pair. rewrite !(canon_same u u') by exact HA.
    destruct (canon u a b true), (if a =? b then None else canon u b a true); try reflexivity;
      destruct (pair_pol k xo); cbn [bind]; auto using pair_entry_same. }
  destruct k as [s|n|a b|a b s|a b p]; cbn [canon_key]; auto.
  - destruct (polstr2num xo s) as [p|]; [|reflexivity]. cbn [bind]. unfold pol_entry, pol_where. rewrite HP. reflexivity.
  - exfalso. exact (Hn n eq_refl).
Qed.

Lemma inv_other u u' xo apc kc : same_ants u u' -> same_pols u u' -> inv (mkobj u xo apc kc) -> inv (mkobj u' xo apc kc).
Proof.
  intros HA HP [IA IK]. split.
  - intros a b ord v E. cbn [o_u o_apc] in *. unfold Nblts. destruct HA as (A1 & A2 & A3). rewrite A3.
    rewrite (canon_same u u') by (repeat split; assumption). apply IA. exact E.
  - intros k e E Hn. cbn [o_u o_xo o_kc] in *. rewrite (canon_key_same u u') by assumption.
    unfold Nblts. destruct HA as (A1 & A2 & A3). rewrite A3. apply IK; assumption.
Qed.

Lemma inv_pols u u' xo apc kc : same_ants u u' -> inv (mkobj u xo apc kc) -> inv (mkobj u' xo apc []).
Proof.
  intros HA [IA IK]. split; [|intros k e E; discriminate].
  intros a b ord v E. cbn [o_u o_apc] in *. unfold Nblts. destruct HA as (A1 & A2 & A3). rewrite A3.
  rewrite (canon_same u u') by (repeat split; assumption). apply IA. exact E.
Qed.
Lemma inv_empty u xo : inv (mkobj u xo [] []).
Proof. split; [intros a b ord v E; discriminate|intros k e E; discriminate]. Qed.

Lemma get_cube_fst {A} conj (f : uvd -> cube A) k o : fst (get_cube conj f k o) = fst (key2inds k o).
Proof. unfold get_cube. destruct (key2inds k o) as [o' [e|x]]; reflexivity. Qed.
Lemma get_times_fst k o : fst (get_times k o) = fst (key2inds k o).
Proof. unfold get_times. destruct (key2inds k o) as [o' [[[i1 i2] p]|x]]; reflexivity. Qed.

Lemma set_with_inv {A} f upd sh (arr : cube A) k o :
  (forall c u, same_ants u (upd c u) /\ same_pols u (upd c u)) ->
  consistent (o_u o) -> inv o -> inv (fst (set_with f upd sh arr k o)).
Proof.
  intros Hupd Hc Hi. destruct (key2inds_inv k o Hc Hi) as (U & X & I & _). unfold set_with.
  destruct (key2inds k o) as [o' [e|x]]; cbn [fst snd] in *; [|exact I].
  destruct (set_cube (f (o_u o')) (o_u o') e sh arr) as [c|x]; cbn [fst]; [|exact I].
  destruct o' as [u' xo' apc kc]. cbn [o_u o_xo o_apc o_kc]. apply inv_other with (u := u'); [apply Hupd|apply Hupd|exact I].
Qed.

Lemma step_inv o o' : step o o' -> inv o -> inv o'.
Proof.
  intros H Hi. destruct H as [o a b ord Hc|o k Hc|o k Hc|o k Hc|o k Hc|o sh arr k Hc|o sh arr k Hc|o sh arr k Hc
    |o conv tol coords o' E|o ord minor af conj o' E|o req o' E|o force o' E|o u'|o u' HA|o u' HA HP].
  - destruct (antpair2ind_inv a b ord o Hc Hi) as (v & _ & _ & _ & _ & I). exact I.
  - unfold get_data. rewrite get_cube_fst. apply key2inds_inv; assumption.
  - unfold get_flags. rewrite get_cube_fst. apply key2inds_inv; assumption.
  - unfold get_nsamples. rewrite get_cube_fst. apply key2inds_inv; assumption.
  - rewrite get_times_fst. apply key2inds_inv; assumption.
  - apply set_with_inv; auto. intros c u. repeat split.
  - apply set_with_inv; auto. intros c u. repeat split.
  - apply set_with_inv; auto. intros c u. repeat split.
  - unfold obj_conjugate in E. destruct (conj_rows conv tol coords (o_u o)) as [[|i idx]|x]; [|destruct (conj_apply (i :: idx) (o_u o))|].
    + injection E as <-. exact Hi.
    + injection E as <-. apply inv_empty.
    + discriminate.
    + discriminate.
  - unfold obj_reorder_blts in E. destruct (reorder_blts ord minor af conj (o_u o)); [|discriminate].
    injection E as <-. apply inv_empty.
  - unfold obj_reorder_pols in E. destruct (reorder_pols req (o_u o)) as [u'|] eqn:R; [|discriminate]. injection E as <-.
    destruct o as [u xo apc kc]. cbn [o_u o_xo o_apc o_kc] in *. apply inv_pols with (u := u) (kc := kc); [|exact Hi].
    unfold reorder_pols in R. destruct req as [idx|od].
    + match type of R with (if ?c then _ else _) = _ => destruct c end; [discriminate|]. injection R as <-. repeat split.
    + destruct (determine_pol_order (polarization_array u) od); [|discriminate]. injection R as <-. repeat split.
  - unfold obj_set_rectangularity in E. destruct (set_rectangularity force (o_u o)) as [u'|] eqn:R; [|discriminate]. injection E as <-.
    destruct o as [u xo apc kc]. cbn [o_u o_xo o_apc o_kc] in *.
    assert (HS : same_ants u u' /\ same_pols u u').
    { unfold set_rectangularity in R.
      assert (G : (do (rect, time) <- determine_rectangularity (time_array u) (baseline_array u) (Nbls u) (Ntimes u) (blt_order u);
          Ok (set_time_axis_faster_than_bls time (set_blts_are_rectangular (Some rect) u))) = Ok u' -> same_ants u u' /\ same_pols u u').
      { intros R'. apply bind_Ok in R'. destruct R' as ([rect time] & _ & R'). injection R' as <-. repeat split. }
      destruct (blts_are_rectangular u), force; auto. injection R as <-. repeat split. }
    apply inv_other with (u := u); tauto.
  - apply inv_empty.
  - destruct o as [u xo apc kc]. apply inv_pols with (u := u) (kc := kc); assumption.
  - destruct o as [u xo apc kc]. apply inv_other with (u := u); assumption.
Qed.

Lemma reachable_inv o : reachable o -> inv o.
Proof.
  intros (u & xo & H). assert (inv (fresh u xo)) as Hi by apply inv_empty. induction H as [|x y z Hxy _ IH]; [exact Hi|].
  apply IH. eapply step_inv; eassumption.
Qed.

(** ** what the queries return *)
Lemma smart_sim {A} u conj (c : cube A) e e' : same_entry (Nblts u) e e' -> smart_slicing u conj c e = smart_slicing u conj c e'.
Proof.
  destruct e as [[i1 i2] [p1 p2]], e' as [[j1 j2] [q1 q2]]. intros (S1 & S2 & E). injection E as -> ->. unfold smart_slicing.
  destruct i1 as [i1|], j1 as [j1|]; cbn [same_sel] in S1; try contradiction;
  destruct i2 as [i2|], j2 as [j2|]; cbn [same_sel] in S2; try contradiction;
  repeat match goal with H : _ /\ _ |- _ => destruct H end; try reflexivity;
  repeat match goal with H : at_index _ _ = at_index _ _ |- _ => rewrite H; clear H end; reflexivity.
Qed.

Lemma get_cube_ok {A} conj (f : uvd -> cube A) k o : consistent (o_u o) -> inv o ->
  snd (get_cube conj f k o) = (do e <- canon_key (o_u o) (o_xo o) k; smart_slicing (o_u o) conj (f (o_u o)) e).
Proof.
  intros Hc Hi. destruct (key2inds_inv k o Hc Hi) as (U & X & I & S). unfold get_cube.
  destruct (key2inds k o) as [o' [e|x]]; cbn [fst snd] in *; rewrite ?U;
    destruct (canon_key (o_u o) (o_xo o) k) as [e'|y]; cbn [same_res] in S; try contradiction.
  - cbn [bind]. apply smart_sim. exact S.
  - subst. reflexivity.
Qed.

Definition times_of (u : uvd) (e : entry) : result (list Z) :=
  let part ind := match ind with None => Ok [] | Some ix => do p <- at_index (Nblts u) ix; Ok (take 0 (time_array u) p) end in
  do t1 <- part (fst (fst e)); do t2 <- part (snd (fst e)); Ok (t1 ++ t2).

Lemma get_times_ok k o : consistent (o_u o) -> inv o ->
  snd (get_times k o) = (do e <- canon_key (o_u o) (o_xo o) k; times_of (o_u o) e).
Proof.
  intros Hc Hi. destruct (key2inds_inv k o Hc Hi) as (U & X & I & S). unfold get_times.
  destruct (key2inds k o) as [o' [[[i1 i2] ps]|x]]; cbn [fst snd] in *; rewrite ?U;
    destruct (canon_key (o_u o) (o_xo o) k) as [[[j1 j2] qs]|y]; cbn [same_res same_entry] in S; try contradiction.
  - cbn [bind]. unfold times_of. cbn [fst snd]. destruct S as (S1 & S2 & _).
    destruct i1 as [i1|], j1 as [j1|]; cbn [same_sel] in S1; try contradiction;
    destruct i2 as [i2|], j2 as [j2|]; cbn [same_sel] in S2; try contradiction;
    repeat match goal with H : _ /\ _ |- _ => destruct H end;
    repeat match goal with H : at_index _ _ = at_index _ _ |- _ => rewrite H; clear H end; reflexivity.
  - subst. reflexivity.
Qed.

Lemma same_as_fresh o : reachable o -> consistent (o_u o) ->
  let f := fresh (o_u o) (o_xo o) in
  (forall a b ord, exists v w, snd (antpair2ind a b ord o) = Ok v /\ snd (antpair2ind a b ord f) = Ok w /\
     match v, w with
     | None, None => True
     | Some i, Some j => positions (Z.of_nat (length (time_array (o_u o)))) i = positions (Z.of_nat (length (time_array (o_u o)))) j
     | _, _ => False end) /\
  (forall k, snd (get_data k o) = snd (get_data k f)) /\
  (forall k, snd (get_flags k o) = snd (get_flags k f)) /\
  (forall k, snd (get_nsamples k o) = snd (get_nsamples k f)) /\
  (forall k, snd (get_times k o) = snd (get_times k f)).
Proof.
  intros Hr Hc f. pose proof (reachable_inv o Hr) as Hi. assert (Hf : inv f) by apply inv_empty.
  split; [|split; [|split; [|split]]].
  - intros a b ord. destruct (antpair2ind_inv a b ord o Hc Hi) as (v & E & S & _).
    destruct (antpair2ind_inv a b ord f Hc Hf) as (w & E' & S' & _). exists v, w. rewrite E, E'. cbn [snd].
    split; [reflexivity|]. split; [reflexivity|]. cbn [f fresh o_u] in S'.
    pose proof (same_sel_trans _ _ _ _ S (same_sel_sym _ _ _ S')) as Hs. destruct v, w; cbn [same_sel] in Hs; try contradiction; try tauto.
  - intros k. unfold get_data. rewrite !get_cube_ok by assumption. reflexivity.
  - intros k. unfold get_flags. rewrite !get_cube_ok by assumption. reflexivity.
  - intros k. unfold get_nsamples. rewrite !get_cube_ok by assumption. reflexivity.
  - intros k. rewrite !get_times_ok by assumption. reflexivity.
Qed.

(** ** antpair2ind *)
Lemma hits_finds u ix rows : hits (Nblts u) ix rows -> finds (length (time_array u)) ix rows.
Proof. destruct ix; simpl; [|auto]. intros (H & _ & P & _). auto. Qed.

Lemma hits_sel n v w rows : same_sel n v w -> hits n w rows -> hits n v rows.
Proof.
  destruct v, w; simpl; try tauto. intros (-> & -> & ?). tauto.
Qed.

Lemma antpair2ind_ordered o a b : reachable o -> consistent (o_u o) ->
  exists ix, snd (antpair2ind a b true o) = Ok ix /\ finds (length (time_array (o_u o))) ix (pair_rows (o_u o) a b).
Proof.
  intros Hr Hc. destruct (antpair2ind_inv a b true o Hc (reachable_inv o Hr)) as (v & E & S & _). exists v. rewrite E. split; [reflexivity|].
  apply hits_finds. eapply hits_sel; [exact S|]. rewrite orb_true_r. apply canon_ordered.
Qed.

(** slicify keeps the selected positions unless the list is an arithmetic
    progression with a non-positive step *)
Lemma slicify_keeps n l : Forall (fun i => (i < n)%nat) l -> l <> [] ->
  (forall x y t, l = x :: y :: t -> all_diff (Z.of_nat y - Z.of_nat x) (map Z.of_nat l) = true -> (x < y)%nat) ->
  exists ix, slicify (Some (IList (map Z.of_nat l))) = Some ix /\ at_index n ix = Ok l /\
             positions (Z.of_nat n) ix = Ok (map Z.of_nat l) /\ tame ix.
Proof.
  intros Hb Hne Hstep. destruct l as [|x [|y t]]; [congruence| |].
  - apply slicify_at; [discriminate|repeat constructor|exact Hb].
  - destruct (all_diff (Z.of_nat y - Z.of_nat x) (map Z.of_nat (x :: y :: t))) eqn:E.
    + specialize (Hstep x y t eq_refl E). apply slicify_at; [discriminate| |exact Hb].
      cbn [map] in E. pose proof (all_diff_arith _ _ _ E) as Ha. 
      assert (St : StronglySorted Z.lt (map Z.of_nat (x :: y :: t))).
      { cbn [map]. rewrite Ha. unfold arith.
        apply (proj1 (StronglySorted_map Z.lt _ _)). eapply StronglySorted_impl; [|apply seq_sorted].
        intros i j _ _ Hij. cbv beta. nia. }
      apply (proj2 (StronglySorted_map Z.lt Z.of_nat (x :: y :: t))) in St.
      eapply StronglySorted_impl; [|exact St]. intros i j _ _; cbv beta; lia.
    + cbn [map slicify]. cbn [map] in E. rewrite E. eexists. split; [reflexivity|].
      split; [exact (at_index_list n (x :: y :: t) Hb)|]. split; [reflexivity|exact I].
Qed.

Lemma all_diff_nth step l i : all_diff step l = true -> (S i < length l)%nat -> nth (S i) l 0 = nth i l 0 + step.
Proof.
  intros H Hi. destruct l as [|x l]; [simpl in Hi; lia|]. rewrite (all_diff_arith _ _ _ H). simpl in Hi.
  rewrite !nth_arith by lia. lia.
Qed.

Lemma antpair2ind_unordered o a b : reachable o -> consistent (o_u o) -> a <> b ->
  ~ (exists x y, pair_rows (o_u o) a b = [x] /\ pair_rows (o_u o) b a = [y] /\ (y < x)%nat) ->
  exists ix, snd (antpair2ind a b false o) = Ok ix /\
    finds (length (time_array (o_u o))) ix (pair_rows (o_u o) a b ++ pair_rows (o_u o) b a).
Proof.
  intros Hr Hc Hab Hbad. destruct (antpair2ind_inv a b false o Hc (reachable_inv o Hr)) as (v & E & S & _). exists v. rewrite E.
  split; [reflexivity|]. apply hits_finds. eapply hits_sel; [exact S|].
  replace ((a =? b) || false) with false by (destruct (a =? b) eqn:Eab; lia). unfold canon, wanted.
  set (R1 := pair_rows (o_u o) a b) in *. set (R2 := pair_rows (o_u o) b a) in *.
  assert (Hs1 : StronglySorted lt R1) by apply pair_rows_sorted.
  assert (Hs2 : StronglySorted lt R2) by apply pair_rows_sorted.
  assert (Hb : Forall (fun i => (i < Nblts (o_u o))%nat) (R1 ++ R2)) by (apply Forall_app; split; apply pair_rows_bound).
  assert (Hdis : forall i, In i R1 -> In i R2 -> False).
  { intros i H1 H2. apply pair_rows_In in H1, H2. destruct H1 as (_ & E1 & _), H2 as (_ & E2 & _). congruence. }
  destruct (R1 ++ R2) as [|z l] eqn:El; [reflexivity|].
  destruct (slicify_keeps (Nblts (o_u o)) (z :: l) Hb) as (ix & E1 & A & P); [discriminate| |].
  - intros x y t Exy Hd. rewrite Exy in El.
    destruct R1 as [|x1 [|y1 R1]]; cbn [app] in El.
    + rewrite El in Hs2. inversion Hs2 as [|? ? _ HF]; subst. inversion HF; subst. assumption.
    + injection El as -> E2. destruct R2 as [|y2 [|z2 R2]]; [discriminate| |].
      * injection E2 as -> <-. destruct (Nat.lt_trichotomy x y) as [H|[H|H]]; [exact H| |].
        -- subst. exfalso. apply (Hdis y); left; reflexivity.
        -- exfalso. apply Hbad. exists x, y. auto.
      * injection E2 as -> <-. assert (H3 : Z.of_nat z2 = Z.of_nat y + (Z.of_nat y - Z.of_nat x)).
        { pose proof (all_diff_nth _ _ 1%nat Hd) as H. rewrite Exy in H. simpl in H. specialize (H ltac:(lia)). lia. }
        inversion Hs2 as [|? ? _ HF]; subst. inversion HF; subst. lia.
    + injection El as -> -> _. inversion Hs1 as [|? ? _ HF]; subst. inversion HF; subst. assumption.
  - unfold some_list. cbn [map] in *. rewrite E1. cbn [hits]. split; [discriminate|]. auto.
Qed.

