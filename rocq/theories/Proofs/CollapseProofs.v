(** Proofs for C49 and C50. *)
From Coq Require Import List ZArith Bool Arith QArith Qcanon Reals Qreals Lia Lra String Permutation.
From Verif Require Import Lib.Py Lib.QSum Model.Collapse Spec.CollapseSpec.
Import ListNotations.
Notation length := List.length.
Open Scope nat_scope.

(** ** The reduced elements *)

Definition agrees (gone : nat -> Prop) (k : nat) (m : list bool) : Prop :=
  forall j, j < length m -> (nth j m false = true <-> gone (k + j)).

Lemma agrees_tail gone k b m : agrees gone k (b :: m) -> agrees gone (S k) m.
Proof.
  intros H j Hj. specialize (H (S j)). cbn [nth length] in H.
  replace (S k + j) with (k + S j) by lia. apply H. lia.
Qed.

Lemma fibre_spec gone : forall m k s o i, length m = length s -> agrees gone k m ->
  (In i (fibre m s o) <-> Forall2 lt i s /\ projects gone k i o).
Proof.
  induction m as [|b m IH]; intros k s o i L A; destruct s as [|n s]; try discriminate L.
  - cbn [fibre]. destruct o as [|x o]; cbn [In].
    + split; [intros [<-|[]]; split; constructor|].
      intros [H _]. inversion H. left. reflexivity.
    + split; [intros []|]. intros [H P]. inversion H; subst. inversion P.
  - injection L as L. pose proof (agrees_tail _ _ _ _ A) as A'.
    assert (A0 := A 0 ltac:(cbn; lia)). cbn [nth] in A0. rewrite Nat.add_0_r in A0.
    destruct b; cbn [fibre].
    + assert (G : gone k) by (apply A0; reflexivity).
      rewrite in_flat_map. split.
      * intros (x & Hx & H). apply in_seq in Hx. apply in_map_iff in H as (j & <- & Hj).
        apply (IH (S k) s o j L A') in Hj as [F P]. split; constructor; auto; lia.
      * intros [F P]. inversion F as [|x n' j s' Hx Fj]; subst. exists x. split; [apply in_seq; lia|].
        apply in_map. apply (IH (S k) s o j L A'). split; [exact Fj|].
        inversion P; subst; [assumption|contradiction].
    + assert (G : ~ gone k) by (intro g; apply A0 in g; discriminate).
      destruct o as [|x o].
      * split; [intros []|]. intros [F P]. inversion F; subst. inversion P; subst. contradiction.
      * destruct (x <? n) eqn:E.
        -- apply Nat.ltb_lt in E. rewrite in_map_iff. split.
           ++ intros (j & <- & Hj). apply (IH (S k) s o j L A') in Hj as [F P]. split; [constructor|apply PKept]; auto.
           ++ intros [F P]. inversion F as [|y n' j s' Hx Fj]; subst. inversion P; subst; [contradiction|].
              exists j. split; [reflexivity|]. apply (IH (S k) s o j L A'). split; assumption.
        -- apply Nat.ltb_ge in E. split; [intros []|]. intros [F P]. inversion F as [|y n' j s' Hx Fj]; subst.
           inversion P; subst; [contradiction|lia].
Qed.

Lemma NoDup_flat {A B} (f : A -> list B) : forall l, NoDup l -> (forall x, In x l -> NoDup (f x)) ->
  (forall x y z, In x l -> In y l -> In z (f x) -> In z (f y) -> x = y) -> NoDup (flat_map f l).
Proof.
  induction l as [|x l IH]; intros N F D; [constructor|]. cbn [flat_map].
  inversion N as [|? ? Nx Nl]; subst.
  assert (N1 := F x (or_introl eq_refl)).
  assert (N2 : NoDup (flat_map f l)).
  { apply IH; [exact Nl|intros; apply F; right; assumption|]. intros; eapply D; try right; eassumption. }
  assert (S : forall z, In z (f x) -> ~ In z (flat_map f l)).
  { intros z Hz Hz'. apply in_flat_map in Hz' as (y & Hy & Hz'). apply Nx.
    rewrite (D x y z (or_introl eq_refl) (or_intror Hy) Hz Hz'). exact Hy. }
  clear - N1 N2 S. induction (f x) as [|z t IH]; [exact N2|]. cbn [app].
  inversion N1; subst. constructor.
  - intros H. apply in_app_or in H as [H|H]; [contradiction|]. apply (S z); [left; reflexivity|exact H].
  - apply IH; [assumption|]. intros w Hw. apply S. right. exact Hw.
Qed.

Lemma NoDup_cons_map (x : nat) l : NoDup l -> NoDup (map (cons x) l).
Proof.
  intros N. induction N; cbn [map]; constructor; [|assumption].
  rewrite in_map_iff. intros (y & E & Hy). injection E as ->. contradiction.
Qed.

Lemma fibre_NoDup : forall m s o, NoDup (fibre m s o).
Proof.
  induction m as [|b m IH]; intros s o; destruct s as [|n s]; cbn [fibre]; try constructor.
  - destruct o; repeat constructor. intros [].
  - destruct b; constructor.
  - destruct b.
    + apply NoDup_flat.
      * apply seq_NoDup.
      * intros x _. apply NoDup_cons_map, IH.
      * intros x y z _ _ H1 H2. apply in_map_iff in H1 as (a & <- & _). apply in_map_iff in H2 as (c & E & _).
        injection E. auto.
    + destruct o as [|x o]; [constructor|]. destruct (x <? n); [|constructor]. apply NoDup_cons_map, IH.
Qed.

Lemma norm_axis_spec n z k : norm_axis n z = Ok k -> forall j, j < n -> (j = k <-> named n j z).
Proof.
  unfold norm_axis, named. destruct (andb _ _) eqn:E; intros H; [|discriminate H]. injection H as <-.
  apply andb_true_iff in E as [E1 E2]. apply Z.leb_le in E1. apply Z.ltb_lt in E2.
  intros j Hj. destruct (Z.ltb_spec z 0); lia.
Qed.

Lemma mask_spec n ax m : mask n ax = Ok m -> length m = n /\ agrees (reduced ax n) 0 m.
Proof.
  destruct ax as [|z|l]; cbn [mask].
  - intros H. injection H as <-. rewrite repeat_length. split; [reflexivity|].
    intros j Hj. rewrite repeat_length in Hj. cbn [reduced]. split; [trivial|].
    intros _. clear -Hj. revert n Hj. induction j; intros [|n] Hj; try lia; cbn; [reflexivity|]. apply IHj. lia.
  - intros H. apply bind_Ok in H as (k & Hk & H). injection H as <-.
    rewrite map_length, seq_length. split; [reflexivity|].
    intros j Hj. rewrite map_length, seq_length in Hj.
    rewrite (nth_indep _ false (Nat.eqb k 0)) by (rewrite map_length, seq_length; lia).
    rewrite map_nth, seq_nth by lia. cbn [plus reduced]. rewrite Nat.eqb_eq, <- (norm_axis_spec n z k Hk j Hj).
    split; congruence.
  - intros H. apply bind_Ok in H as (ks & Hk & H). destruct (nodupb ks); [|discriminate H]. injection H as <-.
    rewrite map_length, seq_length. split; [reflexivity|].
    intros j Hj. rewrite map_length, seq_length in Hj. cbv beta.
    rewrite (nth_indep _ false (existsb (Nat.eqb 0) ks)) by (rewrite map_length, seq_length; lia).
    rewrite (map_nth (fun i => existsb (Nat.eqb i) ks)), seq_nth by lia. cbn [plus reduced].
    apply mapM_Ok_Forall2 in Hk. clear - Hk Hj. split.
    + intros H. apply existsb_exists in H as (k & Hk' & E). apply Nat.eqb_eq in E. subst k.
      induction Hk as [|z k l ks Hz _ IH]; [destruct Hk'|].
      destruct Hk' as [->|Hk']; [exists z; split; [left; reflexivity|]; apply (norm_axis_spec _ _ _ Hz j Hj); reflexivity|].
      destruct (IH Hk') as (z' & ? & ?). exists z'. split; [right|]; assumption.
    + intros (z & Hz & N). apply existsb_exists.
      induction Hk as [|z' k l ks Hz' _ IH]; [destruct Hz|].
      destruct Hz as [->|Hz].
      * exists k. split; [left; reflexivity|]. apply Nat.eqb_eq. apply (norm_axis_spec _ _ _ Hz' j Hj), N.
      * destruct (IH Hz) as (k' & ? & ?). exists k'. split; [right|]; assumption.
Qed.

Lemma cells_spec ax s m o : mask (length s) ax = Ok m ->
  NoDup (fibre m s o) /\ forall i, In i (fibre m s o) <-> lands ax s i o.
Proof.
  intros H. apply mask_spec in H as [L A]. split; [apply fibre_NoDup|].
  intros i. unfold lands. apply fibre_spec; assumption.
Qed.

Lemma reduce_Ok {A B} (f : list A -> B) ax a r : reduce f ax a = Ok r ->
  exists m, mask (length (shape a)) ax = Ok m /\ r = mkarr (kept m (shape a)) (fun o => f (map (at_ a) (fibre m (shape a) o))).
Proof. unfold reduce. intros H. apply bind_Ok in H as (m & Hm & H). injection H as <-. eauto. Qed.

(** ** Booleans *)

Definition is_true_cell (a : arr bool) (i : index) : Prop := at_ a i = true.

Lemma bool_collapse_Ok f b ax rw outs : bool_collapse f b ax rw = Ok outs ->
  exists a m, b = Bools a /\ mask (length (shape a)) ax = Ok m /\
    outs = Bools (mkarr (kept m (shape a)) (fun o => f (map (at_ a) (fibre m (shape a) o))))
           :: (if rw then [Nums (mkarr (kept m (shape a)) (fun _ => Fin 1%Qc))] else []).
Proof.
  unfold bool_collapse. destruct b as [a|a]; [|discriminate]. intros H.
  apply bind_Ok in H as (out & Ho & H). apply reduce_Ok in Ho as (m & Hm & ->). injection H as <-.
  exists a, m. auto.
Qed.

Lemma or_collapse_spec a w ax rw rw2 outs : or_collapse (Bools a) w ax rw rw2 = Ok outs ->
  exists out, hd_error outs = Some (Bools out) /\
    forall o, at_ out o = true <-> exists i, lands ax (shape a) i o /\ at_ a i = true.
Proof.
  intros H. unfold or_collapse, and_collapse in H. apply bool_collapse_Ok in H as (a' & m & E & Hm & ->). injection E as <-.
  eexists. split; [reflexivity|]. intros o. cbn [at_].
  destruct (cells_spec ax (shape a) m o Hm) as [_ C].
  rewrite existsb_exists. split.
  - intros (x & Hx & E). apply in_map_iff in Hx as (i & Ei & Hi). exists i. rewrite <- C. split; [exact Hi|].
    rewrite Ei. exact E.
  - intros (i & Hi & E). exists true. split; [|reflexivity]. rewrite <- E. apply in_map, C, Hi.
Qed.

Lemma and_collapse_spec a w ax rw rw2 outs : and_collapse (Bools a) w ax rw rw2 = Ok outs ->
  exists out, hd_error outs = Some (Bools out) /\
    forall o, at_ out o = true <-> forall i, lands ax (shape a) i o -> at_ a i = true.
Proof.
  intros H. unfold or_collapse, and_collapse in H. apply bool_collapse_Ok in H as (a' & m & E & Hm & ->). injection E as <-.
  eexists. split; [reflexivity|]. intros o. cbn [at_].
  destruct (cells_spec ax (shape a) m o Hm) as [_ C].
  rewrite forallb_forall. split.
  - intros H i Hi. apply (H (at_ a i)). apply in_map, C, Hi.
  - intros H x Hx. apply in_map_iff in Hx as (i & <- & Hi). apply H, C, Hi.
Qed.

Lemma bool_duality a w ax rw rw2 :
  match or_collapse (Bools a) w ax rw rw2, and_collapse (Bools (mkarr (shape a) (fun i => negb (at_ a i)))) w ax rw rw2 with
  | Ok (Bools x :: xs), Ok (Bools y :: ys) => shape x = shape y /\ xs = ys /\ forall o, at_ y o = negb (at_ x o)
  | Err e, Err e' => e = e'
  | _, _ => False
  end.
Proof.
  unfold or_collapse, and_collapse, bool_collapse, reduce. cbn [shape at_].
  destruct (mask (length (shape a)) ax) as [m|e]; cbn [bind]; [|reflexivity].
  cbn [shape at_]. split; [reflexivity|]. split; [reflexivity|].
  intros o. induction (fibre m (shape a) o) as [|i l IH]; [reflexivity|].
  cbn [map existsb forallb]. rewrite IH. unfold id. destruct (at_ a i); reflexivity.
Qed.

(** ** Means *)
Open Scope Qc_scope.

Lemma filter_total (f : index -> Qc) (p : index -> bool) l :
  (forall i, In i l -> p i = false -> f i = 0) -> qsum (map f l) = qsum (map f (filter p l)).
Proof.
  induction l as [|i l IH]; intros H; [reflexivity|]. cbn [map filter qsum fold_right].
  change (f i + qsum (map f l) = qsum (map f (if p i then i :: filter p l else filter p l))).
  rewrite IH by (intros; apply H; [right|]; assumption).
  destruct (p i) eqn:E; [reflexivity|]. rewrite (H i) by (auto using in_eq). ring.
Qed.

Lemma total_ext (f g : index -> Qc) l : (forall i, In i l -> f i = g i) -> qsum (map f l) = qsum (map g l).
Proof. intros H. f_equal. apply map_ext_in. exact H. Qed.

Lemma mean_collapse_spec a w ax rw rw2 outs : plain a -> mean_collapse a w ax rw rw2 = Ok outs ->
  exists out weights squares,
    outs = Nums out :: (if rw then [Nums weights] else []) ++ (if rw2 then [Nums squares] else []) /\
    forall o cells, finite_cells ax a o cells ->
      let W := total (weight_of w) cells in
      at_ weights o = Fin W /\
      at_ squares o = Fin (total (fun i => weight_of w i * weight_of w i) cells) /\
      (threshold < W -> at_ out o = Fin (total (fun i => weight_of w i * value_of a i) cells / W)) /\
      (W <= threshold -> at_ out o = Inf false).
Proof.
  intros P H. unfold mean_collapse in H. cbv zeta in H.
  apply bind_Ok in H as (r1 & H1 & H). apply bind_Ok in H as (r2 & H2 & H). apply bind_Ok in H as (r3 & H3 & H).
  apply reduce_Ok in H1 as (m & Hm & ->). apply reduce_Ok in H2 as (m2 & Hm2 & ->). apply reduce_Ok in H3 as (m3 & Hm3 & ->).
  cbn [shape masked_weights] in Hm, Hm2, Hm3. assert (m2 = m) by congruence. assert (m3 = m) by congruence. subst m2 m3.
  injection H as <-. do 3 eexists. split; [reflexivity|]. intros o.
  destruct (cells_spec ax (shape a) m o Hm) as [N C].
  set (cells := fibre m (shape a) o) in *.
  set (p := fun i => negb (isinf (at_ a i))).
  assert (FC : finite_cells ax a o (filter p cells)).
  { split; [apply NoDup_filter, N|]. intros i. rewrite filter_In, C. unfold p, isinf.
    split; intros [L E]; (split; [exact L|]).
    - destruct (at_ a i) eqn:Ei; [eauto|discriminate E|exfalso; exact (P i _ Ei)].
    - destruct E as (q & ->). reflexivity. }
  intros cells' FC'.
  assert (PE : Permutation cells' (filter p cells)).
  { apply NoDup_Permutation; [apply FC'|apply FC|]. intros i. rewrite (proj2 FC' i), (proj2 FC i). reflexivity. }
  assert (PT : forall f, total f cells' = total f (filter p cells)).
  { intros f. apply qsum_perm, Permutation_map, PE. }
  rewrite !PT. clear cells' FC' PE PT.
  cbn [at_ shape masked_weights]. cbv zeta.
  assert (E1 : qsum (map (at_ (masked_weights w a)) cells) = total (weight_of w) (filter p cells)).
  { unfold total. rewrite (filter_total _ p); [|intros i _ Hi; unfold p in Hi; cbn [at_ masked_weights];
      destruct (isinf (at_ a i)); [ring|discriminate Hi]].
    apply total_ext. intros i Hi. apply filter_In in Hi as [_ Hi]. unfold p in Hi. cbn [at_ masked_weights].
    destruct (isinf (at_ a i)); [discriminate Hi|]. unfold weight_of. ring. }
  assert (E2 : qsum (map (at_ (mkarr (shape a) (fun i => at_ (masked_weights w a) i * at_ (masked_weights w a) i))) cells)
               = total (fun i => weight_of w i * weight_of w i) (filter p cells)).
  { unfold total. rewrite (filter_total _ p); [|intros i _ Hi; unfold p in Hi; cbn [at_ masked_weights];
      destruct (isinf (at_ a i)); [ring|discriminate Hi]].
    apply total_ext. intros i Hi. apply filter_In in Hi as [_ Hi]. unfold p in Hi. cbn [at_ masked_weights].
    destruct (isinf (at_ a i)); [discriminate Hi|]. unfold weight_of. ring. }
  assert (E3 : qsum (map (at_ (mkarr (shape a) (fun i => at_ (masked_weights w a) i * fin (at_ a i)))) cells)
               = total (fun i => weight_of w i * value_of a i) (filter p cells)).
  { unfold total. rewrite (filter_total _ p); [|intros i _ Hi; unfold p in Hi; cbn [at_ masked_weights];
      destruct (isinf (at_ a i)); [ring|discriminate Hi]].
    apply total_ext. intros i Hi. apply filter_In in Hi as [_ Hi]. unfold p in Hi. cbn [at_ masked_weights].
    destruct (isinf (at_ a i)); [discriminate Hi|]. unfold weight_of. change (value_of a i) with (fin (at_ a i)). ring. }
  fold cells.
  change (fun i : index => at_ (masked_weights w a) i) with (at_ (masked_weights w a)) in *.
  cbn [at_ masked_weights] in E1, E2, E3 |- *. rewrite E1, E2, E3.
  split; [reflexivity|]. split; [reflexivity|]. unfold above.
  set (W := total (weight_of w) (filter p cells)).
  split; intros HW; destruct (Qclt_le_dec threshold W) as [L|L]; try reflexivity.
  - exfalso. exact (Qcle_not_lt _ _ L HW).
  - exfalso. exact (Qcle_not_lt _ _ HW L).
Qed.

Lemma threshold_pos : 0 < threshold.
Proof. reflexivity. Qed.

Lemma qsum_le f g (l : list index) : (forall i, In i l -> f i <= g i) -> qsum (map f l) <= qsum (map g l).
Proof.
  induction l as [|i l IH]; intros H; [apply Qcle_refl|]. cbn [map qsum fold_right].
  apply Qcplus_le_compat; [apply H; left; reflexivity|]. apply IH. intros; apply H. right. assumption.
Qed.

Lemma qsum_scale c f (l : list index) : qsum (map (fun i => c * f i) l) = c * qsum (map f l).
Proof.
  induction l as [|i l IH]; cbn [map qsum fold_right]; [ring|]. fold (qsum (map (fun i => c * f i) l)) (qsum (map f l)).
  rewrite IH. ring.
Qed.

Lemma Qcdiv_le_l x y z : 0 < z -> x <= y * z -> x / z <= y.
Proof.
  intros Hz H. apply (Qcmult_lt_0_le_reg_r _ _ z Hz). unfold Qcdiv.
  rewrite <- Qcmult_assoc, (Qcmult_comm (/ z)), Qcmult_inv_r, Qcmult_1_r; [exact H|].
  intros ->. exact (Qclt_not_eq _ _ Hz eq_refl).
Qed.
Lemma Qcdiv_le_r x y z : 0 < z -> y * z <= x -> y <= x / z.
Proof.
  intros Hz H. apply (Qcmult_lt_0_le_reg_r _ _ z Hz). unfold Qcdiv.
  rewrite <- Qcmult_assoc, (Qcmult_comm (/ z)), Qcmult_inv_r, Qcmult_1_r; [exact H|].
  intros ->. exact (Qclt_not_eq _ _ Hz eq_refl).
Qed.

Lemma mean_between w v cells lo hi :
  (forall i, In i cells -> 0 <= w i) ->
  (forall i, In i cells -> 0 < w i -> lo <= v i <= hi) ->
  let W := total w cells in 0 < W ->
  lo <= total (fun i => w i * v i) cells / W <= hi.
Proof.
  intros Hw Hv W HW. unfold total in *.
  assert (Z : forall i, In i cells -> w i * lo <= w i * v i <= w i * hi).
  { intros i Hi. destruct (Qc_eq_dec (w i) 0) as [E|E].
    - rewrite E, !Qcmult_0_l. split; apply Qcle_refl.
    - assert (P : 0 < w i). { destruct (Qcle_lt_or_eq _ _ (Hw i Hi)) as [?|Hw']; [assumption|congruence]. }
      destruct (Hv i Hi P) as [A B]. rewrite !(Qcmult_comm (w i)).
      split; apply Qcmult_le_compat_r; auto. }
  split.
  - apply Qcdiv_le_r; [exact HW|]. unfold W. rewrite <- qsum_scale. apply qsum_le. intros i Hi.
    rewrite (Qcmult_comm lo). apply Z, Hi.
  - apply Qcdiv_le_l; [exact HW|]. unfold W. rewrite <- qsum_scale. apply qsum_le. intros i Hi.
    rewrite (Qcmult_comm hi). apply Z, Hi.
Qed.

Lemma finite_cells_exist a ax m o : plain a -> mask (length (shape a)) ax = Ok m -> exists cells, finite_cells ax a o cells.
Proof.
  intros P Hm. destruct (cells_spec ax (shape a) m o Hm) as [N C].
  exists (filter (fun i => negb (isinf (at_ a i))) (fibre m (shape a) o)).
  split; [apply NoDup_filter, N|]. intros i. rewrite filter_In, C. unfold isinf.
  split; intros [L E]; (split; [exact L|]).
  - destruct (at_ a i) eqn:Ei; [eauto|discriminate E|exfalso; exact (P i _ Ei)].
  - destruct E as (q & ->). reflexivity.
Qed.

Lemma mean_mask a w ax rw rw2 outs : mean_collapse a w ax rw rw2 = Ok outs -> exists m, mask (length (shape a)) ax = Ok m.
Proof.
  intros H. unfold mean_collapse in H. cbv zeta in H. apply bind_Ok in H as (r1 & H1 & _).
  apply reduce_Ok in H1 as (m & Hm & _). exists m. exact Hm.
Qed.

(** ** Which axes are accepted *)

Definition in_range (n : nat) (z : Z) : Prop := (- Z.of_nat n <= z < Z.of_nat n)%Z.

Lemma norm_axis_ok n z : in_range n z -> norm_axis n z = Ok (Z.to_nat (z mod Z.of_nat n)%Z).
Proof.
  unfold in_range, norm_axis. intros [A B].
  replace (_ <=? _)%Z with true by (symmetry; apply Z.leb_le; lia).
  replace (_ <? Z.of_nat n)%Z with true by (symmetry; apply Z.ltb_lt; lia). cbn [andb].
  f_equal. f_equal. destruct (Z.ltb_spec z 0).
  - apply Z.mod_unique with (q := (-1)%Z); [left; lia|lia].
  - symmetry. apply Z.mod_small. lia.
Qed.

Lemma norm_axis_err n z : ~ in_range n z -> norm_axis n z = Err ValueError.
Proof.
  unfold in_range, norm_axis. intros H. destruct (andb _ _) eqn:E; [|reflexivity].
  apply andb_true_iff in E as [A B]. apply Z.leb_le in A. apply Z.ltb_lt in B. lia.
Qed.

Lemma nodupb_spec l : nodupb l = true <-> NoDup l.
Proof.
  induction l as [|x l IH]; cbn [nodupb]; [split; [constructor|trivial]|].
  rewrite andb_true_iff, negb_true_iff, IH. split.
  - intros [A B]. constructor; [|exact B]. intros Hx. rewrite <- not_true_iff_false in A. apply A.
    apply existsb_exists. exists x. rewrite Nat.eqb_eq. auto.
  - intros H. inversion H; subst. split; [|assumption]. rewrite <- not_true_iff_false. intros E.
    apply existsb_exists in E as (y & Hy & E). apply Nat.eqb_eq in E. subst. contradiction.
Qed.

Lemma mask_accepts n ax : axis_ok ax n -> exists m, mask n ax = Ok m.
Proof.
  destruct ax as [|z|l]; cbn [axis_ok mask]; intros H.
  - eauto.
  - rewrite norm_axis_ok by exact H. cbn [bind]. eauto.
  - destruct H as [R N].
    assert (E : mapM (norm_axis n) l = Ok (map (fun z => Z.to_nat (z mod Z.of_nat n)) l)).
    { clear N. induction l as [|z l IH]; [reflexivity|]. cbn [mapM map]. inversion R; subst.
      rewrite norm_axis_ok by assumption. cbn [bind]. rewrite IH by assumption. reflexivity. }
    rewrite E. cbn [bind].
    replace (nodupb _) with true; [eauto|]. symmetry. apply nodupb_spec.
    clear E. induction l as [|z l IH]; [constructor|]. cbn [map] in *. inversion N as [|? ? Nz Nl]; subst. inversion R as [|? ? Rz Rl]; subst.
    constructor; [|apply IH; assumption].
    rewrite in_map_iff. intros (y & E & Hy). apply Nz. apply in_map_iff. exists y. split; [|exact Hy].
    assert (Ry : in_range n y) by (rewrite Forall_forall in Rl; apply Rl, Hy).
    unfold in_range in *. apply Z2Nat.inj in E; [exact E| |]; apply Z.mod_pos_bound; lia.
Qed.

Lemma mask_refuses n ax : ~ axis_ok ax n -> mask n ax = Err ValueError.
Proof.
  destruct ax as [|z|l]; cbn [axis_ok mask]; intros H.
  - contradiction H. exact I.
  - rewrite norm_axis_err by exact H. reflexivity.
  - destruct (mapM (norm_axis n) l) as [ks|e] eqn:E; cbn [bind].
    + destruct (nodupb ks) eqn:D; [|reflexivity]. exfalso. apply H.
      apply nodupb_spec in D. apply mapM_Ok_Forall2 in E.
      assert (R : Forall (in_range n) l).
      { clear -E. induction E as [|z k l ks Hz _ IH]; constructor; [|exact IH].
        unfold norm_axis in Hz. destruct (andb _ _) eqn:B; [|discriminate Hz].
        apply andb_true_iff in B as [A B]. apply Z.leb_le in A. apply Z.ltb_lt in B. unfold in_range. lia. }
      split; [exact R|].
      assert (K : ks = map (fun z => Z.to_nat (z mod Z.of_nat n)) l).
      { clear -E R. induction E as [|z k l ks Hz _ IH]; [reflexivity|]. inversion R; subst. cbn [map].
        rewrite norm_axis_ok in Hz by assumption. injection Hz as <-. f_equal. apply IH. assumption. }
      subst ks. clear E R H. induction l as [|z l IH]; [constructor|]. cbn [map] in *. inversion D as [|? ? Nz Nl]; subst.
      constructor; [|apply IH, Nl]. rewrite in_map_iff. intros (y & E & Hy). apply Nz, in_map_iff. exists y.
      split; [rewrite E; reflexivity|exact Hy].
    + apply mapM_Err in E as (z & _ & Hz). unfold norm_axis in Hz. destruct (andb _ _); [discriminate Hz|]. congruence.
Qed.

Lemma mean_accepts a w ax rw rw2 : axis_ok ax (length (shape a)) -> exists outs, mean_collapse a w ax rw rw2 = Ok outs.
Proof.
  intros H. destruct (mask_accepts _ _ H) as (m & Hm). unfold mean_collapse, reduce, masked_weights. cbn [shape].
  rewrite Hm. cbn [bind]. eauto.
Qed.
Lemma mean_refuses a w ax rw rw2 : ~ axis_ok ax (length (shape a)) -> mean_collapse a w ax rw rw2 = Err ValueError.
Proof.
  intros H. unfold mean_collapse, reduce, masked_weights. cbn [shape]. rewrite (mask_refuses _ _ H). reflexivity.
Qed.

(** ** Consequences *)

Lemma default_weights_inf a ax rw rw2 outs : plain a -> mean_collapse a None ax rw rw2 = Ok outs ->
  exists out, hd_error outs = Some (Nums out) /\
    forall o, (at_ out o = Inf false <-> ~ exists i q, lands ax (shape a) i o /\ at_ a i = Fin q).
Proof.
  intros P H. destruct (mean_mask _ _ _ _ _ _ H) as (m & Hm).
  apply mean_collapse_spec in H as (out & ws & sq & -> & S); [|exact P]. exists out. split; [reflexivity|].
  intros o. destruct (finite_cells_exist a ax m o P Hm) as (cells & F).
  destruct (S o cells F) as (_ & _ & A & B).
  assert (C : forall l : list index, total (weight_of None) l = qnat (length l)).
  { unfold total. induction l as [|i l IH]; [reflexivity|]. cbn [map qsum fold_right length]. fold (qsum (map (weight_of None) l)).
    rewrite IH. cbn [weight_of]. unfold qnat. apply Qc_is_canon. cbn [this Q2Qc Qcplus]. rewrite !Qred_correct.
    rewrite Nat2Z.inj_succ. unfold Z.succ. rewrite inject_Z_plus. ring. }
  rewrite C in A, B. destruct cells as [|i cells].
  - split; intros _.
    + intros (i & q & Hi & E). apply (proj2 F i). split; [exact Hi|]. exists q. exact E.
    + apply B. discriminate.
  - split; [|intros N; exfalso; apply N; destruct (proj1 (proj2 F i) (or_introl eq_refl)) as [Hi (q & E)]; exists i, q; auto].
    intros E. exfalso. rewrite A in E; [discriminate E|].
    unfold qnat, threshold. unfold Qclt. cbn [this Q2Qc]. rewrite !Qred_correct. unfold Qlt, inject_Z. cbn [Qnum Qden length]. rewrite Nat2Z.inj_succ. pose proof (Zle_0_nat (length cells)). lia.
Qed.

Lemma no_weight w cells : (forall i, In i cells -> weight_of w i = 0) -> total (weight_of w) cells = 0.
Proof.
  unfold total. induction cells as [|i l IH]; intros H; [reflexivity|]. cbn [map qsum fold_right].
  fold (qsum (map (weight_of w) l)). rewrite IH by (intros; apply H; right; assumption).
  rewrite H by (left; reflexivity). ring.
Qed.

Lemma nabs_cells f ax a o cells : (forall x, isinf (f x) = isinf x) -> plain a -> plain (on_nums f a) ->
  finite_cells ax a o cells -> finite_cells ax (on_nums f a) o cells.
Proof.
  intros Hf P P' [N C]. split; [exact N|]. intros i. rewrite C. cbn [shape on_nums at_].
  assert (E : (exists q, at_ a i = Fin q) <-> exists q, f (at_ a i) = Fin q); [|rewrite E; reflexivity].
  specialize (Hf (at_ a i)). split; intros (q & E); rewrite E in Hf; cbn in Hf.
  - destruct (f (at_ a i)) as [r|b|r] eqn:G; [eauto| |].
    + rewrite E in G. rewrite G in Hf. discriminate Hf.
    + exfalso. exact (P' i r G).
  - destruct (at_ a i) as [r|b|r] eqn:G; [eauto|discriminate Hf|exfalso; exact (P i r G)].
Qed.

Lemma plain_on f a : (forall x q, (forall r, x <> Root r) -> f x <> Root q) -> plain a -> plain (on_nums f a).
Proof. intros Hf P i q. apply Hf. intros r. apply P. Qed.

Lemma absmean_spec a w ax rw rw2 outs : plain a -> absmean_collapse a w ax rw rw2 = Ok outs ->
  exists out weights squares,
    outs = Nums out :: (if rw then [Nums weights] else []) ++ (if rw2 then [Nums squares] else []) /\
    forall o cells, finite_cells ax a o cells ->
      let W := total (weight_of w) cells in
      at_ weights o = Fin W /\
      at_ squares o = Fin (total (fun i => weight_of w i * weight_of w i) cells) /\
      (threshold < W -> at_ out o = Fin (total (fun i => weight_of w i * qabs (value_of a i)) cells / W)) /\
      (W <= threshold -> at_ out o = Inf false).
Proof.
  intros P H.
  assert (P' : plain (on_nums nabs a)).
  { apply plain_on; [|exact P]. intros [q|b|q] r Hx; cbn; try discriminate. exfalso. exact (Hx q eq_refl). }
  apply mean_collapse_spec in H as (out & ws & sq & -> & S); [|exact P'].
  exists out, ws, sq. split; [reflexivity|]. intros o cells F.
  assert (F' : finite_cells ax (on_nums nabs a) o cells).
  { apply nabs_cells; [intros [?|?|?]; reflexivity|exact P|exact P'|exact F]. }
  destruct (S o cells F') as (A & B & C & D). split; [exact A|]. split; [exact B|]. split; [|exact D].
  intros HW. rewrite (C HW). f_equal. f_equal. apply total_ext. intros i Hi. f_equal.
  unfold value_of. cbn [on_nums at_]. apply F in Hi as [_ (q & ->)]. reflexivity.
Qed.

Lemma quadmean_spec a w ax rw rw2 outs : plain a -> quadmean_collapse a w ax rw rw2 = Ok outs ->
  exists out weights squares,
    outs = Nums out :: (if rw then [Nums weights] else []) ++ (if rw2 then [Nums squares] else []) /\
    forall o cells, finite_cells ax a o cells ->
      let W := total (weight_of w) cells in
      at_ weights o = Fin W /\
      at_ squares o = Fin (total (fun i => weight_of w i * weight_of w i) cells) /\
      (threshold < W -> at_ out o = Root (total (fun i => weight_of w i * (value_of a i * value_of a i)) cells / W)) /\
      (W <= threshold -> at_ out o = Inf false).
Proof.
  intros P H. unfold quadmean_collapse in H. apply bind_Ok in H as (outs' & H & H').
  assert (P' : plain (on_nums (fun x => nsquare (nabs x)) a)).
  { apply plain_on; [|exact P]. intros [q|b|q] r Hx; cbn; try discriminate. }
  apply mean_collapse_spec in H as (out & ws & sq & -> & S); [|exact P']. cbn [app] in H'. injection H' as <-.
  exists (on_nums nsqrt out), ws, sq. split; [reflexivity|]. intros o cells F.
  assert (F' : finite_cells ax (on_nums (fun x => nsquare (nabs x)) a) o cells).
  { apply (nabs_cells (fun x => nsquare (nabs x))) in F; [exact F| |exact P|exact P'].
    intros [?|?|?]; reflexivity. }
  destruct (S o cells F') as (A & B & C & D). split; [exact A|]. split; [exact B|]. cbn [on_nums at_]. split.
  - intros HW. rewrite (C HW). cbn [nsqrt]. f_equal. f_equal. apply total_ext. intros i Hi. f_equal.
    unfold value_of. cbn [on_nums at_]. apply F in Hi as [_ (q & ->)]. cbn [nabs nsquare fin].
    unfold qabs. destruct (Qclt_le_dec q 0); ring.
  - intros HW. rewrite (D HW). reflexivity.
Qed.

Lemma root_between q lo hi : 0 <= lo -> 0 <= hi -> lo * lo <= q <= hi * hi ->
  (Q2R (this lo) <= sqrt (Q2R (this q)) <= Q2R (this hi))%R.
Proof.
  intros Hl Hh [A B]. unfold Qcle in *.
  apply Qle_Rle in Hl, Hh, A, B. cbn [this Q2Qc Qcmult] in A, B.
  rewrite (Qeq_eqR _ _ (Qred_correct _)), Q2R_mult in A. rewrite (Qeq_eqR _ _ (Qred_correct (hi * hi))), Q2R_mult in B.
  change (this 0) with 0%Q in Hl, Hh. rewrite RMicromega.Q2R_0 in Hl, Hh.
  rewrite <- (sqrt_square _ Hl) at 1. rewrite <- (sqrt_square _ Hh) at 1.
  split; apply sqrt_le_1_alt; assumption.
Qed.

Lemma mean_lies_between a w ax rw rw2 outs : plain a -> mean_collapse a w ax rw rw2 = Ok outs ->
  exists out, hd_error outs = Some (Nums out) /\
    forall o lo hi,
      (forall i q, lands ax (shape a) i o -> at_ a i = Fin q -> 0 <= weight_of w i) ->
      (forall i q, lands ax (shape a) i o -> at_ a i = Fin q -> 0 < weight_of w i -> lo <= q <= hi) ->
      at_ out o = Inf false \/ exists q, at_ out o = Fin q /\ lo <= q <= hi.
Proof.
  intros P H. destruct (mean_mask _ _ _ _ _ _ H) as (m & Hm).
  apply mean_collapse_spec in H as (out & ws & sq & -> & S); [|exact P]. exists out. split; [reflexivity|].
  intros o lo hi Hw Hv. destruct (finite_cells_exist a ax m o P Hm) as (cells & F).
  destruct (S o cells F) as (_ & _ & A & B). set (W := total (weight_of w) cells) in *.
  destruct (Qclt_le_dec threshold W) as [L|L]; [right|left; apply B, L].
  eexists. split; [apply A, L|]. apply mean_between.
  - intros i Hi. apply F in Hi as [Hi (q & E)]. exact (Hw i q Hi E).
  - intros i Hi P0. apply F in Hi as [Hi (q & E)]. unfold value_of. rewrite E. exact (Hv i q Hi E P0).
  - exact (Qclt_trans _ _ _ threshold_pos L).
Qed.

Lemma mean_nothing_left a w ax rw rw2 outs : plain a -> mean_collapse a w ax rw rw2 = Ok outs ->
  exists out weights, hd_error outs = Some (Nums out) /\ (rw = true -> nth_error outs 1 = Some (Nums weights)) /\
    forall o, (forall i q, lands ax (shape a) i o -> at_ a i = Fin q -> weight_of w i = 0) ->
      at_ out o = Inf false /\ at_ weights o = Fin 0.
Proof.
  intros P H. destruct (mean_mask _ _ _ _ _ _ H) as (m & Hm).
  apply mean_collapse_spec in H as (out & ws & sq & -> & S); [|exact P]. exists out, ws. split; [reflexivity|].
  split; [intros ->; reflexivity|].
  intros o Hw. destruct (finite_cells_exist a ax m o P Hm) as (cells & F).
  destruct (S o cells F) as (A & _ & _ & B).
  assert (E : total (weight_of w) cells = 0).
  { apply no_weight. intros i Hi. apply F in Hi as [Hi (q & E)]. exact (Hw i q Hi E). }
  rewrite E in A, B. split; [apply B; discriminate|exact A].
Qed.

Lemma qabs_nonneg q : 0 <= qabs q.
Proof.
  unfold qabs. destruct (Qclt_le_dec q 0) as [L|L]; [|exact L].
  apply Qclt_le_weak in L. apply Qcopp_le_compat in L. exact L.
Qed.
Lemma qabs_square q : qabs q * qabs q = q * q.
Proof. unfold qabs. destruct (Qclt_le_dec q 0); ring. Qed.
Lemma square_le x y : 0 <= x -> x <= y -> x * x <= y * y.
Proof.
  intros Hx H. apply Qcle_trans with (x * y).
  - rewrite (Qcmult_comm x y). apply Qcmult_le_compat_r; assumption.
  - apply Qcmult_le_compat_r; [exact H|]. exact (Qcle_trans _ _ _ Hx H).
Qed.

Lemma quadmean_lies_between a w ax rw rw2 outs : plain a -> quadmean_collapse a w ax rw rw2 = Ok outs ->
  exists out, hd_error outs = Some (Nums out) /\
    forall o lo hi, 0 <= lo ->
      (forall i q, lands ax (shape a) i o -> at_ a i = Fin q -> 0 <= weight_of w i) ->
      (forall i q, lands ax (shape a) i o -> at_ a i = Fin q -> 0 < weight_of w i -> lo <= qabs q <= hi) ->
      at_ out o = Inf false \/ exists r, real_of (at_ out o) = Some r /\ (Q2R (this lo) <= r <= Q2R (this hi))%R.
Proof.
  intros P H.
  assert (Hm : exists m, mask (length (shape a)) ax = Ok m).
  { unfold quadmean_collapse in H. apply bind_Ok in H as (outs' & H & _). apply mean_mask in H. exact H. }
  destruct Hm as (m & Hm).
  apply quadmean_spec in H as (out & ws & sq & -> & S); [|exact P]. exists out. split; [reflexivity|].
  intros o lo hi Hlo Hw Hv. destruct (finite_cells_exist a ax m o P Hm) as (cells & F).
  destruct (S o cells F) as (_ & _ & A & B). set (W := total (weight_of w) cells) in *.
  destruct (Qclt_le_dec threshold W) as [L|L]; [right|left; apply B, L].
  rewrite (A L). eexists. split; [reflexivity|].
  assert (Hhi : 0 <= hi).
  { destruct (forallb (fun i => if Qc_eq_dec (weight_of w i) 0 then true else false) cells) eqn:Z.
    - exfalso. rewrite forallb_forall in Z. assert (E : W = 0).
      { apply no_weight. intros i Hi. specialize (Z i Hi).
        destruct (Qc_eq_dec (weight_of w i) 0); [assumption|discriminate Z]. }
      rewrite E in L. discriminate L.
    - assert (X : exists i, In i cells /\ weight_of w i <> 0).
      { clear -Z. induction cells as [|i cells IH]; [discriminate Z|]. cbn [forallb] in Z.
        destruct (Qc_eq_dec (weight_of w i) 0) as [E|E]; [|exists i; split; [left; reflexivity|exact E]].
        cbn [andb] in Z. destruct (IH Z) as (j & Hj & Ej). exists j. split; [right|]; assumption. }
      destruct X as (i & Hi & N). apply F in Hi as [Hi (q & E)].
      destruct (Qcle_lt_or_eq _ _ (Hw i q Hi E)) as [P0|P0]; [|congruence].
      destruct (Hv i q Hi E P0) as [X Y]. exact (Qcle_trans _ _ _ Hlo (Qcle_trans _ _ _ X Y)). }
  apply root_between; [exact Hlo|exact Hhi|]. apply (mean_between (weight_of w) (fun i => value_of a i * value_of a i)).
  - intros i Hi. apply F in Hi as [Hi (q & E)]. exact (Hw i q Hi E).
  - intros i Hi P0. apply F in Hi as [Hi (q & E)]. unfold value_of. rewrite E. cbn [fin].
    destruct (Hv i q Hi E P0) as [X Y]. rewrite <- (qabs_square q).
    split; apply square_le; auto using qabs_nonneg.
  - exact (Qclt_trans _ _ _ threshold_pos L).
Qed.
