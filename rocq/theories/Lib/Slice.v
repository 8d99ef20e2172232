(** Python slice objects and the positions they select on an axis. *)
From Coq Require Import List ZArith Lia ZifyBool ZifyNat Bool.
From Verif Require Import Lib.Py.
Import ListNotations.
Open Scope Z_scope.

Record slice := mkslice { s_start : option Z; s_stop : option Z; s_step : option Z }.

(** [range(start, stop, step)] for [step <> 0]. *)
Definition range_len (start stop step : Z) : nat :=
  if step >? 0 then (if start <? stop then Z.to_nat ((stop - start - 1) / step + 1) else 0%nat)
  else (if stop <? start then Z.to_nat ((start - stop - 1) / (- step) + 1) else 0%nat).
Definition arith (start step : Z) (k : nat) : list Z :=
  map (fun i => start + step * Z.of_nat i) (seq 0 k).
Definition py_range (start stop step : Z) : list Z :=
  arith start step (range_len start stop step).

(** CPython's [slice.indices(n)] followed by [range(...)]: the positions selected
    by the slice on an axis of length [n]; a zero step raises ValueError. *)
Definition slice_indices (s : slice) (n : Z) : result (list Z) :=
  let step := match s_step s with None => 1 | Some k => k end in
  if step =? 0 then Err ValueError else
  let lower := if step <? 0 then -1 else 0 in
  let upper := if step <? 0 then n - 1 else n in
  let clip v := let v := if v <? 0 then v + n else v in
                if v <? lower then lower else if v >? upper then upper else v in
  let start := match s_start s with
               | None => if step <? 0 then upper else lower
               | Some v => clip v end in
  let stop := match s_stop s with
              | None => if step <? 0 then lower else upper
              | Some v => clip v end in
  Ok (py_range start stop step).

(** Positions selected by a list of slices, one after the other. *)
Definition slices_indices (l : list slice) (n : Z) : result (list Z) :=
  do ll <- mapM (fun s => slice_indices s n) l; Ok (concat ll).

Lemma arith_length start step k : length (arith start step k) = k.
Proof. unfold arith. rewrite map_length, seq_length. reflexivity. Qed.

Lemma arith_S start step k : arith start step (S k) = arith start step k ++ [start + step * Z.of_nat k].
Proof. unfold arith. rewrite seq_S, map_app. reflexivity. Qed.

Lemma arith_cons start step k : arith start step (S k) = start :: arith (start + step) step k.
Proof.
  unfold arith. simpl. f_equal; [lia|]. rewrite <- seq_shift, map_map.
  apply map_ext. intros i. lia.
Qed.

Lemma nth_arith start step k i d : (i < k)%nat -> nth i (arith start step k) d = start + step * Z.of_nat i.
Proof.
  intros H. unfold arith.
  rewrite (nth_indep _ d ((fun i => start + step * Z.of_nat i) 0%nat)) by (rewrite map_length, seq_length; exact H).
  rewrite (map_nth (fun i => start + step * Z.of_nat i)). rewrite seq_nth by exact H. reflexivity.
Qed.

(** The slice [start : last+1 : step] selects exactly the progression from
    [start] to [last]. *)
Lemma slice_arith start step k n :
  0 < step -> (0 < k)%nat -> 0 <= start -> start + step * (Z.of_nat k - 1) < n ->
  slice_indices (mkslice (Some start) (Some (start + step * (Z.of_nat k - 1) + 1)) (Some step)) n
  = Ok (arith start step k).
Proof.
  intros Hstep Hk Hstart Hn. unfold slice_indices. cbn [s_start s_stop s_step].
  assert (Hpos : 0 <= step * (Z.of_nat k - 1)) by nia.
  replace (step =? 0) with false by lia. replace (step <? 0) with false by lia.
  replace (start <? 0) with false by lia. replace (start >? n) with false by lia.
  remember (start + step * (Z.of_nat k - 1) + 1) as stop eqn:Estop.
  replace (stop <? 0) with false by lia. replace (stop >? n) with false by lia.
  cbv beta iota zeta.
  replace (start <? 0) with false by lia. replace (stop <? 0) with false by lia.
  unfold py_range, range_len. replace (step >? 0) with true by lia. replace (start <? stop) with true by lia.
  replace (stop - start - 1) with ((Z.of_nat k - 1) * step) by lia.
  rewrite Z.div_mul by lia. replace (Z.to_nat (Z.of_nat k - 1 + 1)) with k by lia. reflexivity.
Qed.

Lemma slice_single start n : 0 <= start < n ->
  slice_indices (mkslice (Some start) (Some (start + 1)) None) n = Ok [start].
Proof.
  intros H. pose proof (slice_arith start 1 1 n ltac:(lia) ltac:(lia) ltac:(lia) ltac:(lia)) as E.
  simpl Z.of_nat in E. replace (start + 1 * (1 - 1) + 1) with (start + 1) in E by lia.
  unfold slice_indices in *. cbn [s_start s_stop s_step] in *. rewrite E.
  unfold arith. simpl. f_equal. f_equal. lia.
Qed.

Lemma slices_indices_app l1 l2 n i1 i2 :
  slices_indices l1 n = Ok i1 -> slices_indices l2 n = Ok i2 ->
  slices_indices (l1 ++ l2) n = Ok (i1 ++ i2).
Proof.
  unfold slices_indices. revert i1; induction l1 as [|s l1 IH]; simpl; intros i1 H1 H2.
  - injection H1 as <-. exact H2.
  - destruct (slice_indices s n) as [x|]; simpl in *; [|discriminate].
    destruct (mapM (fun s => slice_indices s n) l1) as [xs|] eqn:E; simpl in *; [|discriminate].
    injection H1 as <-.
    specialize (IH (concat xs) eq_refl H2).
    destruct (mapM (fun s => slice_indices s n) (l1 ++ l2)) as [ys|]; simpl in *; [|discriminate].
    injection IH as IH. rewrite IH. rewrite <- app_assoc. reflexivity.
Qed.

Lemma slices_indices_one s n i : slice_indices s n = Ok i -> slices_indices [s] n = Ok i.
Proof. intros H. unfold slices_indices. simpl. rewrite H. simpl. rewrite app_nil_r. reflexivity. Qed.
