(** C49 and C50: collapsing arrays. *)
From Coq Require Import List ZArith Bool Arith QArith Qcanon Reals Qreals String Lia.
From Verif Require Import Lib.Py Lib.QSum Model.Collapse Spec.CollapseSpec Proofs.CollapseProofs.
Import ListNotations.
Notation length := List.length.
Open Scope Qc_scope.

(** Element by element, mean_collapse is the weighted mean of the finite elements;
    the weights returned are the sums over those elements.  When their total
    weight is at most 1e-10 the result is inf. *)
Theorem C49_mean_collapse : forall a w ax return_weights return_weights_square outs,
  plain a -> mean_collapse a w ax return_weights return_weights_square = Ok outs ->
  exists out weights squares,
    outs = Nums out :: (if return_weights then [Nums weights] else []) ++ (if return_weights_square then [Nums squares] else []) /\
    forall o cells, finite_cells ax a o cells ->
      let W := total (weight_of w) cells in
      at_ weights o = Fin W /\
      at_ squares o = Fin (total (fun i => weight_of w i * weight_of w i) cells) /\
      (Q2Qc (1 # 10000000000) < W -> at_ out o = Fin (total (fun i => weight_of w i * value_of a i) cells / W)) /\
      (W <= Q2Qc (1 # 10000000000) -> at_ out o = Inf false).
Proof. exact mean_collapse_spec. Qed.
Print Assumptions C49_mean_collapse.

(** The mean lies between any bounds on the finite elements of positive weight *)
Theorem C49_mean_lies_between : forall a w ax return_weights return_weights_square outs,
  plain a -> mean_collapse a w ax return_weights return_weights_square = Ok outs ->
  exists out, hd_error outs = Some (Nums out) /\
    forall o lo hi,
      (forall i q, lands ax (shape a) i o -> at_ a i = Fin q -> 0 <= weight_of w i) ->
      (forall i q, lands ax (shape a) i o -> at_ a i = Fin q -> 0 < weight_of w i -> lo <= q <= hi) ->
      at_ out o = Inf false \/ exists q, at_ out o = Fin q /\ lo <= q <= hi.
Proof. exact mean_lies_between. Qed.
Print Assumptions C49_mean_lies_between.

Theorem C49_nothing_left : forall a w ax return_weights return_weights_square outs,
  plain a -> mean_collapse a w ax return_weights return_weights_square = Ok outs ->
  exists out weights, hd_error outs = Some (Nums out) /\ (return_weights = true -> nth_error outs 1 = Some (Nums weights)) /\
    forall o, (forall i q, lands ax (shape a) i o -> at_ a i = Fin q -> weight_of w i = 0) ->
      at_ out o = Inf false /\ at_ weights o = Fin 0.
Proof. exact mean_nothing_left. Qed.
Print Assumptions C49_nothing_left.

(** Without weights, the result is inf exactly when no finite element is left *)
Theorem C49_default_weights : forall a ax return_weights return_weights_square outs,
  plain a -> mean_collapse a None ax return_weights return_weights_square = Ok outs ->
  exists out, hd_error outs = Some (Nums out) /\
    forall o, (at_ out o = Inf false <-> ~ exists i q, lands ax (shape a) i o /\ at_ a i = Fin q).
Proof. exact default_weights_inf. Qed.
Print Assumptions C49_default_weights.

(** Every sensible axis argument is accepted, every other one refused *)
Theorem C49_axis_accepted : forall a w ax return_weights return_weights_square,
  (axis_ok ax (length (shape a)) -> exists outs, mean_collapse a w ax return_weights return_weights_square = Ok outs) /\
  (~ axis_ok ax (length (shape a)) -> mean_collapse a w ax return_weights return_weights_square = Err ValueError).
Proof. intros; split; [apply mean_accepts|apply mean_refuses]. Qed.
Print Assumptions C49_axis_accepted.

Theorem C49_absmean_collapse : forall a w ax return_weights return_weights_square outs,
  plain a -> absmean_collapse a w ax return_weights return_weights_square = Ok outs ->
  exists out weights squares,
    outs = Nums out :: (if return_weights then [Nums weights] else []) ++ (if return_weights_square then [Nums squares] else []) /\
    forall o cells, finite_cells ax a o cells ->
      let W := total (weight_of w) cells in
      at_ weights o = Fin W /\
      at_ squares o = Fin (total (fun i => weight_of w i * weight_of w i) cells) /\
      (Q2Qc (1 # 10000000000) < W -> at_ out o = Fin (total (fun i => weight_of w i * qabs (value_of a i)) cells / W)) /\
      (W <= Q2Qc (1 # 10000000000) -> at_ out o = Inf false).
Proof. exact absmean_spec. Qed.
Print Assumptions C49_absmean_collapse.

(** [Root q] stands for the square root of [q] *)
Theorem C49_quadmean_collapse : forall a w ax return_weights return_weights_square outs,
  plain a -> quadmean_collapse a w ax return_weights return_weights_square = Ok outs ->
  exists out weights squares,
    outs = Nums out :: (if return_weights then [Nums weights] else []) ++ (if return_weights_square then [Nums squares] else []) /\
    forall o cells, finite_cells ax a o cells ->
      let W := total (weight_of w) cells in
      at_ weights o = Fin W /\
      at_ squares o = Fin (total (fun i => weight_of w i * weight_of w i) cells) /\
      (Q2Qc (1 # 10000000000) < W ->
         at_ out o = Root (total (fun i => weight_of w i * (value_of a i * value_of a i)) cells / W)) /\
      (W <= Q2Qc (1 # 10000000000) -> at_ out o = Inf false).
Proof. exact quadmean_spec. Qed.
Print Assumptions C49_quadmean_collapse.

Theorem C49_quadmean_lies_between : forall a w ax return_weights return_weights_square outs,
  plain a -> quadmean_collapse a w ax return_weights return_weights_square = Ok outs ->
  exists out, hd_error outs = Some (Nums out) /\
    forall o lo hi, 0 <= lo ->
      (forall i q, lands ax (shape a) i o -> at_ a i = Fin q -> 0 <= weight_of w i) ->
      (forall i q, lands ax (shape a) i o -> at_ a i = Fin q -> 0 < weight_of w i -> lo <= qabs q <= hi) ->
      at_ out o = Inf false \/ exists r, real_of (at_ out o) = Some r /\ (Q2R (this lo) <= r <= Q2R (this hi))%R.
Proof. exact quadmean_lies_between. Qed.
Print Assumptions C49_quadmean_lies_between.

(** A 2 by 3 array with one infinite element *)
Definition grid : arr num :=
  mkarr [2%nat; 3%nat] (fun i => match i with [0%nat; 1%nat] => Inf true | [x; y] => Fin (qnat (x * 3 + y)) | _ => Fin 0 end).
Definition first (r : result (list array)) (o : index) : option num :=
  match r with Ok (Nums a :: _) => Some (at_ a o) | _ => None end.
Definition is_num (x : option num) (q : Qc) : bool := match x with Some (Fin y) => Qeq_bool (this y) (this q) | _ => false end.
Example C49_case :
  plain grid /\
  is_num (first (mean_collapse grid None (AxisInt (-1)) true true) [0%nat]) (1) = true /\
  is_num (first (mean_collapse grid None (AxisInt 0) true true) [1%nat]) (qnat 4) = true /\
  is_num (first (absmean_collapse grid (Some (fun i => qnat (hd O i))) (AxisTuple [0%Z; (-1)%Z]) false true) []) (qnat 4) = true /\
  first (quadmean_collapse grid (Some (fun i => 0)) AxisNone false false) [] = Some (Inf false) /\
  mean_collapse grid None (AxisTuple [1%Z; (-1)%Z]) true true = Err ValueError.
Proof.
  split; [intros i q; unfold grid; cbn [at_]; destruct i as [|[|x] [|[|[|y]] [|? ?]]]; discriminate|].
  vm_compute. auto.
Qed.

(** Elements of positive but tiny total weight are thrown away: the mean of one
    finite element of weight 1e-11 is inf, though the weight returned is not zero. *)
Theorem C49_tiny_weights_refuted : exists a w ax out weights,
  plain a /\ (forall i, 0 < weight_of w i) /\ (forall i, exists q, at_ a i = Fin q) /\
  mean_collapse a w ax true false = Ok [Nums out; Nums weights] /\
  at_ out [] = Inf false /\ at_ weights [] <> Fin 0.
Proof.
  exists (mkarr [1%nat] (fun _ => Fin 1)), (Some (fun _ => Q2Qc (1 # 100000000000))), AxisNone. do 2 eexists.
  split; [intros i q; discriminate|]. split; [intros i; reflexivity|]. split; [intros i; eexists; reflexivity|].
  split; [reflexivity|]. split; [reflexivity|discriminate].
Qed.
Print Assumptions C49_tiny_weights_refuted.

(** C50 *)
Theorem C50_or_is_any : forall a w ax return_weights return_weights_square outs,
  or_collapse (Bools a) w ax return_weights return_weights_square = Ok outs ->
  exists out, hd_error outs = Some (Bools out) /\
    forall o, at_ out o = true <-> exists i, lands ax (shape a) i o /\ at_ a i = true.
Proof. exact or_collapse_spec. Qed.
Print Assumptions C50_or_is_any.

Theorem C50_and_is_all : forall a w ax return_weights return_weights_square outs,
  and_collapse (Bools a) w ax return_weights return_weights_square = Ok outs ->
  exists out, hd_error outs = Some (Bools out) /\
    forall o, at_ out o = true <-> forall i, lands ax (shape a) i o -> at_ a i = true.
Proof. exact and_collapse_spec. Qed.
Print Assumptions C50_and_is_all.

Theorem C50_dual : forall a w ax return_weights return_weights_square,
  match or_collapse (Bools a) w ax return_weights return_weights_square,
        and_collapse (Bools (mkarr (shape a) (fun i => negb (at_ a i)))) w ax return_weights return_weights_square with
  | Ok (Bools x :: xs), Ok (Bools y :: ys) => shape x = shape y /\ xs = ys /\ forall o, at_ y o = negb (at_ x o)
  | Err e, Err e' => e = e'
  | _, _ => False
  end.
Proof. exact bool_duality. Qed.
Print Assumptions C50_dual.

Theorem C50_numbers_refused : forall a w ax return_weights return_weights_square,
  or_collapse (Nums a) w ax return_weights return_weights_square = Err ValueError /\
  and_collapse (Nums a) w ax return_weights return_weights_square = Err ValueError.
Proof. intros; split; reflexivity. Qed.
Print Assumptions C50_numbers_refused.

(** The collapse function takes exactly these five algorithms *)
Theorem C50_algorithms : forall a alg w ax return_weights return_weights_square,
  (alg = "or"%string -> collapse a alg w ax return_weights return_weights_square = or_collapse a w ax return_weights return_weights_square) /\
  (alg = "and"%string -> collapse a alg w ax return_weights return_weights_square = and_collapse a w ax return_weights return_weights_square) /\
  (~ In alg ["mean"; "absmean"; "quadmean"; "or"; "and"]%string ->
     collapse a alg w ax return_weights return_weights_square = Err ValueError).
Proof.
  intros. split; [intros ->; reflexivity|]. split; [intros ->; reflexivity|]. intros N. unfold collapse.
  destruct (String.eqb_spec alg "mean"); [subst; exfalso; apply N; cbn; auto 10|].
  destruct (String.eqb_spec alg "absmean"); [subst; exfalso; apply N; cbn; auto 10|].
  destruct (String.eqb_spec alg "quadmean"); [subst; exfalso; apply N; cbn; auto 10|].
  destruct (String.eqb_spec alg "or"); [subst; exfalso; apply N; cbn; auto 10|].
  destruct (String.eqb_spec alg "and"); [subst; exfalso; apply N; cbn; auto 10|]. reflexivity.
Qed.
Print Assumptions C50_algorithms.

Example C50_case :
  exists x y, or_collapse (Bools (mkarr [2%nat; 2%nat] (fun i => Nat.eqb (list_sum i) 2))) None (AxisInt 0) true true = Ok x /\
    and_collapse (Bools (mkarr [2%nat; 2%nat] (fun i => Nat.eqb (list_sum i) 2))) None (AxisInt 0) false true = Ok y /\
    match x, y with [Bools x; Nums _], [Bools y] => at_ x [1%nat] = true /\ at_ x [0%nat] = false /\ at_ y [1%nat] = false | _, _ => False end.
Proof. do 2 eexists. split; [reflexivity|]. split; [reflexivity|]. vm_compute. auto. Qed.
