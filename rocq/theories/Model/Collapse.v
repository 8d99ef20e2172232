(** Array collapsing, /repo/src/pyuvdata/utils/array_collapse.py:11-244.
    Real numbers are exact rationals; NaN and complex input are not modelled.
    The warning about unused weights is not modelled. *)
From Coq Require Import List ZArith Bool Arith QArith Qcanon String.
From Verif Require Import Lib.Py Lib.QSum.
Import ListNotations.
Notation length := List.length.
Open Scope Qc_scope.

(** A numpy array: a shape and the element at every multi-index *)
Definition index := list nat.
Record arr (A : Type) := mkarr { shape : list nat; at_ : index -> A }.
Arguments mkarr {A} _ _.
Arguments shape {A} _.
Arguments at_ {A} _ _.

(** A float that is not NaN.  [Root q] is the square root of [q]. *)
Inductive num := Fin (q : Qc) | Inf (negative : bool) | Root (q : Qc).
Inductive array := Bools (a : arr bool) | Nums (a : arr num).
Inductive axis := AxisNone | AxisInt (z : Z) | AxisTuple (l : list Z).

(** The axis argument of a numpy reduction: which axes are reduced.  An axis out
    of range is an AxisError and a repeated one a ValueError (AxisError is a
    subclass of ValueError). *)
Definition norm_axis (n : nat) (z : Z) : result nat :=
  if (andb (- Z.of_nat n <=? z) (z <? Z.of_nat n))%Z
  then Ok (Z.to_nat (if z <? 0 then z + Z.of_nat n else z)%Z) else Err ValueError.
Fixpoint nodupb (l : list nat) : bool :=
  match l with [] => true | x :: t => negb (existsb (Nat.eqb x) t) && nodupb t end.
Definition mask (n : nat) (ax : axis) : result (list bool) :=
  match ax with
  | AxisNone => Ok (repeat true n)
  | AxisInt z => do k <- norm_axis n z; Ok (map (Nat.eqb k) (seq 0 n))
  | AxisTuple l => do ks <- mapM (norm_axis n) l;
      if nodupb ks then Ok (map (fun i => existsb (Nat.eqb i) ks) (seq 0 n)) else Err ValueError
  end.
(** The elements reduced into element [o] of the result, in C order *)
Fixpoint fibre (m : list bool) (s : list nat) (o : index) : list index :=
  match m, s with
  | [], [] => match o with [] => [[]] | _ => [] end
  | true :: m, n :: s => flat_map (fun i => map (cons i) (fibre m s o)) (seq 0 n)
  | false :: m, n :: s =>
      match o with [] => [] | x :: o => if (x <? n)%nat then map (cons x) (fibre m s o) else [] end
  | _, _ => []
  end.
Fixpoint kept {A} (m : list bool) (s : list A) : list A :=
  match m, s with
  | true :: m, _ :: s => kept m s
  | false :: m, n :: s => n :: kept m s
  | _, _ => []
  end.
Definition reduce {A B} (f : list A -> B) (ax : axis) (a : arr A) : result (arr B) :=
  do m <- mask (length (shape a)) ax;
  Ok (mkarr (kept m (shape a)) (fun o => f (map (at_ a) (fibre m (shape a) o)))).

(** array_collapse.py:36-59; [weights] has the shape of the array.  The result is
    the tuple of returned arrays. *)
Definition isinf (x : num) : bool := match x with Inf _ => true | _ => false end.
Definition fin (x : num) : Qc := match x with Fin q => q | _ => 0 end.
Definition threshold : Qc := Q2Qc (1 # 10000000000).
Definition above (w : Qc) : bool := if Qclt_le_dec threshold w then true else false.
Definition masked_weights (weights : option (index -> Qc)) (a : arr num) : arr Qc :=
  mkarr (shape a) (fun i => (match weights with None => 1 | Some w => w i end) * (if isinf (at_ a i) then 0 else 1)).
Definition mean_collapse (a : arr num) (weights : option (index -> Qc)) (ax : axis) (return_weights return_weights_square : bool)
  : result (list array) :=
  let ws := masked_weights weights a in
  do weight_out <- reduce qsum ax ws;
  do square_out <- reduce qsum ax (mkarr (shape a) (fun i => at_ ws i * at_ ws i));
  do out <- reduce qsum ax (mkarr (shape a) (fun i => at_ ws i * fin (at_ a i)));
  let out := mkarr (shape out) (fun o =>
    if above (at_ weight_out o) then Fin (at_ out o / at_ weight_out o) else Inf false) in
  let w := mkarr (shape weight_out) (fun o => Fin (at_ weight_out o)) in
  let w2 := mkarr (shape square_out) (fun o => Fin (at_ square_out o)) in
  Ok (Nums out :: (if return_weights then [Nums w] else []) ++ (if return_weights_square then [Nums w2] else [])).

(** array_collapse.py:83-89, 112-124 *)
Definition qabs (q : Qc) : Qc := if Qclt_le_dec q 0 then - q else q.
Definition nabs (x : num) : num := match x with Fin q => Fin (qabs q) | Inf _ => Inf false | Root q => Root q end.
Definition nsquare (x : num) : num := match x with Fin q => Fin (q * q) | Inf _ => Inf false | Root q => Fin q end.
Definition nsqrt (x : num) : num := match x with Fin q => Root q | _ => x end.
Definition on_nums (f : num -> num) (a : arr num) : arr num := mkarr (shape a) (fun i => f (at_ a i)).
Definition absmean_collapse (a : arr num) weights ax (rw rw2 : bool) : result (list array) :=
  mean_collapse (on_nums nabs a) weights ax rw rw2.
Definition quadmean_collapse (a : arr num) weights ax (rw rw2 : bool) : result (list array) :=
  do outs <- mean_collapse (on_nums (fun x => nsquare (nabs x)) a) weights ax rw rw2;
  match outs with
  | Nums out :: rest => Ok (Nums (on_nums nsqrt out) :: rest)
  | _ => Err Undefined
  end.

(** array_collapse.py:148-156, 180-188: [any] and [all]; the weights argument is
    ignored, and so is return_weights_square. *)
Definition bool_collapse (f : list bool -> bool) (a : array) (ax : axis) (return_weights : bool) : result (list array) :=
  match a with
  | Nums _ => Err ValueError
  | Bools a =>
      do out <- reduce f ax a;
      Ok (Bools out :: if return_weights then [Nums (mkarr (shape out) (fun _ => Fin 1))] else [])
  end.
Definition or_collapse (a : array) (weights : option (index -> Qc)) ax (rw rw2 : bool) := bool_collapse (existsb id) a ax rw.
Definition and_collapse (a : array) (weights : option (index -> Qc)) ax (rw rw2 : bool) := bool_collapse (forallb id) a ax rw.

(** array_collapse.py:222-244.  A boolean array given to one of the means is
    averaged as zeros and ones (its weights come out boolean when none are given;
    that case is not modelled). *)
Definition as_nums (a : array) : arr num :=
  match a with Nums a => a | Bools a => mkarr (shape a) (fun i => Fin (if at_ a i then 1 else 0)) end.
Definition collapse (a : array) (alg : string) weights ax (rw rw2 : bool) : result (list array) :=
  if String.eqb alg "mean" then mean_collapse (as_nums a) weights ax rw rw2
  else if String.eqb alg "absmean" then absmean_collapse (as_nums a) weights ax rw rw2
  else if String.eqb alg "quadmean" then quadmean_collapse (as_nums a) weights ax rw rw2
  else if String.eqb alg "or" then or_collapse a weights ax rw rw2
  else if String.eqb alg "and" then and_collapse a weights ax rw rw2
  else Err ValueError.
