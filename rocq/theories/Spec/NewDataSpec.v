(** What making a new object is to do. *)
From Coq Require Import List ZArith Bool Arith String Sorting.Sorted.
From Verif Require Import Lib.Py Model.NewData.
Import ListNotations.
Notation length := List.length.
Open Scope list_scope.
Open Scope Z_scope.

Definition zpair_eq_dec (p q : Z * Z) : {p = q} + {p <> q}.
Proof. decide equality; apply Z.eq_dec. Defined.
Definition distinct_times (l : list Z) : nat := length (nodup Z.eq_dec l).
Definition distinct_pairs (l : list (Z * Z)) : nat := length (nodup zpair_eq_dec l).

(** Every time for every pair, or a time for each pair *)
Definition all_wanted (outer : option bool) (times : list Z) (pairs : list (Z * Z)) : Prop :=
  (outer = Some true \/ outer = None /\ length times <> length pairs) /\ NoDup times /\ NoDup pairs.
Definition each_wanted (outer rect : option bool) (times : list Z) (pairs : list (Z * Z)) : Prop :=
  (outer = Some false \/ outer = None /\ ~ (NoDup times /\ NoDup pairs)) /\ length times = length pairs /\
  (rect = Some true -> length times = (distinct_times times * distinct_pairs pairs)%nat /\ (2 <= length times)%nat).

(** Increasing order of times, and of pairs by the first and then the second antenna *)
Definition pair_lt (p q : Z * Z) : Prop := fst p < fst q \/ fst p = fst q /\ snd p < snd q.

(** The integration times for these times *)
Definition integrations (times : list Z) (integration : amount) (ints : list Z) : Prop :=
  length ints = length times /\
  match integration with
  | Scalar z => forall j, (j < length times)%nat -> nth j ints 0 = z
  | Array l => ints = l
  | Unset =>
      (length times = 1%nat -> ints = [second]) /\
      (forall j, (S j < length times)%nat -> nth j ints 0 = 86400 * (nth (S j) times 0 - nth j times 0)) /\
      ((2 <= length times)%nat -> nth (length times - 1) ints 0 = nth (length times - 2) ints 0)
  end.
(** Integration times that can be used *)
Definition usable (times : list Z) (integration : amount) : Prop :=
  match integration with Unset => times <> [] /\ NoDup times | Scalar _ => True | Array l => length l = length times end.
(** A record for every time and every pair: pairs change faster than times in the order given, or
    ([fast]) times change faster and pairs are in increasing order *)
Definition filled (o : blts) (times : list Z) (pairs : list (Z * Z)) (fast : option bool) (lst : Z -> Z) (ints : list Z) : Prop :=
  let N := length times in let M := length pairs in
  n_nbls o = M /\ n_ntimes o = N /\ length (n_time o) = (N * M)%nat /\ length (n_pair o) = (N * M)%nat /\ length (n_lst o) = (N * M)%nat /\ length (n_int o) = (N * M)%nat /\
  exists ps, (forall p, In p ps <-> In p pairs) /\ length ps = M /\ (if match fast with Some f => f | None => false end then StronglySorted pair_lt ps else ps = pairs) /\
  forall k, (k < N * M)%nat ->
    let j := if match fast with Some f => f | None => false end then (k mod N)%nat else (k / M)%nat in
    let b := if match fast with Some f => f | None => false end then (k / N)%nat else (k mod M)%nat in
    (j < N)%nat /\ (b < M)%nat /\ nth k (n_time o) 0 = nth j times 0 /\ nth k (n_pair o) (0, 0) = nth b ps (0, 0) /\ nth k (n_lst o) 0 = lst (nth j times 0) /\ nth k (n_int o) 0 = nth j ints 0.
