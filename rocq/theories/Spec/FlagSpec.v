(** What the flag objects mean: rows at a time, rows of a pair, and where the flag
    of a visibility comes from. *)
From Coq Require Import List ZArith Bool Arith Sorted.
From Verif Require Import Lib.Cube Model.UVData Model.UVFlag Spec.BlsSpec Spec.AccessSpec.
Import ListNotations.
Open Scope Z_scope.

(** The positions of a time. *)
Definition at_time (times : list Z) (t : Z) : list nat :=
  filter (fun r => nth r times 0 =? t) (seq 0 (List.length times)).

(** The samples (row, polarization) that one cell of a waterfall stands for *)
Definition cell_samples (u : uvd) (t : Z) (keep_pol : bool) (p : nat) : list (nat * nat) :=
  list_prod (at_time (time_array u) t) (if keep_pol then [p] else seq 0 (List.length (polarization_array u))).

(** Time [k] of the flag object is the time [t], within the tolerance. *)
Definition same_time (tol : Z) (times : list Z) (t : Z) (k : nat) : Prop :=
  (k < List.length times)%nat /\ Z.abs (t - nth k times 0) <= tol.

(** The times are listed in increasing order and no time is within the tolerance
    of two of them. *)
Definition clear_times (tol : Z) (times : list Z) : Prop :=
  StronglySorted Z.lt times /\ forall i j, (i < j < List.length times)%nat -> 2 * tol < nth j times 0 - nth i times 0.

(** The rows of a baseline type flag object stored as (a, b), in increasing order. *)
Definition flag_rows (f : bflag) (a b : Z) : list nat :=
  filter (fun i => (nth i (f_ant1 f) 0 =? a) && (nth i (f_ant2 f) 0 =? b)) (seq 0 (List.length (f_time f))).

(** A baseline type object whose arrays agree in length and whose baseline numbers
    belong to the antennas of their rows. *)
Definition flag_consistent (f : bflag) : Prop :=
  List.length (f_ant1 f) = List.length (f_time f) /\ List.length (f_ant2 f) = List.length (f_time f) /\
  List.length (f_bl f) = List.length (f_time f) /\ f_time f <> [] /\ f_Nants f <= 2147483648 /\
  exists m off, encoding m off /\
  forall i, (i < List.length (f_time f))%nat ->
    0 <= nth i (f_ant1 f) 0 < m /\ 0 <= nth i (f_ant2 f) 0 < m /\
    nth i (f_bl f) 0 = m * nth i (f_ant1 f) 0 + nth i (f_ant2 f) 0 + off.

(** The pair row [i] of the visibilities belongs to has this row [k] of the flag
    object: the row of equal rank among the rows of the pair, or the only one. *)
Definition flag_source (u : uvd) (f : bflag) (i k : nat) : Prop :=
  let a := nth i (ant_1_array u) 0 in
  let b := nth i (ant_2_array u) 0 in
  flag_rows f a b = [k] \/
  (List.length (flag_rows f a b) = List.length (pair_rows u a b) /\
   exists r, nth_error (pair_rows u a b) r = Some i /\ nth_error (flag_rows f a b) r = Some k).

(** An axis of length one serves every position. *)
Definition shared (n i : nat) : nat := match n with 1%nat => 0%nat | _ => i end.

(** The polarization index into a flag array for polarization [p] *)
Definition pol_of (force : bool) (pols : fpols) (p : nat) : nat :=
  if force then shared (match pols with Pols l => List.length l | Joined _ => 1%nat end) p else p.

(** The polarizations are those of the target, or there is one for all *)
Definition pols_fit (force : bool) (p : fpols) (target : list Z) : Prop :=
  p = Pols target \/ (force = true /\ (match p with Pols l => List.length l | Joined _ => 1%nat end) = 1%nat).

(** The parts of the object every conversion copies *)
Definition rows_like (f : bflag) (u : uvd) : Prop :=
  f_time f = time_array u /\ f_ant1 f = ant_1_array u /\ f_ant2 f = ant_2_array u /\ f_bl f = baseline_array u /\
  f_pol f = Pols (polarization_array u) /\ f_np f = List.length (polarization_array u) /\ f_Nants f = Nants_telescope u.

(** The antenna is unknown to the flag object or flagged at channel [j], time [k] and
    polarization [p]. *)
Definition ant_flagged (a : aflag) (x : Z) (j k p : nat) : Prop :=
  ~ In x (a_ants a) \/ exists n, nth_error (a_ants a) n = Some x /\ a_flags a n j k p = true.
