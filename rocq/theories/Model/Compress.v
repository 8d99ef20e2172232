(** Averaging redundant baselines: UVData.compress_by_redundancy,
    /repo/src/pyuvdata/uvdata/uvdata.py:8646-8879.  The groups and the list of
    conjugated baselines, the result of get_redundancies (Model/Redundancy.v), are
    inputs.  Floats are exact rationals, times integers.  Of the metadata only baselines
    and times are modelled; the order in which a set of baselines is walked through is
    that of the group. *)
From Coq Require Import List ZArith QArith Qcanon Bool Arith.
From Verif Require Import Lib.Py Lib.Np Lib.Cube Lib.QSum Model.FreqAvg Model.Redundancy.
Import ListNotations.
Open Scope Z_scope.
Open Scope list_scope.

Record cvis := mkC { c_bl : list Z; c_time : list Z; c_nf : nat; c_np : nat; c_data : cube cqc; c_flag : cube bool; c_ns : cube Qc }.

Definition cconj (c : cqc) : cqc := (fst c, (- snd c)%Qc).
Definition rows_of (bls : list Z) (b : Z) : list nat := nonzero (Z.eqb b) bls.

(** uvdata.py:8704: the first baseline of each group *)
Definition heads (gps : list (list Z)) : list Z := map (hd 0) gps.
(** self.select(bls=bl_ants), for data in which no baseline occurs in both orientations
    (else select would keep the rows of the other one as well) *)
Definition kept (gps : list (list Z)) (v : cvis) : list nat := nonzero (fun b => isinZ b (heads gps)) (c_bl v).

(** uvdata.py:8821-8852: the average of rows, those marked true conjugated.  Masked
    entries do not count; nothing is masked if all entries are flagged. *)
Definition all_flagged (v : cvis) (ms : list (nat * bool)) : bool :=
  forallb (fun m => forallb (fun j => forallb (fun p => c_flag v (fst m) j p) (seq 0 (c_np v))) (seq 0 (c_nf v))) ms.
Definition counted (v : cvis) (ms : list (nat * bool)) (j p : nat) : list (nat * bool) :=
  filter (fun m => all_flagged v ms || negb (c_flag v (fst m) j p)) ms.
Definition oriented_vis (v : cvis) (j p : nat) (m : nat * bool) : cqc :=
  if snd m then cconj (c_data v (fst m) j p) else c_data v (fst m) j p.
Definition sum_ns (v : cvis) (ms : list (nat * bool)) (j p : nat) : Qc := qsum (map (fun m => c_ns v (fst m) j p) (counted v ms j p)).
Definition avg_vis (v : cvis) (ms : list (nat * bool)) (j p : nat) : cqc :=
  cdiv (csum (map (fun m => cscale (c_ns v (fst m) j p) (oriented_vis v j p m)) (counted v ms j p))) (sum_ns v ms j p).

Record temp := mkTemp { t_data : cube cqc; t_flag : cube bool; t_ns : cube Qc }.

(** uvdata.py:8764-8866: one cluster of times.  The average time is compared after
    multiplication with the number of times. *)
Definition time_step (tol : Z) (conjs : list Z) (v : cvis) (bl' tm' : list Z) (ms : list (nat * bool)) (head : Z) (t : temp) (gp : list Z) : temp :=
  let these := map (fun k => nth (Z.to_nat k) ms (0%nat, false)) gp in
  let total := fold_right Z.add 0 (map (fun m => nth (fst m) (c_time v) 0) these) in
  let n := Z.of_nat (length these) in
  match filter (fun o => Z.abs (n * nth o tm' 0 - total) <? n * tol) (rows_of bl' head) with
  | [o] =>
      let flip := isinZ (nth o bl' 0) conjs in
      mkTemp (fun i j p => if (i =? o)%nat then (if flip then cconj (avg_vis v these j p) else avg_vis v these j p) else t_data t i j p)
             (fun i j p => if (i =? o)%nat then forallb (fun m => c_flag v (fst m) j p) these else t_flag t i j p)
             (fun i j p => if (i =? o)%nat then sum_ns v these j p else t_ns t i j p)
  | _ => t
  end.

(** uvdata.py:8723-8762: the rows of a group, conjugated ones last *)
Definition members (conjs : list Z) (v : cvis) (group : list Z) : list (nat * bool) :=
  flat_map (fun b => map (fun i => (i, false)) (rows_of (c_bl v) b)) (filter (fun b => negb (isinZ b conjs)) group) ++
  flat_map (fun b => map (fun i => (i, true)) (rows_of (c_bl v) b)) (filter (fun b => isinZ b conjs) group).
Definition group_step (tol : Z) (conjs : list Z) (v : cvis) (bl' tm' : list Z) (t : temp) (group : list Z) : result temp :=
  let ms := members conjs v group in
  let times := map (fun m => nth (fst m) (c_time v) 0) ms in
  do gps <- find_clusters (map Z.of_nat (seq 0 (length times))) (map (fun t => [t]) times) tol false;
  Ok (fold_left (time_step tol conjs v bl' tm' ms (hd 0 group)) gps t).

Fixpoint groups_loop (tol : Z) (conjs : list Z) (v : cvis) (bl' tm' : list Z) (gps : list (list Z)) (t : temp) : result temp :=
  match gps with
  | [] => Ok t
  | g :: gps => do t <- group_step tol conjs v bl' tm' t g; groups_loop tol conjs v bl' tm' gps t
  end.

(** uvdata.py:8706-8874 *)
Definition compress_average (tol : Z) (gps : list (list Z)) (conjs : list Z) (v : cvis) : result cvis :=
  let k := kept gps v in
  let bl' := take 0 (c_bl v) k in
  let tm' := take 0 (c_time v) k in
  do t <- groups_loop tol conjs v bl' tm' gps (mkTemp (fun i j p : nat => (Q2Qc 0, Q2Qc 0)) (fun i j p : nat => false) (fun i j p : nat => Q2Qc 0));
  Ok (mkC bl' tm' (c_nf v) (c_np v) (t_data t) (t_flag t) (t_ns t)).

(** uvdata.py:8875-8878 *)
Definition compress_select (gps : list (list Z)) (v : cvis) : cvis :=
  let k := kept gps v in
  mkC (take 0 (c_bl v) k) (take 0 (c_time v) k) (c_nf v) (c_np v) (take0 k (c_data v)) (take0 k (c_flag v)) (take0 k (c_ns v)).
