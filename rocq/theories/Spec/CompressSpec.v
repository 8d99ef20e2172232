(** Averages over redundant baselines. *)
From Coq Require Import List ZArith QArith Qcanon Bool Arith.
From Verif Require Import Lib.Cube Lib.QSum Model.FreqAvg Model.Compress.
Import ListNotations.
Open Scope Z_scope.
Open Scope list_scope.

Definition bl_at (v : cvis) (i : nat) : Z := nth i (c_bl v) 0.
Definition time_at (v : cvis) (i : nat) : Z := nth i (c_time v) 0.
Definition near_in_time (tol : Z) (v : cvis) (i k : nat) : Prop := Z.abs (time_at v i - time_at v k) < tol.

(** One entry for each row; groups of baselines that have data, none of them in two groups *)
Definition sound (gps : list (list Z)) (v : cvis) : Prop :=
  List.length (c_time v) = List.length (c_bl v) /\ NoDup (List.concat gps) /\
  Forall (fun g => g <> []) gps /\ (forall b, In b (List.concat gps) -> In b (c_bl v)).

(** Times of a group are the same up to the tolerance or not: no chains *)
Definition no_chains (tol : Z) (g : list Z) (v : cvis) : Prop :=
  forall i k l, (i < List.length (c_bl v))%nat -> (k < List.length (c_bl v))%nat -> (l < List.length (c_bl v))%nat ->
    In (bl_at v i) g -> In (bl_at v k) g -> In (bl_at v l) g ->
    near_in_time tol v i k -> near_in_time tol v k l -> near_in_time tol v i l.
(** The row [r] is the only one of its baseline at its time. *)
Definition only_row (tol : Z) (v : cvis) (r : nat) : Prop :=
  forall i, (i < List.length (c_bl v))%nat -> bl_at v i = bl_at v r -> near_in_time tol v i r -> i = r.

(** Rows averaged into row [r]: those of the group at the same time *)
Definition joins (tol : Z) (g : list Z) (v : cvis) (r i : nat) : bool :=
  existsb (Z.eqb (bl_at v i)) g && (Z.abs (time_at v i - time_at v r) <? tol).
Definition joined (tol : Z) (g : list Z) (v : cvis) (r : nat) : list nat := filter (joins tol g v r) (seq 0 (List.length (c_bl v))).
(** The rows that count for a visibility: unflagged ones, or all if nothing in the
    rows is unflagged *)
Definition counts (v : cvis) (l : list nat) (j p : nat) : list nat :=
  if forallb (fun i => forallb (fun j => forallb (fun p => c_flag v i j p) (seq 0 (c_np v))) (seq 0 (c_nf v))) l then l
  else filter (fun i => negb (c_flag v i j p)) l.
(** The visibility as if the baseline had the orientation of the group *)
Definition facing (conjs : list Z) (v : cvis) (i j p : nat) : cqc :=
  if existsb (Z.eqb (bl_at v i)) conjs then (fst (c_data v i j p), (- snd (c_data v i j p))%Qc) else c_data v i j p.
Definition total_ns (v : cvis) (l : list nat) (j p : nat) : Qc := qsum (map (fun i => c_ns v i j p) l).

(** [w] at row [o] is the average for row [r] of [v]. *)
Definition averaged (tol : Z) (conjs g : list Z) (v w : cvis) (r o j p : nat) : Prop :=
  let l := joined tol g v r in
  let c := counts v l j p in
  bl_at w o = bl_at v r /\ time_at w o = time_at v r /\
  c_flag w o j p = forallb (fun i => c_flag v i j p) l /\
  c_ns w o j p = total_ns v c j p /\
  (total_ns v c j p <> Q2Qc 0 ->
     (fst (facing conjs w o j p) * total_ns v c j p = qsum (map (fun i => c_ns v i j p * fst (facing conjs v i j p)) c))%Qc /\
     (snd (facing conjs w o j p) * total_ns v c j p = qsum (map (fun i => c_ns v i j p * snd (facing conjs v i j p)) c))%Qc).
