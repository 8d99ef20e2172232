(** Coding of spectra in Mir files. *)
From Coq Require Import List ZArith QArith Qabs Bool Arith.
From Verif Require Import Model.MirVis.
Import ListNotations.
Open Scope Z_scope.
Open Scope list_scope.

Definition ch (v : vis) (i : nat) : Q * Q := nth i (data v) (0, 0)%Q.
Definition flagged (v : vis) (i : nat) : bool := nth i (flags v) false.
(** [y] is [x] cut to multiples of [step]. *)
Definition cut_to (step x y : Q) : Prop :=
  (exists n, y == inject_Z n * step)%Q /\ (Qabs (x - y) < step)%Q /\ (Qabs y <= Qabs x)%Q /\ (0 <= x * y)%Q.
(** The step is at most 2^-14 of the largest component, but not below 2^-66. *)
Definition fine_step (step : Q) (v : vis) : Prop :=
  (0 < step)%Q /\ ((step <= Qpower 2 (-66))%Q \/ exists i, (i < List.length (data v))%nat /\ ((step * Qpower 2 14 <= Qabs (fst (ch v i)))%Q \/ (step * Qpower 2 14 <= Qabs (snd (ch v i)))%Q)).
(** Integers as they come out of the correlator *)
Definition valid_raw (r : raw) : Prop :=
  Forall (fun p => (fst p = -32768 /\ snd p = -32768) \/ (-32768 < fst p < 32768 /\ -32768 < snd p < 32768)) (pairs (values r)) /\
  exists n, List.length (values r) = (2 * n)%nat.
Definition same_vis (v w : vis) : Prop :=
  Forall2 (fun c d => (fst c == fst d)%Q /\ (snd c == snd d)%Q) (data v) (data w) /\ flags v = flags w /\ weights v = weights w.
