(** Specification of C99, for any list of frequencies. *)
From Coq Require Import List ZArith QArith Qcanon Arith.
From Verif Require Import Lib.Py Model.BeamInterp.
Import ListNotations.
Notation length := List.length.
Open Scope list_scope.
Open Scope Qc_scope.

(** x is within d of y *)
Definition within (d x y : Qc) : Prop := x - y < d /\ y - x < d.
Definition has (fs : list Qc) (f : Qc) : Prop := exists i, (i < length fs)%nat /\ nth i fs 0 = f.
(** every requested frequency is close to a frequency of the beam *)
Definition all_close (fs : list Qc) (tol : Qc) (freqs : list Qc) : Prop :=
  forall f, In f freqs -> exists x, In x fs /\ within tol x f.
(** no frequency is nearer than number i *)
Definition nearest (fs : list Qc) (f : Qc) (i : nat) : Prop :=
  (i < length fs)%nat /\ forall j d, (j < length fs)%nat -> within d (nth j fs 0) f -> within d (nth i fs 0) f.
(** numbers i and j are neighbours around f *)
Definition neighbours (fs : list Qc) (f : Qc) (i j : nat) : Prop :=
  (i < length fs)%nat /\ (j < length fs)%nat /\ nth i fs 0 < nth j fs 0 /\ nth i fs 0 <= f /\ f <= nth j fs 0 /\
  (forall k, (k < length fs)%nat -> nth k fs 0 <= nth i fs 0 \/ nth j fs 0 <= nth k fs 0).
(** (f, v) is on the straight line through (x, y) and (x', y') *)
Definition on_line (x y x' y' f v : Qc) : Prop := (v - y) * (x' - x) = (y' - y) * (f - x).
Definition in_range (fs : list Qc) (f : Qc) : Prop := (exists x, In x fs /\ x <= f) /\ (exists x, In x fs /\ f <= x).

(** A call with saved splines that uses one set of spline options and, except at frequencies of the
    beam itself, one kind of interpolation in frequency *)
Definition consistent {opts} (m : kind) (o : opts) (b : beam) (c : call (opts := opts)) : Prop :=
  c_reuse c = true -> c_opts c = o /\
  match c_freqs c with
  | None => True
  | Some fs => (forall f, In f fs -> In f (b_freqs b)) \/
      (m = Nearest /\ (c_kind c = Nearest \/ all_close (b_freqs b) (c_tol c) fs)) \/
      (m = Linear /\ c_kind c = Linear /\ ~ all_close (b_freqs b) (c_tol c) fs)
  end.
(** the same call without saved splines *)
Definition without_reuse {opts} (c : call (opts := opts)) : call :=
  {| c_freqs := c_freqs c; c_kind := c_kind c; c_tol := c_tol c; c_pols := c_pols c; c_points := c_points c; c_reuse := false; c_opts := c_opts c |}.
(** the same values, number of polarizations, frequencies and bandpass, or the same error *)
Definition same_result (r r' : result ((position -> list C) * nat * list Qc * bandpass * cache)) : Prop :=
  match r, r' with
  | Ok (out, n, fs, band, _), Ok (out', n', fs', band', _) => (forall q, out q = out' q) /\ n = n' /\ fs = fs' /\ band = band'
  | Err e, Err e' => e = e'
  | _, _ => False
  end.
(** the spline through an image, real and imaginary parts separately *)
Definition through {opts} (spline : opts -> list Qc -> Qc * Qc -> Qc) (o : opts) (n : nat) (image : nat -> C) (q : Qc * Qc) : C :=
  (spline o (map (fun x => fst (image x)) (seq 0 n)) q, spline o (map (fun x => snd (image x)) (seq 0 n)) q).
