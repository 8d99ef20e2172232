(** Gains of delays. *)
From Coq Require Import List ZArith Reals Bool String.
From Verif Require Import Lib.Py Model.UVCal Model.CalGain.
Import ListNotations.
Open Scope list_scope.

(** +1 for the "plus" convention, -1 for "minus" *)
Definition sign_of (convention : string) (s : R) : Prop :=
  (convention = "plus"%string /\ s = 1%R) \/ (convention = "minus"%string /\ s = (-1)%R).

(** A conversion that can be done: delays of one window, a known convention, as many
    widths as frequencies, all of them in the range of the window. *)
Definition conversion_ok (u : ucal) (fs ws : list Z) (convention : string) : Prop :=
  c_gain u = false /\ (exists w, c_spws u = [w]) /\ (exists s, sign_of convention s) /\ List.length ws = List.length fs /\
  match c_freq_range u with (lo, hi) :: _ => forall v, In v fs -> (lo <= v <= hi)%Z | [] => True end.
