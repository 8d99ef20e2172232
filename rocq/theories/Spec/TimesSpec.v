(** Which times a selection asks for. *)
From Coq Require Import List ZArith QArith Qabs.
From Verif Require Import Model.Times.
Import ListNotations.
Open Scope Z_scope.

(** Two times agree to a tolerance (relative to the second, and absolute). *)
Definition agree (tols : Q * Q) (a b : Z) : Prop :=
  (Qabs (inject_Z a - inject_Z b) <= snd tols + fst tols * Qabs (inject_Z b))%Q.

(** An LST lies in a range; a range whose end is before its start goes through
    2 pi = 0. *)
Definition in_lst_range (two_pi l0 l1 x : Z) : Prop :=
  if l1 <? l0 then (l0 <= x <= two_pi \/ 0 <= x <= l1) else l0 <= x <= l1.

(** Element [t] of a time array with LST [l] is asked for. *)
Definition wanted_time (two_pi : Z) (rq : time_request) (time_tols lst_tols : Q * Q) (t l : Z) : Prop :=
  (forall vals, rq_times rq = Some vals -> exists v, In v vals /\ agree time_tols t v) /\
  (forall t0 t1, rq_time_range rq = Some [t0; t1] -> t0 <= t <= t1) /\
  (forall vals, rq_lsts rq = Some vals -> exists v, In v vals /\ agree lst_tols l v) /\
  (forall l0 l1, rq_lst_range rq = Some [l0; l1] -> in_lst_range two_pi l0 l1 l).

(** No criterion, or exactly one. *)
Definition no_time_criterion (rq : time_request) : Prop :=
  rq_times rq = None /\ rq_time_range rq = None /\ rq_lsts rq = None /\ rq_lst_range rq = None.
Definition one_time_criterion (rq : time_request) : Prop :=
  (exists v, rq = mkTimeRequest (Some v) None None None) \/ (exists v, rq = mkTimeRequest None (Some v) None None) \/
  (exists v, rq = mkTimeRequest None None (Some v) None) \/ (exists v, rq = mkTimeRequest None None None (Some v)).

(** What is asked for is there: each listed value, and something in the range. *)
Definition request_met (two_pi : Z) (rq : time_request) (time_tols lst_tols : Q * Q) (times lsts : list Z) : Prop :=
  (forall vals v, rq_times rq = Some vals -> In v vals -> exists t, In t times /\ agree time_tols t v) /\
  (forall r, rq_time_range rq = Some r -> exists t0 t1 t, r = [t0; t1] /\ In t times /\ t0 <= t <= t1) /\
  (forall vals v, rq_lsts rq = Some vals -> In v vals -> exists l, In l lsts /\ agree lst_tols l v) /\
  (forall r, rq_lst_range rq = Some r -> exists l0 l1 l, r = [l0; l1] /\ In l lsts /\ in_lst_range two_pi l0 l1 l).

(** Two ranges of positive length have more than an end in common. *)
Definition ranges_meet (a b : Z * Z) : Prop := fst a < snd b /\ fst b < snd a.

(** Range [r] of an array of time ranges, with LST range [l], is asked for (no
    range going through 2 pi). *)
Definition wanted_range (rq : time_request) (r l : Z * Z) : Prop :=
  (forall vals, rq_times rq = Some vals -> exists v, In v vals /\ fst r <= v <= snd r) /\
  (forall t0 t1, rq_time_range rq = Some [t0; t1] -> ranges_meet r (t0, t1)) /\
  (forall vals, rq_lsts rq = Some vals -> exists v, In v vals /\ fst l <= v <= snd l) /\
  (forall l0 l1, rq_lst_range rq = Some [l0; l1] -> ranges_meet l (l0, l1)).

(** No LST range goes through 2 pi, and none is empty. *)
Definition nothing_wraps (rq : time_request) (lsts : list (Z * Z)) : Prop :=
  (forall r, In r lsts -> fst r < snd r) /\ (forall l0 l1, rq_lst_range rq = Some [l0; l1] -> l0 < l1).

(** LST [x] is in range [r], which may go through 2 pi. *)
Definition in_circle_range (two_pi x : Z) (r : Z * Z) : Prop := in_lst_range two_pi (fst r) (snd r) x.
