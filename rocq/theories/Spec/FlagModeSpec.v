(** Flags and metrics (C85). *)
From Coq Require Import List ZArith Bool Arith Qcanon Reals.
From Verif Require Import Lib.Np Model.UVFlag Model.FlagSelect Model.Collapse Model.FlagMode Spec.CollapseSpec Spec.FlagSpec.
Import ListNotations.
Open Scope Z_scope.
Open Scope list_scope.

(** The object is the same but for its flags or metrics. *)
Definition same_labels (u v : mobj) : Prop :=
  o_type v = o_type u /\ o_Nants v = o_Nants u /\ o_ants v = o_ants u /\ o_ant1 v = o_ant1 u /\ o_ant2 v = o_ant2 u /\
  o_bl v = o_bl u /\ o_time v = o_time u /\ o_lst v = o_lst u /\ o_freq v = o_freq u /\ o_pols v = o_pols u.

(** An object in flag mode with flags [f], of the shape its type asks for *)
Definition flags_are (u : mobj) (f : arr bool) : Prop := o_mode u = Flags f /\ shape f = form u.
(** An object in metric mode *)
Definition metrics_are (u : mobj) (m : arr num) (w : arr Qc) : Prop :=
  (exists sq, o_mode u = Metrics m w sq /\ forall s, sq = Some s -> shape s = square_form u) /\
  shape m = form u /\ shape w = form u.

(** [x >= t], infinities included *)
Definition at_least (x t : num) : Prop :=
  x = Inf false \/ t = Inf true \/ exists a b, real_of x = Some a /\ real_of t = Some b /\ (b <= a)%R.

(** A position within an array of shape [s] *)
Definition within (s : list nat) (ix : index) : Prop := Forall2 lt ix s.

(** The rows of an object of type baseline *)
Definition rows_ok (u : mobj) : Prop := o_type u = TypeBaseline -> flag_consistent (as_rows u).

(** Two positions in the same waterfall: the same polarization, and the same antenna
    or antenna pair *)
Definition same_pair (u : mobj) (r r' : nat) : Prop :=
  nth r (o_ant1 u) 0 = nth r' (o_ant1 u) 0 /\ nth r (o_ant2 u) 0 = nth r' (o_ant2 u) 0.
Definition same_time_line (u : mobj) (x y : index) : Prop :=
  match o_type u, x, y with
  | TypeWaterfall, [t; _; p], [t'; _; p'] => t = t' /\ p = p'
  | TypeBaseline, [r; _; p], [r'; _; p'] => r = r' /\ p = p'
  | TypeAntenna, [a; _; t; p], [a'; _; t'; p'] => a = a' /\ t = t' /\ p = p'
  | _, _, _ => False
  end.
Definition same_channel_line (u : mobj) (x y : index) : Prop :=
  match o_type u, x, y with
  | TypeWaterfall, [_; j; p], [_; j'; p'] => j = j' /\ p = p'
  | TypeBaseline, [r; j; p], [r'; j'; p'] => same_pair u r r' /\ j = j' /\ p = p'
  | TypeAntenna, [a; j; _; p], [a'; j'; _; p'] => a = a' /\ j = j' /\ p = p'
  | _, _, _ => False
  end.
(** The position lies on a line of its waterfall, across all channels or across all
    times, that is flagged everywhere. *)
Definition whole_line (u : mobj) (f : arr bool) (x : index) : Prop :=
  (forall y, within (shape f) y -> same_time_line u x y -> at_ f y = true) \/
  (forall y, within (shape f) y -> same_channel_line u x y -> at_ f y = true).

(** numpy's broadcasting of the second shape to the first: it is not longer, and
    counted from the back every axis has the same length or length one. *)
Definition spreads (mine theirs : list nat) : Prop :=
  (length theirs <= length mine)%nat /\
  forall k, (k < length theirs)%nat ->
    nth k (rev theirs) 0%nat = nth k (rev mine) 0%nat \/ nth k (rev theirs) 0%nat = 1%nat.
(** The position [y] of the second array that goes with position [x] of the first *)
Definition goes_with (theirs : list nat) (x y : index) : Prop :=
  length y = length theirs /\
  forall k, (k < length theirs)%nat -> nth k (rev y) 0%nat = if (nth k (rev theirs) 0 =? 1)%nat then 0%nat else nth k (rev x) 0%nat.
