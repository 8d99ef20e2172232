(** What moving Jones terms to windows of their own, and back, is supposed to do. *)
From Coq Require Import List ZArith QArith Bool Permutation.
From Verif Require Import Lib.Py Model.Times Model.UVCal Spec.CalSpec.
Import ListNotations.
Notation length := List.length.
Open Scope list_scope.
Open Scope Z_scope.

(** An object whose windows have Jones terms of their own *)
Definition flex_ok (u : ucal) : Prop := cal_ok u /\ c_spws u <> [] /\ c_flex_jones u <> None /\ c_jones u = [0].

(** Off the frequency and Jones axes nothing changes. *)
Definition off_axes_same (u r : ucal) : Prop :=
  c_gain r = c_gain u /\ c_wide r = c_wide u /\ c_compat r = c_compat u /\ same_ants u r /\ same_times u r /\
  (c_qual r = None <-> c_qual u = None).

(** [r] is [u] with a window [win w p] for each window [w] and Jones term [p].  The
    windows of the first term keep their numbers. *)
Definition flex_jones_made (u r : ucal) (win : Z -> Z -> Z) : Prop :=
  flex_ok r /\ off_axes_same u r /\
  (forall w w' p p', In w (c_spws u) -> In w' (c_spws u) -> has_jones u p -> has_jones u p' ->
     win w p = win w' p' -> w = w' /\ p = p') /\
  (forall w, In w (c_spws u) -> win w (jones_at u 0) = w) /\
  (forall v p, window_jones r v p <-> has_jones u p /\ exists w, In w (c_spws u) /\ v = win w p) /\
  (forall w p f i, In w (c_spws u) -> has_jones u p -> (about_chan r (win w p, f) i <-> about_chan u (w, f) i)) /\
  (forall x w f z p c, In w (c_spws u) -> has_jones u p ->
     (solution r x (win w p, f) z 0 c <-> solution u x (w, f) z p c)) /\
  (forall w f z p q, In w (c_spws u) -> has_jones u p ->
     (total_quality r (win w p, f) z 0 q <-> total_quality u (w, f) z p q)).

(** Entry [f] of the frequency axis is number [k] of window [w]. *)
Definition kth (u : ucal) (w : Z) (k f : nat) : Prop :=
  nth_error (filter (fun i => fst (chan_at u i) =? w) (seq 0 (Nchans u))) k = Some f.

(** The two entries have the same frequencies and widths, within the tolerances. *)
Definition near (ftol ctol : Q * Q) (u : ucal) (f : nat) (r : ucal) (f' : nat) : Prop :=
  if c_wide u
  then closeZ ftol (fst (chan_info u f)) (fst (chan_info r f')) = true /\ closeZ ftol (snd (chan_info u f)) (snd (chan_info r f')) = true
  else closeZ ftol (snd (chan_at u f)) (snd (chan_at r f')) = true /\ closeZ ctol (fst (chan_info u f)) (fst (chan_info r f')) = true.

(** No frequency is within the tolerance of all channels of a window, unless it has
    one channel only. *)
Definition resolved (ftol : Q * Q) (u : ucal) : Prop :=
  c_wide u = false -> forall w x, 
  (forall k f, kth u w k f -> closeZ ftol x (snd (chan_at u f)) = true) \/ (forall k f, kth u w k f -> closeZ ftol (snd (chan_at u f)) x = true) ->
  forall f, ~ kth u w 1 f.

(** [r] is [u] with an ordinary Jones axis.  Window [w] has become the entries of
    window [m w] for the Jones term of [w]. *)
Definition flex_jones_removed (ftol ctol : Q * Q) (u r : ucal) (m : Z -> Z) : Prop :=
  cal_ok r /\ off_axes_same u r /\ c_flex_jones r = None /\ c_tqual r = c_tqual u /\
  (forall v, In v (c_spws r) <-> exists w, In w (c_spws u) /\ m w = v) /\
  (forall w, In w (c_spws u) -> In (m w) (c_spws u) /\ m (m w) = m w) /\
  (forall w w' p, window_jones u w p -> window_jones u w' p -> m w = m w' -> w = w') /\
  (forall p, has_jones r p <-> exists w, window_jones u w p) /\
  (forall v f i, about_chan r (v, f) i <-> In v (c_spws r) /\ about_chan u (v, f) i) /\
  (forall w k f f', kth u w k f -> kth r w k f' -> chan_at r f' = chan_at u f /\ chan_info r f' = chan_info u f) /\
  (forall w k, In w (c_spws u) -> ((exists f, kth u w k f) <-> exists f, kth r (m w) k f)) /\
  (forall w p k f f' j, window_jones u w p -> kth u w k f -> kth r (m w) k f' -> (j < Njones r)%nat -> jones_at r j = p ->
     near ftol ctol u f r f' /\ forall a t, entry r a f' t j = entry u a f t 0) /\
  (forall f j, (f < Nchans r)%nat -> (j < Njones r)%nat ->
     (forall w, window_jones u w (jones_at r j) -> m w <> fst (chan_at r f)) ->
     forall a t, entry r a f t j = ((0, 0), true, option_map (fun _ => 0) (c_qual u))).

(** Windows whose channels agree within the tolerances *)
Definition windows_close (ftol ctol : Q * Q) (u : ucal) (w w' : Z) : Prop :=
  forall k f f', kth u w k f -> kth u w' k f' -> near ftol ctol u f u f'.
(** All windows have as many channels. *)
Definition equal_windows (u : ucal) : Prop :=
  forall w w' k, In w (c_spws u) -> In w' (c_spws u) -> (exists f, kth u w k f) -> exists f, kth u w' k f.
(** Tolerances that are not negative *)
Definition sane (tols : Q * Q) : Prop := (0 <= fst tols)%Q /\ (0 <= snd tols)%Q.
