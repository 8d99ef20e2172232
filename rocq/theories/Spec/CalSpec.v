(** What rearranging and combining calibration solutions is supposed to do. *)
From Coq Require Import List ZArith Bool String Sorted Permutation.
From Verif Require Import Lib.Py Lib.Cube Spec.FreqSpec Spec.AddSpec Spec.ToolsSpec Model.Freq Model.UVCal.
Import ListNotations.
Notation length := List.length.
Open Scope list_scope.
Open Scope Z_scope.

(** The labels of the four axes.  A channel is known by its window and frequency,
    an entry of a wide_band object by its window. *)
Definition ant_at (u : ucal) (a : nat) : Z := nth a (c_ants u) 0.
Definition chan_at (u : ucal) (f : nat) : Z * Z :=
  if c_wide u then (nth f (c_spws u) 0, 0) else (nth f (c_flex u) 0, nth f (c_freqs u) 0).
Definition time_at (u : ucal) (t : nat) : Z := nth t (time_keys u) 0.
Definition jones_at (u : ucal) (j : nat) : Z := nth j (c_jones u) 0.

(** A solution: gain or delay, flag, quality if recorded *)
Definition entry (u : ucal) (a f t j : nat) : cplx * bool * option Z :=
  (c_sol u a f t j, c_flags u a f t j, option_map (fun q => q a f t j) (c_qual u)).

(** The solution of [u] for these labels is [c]. *)
Definition solution (u : ucal) (x : Z) (y : Z * Z) (z p : Z) (c : cplx * bool * option Z) : Prop :=
  exists a f t j, (a < Nants u)%nat /\ (f < Nchans u)%nat /\ (t < Ntimes u)%nat /\ (j < Njones u)%nat /\
    ant_at u a = x /\ chan_at u f = y /\ time_at u t = z /\ jones_at u j = p /\ entry u a f t j = c.
Definition has_ant (u : ucal) (x : Z) : Prop := on_axis (Nants u) (ant_at u) x.
Definition has_chan (u : ucal) (y : Z * Z) : Prop := on_axis (Nchans u) (chan_at u) y.
Definition has_time (u : ucal) (z : Z) : Prop := on_axis (Ntimes u) (time_at u) z.
Definition has_jones (u : ucal) (p : Z) : Prop := on_axis (Njones u) (jones_at u) p.
Definition has_solution (u : ucal) (x : Z) (y : Z * Z) (z p : Z) : Prop :=
  has_ant u x /\ has_chan u y /\ has_time u z /\ has_jones u p.

(** The total quality for these labels is [q]. *)
Definition total_quality (u : ucal) (y : Z * Z) (z p q : Z) : Prop :=
  exists tq f t j, c_tqual u = Some tq /\ (f < Nchans u)%nat /\ (t < Ntimes u)%nat /\ (j < Njones u)%nat /\
    chan_at u f = y /\ time_at u t = z /\ jones_at u j = p /\ tq f t j = q.

(** What is recorded about a time, a channel and a window *)
Definition time_info (u : ucal) (t : nat) : option Z * option (Z * Z) * option Z * option (Z * Z) * option Z * Z :=
  (option_map (fun l => nth t l 0) (c_time_array u), option_map (fun l => nth t l (0, 0)) (c_time_range u),
   option_map (fun l => nth t l 0) (c_lst_array u), option_map (fun l => nth t l (0, 0)) (c_lst_range u),
   option_map (fun l => nth t l 0) (c_ref_ant u), nth t (c_int_time u) 0).
Definition about_time (u : ucal) (z : Z) m : Prop := exists t, (t < Ntimes u)%nat /\ time_at u t = z /\ time_info u t = m.
(** the frequency range of a window of a wide_band object, the width of a channel *)
Definition chan_info (u : ucal) (f : nat) : Z * Z := if c_wide u then nth f (c_freq_range u) (0, 0) else (nth f (c_widths u) 0, 0).
Definition about_chan (u : ucal) (y m : Z * Z) : Prop := exists f, (f < Nchans u)%nat /\ chan_at u f = y /\ chan_info u f = m.
(** the Jones term of a window (flex_jones_array) *)
Definition window_jones (u : ucal) (w p : Z) : Prop :=
  exists fj k, c_flex_jones u = Some fj /\ (k < length (c_spws u))%nat /\ nth k (c_spws u) 0 = w /\ nth_error fj k = Some p.

(** A valid object with distinct labels on every axis *)
Definition cal_ok (u : ucal) : Prop :=
  (length (c_int_time u) = Ntimes u /\
   (forall l, c_time_array u = Some l -> length l = Ntimes u) /\ (forall l, c_lst_array u = Some l -> length l = Ntimes u) /\
   (forall l, c_lst_range u = Some l -> length l = Ntimes u) /\ (forall l, c_ref_ant u = Some l -> length l = Ntimes u)) /\
  (if c_wide u then length (c_freq_range u) = length (c_spws u)
   else length (c_widths u) = length (c_freqs u) /\ length (c_flex u) = length (c_freqs u) /\
        forall w, In w (c_flex u) <-> In w (c_spws u)) /\
  NoDup (c_spws u) /\ (forall l, c_flex_jones u = Some l -> length l = length (c_spws u)) /\
  distinct (Nants u) (ant_at u) /\ distinct (Nchans u) (chan_at u) /\
  distinct (Ntimes u) (time_at u) /\ distinct (Njones u) (jones_at u).

(** The two objects record the same things. *)
Definition same_content (u r : ucal) : Prop :=
  c_gain r = c_gain u /\ c_wide r = c_wide u /\ c_compat r = c_compat u /\
  ((forall x, has_ant r x <-> has_ant u x) /\ (forall y, has_chan r y <-> has_chan u y) /\
   (forall z, has_time r z <-> has_time u z) /\ (forall p, has_jones r p <-> has_jones u p)) /\
  (forall x y z p c, solution r x y z p c <-> solution u x y z p c) /\
  (forall y z p q, total_quality r y z p q <-> total_quality u y z p q) /\
  (forall z m, about_time r z m <-> about_time u z m) /\
  (forall y m, about_chan r y m <-> about_chan u y m) /\
  (forall w p, window_jones r w p <-> window_jones u w p).

Definition same_ants (u r : ucal) : Prop := c_ants r = c_ants u.
Definition same_times (u r : ucal) : Prop :=
  c_time_array r = c_time_array u /\ c_time_range r = c_time_range u /\ c_lst_array r = c_lst_array u /\
  c_lst_range r = c_lst_range u /\ c_ref_ant r = c_ref_ant u /\ c_int_time r = c_int_time u.
Definition same_chans (u r : ucal) : Prop :=
  c_spws r = c_spws u /\ c_freq_range r = c_freq_range u /\ c_freqs r = c_freqs u /\ c_widths r = c_widths u /\
  c_flex r = c_flex u /\ c_flex_jones r = c_flex_jones u.
Definition same_jones (u r : ucal) : Prop := c_jones r = c_jones u.

(** Increasing, or decreasing *)
Definition in_order {A} (lt : A -> A -> Prop) (desc : bool) (l : list A) : Prop :=
  StronglySorted (fun a b => if desc then lt b a else lt a b) l.

(** The entries [l'] of an axis are those of [l] in the order asked for; [name]
    gives the names used by a sort by name. *)
Definition order_obeyed (name : Z -> result string) (req : order_request) (l l' : list Z) : Prop :=
  match req with
  | ByIndex idx => Permutation idx (map Z.of_nat (seq 0 (length l))) /\ l' = map (fun i => nth (Z.to_nat i) l 0) idx
  | ByNumber desc => in_order Z.lt desc l'
  | ByName desc =>
      in_order (fun x y => exists s t, name x = Ok s /\ name y = Ok t /\ String.leb s t = true) desc l' /\
      Forall (fun x => exists s, name x = Ok s) l'
  | ByOther => False
  end.

(** The windows [worder] are in the order asked for.  A window is placed by the
    median of its frequencies, or by the middle of its range. *)
Definition windows_obeyed (req : spw_request) (u : ucal) (worder : list Z) : Prop :=
  match req with
  | SpwIndex idx => worder = map (fun i => nth (Z.to_nat i) (c_spws u) 0) idx
  | SpwNumber desc => in_order Z.lt desc worder
  | SpwFreq desc =>
      if c_wide u
      then in_order (fun a b => forall lo hi lo' hi', about_chan u (a, 0) (lo, hi) -> about_chan u (b, 0) (lo', hi') ->
                       lo + hi <= lo' + hi') desc worder
      else in_order (fun a b => forall m n, twice_median (window_freqs a (c_flex u) (c_freqs u)) m ->
                       twice_median (window_freqs b (c_flex u) (c_freqs u)) n -> m <= n) desc worder
  | SpwOther => False
  end.

(** Channel [i] of [r] is channel [sigma i] of [u], and [sigma] is what was asked for. *)
Definition channels_obeyed (so : option spw_request) (co : option chan_request) (ss : option (list Z)) (u r : ucal) (sigma : list nat) : Prop :=
  Permutation sigma (seq 0 (length (c_freqs u))) /\
  c_flex r = map (fun i => nth i (c_flex u) 0) sigma /\ c_freqs r = map (fun i => nth i (c_freqs u) 0) sigma /\
  (forall idx, co = Some (ChanIndex idx) -> map Z.of_nat sigma = idx) /\
  ((forall idx, co <> Some (ChanIndex idx)) ->
   (forall req, so = Some req -> ss = None ->
      exists worder, Permutation worder (c_spws u) /\ windows_obeyed req u worder /\ grouped (c_flex u) (c_flex r) worder) /\
   (so = None \/ ss <> None ->
      c_flex r = c_flex u /\
      forall p, (p < length sigma)%nat -> co = None \/ ~ selected ss (nth p (c_flex u) 0) -> nth p sigma O = p)) /\
  (forall i j, (i < j < length sigma)%nat -> nth i (c_flex r) 0 = nth j (c_flex r) 0 ->
     match co with
     | None => (nth i sigma 0 < nth j sigma 0)%nat
     | Some (ChanFreq desc) => selected ss (nth i (c_flex r) 0) ->
         if desc then nth j (c_freqs r) 0 <= nth i (c_freqs r) 0 else nth i (c_freqs r) 0 <= nth j (c_freqs r) 0
     | _ => True
     end).

(** ** Combining two objects *)

(** [a] and [b] describe their times in the same way; every time range has its end
    after its start. *)
Definition proper_ranges (u : ucal) : Prop := forall l r, c_time_range u = Some l -> In r l -> fst r < snd r.
Definition same_kinds (a b : ucal) : Prop :=
  (c_lst_array a = None <-> c_lst_array b = None) /\ (c_lst_range a = None <-> c_lst_range b = None) /\
  proper_ranges a /\ proper_ranges b.

(** On each axis of [b] the labels shared with [a] come before the new ones. *)
Definition shared_come_first (a b : ucal) : Prop :=
  shared_first (Nants a) (Nants b) (ant_at a) (ant_at b) /\ shared_first (Nchans a) (Nchans b) (chan_at a) (chan_at b) /\
  shared_first (Ntimes a) (Ntimes b) (time_at a) (time_at b) /\ shared_first (Njones a) (Njones b) (jones_at a) (jones_at b).

(** The axes of [r] are the unions. *)
Definition axes_united (a b r : ucal) : Prop :=
  axis_union (Nants a) (Nants b) (Nants r) (ant_at a) (ant_at b) (ant_at r) /\
  axis_union (Nchans a) (Nchans b) (Nchans r) (chan_at a) (chan_at b) (chan_at r) /\
  axis_union (Ntimes a) (Ntimes b) (Ntimes r) (time_at a) (time_at b) (time_at r) /\
  axis_union (Njones a) (Njones b) (Njones r) (jones_at a) (jones_at b) (jones_at r).

(** A solution with its quality, which is zero if only the other object has qualities *)
Definition graded (a b : ucal) (c : cplx * bool * option Z) : cplx * bool * option Z :=
  (fst c, match c_qual a, c_qual b with None, None => None | _, _ => Some (match snd c with Some q => q | None => 0 end) end).
Definition no_solution : cplx * bool * option Z := ((0, 0), true, None).

(** There is a total quality for these labels. *)
Definition has_total (u : ucal) (y : Z * Z) (z p : Z) : Prop := exists q, total_quality u y z p q.

(** The objects have parameters of the same kinds. *)
Definition both_or_none {A B} (x : option A) (y : option B) : Prop := x = None <-> y = None.
Definition same_parameters (a b : ucal) : Prop :=
  both_or_none (c_flex_jones a) (c_flex_jones b) /\ both_or_none (c_ref_ant a) (c_ref_ant b) /\ c_wide b = c_wide a /\
  both_or_none (c_time_array a) (c_time_array b) /\ both_or_none (c_time_range a) (c_time_range b) /\
  c_gain a = c_gain b /\ c_compat a = c_compat b.
(** Total qualities of several antennas cannot be combined, so new antennas drop
    them.  Otherwise new times need an object with qualities, and several windows
    need the first object to have total qualities. *)
Definition totals_combine (a b : ucal) : Prop :=
  (c_tqual a = None /\ c_tqual b = None) \/ (exists x, has_ant b x /\ ~ has_ant a x) \/
  (((forall z, has_time b z -> has_time a z) \/ c_qual a <> None \/ c_qual b <> None) /\
   (c_tqual a <> None \/ c_wide a = false \/ Nchans a = 1%nat)).
(** No two time ranges overlap. *)
Definition times_apart (a b : ucal) : Prop :=
  forall la lb i j, c_time_range a = Some la -> c_time_range b = Some lb -> (i < length (la ++ lb))%nat -> (j < length (la ++ lb))%nat -> i <> j ->
    ~ share_interior (nth i (la ++ lb) (0, 0)) (nth j (la ++ lb) (0, 0)).
(** Times in both objects have the same reference antenna. *)
Definition same_references (a b : ucal) : Prop :=
  forall l l' i j, c_ref_ant a = Some l -> c_ref_ant b = Some l' -> (i < Ntimes a)%nat -> (j < Ntimes b)%nat -> time_at a i = time_at b j ->
    nth i l 0 = nth j l' 0.
