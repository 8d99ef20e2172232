(** Which solutions a selection asks for, and what it means to keep just these. *)
From Coq Require Import List ZArith Bool QArith String.
From Verif Require Import Lib.Py Lib.Cube Model.Pol Model.Times Model.Select Model.UVCal Model.CalSelect
  Spec.TimesSpec Spec.SelectSpec Spec.CalSpec.
Import ListNotations.
Notation length := List.length.
Open Scope list_scope.
Open Scope Z_scope.

(** Antenna [n] of the telescope is called [s]. *)
Definition called (tel : cal_telescope) (s : string) (n : Z) : Prop :=
  exists k, (k < length (ct_names tel))%nat /\ nth k (ct_names tel) EmptyString = s /\ nth_error (ct_numbers tel) k = Some n.
Definition tel_ok (tel : cal_telescope) : Prop := NoDup (ct_names tel).

(** Antenna [a] is listed, by number or by name. *)
Definition ant_wanted (tel : cal_telescope) (cr : cal_criteria) (u : ucal) (a : nat) : Prop :=
  (forall l, cc_antenna_nums cr = Some l -> In (ant_at u a) l) /\
  (forall l, cc_antenna_names cr = Some l -> exists s, In s l /\ called tel s (ant_at u a)).

(** Time [t] is asked for. *)
Definition cal_time_wanted (two_pi : Z) (tols lst_tols : Q * Q) (cr : cal_criteria) (u : ucal) (t : nat) : Prop :=
  (forall ta la, c_time_range u = None -> c_time_array u = Some ta -> c_lst_array u = Some la ->
     wanted_time two_pi (cc_time cr) tols lst_tols (nth t ta 0) (nth t la 0)) /\
  (forall tr lr, c_time_range u = Some tr -> c_lst_range u = Some lr ->
     wanted_range (cc_time cr) (nth t tr (0, 0)) (nth t lr (0, 0))).
(** The object has times and LSTs, or ranges of both none of which goes through 2 pi. *)
Definition times_plain (rq : time_request) (u : ucal) : Prop :=
  (exists ta la, c_time_range u = None /\ c_lst_range u = None /\ c_time_array u = Some ta /\ c_lst_array u = Some la) \/
  (exists tr lr, c_time_range u = Some tr /\ c_lst_range u = Some lr /\ (forall r, In r tr -> fst r < snd r) /\
     (forall t0 t1, rq_time_range rq = Some [t0; t1] -> t0 < t1) /\ nothing_wraps rq lr).

(** The Jones terms asked for.  Some of them may be those of windows, not of the
    Jones axis (flex_jones_array). *)
Definition jones_asked (tel : cal_telescope) (cr : cal_criteria) (p : Z) : Prop :=
  exists l, cc_jones cr = Some l /\ (In (PolNum p) l \/ exists s, In (PolStr s) l /\ jstr2num (ct_x_orientation tel) s = Ok p).
Definition asked_of_windows (tel : cal_telescope) (cr : cal_criteria) (u : ucal) : Prop :=
  exists p, jones_asked tel cr p /\ ~ has_jones u p.
Definition jones_wanted (tel : cal_telescope) (cr : cal_criteria) (u : ucal) (j : nat) : Prop :=
  cc_jones cr = None \/ asked_of_windows tel cr u \/ jones_asked tel cr (jones_at u j).

(** A criterion on windows counts only if there are several. *)
Definition spws_asked (cr : cal_criteria) (u : ucal) : option (list Z) :=
  if (length (c_spws u) =? 1)%nat then None else cc_spws cr.

(** Channel [f], or window [f] of a wide_band object, is asked for.  A channel can
    be listed by its frequency, its number or its window. *)
Definition chan_listed (cr : cal_criteria) (u : ucal) (f : nat) : Prop :=
  (cc_frequencies cr = None /\ cc_freq_chans cr = None /\ spws_asked cr u = None) \/
  (exists l, cc_frequencies cr = Some l /\ In (nth f (c_freqs u) 0) l) \/
  (exists l, cc_freq_chans cr = Some l /\ In (Z.of_nat f) l) \/
  (exists l, spws_asked cr u = Some l /\ In (nth f (c_flex u) 0) l).
Definition window_listed (cr : cal_criteria) (u : ucal) (f : nat) : Prop :=
  forall l, spws_asked cr u = Some l -> In (nth f (c_spws u) 0) l.
Definition cal_chan_wanted (tel : cal_telescope) (cr : cal_criteria) (u : ucal) (f : nat) : Prop :=
  (if c_wide u then window_listed cr u f else chan_listed cr u f) /\
  (asked_of_windows tel cr u ->
   exists p, window_jones u (fst (chan_at u f)) p /\ jones_asked tel cr p /\ ~ has_jones u p).

Definition opicked {A} (d : A) (idx : list nat) (o o' : option (list A)) : Prop :=
  match o, o' with
  | None, None => True
  | Some l, Some l' => picked d idx l l'
  | _, _ => False
  end.

(** [r] consists of the antennas [sa], channels (windows) [sf], times [st] and
    Jones terms [sj] of [u]. *)
Record cal_picked (sa sf st sj : list nat) (u r : ucal) : Prop := {
  cp_kind : c_gain r = c_gain u /\ c_wide r = c_wide u /\ c_compat r = c_compat u;
  cp_ants : picked 0 sa (c_ants u) (c_ants r);
  cp_chans : if c_wide u then picked 0 sf (c_spws u) (c_spws r) /\ picked (0, 0) sf (c_freq_range u) (c_freq_range r)
             else picked 0 sf (c_freqs u) (c_freqs r) /\ picked 0 sf (c_widths u) (c_widths r) /\ picked 0 sf (c_flex u) (c_flex r);
  cp_times : opicked 0 st (c_time_array u) (c_time_array r) /\ opicked (0, 0) st (c_time_range u) (c_time_range r) /\
             opicked 0 st (c_lst_array u) (c_lst_array r) /\ opicked (0, 0) st (c_lst_range u) (c_lst_range r) /\
             opicked 0 st (c_ref_ant u) (c_ref_ant r) /\ picked 0 st (c_int_time u) (c_int_time r);
  cp_jones : picked 0 sj (c_jones u) (c_jones r);
  cp_entries : forall a f t j, (a < length sa)%nat -> (f < length sf)%nat -> (t < length st)%nat -> (j < length sj)%nat ->
    entry r a f t j = entry u (nth a sa O) (nth f sf O) (nth t st O) (nth j sj O);
  cp_totals : match c_tqual u, c_tqual r with
              | None, None => True
              | Some q, Some q' => forall f t j, (f < length sf)%nat -> (t < length st)%nat -> (j < length sj)%nat ->
                  q' f t j = q (nth f sf O) (nth t st O) (nth j sj O)
              | _, _ => False
              end;
  cp_windows : exists rw, positions_of (length (c_spws u)) (fun k => exists f, In f sf /\ fst (chan_at u f) = nth k (c_spws u) 0) rw /\
                 picked 0 rw (c_spws u) (c_spws r) /\ opicked 0 rw (c_flex_jones u) (c_flex_jones r) }.

(** No channel is asked for by a negative index. *)
Definition no_negative (cr : cal_criteria) : Prop := forall l c, cc_freq_chans cr = Some l -> In c l -> 0 <= c.

(** Everything that is named is there. *)
Definition all_there (tel : cal_telescope) (cr : cal_criteria) (u : ucal) : Prop :=
  (forall l n, cc_antenna_nums cr = Some l -> In n l -> has_ant u n) /\
  (forall l s, cc_antenna_names cr = Some l -> In s l -> exists n, called tel s n /\ has_ant u n) /\
  (forall l x, cc_frequencies cr = Some l -> In x l -> In x (c_freqs u)) /\
  (forall l c, cc_freq_chans cr = Some l -> In c l -> c < Z.of_nat (length (c_freqs u))) /\
  (forall l w, c_wide u = true -> spws_asked cr u = Some l -> In w l -> In w (c_spws u)) /\
  (forall p, jones_asked tel cr p -> has_jones u p \/ exists w, window_jones u w p) /\
  (forall l s, cc_jones cr = Some l -> In (PolStr s) l -> exists p, jstr2num (ct_x_orientation tel) s = Ok p).

(** The request can be met. *)
Definition cal_request_ok (two_pi : Z) (tols lst_tols : Q * Q) (tel : cal_telescope) (cr : cal_criteria) (u : ucal) : Prop :=
  all_there tel cr u /\ no_negative cr /\
  (cc_antenna_nums cr = None \/ cc_antenna_names cr = None) /\
  (no_time_criterion (cc_time cr) \/
   exists ta la, c_time_range u = None /\ c_lst_range u = None /\ c_time_array u = Some ta /\ c_lst_array u = Some la /\
     one_time_criterion (cc_time cr) /\ request_met two_pi (cc_time cr) tols lst_tols ta la) /\
  (c_wide u = true -> cc_frequencies cr = None /\ cc_freq_chans cr = None) /\
  (* of the channels listed, if any, two neighbours are in the same window, or there is at most one *)
  (c_wide u = false ->
   (cc_frequencies cr = None /\ cc_freq_chans cr = None /\ spws_asked cr u = None) \/
   (exists f f', (f < f' < Nchans u)%nat /\ chan_listed cr u f /\ chan_listed cr u f' /\
      (forall x, (f < x < f')%nat -> ~ chan_listed cr u x) /\ nth f (c_flex u) 0 = nth f' (c_flex u) 0) \/
   (forall f f', (f < Nchans u)%nat -> (f' < Nchans u)%nat -> chan_listed cr u f -> chan_listed cr u f' -> f = f')) /\
  (asked_of_windows tel cr u -> exists f, (f < Nchans u)%nat /\ cal_chan_wanted tel cr u f).

(** The array [s] holds the part of [c] for antenna [n], for the Jones term [p] if
    given; the Jones axis is dropped if it has one entry and this is asked for. *)
Definition part_for {A} (xo : option string) (u : ucal) (c : arr4 A) (n : Z) (jpol : option pol_name) (squeeze : bool) (s : slice A) : Prop :=
  match jpol with
  | Some p =>
      exists g m, s = Slice2 g /\ jones_number xo p = Ok m /\ has_ant u n /\ has_jones u m /\
      forall a j, (a < Nants u)%nat -> (j < Njones u)%nat -> ant_at u a = n -> jones_at u j = m -> forall f t, g f t = c a f t j
  | None =>
      has_ant u n /\
      if squeeze && (Njones u =? 1)%nat
      then exists g, s = Slice2 g /\ forall a, (a < Nants u)%nat -> ant_at u a = n -> forall f t, g f t = c a f t O
      else exists g, s = Slice3 g /\ forall a, (a < Nants u)%nat -> ant_at u a = n -> forall f t j, g f t j = c a f t j
  end.
