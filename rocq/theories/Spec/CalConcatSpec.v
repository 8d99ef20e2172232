(** What concatenating calibration solutions is supposed to do. *)
From Coq Require Import List ZArith QArith Bool.
From Verif Require Import Lib.Py Lib.Cube Spec.FreqSpec Spec.ConcatSpec Spec.CalSpec Model.UVCal Model.CalConcat.
Import ListNotations.
Notation length := List.length.
Open Scope list_scope.
Open Scope Z_scope.

(** Where object [b] starts, and how long the axis is in all *)
Definition cal_start (axis : cal_axis) (l : list ucal) (b : nat) : nat := list_sum (map (axis_size axis) (firstn b l)).
Definition cal_total (axis : cal_axis) (l : list ucal) : nat := list_sum (map (axis_size axis) l).

(** Some object of the list records qualities (total qualities). *)
Definition some_quality (l : list ucal) : Prop := exists v, In v l /\ c_qual v <> None.
Definition some_total (l : list ucal) : Prop := exists v, In v l /\ c_tqual v <> None.

(** Entry [i] of the axis of [v] is entry [k] of that of [r]: solutions and flags are the same; so
    are the qualities, zero if they are not recorded in [v] but in another object. *)
Definition same_entry (l : list ucal) (v r : ucal) (a f t j a' f' t' j' : nat) : Prop :=
  c_sol r a' f' t' j' = c_sol v a f t j /\ c_flags r a' f' t' j' = c_flags v a f t j /\
  (some_quality l -> exists q, c_qual r = Some q /\
     q a' f' t' j' = match c_qual v with Some q => q a f t j | None => 0 end) /\
  (~ some_quality l -> c_qual r = None).
Definition same_total (l : list ucal) (v r : ucal) (f t j f' t' j' : nat) : Prop :=
  (some_total l -> exists q, c_tqual r = Some q /\ q f' t' j' = match c_tqual v with Some q => q f t j | None => 0 end) /\
  (~ some_total l -> c_tqual r = None).

(** What is recorded about entry [i] of the axis of [v], and about entry [k] of that of [r], is the same. *)
Definition copied (axis : cal_axis) (l : list ucal) (v : ucal) (i : nat) (r : ucal) (k : nat) : Prop :=
  match axis with
  | CalAnt => ant_at r k = ant_at v i /\ (forall f t j, same_entry l v r i f t j k f t j) /\ c_tqual r = None
  | CalFreq | CalSpw =>
      chan_at r k = chan_at v i /\ chan_info r k = chan_info v i /\
      (forall a t j, same_entry l v r a i t j a k t j) /\ forall t j, same_total l v r i t j k t j
  | CalTime =>
      time_at r k = time_at v i /\ time_info r k = time_info v i /\
      (forall a f j, same_entry l v r a f i j a f k j) /\ forall f j, same_total l v r f i j f k j
  | CalJones =>
      jones_at r k = jones_at v i /\
      (forall a f t, same_entry l v r a f t i a f t k) /\ forall f t, same_total l v r f t i f t k
  end.

(** The other axes are those of [u]. *)
Definition others_kept (axis : cal_axis) (u r : ucal) : Prop :=
  (axis <> CalAnt -> same_ants u r) /\ (axis <> CalFreq -> axis <> CalSpw -> same_chans u r) /\
  (axis <> CalTime -> same_times u r) /\ (axis <> CalJones -> same_jones u r).

(** The lengths that check asks for *)
Definition cal_shaped (u : ucal) : Prop :=
  length (c_int_time u) = Ntimes u /\
  (forall l, c_time_array u = Some l -> length l = Ntimes u) /\ (forall l, c_lst_array u = Some l -> length l = Ntimes u) /\
  (forall l, c_lst_range u = Some l -> length l = Ntimes u) /\ (forall l, c_ref_ant u = Some l -> length l = Ntimes u) /\
  (forall l, c_flex_jones u = Some l -> length l = length (c_spws u)) /\
  if c_wide u then length (c_freq_range u) = length (c_spws u)
  else length (c_widths u) = length (c_freqs u) /\ length (c_flex u) = length (c_freqs u).

(** The objects describe times by the same parameters. *)
Definition same_time_kinds (u v : ucal) : Prop :=
  both_or_none (c_lst_array u) (c_lst_array v) /\ both_or_none (c_lst_range u) (c_lst_range v) /\ both_or_none (c_ref_ant u) (c_ref_ant v).

(** [v] agrees with [u] as far as is asked for. *)
Definition opt_near {A} (near : A -> A -> Prop) (x y : option (list A)) : Prop :=
  match x, y with None, None => True | Some x, Some y => Forall2 near x y | _, _ => False end.
Definition near_pair (t : Q * Q) (x y : Z * Z) : Prop := nearZ t (fst x) (fst y) /\ nearZ t (snd x) (snd y).
Definition times_near (t : cal_tols) (u v : ucal) : Prop :=
  opt_near (nearZ (k_time t)) (c_time_array u) (c_time_array v) /\ arrays_near (k_int t) (c_int_time u) (c_int_time v) /\
  opt_near (nearZ (k_lst t)) (c_lst_array u) (c_lst_array v) /\ opt_near (near_pair (k_time t)) (c_time_range u) (c_time_range v) /\
  opt_near (near_pair (k_lst t)) (c_lst_range u) (c_lst_range v).
Definition freqs_near (t : cal_tols) (u v : ucal) : Prop :=
  c_wide u = false -> arrays_near (k_freq t) (c_freqs u) (c_freqs v) /\ arrays_near (k_width t) (c_widths u) (c_widths v).
Definition cal_fits (t : cal_tols) (axis : cal_axis) (u v : ucal) : Prop :=
  both_or_none (c_flex_jones u) (c_flex_jones v) /\ c_wide u = c_wide v /\ c_gain u = c_gain v /\ c_compat u = c_compat v /\
  (axis <> CalAnt -> arrays_near (k_default t) (c_ants u) (c_ants v)) /\
  (axis <> CalFreq -> axis <> CalSpw -> freqs_near t u v) /\
  (axis <> CalTime -> times_near t u v) /\
  (axis = CalTime -> both_or_none (c_time_array u) (c_time_array v) /\ both_or_none (c_time_range u) (c_time_range v)) /\
  (axis <> CalJones -> arrays_near (k_default t) (c_jones u) (c_jones v)).
(** Which axes there are *)
Definition axis_of (u : ucal) (axis : cal_axis) : Prop :=
  (axis = CalSpw -> c_wide u = true) /\ (axis = CalFreq -> c_wide u = false /\ c_gain u = true).

(** The windows of each object are listed in the order of their channels, and no two objects share one. *)
Definition windows_in_order (u : ucal) : Prop := appearance_order (c_flex u) (c_spws u).
Fixpoint windows_apart (l : list ucal) : Prop :=
  match l with
  | [] => True
  | u :: l => (forall v w, In v l -> In w (c_spws u) -> ~ In w (c_spws v)) /\ windows_apart l
  end.
