(** What the frequency axis operations are supposed to do. *)
From Coq Require Import List ZArith Bool Sorted Permutation.
From Verif Require Import Spec.UVDataSpec Model.UVData Model.Freq.
Import ListNotations.
Open Scope Z_scope.

(** The channels of each spectral window are next to one another. *)
Definition contiguous (flex : list Z) : Prop :=
  forall i j k, (i < j < k)%nat -> (k < length flex)%nat -> nth i flex 0 = nth k flex 0 -> nth j flex 0 = nth i flex 0.

(** [m] is twice the median of [l]. *)
Definition twice_median (l : list Z) (m : Z) : Prop :=
  exists s, Permutation s l /\ StronglySorted Z.le s /\
  m = nth ((length l - 1) / 2)%nat s 0 + nth (length l / 2)%nat s 0.

(** The frequencies of window [w], in axis order. *)
Fixpoint window_freqs (w : Z) (flex freqs : list Z) : list Z :=
  match flex, freqs with
  | v :: flex, f :: freqs => if w =? v then f :: window_freqs w flex freqs else window_freqs w flex freqs
  | _, _ => []
  end.

(** The axis is a valid one: arrays of equal length, windows listed once, and
    each channel in a listed window. *)
Definition freq_axis_ok (u : uvd) : Prop :=
  freq_shaped u /\ NoDup (spw_array u) /\ (forall w, In w (flex_spw_id_array u) <-> In w (spw_array u)).

(** The order in which the windows were asked for. *)
Definition windows_as_requested (req : spw_request) (u : uvd) (worder : list Z) : Prop :=
  match req with
  | SpwNumber false => StronglySorted Z.lt worder
  | SpwNumber true => StronglySorted (fun a b => b < a) worder
  | SpwFreq desc =>
      StronglySorted (fun a b => forall m n,
        twice_median (window_freqs a (flex_spw_id_array u) (freq_array u)) m ->
        twice_median (window_freqs b (flex_spw_id_array u) (freq_array u)) n ->
        if desc then n <= m else m <= n) worder
  | SpwIndex idx => worder = map (fun i => nth (Z.to_nat i) (spw_array u) 0) idx
  | SpwOther => False
  end.

(** The axis consists of one block per window, in the order [worder]. *)
Definition grouped (flex flex' : list Z) (worder : list Z) : Prop :=
  flex' = concat (map (fun w => repeat w (count_occ Z.eq_dec flex w)) worder).

(** Channels of the windows satisfying [sel] are in frequency order. *)
Definition channels_sorted (desc : bool) (sel : Z -> Prop) (u' : uvd) : Prop :=
  forall i j, (i < j < length (freq_array u'))%nat ->
  nth i (flex_spw_id_array u') 0 = nth j (flex_spw_id_array u') 0 -> sel (nth i (flex_spw_id_array u') 0) ->
  if desc then nth j (freq_array u') 0 <= nth i (freq_array u') 0
  else nth i (freq_array u') 0 <= nth j (freq_array u') 0.

(** Everything off the frequency axis is untouched. *)
Definition off_freq_same (u u' : uvd) : Prop :=
  same_blt_axis u u' /\ polarization_array u' = polarization_array u /\
  Nbls u' = Nbls u /\ Ntimes u' = Ntimes u /\ blt_order u' = blt_order u /\
  blts_are_rectangular u' = blts_are_rectangular u /\
  time_axis_faster_than_bls u' = time_axis_faster_than_bls u /\ Nants_telescope u' = Nants_telescope u.

(** [o'] is [o] with its channels rearranged by [sigma]: channel [j] of [o'] is
    channel [sigma j] of [o] in every array. *)
Definition freqs_rearranged (sigma : list nat) (o o' : freqobj) : Prop :=
  let u := fo_uvd o in let u' := fo_uvd o' in
  let n := length (freq_array u) in
  Permutation sigma (seq 0 n) /\ length (freq_array u') = n /\ freq_shaped u' /\
  (forall j, (j < n)%nat -> chan_copied u (nth j sigma 0%nat) u' j) /\
  match eq_coeffs o, eq_coeffs o' with
  | None, None => True
  | Some e, Some e' => forall a j, (j < n)%nat -> e' a j = e a (nth j sigma 0%nat)
  | _, _ => False
  end /\
  off_freq_same u u'.

(** The polarization given to each window (flex_spw_polarization_array). *)
Definition window_pol (o : freqobj) (w p : Z) : Prop :=
  exists fp k, flex_spw_polarization_array o = Some fp /\ (k < length (spw_array (fo_uvd o)))%nat /\
  nth k (spw_array (fo_uvd o)) 0 = w /\ nth_error fp k = Some p.

(** The windows whose channels were asked to be sorted. *)
Definition selected (select_spw : option (list Z)) (w : Z) : Prop :=
  match select_spw with None => True | Some s => In w s end.

(** [spws] lists the windows of [flex] in the order in which they first appear. *)
Definition appearance_order (flex spws : list Z) : Prop :=
  (forall w, In w spws <-> In w flex) /\
  StronglySorted (fun a b => exists i, nth_error flex i = Some a /\ forall j, (j <= i)%nat -> nth_error flex j <> Some b) spws.

(** A valid object; flex_spw_polarization_array, if present, has one entry per window. *)
Definition obj_ok (o : freqobj) : Prop :=
  freq_axis_ok (fo_uvd o) /\
  (forall fp, flex_spw_polarization_array o = Some fp -> length fp = length (spw_array (fo_uvd o))).
