(** What combining two objects is supposed to do. *)
From Coq Require Import List ZArith Bool String QArith.
From Verif Require Import Lib.Py Lib.Cube Spec.UVDataSpec Spec.FreqSpec Spec.PhaseSpec Model.UVData Model.Freq Model.PhaseCenter Model.Add.
Import ListNotations.
Notation length := List.length.
Open Scope Z_scope.

(** The labels of the three axes *)
Definition row_label (u : uvd) (i : nat) : Z * Z := (nth i (time_array u) 0, nth i (baseline_array u) 0).
Definition chan_label (u : uvd) (j : nat) : Z * Z := (nth j (flex_spw_id_array u) 0, nth j (freq_array u) 0).
Definition pol_label (u : uvd) (k : nat) : Z := nth k (polarization_array u) 0.

(** No label occurs twice among the first [n]. *)
Definition distinct {L} (n : nat) (l : nat -> L) : Prop := forall i j, (i < n)%nat -> (j < n)%nat -> l i = l j -> i = j.
(** Label [x] occurs on the axis. *)
Definition on_axis {L} (n : nat) (l : nat -> L) (x : L) : Prop := exists i, (i < n)%nat /\ l i = x.

(** On the axis of [b] the labels shared with [a] come before the new ones. *)
Definition shared_first {L} (na nb : nat) (la lb : nat -> L) : Prop :=
  forall i j, (i < j < nb)%nat -> on_axis na la (lb j) -> on_axis na la (lb i).

(** The axis of [r] has the labels of [a] and of [b], each once. *)
Definition axis_union {L} (na nb nr : nat) (la lb lr : nat -> L) : Prop :=
  distinct nr lr /\ forall x, on_axis nr lr x <-> on_axis na la x \/ on_axis nb lb x.

(** A sample: visibility, flag, nsample *)
Definition cell (u : uvd) (i j k : nat) : cplx * bool * Z := (data_array u i j k, flag_array u i j k, nsample_array u i j k).
Definition no_data : cplx * bool * Z := ((0, 0), true, 0).

(** The sample of [u] with these labels is [c]. *)
Definition sample (u : uvd) (x y : Z * Z) (p : Z) (c : cplx * bool * Z) : Prop :=
  exists i j k, (i < Nblts u)%nat /\ (j < Nfreqs u)%nat /\ (k < Npols u)%nat /\
    row_label u i = x /\ chan_label u j = y /\ pol_label u k = p /\ cell u i j k = c.
Definition has_sample (u : uvd) (x y : Z * Z) (p : Z) : Prop :=
  on_axis (Nblts u) (row_label u) x /\ on_axis (Nfreqs u) (chan_label u) y /\ on_axis (Npols u) (pol_label u) p.

(** Row [i'] of [u'] has the metadata of row [i] of [u] (phase center ids are
    renumbered, so not these). *)
Definition row_meta (u : uvd) (i : nat) (u' : uvd) (i' : nat) : Prop :=
  nth i' (time_array u') 0 = nth i (time_array u) 0 /\
  nth i' (lst_array u') 0 = nth i (lst_array u) 0 /\
  nth i' (ant_1_array u') 0 = nth i (ant_1_array u) 0 /\
  nth i' (ant_2_array u') 0 = nth i (ant_2_array u) 0 /\
  nth i' (baseline_array u') 0 = nth i (baseline_array u) 0 /\
  nth i' (integration_time u') 0 = nth i (integration_time u) 0 /\
  nth i' (uvw_array u') (0, 0, 0) = nth i (uvw_array u) (0, 0, 0) /\
  nth i' (phase_center_app_ra u') 0 = nth i (phase_center_app_ra u) 0 /\
  nth i' (phase_center_app_dec u') 0 = nth i (phase_center_app_dec u) 0 /\
  nth i' (phase_center_frame_pa u') 0 = nth i (phase_center_frame_pa u) 0.

(** A valid object with distinct labels on every axis *)
Definition addable (o : addobj) : Prop :=
  let u := ad_uvd o in
  blt_shaped u /\ obj_ok (ad_freq o) /\
  distinct (Nblts u) (row_label u) /\ distinct (Nfreqs u) (chan_label u) /\ distinct (Npols u) (pol_label u).

(** The catalog of an object *)
Definition centers (o : addobj) : pcobj := mkpc (ad_catalog o) (ad_Nphase o) (phase_center_id_array (ad_uvd o)).

(** Where the two objects overlap they describe the same thing; [same_cat] is the
    comparison of catalogs. *)
Definition agree (same_cat : catalog -> catalog -> bool) (a b : addobj) : Prop :=
  let u := ad_uvd a in let v := ad_uvd b in
  ad_telescope a = ad_telescope b /\ ad_vis_units a = ad_vis_units b /\
  (forall i i', (i < Nblts u)%nat -> (i' < Nblts v)%nat -> row_label u i = row_label v i' ->
     row_meta u i v i' /\ nth i' (phase_center_id_array v) 0 = nth i (phase_center_id_array u) 0 /\
     same_cat (ad_catalog a) (ad_catalog b) = true /\ ad_Nphase a = ad_Nphase b) /\
  (forall j j', (j < Nfreqs u)%nat -> (j' < Nfreqs v)%nat -> chan_label u j = chan_label v j' ->
     nth j' (channel_width v) 0 = nth j (channel_width u) 0) /\
  (flex_spw_polarization_array (ad_freq a) = None <-> flex_spw_polarization_array (ad_freq b) = None) /\
  (forall w p q, window_pol (ad_freq a) w p -> window_pol (ad_freq b) w q -> p = q).

(** What [a] has in the cells [b] also has is zero and flagged. *)
Definition overwritable (a b : addobj) : Prop :=
  forall x y p c, sample (ad_uvd a) x y p c -> has_sample (ad_uvd b) x y p -> fst c = ((0, 0), true).

Definition nonneg (q : Q * Q) : Prop := (0 <= fst q)%Q /\ (0 <= snd q)%Q.
Definition tolerances_ok (t : tolerances) : Prop :=
  nonneg (tol_integration_time t) /\ nonneg (tol_lst t) /\ nonneg (tol_app_ra t) /\ nonneg (tol_app_dec t) /\
  nonneg (tol_frame_pa t) /\ nonneg (tol_id t) /\ nonneg (tol_uvw t) /\ nonneg (tol_width t).
