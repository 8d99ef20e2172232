(** What fast_concat is supposed to do. *)
From Coq Require Import List ZArith Bool String QArith.
From Verif Require Import Lib.Py Lib.Cube Spec.UVDataSpec Spec.FreqSpec Spec.PhaseSpec Spec.AddSpec Model.UVData Model.Freq Model.PhaseCenter
  Model.Add Model.Concat.
Import ListNotations.
Notation length := List.length.
Open Scope Z_scope.

(** Where object [b] starts if objects of these sizes are put one after the other *)
Definition start (size : uvd -> nat) (l : list uvd) (b : nat) : nat := list_sum (map size (firstn b l)).
Definition total (size : uvd -> nat) (l : list uvd) : nat := list_sum (map size l).

(** All baseline-times have the metadata they have in [u] (phase center ids left aside). *)
Definition rows_kept (u w : uvd) : Prop := Nblts w = Nblts u /\ forall i, row_meta u i w i.

(** Integer arrays equal within a tolerance (relative to the second, and absolute) *)
Definition nearZ (t : Q * Q) (x y : Z) : Prop := near t (inject_Z x) (inject_Z y).
Definition near3 (t : Q * Q) (x y : Z * Z * Z) : Prop :=
  nearZ t (fst (fst x)) (fst (fst y)) /\ nearZ t (snd (fst x)) (snd (fst y)) /\ nearZ t (snd x) (snd y).
Definition arrays_near (t : Q * Q) (x y : list Z) : Prop := Forall2 (nearZ t) x y.

Definition rows_near (t : concat_tols) (u v : uvd) : Prop :=
  arrays_near (ct_default t) (ant_1_array u) (ant_1_array v) /\ arrays_near (ct_default t) (ant_2_array u) (ant_2_array v) /\
  arrays_near (ct_integration t) (integration_time u) (integration_time v) /\
  Forall2 (near3 (ct_uvw t)) (uvw_array u) (uvw_array v) /\ arrays_near (ct_lst t) (lst_array u) (lst_array v).

(** [b] agrees with [a] on the other two axes, and in its telescope and units. *)
Definition fits (t : concat_tols) (axis : concat_axis) (a b : addobj) : Prop :=
  let u := ad_uvd a in let v := ad_uvd b in
  ad_vis_units a = ad_vis_units b /\ ad_telescope a = ad_telescope b /\
  match axis with
  | AxFreq => arrays_near (ct_default t) (polarization_array u) (polarization_array v) /\ rows_near t u v
  | AxPol => arrays_near (ct_freq t) (freq_array u) (freq_array v) /\ arrays_near (ct_width t) (channel_width u) (channel_width v) /\
             arrays_near (ct_default t) (flex_spw_id_array u) (flex_spw_id_array v) /\ rows_near t u v
  | AxBlt => arrays_near (ct_freq t) (freq_array u) (freq_array v) /\
             arrays_near (ct_default t) (polarization_array u) (polarization_array v) /\
             arrays_near (ct_default t) (flex_spw_id_array u) (flex_spw_id_array v)
  end.

(** The same entries under the same ids *)
Definition same_catalog (c c' : catalog) : Prop := forall k e, In (k, e) c <-> In (k, e) c'.
(** No entry answers the description of another one. *)
Definition clear_catalog (ignore_name : bool) (c : catalog) : Prop :=
  forall k1 e1 k2 e2, In (k1, e1) c -> In (k2, e2) c -> matches ignore_name e1 e2 -> k1 = k2.

Definition ctols_ok (t : concat_tols) : Prop := nonneg (ct_default t).
