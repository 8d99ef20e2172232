(** What it means to copy a record to another baseline. *)
From Coq Require Import List ZArith Bool.
From Verif Require Import Lib.Py Lib.Cube Spec.UVDataSpec Spec.ConjSpec Model.UVData.
Import ListNotations.
Open Scope Z_scope.

(** [b0] is the first baseline of the group that the list of baselines has. *)
Definition first_present (gp bls : list Z) (b0 : Z) : Prop :=
  exists before after, gp = before ++ b0 :: after /\ In b0 bls /\ forall b, In b before -> ~ In b bls.

(** Row [i'] of [u'] is, in every array but those naming the baseline, row [i] of
    [u], and is named after baseline [b]. *)
Definition row_renamed (u : uvd) (i : nat) (u' : uvd) (i' : nat) (b : Z) : Prop :=
  nth i' (time_array u') 0 = nth i (time_array u) 0 /\
  nth i' (lst_array u') 0 = nth i (lst_array u) 0 /\
  nth i' (baseline_array u') 0 = b /\
  nth i' (integration_time u') 0 = nth i (integration_time u) 0 /\
  nth i' (uvw_array u') (0, 0, 0) = nth i (uvw_array u) (0, 0, 0) /\
  nth i' (phase_center_id_array u') 0 = nth i (phase_center_id_array u) 0 /\
  nth i' (phase_center_app_ra u') 0 = nth i (phase_center_app_ra u) 0 /\
  nth i' (phase_center_app_dec u') 0 = nth i (phase_center_app_dec u) 0 /\
  nth i' (phase_center_frame_pa u') 0 = nth i (phase_center_frame_pa u) 0 /\
  forall j k, data_array u' i' j k = data_array u i j k /\
              flag_array u' i' j k = flag_array u i j k /\
              nsample_array u' i' j k = nsample_array u i j k.

(** All pairs of these antennas get numbers of one kind. *)
Definition one_scheme (numbers : list Z) : Prop :=
  exists m off, default_scheme (Z.of_nat (length numbers)) m off /\ Forall (fun a => 0 <= a < m) numbers.
