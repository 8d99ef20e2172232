(** What resampling in time is supposed to do. *)
From Coq Require Import List ZArith QArith Qcanon Bool Sorted Permutation.
From Verif Require Import Lib.QSum Model.Resample.
Import ListNotations.
Open Scope Qc_scope.

Definition half : Qc := Q2Qc (1 # 2).
Definition milli : Qc := Q2Qc (1 # 1000).
Definition on_baseline (bl : Z) (rows : list trow) : list trow := filter (fun r => Z.eqb (t_bl r) bl) rows.

Definition positive_times (o : tobj) : Prop := forall r, In r (o_rows o) -> 0 < t_int r.
(** Nbls is the number of different baselines. *)
Definition nbls_ok (o : tobj) : Prop :=
  exists bls, NoDup bls /\ (forall b, In b bls <-> exists r, In r (o_rows o) /\ t_bl r = b) /\ length bls = o_nbls o.

(** ** Upsampling *)

(** Too long: longer than the maximum by more than the tolerance of 1 ms. *)
Definition is_long (m : Qc) (r : trow) : Prop := m + milli < t_int r.

(** When an integration begins and ends, in days. *)
Definition begins (r : trow) : Qc := t_time r - half * t_int r / Q2Qc 86400.
Definition ends (r : trow) : Qc := t_time r + half * t_int r / Q2Qc 86400.

(** [ps] are the pieces of [r], in time order. *)
Definition tiles (summing : bool) (m : Qc) (r : trow) (ps : list trow) : Prop :=
  ps <> [] /\
  (forall p, In p ps -> t_bl p = t_bl r /\ t_id p = t_id r /\
     forall j k, t_flag p j k = t_flag r j k /\ t_ns p j k = t_ns r j k) /\
  (* equal lengths adding up to the original *)
  (forall p, In p ps -> t_int p = t_int r / qnat (length ps)) /\
  qsum (map t_int ps) = t_int r /\
  (* the mean center is the original one; no gaps and no overlaps *)
  qmean (map t_time ps) = t_time r /\
  begins (hd r ps) = begins r /\ ends (last ps r) = ends r /\
  (forall i, (S i < length ps)%nat -> ends (nth i ps r) = begins (nth (S i) ps r)) /\
  (* the data are copied or shared out *)
  (forall j k, if summing
     then (forall p, In p ps -> t_data p j k = t_data (hd r ps) j k) /\
          qsum (map (fun p => fst (t_data p j k)) ps) = fst (t_data r j k) /\
          qsum (map (fun p => snd (t_data p j k)) ps) = snd (t_data r j k)
     else forall p, In p ps -> t_data p j k = t_data r j k) /\
  (* short enough, up to rounding, and no more pieces than that takes *)
  (forall p, In p ps -> t_int p <= m * Q2Qc (100001001 # 100000000)) /\
  qnat (length ps - 1) * m < t_int r.

(** ** Downsampling *)

Definition is_short (m : Qc) (r : trow) : Prop := t_int r + milli < m.
Definition total_time (w : list trow) : Qc := qsum (map t_int w).
(** When a window is complete: the target is reached within 1 ms, or the number of integrations is. *)
Definition reaches (m : Qc) (w : list trow) : Prop := m <= total_time w + milli.
Definition numbers (n : Z) (w : list trow) : Prop := (n <= Z.of_nat (length w))%Z.

(** The integrations [l] are cut into the windows [ws]: consecutive, complete as
    soon as possible; what remains is a last window if it is kept, and [dropped] otherwise. *)
Definition is_cut (complete : list trow -> Prop) (keep_ragged : bool) (l : list trow) (ws : list (list trow)) (dropped : list trow) : Prop :=
  l = concat ws ++ dropped /\
  (forall w, In w ws -> w <> []) /\
  (forall w, In w (removelast ws) -> complete w) /\
  (forall w a b, In w ws -> w = a ++ b -> a <> [] -> b <> [] -> ~ complete a) /\
  if keep_ragged then dropped = []
  else (forall w, In w ws -> complete w) /\ (forall a b, dropped = a ++ b -> a <> [] -> ~ complete a).

Definition in_time_order (l : list trow) : Prop := StronglySorted (fun a b => t_time a <= t_time b) l.

(** The inputs that count: those that are not flagged, or all when all are flagged. *)
Definition counted (w : list trow) (j k : nat) (used : list trow) : Prop :=
  if forallb (fun r => t_flag r j k) w then used = w
  else used = filter (fun r => negb (t_flag r j k)) w.

(** [r] is the average (or sum) of the rows [w]. *)
Definition averages (summing : bool) (w : list trow) (r : trow) : Prop :=
  (forall x, In x w -> t_bl r = t_bl x) /\ (exists x, In x w /\ t_id r = t_id x) /\
  t_int r = total_time w /\
  t_time r = qsum (map (fun x => t_time x * t_int x) w) / total_time w /\
  forall j k,
    (t_flag r j k = true <-> forall x, In x w -> t_flag x j k = true) /\
    exists used, counted w j k used /\
    let weight := qsum (map (fun x => t_ns x j k * t_int x) used) in
    t_ns r j k = weight / total_time w /\
    if summing
    then fst (t_data r j k) = qsum (map (fun x => fst (t_data x j k)) used) /\
         snd (t_data r j k) = qsum (map (fun x => snd (t_data x j k)) used)
    else weight <> 0 ->
         fst (t_data r j k) = qsum (map (fun x => t_ns x j k * t_int x * fst (t_data x j k)) used) / weight /\
         snd (t_data r j k) = qsum (map (fun x => t_ns x j k * t_int x * snd (t_data x j k)) used) / weight.

(** The rows [out] of a baseline after downsampling, from its rows [l] before.
    With several phase centers a window is within one of them. *)
Definition downsampled (complete : list trow -> Prop) (keep_ragged summing : bool) (nphase : nat) (l out : list trow) : Prop :=
  exists sorted ws dropped outs,
    Permutation sorted l /\ in_time_order sorted /\
    is_cut complete keep_ragged sorted ws dropped /\
    Forall2 (averages summing) ws outs /\
    ((1 < nphase)%nat -> Forall2 (fun w r => forall x, In x w -> t_id x = t_id r) ws outs) /\
    Permutation out outs.
