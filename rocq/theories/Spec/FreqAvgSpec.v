(** What averaging in frequency is supposed to do. *)
From Coq Require Import List ZArith QArith Qcanon Bool Sorted.
From Verif Require Import Lib.QSum Model.FreqAvg.
Import ListNotations.
Open Scope Qc_scope.

(** The arrays along the frequency axis have one entry per channel, the windows
    are listed once and each channel is in one of them. *)
Definition favg_ok (o : favg) : Prop :=
  length (fa_width o) = length (fa_freq o) /\ length (fa_flex o) = length (fa_freq o) /\
  NoDup (fa_spws o) /\ (forall w, In w (fa_flex o) -> In w (fa_spws o)).

(** [idx] lists the channels of window [w] in axis order. *)
Definition window_channels (flex : list Z) (w : Z) (idx : list nat) : Prop :=
  StronglySorted lt idx /\ (forall j, In j idx <-> (j < length flex)%nat /\ nth j flex 0%Z = w).

(** [bins] cuts the channels [idx] into consecutive runs of [n].  What is left
    at the end is a shorter last run when it is kept, and is dropped otherwise. *)
Definition is_binning (n : nat) (keep_ragged : bool) (idx : list nat) (bins : list (list nat)) : Prop :=
  (forall bin, In bin bins -> (1 <= length bin <= n)%nat) /\
  (forall c, (S c < length bins)%nat -> length (nth c bins []) = n) /\
  if keep_ragged then concat bins = idx
  else (forall bin, In bin bins -> length bin = n) /\
       exists rest, idx = concat bins ++ rest /\ (length rest < n)%nat.

(** The inputs that count: those that are not flagged, or all when all are flagged. *)
Definition counted (o : favg) (bin : list nat) (i k : nat) (used : list nat) : Prop :=
  if forallb (fun j => fa_flag o i j k) bin then used = bin
  else used = filter (fun j => negb (fa_flag o i j k)) bin.

(** Output channel [c] of [o'] is the average of the channels [bin] of [o]. *)
Definition averages (summing propagate_flags : bool) (o o' : favg) (w : Z) (bin : list nat) (c : nat) : Prop :=
  nth c (fa_flex o') 0%Z = w /\
  nth c (fa_freq o') 0 = qmean (map (fun j => nth j (fa_freq o) 0) bin) /\
  nth c (fa_width o') 0 = qsum (map (fun j => nth j (fa_width o) 0) bin) /\
  (forall e a, fa_eq o = Some e -> exists e', fa_eq o' = Some e' /\ e' a c = qmean (map (e a) bin)) /\
  (forall i k, (i < fa_nblts o)%nat -> (k < fa_npols o)%nat ->
     (fa_flag o' i c k = true <->
        if propagate_flags then exists j, In j bin /\ fa_flag o i j k = true
        else forall j, In j bin -> fa_flag o i j k = true) /\
     exists used, counted o bin i k used /\
     let weight := qsum (map (fun j => fa_ns o i j k) used) in
     fa_ns o' i c k = weight / qnat (length bin) /\
     if summing
     then fst (fa_data o' i c k) = qsum (map (fun j => fst (fa_data o i j k)) used) /\
          snd (fa_data o' i c k) = qsum (map (fun j => snd (fa_data o i j k)) used)
     else weight <> 0 ->
          fst (fa_data o' i c k) = qsum (map (fun j => fa_ns o i j k * fst (fa_data o i j k)) used) / weight /\
          snd (fa_data o' i c k) = qsum (map (fun j => fa_ns o i j k * snd (fa_data o i j k)) used) / weight).

(** The whole result: per window the channels are cut into bins, and the output
    channels are those bins, window after window. *)
Definition frequency_averaged (n : nat) (summing propagate_flags keep_ragged : bool) (flex spws : list Z) (o o' : favg) : Prop :=
  exists bins : Z -> list (list nat),
    (forall w, In w spws -> exists idx, window_channels flex w idx /\ is_binning n keep_ragged idx (bins w)) /\
    let outs := concat (map (fun w => map (pair w) (bins w)) spws) in
    length (fa_freq o') = length outs /\ length (fa_width o') = length outs /\ length (fa_flex o') = length outs /\
    fa_spws o' = spws /\ fa_nblts o' = fa_nblts o /\ fa_npols o' = fa_npols o /\
    forall c w bin, nth_error outs c = Some (w, bin) -> averages summing propagate_flags o o' w bin c.

(** No entry is flagged on the channels outside the first window. *)
Definition flags_in_first_window (o : favg) : Prop :=
  forall i j k, (i < fa_nblts o)%nat -> (j < length (fa_flex o))%nat -> (k < fa_npols o)%nat ->
  fa_flag o i j k = true -> nth j (fa_flex o) 0%Z = hd 0%Z (fa_spws o).
