(** Averages of metrics (C86). *)
From Coq Require Import List ZArith Bool Arith QArith Qcanon String Sorted.
From Verif Require Import Lib.Py Lib.QSum Lib.Np Model.UVFlag Model.FlagSelect Model.Collapse Model.FlagMode
  Spec.CollapseSpec Spec.FlagSpec Spec.FlagModeSpec.
Import ListNotations.
Notation length := List.length.
Open Scope list_scope.
Open Scope Qc_scope.

Inductive kind := Mean | AbsMean | QuadMean.
Definition called (k : kind) : string :=
  match k with Mean => "mean" | AbsMean => "absmean" | QuadMean => "quadmean" end.

(** What is averaged, and what the average stands for.  [Root q] is the square root
    of [q]; only quadratic means are taken of arrays with roots in them. *)
Definition term (k : kind) (x : num) : Qc :=
  match k, x with
  | Mean, Fin q => q
  | AbsMean, Fin q => if Qclt_le_dec q 0 then - q else q
  | QuadMean, Fin q => q * q
  | QuadMean, Root q => q
  | _, _ => 0
  end.
Definition back (k : kind) (q : Qc) : num := match k with QuadMean => Root q | _ => Fin q end.
Definition suits (k : kind) (m : arr num) : Prop := k = QuadMean \/ plain m.

(** The average of values with weights, and the weight it has: infinite values do not
    count, and an average of weight at most 1e-10 is infinite. *)
Definition live (cells : list (num * Qc)) : list (num * Qc) :=
  filter (fun c => match fst c with Inf _ => false | _ => true end) cells.
Definition weight (cells : list (num * Qc)) : Qc := qsum (map snd (live cells)).
Definition average (k : kind) (cells : list (num * Qc)) : num * Qc :=
  (if Qclt_le_dec (Q2Qc (1 # 10000000000)) (weight cells)
   then back k (qsum (map (fun c => snd c * term k (fst c)) (live cells)) / weight cells)
   else Inf false, weight cells).

(** Every weight is zero or more than 1e-10. *)
Definition clear_weight (w : Qc) : Prop := w = 0 \/ Q2Qc (1 # 10000000000) < w.

(** The positions that one cell of a waterfall stands for: all baselines at its time,
    or all antennas, at the polarizations [ps] *)
Definition sources (u : mobj) (times : list Z) (i j : nat) (ps : list nat) : list index :=
  match o_type u with
  | TypeBaseline => flat_map (fun r => map (fun p => [r; j; p]) ps) (at_time (o_time u) (nth i times 0%Z))
  | TypeAntenna => flat_map (fun a => map (fun p => [a; j; i; p]) ps) (seq 0 (length (o_ants u)))
  | TypeWaterfall => map (fun p => [i; j; p]) ps
  end.
Definition values (m : arr num) (w : arr Qc) (l : list index) : list (num * Qc) := map (fun x => (at_ m x, at_ w x)) l.

(** The waterfall made of [u] has its frequencies and times.  If [u] is of type
    baseline every time is there once, in increasing order, with the LST of the
    first row at that time. *)
Definition waterfall_labels (u v : mobj) : Prop :=
  o_type v = TypeWaterfall /\ o_freq v = o_freq u /\
  match o_type u with
  | TypeBaseline => Sorted.StronglySorted Z.lt (o_time v) /\ (forall t, In t (o_time v) <-> In t (o_time u)) /\
      forall i r, (i < length (o_time v))%nat -> hd_error (at_time (o_time u) (nth i (o_time v) 0%Z)) = Some r ->
        nth i (o_lst v) 0%Z = nth r (o_lst u) 0%Z
  | _ => o_time v = o_time u /\ o_lst v = o_lst u
  end.
