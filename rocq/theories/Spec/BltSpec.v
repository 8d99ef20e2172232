(** What "rectangular" and "ordered" mean for a baseline-time axis. *)
From Coq Require Import List ZArith Sorted.
Import ListNotations.
Open Scope Z_scope.

(** The axis is the product of the distinct times [ts] and the distinct
    baselines [bs]; [time_faster] says which of the two varies along
    consecutive rows. *)
Definition product_layout (times bls : list Z) (ts bs : list Z) (time_faster : bool) : Prop :=
  NoDup ts /\ NoDup bs /\
  if time_faster
  then times = concat (map (fun _ => ts) bs) /\ bls = concat (map (fun b => repeat b (length ts)) bs)
  else times = concat (map (fun t => repeat t (length bs)) ts) /\ bls = concat (map (fun _ => bs) ts).

Inductive axis_key := KTime | KBaseline | KAnt1 | KAnt2 | KBda.

(** One row of the axis: time, antenna 1, antenna 2, baseline number. *)
Record bltrow := { r_time : Z; r_ant1 : Z; r_ant2 : Z; r_bl : Z }.

Definition key_of (k : axis_key) (r : bltrow) : Z :=
  match k with KTime => r_time r | KBaseline => r_bl r | KAnt1 => r_ant1 r | KAnt2 => r_ant2 r | KBda => 0 end.

(** Dictionary order on lists of keys. *)
Fixpoint lex_le (ks : list axis_key) (r s : bltrow) : Prop :=
  match ks with
  | [] => True
  | k :: ks => key_of k r < key_of k s \/ (key_of k r = key_of k s /\ lex_le ks r s)
  end.

Definition sorted_by (ks : list axis_key) (rows : list bltrow) : Prop := StronglySorted (lex_le ks) rows.

(** A declared order ("baseline","time") or ("time","baseline") is truthful: no
    (time, baseline) pair occurs twice and the axis is sorted as declared. *)
Definition declared_order_true (times bls : list Z) (o : option (list axis_key)) : Prop :=
  (o = Some [KBaseline; KTime] -> NoDup (combine bls times) /\
    StronglySorted (fun p q => fst p < fst q \/ (fst p = fst q /\ snd p <= snd q)) (combine bls times)) /\
  (o = Some [KTime; KBaseline] -> NoDup (combine times bls) /\
    StronglySorted (fun p q => fst p < fst q \/ (fst p = fst q /\ snd p <= snd q)) (combine times bls)).

(** [n] is the number of distinct values in [l]. *)
Definition distinct_count (l : list Z) (n : nat) : Prop :=
  exists d, NoDup d /\ (forall x, In x d <-> In x l) /\ length d = n.
