(** What a Mir file holds. *)
From Coq Require Import List ZArith Bool Arith Permutation.
From Verif Require Import Lib.Py Lib.Dict Model.Mir.
Import ListNotations.
Open Scope Z_scope.
Open Scope list_scope.

(** The value fits in the [val_size f] bytes of a stored value. *)
Definition fits (f : fmt) (z : Z) : Prop := - 2 ^ (8 * Z.of_nat (val_size f) - 1) <= z < 2 ^ (8 * Z.of_nat (val_size f) - 1).
Definition int32 (z : Z) : Prop := - 2 ^ 31 <= z < 2 ^ 31.
Definition of_integration (h : Z) (recs : list spec) : list spec := filter (fun s => s_inhid s =? h) recs.
(** Stored values of an integration *)
Definition integration_size (f : fmt) (recs : list spec) (h : Z) : nat :=
  list_sum (map (fun s => ((if scaled f then 1 else 0) + data_nvals f * s_nch s)%nat) (of_integration h recs)).

(** There is a record of the right length for every entry of the metadata. *)
Definition storable (f : fmt) (recs : list spec) (data : rdata) : Prop :=
  NoDup (map s_hid recs) /\
  (forall s, In s recs ->
     int32 (s_inhid s) /\
     (0 < integration_size f recs (s_inhid s))%nat /\ Z.of_nat (integration_size f recs (s_inhid s) * val_size f) < 2 ^ 31 /\
     exists scale vals, dget Z.eqb (s_hid s) data = Ok (scale, vals) /\ length vals = (data_nvals f * s_nch s)%nat /\
       (scaled f = true -> fits f scale) /\ Forall (fits f) vals).

(** What is read for one entry: the auto-correlations have no scale factor. *)
Definition stored (f : fmt) (data : rdata) (s : spec) : Z * (Z * list Z) :=
  (s_hid s, match dget Z.eqb (s_hid s) data with
            | Ok d => (if scaled f then fst d else 0, snd d)
            | Err _ => (0, [])
            end).

(** Each integration is in one of the parts only *)
Definition separate (parts : list (list spec)) : Prop :=
  forall p q a b, (p < q < length parts)%nat -> In a (nth p parts []) -> In b (nth q parts []) -> s_inhid a <> s_inhid b.
(** ... and they are in order *)
Definition ordered (parts : list (list spec)) : Prop :=
  forall p q a b, (p < q < length parts)%nat -> In a (nth p parts []) -> In b (nth q parts []) -> s_inhid a < s_inhid b.
(** All integrations have the same size. *)
Definition uniform (f : fmt) (recs : list spec) : Prop :=
  forall a b, In a recs -> In b recs -> integration_size f recs (s_inhid a) = integration_size f recs (s_inhid b).

(** A file of several writes, the later ones appended, and its metadata *)
Fixpoint written (f : fmt) (parts : list (list spec)) (data : rdata) (file : list Z) : Prop :=
  match parts with
  | [] => file = []
  | p :: parts => exists junk f1 f2, write_data f junk p data = Ok f1 /\ written f parts data f2 /\ file = f1 ++ f2
  end.
Definition offsets (f : fmt) (parts : list (list spec)) : list nat := List.concat (map (recalc_dataoff f) parts).

(** The integrations selected follow each other in the file. *)
Definition contiguous (sel recs : list spec) : Prop :=
  forall a b c, In a sel -> In b recs -> In c sel -> s_inhid a < s_inhid b < s_inhid c -> exists s, In s sel /\ s_inhid s = s_inhid b.

(** The records follow each other from the start. *)
Definition packed_ints (ints : idict) : Prop :=
  (forall e, nth_error ints 0 = Some e -> i_start (snd e) = 0%nat) /\
  (forall n e e', nth_error ints n = Some e -> nth_error ints (S n) = Some e' ->
     fst e < fst e' /\ i_start (snd e') = (i_start (snd e) + 8 + i_size (snd e))%nat).
Definition packed_recs (rp : list (Z * (nat * nat))) : Prop :=
  (forall e, nth_error rp 0 = Some e -> fst (snd e) = 0%nat) /\
  (forall n e e', nth_error rp n = Some e -> nth_error rp (S n) = Some e' -> fst (snd e') = snd (snd e)).
