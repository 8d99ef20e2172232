(** The MWA correlators, from their documentation. *)
From Coq Require Import List ZArith Bool.
From Verif Require Import Lib.Cube.
Import ListNotations.
Notation length := List.length.
Open Scope list_scope.
Open Scope Z_scope.

(** Output [o] of the polyphase filter bank carries input [i]: within each of the four groups of 64,
    input = floor(output / 4) + 16 (output mod 4). *)
Definition carries (o i : Z) : Prop :=
  exists g k, 0 <= g < 4 /\ 0 <= k < 64 /\ o = 64 * g + k /\ i = 64 * g + (k / 4 + 16 * (k mod 4)).

(** The file of the legacy correlator: outputs come in pairs 2A, 2A + 1; for A >= B the four products
    of a pair with a pair are stored one after the other. *)
Definition packed (raw : Z -> cplx) (product : Z -> Z -> cplx) : Prop :=
  forall A B p q, 0 <= B <= A -> A < 128 -> 0 <= p < 2 -> 0 <= q < 2 ->
  raw (2 * A * (A + 1) + 4 * B + 2 * p + q) = product (2 * A + p) (2 * B + q).
Definition hermitian (product : Z -> Z -> cplx) : Prop := forall a b, product b a = cconj (product a b).

(** The antennas of the metafits file have the indices 0, ..., 127 in any order. *)
Definition all_antennas (antenna_inds : list Z) : Prop :=
  length antenna_inds = 128%nat /\ NoDup antenna_inds /\ forall a, In a antenna_inds -> 0 <= a < 128.

(** Polarization of the product of feeds; each antenna has two inputs, y (0) before x (1). *)
Definition pol_of (p1 p2 : Z) : Z :=
  match p1, p2 with 1, 1 => -5 | 0, 0 => -6 | 1, 0 => -7 | _, _ => -8 end.

(** File [f] has coarse channel [c]. The legacy correlator numbers files from one, first the channels
    up to 128 from low to high, then the others from high to low. *)
Definition count (f : Z -> bool) (l : list Z) : Z := Z.of_nat (length (filter f l)).
Definition file_holds (mwax : bool) (chans : list Z) (f c : Z) : Prop :=
  In c chans /\
  if mwax then f = c
  else if c <=? 128 then f = 1 + count (fun d => d <? c) chans
  else f = 1 + count (fun d => d <=? 128) chans + count (fun d => d >? c) chans.

Definition consecutive (chans : list Z) : Prop := forall i, (i < length chans)%nat -> nth i chans 0 = nth 0 chans 0 + Z.of_nat i.

(** Some channel between two channels with files has none. *)
Definition channel_missing (mwax : bool) (chans included : list Z) : Prop :=
  exists a b c f g, In b chans /\ a < b < c /\ file_holds mwax chans f a /\ In f included /\ file_holds mwax chans g c /\ In g included /\
  forall h, file_holds mwax chans h b -> ~ In h included.
