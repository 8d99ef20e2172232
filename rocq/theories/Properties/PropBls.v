(** Properties C01-C05: baseline numbers. *)
From Coq Require Import List ZArith.
From Verif Require Import Lib.Py Model.Bls Spec.BlsSpec Proofs.BlsProofs.
Import ListNotations.
Open Scope Z_scope.

(** C01: whatever the encoder accepts, the decoder maps back to the same
    antennas, whatever (accepted) number of antennas it is given. *)
Theorem C01_baseline_round_trip :
  forall ant1 ant2 nants attempt256 bl nants',
  length ant1 = length ant2 -> nants' <= 2147483648 ->
  antnums_to_baseline ant1 ant2 nants attempt256 false = Ok bl ->
  baseline_to_antnums bl nants' = Ok (ant1, ant2).
Proof. exact round_trip. Qed.
Print Assumptions C01_baseline_round_trip.

Example C01_case : antnums_to_baseline [0; 255; 2047; 3] [1; 256; 2047; 3] (Some 2048) true false
  = Ok [65537; 588032; 4259839; 71683]
  /\ baseline_to_antnums [65537; 588032; 4259839; 71683] 4 = Ok ([0; 255; 2047; 3], [1; 256; 2047; 3]).
Proof. vm_compute. split; reflexivity. Qed.

(** C01: the encoder accepts exactly the documented inputs, so the round trip
    is not vacuous. *)
Theorem C01_encoder_accepts :
  forall ant1 ant2 nants attempt256,
  length ant1 = length ant2 ->
  (exists bl, antnums_to_baseline ant1 ant2 nants attempt256 false = Ok bl) <->
  (ant1 <> [] /\ valid_ants ant1 /\ valid_ants ant2 /\
   match nants with Some n => n <= 2147483648 | None => True end).
Proof. exact encode_accepts. Qed.
Print Assumptions C01_encoder_accepts.

(** C01: and conversely every baseline number an encoding can produce decodes
    to a pair that re-encodes to a number decoding to the same pair. *)
Theorem C01_decode_encode :
  forall b n, n <= 2147483648 ->
  0 <= b < 65536 + 4194304 + 2147483648 * 2147483648 ->
  exists a1 a2, baseline_to_antnums [b] n = Ok ([a1], [a2]) /\
    exists b', antnums_to_baseline [a1] [a2] (Some n) false false = Ok [b'] /\
    baseline_to_antnums [b'] n = Ok ([a1], [a2]).
Proof. exact decode_exact_domain. Qed.
Print Assumptions C01_decode_encode.

Example C01_decode_case : baseline_to_antnums [65535] 5 = Ok ([255], [255])
  /\ antnums_to_baseline [255] [255] (Some 5) false false = Ok [588031].
Proof. vm_compute. split; reflexivity. Qed.

(** C02 *)
Theorem C02_baseline_numbers_unique :
  forall ant1 ant2 nants attempt256 bl,
  length ant1 = length ant2 ->
  antnums_to_baseline ant1 ant2 nants attempt256 false = Ok bl ->
  (forall i j, (i < length ant1)%nat -> (j < length ant1)%nat ->
     nth i bl 0 = nth j bl 0 -> nth i ant1 0 = nth j ant1 0 /\ nth i ant2 0 = nth j ant2 0)
  /\ Forall (fun b => 0 <= b < 2 ^ 64) bl
  /\ (exists m off, encoding m off /\ bl = map (fun p => m * fst p + snd p + off) (combine ant1 ant2))
  /\ (forall n, n <= 2147483648 -> exists r, baseline_to_antnums bl n = Ok r).
Proof. exact encode_injective. Qed.
Print Assumptions C02_baseline_numbers_unique.

Example C02_case : antnums_to_baseline [2147483647; 2147483647] [2147483647; 0] None false false
  = Ok [4611686018431647743; 4611686016284164096].
Proof. vm_compute. reflexivity. Qed.

(** C03 *)
Theorem C03_flip_swaps_and_is_involutive :
  forall ant1 ant2 nants attempt256 bl n,
  length ant1 = length ant2 -> n <= 2147483648 ->
  antnums_to_baseline ant1 ant2 nants attempt256 false = Ok bl ->
  exists fl, baseline_index_flip bl n = Ok fl /\
    (forall n', n' <= 2147483648 -> baseline_to_antnums fl n' = Ok (ant2, ant1)) /\
    exists fl2, baseline_index_flip fl n = Ok fl2 /\
      (forall n', n' <= 2147483648 -> baseline_to_antnums fl2 n' = Ok (ant1, ant2)) /\
      antnums_to_baseline ant1 ant2 (Some n) false false = Ok fl2.
Proof. exact flip_swaps. Qed.
Print Assumptions C03_flip_swaps_and_is_involutive.

Example C03_case : baseline_index_flip [65536 + 2048 * 3 + 7; 65536 + 2048 * 300 + 2] 400
  = Ok [65536 + 2048 * 7 + 3; 65536 + 2048 * 2 + 300].
Proof. vm_compute. reflexivity. Qed.

(** C03, finding: the decoder's own limit admits numbers that decode to
    antenna 2^31, whose flip raises. *)
Theorem C03_decoder_limit_refuted :
  exists b, baseline_to_antnums [b] 10 = Ok ([2147483648], [0]) /\
    baseline_index_flip [b] 10 = Err ValueError.
Proof. exact decode_gap. Qed.
Print Assumptions C03_decoder_limit_refuted.

(** C04: with one regime, array decoding is elementwise decoding ... *)
Theorem C04_decode_elementwise :
  forall m off bl n,
  encoding m off -> bl <> [] -> n <= 2147483648 -> Forall (in_regime m off) bl ->
  exists a1 a2, baseline_to_antnums bl n = Ok (a1, a2) /\
    length a1 = length bl /\ length a2 = length bl /\
    forall i, (i < length bl)%nat ->
      baseline_to_antnums [nth i bl 0] n = Ok ([nth i a1 0], [nth i a2 0]).
Proof. exact decode_elementwise. Qed.
Print Assumptions C04_decode_elementwise.

Example C04_case : encoding 2048 65536 /\ Forall (in_regime 2048 65536) [65536; 4259839]
  /\ baseline_to_antnums [65536; 4259839] 4 = Ok ([0; 2047], [0; 2047]).
Proof.
  split; [constructor|]. split; [|reflexivity].
  repeat constructor; vm_compute; congruence.
Qed.

(** ... and with mixed regimes it is not. *)
Theorem C04_mixed_regimes_refuted :
  exists bl a1 a2 i, baseline_to_antnums bl 10 = Ok (a1, a2) /\ (i < length bl)%nat /\
    baseline_to_antnums [nth i bl 0] 10 <> Ok ([nth i a1 0], [nth i a2 0]).
Proof. exact decode_mixed_wrong. Qed.
Print Assumptions C04_mixed_regimes_refuted.

(** C05 *)
Theorem C05_miriad_decodes :
  forall a1 a2 n bl,
  antnums_to_baseline [a1] [a2] n false true = Ok [bl] ->
  1 <= a1 -> 1 <= a2 ->
  (a1 <= 255 -> a2 <= 255 -> bl = 256 * a1 + a2 /\ bl2ij bl = (a1 - 1, a2 - 1)) /\
  (256 <= a2 -> a2 < 2048 -> bl = 2048 * a1 + a2 + 65536 /\ bl2ij bl = (a1 - 1, a2 - 1)).
Proof. exact miriad_encode. Qed.
Print Assumptions C05_miriad_decodes.

Example C05_case : antnums_to_baseline [3] [300] (Some 400) false true = Ok [71980]
  /\ bl2ij 71980 = (2, 299).
Proof. vm_compute. split; reflexivity. Qed.

Theorem C05_miriad_not_injective :
  exists a1 a2 b1 b2 bl, (a1, a2) <> (b1, b2) /\
    antnums_to_baseline [a1] [a2] None false true = Ok [bl] /\
    antnums_to_baseline [b1] [b2] None false true = Ok [bl].
Proof. exact miriad_not_injective. Qed.
Print Assumptions C05_miriad_not_injective.

(** The miriad writer's own numbering round-trips up to antenna order. *)
Theorem C05_ij2bl_round_trip :
  forall i j, 0 <= i -> 0 <= j -> i < 2047 -> j < 2047 ->
  bl2ij (ij2bl i j) = (Z.min i j, Z.max i j).
Proof. exact bl2ij_ij2bl. Qed.
Print Assumptions C05_ij2bl_round_trip.

Example C05_ij2bl_case : ij2bl 300 3 = 74029 /\ bl2ij 74029 = (3, 300).
Proof. vm_compute. split; reflexivity. Qed.

Theorem C05_ij2bl_injective :
  forall i j i' j', 0 <= i <= j -> j < 2047 -> 0 <= i' <= j' -> j' < 2047 ->
  ij2bl i j = ij2bl i' j' -> i = i' /\ j = j'.
Proof. exact ij2bl_injective. Qed.
Print Assumptions C05_ij2bl_injective.
