(** C54: visibilities as scaled integers in Mir files. *)
From Coq Require Import List ZArith QArith Qabs Bool Arith.
From Verif Require Import Model.MirVis Spec.MirVisSpec Proofs.MirVisProofs.
Import ListNotations.
Open Scope Z_scope.
Open Scope list_scope.

(** Coding and decoding keeps flags, zeroes flagged channels and cuts every other
    component to a multiple of one step. *)
Theorem C54_vis : forall v, List.length (flags v) = List.length (data v) ->
  exists step, fine_step step v /\ let w := raw_to_vis (vis_to_raw v) in
  flags w = flags v /\ weights w = map (fun b : bool => if b then 0%Q else 1%Q) (flags v) /\ List.length (data w) = List.length (data v) /\
  forall i, (i < List.length (data v))%nat ->
    if flagged v i then ch w i = (0, 0)%Q else cut_to step (fst (ch v i)) (fst (ch w i)) /\ cut_to step (snd (ch v i)) (snd (ch w i)).
Proof. exact vis_round_trip. Qed.
Print Assumptions C54_vis.
Definition spectrum : vis := mkVis [(100 # 3, -1 # 7); (5, 6); (0, 16384 # 500)]%Q [false; true; false] [1; 0; 1]%Q.
Example C54_vis_nonvacuous : List.length (flags spectrum) = List.length (data spectrum) /\
  vis_to_raw spectrum = mkRaw (-9) [17066; -73; -32768; -32768; 0; 16777].
Proof. split; [reflexivity|vm_compute; reflexivity]. Qed.

(** The integers never overflow, and -32768 marks the flagged channels and no other. *)
Theorem C54_range : forall v, List.length (flags v) = List.length (data v) -> List.length (values (vis_to_raw v)) = (2 * List.length (data v))%nat /\
  forall i, (i < List.length (data v))%nat -> let re := nth (2 * i) (values (vis_to_raw v)) 0 in let im := nth (2 * i + 1) (values (vis_to_raw v)) 0 in
  if flagged v i then re = -32768 /\ im = -32768 else -32768 < re < 32768 /\ -32768 < im < 32768.
Proof. exact raw_range. Qed.
Print Assumptions C54_range.
Example C54_range_nonvacuous : flagged spectrum 1 = true /\ flagged spectrum 2 = false.
Proof. split; reflexivity. Qed.

(** Integers decoded and coded again stand for the same visibilities. *)
Theorem C54_raw : forall r, valid_raw r -> -66 <= scale_fac r -> same_vis (raw_to_vis (vis_to_raw (raw_to_vis r))) (raw_to_vis r).
Proof. exact raw_exact. Qed.
Print Assumptions C54_raw.
Example C54_raw_nonvacuous : valid_raw (mkRaw (-9) [17; -73; -32768; -32768; 0; 16]) /\
  vis_to_raw (raw_to_vis (mkRaw (-9) [17; -73; -32768; -32768; 0; 16])) = mkRaw (-17) [4352; -18688; -32768; -32768; 0; 4096].
Proof.
  split; [|vm_compute; reflexivity]. split; [|exists 3%nat; reflexivity]. cbn [values pairs].
  constructor; [right; cbn; Lia.lia|]. constructor; [left; cbn; Lia.lia|]. constructor; [right; cbn; Lia.lia|constructor].
Qed.

(** They are the same integers if some unflagged one uses all its bits. *)
Theorem C54_raw_same : forall r i, valid_raw r -> -66 <= scale_fac r -> (i < List.length (pairs (values r)))%nat ->
  fst (nth i (pairs (values r)) (0, 0)) <> -32768 ->
  16384 <= Z.abs (fst (nth i (pairs (values r)) (0, 0))) \/ 16384 <= Z.abs (snd (nth i (pairs (values r)) (0, 0))) ->
  vis_to_raw (raw_to_vis r) = r.
Proof. exact raw_same. Qed.
Print Assumptions C54_raw_same.
Example C54_raw_same_nonvacuous : let r := mkRaw 3 [-20000; 5; -32768; -32768] in
  16384 <= Z.abs (fst (nth 0 (pairs (values r)) (0, 0))) /\ vis_to_raw (raw_to_vis r) = r.
Proof. split; [vm_compute; discriminate|vm_compute; reflexivity]. Qed.

(** The error can be more than half a step. *)
Theorem C54_half_step_refuted : exists v, List.length (flags v) = List.length (data v) /\ flagged v 0 = false /\ (0 < List.length (data v))%nat /\
  (Qpower 2 (scale_fac (vis_to_raw v)) * (1 # 2) < Qabs (fst (ch v 0) - fst (ch (raw_to_vis (vis_to_raw v)) 0)))%Q.
Proof. exists (mkVis [(16384 + (7 # 8), 0)%Q] [false] [1%Q]). repeat split. apply le_n. Qed.
Print Assumptions C54_half_step_refuted.

(** The value of a flagged channel can wipe out the other channels. *)
Theorem C54_flagged_scale_refuted : exists v v', flags v = flags v' /\ List.length (data v) = List.length (data v') /\ List.length (flags v) = List.length (data v) /\
  (forall i, flagged v i = false -> ch v i = ch v' i) /\ flagged v 0 = false /\
  (fst (ch v 0) == 1)%Q /\ (fst (ch (raw_to_vis (vis_to_raw v)) 0) == 1)%Q /\ (fst (ch (raw_to_vis (vis_to_raw v')) 0) == 0)%Q.
Proof.
  exists (mkVis [(1, 0); (0, 0)]%Q [false; true] [1; 0]%Q), (mkVis [(1, 0); (100000, 0)]%Q [false; true] [1; 0]%Q).
  split; [reflexivity|]. split; [reflexivity|]. split; [reflexivity|]. split.
  - intros [|[|i]] F; [reflexivity|discriminate|destruct i; reflexivity].
  - split; [reflexivity|]. split; [reflexivity|]. split; reflexivity.
Qed.
Print Assumptions C54_flagged_scale_refuted.
