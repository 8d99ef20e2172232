(** Objects for the examples about inflate_by_redundancy. *)
From Coq Require Import List ZArith Bool Lia.
From Verif Require Import Lib.Py Lib.Np Spec.BltSpec Spec.PolSpec Spec.UVDataSpec Spec.ConjSpec Spec.InflateSpec.
From Verif Require Import Model.Bls Model.UVData Model.Reorder Model.Redundancy Model.Inflate Proofs.Samples.
Import ListNotations.
Open Scope Z_scope.

(** A sample whose baseline numbers come from antnums_to_baseline. *)
Definition numbered (rows : list (Z * Z * Z)) (nb nt : nat) : uvd :=
  let u := sample rows [-5] nb nt None None false in
  match antnums_to_baseline (ant_1_array u) (ant_2_array u) (Some 4) false false with
  | Ok l => set_baseline_array l u
  | Err _ => u
  end.

Definition line : list (Z * Z * Z) := [(0, 0, 0); (50, 0, 0); (100, 0, 0); (50, 900, 0)].
(** Antennas 3, 5, 7 on a line and 9 to the north of 5. *)
Definition compressed : uvd := numbered [(1, 3, 5); (2, 5, 3); (2, 3, 3); (1, 9, 5)] 4 2.

Definition ants_of (r : result uvd) : result (list Z * list Z * list Z) :=
  do u <- r; Ok (time_array u, ant_1_array u, ant_2_array u).

Lemma ok_by_ants r x : ants_of r = Ok x -> exists u, r = Ok u /\ (time_array u, ant_1_array u, ant_2_array u) = x.
Proof. destruct r as [u|]; [|discriminate]. cbn. intros [= <-]. exists u. auto. Qed.
