(** Independent description of the baseline-number encodings. *)
From Coq Require Import List ZArith.
Import ListNotations.
Open Scope Z_scope.

(** The three documented encodings as plain integer arithmetic:
    multiplier and offset. *)
Inductive encoding : Z -> Z -> Prop :=
| enc256 : encoding 256 0
| enc2048 : encoding 2048 65536
| enc2147483648 : encoding 2147483648 (65536 + 4194304).

(** An antenna array the encoder documents as supported. *)
Definition valid_ants (l : list Z) : Prop :=
  Forall (fun a => 0 <= a < 2147483648) l.

(** The range of baseline numbers belonging to one encoding. *)
Definition in_regime (m off b : Z) : Prop := off <= b < off + m * m.
