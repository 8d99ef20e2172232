(** Vocabulary for the rotation of arrays. *)
From Coq Require Import List Reals.
From Verif Require Import Model.Coordinates Model.Rotation.
Import ListNotations.
Open Scope R_scope.

(** An array of single vectors *)
Definition column (vs : list vec) : stack := map (fun v => [v]) vs.
(** The angle of record [i], and an amount for [n] records *)
Definition angle_at (a : amount) (i : nat) : R := match a with ANone => 0 | ANum r => r | AArr l => nth i l 0 end.
Definition fits (n : nat) (a : amount) : Prop := match a with AArr l => length l = n | _ => True end.

(** An optional array of position angles: zero where there is none *)
Definition pa_at (o : option (list R)) (i : nat) : R := match o with Some l => nth i l 0 | None => 0 end.
Definition fits_opt (n : nat) (o : option (list R)) : Prop := match o with Some l => length l = n | None => True end.
