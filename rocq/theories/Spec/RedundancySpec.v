(** What redundant groups are. *)
From Coq Require Import List ZArith Sorted Permutation.
Import ListNotations.
Open Scope Z_scope.

(** The square of the Euclidean distance. *)
Fixpoint sqdist (v w : list Z) : Z :=
  match v, w with
  | x :: v, y :: w => (x - y) ^ 2 + sqdist v w
  | _, _ => 0
  end.

(** Strictly closer than the tolerance. *)
Definition near (tol : Z) (v w : list Z) : Prop := 0 < tol /\ sqdist v w < tol ^ 2.

(** Every vector has [d] coordinates. *)
Definition shaped (d : nat) (vecs : list (list Z)) : Prop :=
  (1 <= d)%nat /\ forall v, In v vecs -> length v = d.

(** Two locations of the list are linked when they are the same entry or near. *)
Definition linked (tol : Z) (vecs : list (list Z)) (i j : nat) : Prop :=
  i = j \/ near tol (nth i vecs []) (nth j vecs []).

(** A set of locations, listed in increasing order, whose members are pairwise
    near and have no other location near any of them. *)
Definition isolated_clique (tol : Z) (vecs : list (list Z)) (g : list nat) : Prop :=
  g <> [] /\ StronglySorted lt g
  /\ (forall i, In i g -> (i < length vecs)%nat)
  /\ (forall i j, In i g -> In j g -> linked tol vecs i j)
  /\ (forall i j, In i g -> (j < length vecs)%nat -> linked tol vecs i j -> In j g).

(** [gp] lists, in increasing order, the ids of the locations [g]. *)
Definition ids_of (ids : list Z) (g : list nat) (gp : list Z) : Prop :=
  Permutation gp (map (fun i => nth i ids 0) g) /\ StronglySorted Z.le gp.

(** Coordinates of a three-vector. *)
Definition xyz (v : Z * Z * Z) : list Z := let '(x, y, z) := v in [x; y; z].
Definition opposite (v : Z * Z * Z) : Z * Z * Z := let '(x, y, z) := v in (- x, - y, - z).

(** The first coordinate that is larger than the tolerance is negative. *)
Definition points_back (tol : Z) (v : Z * Z * Z) : Prop :=
  let '(x, y, z) := v in
  x < - tol \/ (Z.abs x <= tol /\ y < - tol)
  \/ (Z.abs x <= tol /\ Z.abs y <= tol /\ z < - tol).

(** Some coordinate is larger than the tolerance. *)
Definition oriented (tol : Z) (v : Z * Z * Z) : Prop :=
  let '(x, y, z) := v in tol < Z.abs x \/ tol < Z.abs y \/ tol < Z.abs z.
