(** Vocabulary for the coordinate claims: distances, turning about an axis, and the
    textbook formula for the coordinates of a baseline. *)
From Coq Require Import List Reals.
Import ListNotations.
Open Scope R_scope.

Definition point := (R * R * R)%type.
Definition origin : point := (0, 0, 0).
Definition minus3 (p q : point) : point := let '(x, y, z) := p in let '(x', y', z') := q in (x - x', y - y', z - z').
(** The length of a vector, and the distance of two points *)
Definition len3 (p : point) : R := let '(x, y, z) := p in sqrt (x * x + y * y + z * z).
Definition distance (p q : point) : R := len3 (minus3 p q).

(** Turning the vector by angle [a] about one of the axes x, y, z (0, 1, 2),
    counterclockwise seen from the tip of the axis *)
Definition turn (axis : nat) (a : R) (p : point) : point :=
  let '(x, y, z) := p in
  match axis with
  | 0%nat => (x, cos a * y - sin a * z, sin a * y + cos a * z)
  | 1%nat => (cos a * x + sin a * z, y, - sin a * x + cos a * z)
  | _ => (cos a * x - sin a * y, sin a * x + cos a * y, z)
  end.

(** The (u, v, w) coordinates of baseline (X, Y, Z) for a source at hour angle [H] and
    declination [d] (Thompson, Moran & Swenson, eq. 4.1), both measured in the frame of
    X, Y, Z: w is the component towards the source, u the component towards the east
    and v the one towards the north. *)
Definition textbook_uvw (H d : R) (p : point) : point :=
  let '(X, Y, Z) := p in
  (sin H * X + cos H * Y,
   - sin d * cos H * X + sin d * sin H * Y + cos d * Z,
   cos d * cos H * X - cos d * sin H * Y + sin d * Z).
(** The same for a frame whose north is at position angle [pa] *)
Definition tilted (pa : R) (p : point) : point :=
  let '(u, v, w) := p in (cos pa * u - sin pa * v, sin pa * u + cos pa * v, w).
Definition uvw_of (H d pa : R) (p : point) : point := tilted pa (textbook_uvw H d p).
(** East, north and up at a site of latitude [lat] and longitude [lon] *)
Definition east_north_up (lat lon : R) (p : point) : point :=
  let '(X, Y, Z) := p in
  (- sin lon * X + cos lon * Y,
   - sin lat * cos lon * X - sin lat * sin lon * Y + cos lat * Z,
   cos lat * cos lon * X + cos lat * sin lon * Y + sin lat * Z).

(** [f] keeps all distances *)
Definition keeps_distances (f : point -> point) : Prop := forall p q, distance (f p) (f q) = distance p q.
