(** Specification of the observer's place and of the contacts of an eclipse. *)
From Coq Require Import Reals.
Open Scope R_scope.

(** In the plane of a meridian (abscissa: distance from the axis): the point at height h above the ellipse with semi-axes a and f a, where the normal
    makes the angle fa with the equator.  (fx, fz) is the foot; the normal of the ellipse at it has the direction (fx, fz / f^2). *)
Definition station (f a fa h px pz : R) : Prop :=
  exists fx fz k, 0 < k /\ fx * fx + fz * fz / (f * f) = a * a /\ fx = k * cos fa /\ fz / (f * f) = k * sin fa /\
    px = fx + h * cos fa /\ pz = fz + h * sin fa.

(** P holds at s and never before, never after *)
Definition first_time (P : R -> Prop) (s : R) : Prop := P s /\ forall s', P s' -> s <= s'.
Definition last_time (P : R -> Prop) (s : R) : Prop := P s /\ forall s', P s' -> s' <= s.
(** distance of a point of the plane from the origin *)
Definition distance (x y : R) : R := sqrt (x * x + y * y).
