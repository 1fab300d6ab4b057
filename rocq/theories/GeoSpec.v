(** Specification of the geometry: rotations of space, written with rectangular coordinates. *)
From Coq Require Import Reals.
Open Scope R_scope.

Definition point : Type := (R * R * R)%type.
(** the point at distance r in the direction of longitude J and latitude W *)
Definition at_direction (J W r : R) (p : point) : Prop :=
  let '(x, y, z) := p in x = r * cos W * cos J /\ y = r * cos W * sin J /\ z = r * sin W.
(** counterclockwise rotations about the x axis and the z axis, and the rotation about the y axis that turns x towards z *)
Definition rot_x (E : R) (p : point) : point := let '(x, y, z) := p in (x, y * cos E - z * sin E, y * sin E + z * cos E).
Definition rot_z (E : R) (p : point) : point := let '(x, y, z) := p in (x * cos E - y * sin E, x * sin E + y * cos E, z).
Definition rot_y (E : R) (p : point) : point := let '(x, y, z) := p in (x * cos E - z * sin E, y, x * sin E + z * cos E).
Definition minus (p q : point) : point := let '(x, y, z) := p in let '(a, b, c) := q in (x - a, y - b, z - c).
Definition norm (p : point) : R := let '(x, y, z) := p in sqrt (x * x + y * y + z * z).
Definition dot (p q : point) : R := let '(x, y, z) := p in let '(a, b, c) := q in x * a + y * b + z * c.
(** the ellipsoid of revolution with equatorial radius r and polar radius e r *)
Definition on_ellipsoid (e r : R) (p : point) : Prop := let '(x, y, z) := p in x * x + y * y + z * z / (e * e) = r * r.
(** the point at parameter t of the line through p (t = 0) and q (t = 1) *)
Definition on_line (p q : point) (t : R) : point := let '(x, y, z) := p in let '(a, b, c) := q in (x + (a - x) * t, y + (b - y) * t, z + (c - z) * t).
Definition dist (p q : point) : R := norm (minus p q).
