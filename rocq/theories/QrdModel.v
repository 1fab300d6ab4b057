(** Model of RS_GS::qrd (eph/eph_rsgs.cpp:154-172): the place where the shadow of the Moon first or last touches the Earth, in exact arithmetic
    as in GeoModel.v. *)
From Coq Require Import ZArith Reals.
From Verif Require Import GeoModel ShModel.
Open Scope R_scope.

(** eph_rsgs.cpp:68-69  bba, the flattening of the Earth's outline seen from the shadow; w is the mean of the declinations of the Sun in the first and the last row of the table, ba is cs_ba *)
Definition outline_axis (ba w : R) : R := ba * (1 + (1 - ba * ba) * sin w * sin w / 2).

(** eph_rsgs.cpp:156, 161  d: the distance from the Earth's centre at which the shadow with radius r touches; ba2 is b * b *)
Definition qrd_d (b x y r : R) : R := 1 - (1 / (b * b) - 1) * y * y / (x * x + y * y) / 2 + r.
(** eph_rsgs.cpp:162  t: one step towards that distance with the speed (dx, dy) *)
Definition qrd_t (d x y dx dy : R) : R := (d * d - x * x - y * y) / (dx * x + dy * y) / 2.
(** eph_rsgs.cpp:165-167  the turn from the centre of the shadow to the point of contact; the second assignment reads the new x *)
Definition qrd_turn (b r d x y : R) : R * R :=
  let c := (1 - b * b) * r * x * y / d / d / d in
  let x := x + c * y in
  let y := y - c * x in
  (x, y).
(** eph_rsgs.cpp:154-172  qrd; bseM and bse are the tables of Moon and axis (bseM, bse), k0, k, k2 are cs_k0, cs_k, cs_k2, b is RS_GS::bba, ba cs_ba *)
Definition qrd (bseM bse : R -> vec) (k0 k k2 dyj b ba : R) (jd dx dy : R) (fs : bool) : vec :=
  let '(x, y, z) := bseM jd in
  let r := if fs then r1 (rSM k0 k k2 dyj z) else 0 in
  let d := qrd_d b x y r in
  let t := qrd_t d x y dx dy in
  let x := x + t * dx in let y := y + t * dy in let jd := jd + t in
  let '(x, y) := qrd_turn b r d x y in
  let '(J, W, _) := bse2db (x / d, y / d, 0) (bse jd) true ba in
  (J, W, jd).
