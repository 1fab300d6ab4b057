(** Model in exact arithmetic, as in GeoModel, of cirOvl (eph/eph.cpp:336-359), the points common to an ellipse and a circle. *)
From Coq Require Import Reals.
Open Scope R_scope.

(** eph/eph.cpp:348-356, one pass of the loop; the result is the new cosA and the point, None is the return with n = 0.  sinA is always the root of 1 - cosA^2 *)
Definition cir_round (Re ba R2 d sinB cosB k cosA : R) : option (R * (R * R)) :=
  let sinA := sqrt (1 - cosA * cosA) in
  let S := cosA * sinB + sinA * cosB * k in
  let g := Re - S * S * (1 / (ba * ba) - 1) / 2 in
  let cosA := (g * g + d * d - R2 * R2) / (2 * d * g) in
  if Rlt_dec 1 (Rabs cosA) then None else
  let sinA := sqrt (1 - cosA * cosA) in
  let C := cosA * cosB - sinA * sinB * k in
  let S := cosA * sinB + sinA * cosB * k in
  Some (cosA, (g * C, g * S)).
(** eph/eph.cpp:336-359: the points A and B when n = 2, None when n = 0; the centre of the circle is not (0, 0), where the code divides by zero *)
Definition cirOvl (Re ba R2 x0 y0 : R) : option ((R * R) * (R * R)) :=
  let d := sqrt (x0 * x0 + y0 * y0) in
  let sinB := y0 / d in let cosB := x0 / d in
  let cosA := (Re * Re + d * d - R2 * R2) / (2 * d * Re) in
  if Rlt_dec 1 (Rabs cosA) then None else
  match cir_round Re ba R2 d sinB cosB (-1) cosA with
  | None => None
  | Some (cosA, B) =>
    match cir_round Re ba R2 d sinB cosB 1 cosA with
    | None => None
    | Some (_, A) => Some (A, B)
    end
  end.
