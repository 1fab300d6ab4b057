(** Model of the angle normalisation on doubles (eph/eph0.cpp:55-71). *)
From Coq Require Import ZArith Bool.
From Coq Require Import Floats.SpecFloat.
From Verif Require Import F64.
Open Scope Z_scope.

(** eph/eph0.h:6 [#define _pi 3.14159265358979323846]: the double nearest to the decimal, 7074237752028440 / 2^51 *)
Definition dpi : f64 := S754_finite false 7074237752028440 (-51).
(** [2 * _pi] *)
Definition d2pi : f64 := fmul (fZ 2) dpi.

(** C library: [fmod(x, y)], the exact remainder of the truncated quotient, with the sign of x.  Both operands are
    brought to the smaller exponent; the remainder of the integers is the result. *)
Definition dfmod (x y : f64) : f64 :=
  match x, y with
  | S754_nan, _ | _, S754_nan | S754_infinity _, _ | _, S754_zero _ => S754_nan
  | S754_zero _, _ | _, S754_infinity _ => x
  | S754_finite sx mx ex, S754_finite _ my ey =>
      let e := Z.min ex ey in
      binary_normalize 53 1024 (cond_Zopp sx ((Zpos mx * 2 ^ (ex - e)) mod (Zpos my * 2 ^ (ey - e)))) e sx
  end.

(** eph/eph0.cpp:55-61 *)
Definition rad2mrad_d (v : f64) : f64 :=
  let v := dfmod v d2pi in
  if fltb v (fZ 0) then fadd v d2pi else v.

(** eph/eph0.cpp:63-71 *)
Definition rad2rrad_d (v : f64) : f64 :=
  let v := dfmod v d2pi in
  if fleb v (fopp dpi) then fadd v d2pi
  else if fgtb v dpi then fsub v d2pi else v.
