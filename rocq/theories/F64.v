(** Executable model of the C++ [double] and [int] types used by every other model file.

    /repo never defines these; the platform model is stated in DESIGN.md:
    [double] is IEEE-754 binary64 with round-to-nearest-even (SpecFloat of the Coq standard library with
    precision 53, emax 1024), [int] is 32 bit, and an out-of-range conversion or an int overflow is undefined
    behaviour, which the model reports as [None]. *)
From Coq Require Import ZArith Bool List.
From Coq Require Import Floats.SpecFloat.
Import ListNotations.
Open Scope Z_scope.

Definition f64 := spec_float.

(** C++ [+ - * /] and unary minus on double; [fabs]. *)
Definition fadd (x y : f64) : f64 := SFadd 53 1024 x y.
Definition fsub (x y : f64) : f64 := SFsub 53 1024 x y.
Definition fmul (x y : f64) : f64 := SFmul 53 1024 x y.
Definition fdiv (x y : f64) : f64 := SFdiv 53 1024 x y.
Definition fopp (x : f64) : f64 := SFopp x.
Definition ffabs (x : f64) : f64 := SFabs x.

(** C++ [< <= == > >=] on double (false on NaN). *)
Definition fltb (x y : f64) : bool := SFltb x y.
Definition fleb (x y : f64) : bool := SFleb x y.
Definition feqb (x y : f64) : bool := SFeqb x y.
Definition fgtb (x y : f64) : bool := SFltb y x.
Definition fgeb (x y : f64) : bool := SFleb y x.

(** Conversion of an integer value to double (correctly rounded; exact up to 2^53). *)
Definition fZ (n : Z) : f64 := binary_normalize 53 1024 n 0 false.

(** The double literal written in decimal as [n]/[d] ([n], [d] below 2^53, [d] a power of ten):
    correctly rounded because both operands are exact. *)
Definition lit (n d : Z) : f64 := fdiv (fZ n) (fZ d).

(** Mathematical floor and truncation of a finite double; [None] for NaN and infinities. *)
Definition ffloorZ (x : f64) : option Z :=
  match x with
  | S754_zero _ => Some 0
  | S754_finite s m e =>
      let z := cond_Zopp s (Zpos m) in
      Some (if 0 <=? e then z * 2 ^ e else z / 2 ^ (- e))
  | _ => None
  end.

Definition ftruncZ (x : f64) : option Z :=
  match x with
  | S754_zero _ => Some 0
  | S754_finite s m e =>
      let z := cond_Zopp s (Zpos m) in
      Some (if 0 <=? e then z * 2 ^ e else Z.quot z (2 ^ (- e)))
  | _ => None
  end.

(** C [floor] with a double result (NaN and infinities unchanged). *)
Definition ffloor (x : f64) : f64 :=
  match x with
  | S754_finite s m e =>
      if 0 <=? e then x
      else binary_normalize 53 1024 (cond_Zopp s (Zpos m) / 2 ^ (- e)) 0 s
  | _ => x
  end.

(** 32-bit int range; [mk_int] is the result of an int computation, [None] on overflow. *)
Definition int_min : Z := -2147483648.
Definition int_max : Z := 2147483647.
Definition in_int (z : Z) : bool := (int_min <=? z) && (z <=? int_max).
Definition mk_int (z : Z) : option Z := if in_int z then Some z else None.

Definition obind {A B : Type} (x : option A) (f : A -> option B) : option B :=
  match x with Some a => f a | None => None end.

Declare Scope opt_scope.
Notation "'let*' x ':=' e 'in' k" := (obind e (fun x => k))
  (at level 200, x pattern, e at level 100, k at level 200, right associativity) : opt_scope.
Open Scope opt_scope.

(** mylib/tool.h:12  [inline int int2(double v) {return (int)floor(v);}]
    (the same as the macro lunar/lunar_ssq.cpp:9). *)
Definition int2 (v : f64) : option Z := let* z := ffloorZ v in mk_int z.

(** C cast [(int) v]: truncation toward zero. *)
Definition cast_int (v : f64) : option Z := let* z := ftruncZ v in mk_int z.
