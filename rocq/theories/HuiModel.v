(** Model of OBA::getHuiLi (lunar/lunar_ob.cpp:177-189). *)
From Coq Require Import ZArith List Bool.
From Coq Require Import Floats.SpecFloat.
From Verif Require Import F64.
Open Scope Z_scope.
Open Scope opt_scope.

(** lunar/lunar_ob.cpp:183-188  after the 30-year cycle was removed; [d] is the day within the cycle, result: y, m
    (both from 0) and Hday *)
Definition hui_rest (d : f64) : option (Z * Z * Z) :=
  let* y := int2 (fdiv (fadd d (lit 5 10)) (lit 354366 1000)) in
  let* k := int2 (fadd (fmul (fZ y) (lit 354366 1000)) (lit 5 10)) in
  let d := fsub d (fZ k) in
  let* m := int2 (fdiv (fadd d (lit 11 100)) (lit 2951 100)) in
  let* k := int2 (fadd (fmul (fZ m) (lit 295 10)) (lit 5 10)) in
  let d := fsub d (fZ k) in
  let* day := cast_int (fadd d (fZ 1)) in
  Some (y, m, day).
(** lunar/lunar_ob.cpp:177-189  getHuiLi(d0, r): (Hyear, Hmonth, Hday) *)
Definition getHuiLi (d0 : f64) : option (Z * Z * Z) :=
  let d := fadd d0 (fZ 503105) in
  let* z := int2 (fdiv d (fZ 10631)) in
  let* t := mk_int (z * 10631) in
  let d := fsub d (fZ t) in
  let* (y, m, day) := hui_rest d in
  let* a := mk_int (z * 30) in
  let* b := mk_int (a + y) in
  let* hy := mk_int (b + 1) in
  let* hm := mk_int (m + 1) in
  Some (hy, hm, day).
