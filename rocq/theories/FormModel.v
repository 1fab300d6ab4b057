(** Closed formulas of eph/eph0.cpp.  sin and cos of the C library are parameters. *)
From Coq Require Import ZArith List.
From Coq Require Import Floats.SpecFloat.
From Verif Require Import F64 AngModel.
Import ListNotations.

Declare Scope fp_scope.
Notation "a + b" := (fadd a b) : fp_scope.
Notation "a - b" := (fsub a b) : fp_scope.
Notation "a * b" := (fmul a b) : fp_scope.
Notation "a / b" := (fdiv a b) : fp_scope.
Delimit Scope fp_scope with fp.
Open Scope fp_scope.

(** eph/eph0.h:16, the macro rad *)
Definition rad : f64 := fZ 648000 / dpi.
(** eph/eph0.h:19, the macro pi2 *)
Definition pi2 : f64 := dpi * fZ 2.

Section Lib.
Variables fsin fcos : f64 -> f64.

(** eph/eph0.cpp:143-147 *)
Definition hcjj (t : f64) : f64 :=
  let t2 := t * t in let t3 := t2 * t in let t4 := t3 * t in let t5 := t4 * t in
  ((((((lit 843814060 10000 - (lit 46836769 1000000 * t)) - (lit 1831 10000000 * t2)) + (lit 200340 100000000 * t3)) - (lit 576 1000000000 * t4)) - (lit 434 10000000000 * t5)) / rad).
(** eph/eph0.cpp:539-544 *)
Definition gxc_sunLon (t : f64) : f64 :=
  let v := (((fopp (lit 43126 1000000)) + (lit 628301955 1000000 * t)) - ((lit 2732 1000000000 * t) * t)) in
  let e := ((lit 16708634 1000000000 - (lit 42037 1000000000 * t)) - ((lit 1267 10000000000 * t) * t)) in
  (((fopp (lit 2049552 100000)) * (fZ 1 + (e * fcos v))) / rad).
(** eph/eph0.cpp:556-559 *)
Definition gxc_moonLat (t : f64) : f64 :=
  ((lit 63 1000 * fsin ((lit 57 1000 + (lit 84334662 10000 * t)) + ((lit 64 1000000 * t) * t))) / rad).
(** eph/eph0.cpp:574: the literal 1.00273781191135448 as its nearest double *)
Definition gst_rate : f64 := lit 4515929636074283 4503599627370496.
(** eph/eph0.cpp:571-577 *)
Definition pGST (T dt : f64) : f64 :=
  let t := (T + dt) / fZ 36525 in let t2 := t * t in let t3 := t2 * t in let t4 := t3 * t in
  ((pi2 * (lit 7790572732640 10000000000000 + (gst_rate * T))) + (((((lit 14506 1000000 + (lit 461215739966 100000000 * t)) + (lit 139667721 100000000 * t2)) - (lit 9344 100000000 * t3)) + (lit 1882 100000000 * t4)) / rad)).
(** eph/eph0.cpp:585-589 *)
Definition E_v (t : f64) : f64 :=
  let f := (lit 628307585 1000000 * t) in
  ((((lit 628332 1000 + (fZ 21 * fsin (lit 1527 1000 + f))) + (lit 44 100 * fsin (lit 148 100 + (f * fZ 2)))) + ((lit 129 1000 * fsin (lit 582 100 + f)) * t)) + (((lit 55 100000 * fsin (lit 421 100 + f)) * t) * t)).
(** eph/eph0.cpp:591-606 *)
Definition M_v (t : f64) : f64 :=
  let v := (lit 839971 100 - (fZ 914 * fsin ((lit 7848 10000 + (lit 8328691425 1000000 * t)) + ((lit 1523 10000000 * t) * t)))) in
  (v - (((((((((((fZ 179 * fsin (lit 2543 1000 + (lit 155427543 10000 * t))) + (fZ 160 * fsin (lit 1874 10000 + (lit 72140629 10000 * t)))) + (fZ 62 * fsin (lit 314 100 + (lit 166573828 10000 * t)))) + (fZ 34 * fsin (lit 4827 1000 + (lit 168669323 10000 * t)))) + (fZ 22 * fsin (lit 49 10 + (lit 238714457 10000 * t)))) + (fZ 12 * fsin (lit 259 100 + (lit 149144523 10000 * t)))) + (fZ 7 * fsin (lit 23 100 + (lit 65857609 10000 * t)))) + (fZ 5 * fsin (lit 9 10 + (lit 25195624 1000 * t)))) + (fZ 5 * fsin (lit 232 100 - (lit 77003895 10000 * t)))) + (fZ 5 * fsin (lit 388 100 + (lit 89569934 10000 * t)))) + (fZ 5 * fsin (lit 49 100 + (lit 77713771 10000 * t))))).

(** eph/eph_data.h:48 nutB, by rows of five *)
Definition nutB : list (f64 * f64 * f64 * f64 * f64) :=
  [(lit 21824 10000, (fopp (lit 3375705 100000)), lit 36 1000000, (fopp (fZ 1720)), fZ 920);
   (lit 35069 10000, lit 125666393 100000, lit 11 1000000, (fopp (fZ 132)), fZ 57);
   (lit 13375 10000, lit 167994182 10000, (fopp (lit 51 1000000)), (fopp (fZ 23)), fZ 10);
   (lit 43649 10000, (fopp (lit 675141 10000)), lit 72 1000000, fZ 21, (fopp (fZ 9)));
   (lit 4 100, (fopp (lit 628302 1000)), fZ 0, (fopp (fZ 14)), fZ 0);
   (lit 236 100, lit 8328691 1000, fZ 0, fZ 7, fZ 0);
   (lit 346 100, lit 1884966 1000, fZ 0, (fopp (fZ 5)), fZ 2);
   (lit 544 100, lit 16833175 1000, fZ 0, (fopp (fZ 4)), fZ 2);
   (lit 369 100, lit 25128110 1000, fZ 0, (fopp (fZ 3)), fZ 0);
   (lit 355 100, lit 628362 1000, fZ 0, fZ 2, fZ 0)].
(** eph/eph0.cpp:320-329 and 365-373: one round of the loop, number i *)
Definition nut_round (t t2 : f64) (dl_de : f64 * f64) (i : nat) (row : f64 * f64 * f64 * f64 * f64) : f64 * f64 :=
  let '(b0, b1, b2, b3, b4) := row in
  let '(dL, dE) := dl_de in
  let c := b0 + b1 * t + b2 * t2 in
  let a := match i with O => fopp (lit 1742 1000) * t | _ => fZ 0 end in
  (dL + (b3 + a) * fsin c, dE + b4 * fcos c).
Fixpoint nut_loop (t t2 : f64) (i : nat) (rows : list (f64 * f64 * f64 * f64 * f64)) (acc : f64 * f64) : f64 * f64 :=
  match rows with
  | nil => acc
  | row :: rows => nut_loop t t2 (S i) rows (nut_round t t2 acc i row)
  end.
(** eph/eph0.cpp:317-332 *)
Definition nutation2 (t : f64) : f64 * f64 :=
  let t2 := t * t in
  let '(dL, dE) := nut_loop t t2 0 nutB (fZ 0, fZ 0) in
  (dL / fZ 100 / rad, dE / fZ 100 / rad).
(** eph/eph0.cpp:362-374: the same sum for the longitude alone *)
Definition nutationLon2 (t : f64) : f64 :=
  let t2 := t * t in
  let '(dL, _) := nut_loop t t2 0 nutB (fZ 0, fZ 0) in
  dL / fZ 100 / rad.
End Lib.
(** eph/eph0.h:26, the macro cs_sMoon *)
Definition cs_sMoon : f64 := (((lit 2725076 10000000 * lit 63781366 10000) * lit 10000036 10000000) * rad).
(** eph/eph0.cpp:822-825 *)
Definition moonRad (fsin : f64 -> f64) (r h : f64) : f64 := cs_sMoon / r * (fZ 1 + fsin h * lit 63781366 10000 / r).
