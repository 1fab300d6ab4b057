(** Model of the equation of time of low precision, pty_zty2 (eph/eph0.cpp:799-809), and of the local true solar time that
    OBB::mingLiBaZi forms with it (lunar/lunar_ob.cpp:315, 318).
    The mathematical functions of the C library and the array XL0 of the planets' tables are parameters. *)
From Coq Require Import ZArith Bool List.
From Coq Require Import Floats.SpecFloat.
From Verif Require Import F64 AngModel SsqModel DtModel FormModel SmModel StModel.
Import ListNotations.
Open Scope fp_scope.
Open Scope opt_scope.

Section Lib.
Variables fsin fcos ftan fasin : f64 -> f64.
Variable fatan2 : f64 -> f64 -> f64.
Variable XL0 : list (list f64).

(** eph/eph0.cpp:801: the longitude of the mean Sun *)
Definition pt_L (t : f64) : f64 :=
  (fZ 1753470142 + lit 6283319653318 10 * t + lit 529674 100 * t * t) / fZ 1000000000 + dpi.
(** eph/eph0.cpp:803: the obliquity *)
Definition pt_E (t : f64) : f64 := (lit 843814088 10000 - lit 46836051 1000000 * t) / rad.
(** eph/eph0.cpp:799-809 *)
Definition pty_zty2 (t : f64) : option f64 :=
  let L := pt_L t in
  let E := pt_E t in
  let* e := E_Lon fcos XL0 t 5 in
  let '(ra, _) := llr_conv fsin fcos ftan fasin fatan2 (e + dpi) (fZ 0) E in
  let L := rad2rrad_d (L - ra) in
  Some (L / pi2).
(** lunar/lunar_ob.cpp:315, 318: the value that jd gets in line 318 *)
Definition solar_time (jd J : f64) : option f64 :=
  let* dt := dt_T jd in
  let jd2 := jd + dt in
  let* p := pty_zty2 (jd2 / fZ 36525) in
  Some (jd + (p + J / dpi / fZ 2)).
End Lib.
