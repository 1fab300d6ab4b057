(** Model of the equation of time of high precision, pty_zty (eph/eph0.cpp:778-797), and of the yearly table that
    shengjiang3 prints with it (eph/eph_show.cpp:284-300; the texts of the rows are not modelled).
    The mathematical functions of the C library and the array XL0 of the planets' tables are parameters. *)
From Coq Require Import ZArith Bool List.
From Coq Require Import Floats.SpecFloat.
From Verif Require Import F64 CalModel AngModel SsqModel DtModel FormModel SmModel StModel.
Import ListNotations.
Open Scope fp_scope.
Open Scope opt_scope.

Section Lib.
Variables fsin fcos ftan fasin : f64 -> f64.
Variable fatan2 : f64 -> f64 -> f64.
Variable XL0 : list (list f64).

(** eph/eph0.cpp:780-781: the longitude of the mean Sun, with aberration *)
Definition et_L (t : f64) : f64 :=
  let t2 := t * t in let t3 := t2 * t in let t4 := t3 * t in let t5 := t4 * t in
  (fZ 1753470142 + lit 6283319653318 10 * t + lit 529674 100 * t2 + lit 432 1000 * t3 - lit 1124 10000 * t4 - lit 9 100000 * t5) / fZ 1000000000 + dpi - lit 205 10 / rad.
(** eph/eph0.cpp:785: nutation in longitude *)
Definition et_dL (t : f64) : f64 := fopp (lit 172 10) * fsin (lit 21824 10000 - lit 3375705 100000 * t) / rad.
(** eph/eph0.cpp:786: nutation in obliquity *)
Definition et_dE (t : f64) : f64 := lit 92 10 * fcos (lit 21824 10000 - lit 3375705 100000 * t) / rad.
(** eph/eph0.cpp:787: the true obliquity *)
Definition et_E (t : f64) : f64 := hcjj t + et_dE t.
(** eph/eph0.cpp:791: the Sun's latitude *)
Definition et_W (t : f64) : f64 :=
  fopp (fZ 2796 * fcos (lit 31987 10000 + lit 843346616 100000 * t) + fZ 1016 * fcos (lit 54225 10000 + lit 55075532 100000 * t) + fZ 804 * fcos (lit 388 100 + lit 5223694 10000 * t)) / fZ 1000000000.
(** eph/eph0.cpp:778-797 *)
Definition pty_zty (t : f64) : option f64 :=
  let L := et_L t in
  let dL := et_dL t in
  let E := et_E t in
  let* e := E_Lon fcos XL0 t 50 in
  let '(ra, _) := llr_conv fsin fcos ftan fasin fatan2 (e + dpi + gxc_sunLon fcos t + dL) (et_W t) E in
  let ra := ra - dL * fcos E in
  let L := rad2rrad_d (L - ra) in
  Some (L / pi2).
(** eph/eph_show.cpp:293: the moment of row i of the table, days UT from J2000; jd is the value of toJD *)
Definition row_moment (jd : f64) (i : Z) : f64 := jd + fZ i - fZ 8 / fZ 24 - fZ 2451545.
(** eph/eph_show.cpp:293-294: the equation of time of row i, in days *)
Definition row_value (jd : f64) (i : Z) : option f64 :=
  let D := row_moment jd i in
  let* dt := dt_T D in
  pty_zty ((D + dt) / fZ 36525).
(** eph/eph_show.cpp:284-296: the numbers of the table of year y, one per row ([None]: dt_T or the series had no value) *)
Definition shengjiang3 (y : Z) : option (list (option f64)) :=
  let* jd := toJD (mkDate y 1 1 12 0 (fZ 0)) in
  Some (map (fun i => row_value jd (Z.of_nat i)) (seq 0 368)).
End Lib.
