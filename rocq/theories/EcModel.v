(** ecFast of eph/eph.cpp: the quick search for solar eclipses.  sin and cos of the C library are parameters. *)
From Coq Require Import String ZArith List Bool.
From Coq Require Import Floats.SpecFloat.
From Verif Require Import F64 F64S AngModel FormModel.
Open Scope fp_scope.

Section Lib.
Variables fsin fcos : f64 -> f64.
(** eph/eph.cpp:386, the floor *)
Definition ec_num (jd : f64) : f64 :=
  ffloor (((jd + fZ 8) / lit 295306 10000)).
(** eph/eph.cpp:386 *)
Definition ec_W (n : f64) : f64 :=
  n * dpi * fZ 2.
(** eph/eph.cpp:389 *)
Definition ec_mean (W : f64) : f64 :=
  ((W + lit 108472 100000) / lit 777137714500204 100000000000).
(** eph/eph.cpp:392-393 *)
Definition ec_F (t : f64) : f64 :=
  let t2 := t * t in let t3 := t2 * t in let t4 := t3 * t in
  ((((((lit 932720993 10000000 + (lit 4832020175273 10000000 * t)) - (lit 34029 10000000 * t2)) - (t3 / fZ 3526000)) + (t4 / fZ 863310000)) / fZ 180) * dpi).
(** eph/eph.cpp:397 *)
Definition ec_step (t : f64) : f64 :=
  t - (((((fopp (lit 331 10000000)) * t) * t) + (lit 10976 100000 * fcos (lit 785 1000 + (lit 83286914 10000 * t)))) / fZ 7771).
(** eph/eph.cpp:398-421 *)
Definition ec_lon (t : f64) : f64 :=
  let t2 := t * t in 
  ((((fopp (lit 1084719 1000000)) + (lit 7771377145013 1000000000 * t)) - (lit 331 10000000 * t2)) + (((((((((((((((((((((((fZ 22640 * fcos ((lit 785 1000 + (lit 83286914 10000 * t)) + (lit 152 1000000 * t2))) + (fZ 4586 * fcos ((lit 19 100 + (lit 7214063 1000 * t)) - (lit 218 1000000 * t2)))) + (fZ 2370 * fcos ((lit 254 100 + (lit 15542754 1000 * t)) - (lit 70 1000000 * t2)))) + (fZ 769 * fcos (lit 31 10 + (lit 16657383 1000 * t)))) + (fZ 666 * fcos (lit 15 10 + (lit 628302 1000 * t)))) + (fZ 412 * fcos (lit 48 10 + (lit 1686693 100 * t)))) + (fZ 212 * fcos (lit 41 10 - (lit 111463 100 * t)))) + (fZ 205 * fcos (lit 2 10 + (lit 658576 100 * t)))) + (fZ 192 * fcos (lit 49 10 + (lit 2387145 100 * t)))) + (fZ 165 * fcos (lit 26 10 + (lit 1491445 100 * t)))) + (fZ 147 * fcos (lit 55 10 - (lit 770039 100 * t)))) + (fZ 125 * fcos (lit 5 10 + (lit 777138 100 * t)))) + (fZ 109 * fcos (lit 39 10 + (lit 895699 100 * t)))) + (fZ 55 * fcos (lit 56 10 - (lit 132418 100 * t)))) + (fZ 45 * fcos (lit 9 10 + (lit 2519562 100 * t)))) + (fZ 40 * fcos (lit 38 10 - (lit 853824 100 * t)))) + (fZ 38 * fcos (lit 43 10 + (lit 2275682 100 * t)))) + (fZ 36 * fcos (lit 55 10 + (lit 2498607 100 * t)))) - (fZ 6893 * fcos (lit 4669257 1000000 + (lit 6283076 10000 * t)))) - (fZ 72 * fcos (lit 46261 10000 + (lit 125662 100 * t)))) - ((fZ 43 * fcos (lit 267823 100000 + (lit 62831 100 * t))) * t)) + fZ 21) / rad)).
(** eph/eph.cpp:422-425, the divisor *)
Definition ec_den (t : f64) : f64 :=
  let t2 := t * t in 
  (((lit 777138 100 - (fZ 914 * fsin ((lit 7848 10000 + (lit 8328691425 1000000 * t)) + (lit 1523 10000000 * t2)))) - (fZ 179 * fsin (lit 2543 1000 + (lit 155427543 10000 * t)))) - (fZ 160 * fsin (lit 1874 10000 + (lit 72140629 10000 * t)))).
(** eph/eph.cpp:422-425 *)
Definition ec_new (t W : f64) : f64 :=
  t + (W - ec_lon t) / ec_den t.
(** eph/eph.cpp:429-451 *)
Definition ec_mB (t : f64) : f64 :=
  let t2 := t * t / fZ 10000 in let t3 := t2 * t / fZ 10000 in
  ((((((((((((((((((((fZ 18461 * fcos (((lit 571 10000 + (lit 843346616 100000 * t)) - (lit 640 1000 * t2)) - (fZ 1 * t3))) + (fZ 1010 * fcos (((lit 2413 1000 + (lit 167621576 10000 * t)) + (lit 88 100 * t2)) + (fZ 25 * t3)))) + (fZ 1000 * fcos (((lit 5440 1000 - (lit 1047747 10000 * t)) + (lit 216 100 * t2)) + (fZ 26 * t3)))) + (fZ 624 * fcos (((lit 915 1000 + (lit 71092881 10000 * t)) + (fZ 0 * t2)) + (fZ 7 * t3)))) + (fZ 199 * fcos (((lit 182 100 + (lit 15647529 1000 * t)) - (lit 28 10 * t2)) - (fZ 19 * t3)))) + (fZ 167 * fcos (((lit 484 100 - (lit 1219403 1000 * t)) - (lit 15 10 * t2)) - (fZ 18 * t3)))) + (fZ 117 * fcos (((lit 417 100 + (lit 23976220 1000 * t)) - (lit 13 10 * t2)) + (fZ 6 * t3)))) + (fZ 62 * fcos (((lit 48 10 + (lit 25090849 1000 * t)) + (fZ 2 * t2)) + (fZ 50 * t3)))) + (fZ 33 * fcos (((lit 33 10 + (lit 15437980 1000 * t)) + (fZ 2 * t2)) + (fZ 32 * t3)))) + (fZ 32 * fcos (((lit 15 10 + (lit 8223917 1000 * t)) + (fZ 4 * t2)) + (fZ 51 * t3)))) + (fZ 30 * fcos (((lit 10 10 + (lit 6480986 1000 * t)) + (fZ 0 * t2)) + (fZ 7 * t3)))) + (fZ 16 * fcos (((lit 25 10 - (lit 9548095 1000 * t)) - (fZ 3 * t2)) - (fZ 43 * t3)))) + (fZ 15 * fcos (((lit 2 10 + (lit 32304912 1000 * t)) + (fZ 0 * t2)) + (fZ 31 * t3)))) + (fZ 12 * fcos (lit 40 10 + (lit 7737590 1000 * t)))) + (fZ 9 * fcos (lit 19 10 + (lit 15019227 1000 * t)))) + (fZ 8 * fcos (lit 54 10 + (lit 8399709 1000 * t)))) + (fZ 8 * fcos (lit 42 10 + (lit 23347918 1000 * t)))) + (fZ 7 * fcos (lit 49 10 - (lit 1847705 1000 * t)))) + (fZ 7 * fcos (lit 38 10 - (lit 16133856 1000 * t)))) + (fZ 7 * fcos (lit 27 10 + (lit 14323351 1000 * t)))) / rad.
(** eph/eph.cpp:454-474 *)
Definition ec_mR (t : f64) : f64 :=
  let t2 := t * t / fZ 10000 in let t3 := t2 * t / fZ 10000 in
  (((((((((((((((((((fZ 385001 + (fZ 20905 * fcos (((lit 54971 10000 + (lit 8328691425 1000000 * t)) + (lit 152 100 * t2)) + (fZ 25 * t3)))) + (fZ 3699 * fcos (((lit 4900 1000 + (lit 721406287 100000 * t)) - (lit 218 100 * t2)) - (fZ 19 * t3)))) + (fZ 2956 * fcos (((lit 972 1000 + (lit 1554275429 100000 * t)) - (lit 66 100 * t2)) + (fZ 6 * t3)))) + (fZ 570 * fcos (((lit 157 100 + (lit 166573828 10000 * t)) + (lit 30 10 * t2)) + (fZ 50 * t3)))) + (fZ 246 * fcos (((lit 569 100 - (lit 11146286 10000 * t)) - (lit 37 10 * t2)) - (fZ 44 * t3)))) + (fZ 205 * fcos (((lit 102 100 + (lit 149144523 10000 * t)) - (fZ 1 * t2)) + (fZ 6 * t3)))) + (fZ 171 * fcos (((lit 333 100 + (lit 238714457 10000 * t)) + (fZ 1 * t2)) + (fZ 31 * t3)))) + (fZ 152 * fcos (((lit 494 100 + (lit 6585761 1000 * t)) - (fZ 2 * t2)) - (fZ 19 * t3)))) + (fZ 130 * fcos (((lit 74 100 - (lit 7700389 1000 * t)) - (fZ 2 * t2)) - (fZ 25 * t3)))) + (fZ 109 * fcos (lit 520 100 + (lit 7771377 1000 * t)))) + (fZ 105 * fcos (((lit 231 100 + (lit 8956993 1000 * t)) + (fZ 1 * t2)) + (fZ 25 * t3)))) + (fZ 80 * fcos (((lit 538 100 - (lit 8538241 1000 * t)) + (lit 28 10 * t2)) + (fZ 26 * t3)))) + (fZ 49 * fcos (lit 624 100 + (lit 628302 1000 * t)))) + (fZ 35 * fcos (((lit 27 10 + (lit 22756817 1000 * t)) - (fZ 3 * t2)) - (fZ 13 * t3)))) + (fZ 31 * fcos (((lit 41 10 + (lit 16171056 1000 * t)) - (fZ 1 * t2)) + (fZ 6 * t3)))) + (fZ 24 * fcos (((lit 17 10 + (lit 7842365 1000 * t)) - (fZ 2 * t2)) - (fZ 19 * t3)))) + (fZ 23 * fcos (((lit 39 10 + (lit 24986074 1000 * t)) + (fZ 5 * t2)) + (fZ 75 * t3)))) + (fZ 22 * fcos (((lit 4 10 + (lit 14428126 1000 * t)) - (fZ 4 * t2)) - (fZ 38 * t3)))) + (fZ 17 * fcos (lit 20 10 + (lit 8399679 1000 * t)))) / lit 63781366 10000.
(** eph/eph.cpp:476-485 *)
Definition ec_sR (jd : f64) : f64 :=
  let t := jd / fZ 365250 in let t2 := t * t in let t3 := t2 * t in
  ((((((fZ 10001399 + (fZ 167070 * fcos (lit 3098464 1000000 + (lit 628307585 100000 * t)))) + (fZ 1396 * fcos (lit 30552 10000 + (lit 125661517 10000 * t)))) + ((fZ 10302 * fcos (lit 110749 100000 + (lit 628307585 100000 * t))) * t)) + ((fZ 172 * fcos (lit 1064 1000 + (lit 12566152 1000 * t))) * t)) + ((fZ 436 * fcos (lit 5785 1000 + (lit 6283076 1000 * t))) * t2)) + ((fZ 14 * fcos (lit 427 100 + (lit 628308 100 * t))) * t3)) * ((lit 149597870691 100000000000 / lit 63781366 10000) * fZ 10).
(** eph/eph.cpp:488, 489, 498 *)
Definition ec_vL (jd : f64) : f64 :=
  let t := jd / fZ 36525 in
  (((fZ 7771 - (fZ 914 * fsin (lit 785 1000 + (lit 83286914 10000 * t)))) - (fZ 179 * fsin (lit 2543 1000 + (lit 155427543 10000 * t)))) - (fZ 160 * fsin (lit 187 1000 + (lit 72140629 10000 * t)))) / fZ 36525.
(** eph/eph.cpp:488, 493, 498 *)
Definition ec_vB (jd : f64) : f64 :=
  let t := jd / fZ 36525 in
  (((fopp (fZ 755)) * fsin (lit 57 1000 + (lit 84334662 10000 * t))) - (fZ 82 * fsin (lit 2413 1000 + (lit 167621576 10000 * t)))) / fZ 36525.
(** eph/eph.cpp:488, 495, 498 *)
Definition ec_vR (jd : f64) : f64 :=
  let t := jd / fZ 36525 in
  ((((fopp (fZ 27299)) * fsin (lit 5497 1000 + (lit 8328691425 1000000 * t))) - (fZ 4184 * fsin (lit 4900 1000 + (lit 721406287 100000 * t)))) - (fZ 7204 * fsin (lit 972 1000 + (lit 1554275429 100000 * t)))) / fZ 36525.
(** eph/eph.cpp:501 *)
Definition ec_gm (mR mB vL vB : f64) : f64 :=
  (((mR * fsin mB) * vL) / fsqrt ((vB * vB) + (vL * vL))).
End Lib.
(** eph/eph.cpp:502-505: the constants, radii and the vertex of the umbra *)
Definition mk : f64 := lit 2725076 10000000.
Definition sk : f64 := lit 1091222 10000.
Definition bb : f64 := lit 9972 10000.
Definition ec_r1 (mR sR : f64) : f64 := let smR := sR - mR in let f1 := (sk + mk) / smR in mk + f1 * mR.
Definition ec_f2 (mR sR : f64) : f64 := let smR := sR - mR in (sk - mk) / smR.
Definition ec_r2 (mR sR : f64) : f64 := mk - ec_f2 mR sR * mR.
(** eph/eph.cpp:506 *)
Definition ec_fh2 (mR sR : f64) : f64 := mR - mk / ec_f2 mR sR.
Definition ec_h (gm : f64) : f64 := if fltb (ffabs gm) (fZ 1) then fsqrt (fZ 1 - gm * gm) else fZ 0.
(** eph/eph.cpp:524-526 *)
Definition ec_dr (vR h vL mR : f64) : f64 := vR * h / vL / mR.
Definition ec_H1 (mR sR dr : f64) : f64 := mR - dr - mk / ec_f2 mR sR.
Definition ec_H2 (mR sR dr : f64) : f64 := mR + dr - mk / ec_f2 mR sR.

(** eph/eph.h:41-46; jd and jdSuo are always the same here *)
Record ecfast : Set := mkEc { ec_jd : f64; ec_ac : bool; ec_lx : string }.
(** eph/eph.cpp:509-534: the kind, and whether it is certain *)
Definition ec_kind (gm r1 r2 fh2 h H1 H2 : f64) : bool * string :=
  let Agm := ffabs gm in let Ar2 := ffabs r2 in
  let lx := (if fltb fh2 h then "T" else "A")%string in
  let ls1 := Agm - (bb + r1) in let ac := negb (fltb (ffabs ls1) (lit 16 1000)) in
  let ls2 := Agm - (bb + Ar2) in let ac := if fltb (ffabs ls2) (lit 16 1000) then false else ac in
  let ls3 := Agm - bb in let ac := if fltb (ffabs ls3) (lit 16 1000) then false else ac in
  let ls4 := Agm - (bb - Ar2) in let ac := if fltb (ffabs ls4) (lit 16 1000) then false else ac in
  if fgtb ls1 (fZ 0) then (ac, "N"%string)
  else if fgtb ls2 (fZ 0) then (ac, "P"%string)
  else if fgtb ls3 (fZ 0) then (ac, lx ++ "0")%string
  else if fgtb ls4 (fZ 0) then (ac, lx ++ "1")%string
  else
    let ac := if fltb (ffabs (fh2 - h)) (lit 19 1000) then false else ac in
    if fltb (ffabs fh2) h then
      let lx := if fgtb H1 (fZ 0) then "H3"%string else lx in
      let lx := if fgtb H2 (fZ 0) then "H2"%string else lx in
      let lx := if fgtb H1 (fZ 0) && fgtb H2 (fZ 0) then "H"%string else lx in
      let ac := if fltb (ffabs H1) (lit 19 1000) then false else ac in
      let ac := if fltb (ffabs H2) (lit 19 1000) then false else ac in
      (ac, lx)
    else (ac, lx).
(** eph/eph.cpp:381-535 *)
Definition ecFast (fsin fcos : f64 -> f64) (jd : f64) : ecfast :=
  let W := ec_W (ec_num jd) in
  let t := ec_mean W in
  if fgtb (ffabs (fsin (ec_F t))) (lit 4 10) then mkEc (t * fZ 36525) true "N"%string
  else
    let t := ec_new fsin fcos (ec_step fcos t) W in
    let jd := t * fZ 36525 in
    let mB := ec_mB fcos t in let mR := ec_mR fcos t in let sR := ec_sR fcos jd in
    let vL := ec_vL fsin jd in let vB := ec_vB fsin jd in let vR := ec_vR fsin jd in
    let gm := ec_gm fsin mR mB vL vB in
    let h := ec_h gm in
    let dr := ec_dr vR h vL mR in
    let '(ac, lx) := ec_kind gm (ec_r1 mR sR) (ec_r2 mR sR) (ec_fh2 mR sR) h (ec_H1 mR sR dr) (ec_H2 mR sR dr) in
    mkEc jd ac lx.
