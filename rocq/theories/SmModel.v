(** Longitudes of the Sun and the Moon and the search for the moment of a given longitude (eph/eph0.cpp:551-663), and the
    moments of solar terms and new moons built on it (lunar/lunar_ssq.cpp:202-218, lunar/lunar_ob.cpp:343-353).
    sin and cos of the C library, the array XL1 of the Moon's tables and the array XL0 of the planets' tables are parameters. *)
From Coq Require Import ZArith List.
From Coq Require Import Floats.SpecFloat.
From Verif Require Import F64 AngModel SsqModel SmTab SerModel SerSpec DtModel FormModel.
Import ListNotations.
Open Scope fp_scope.
Open Scope opt_scope.

(** eph/eph_data.h:316-319: a table of the Moon's longitude, six doubles for each term *)
Definition flat6 (l : list wave) : list f64 :=
  flat_map (fun w => [lit (wa w) 100000000; lit (wb w) 100000000000; lit (wd w) 1000000000; lit (we w) 10000000; lit (wf w) 10000; lit (wg w) 1000000]) l.
Definition moon_lon_tables : list (list f64) := map flat6 [ML0; ML1; ML2; ML3].
(** eph/eph_data.h:140-159: the Earth's table; [rest] are the terms of latitude and distance *)
Definition flat3 (l : list wave) : list f64 := flat_map (fun w => [fZ (wa w); lit (wb w) 100000000000; lit (wd w) 1000000000]) l.
Definition earth_table (rest : list f64) : table :=
  {| divisor := fZ 10000000000;
     offsets := [20; 578; 920; 1100; 1124; 1136; 1148; 1217; 1226; 1229; 1229; 1229; 1229; 1937; 2363; 2618; 2633; 2660; 2666]%Z;
     coefs := flat3 EL0 ++ flat3 EL1 ++ flat3 EL2 ++ flat3 EL3 ++ flat3 EL4 ++ flat3 EL5 ++ rest |}.

Section Lib.
Variables fsin fcos : f64 -> f64.
Variable XL1 : list (list (list f64)).
Variable XL0 : list (list f64).
(** eph/eph0.cpp:551-554 *)
Definition gxc_moonLon (t : f64) : f64 := lit (-34) 10000000.
(** eph/eph0.cpp:561-564 *)
Definition E_Lon (t : f64) (n : Z) : option f64 := XL0_calc fcos XL0 0 0 t n.
(** eph/eph0.cpp:566-569 *)
Definition M_Lon (t : f64) (n : Z) : option f64 := XL1_calc fcos XL1 0 t n.
(** eph/eph0.cpp:608-611 *)
Definition MS_aLon (t : f64) (Mn Sn : Z) : option f64 :=
  let* m := M_Lon t Mn in let* e := E_Lon t Sn in
  Some (m + gxc_moonLon t - (e + gxc_sunLon fcos t + dpi)).
(** eph/eph0.cpp:613-616 *)
Definition S_aLon (t : f64) (n : Z) : option f64 :=
  let* e := E_Lon t n in Some (e + nutationLon2 fsin fcos t + gxc_sunLon fcos t + dpi).
(** eph/eph0.cpp:619-629 *)
Definition MS_aLon_t (W : f64) : option f64 :=
  let v := lit 777137714500204 100000000000 in
  let t := (W + lit 108472 100000) / v in
  let* L := MS_aLon t 3 3 in
  let t := t + (W - L) / v in
  let v := M_v fsin t - E_v fsin t in
  let* L := MS_aLon t 20 10 in
  let t := t + (W - L) / v in
  let* L := MS_aLon t (-1) 60 in
  Some (t + (W - L) / v).
(** eph/eph0.cpp:631-640 *)
Definition S_aLon_t (W : f64) : option f64 :=
  let v := lit 6283319653318 10000000000 in
  let t := (W - lit 175347 100000 - dpi) / v in
  let v := E_v fsin t in
  let* L := S_aLon t 10 in
  let t := t + (W - L) / v in
  let v := E_v fsin t in
  let* L := S_aLon t (-1) in
  Some (t + (W - L) / v).
(** eph/eph0.cpp:645-648: the correction of the first guess *)
Definition ms_first (t : f64) : f64 :=
  let t2 := t * t in
  fopp (lit 3309 100000000) * t2 + lit 10976 100000 * fcos (lit 784758 1000000 + lit 83286914246 10000000 * t + lit 152292 1000000000 * t2) +
  lit 2224 100000 * fcos (lit 18740 100000 + lit 72140628654 10000000 * t - lit 21848 100000000 * t2) -
  lit 3342 100000 * fcos (lit 4669257 1000000 + lit 628307585 1000000 * t).
(** eph/eph0.cpp:650-651: the Sun's longitude, short form *)
Definition ms_sun (t : f64) : f64 :=
  lit 48950632 10000000 + lit 6283319653318 10000000000 * t + lit 5297 1000000000 * t * t + lit 334166 10000000 * fcos (lit 4669257 1000000 + lit 628307585 1000000 * t) +
  lit 2061 10000000 * fcos (lit 267823 100000 + lit 628307585 1000000 * t) * t + lit 349 1000000 * fcos (lit 46261 10000 + lit 125661517 100000 * t) - lit 205 10 / rad.
(** eph/eph0.cpp:652 *)
Definition ms_speed (t : f64) : f64 :=
  lit 777138 100 - fZ 914 * fsin (lit 7848 10000 + lit 8328691425 1000000 * t + lit 1523 10000000 * t * t) - fZ 179 * fsin (lit 2543 1000 + lit 155427543 10000 * t) -
  fZ 160 * fsin (lit 1874 10000 + lit 72140629 10000 * t).
(** eph/eph0.cpp:641-655 *)
Definition MS_aLon_t2 (W : f64) : option f64 :=
  let v := lit 777137714500204 100000000000 in
  let t := (W + lit 108472 100000) / v in
  let t := t - ms_first t / v in
  let* m := M_Lon t 20 in
  let L := m - ms_sun t in
  Some (t + (W - L) / ms_speed t).
(** eph/eph0.cpp:656-663 *)
Definition S_aLon_t2 (W : f64) : option f64 :=
  let v := lit 6283319653318 10000000000 in
  let t := (W - lit 175347 100000 - dpi) / v in
  let t := t - (lit 5297 1000000000 * t * t + lit 334166 10000000 * fcos (lit 4669257 1000000 + lit 628307585 1000000 * t) +
                lit 2061 10000000 * fcos (lit 267823 100000 + lit 628307585 1000000 * t) * t) / v in
  let* e := E_Lon t 8 in
  Some (t + (W - e - dpi + (lit 205 10 + lit 172 10 * fsin (lit 21824 10000 - lit 3375705 100000 * t)) / rad) / v).
(** lunar/lunar_ob.cpp:343-353: days from J2000 noon, in Beijing time *)
Definition qi_accurate (W : f64) : option f64 :=
  let* t := S_aLon_t W in let t := t * fZ 36525 in let* d := dt_T t in Some (t - d + fZ 8 / fZ 24).
Definition so_accurate (W : f64) : option f64 :=
  let* t := MS_aLon_t W in let t := t * fZ 36525 in let* d := dt_T t in Some (t - d + fZ 8 / fZ 24).
(** lunar/lunar_ssq.cpp:202-218: the quick moment, replaced by the accurate one when it is close to midnight *)
Definition high (quick accurate : option f64) (margin : Z) : option f64 :=
  let* q := quick in let t := q * fZ 36525 in let* d := dt_T t in
  let t := t - d + fZ 8 / fZ 24 in
  let v := dfmod (t + lit 5 10) (fZ 1) * fZ 86400 in
  if (fltb v (fZ margin) || fgtb v (fZ (86400 - margin)))%bool then
    let* a := accurate in let* d := dt_T t in Some (a * fZ 36525 - d + fZ 8 / fZ 24)
  else Some t.
(** lunar/lunar_ssq.cpp:202-209 *)
Definition qi_high (W : f64) : option f64 := high (S_aLon_t2 W) (S_aLon_t W) 1200.
(** lunar/lunar_ssq.cpp:211-218 *)
Definition so_high (W : f64) : option f64 := high (MS_aLon_t2 W) (MS_aLon_t W) 1800.
End Lib.
