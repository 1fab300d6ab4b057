(** Model in exact arithmetic, as in GeoModel, of MSC::calc (eph/eph_msc.cpp:59-180): Moon and Sun at one moment, seen from one place.
    Parameters are the functions of time of eph/eph0.cpp and eph/eph.cpp that calc calls: dt_T, nutation2, hcjj, pGST, m_coord and e_coord with
    all their terms, the four corrections for aberration, and moonIll. *)
From Coq Require Import ZArith Reals.
From Verif Require Import GeoModel ObsModel.
Open Scope R_scope.

(** eph/eph0.h:16, 8, 22, 25: the macros rad, cs_rEarA, cs_k and cs_sMoon *)
Definition sec_rad : R := 648000 / PI.
Definition cs_rEarA : R := 0.99834 * cs_rEar.
Definition cs_k : R := 0.2725076.
Definition cs_sMoon : R := cs_k * cs_rEar * 1.0000036 * sec_rad.

(** eph/eph0.cpp:287-290 *)
Definition MQC (h : R) : R := 0.0002967 / tan (h + 0.003138 / (h + 0.08919)).

(** the members of MSC for one body: xHJ, xHW, xR, xCJ, xCW, xShiJ, xCJ2, xCW2, xR2, xDJ, xDW, xPJ, xPW (x = m or s) *)
Record body := mkBody { HJ : R; HW : R; R0 : R; CJ : R; CW : R; ShiJ : R; CJ2 : R; CW2 : R; R2 : R; DJ : R; DW : R; PJ : R; PW : R }.
(** eph/eph_msc.cpp:78-107 (Moon) and 114-145 (Sun), from the apparent ecliptic place z; the two pieces of code are equal *)
Definition observe (E gst L fa high : R) (z : vec) : body :=
  let '(hj, hw, r) := z in
  let '(cj, cw, r1) := llrConv z E in
  let H := rad2mrad (gst + L - cj) in
  let H := if Rlt_dec PI H then H - 2 * PI else H in
  let '(cj2, cw2, r2) := parallax (cj, cw, r1) H fa high in
  let '(a, h, _) := llrConv (cj2 + (PI / 2 - gst - L), cw2, r2) (PI / 2 - fa) in
  let a := rad2mrad (PI / 2 - a) in
  let h' := if Rlt_dec 0 h then h + MQC h else h in
  mkBody hj hw r cj cw H cj2 cw2 r2 a h a h'.

(** the other members of MSC *)
Record msc := mkMsc { v_dt : R; v_jd : R; v_dL : R; v_dE : R; v_E : R; v_gst : R; v_m : body; v_s : body; v_sc : R; v_pty : R; v_zty : R;
  v_mRad : R; v_sRad : R; v_emRad : R; v_eShadow : R; v_eShadow2 : R; v_mIll : R; v_zx : R * R }.

Section Calc.
Variables dt_T hcjj gxc_moonLon gxc_moonLat gxc_sunLon gxc_sunLat moonIll : R -> R.
Variable nutation2 : R -> R * R.
Variable pGST : R -> R -> R.
Variables m_coord e_coord : R -> vec.

(** eph/eph_msc.cpp:75-77 *)
Definition moon_place (T dL : R) : vec :=
  let '(a, b, r) := m_coord T in (rad2mrad (a + gxc_moonLon T + dL), b + gxc_moonLat T, r).
(** eph/eph_msc.cpp:111-113 *)
Definition sun_place (T dL : R) : vec :=
  let '(a, b, r) := e_coord T in (rad2mrad (a + PI + gxc_sunLon T + dL), - b + gxc_sunLat T, r).
(** eph/eph_msc.cpp:149-150 *)
Definition mean_lon (T : R) : R :=
  let t := T / 10 in let t2 := t * t in let t3 := t2 * t in let t4 := t3 * t in let t5 := t4 * t in
  (1753470142 + 6283319653318 * t + 529674 * t2 + 432 * t3 - 1124 * t4 - 9 * t5) / 1000000000 + PI - 20.5 / sec_rad.
(** eph/eph_msc.cpp:151-154 *)
Definition eq_time (T sCJ dL E : R) : R :=
  let Lon := rad2mrad (mean_lon T - (sCJ - dL * cos E)) in
  let Lon := if Rlt_dec PI Lon then Lon - 2 * PI else Lon in
  Lon / (2 * PI).
(** eph/eph_msc.cpp:170-179; lineEar gives 100 for both when there is no point (eph/eph.cpp:326-330) *)
Definition central (m s : body) (gst : R) : R * R :=
  if Rlt_dec (Rabs (rad2rrad (CJ m - CJ s))) (50 / 180 * PI) then
    match lineEar (CJ m, CW m, R0 m) (CJ s, CW s, R0 s * cs_AU) gst cs_ba cs_rEar with
    | Some (_, J, W) => (J, W)
    | None => (100, 100)
    end
  else (100, 100).
(** eph/eph_msc.cpp:59-180 *)
Definition calc (T0 L fa high : R) : msc :=
  let dt := dt_T T0 in
  let jd := T0 - dt in
  let T := T0 / 36525 in
  let '(dL, dE) := nutation2 T in
  let E := hcjj T + dE in
  let gst := pGST jd dt + dL * cos E in
  let m := observe E gst L fa high (moon_place T dL) in
  let s := observe E gst L fa high (sun_place T dL) in
  let sc := eq_time T (CJ s) dL E in
  mkMsc dt jd dL dE E gst m s sc (jd + L / (2 * PI)) (jd + L / (2 * PI) + sc)
    (cs_sMoon / R2 m) (959.63 / R2 s) (cs_sMoon / R0 m)
    ((cs_rEarA / R0 m * sec_rad - (959.63 - 8.794) / R0 s) * 51 / 50)
    ((cs_rEarA / R0 m * sec_rad + (959.63 + 8.794) / R0 s) * 51 / 50)
    (moonIll T) (central m s gst).
End Calc.
