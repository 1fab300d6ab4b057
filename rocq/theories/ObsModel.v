(** Model in exact arithmetic, as in GeoModel, of the place of the observer (eph/eph0.cpp) and of the contacts of a lunar eclipse (eph/eph_yspl.cpp). *)
From Coq Require Import ZArith Reals.
From Verif Require Import GeoModel.
Open Scope R_scope.

(** eph/eph0.h:7 *)
Definition cs_rEar : R := 6378.1366.
(** eph/eph0.h:9 *)
Definition cs_ba : R := 0.99664719.
(** eph/eph0.h:11 *)
Definition cs_AU : R := 149597870.691.

(** eph/eph0.cpp:135-141 *)
Definition shiChaJ (gst L fa J W : R) : R :=
  let H := gst + L - J in
  rad2mrad (atan2 (sin H) (tan fa * cos W - sin W * cos H)).

(** eph/eph0.cpp:297-315 *)
Definition parallax (z : vec) (H fa high : R) : vec :=
  let '(J, W, r) := z in
  let dw := if Rlt_dec r 500 then cs_AU else 1 in
  let r := r * dw in
  let f := cs_ba in
  let u := atan (f * tan fa) in
  let g := J + H in
  let r0 := cs_rEar * cos u + high * cos fa in
  let z0 := cs_rEar * sin u * f + high * sin fa in
  let x0 := r0 * cos g in
  let y0 := r0 * sin g in
  let '(s0, s1, s2) := llr2xyz (J, W, r) in
  let '(a, b, c) := xyz2llr (s0 - x0, s1 - y0, s2 - z0) in
  (a, b, c / dw).

(** eph/eph_yspl.h RE0, the fields that lecMax reads: time, place of the moon relative to the shadow, radius of the moon, of the umbra and of the penumbra *)
Record re0 := mkRe { re_t : R; re_x : R; re_y : R; re_mr : R; re_er : R; re_Er : R }.
(** eph/eph_yspl.cpp:9-15; without a root the function returns 0 *)
Definition lineT0 (G : re0) (v u r : R) (n : bool) : R :=
  match lineT (re_t G) (re_x G) (re_y G) v u r n with Some s => s | None => 0 end.
(** YS_PL::LX: the empty string, "偏" and "全" *)
Inductive lec_kind := lec_none | lec_partial | lec_total.
(** YS_PL::lT, YS_PL::sf and YS_PL::LX *)
Record lec := mkLec { l_kind : lec_kind; l_sf : R; l_T : nat -> R }.
(** the three lines of each contact in eph/eph_yspl.cpp:77-101: an estimate from the place G, repeated once from the place at the estimate; rd is the
    sum or difference of radii *)
Definition again (XY : R -> re0) (G : re0) (v u : R) (rd : re0 -> R) (n : bool) : R :=
  let g := XY (lineT0 G v u (rd G) n) in lineT0 g v u (rd g) n.
(** lT[i] = x *)
Definition upd (T : nat -> R) (i : nat) (x : R) : nat -> R := fun k => if Nat.eqb k i then x else T k.
(** eph/eph_yspl.cpp:42-103.  Parameters: [XY] is lecXY (17-40), [jd] the value of line 50 (the full moon by the short series of MS_aLon_t2), [v0] the
    value of line 57 (the difference of the speeds in longitude by M_v and E_v), [u0] that of line 56. *)
Definition lecMax (XY : R -> re0) (u0 v0 jd : R) : lec :=
  let G := XY jd in
  let jd := jd - (re_y G * u0 + re_x G * v0) / (u0 * u0 + v0 * v0) in
  let dt := 60 / 86400 in
  let G := XY jd in
  let g := XY (jd + dt) in
  let u := (re_y g - re_y G) / dt in
  let v := (re_x g - re_x G) / dt in
  let dt := - (re_y G * u + re_x G * v) / (u * u + v * v) in
  let jd := jd + dt in
  let x := re_x G + dt * v in
  let y := re_y G + dt * u in
  let rmin := sqrt (x * x + y * y) in
  let rU g := re_mr g + re_er g in
  let rP g := re_mr g + re_Er g in
  let rT g := re_er g - re_mr g in
  let l := mkLec lec_none 0 (fun _ => 0) in
  let l :=
    if Rle_dec rmin (re_mr G + re_er G) then
      mkLec lec_partial ((re_mr G + re_er G - rmin) / re_mr G / 2)
        (upd (upd (upd (l_T l) 1 jd) 0 (again XY G v u rU false)) 2 (again XY G v u rU true))
    else l in
  let l :=
    if Rle_dec rmin (re_mr G + re_Er G) then
      mkLec (l_kind l) (l_sf l) (upd (upd (l_T l) 3 (again XY G v u rP false)) 4 (again XY G v u rP true))
    else l in
  if Rle_dec rmin (re_er G - re_mr G) then
    mkLec lec_total (l_sf l) (upd (upd (l_T l) 5 (again XY G v u rT false)) 6 (again XY G v u rT true))
  else l.
