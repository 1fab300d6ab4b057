(** Model in exact arithmetic, as in GeoModel, of the rising, transit and setting of the Moon (eph/eph_szj.cpp, SZJ::Mt).
    The position of the Moon, the sidereal time, TD-UT and the obliquity are parameters. *)
From Coq Require Import ZArith Reals.
From Flocq Require Import Core.Raux.
From Verif Require Import GeoModel ObsModel SjModel.
Open Scope R_scope.

(** eph/eph_szj.cpp:14-23 *)
Definition mn_mod2 (a b : R) : R :=
  let c := a / b in
  let c := c - IZR (Zfloor c) in
  let c := if Rlt_dec 0.5 c then c - 1 else c in
  c * b.
(** eph/eph_szj.cpp:25-31; cos(fa) and cos(w) are not 0 *)
Definition mn_getH (fa h w : R) : R :=
  let c := (sin h - sin fa * sin w) / cos fa / cos w in
  if Rlt_dec 1 (Rabs c) then PI else acos c.
(** eph/eph_szj.cpp:33-40: (H, H0); [m_coord] is m_coord(t, 40, 30, 8).  H0 is computed always; Mt does not use it where the code
    leaves it out *)
Definition Mcoord (m_coord : R -> vec) (pGST : R -> R -> R) (L fa E dt jd : R) : R * R :=
  let '(ra, de, r) := llrConv (m_coord ((jd + dt) / 36525)) E in
  (rad2rrad (pGST jd dt + L - ra), mn_getH fa (0.7275 * cs_rEar / r - 34 * 60 / sj_rad) de).
(** eph/eph_szj.cpp:46: the mean hour angle of the Moon in turns *)
Definition mn_phase (L dt jd : R) : R := 0.1726222 + 0.966136808032357 * jd - 0.0366 * dt + L / (2 * PI).
(** eph/eph_szj.cpp:42-66: rise s, set j, upper transit z and lower transit x *)
Record mn_day := { mn_s : R; mn_j : R; mn_z : R; mn_x : R }.
Definition Mt (m_coord : R -> vec) (pGST : R -> R -> R) (dt_T hcjj : R -> R) (L fa jd : R) : mn_day :=
  let dt := dt_T jd in
  let E := hcjj (jd / 36525) in
  let jd := jd - mn_mod2 (mn_phase L dt jd) 1 in
  let sv := 2 * PI * 0.966 in
  let coord := Mcoord m_coord pGST L fa E dt in
  let '(H, H0) := coord jd in
  let s := jd + (- H0 - H) / sv in
  let j := jd + (H0 - H) / sv in
  let z := jd + (0 - H) / sv in
  let x := jd + (PI - H) / sv in
  {| mn_s := (let '(H, H0) := coord s in s + rad2rrad (- H0 - H) / sv);
     mn_j := (let '(H, H0) := coord j in j + rad2rrad (H0 - H) / sv);
     mn_z := (let '(H, _) := coord z in z + rad2rrad (0 - H) / sv);
     mn_x := (let '(H, _) := coord x in x + rad2rrad (PI - H) / sv) |}.
