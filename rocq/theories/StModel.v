(** Model of the times of sunrise, sunset, twilight and the transits of the Sun, SZJ::St (eph/eph_szj.cpp:14-31, 68-144).
    The mathematical functions of the C library and the array XL0 of the planets' tables are parameters. *)
From Coq Require Import ZArith Bool List Ascii String.
From Coq Require Import Floats.SpecFloat.
From Verif Require Import F64 Str AngModel SsqModel DtModel FormModel SmModel.
Import ListNotations.
Open Scope list_scope.
Open Scope fp_scope.
Open Scope opt_scope.

(** eph/eph_szj.cpp:14-23 *)
Definition mod2 (a b : f64) : f64 :=
  let c := a / b in
  let c := c - ffloor c in
  let c := if fgtb c (lit 5 10) then c - fZ 1 else c in
  c * b.

Section Lib.
Variables fsin fcos ftan fasin facos : f64 -> f64.
Variable fatan2 : f64 -> f64 -> f64.
Variable XL0 : list (list f64).

(** eph/eph0.cpp:93-104: longitude and latitude; the distance is passed on unchanged and not used by Scoord *)
Definition llr_conv (J W E : f64) : f64 * f64 :=
  (rad2mrad_d (fatan2 (fsin J * fcos E - ftan W * fsin E) (fcos J)),
   fasin (fcos E * fsin W + fsin E * fcos W * fsin J)).

Section Station.
(** SZJ::L and SZJ::fa, set by the caller; SZJ::E and SZJ::dt, set by St (eph/eph_szj.cpp:7-10) *)
Variables L fa E dt : f64.
(** eph/eph_szj.cpp:25-31 *)
Definition getH (h w : f64) : f64 :=
  let c := (fsin h - fsin fa * fsin w) / fcos fa / fcos w in
  if fgtb (SFabs c) (fZ 1) then dpi else facos c.
(** eph/eph_szj.cpp:68-72: the hour angle H and the declination z[1] *)
Definition Scoord (jd : f64) : option (f64 * f64) :=
  let* e := E_Lon fcos XL0 ((jd + dt) / fZ 36525) 5 in
  let '(ra, de) := llr_conv (e + dpi - lit 205 10 / rad) (fZ 0) E in
  Some (rad2rrad_d (pGST jd dt + L - ra), de).
(** eph/eph_szj.cpp:74-81: the arguments of getH for H1, H2, H3 and H4; the products are of int *)
Definition depth (xm : nat) : f64 :=
  match xm with 1%nat => fZ (-3000) / rad | 2%nat => fZ (-21600) / rad | 3%nat => fZ (-43200) / rad | _ => fZ (-64800) / rad end.
Definition Hxm (xm : nat) (de : f64) : f64 := getH (depth xm) de.
(** eph/eph_szj.cpp:105-106 (109-110, ...): [Scoord(r.s, 1, r); r.s += rad2rrad(-r.H1 - r.H) / sv], and whether r.H1 == M_PI;
    [up] for the sign minus *)
Definition refine (up : bool) (xm : nat) (s : f64) : option (f64 * bool) :=
  let* (H, de) := Scoord s in
  let H1 := Hxm xm de in
  Some (s + rad2rrad_d ((if up then fopp H1 else H1) - H) / pi2, feqb H1 dpi).
(** eph/eph_szj.cpp:94-101 *)
Definition first_guess (up : bool) (xm : nat) (H de jd : f64) : f64 :=
  let H1 := Hxm xm de in jd + ((if up then fopp H1 else H1) - H) / pi2.
End Station.

(** eph/eph_szj.h:4-23: the members that St returns for the caller: ten moments and the text *)
Record day := mkDay { d_z : f64; d_x : f64; d_s : f64; d_j : f64; d_c : f64; d_h : f64; d_c2 : f64; d_h2 : f64; d_c3 : f64; d_h3 : f64; d_sm : bytes }.
(** eph/eph_szj.cpp:107-108 (111-112, ...) *)
Definition note (b : bool) (s : bytes) : bytes := if b then s else [].
(** eph/eph_szj.cpp:87: the noon nearest to jd *)
Definition local_noon (L jd : f64) : f64 := jd - mod2 (jd + L / pi2) (fZ 1).
(** eph/eph_szj.cpp:83-144 *)
Definition St (L fa jd : f64) : option day :=
  let* dt := dt_T jd in
  let E := hcjj (jd / fZ 36525) in
  let jd := local_noon L jd in
  let* (H, de) := Scoord L E dt jd in
  let g up xm := first_guess fa up xm H de jd in
  let rf up xm := refine L fa E dt up xm (g up xm) in
  let* (s, ns) := rf true 1%nat in
  let* (j, nj) := rf false 1%nat in
  let* (c, nc) := rf true 2%nat in
  let* (h, nh) := rf false 2%nat in
  let* (c2, nc2) := rf true 3%nat in
  let* (h2, nh2) := rf false 3%nat in
  let* (c3, nc3) := rf true 4%nat in
  let* (h3, nh3) := rf false 4%nat in
  let z0 := jd + (fZ 0 - H) / pi2 in
  let* (Hz, _) := Scoord L E dt z0 in
  let x0 := jd + (dpi - H) / pi2 in
  let* (Hx, _) := Scoord L E dt x0 in
  Some (mkDay (z0 + (fZ 0 - Hz) / pi2) (x0 + rad2rrad_d (dpi - Hx) / pi2) s j c h c2 h2 c3 h3
    (note ns (B "无升起.") ++ note nj (B "无降落.") ++ note nc (B "无民用晨.") ++ note nh (B "无民用昏.") ++
     note nc2 (B "无航海晨.") ++ note nh2 (B "无航海昏.") ++ note nc3 (B "无天文晨.") ++ note nh3 (B "无天文昏."))).
End Lib.
