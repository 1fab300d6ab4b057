(** Model in exact arithmetic, as in GeoModel, of the positions of the planets, the Sun and the Moon in eph/eph.cpp: xingJJ, xingLiu0, xingMP,
    xingSP and the values that xingX prints.  Parameters are the functions of eph/eph0.cpp: [pc xt n t] is p_coord(xt, t, n, n, n) and
    [mc n1 n2 n3 t] is m_coord(t, n1, n2, n3) (n = -1: all terms), [ec t] is e_coord(t, 15, 15, 15). *)
From Coq Require Import ZArith Reals.
From Verif Require Import GeoModel ObsModel MscModel.
Open Scope R_scope.

(** eph/eph0.h:14-15 *)
Definition cs_GS : R := 299792.458.
Definition cs_Agx : R := cs_AU / cs_GS / 86400 / 36525.

(** what xingX prints, in this order: heliocentric longitude, latitude and distance (not for the Moon); apparent ecliptic
    longitude and latitude, distance; right ascension and declination, light path; both seen from the place, apparent distance;
    azimuth and altitude; mean and true sidereal time *)
Record place := mkPlace { x_hel : option vec; x_ecl : R * R; x_ra : R; x_equ : R * R; x_rb : R; x_top : R * R; x_rc : R; x_hor : R * R;
  x_gstp : R; x_gst : R }.

Section Xp.
Variable pc : Z -> Z -> R -> vec.
Variable mc : Z -> Z -> Z -> R -> vec.
Variable ec : R -> vec.
Variables hcjj pGST2 : R -> R.
Variable nutation2 : R -> R * R.

(** eph/eph.cpp:276-287: from the equatorial place, to the place seen from the station and to azimuth and altitude *)
Definition station_view (gst L fa : R) (z : vec) : (R * R) * (R * R) :=
  let '(cj, _, _) := z in
  let sj := rad2rrad (gst + L - cj) in
  let '(cj2, cw2, r2) := parallax z sj fa 0 in
  let '(a, h, _) := llrConv (cj2 + (PI / 2 - gst - L), cw2, r2) (PI / 2 - fa) in
  let a := rad2mrad (PI / 2 - a) in
  let h := if Rlt_dec 0 h then h + MQC h else h in
  ((cj2, cw2), (a, h)).

(** eph/eph.cpp:215-291; [None]: for other xt the coordinates z and the distance rc are used without a value.
    The texts, made by rad2str and to_str, are not part of this model; rad2mrad of the sidereal times is *)
Definition xingX (xt : Z) (jd L fa : R) : option place :=
  let T := jd / 36525 in
  let '(dL, dE) := nutation2 T in
  let E := hcjj T + dE in
  let gstPing := pGST2 jd in
  let gst := gstPing + dL * cos E in
  if (xt =? 10)%Z then
    let a := ec T in
    let '(_, _, ra) := mc 1 1 (-1) T in
    let T := T - ra * cs_Agx / cs_AU in
    let a2 := ec T in
    let '(m0, m1, rc) := mc (-1) (-1) (-1) T in
    let '(b0, b1, b2) := h2g a a2 in
    let '(_, _, rb) := h2g (m0, m1, rc) (b0, b1, b2 * cs_AU) in
    let hj := rad2mrad (m0 + dL) in
    let '(cj, cw, r) := llrConv (hj, m1, rc) E in
    let '(top, hor) := station_view gst L fa (cj, cw, r) in
    Some (mkPlace None (hj, m1) ra (cj, cw) rb top rc hor (rad2mrad gstPing) (rad2mrad gst))
  else if ((xt <? 10) && (0 <=? xt))%Z%bool then
    let a := pc 0 (-1) T in
    let '(h0, h1, h2) := pc xt (-1) T in
    let h0 := rad2mrad h0 in
    let '(_, _, ra) := h2g (h0, h1, h2) a in
    let T := T - ra * cs_Agx in
    let a2 := pc 0 (-1) T in
    let z2 := pc xt (-1) T in
    let '(_, _, rb) := h2g z2 a in
    let '(z0, z1, rc) := h2g z2 a2 in
    let hj := rad2mrad (z0 + dL) in
    let '(cj, cw, r) := llrConv (hj, z1, rc) E in
    let '(top, hor) := station_view gst L fa (cj, cw, r) in
    Some (mkPlace (Some (h0, h1, h2)) (hj, z1) ra (cj, cw) rb top rc hor (rad2mrad gstPing) (rad2mrad gst))
  else None.

(** eph/eph.cpp:8-29 *)
Definition xingJJ (xt : Z) (t : R) (jing : Z) : R :=
  let a := pc 0 10 t in
  let z := h2g (pc xt 10 t) a in
  let '(a, z) :=
    if (jing =? 1)%Z then let a := pc 0 60 t in (a, h2g (pc xt 60 t) a)
    else if (2 <=? jing)%Z then
      let a' := pc 0 (-1) (t - snd a * cs_Agx) in (a', h2g (pc xt (-1) (t - snd z * cs_Agx)) a')
    else (a, z) in
  let '(a0, a1, _) := a in
  let '(z0, z1, _) := z in
  j1_j2 z0 z1 (a0 + PI) (- a1).

(** eph/eph.cpp:65-81 *)
Definition xingLiu0 (xt : Z) (t : R) (n : Z) (gxs : R) : vec :=
  let E := hcjj t in
  let '(z0, z1, z2) := h2g (pc xt n (t - gxs)) (pc 0 n (t - gxs)) in
  if Req_EM_T gxs 0 then llrConv (z0, z1, z2) E
  else let '(dL, dE) := nutation2 t in llrConv (z0 + dL, z1, z2) (E + dE).

(** eph/eph.cpp:132-145; g = (g0, g1, g2, g3) *)
Definition xingMP (xt : Z) (t : R) (n : Z) (E g0 g1 g2 g3 : R) : R * R * R * R :=
  let '(p0, p1, p2) := h2g (pc xt n (t - g1)) (pc 0 n (t - g1)) in
  let '(m0, m1, m2) := mc n n n (t - g0) in
  let '(m0, m1, m2) := llrConv (m0 + g2, m1, m2) (E + g3) in
  let '(p0, p1, p2) := llrConv (p0 + g2, p1, p2) (E + g3) in
  (rad2rrad (m0 - p0), m1 - p1, m2 / cs_GS / 86400 / 36525, p2 / cs_GS / 86400 / 36525 * cs_AU).

(** eph/eph.cpp:173-184 *)
Definition xingSP (xt : Z) (t : R) (n : Z) (w0 ts tp : R) : R * R * R * R :=
  let '(s0, s1, s2) := pc 0 n (t - ts) in
  let s0 := s0 + PI in
  let s1 := - s1 in
  let '(p0, p1, p2) := h2g (pc xt n (t - tp)) (pc 0 n (t - tp)) in
  (rad2rrad (p0 - s0 - w0), p1 - s1, s2 * cs_Agx, p2 * cs_Agx).
End Xp.
