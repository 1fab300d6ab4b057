(** Model in exact arithmetic, as in GeoModel, of the limits of a solar eclipse on the Earth (eph/eph_rspl.cpp, zbXY, p2p, pp0, nbj). *)
From Coq Require Import ZArith Reals List.
From Verif Require Import GeoModel ObsModel.
Import ListNotations.
Open Scope R_scope.

(** eph/eph0.h:16: rad *)
Definition zb_rad : R := 180 * 3600 / PI.
(** eph/eph0.h:26: cs_sMoon, with cs_k (23) *)
Definition zb_sMoon : R := 0.2725076 * cs_rEar * 1.0000036 * zb_rad.
(** eph/eph_rspl.h:32-41: _ZB, the fields S, M and g, which zb0 sets; the others are the result of zbXY *)
Record zb := mkZb { zb_S : vec; zb_M : vec; zb_g : R }.
(** eph/eph_rspl.cpp:240-253: (mr, sr, x, y) *)
Definition zbXY (p : zb) (L fa : R) : R * R * R * R :=
  let '(S0, S1, S2) := zb_S p in
  let '(M0, M1, M2) := zb_M p in
  let '(s0, s1, s2) := parallax (S0, S1, S2) (zb_g p + L - S0) fa 0 in
  let '(m0, m1, m2) := parallax (M0, M1, M2) (zb_g p + L - M0) fa 0 in
  (zb_sMoon / m2 / zb_rad, 959.63 / s2 / zb_rad * cs_AU, rad2rrad (m0 - s0) * cos ((m1 + s1) / 2), m1 - s1).
(** what p2p and pp0 take from lineEar (eph/eph.cpp:326-330): J and W, both 100 without a solution *)
Definition ear (P Q : vec) (g : R) : R * R :=
  match lineEar P Q g cs_ba cs_rEar with Some (_, J, W) => (J, W) | None => (100, 100) end.
(** eph/eph_rspl.cpp:261-262: the point {J,W,R}; f is 1 or -1, (v, u) the motion *)
Definition limb (S : vec) (f : Z) (v u : R) : vec :=
  let '(S0, S1, S2) := S in
  let a := sqrt (u * u + v * v) in
  let r := 959.63 / S2 / zb_rad * cs_AU in
  let W := S1 + IZR f * r * v / a in
  let J := S0 - IZR f * r * u / a / cos ((W + S1) / 2) in
  (J, W, S2).
(** eph/eph_rspl.cpp:255-268: p and q are RS_PL::P and RS_PL::Q, apex is A or B *)
Definition p2p (p q : zb) (apex : vec) (f : Z) (place : R * R) : R * R :=
  let '(L, fa) := place in
  let '(_, _, px, py) := zbXY p L fa in
  let '(_, _, qx, qy) := zbXY q L fa in
  let u := qy - py in let v := qx - px in
  ear (limb (zb_S p) f v u) apex (zb_g p).
(** RS_PL::Vc: the empty string, "全" and "环" *)
Inductive centre := c_none | c_total | c_annular.
(** eph/eph_rspl.cpp:269-280; a latitude is never 100, so the comparison tells whether there is a solution *)
Definition pp0 (p : zb) : R * R * centre :=
  match lineEar (zb_M p) (zb_S p) (zb_g p) cs_ba cs_rEar with
  | None => (100, 100, c_none)
  | Some (_, J, W) => let '(mr, sr, _, _) := zbXY p J W in (J, W, if Rlt_dec mr sr then c_annular else c_total)
  end.
(** eph/eph_rspl.cpp:296-301: the distance of the limits of the umbra before it is made a text; [None] where Vb stays empty; cs_rEarA is eph/eph0.h:8 *)
Definition umbra_width (J1 W1 J2 W2 : R) : option R :=
  if Req_EM_T W1 100 then None else if Req_EM_T W2 100 then None else
  let x := (J1 - J2) * cos ((W1 + W2) / 2) in let y := W1 - W2 in
  Some (0.99834 * cs_rEar * sqrt (x * x + y * y)).
(** eph/eph_rspl.cpp:291-294: k times p2p, from the place (0, 0) *)
Fixpoint limit_rounds (p q : zb) (apex : vec) (f : Z) (k : nat) (place : R * R) : R * R :=
  match k with O => place | S k => limit_rounds p q apex f k (p2p p q apex f place) end.
(** eph/eph_rspl.cpp:281-302 after zb0 (288): V, Vc and the number in Vb; A and B are the apexes of umbra and penumbra *)
Definition nbj (p q : zb) (A B : vec) : list (R * R) * centre * option R :=
  let '(J, W, c) := pp0 p in
  let v2 := limit_rounds p q A 1 2 (0, 0) in
  let v4 := limit_rounds p q A (-1) 2 (0, 0) in
  let v6 := limit_rounds p q B (-1) 3 (0, 0) in
  let v8 := limit_rounds p q B 1 3 (0, 0) in
  ([(J, W); v2; v4; v6; v8], c, umbra_width (fst v2) (snd v2) (fst v4) (snd v4)).
