(** Model of the shadow of the Moon: eph/eph_rsgs.cpp (shadow radii, speed on the Earth's surface, places, the instants of an eclipse,
    north and south limits) and eph/eph_rspl.cpp (apexes of the shadow cones), in exact arithmetic as in GeoModel.v. *)
From Coq Require Import ZArith Reals.
From Verif Require Import GeoModel.
Open Scope R_scope.

(** ** eph_rsgs.cpp *)
(** eph_rsgs.h _RSM *)
Record rsm := mkRsm { r1 : R; r2 : R; ar2 : R; sf : R }.
(** eph_rsgs.cpp:65-66  the two cone angles from the distance dyj between Sun and Moon; k0, k, k2 are cs_k0, cs_k, cs_k2 *)
Definition tanf1 (k0 k dyj : R) : R := (k0 + k) / dyj.
Definition tanf2 (k0 k2 dyj : R) : R := (k0 - k2) / dyj.
(** eph_rsgs.cpp:145-153  rSM *)
Definition rSM (k0 k k2 dyj mR : R) : rsm :=
  let a := k + tanf1 k0 k dyj * mR in
  let b := k2 - tanf2 k0 k2 dyj * mR in
  mkRsm a b (Rabs b) (k2 / mR / k0 * (dyj + mR)).

(** eph_rsgs.h _VXY *)
Record vxy := mkVxy { v_x : R; v_y : R; w_x : R; w_y : R; w_ : R }.
(** eph_rsgs.cpp:132-144  Vxy; v_x, v_y are vx, vy and w_x, w_y, w_ are Vx, Vy, V *)
Definition Vxy (x y s vx vy : R) : vxy :=
  let h := 1 - x * x - y * y in
  let h := if Rlt_dec h 0 then 0 else sqrt h in
  let a := 2 * PI * (sin s * h - cos s * y) in
  let b := 2 * PI * x * cos s in
  let A := vx - a in let B := vy - b in
  mkVxy a b A B (sqrt (A * A + B * B)).

(** eph_rsgs.cpp:108-115  bse2db; ba is cs_ba *)
Definition bse2db (z I : vec) (f : bool) (ba : R) : vec :=
  let '(I0, I1, I2) := I in
  let '(a, b, c) := llrConv (xyz2llr z) I1 in
  (rad2rrad (a + I0 - I2), if f then atan (tan b / (ba * ba)) else b, c).
(** eph_rsgs.cpp:116-121  bseXY2db; lineEar2 answers 100 for both angles when the line misses (eph.cpp:315-316) *)
Definition bseXY2db (x y : R) (I : vec) (f : bool) (ba : R) : vec :=
  match lineEar2 x y 2 x y 0 (if f then ba else 1) 1 I with Some (_, J, W) => (J, W, 0) | None => (100, 100, 0) end.

(** eph_rsgs.cpp:184-192  the speed and acceleration of the shadow from three positions tg apart *)
Definition velocity (a c tg : R) : R := (c - a) / tg / 2.
Definition acceleration (a b c tg : R) : R := (c + a - 2 * b) / tg / tg.
(** eph_rsgs.cpp:204-209  time and place of the axis' nearest approach to the Earth's centre, and its signed distance; (b0, b1) is the position, (vx, vy) the speed *)
Definition mid_time (b0 b1 vx vy : R) : R := - (b0 * vx + b1 * vy) / (sqrt (vx * vx + vy * vy) * sqrt (vx * vx + vy * vy)).
Definition mid_place (b0 b1 vx vy : R) : R * R := let t0 := mid_time b0 b1 vx vy in (b0 + vx * t0, b1 + vy * t0).
Definition mid_dist (b0 b1 vx vy : R) : R := (vx * b1 - vy * b0) / sqrt (vx * vx + vy * vy).
(** eph_rsgs.cpp:226-227  the instants before and after the middle when the axis is at the distance ls from the centre; both are the middle when it does not come so near *)
Definition instants (b0 b1 vx vy ls : R) : R * R :=
  let v := sqrt (vx * vx + vy * vy) in
  let d := Rabs (mid_dist b0 b1 vx vy) in
  let dt := if Rlt_dec d ls then sqrt (ls * ls - d * d) / v else 0 in
  (mid_time b0 b1 vx vy - dt, mid_time b0 b1 vx vy + dt).
(** eph_rsgs.cpp:228  the instant of local apparent noon *)
Definition noon (b0 vx : R) : R := - b0 / vx.

(** eph_rsgs.cpp:315-322  one round of nanbei: from (x, y) and z to the next (x, y) and (sinA, cosA) *)
Definition nanbei_round (M : vec) (vx0 vy0 h r I1 x y z : R) : R * R * (R * R) :=
  let '(M0, M1, M2) := M in
  let z := sqrt z in
  let x := x - (x - M0) * z / M2 in
  let y := y - (y - M1) * z / M2 in
  let vx := vx0 - 2 * PI * (sin I1 * z - cos I1 * y) in
  let vy := vy0 - 2 * PI * cos I1 * x in
  let v := sqrt (vx * vx + vy * vy) in
  let sinA := h * vy / v in let cosA := h * vx / v in
  (M0 - r * sinA, M1 + r * cosA, (sinA, cosA)).
(** eph_rsgs.cpp:306-323  the loop of nanbei: n rounds, left when z is negative for the second time.
    (sinA, cosA) is unset before the first round (None). *)
Fixpoint nanbei_loop (n : nat) (M : vec) (vx0 vy0 h r I1 : R) (js : bool) (x y : R) (sc : option (R * R)) : R * R * option (R * R) :=
  match n with
  | O => (x, y, sc)
  | S n =>
      let z := 1 - x * x - y * y in
      if Rlt_dec z 0 then
        if js then (x, y, sc)
        else let '(x, y, sc) := nanbei_round M vx0 vy0 h r I1 x y 0 in nanbei_loop n M vx0 vy0 h r I1 true x y (Some sc)
      else let '(x, y, sc) := nanbei_round M vx0 vy0 h r I1 x y z in nanbei_loop n M vx0 vy0 h r I1 js x y (Some sc)
  end.
(** eph_rsgs.cpp:301-327  nanbei; k is cs_k, ba cs_ba.  [None]: sinA and cosA are read unset *)
Definition nanbei (M : vec) (vx0 vy0 h r : R) (I : vec) (k ba : R) : option (R * R * R * R) :=
  let '(M0, M1, M2) := M in let '(I0, I1, I2) := I in
  match nanbei_loop 3 M vx0 vy0 h r I1 false (M0 - vy0 / vx0 * r * h) (M1 + h * r) None with
  | (x, y, Some (sinA, cosA)) =>
      Some (match lineEar2 (M0 - k * sinA) (M1 + k * cosA) M2 x y 0 ba 1 I with Some (_, J, W) => (J, W, x, y) | None => (100, 100, x, y) end)
  | (_, _, None) => None
  end.

(** eph_rsgs.cpp:335-342  the loop of mDian: n rounds from the point a; the last answer of lineOvl as the chosen point and its distance, [None] when the line misses the ellipse *)
Fixpoint mDian_loop (n : nat) (M0 M1 vx0 vy0 : R) (AB : bool) (I1 bba : R) (a : R * R) (p : option (R * R * R)) : option (R * R * R) :=
  match n with
  | O => p
  | S n =>
      let c := Vxy (fst a) (snd a) I1 vx0 vy0 in
      match lineOvl M0 M1 (w_y c) (- w_x c) 1 bba with
      | None => None
      | Some (_, A, B, R1, R2) => let a := if AB then A else B in mDian_loop n M0 M1 vx0 vy0 AB I1 bba a (Some (a, if AB then R1 else R2))
      end
  end.
(** eph_rsgs.cpp:329-351  mDian: the longitude and latitude that are appended, [None] for the answer 0; bba is RS_GS::bba, ba cs_ba *)
Definition mDian (M : vec) (vx0 vy0 : R) (AB : bool) (r : R) (I : vec) (bba ba : R) : option (R * R) :=
  let '(M0, M1, _) := M in let '(_, I1, _) := I in
  match mDian_loop 2 M0 M1 vx0 vy0 AB I1 bba (M0, M1) None with
  | Some (a0, a1, R) => if Rle_dec R r then let '(J, W, _) := bse2db (a0, a1, 0) I true ba in Some (J, W) else None
  | None => None
  end.

(** ** eph_rspl.cpp *)
(** eph_rspl.cpp:225  the ratio of the radii of Sun and Moon; sMoon is cs_sMoon, AU cs_AU *)
Definition radii (sMoon AU : R) : R := 95963 / 100 / sMoon * AU.
(** eph_rspl.cpp:220-238  an apex of the shadow cones, of the umbra for 1 - k and of the penumbra for 1 + k; S and M are the equatorial coordinates of Sun and Moon *)
Definition apex (S M : vec) (q : R) : vec :=
  let '(a, b, c) := llr2xyz S in let '(x, y, z) := llr2xyz M in
  xyz2llr ((a - x) / q + x, (b - y) / q + y, (c - z) / q + z).
Definition umbra_apex (S M : vec) (k : R) : vec := apex S M (1 - k).
Definition penumbra_apex (S M : vec) (k : R) : vec := apex S M (1 + k).
