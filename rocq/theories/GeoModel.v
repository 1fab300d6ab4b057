(** Model of the spherical geometry of eph/eph0.cpp, eph/eph.cpp, eph/eph_rspl.cpp, eph/eph_yspl.cpp and eph/eph_rsgs.cpp in exact arithmetic:
    doubles are read as real numbers, [_pi] as pi, sin, cos, tan, asin, acos, atan, sqrt as the functions of the Coq library.
    Division by zero gives 0 in the Coq library; the theorems exclude it. *)
From Coq Require Import ZArith Reals.
From Flocq Require Import Core.
Open Scope R_scope.

(** C library: fmod, the remainder with the sign of x *)
Definition fmod (x y : R) : R := x - y * IZR (Ztrunc (x / y)).
(** C library: atan2 (the signs of zeros are not modelled) *)
Definition atan2 (y x : R) : R :=
  if Rlt_dec 0 x then atan (y / x)
  else if Rlt_dec x 0 then (if Rle_dec 0 y then atan (y / x) + PI else atan (y / x) - PI)
  else if Rlt_dec 0 y then PI / 2 else if Rlt_dec y 0 then - (PI / 2) else 0.

(** eph/eph0.cpp:55-61 *)
Definition rad2mrad (v : R) : R := let v := fmod v (2 * PI) in if Rlt_dec v 0 then v + 2 * PI else v.
(** eph/eph0.cpp:63-71 *)
Definition rad2rrad (v : R) : R :=
  let v := fmod v (2 * PI) in
  if Rle_dec v (- PI) then v + 2 * PI else if Rlt_dec PI v then v - 2 * PI else v.

(** mystl::array3 *)
Definition vec : Type := (R * R * R)%type.
(** eph/eph0.cpp:73-81 *)
Definition llr2xyz (p : vec) : vec :=
  let '(J, W, r) := p in (r * cos W * cos J, r * cos W * sin J, r * sin W).
(** eph/eph0.cpp:83-91 *)
Definition xyz2llr (p : vec) : vec :=
  let '(x, y, z) := p in
  let r := sqrt (x * x + y * y + z * z) in
  (rad2mrad (atan2 y x), asin (z / r), r).
(** eph/eph0.cpp:93-103 *)
Definition llrConv (p : vec) (E : R) : vec :=
  let '(J, W, r) := p in
  (rad2mrad (atan2 (sin J * cos E - tan W * sin E) (cos J)), asin (cos E * sin W + sin E * cos W * sin J), r).
(** eph/eph0.cpp:105-111 *)
Definition CD2DP (z : vec) (L fa gst : R) : vec :=
  let '(J, W, r) := z in
  let '(a, b, r) := llrConv (J + PI / 2 - gst - L, W, r) (PI / 2 - fa) in
  (rad2mrad (PI / 2 - a), b, r).
(** eph/eph0.cpp:113-122 *)
Definition j1_j2 (J1 W1 J2 W2 : R) : R :=
  let dJ := rad2rrad (J1 - J2) in
  let dW := W1 - W2 in
  if Rlt_dec (Rabs dJ) (1 / 1000) then
    if Rlt_dec (Rabs dW) (1 / 1000) then
      let dJ := dJ * cos ((W1 + W2) / 2) in sqrt (dJ * dJ + dW * dW)
    else acos (sin W1 * sin W2 + cos W1 * cos W2 * cos dJ)
  else acos (sin W1 * sin W2 + cos W1 * cos W2 * cos dJ).
(** eph/eph0.cpp:124-133 *)
Definition h2g (z a : vec) : vec :=
  let '(ax, ay, az) := llr2xyz a in
  let '(zx, zy, zz) := llr2xyz z in
  xyz2llr (zx - ax, zy - ay, zz - az).

(** Precession.  [prece t name mx] (eph/eph0.cpp:210-234) is a parameter: the value of each quantity. *)
Record precession := mkPrec { q_fi : R; q_w : R; q_E : R; q_x : R; q_th : R; q_Z : R; q_z : R }.
(** the common part of eph/eph0.cpp:239-248 and 253-262 *)
Definition CD_turn (llr : vec) (Z z th : R) : vec :=
  let '(J, W, r) := llr in
  let Z := Z + J in
  let A := cos W * sin Z in
  let B := cos th * cos W * cos Z - sin th * sin W in
  let C := sin th * cos W * cos Z + cos th * sin W in
  (rad2mrad (atan2 A B + z), asin C, r).
(** eph/eph0.cpp:237-249 *)
Definition CDllr_J2D (q : precession) (llr : vec) : vec := CD_turn llr (q_Z q) (q_z q) (q_th q).
(** eph/eph0.cpp:251-263 *)
Definition CDllr_D2J (q : precession) (llr : vec) : vec := CD_turn llr (- q_z q) (- q_Z q) (- q_th q).
(** eph/eph0.cpp:265-274 *)
Definition HDllr_J2D (q : precession) (llr : vec) : vec :=
  let '(a, b, c) := llr in
  let '(a, b, c) := llrConv (a + q_fi q, b, c) (q_w q) in
  llrConv (a - q_x q, b, c) (- q_E q).
(** eph/eph0.cpp:276-285 *)
Definition HDllr_D2J (q : precession) (llr : vec) : vec :=
  let '(a, b, c) := llrConv llr (q_E q) in
  let '(a, b, c) := llrConv (a + q_x q, b, c) (- q_w q) in
  (rad2mrad (a - q_fi q), b, c).

(** eph/eph.h COORDP, the fields set by lineEll; [None] is the early return with D < 0 *)
Record hit := mkHit { h_x : R; h_y : R; h_z : R; h_R1 : R; h_R2 : R }.
(** eph/eph.cpp:293-307 *)
Definition lineEll (x1 y1 z1 x2 y2 z2 e r : R) : R * option hit :=
  let dx := x2 - x1 in let dy := y2 - y1 in let dz := z2 - z1 in let e2 := e * e in
  let A := dx * dx + dy * dy + dz * dz / e2 in
  let B := x1 * dx + y1 * dy + z1 * dz / e2 in
  let C := x1 * x1 + y1 * y1 + z1 * z1 / e2 - r * r in
  let pD := B * B - A * C in
  if Rlt_dec pD 0 then (pD, None)
  else
    let D := sqrt pD in
    let D := if Rlt_dec B 0 then - D else D in
    let t := (- B + D) / A in
    let R' := sqrt (dx * dx + dy * dy + dz * dz) in
    (pD, Some (mkHit (x1 + dx * t) (y1 + dy * t) (z1 + dz * t) (R' * Rabs t) (R' * Rabs (t - 1)))).
(** eph/eph.cpp:309-320: the hit with the longitude J and the latitude W; I = (I0, I1, I2) *)
Definition lineEar2 (x1 y1 z1 x2 y2 z2 e r : R) (I : vec) : option (hit * R * R) :=
  let '(I0, I1, I2) := I in
  let P := cos I1 in let Q := sin I1 in
  match snd (lineEll x1 (P * y1 - Q * z1) (Q * y1 + P * z1) x2 (P * y2 - Q * z2) (Q * y2 + P * z2) e r) with
  | None => None
  | Some p => Some (p, rad2rrad (atan2 (h_y p) (h_x p) + I0 - I2), atan (h_z p / e / e / sqrt (h_x p * h_x p + h_y p * h_y p)))
  end.
(** eph/eph.cpp:322-334 with ba = cs_ba (cs_ba2 is its square, eph/eph0.h), rE = cs_rEar *)
Definition lineEar (P Q : vec) (gst ba rE : R) : option (hit * R * R) :=
  let '(px, py, pz) := llr2xyz P in
  let '(qx, qy, qz) := llr2xyz Q in
  match snd (lineEll px py pz qx qy qz ba rE) with
  | None => None
  | Some r => Some (r, rad2rrad (atan2 (h_y r) (h_x r) - gst), atan (h_z r / (ba * ba) / sqrt (h_x r * h_x r + h_y r * h_y r)))
  end.
(** eph/eph.cpp:361-379: number of points, the two points, the two distances *)
Definition lineOvl (x1 y1 dx dy r ba : R) : option (Z * (R * R) * (R * R) * R * R) :=
  let f := ba * ba in
  let A := dx * dx + dy * dy / f in
  let B := x1 * dx + y1 * dy / f in
  let C := x1 * x1 + y1 * y1 / f - r * r in
  let D := B * B - A * C in
  if Rlt_dec D 0 then None
  else
    let n := if Req_EM_T D 0 then 1%Z else 2%Z in
    let D := sqrt D in
    let t1 := (- B + D) / A in let t2 := (- B - D) / A in
    let L := sqrt (dx * dx + dy * dy) in
    Some (n, (x1 + dx * t1, y1 + dy * t1), (x1 + dx * t2, y1 + dy * t2), L * Rabs t1, L * Rabs t2).
(** eph/eph_rspl.cpp:60-70, eph/eph_yspl.cpp:9-15 (lineT): position (x,y) at time t, velocity (v,u), radius r; n chooses the root; [None] is the return 0 *)
Definition lineT (t x y v u r : R) (n : bool) : option R :=
  let b := y * v - x * u in
  let A := u * u + v * v in
  let B := u * b in
  let C := b * b - r * r * v * v in
  let D := B * B - A * C in
  if Rlt_dec D 0 then None
  else
    let D := sqrt D in
    let D := if n then D else - D in
    Some (t + ((- B + D) / A - x) / v).
(** eph/eph_rsgs.cpp:95-100 *)
Definition cd2bse (z I : vec) : vec :=
  let '(a, b, r) := z in let '(I0, I1, _) := I in
  llr2xyz (llrConv (a - I0, b, r) (- I1)).
(** eph/eph_rsgs.cpp:101-107 *)
Definition bse2cd (z I : vec) : vec :=
  let '(I0, I1, _) := I in
  let '(a, b, r) := llrConv (xyz2llr z) I1 in
  (rad2mrad (a + I0), b, r).
