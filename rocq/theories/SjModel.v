(** Model in exact arithmetic, as in GeoModel, of the quick sunrise and sunset (eph/eph0.cpp, sunShengJ), and of what secMax makes of it. *)
From Coq Require Import ZArith Reals.
From Flocq Require Import Core.Raux.
From Verif Require Import GeoModel ObsModel SecModel.
Open Scope R_scope.

(** eph/eph0.h: rad, the seconds of arc in a radian, 180*3600/pi *)
Definition sj_rad : R := 180 * 3600 / PI.
(** eph/eph0.cpp:762: E, the obliquity at T centuries *)
Definition sj_E (T : R) : R := (84381.4060 - 46.836769 * T) / sj_rad.
(** eph/eph0.cpp:763: t, the centuries in dynamical time *)
Definition sj_t (T : R) : R := T + (32 * (T + 1.8) * (T + 1.8) - 20) / 86400 / 36525.
(** eph/eph0.cpp:764-765: J, the ecliptic longitude of the Sun *)
Definition sj_J (t : R) : R :=
  (48950621.66 + 6283319653.318 * t + 53 * t * t - 994
   + 334166 * cos (4.669257 + 628.307585 * t) + 3489 * cos (4.6261 + 1256.61517 * t) + 2060.6 * cos (2.67823 + 628.307585 * t) * t) / 10000000.
(** eph/eph0.cpp:767: gst, the sidereal time *)
Definition sj_gst (jd T : R) : R :=
  (0.7790572732640 + 1.00273781191135448 * jd) * (2 * PI) + (0.014506 + 4612.15739966 * T + 1.39667721 * T * T) / sj_rad.
(** eph/eph0.cpp:768: A, the right ascension *)
Definition sj_A (E J : R) : R := atan2 (sin J * cos E) (cos J).
(** eph/eph0.cpp:769: D, the declination *)
Definition sj_D (E J : R) : R := asin (sin E * sin J).
(** eph/eph0.cpp:770: cosH0, where cos(fa)*cos(D) is not 0 *)
Definition sj_cosH (fa D : R) : R := (sin (- 3000 / sj_rad) - sin fa * sin D) / (cos fa * cos D).
(** eph/eph0.cpp:762-773: the body of the loop; [None] is the return of 0 *)
Definition sj_step (L fa : R) (sj : Z) (jd : R) : option R :=
  let T := jd / 36525 in
  let E := sj_E T in
  let J := sj_J (sj_t T) in
  let gst := sj_gst jd T in
  let A := sj_A E J in
  let D := sj_D E J in
  let cosH0 := sj_cosH fa D in
  if Rle_dec 1 (Rabs cosH0) then None
  else Some (jd + rad2rrad (IZR sj * acos cosH0 - (gst + L - A)) / 6.28).
(** eph/eph0.cpp:756-776; cos(fa) is not 0 *)
Definition sunShengJ (jd L fa : R) (sj : Z) : R :=
  let jd := IZR (Zfloor (jd + 0.5)) - L / (2 * PI) in
  match sj_step L fa sj jd with
  | None => 0
  | Some jd => match sj_step L fa sj jd with None => 0 | Some jd => jd end
  end.
(** eph/eph_rspl.cpp:125-126: sun_s and sun_j for the moment jd; [dt] is dt_T *)
Definition sec_sun (dt : R -> R) (L fa jd : R) : R * R :=
  (sunShengJ (jd - dt jd + L / (2 * PI)) L fa (-1) + dt jd, sunShengJ (jd - dt jd + L / (2 * PI)) L fa 1 + dt jd).
