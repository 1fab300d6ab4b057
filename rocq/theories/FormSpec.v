(** The published formulas, in real numbers.  Angles in radians, t in Julian centuries from J2000. *)
From Coq Require Import Reals List.
Import ListNotations.
Open Scope R_scope.

(** arc seconds to radians *)
Definition arcsec (x : R) : R := x * PI / 648000.
(** obliquity of the ecliptic, P03 *)
Definition obliquity (t : R) : R := arcsec (84381.4060 - 46.836769 * t - 0.0001831 * t ^ 2 + 0.00200340 * t ^ 3 - 5.76e-7 * t ^ 4 - 4.34e-8 * t ^ 5).
(** aberration of the Sun in longitude, of the Moon in latitude *)
Definition sun_aberration (t : R) : R :=
  arcsec (- 20.49552 * (1 + (0.016708634 - 0.000042037 * t - 0.0000001267 * t ^ 2) * cos (- 0.043126 + 628.301955 * t - 0.000002732 * t ^ 2))).
Definition moon_aberration (t : R) : R := arcsec (0.063 * sin (0.057 + 8433.4662 * t + 0.000064 * t ^ 2)).
(** mean sidereal time at Greenwich: T days UT, dt = TD - UT in days *)
Definition sidereal_time (T dt : R) : R :=
  let t := (T + dt) / 36525 in
  2 * PI * (0.7790572732640 + 1.00273781191135448 * T) + arcsec (0.014506 + 4612.15739966 * t + 1.39667721 * t ^ 2 - 0.00009344 * t ^ 3 + 0.00001882 * t ^ 4).
(** speed of the Earth and of the Moon in longitude, radians a century *)
Definition earth_speed (t : R) : R :=
  let f := 628.307585 * t in
  628.332 + 21 * sin (1.527 + f) + 0.44 * sin (1.48 + 2 * f) + 0.129 * t * sin (5.82 + f) + 0.00055 * t ^ 2 * sin (4.21 + f).
Definition moon_speed_terms : list (R * R * R) :=
  [(179, 2.543, 15542.7543); (160, 0.1874, 7214.0629); (62, 3.14, 16657.3828); (34, 4.827, 16866.9323); (22, 4.9, 23871.4457); (12, 2.59, 14914.4523);
   (7, 0.23, 6585.7609); (5, 0.9, 25195.624); (5, 2.32, -7700.3895); (5, 3.88, 8956.9934); (5, 0.49, 7771.3771)].
Definition sum (l : list R) : R := fold_right Rplus 0 l.
Definition moon_speed (t : R) : R :=
  8399.71 - 914 * sin (0.7848 + 8328.691425 * t + 0.0001523 * t ^ 2) - sum (map (fun x => let '(a, p, q) := x in a * sin (p + q * t)) moon_speed_terms).
(** nutation: phase, its two rates, the coefficients of longitude and obliquity in hundredths of an arc second *)
Definition nutation_terms : list (R * R * R * R * R) :=
  [(2.1824, -33.75705, 36e-6, -1720, 920); (3.5069, 1256.66393, 11e-6, -132, 57); (1.3375, 16799.4182, -51e-6, -23, 10); (4.3649, -67.5141, 72e-6, 21, -9);
   (0.04, -628.302, 0, -14, 0); (2.36, 8328.691, 0, 7, 0); (3.46, 1884.966, 0, -5, 2); (5.44, 16833.175, 0, -4, 2); (3.69, 25128.110, 0, -3, 0); (3.55, 628.362, 0, 2, 0)].
Definition nut_arg (t : R) (x : R * R * R * R * R) : R := let '(p, q, w, _, _) := x in p + q * t + w * t ^ 2.
Definition nut_lon (t : R) : R :=
  arcsec ((sum (map (fun x => snd (fst x) * sin (nut_arg t x)) nutation_terms) - 1.742 * t * sin (2.1824 - 33.75705 * t + 36e-6 * t ^ 2)) / 100).
Definition nut_obl (t : R) : R := arcsec (sum (map (fun x => snd x * cos (nut_arg t x)) nutation_terms) / 100).
(** apparent radius of the Moon in arc seconds for an observer who sees it at height h; r its distance from the Earth's centre in km *)
Definition moon_radius (r h : R) : R := 0.2725076 * 6378.1366 * 1.0000036 * (648000 / PI) / r * (1 + 6378.1366 * sin h / r).
