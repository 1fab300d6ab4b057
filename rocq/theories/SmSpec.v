(** Longitudes as real functions of the time t (Julian centuries of 36525 days from J2000), in radians: the series of the
    tables, with as many terms of each table as wanted. *)
From Coq Require Import ZArith Reals List.
From Verif Require Import SmTab WaveF FormSpec.
Import ListNotations.
Open Scope R_scope.

(** the Moon: mean longitude, precession, and after the year 3000 a correction fitted for the next two thousand years *)
Definition moon_mean (t : R) : R :=
  3.81034409 + 8399.684730072 * t - 3.319e-5 * t ^ 2 + 3.11e-8 * t ^ 3 - 2.033e-10 * t ^ 4 +
  arcsec (5028.792262 * t + 1.1124406 * t ^ 2 + 0.00007699 * t ^ 3 - 0.000023479 * t ^ 4 - 0.0000000178 * t ^ 5).
Definition late (t : R) : R := if Rlt_dec 10 t then arcsec (- 0.866 + 1.43 * (t - 10) + 0.054 * (t - 10) ^ 2) else 0.
Definition moon_terms4 (k0 k1 k2 k3 : nat) (t : R) : R :=
  arcsec ((ws (firstn k0 ML0) t + t * ws (firstn k1 ML1) t + t ^ 2 * ws (firstn k2 ML2) t + t ^ 3 * ws (firstn k3 ML3) t) / 100000000).
Definition moon_lon (k0 k1 k2 k3 : nat) (t : R) : R := moon_mean t + late t + moon_terms4 k0 k1 k2 k3 t.
(** the Earth: powers of thousands of years *)
Definition earth_fix (t : R) : R := arcsec (- 0.0728 - 2.7702 * t - 1.1019 * t ^ 2 - 0.0996 * t ^ 3).
Definition earth_terms6 (k0 k1 k2 k3 k4 k5 : nat) (t : R) : R :=
  (ws (firstn k0 EL0) t + t * ws (firstn k1 EL1) t + t ^ 2 * ws (firstn k2 EL2) t + t ^ 3 * ws (firstn k3 EL3) t + t ^ 4 * ws (firstn k4 EL4) t + t ^ 5 * ws (firstn k5 EL5) t) / 10000000000.
Definition earth_lon (k0 k1 k2 k3 k4 k5 : nat) (t : R) : R := earth_terms6 k0 k1 k2 k3 k4 k5 (t / 10) + earth_fix (t / 10).
(** all terms: the apparent longitude of the Sun, and by how much the Moon is ahead of it *)
Definition moon_full : R -> R := moon_lon 442 149 34 2.
Definition earth_full : R -> R := earth_lon 186 114 60 8 4 4.
Definition sun_longitude (t : R) : R := earth_full t + nut_lon t + sun_aberration t + PI.
Definition elongation (t : R) : R := moon_full t - 3.4e-6 - (earth_full t + sun_aberration t + PI).
