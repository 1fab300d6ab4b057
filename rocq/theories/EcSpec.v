(** The solar eclipse at a new moon, in real numbers: where Sun and Moon are by truncated series, and what the shadow does. *)
From Coq Require Import String Reals List Lra.
From Verif Require Import FormSpec.
Import ListNotations.
Open Scope R_scope.

(** ** the time of new moon number k, in Julian centuries from J2000 *)
Definition mean_new (k : R) : R := (2 * PI * k + 1.08472) / 7771.37714500204.
(** mean distance of the Moon from its node *)
Definition node_arg (t : R) : R := (93.2720993 + 483202.0175273 * t - 0.0034029 * t ^ 2 - t ^ 3 / 3526000 + t ^ 4 / 863310000) * (PI / 180).
(** a first correction by the greatest term *)
Definition first_new (t : R) : R := t + 0.0000331 * t ^ 2 / 7771 - 0.10976 / 7771 * cos (0.785 + 8328.6914 * t).
(** periodic terms of the elongation of the Moon from the Sun: arc seconds, phase, rate, rate of the square of the time *)
Definition elongation_terms : list (R * R * R * R) :=
  [(22640, 0.785, 8328.6914, 0.000152); (4586, 0.19, 7214.063, -0.000218); (2370, 2.54, 15542.754, -0.000070); (769, 3.1, 16657.383, 0); (666, 1.5, 628.302, 0); (412, 4.8, 16866.93, 0);
   (212, 4.1, -1114.63, 0); (205, 0.2, 6585.76, 0); (192, 4.9, 23871.45, 0); (165, 2.6, 14914.45, 0); (147, 5.5, -7700.39, 0); (125, 0.5, 7771.38, 0); (109, 3.9, 8956.99, 0);
   (55, 5.6, -1324.18, 0); (45, 0.9, 25195.62, 0); (40, 3.8, -8538.24, 0); (38, 4.3, 22756.82, 0); (36, 5.5, 24986.07, 0); (-6893, 4.669257, 628.3076, 0); (-72, 4.6261, 1256.62, 0)].
Definition wave4 (f : R -> R) (t t2 : R) (x : R * R * R * R) : R := let '(a, p, q, q2) := x in a * f (p + q * t + q2 * t2).
Definition elongation (t : R) : R :=
  -1.084719 + 7771.377145013 * t - 0.0000331 * t ^ 2 + arcsec (sum (map (wave4 cos t (t ^ 2)) elongation_terms) - 43 * t * cos (2.67823 + 628.31 * t) + 21).
Definition elongation_speed (t : R) : R :=
  7771.38 - 914 * sin (0.7848 + 8328.691425 * t + 0.0001523 * t ^ 2) - 179 * sin (2.543 + 15542.7543 * t) - 160 * sin (0.1874 + 7214.0629 * t).
(** the new moon, when the elongation is 2 pi k: one step of Newton's method *)
Definition true_new (k : R) : R := let t := first_new (mean_new k) in t + (2 * PI * k - elongation t) / elongation_speed t.

(** ** positions: t in centuries *)
Definition wave5 (t : R) (x : R * R * R * R * R) : R := let '(a, p, q, q2, q3) := x in a * cos (p + q * t + q2 * (t / 100) ^ 2 + q3 * (t ^ 3 / 10 ^ 8)).
(** latitude of the Moon, arc seconds *)
Definition latitude_terms : list (R * R * R * R * R) :=
  [(18461, 0.0571, 8433.46616, -0.640, -1); (1010, 2.413, 16762.1576, 0.88, 25); (1000, 5.440, -104.7747, 2.16, 26); (624, 0.915, 7109.2881, 0, 7); (199, 1.82, 15647.529, -2.8, -19);
   (167, 4.84, -1219.403, -1.5, -18); (117, 4.17, 23976.220, -1.3, 6); (62, 4.8, 25090.849, 2, 50); (33, 3.3, 15437.980, 2, 32); (32, 1.5, 8223.917, 4, 51); (30, 1.0, 6480.986, 0, 7);
   (16, 2.5, -9548.095, -3, -43); (15, 0.2, 32304.912, 0, 31); (12, 4.0, 7737.590, 0, 0); (9, 1.9, 15019.227, 0, 0); (8, 5.4, 8399.709, 0, 0); (8, 4.2, 23347.918, 0, 0); (7, 4.9, -1847.705, 0, 0);
   (7, 3.8, -16133.856, 0, 0); (7, 2.7, 14323.351, 0, 0)].
Definition latitude (t : R) : R := arcsec (sum (map (wave5 t) latitude_terms)).
(** distance of the Moon, km; the result in radii of the Earth *)
Definition distance_terms : list (R * R * R * R * R) :=
  [(20905, 5.4971, 8328.691425, 1.52, 25); (3699, 4.900, 7214.06287, -2.18, -19); (2956, 0.972, 15542.75429, -0.66, 6); (570, 1.57, 16657.3828, 3.0, 50); (246, 5.69, -1114.6286, -3.7, -44);
   (205, 1.02, 14914.4523, -1, 6); (171, 3.33, 23871.4457, 1, 31); (152, 4.94, 6585.761, -2, -19); (130, 0.74, -7700.389, -2, -25); (109, 5.20, 7771.377, 0, 0); (105, 2.31, 8956.993, 1, 25);
   (80, 5.38, -8538.241, 2.8, 26); (49, 6.24, 628.302, 0, 0); (35, 2.7, 22756.817, -3, -13); (31, 4.1, 16171.056, -1, 6); (24, 1.7, 7842.365, -2, -19); (23, 3.9, 24986.074, 5, 75);
   (22, 0.4, 14428.126, -4, -38); (17, 2.0, 8399.679, 0, 0)].
Definition distance (t : R) : R := (385001 + sum (map (wave5 t) distance_terms)) / 6378.1366.
(** distance of the Sun, 10^-7 astronomical units, the time in millennia; the result in radii of the Earth *)
Definition sun_distance (t : R) : R :=
  let m := t / 10 in
  (10001399 + 167070 * cos (3.098464 + 6283.07585 * m) + 1396 * cos (3.0552 + 12566.1517 * m)
   + m * (10302 * cos (1.10749 + 6283.07585 * m) + 172 * cos (1.064 + 12566.152 * m))
   + m ^ 2 * (436 * cos (5.785 + 6283.076 * m)) + m ^ 3 * (14 * cos (4.27 + 6283.08 * m))) * (14.9597870691 / 6378.1366).
(** speeds a day: of the elongation, of the latitude, of the distance of the Moon *)
Definition lon_speed (t : R) : R := (7771 - 914 * sin (0.785 + 8328.6914 * t) - 179 * sin (2.543 + 15542.7543 * t) - 160 * sin (0.187 + 7214.0629 * t)) / 36525.
Definition lat_speed (t : R) : R := (- 755 * sin (0.057 + 8433.4662 * t) - 82 * sin (2.413 + 16762.1576 * t)) / 36525.
Definition dist_speed (t : R) : R := (- 27299 * sin (5.497 + 8328.691425 * t) - 4184 * sin (4.900 + 7214.06287 * t) - 7204 * sin (0.972 + 15542.75429 * t)) / 36525.

(** ** the shadow in the plane through the centre of the Earth, radii of the Earth *)
(** radii of the Moon and of the Sun; the Earth's, flattened *)
Definition moon_k : R := 0.2725076.
Definition sun_k : R := 109.1222.
Definition earth_b : R := 0.9972.
(** distance of the axis from the centre *)
Definition gamma (t : R) : R := distance t * sin (latitude t) * (lon_speed t / sqrt (lat_speed t ^ 2 + lon_speed t ^ 2)).
(** radius of the penumbra; of the umbra, negative before its vertex; height of the vertex; height of the Earth's surface under the axis *)
Definition penumbra (t : R) : R := moon_k + (sun_k + moon_k) / (sun_distance t - distance t) * distance t.
Definition umbra (t : R) : R := moon_k - (sun_k - moon_k) / (sun_distance t - distance t) * distance t.
Definition vertex (t : R) : R := distance t - moon_k * (sun_distance t - distance t) / (sun_k - moon_k).
Definition surface (t : R) : R := sqrt (1 - gamma t ^ 2).
(** change of the vertex between the middle and where the axis enters or leaves the Earth *)
Definition change (t : R) : R := dist_speed t * surface t / lon_speed t / distance t.

(** ** the kind *)
Open Scope string_scope.
(** total if the vertex is below the ground under the axis, [tol] away from a tie either answer will do *)
Definition letter (tol : R) (t : R) (l : string) : Prop := (l = "T" /\ vertex t < surface t + tol) \/ (l = "A" /\ surface t - tol < vertex t).
Inductive kind_at (t : R) : string -> Prop :=
| K_none : earth_b + penumbra t < Rabs (gamma t) -> kind_at t "N"
| K_partial : earth_b + Rabs (umbra t) < Rabs (gamma t) <= earth_b + penumbra t -> kind_at t "P"
| K_off l : earth_b < Rabs (gamma t) <= earth_b + Rabs (umbra t) -> letter 0.001 t l -> kind_at t (l ++ "0")
| K_edge l : earth_b - Rabs (umbra t) < Rabs (gamma t) <= earth_b -> letter 0.001 t l -> kind_at t (l ++ "1")
| K_annular : Rabs (gamma t) <= earth_b - Rabs (umbra t) -> surface t <= vertex t -> kind_at t "A"
(** total in the middle; at the ends, where the ground is at height 0, annular if the vertex is above the ground there *)
| K_total : Rabs (gamma t) <= earth_b - Rabs (umbra t) -> vertex t < surface t -> vertex t - change t <= 0 -> vertex t + change t <= 0 -> kind_at t "T"
| K_ATT : Rabs (gamma t) <= earth_b - Rabs (umbra t) -> vertex t < surface t -> 0 < vertex t - change t -> vertex t + change t <= 0 -> kind_at t "H3"
| K_TTA : Rabs (gamma t) <= earth_b - Rabs (umbra t) -> vertex t < surface t -> vertex t - change t <= 0 -> 0 < vertex t + change t -> kind_at t "H2"
| K_ATA : Rabs (gamma t) <= earth_b - Rabs (umbra t) -> vertex t < surface t -> 0 < vertex t - change t -> 0 < vertex t + change t -> kind_at t "H".


(** ** certainty *)
(** how far the axis is from each limit *)
Definition limits (t : R) : list R := [earth_b + penumbra t; earth_b + Rabs (umbra t); earth_b; earth_b - Rabs (umbra t)].
Definition clear_of_limits (t : R) : Prop := forall l, In l (limits t) -> 0.0159 < Rabs (Rabs (gamma t) - l).
(** a limit is near, or the vertex near the ground in the middle or at an end *)
Definition doubtful (t : R) : Prop :=
  (exists l, In l (limits t) /\ Rabs (Rabs (gamma t) - l) < 0.0161) \/ Rabs (vertex t - surface t) < 0.02 \/ Rabs (vertex t - change t) < 0.0201 \/ Rabs (vertex t + change t) < 0.0201.
