(** What moonIll is meant to be: the illuminated fraction of the Moon's disc by the published
    series (Meeus, Astronomical Algorithms 48.4), over the real numbers; t in Julian centuries. *)
From Coq Require Import Reals.
Open Scope R_scope.

Definition deg (x : R) : R := x * (PI / 180).
Definition elongation (t : R) : R := deg (297.8502042 + 445267.1115168 * t - 0.0016300 * t ^ 2 + t ^ 3 / 545868 - t ^ 4 / 113065000).
Definition sun_anomaly (t : R) : R := deg (357.5291092 + 35999.0502909 * t - 0.0001536 * t ^ 2 + t ^ 3 / 24490000).
Definition moon_anomaly (t : R) : R := deg (134.9634114 + 477198.8676313 * t + 0.0089970 * t ^ 2 + t ^ 3 / 69699 - t ^ 4 / 14712000).
Definition phase_angle (t : R) : R :=
  let D := elongation t in let M := sun_anomaly t in let M' := moon_anomaly t in
  PI - D - deg (6.289 * sin M' - 2.100 * sin M + 1.274 * sin (2 * D - M') + 0.658 * sin (2 * D) + 0.214 * sin (2 * M') + 0.110 * sin D).
Definition illuminated (t : R) : R := (1 + cos (phase_angle t)) / 2.
