(** Where the Sun stands in the sky of a station, as real functions of the time. *)
From Coq Require Import ZArith Reals.
From Verif Require Import SmTab WaveF FormSpec SmSpec.
Open Scope R_scope.

(** the Sun's longitude from the mean equinox of date, all terms of the series; t centuries from J2000 *)
Definition sun_of_date (t : R) : R := earth_full t + PI + sun_aberration t.
(** a body on the ecliptic at longitude l, obliquity e, local sidereal time th: the parts of its direction towards the
    pole (the sine of the declination), towards the meridian on the equator, and towards the west *)
Definition to_pole (l e : R) : R := sin e * sin l.
Definition to_meridian (l e th : R) : R := cos l * cos th + cos e * sin l * sin th.
Definition to_west (l e th : R) : R := cos l * sin th - cos e * sin l * cos th.
(** the Sun at the moment T (days of UT from J2000), dt = TD - UT in days, at longitude L and latitude fa of the Earth *)
Definition at_sun {A : Type} (f : R -> R -> A) (dt T : R) : A := f (sun_of_date ((T + dt) / 36525)) (obliquity ((T + dt) / 36525)).
Definition local_time (L dt T : R) : R := sidereal_time T dt + L.
(** sine of the altitude, cosine of declination times cosine and sine of the hour angle *)
Definition sin_altitude (L fa dt T : R) : R :=
  sin fa * at_sun to_pole dt T + cos fa * at_sun to_meridian dt T (local_time L dt T).
Definition meridian (L dt T : R) : R := at_sun to_meridian dt T (local_time L dt T).
Definition west (L dt T : R) : R := at_sun to_west dt T (local_time L dt T).
(** the Sun passes the altitude h at about s1, going up in the east or down in the west; d is how far s1 is from the
    moment whose solar coordinates were used *)
Definition passes (up : bool) (h L fa dt d s1 : R) : Prop :=
  Rabs (sin_altitude L fa dt s1 - sin h) <= 0.0098 * d + 3.03e-4 /\
  if up then west L dt s1 <= 0.0023 * d + 3.03e-4 else - (0.0023 * d + 3.03e-4) <= west L dt s1.
(** from the place where the Sun is at s0, no turn of the sky takes it across the altitude h *)
Definition stays (h fa dt s0 : R) : Prop :=
  let alt th := sin fa * at_sun to_pole dt s0 + cos fa * at_sun to_meridian dt s0 th in
  (forall th, alt th <= sin h + 3.03e-4) \/ (forall th, sin h - 3.03e-4 <= alt th).
(** upper and lower transit at about s, of the local day n *)
Definition on_meridian (upper : bool) (L dt : R) (n : Z) (s : R) : Prop :=
  Rabs (s + L / (2 * PI) - (if upper then IZR n else IZR n + / 2)) <= 0.02 /\ Rabs (west L dt s) <= 3.04e-4 /\
  if upper then 0.89 <= meridian L dt s else meridian L dt s <= - 0.89.
(** a rise or set of the local day n: s is at most half a day from a moment s0 in the half of that day on the proper side of
    noon, and from there the Sun either never passes the altitude h or passes it at s *)
Definition event (up : bool) (h L fa dt : R) (n : Z) (s : R) (never : bool) : Prop :=
  exists s0, Rabs (s0 + L / (2 * PI) - (if up then IZR n - / 4 else IZR n + / 4)) <= 0.27 /\ Rabs (s - s0) <= 0.51 /\
    if never then stays h fa dt s0 else passes up h L fa dt (Rabs (s - s0)) s.
(** altitudes of the Sun at sunrise (50 minutes of arc below the horizon) and at the three twilights (6, 12 and 18 degrees below) *)
Definition below (xm : nat) : R := - arcsec (match xm with 1%nat => 3000 | 2%nat => 21600 | 3%nat => 43200 | _ => 64800 end).
