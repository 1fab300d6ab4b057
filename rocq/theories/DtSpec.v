(** Independent specification of Delta T over the real numbers: a table of cubics, then a blend, then a parabola. *)
From Coq Require Import ZArith Reals List.
Import ListNotations.
Open Scope R_scope.

(** first year of the row; the four coefficients in units of 1/10000 second *)
Definition rows : list (Z * Z * Z * Z * Z) :=
  [
   ((-4000), 1083717000, (-130368000), 3920000, 0);
   ((-500), 172010000, (-6278200), 161700, (-3413));
   ((-150), 122006000, (-3464100), 54030, (-1593));
   (150, 91138000, (-3281300), (-16470), 377);
   (500, 57075000, (-3914100), 9150, 3145);
   (900, 22034000, (-2834500), 130340, (-1778));
   (1300, 4901000, (-573500), 20850, (-72));
   (1600, 1200000, (-98100), (-15320), 1403);
   (1700, 102000, (-9100), 5100, (-370));
   (1800, 134000, (-7200), 2020, (-193));
   (1830, 78000, (-18100), 4160, (-247));
   (1860, 83000, (-1300), (-4060), 292);
   (1880, (-54000), 3200, (-1830), 173);
   (1900, (-23000), 20600, 1690, (-135));
   (1920, 212000, 16900, (-3040), 167);
   (1940, 242000, 12200, (-640), 31);
   (1960, 332000, 5100, 2310, (-109));
   (1980, 510000, 12900, (-260), 32);
   (2000, 638700, 1000, 0, 0);
   (2005, 647000, 2100, 0, 0);
   (2012, 668000, 2200, 0, 0);
   (2018, 690000, 3600, 0, 0)]%Z.
(** the row in force in its own units: tau runs from 0 to 10 between the first year of the row and that of the next *)
Definition cubic (c : Z * Z * Z * Z * Z) (tau : R) : R :=
  let '(_, c0, c1, c2, c3) := c in
  (IZR c0 + IZR c1 * tau + IZR c2 * tau ^ 2 + IZR c3 * tau ^ 3) / 10000.
Definition first_year (c : Z * Z * Z * Z * Z) : Z := let '(b, _, _, _, _) := c in b.
Definition next_first (rest : list (Z * Z * Z * Z * Z)) : Z := match rest with c :: _ => first_year c | [] => 2028 end.
Fixpoint in_table (l : list (Z * Z * Z * Z * Z)) (y : R) : R :=
  match l with
  | [] => 0
  | c :: rest =>
      if Rlt_dec y (IZR (next_first rest)) then
        cubic c (10 * (y - IZR (first_year c)) / (IZR (next_first rest) - IZR (first_year c)))
      else in_table rest y
  end.
Definition parabola (y : R) : R := -20 + 31 * ((y - 1820) / 100) ^ 2.
Definition delta_T (y : R) : R :=
  if Rlt_dec y 2028 then in_table rows y
  else if Rle_dec y 2128 then parabola y - (parabola 2028 - 726 / 10) * (2128 - y) / 100
  else parabola y.
