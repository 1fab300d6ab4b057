(** Independent specification of the civil calendar: leap-year rules, the day after a day, and day counting.
    Nothing here refers to the code. *)
From Coq Require Import ZArith Bool.
Open Scope Z_scope.

Record cdate := mkc { cy : Z; cm : Z; cd : Z }.

(** Julian rule up to 1582, Gregorian rule afterwards (astronomical year numbering, year 0 exists). *)
Definition leap_year (y : Z) : bool :=
  if y <=? 1582 then y mod 4 =? 0
  else (y mod 4 =? 0) && (negb (y mod 100 =? 0) || (y mod 400 =? 0)).

Definition month_len (y m : Z) : Z :=
  if m =? 2 then (if leap_year y then 29 else 28)
  else if (m =? 4) || (m =? 6) || (m =? 9) || (m =? 11) then 30 else 31.

(** A date that exists: 5..14 October 1582 do not. *)
Definition real_date (d : cdate) : Prop :=
  1 <= cm d <= 12 /\ 1 <= cd d <= month_len (cy d) (cm d) /\
  ~ (cy d = 1582 /\ cm d = 10 /\ 5 <= cd d <= 14).

Definition next_day (d : cdate) : cdate :=
  if (cy d =? 1582) && (cm d =? 10) && (cd d =? 4) then mkc 1582 10 15
  else if cd d <? month_len (cy d) (cm d) then mkc (cy d) (cm d) (cd d + 1)
  else if cm d <? 12 then mkc (cy d) (cm d + 1) 1
  else mkc (cy d + 1) 1 1.

(** [day_number n d]: d is reached from 1 January -4712 (Julian day 0) by counting n days. *)
Inductive day_number : Z -> cdate -> Prop :=
| dn_zero : day_number 0 (mkc (-4712) 1 1)
| dn_fwd n d : day_number n d -> day_number (n + 1) (next_day d)
| dn_bwd n d : real_date d -> day_number (n + 1) (next_day d) -> day_number n d.
