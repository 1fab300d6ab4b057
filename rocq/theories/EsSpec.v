(** What a list of solar eclipses is to say: one item for each new moon in turn, and the text of the items that are eclipses. *)
From Coq Require Import ZArith Reals List String Ascii.
From Verif Require Import F64 F64R Str DecSpec FmtSpec CalSpec EcSpec.
Import ListNotations.
Open Scope R_scope.
Open Scope list_scope.

(** the moment (days from J2000) and the kind for new moon number k: none because the Moon is far from its node; a kind that is certain by the series of
    EcSpec, or, when it is doubtful by them, what the close examination [exam] says *)
Inductive item (exam : Z -> f64 * string) (k : Z) : f64 * string -> Prop :=
| far_from_node jd : ok jd -> 0.4 - 1e-8 < Rabs (sin (node_arg (mean_new (IZR k)))) -> Rabs (R64 jd - 36525 * mean_new (IZR k)) <= 1e-7 -> item exam k (jd, "N"%string)
| certain jd lx : ok jd -> Rabs (sin (node_arg (mean_new (IZR k)))) < 0.4 + 1e-8 -> Rabs (R64 jd - 36525 * true_new (IZR k)) <= 1e-7 ->
    kind_at (true_new (IZR k)) lx -> clear_of_limits (true_new (IZR k)) -> item exam k (jd, lx)
| examined : Rabs (sin (node_arg (mean_new (IZR k)))) < 0.4 + 1e-8 -> doubtful (true_new (IZR k)) -> item exam k (exam k).

(** the n numbers from k on *)
Fixpoint numbers_from (k : Z) (n : nat) : list Z := match n with O => [] | S n => k :: numbers_from (k + 1) n end.

(** the text of one eclipse: its date, year-month-day, and its kind.  The date is the civil day (0h to 24h of dynamical time) of the moment, up to one second at its ends *)
Definition entry (jd : f64) (lx : string) (e : bytes) : Prop :=
  exists n y mo d ty tmo td, e = (ty ++ B "-" ++ tmo ++ B "-" ++ td) ++ B lx /\ blank_field 5 y ty /\ digits_field 2 mo tmo /\ digits_field 2 d td /\
    day_number n (mkc y mo d) /\ IZR n - 1 / 2 - 1 / 86400 <= R64 jd + 2451545 <= IZR n + 1 / 2 + 1 / 86400.

(** the whole text, [c] eclipses having been written before: a new line after each fifth eclipse *)
Inductive report : nat -> list (f64 * string) -> bytes -> Prop :=
| no_more c : report c [] []
| no_eclipse c jd l t : report c l t -> report c ((jd, "N"%string) :: l) t
| eclipse c jd lx l e t : lx <> "N"%string -> entry jd lx e -> report (S c) l t ->
    report c ((jd, lx) :: l) (e ++ (if Nat.eqb (S c mod 5) 0 then [ascii_of_nat 10] else []) ++ t).
