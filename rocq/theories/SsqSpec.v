(** Specifications for the lunar calendar tables, independent of the code. *)
From Coq Require Import ZArith List Ascii.
From Verif Require Import Str.
Import ListNotations.
Open Scope Z_scope.

(** [r] is [s] with every key letter replaced by its expansion, all letters at once *)
Inductive expands (rules : list (ascii * bytes)) : bytes -> bytes -> Prop :=
| ex_nil : expands rules [] []
| ex_key c d s r : In (c, d) rules -> expands rules s r -> expands rules (c :: s) (d ++ r)
| ex_other c s r : ~ In c (map fst rules) -> expands rules s r -> expands rules (c :: s) (c :: r).

(** ** Leap months.  [A k] is the day of the k-th solar term counted from a winter solstice ([A (2*j)] are the major
    terms), [B i] the first day of the i-th month; month 0 contains the solstice [A 0]. *)

(** month i contains the day d *)
Definition in_month (B : Z -> Z) (i d : Z) : Prop := B i <= d < B (i + 1).
(** month i contains a major term *)
Definition has_major (A B : Z -> Z) (i : Z) : Prop := exists j, 0 <= j <= 12 /\ in_month B i (A (2 * j)).
(** thirteen months fit before the next solstice *)
Definition thirteen (A B : Z -> Z) : Prop := B 13 <= A 24.

(** Tables as nature makes them: month lengths 29 or 30 days, major terms 29 to 32 days apart, at most 366 days between
    the solstices, and month 0 contains the solstice. *)
Definition natural (A B : Z -> Z) : Prop :=
  (forall i, 0 <= i <= 13 -> 29 <= B (i + 1) - B i <= 30) /\
  (forall j, 0 <= j <= 11 -> 29 <= A (2 * j + 2) - A (2 * j) <= 32) /\
  A 24 - A 0 <= 366 /\ in_month B 0 (A 0).

(** the year a sui (solstice year) is named after: the one of its solstice plus 10 days, counted in tropical years of
    365.2422 days from J2000 *)
Definition sui_year (solstice : Z) : Z := 2000 + (solstice + 190) * 10000 / 3652422.
(** the months of the years -721..-104 were named by other rules *)
Definition old_era (solstice : Z) : Prop := -721 <= sui_year solstice <= -104.

(** Julian days of months that were named by special decrees (the years 9-23, 237-239, 689-700 and 761-762) *)
Definition decreed (Dm : Z) : Prop :=
  1724360 <= Dm <= 1729794 \/ 1807724 <= Dm <= 1808699 \/ 1999349 <= Dm <= 1999467 \/ 1973067 <= Dm <= 1977052.

(** The decreed names, k being the place of the month after the solstice month (k = 0, named 十一 by default):
    years 9-23 (Wang Mang) and 237-239 (Wei) count one month ahead, the last month of each being written 拾贰;
    761-762 counts two months ahead; 689-700 (Wu Zetian) only renames the solstice month to 正 and the month two places
    after it to 一. *)
Inductive month_era := one_ahead | two_ahead | wu_zetian | last_of_era | plain.
Definition in_era (e : month_era) (Dm : Z) : Prop :=
  match e with
  | one_ahead => 1724360 <= Dm < 1729794 \/ 1807724 <= Dm < 1808699
  | last_of_era => Dm = 1729794 \/ Dm = 1808699
  | two_ahead => 1999349 <= Dm <= 1999467
  | wu_zetian => 1973067 <= Dm <= 1977052
  | plain => ~ decreed Dm
  end.
