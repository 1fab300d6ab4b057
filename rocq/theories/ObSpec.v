(** Specifications for lunar/lunar_ob.cpp: the tabular Islamic calendar, festival tables, era tables, the 60-cycle. *)
From Coq Require Import ZArith List Ascii String Bool.
From Verif Require Import Str DecSpec.
Import ListNotations.
Open Scope Z_scope.

(** ** Tabular Islamic calendar *)
(** a date (year, month, day) *)
Definition hdate := (Z * Z * Z)%type.
Definition hleap (y : Z) : bool :=
  existsb (Z.eqb ((y - 1) mod 30 + 1)) [2; 5; 7; 10; 13; 16; 18; 21; 24; 26; 29].
Definition hmonth_length (y m : Z) : Z :=
  if Z.odd m then 30 else if (m =? 12) && hleap y then 30 else 29.
Definition hreal (c : hdate) : Prop :=
  let '(y, m, d) := c in 1 <= m <= 12 /\ 1 <= d <= hmonth_length y m.
Definition hnext (c : hdate) : hdate :=
  let '(y, m, d) := c in
  if d <? hmonth_length y m then (y, m, d + 1)
  else if m <? 12 then (y, m + 1, 1)
  else (y + 1, 1, 1).
(** day numbers are counted from noon 2000-01-01; day 1 of month 1 of year 1 is day -503105 (Julian day 1948440,
    16 July 622) *)
Inductive islamic : Z -> hdate -> Prop :=
| isl_epoch : islamic (-503105) (1, 1, 1)
| isl_next n c : islamic n c -> islamic (n + 1) (hnext c)
| isl_prev n c : hreal c -> islamic n (hnext c) -> islamic (n - 1) c.

(** ** Festival tables *)
Inductive mark := Holiday | Major | Minor.
Definition mark_text (k : mark) : bytes := match k with Holiday => B "#" | Major => B "I" | Minor => B "." end.
(** festival on a fixed day of a month, with optional first and last year *)
Record festival := mkFest { f_day : Z; f_mark : mark; f_limits : option (Z * Z); f_name : bytes }.
(** festival on the k-th weekday w (0 = Sunday) of a month; k = 5 means the last one *)
Record week_festival := mkWFest { w_month : Z; w_k : Z; w_day : Z; w_mark : mark; w_name : bytes }.

Definition mark_eqb (a b : mark) : bool :=
  match a, b with Holiday, Holiday | Major, Major | Minor, Minor => true | _, _ => false end.

(** the festivals due in year y on day d of the month; entries without limits count from 1850 *)
Definition f_due (y d : Z) (f : festival) : bool :=
  (f_day f =? d) &&
  match f_limits f with Some (a, b) => (a <=? y) && (y <=? b) | None => 1850 <=? y end.

(** number of days j <= i of a month whose first day has weekday w0 that have weekday w *)
Definition count_weekday (w0 w i : Z) : Z :=
  Z.of_nat (List.length (filter (fun j => (w0 + Z.of_nat j) mod 7 =? w) (seq 0 (S (Z.to_nat i))))).
(** is day index i (from 0) of a month m with first weekday w0 and dn days due? *)
Definition w_due (m w0 dn i : Z) (f : week_festival) : bool :=
  (w_month f =? m) && ((w0 + i) mod 7 =? w_day f) &&
  (if w_k f =? 5 then dn <=? i + 7 else count_weekday w0 (w_day f) i =? w_k f).

(** the names of the class k, each followed by a blank *)
Definition names (k : mark) (l : list (mark * bytes)) : bytes :=
  flat_map (fun p => if mark_eqb (fst p) k then snd p ++ B " " else []) l.

(** ** Era tables *)
(** first year, number of years, years of the era already used up before, dynasty, temple name, emperor, era name *)
Record era := mkEra { e_start : Z; e_years : Z; e_used : Z; e_dynasty : bytes; e_temple : bytes; e_emperor : bytes; e_name : bytes }.
Definition e_covers (y : Z) (e : era) : bool := (e_start e <=? y) && (y <? e_start e + e_years e).
(** "[dynasty]temple emperor era N年", N being the year within the era *)
Definition era_entry (y : Z) (e : era) (t : bytes) : Prop :=
  exists n, int_text (y - e_start e + 1 + e_used e) n /\
    t = B "[" ++ e_dynasty e ++ B "]" ++ e_temple e ++ B " " ++ e_emperor e ++ B " " ++ e_name e ++ n ++ B "年".
(** the seven fields of an era in the table *)
Definition era_fields (e : era) (l : list bytes) : Prop :=
  exists a b c, int_text (e_start e) a /\ int_text (e_years e) b /\ int_text (e_used e) c /\
    l = [a; b; c; e_dynasty e; e_temple e; e_emperor e; e_name e].

(** ** Table texts *)
(** the last n decimal digits of x *)
Fixpoint dig (n : nat) (x : Z) : bytes := match n with O => [] | S n => dig n (x / 10) ++ [digit (x mod 10)] end.
(** text of a festival: two digits for the day, a mark, optionally "YYYY-YYYY", the name *)
Definition fest_text (f : festival) : bytes :=
  dig 2 (f_day f) ++ mark_text (f_mark f) ++
  match f_limits f with Some (a, b) => dig 4 a ++ B "-" ++ dig 4 b | None => [] end ++ f_name f.
(** well formed: without limits the name has at least four bytes (the code looks at the byte after them) and its fifth
    byte is not a hyphen *)
Definition fest_wf (f : festival) : bool :=
  (1 <=? f_day f) && (f_day f <=? 99) &&
  match f_limits f with
  | Some (a, b) => (0 <=? a) && (a <=? 9999) && (0 <=? b) && (b <=? 9999)
  | None => (4 <=? len (f_name f)) && negb (beq (firstn 1 (skipn 4 (f_name f))) (B "-"))
  end.
(** text of a weekday festival: two digits month, ordinal, weekday, mark, name *)
Definition wfest_text (f : week_festival) : bytes :=
  dig 2 (w_month f) ++ dig 1 (w_k f) ++ dig 1 (w_day f) ++ mark_text (w_mark f) ++ w_name f.
(** well formed: ordinal 1..4, or 5 ("last") with Sunday *)
Definition wfest_wf (f : week_festival) : bool :=
  (1 <=? w_month f) && (w_month f <=? 12) && (0 <=? w_day f) && (w_day f <=? 6) &&
  (1 <=? w_k f) && (w_k f <=? 5) && ((w_k f <=? 4) || (w_day f =? 0)).
