(** lunar/lunar.cpp:196-238 nianLiSTR: the calendar of a year as text.
    OBB::so_accurate2 and OBB::qi_accurate2 (lunar/lunar_ob.cpp:343-368, exact times from the series) are parameters; so is the day function
    of calcY (see [SsqModel]).  The static tables of SSQ that calcY overwrites are its result. *)
From Coq Require Import ZArith List Ascii String Bool.
From Coq Require Import Floats.SpecFloat.
From Verif Require Import F64 Str DecSpec CalModel FmtModel SsqModel ObTab PageModel.
Import ListNotations.
Open Scope Z_scope.
Open Scope opt_scope.

(** the escape sequences at lunar/lunar.cpp:214, 231 *)
Definition ESC : ascii := ascii_of_nat 27.
Definition red_on : bytes := ESC :: B "[31m".
Definition red_off : bytes := ESC :: B "[0m".

(** lunar/lunar.cpp:212-214 and 229-231: s2, the exact time in brackets, red when it falls on another day than [d] *)
Definition exact_text (v : f64) (d : Z) : option bytes :=
  let* t := JD2str (fadd v (fZ J2000)) in
  let* c := substr t 9 11 in
  let s2 := B "(" ++ c ++ B ")" in
  let* n := int2 (fadd v (lit 5 10)) in
  Some (if n =? d then s2 else red_on ++ s2 ++ red_off).
(** lunar/lunar.cpp:210, 227: [JD2str(d+J2000).substr(6,5)], d + J2000 in int (210) or in double (227: the same for these values) *)
Definition day_text (d : Z) : option bytes :=
  let* j := mk_int (d + J2000) in
  let* t := JD2str (fZ j) in
  substr t 6 5.

(** lunar/lunar.cpp:221-223: qi of the round j *)
Definition term_day (s : sui) (j : Z) : option Z :=
  if 0 <=? j then at_ (s_ZQ s) j else if j =? -1 then at_ (s_pe s) 0 else at_ (s_pe s) 1.
(** lunar/lunar.cpp:219-234: the loop on j, n rounds to go; what is added to s1 *)
Fixpoint term_loop (qi_accurate2 : f64 -> f64) (s : sui) (h0 h1 : Z) (n : nat) (j : Z) (s1 : bytes) : option bytes :=
  match n with
  | O => Some s1
  | S n =>
    let* qi := term_day s j in
    if (qi <? h0) || (h1 <=? qi) then term_loop qi_accurate2 s h0 h1 n (j + 1) s1
    else
      let* name := at_ str_jqmc (Z.rem (j + 24) 24) in
      let* dt := day_text qi in
      let* s2 := exact_text (qi_accurate2 (fZ qi)) qi in
      term_loop qi_accurate2 s h0 h1 n (j + 1) (((s1 ++ B "  ") ++ (name ++ dt)) ++ s2)
  end.
(** lunar/lunar.cpp:205-209: the name of the month with its length *)
Definition month_head (s : sui) (i : Z) : option bytes :=
  let isleap := negb (s_leap s =? 0) && (i =? s_leap s) in
  let s1 := if isleap then B "闰" else B "  " in
  let* ym := at_ (s_ym s) i in
  let s1 := s1 ++ ym in
  let s1 := if (len s1 <? 6) || ((len s1 <? 9) && isleap) then s1 ++ B "月" else s1 in
  let* dx := at_ (s_dx s) i in
  Some (s1 ++ (if 29 <? dx then B "大" else B "小")).
(** lunar/lunar.cpp:205-234: the line of month i, s1 *)
Definition month_line (so_accurate2 qi_accurate2 : f64 -> f64) (s : sui) (i : Z) : option bytes :=
  let* s1 := month_head s i in
  let* h0 := at_ (s_HS s) i in
  let* h1 := at_ (s_HS s) (i + 1) in
  let* dt := day_text h0 in
  let s1 := s1 ++ B " " ++ dt in
  let* s2 := exact_text (so_accurate2 (fZ h0)) h0 in
  term_loop qi_accurate2 s h0 h1 26 (-2) (s1 ++ s2).
(** lunar/lunar.cpp:202-236: the loop on i, n rounds to go *)
Fixpoint month_loop (so_accurate2 qi_accurate2 : f64 -> f64) (s : sui) (n : nat) (i : Z) (t : bytes) : option bytes :=
  match n with
  | O => Some t
  | S n =>
    let* h1 := at_ (s_HS s) (i + 1) in
    let* z := at_ (s_ZQ s) 24 in
    if z <? h1 then Some t
    else
      let* s1 := month_line so_accurate2 qi_accurate2 s i in
      month_loop so_accurate2 qi_accurate2 s n (i + 1) (t ++ s1 ++ [ascii_of_nat 10])
  end.
(** lunar/lunar.cpp:196-238 *)
Definition nianLiSTR (cal : f64 -> Z -> option Z) (so_accurate2 qi_accurate2 : f64 -> f64) (y : Z) : option bytes :=
  let* d := int2 (fadd (fmul (fsub (fZ y) (fZ 2000)) (lit 3652422 10000)) (fZ 180)) in
  let* s := calcY cal (fZ d) in
  month_loop so_accurate2 qi_accurate2 s 14 0 [].
