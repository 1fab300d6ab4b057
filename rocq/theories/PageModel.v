(** Model of the month page, lunar/lunar.cpp:16-194 (yueLiCalc).
    The calendar tables come from [SsqModel.calcY] with the day function [cal] (SSQ::calc) as a parameter; the series for the
    exact times of phases and terms are parameters of the last part. *)
From Coq Require Import ZArith List Ascii String Bool.
From Coq Require Import Floats.SpecFloat.
From Verif Require Import F64 Str ItoaModel StrModel CalModel FmtModel SsqModel HuiModel ObTab ObModel.
Import ListNotations.
Open Scope Z_scope.
Open Scope opt_scope.

(** ** The page head *)
(** eph/eph0.h:21 *)
Definition J2000 : Z := 2451545.
(** lunar/lunar.cpp:20, 24  [int2(toJD(JD)) - J2000] at {y, m, 1, 12, 0, 0.1} *)
Definition first_day (y m : Z) : option Z :=
  let* x := toJD (mkDate y m 1 12 0 (lit 1 10)) in
  let* n := int2 x in
  mk_int (n - J2000).
Record head := mkHead { p_y : Z; p_m : Z; p_d0 : Z; p_dn : Z; p_w0 : Z }.
(** lunar/lunar.cpp:19-31  (% on ints truncates) *)
Definition page_head (By Bm : Z) : option head :=
  let* Bd0 := first_day By Bm in
  let* M := mk_int (Bm + 1) in
  let* (Y, M) := (if 12 <? M then let* Y := mk_int (By + 1) in Some (Y, 1) else Some (By, M)) in
  let* e := first_day Y M in
  let* Bdn := mk_int (e - Bd0) in
  let* a := mk_int (Bd0 + J2000) in
  let* b := mk_int (a + 1) in
  let* c := mk_int (b + 7000000) in
  Some (mkHead By Bm Bd0 Bdn (Z.rem c 7)).

(** ** One day *)
(** lunar/lunar.cpp:42-54  d0, week, weeki, weekN, d of day i of the page *)
Record civil_day := mkCivil { c_d0 : Z; c_di : Z; c_week : Z; c_weeki : Z; c_weekN : Z; c_d : Z }.
Definition page_civil (p : head) (i : Z) : option civil_day :=
  let* d0 := mk_int (p_d0 p + i) in
  let* wi := mk_int (p_w0 p + i) in
  let* weeki := int2 (fZ (Z.quot wi 7)) in
  let* k := int2 (fZ (Z.quot (p_w0 p + p_dn p - 1) 7)) in
  let* j := mk_int (d0 + J2000) in
  let* JD := setFromJD (fZ j) in
  Some (mkCivil d0 i (Z.rem wi 7) weeki (k + 1) (D JD)).

(** lunar/lunar.cpp:57-58  the tables cover the day already? *)
Definition covers (s : sui) (d0 : Z) : option bool :=
  let* a := at_ (s_ZQ s) 0 in
  if a =? 0 then Some false
  else if d0 <? a then Some false
  else let* b := at_ (s_ZQ s) 24 in Some (negb (b <=? d0)).
(** the static tables before the first call *)
Definition sui_zero : sui := mkSui (repeat 0 25) [0; 0] (repeat 0 15) (repeat 0 14) 0 (repeat [] 14).
Definition sui_for (cal : f64 -> Z -> option Z) (s : sui) (d0 : Z) : option sui :=
  let* b := covers s d0 in if b then Some s else calcY cal (fZ d0).

(** lunar/lunar.cpp:59-61  index of the lunar month of the day *)
Definition month_index (HS : list Z) (d0 : Z) : option Z :=
  let* h0 := at_ HS 0 in
  let* t := mk_int (d0 - h0) in
  let* mk := int2 (fdiv (fZ t) (fZ 30)) in
  if mk <? 13 then let* h := at_ HS (mk + 1) in Some (if h <=? d0 then mk + 1 else mk) else Some mk.
(** lunar/lunar.cpp:88-90  index of the solar term period of the day *)
Definition term_index (ZQ : list Z) (d0 : Z) : option Z :=
  let* z0 := at_ ZQ 0 in
  let* t := mk_int (d0 - z0) in
  let* t := mk_int (t - 7) in
  let* qk := int2 (fdiv (fZ t) (lit 152184 10000)) in
  if qk <? 23 then let* z := at_ ZQ (qk + 1) in Some (if z <=? d0 then qk + 1 else qk) else Some qk.
(** lunar/lunar.cpp:91-94 *)
Definition term_name (ZQ : list Z) (d0 : Z) : option bytes :=
  let* qk := term_index ZQ d0 in
  let* z := at_ ZQ qk in
  if d0 =? z then at_ str_jqmc qk else Some [].

(** stem and branch with index v (v % 10, v % 12; a negative remainder is an access outside the table) *)
Definition gz (v : Z) : option bytes :=
  let* g := at_ str_gan (Z.rem v 10) in
  let* z := at_ str_zhi (Z.rem v 12) in
  Some (g ++ z).
(** lunar/lunar.cpp:101-102 and 118  [floor(D / 365.2422 + 0.5)] *)
Definition year_round (D : Z) : option Z := cast_int (ffloor (fadd (fdiv (fZ D) (lit 3652422 10000)) (lit 5 10))).
(** lunar/lunar.cpp:101  the year counted from 1984, changing at the beginning of spring *)
Definition year_spring (ZQ : list Z) (d0 : Z) : option Z :=
  let* z3 := at_ ZQ 3 in
  let* a := mk_int (z3 + (if d0 <? z3 then -365 else 0)) in
  let* D := cast_int (fsub (fadd (fZ a) (fmul (lit 36525 100) (fZ 16))) (fZ 35)) in
  year_round D.
(** lunar/lunar.cpp:105-116  search of the new year day; [j] from 0 *)
Fixpoint spring_loop (fuel : nat) (s : sui) (d0 j D : Z) : option Z :=
  match fuel with
  | O => Some D
  | S fuel =>
      let* n := at_ (s_ym s) j in
      if negb (beq n (B "正")) || ((s_leap s =? j) && negb (j =? 0)) then spring_loop fuel s d0 (j + 1) D
      else
        let* D := at_ (s_HS s) j in
        if d0 <? D then mk_int (D - 365) else spring_loop fuel s d0 (j + 1) D
  end.
(** lunar/lunar.cpp:104-118 *)
Definition year_festival (s : sui) (d0 : Z) : option Z :=
  let* h2 := at_ (s_HS s) 2 in
  let* D := spring_loop 14 s d0 0 h2 in
  let* D := mk_int (D + 5810) in
  year_round D.
(** lunar/lunar.cpp:128-132  months since the month of December 1998, plus 900000 *)
Definition month_pillar (ZQ : list Z) (d0 : Z) : option Z :=
  let* z0 := at_ ZQ 0 in
  let* t := mk_int (d0 - z0) in
  let* mk := int2 (fdiv (fZ t) (lit 3043685 100000)) in
  let* mk := (if mk <? 12 then let* z := at_ ZQ (2 * mk + 1) in Some (if z <=? d0 then mk + 1 else mk) else Some mk) in
  let* z12 := at_ ZQ 12 in
  let* u := mk_int (z12 + 390) in
  let* y := int2 (fdiv (fZ u) (lit 3652422 10000)) in
  let* y12 := mk_int (y * 12) in
  let* a := mk_int (mk + y12) in
  mk_int (a + 900000).
(** lunar/lunar.cpp:138 *)
Definition day_pillar (d0 : Z) : option Z := let* a := mk_int (d0 - 6) in mk_int (a + 9000000).
(** lunar/lunar.cpp:143-146  zodiac sign *)
Definition zodiac (ZQ : list Z) (d0 : Z) : option bytes :=
  let* z0 := at_ ZQ 0 in
  let* t := mk_int (d0 - z0) in
  let* t := mk_int (t - 15) in
  let* mk := int2 (fdiv (fZ t) (lit 3043685 100000)) in
  let* mk := (if mk <? 11 then let* z := at_ ZQ (2 * mk + 2) in Some (if z <=? d0 then mk + 1 else mk) else Some mk) in
  at_ str_xz (Z.rem (mk + 12) 12).

(** name, length, leap mark and name of the next lunar month *)
Record month_info := mkMonth { m_Lmc : bytes; m_Ldn : Z; m_Lleap : bytes; m_Lmc2 : bytes }.
(** lunar/lunar.cpp:71-77 *)
Definition month_info_at (s : sui) (mk : Z) : option month_info :=
  let* a := at_ (s_ym s) mk in
  let* n := at_ (s_dx s) mk in
  let* b := (if mk <? 13 then at_ (s_ym s) (mk + 1) else Some (B "未知")) in
  Some (mkMonth a n (if negb (s_leap s =? 0) && (s_leap s =? mk) then B "闰" else []) b).

Record lunar_day := mkLunar { y_mk : Z; y_Ldi : Z; y_Ldc : bytes; y_dz : Z; y_xz : Z; y_lq : Z; y_mz : Z; y_xs : Z; y_month : month_info;
  y_Ljq : bytes; y_Lyear : Z; y_Lyear0 : Z; y_Lyear2 : bytes; y_Lyear3 : bytes; y_Lyear4 : Z; y_Lmonth : Z; y_Lmonth2 : bytes; y_Lday2 : bytes;
  y_XiZ : bytes; y_H : Z * Z * Z }.
(** lunar/lunar.cpp:59-150; [prev] is the month information of the day before ([None] on the first day of the page) *)
Definition page_lunar (s : sui) (p : head) (prev : option month_info) (d0 : Z) : option lunar_day :=
  let* mk := month_index (s_HS s) d0 in
  let* hs := at_ (s_HS s) mk in
  let* Ldi := mk_int (d0 - hs) in
  let* Ldc := at_ str_rmc Ldi in
  let* z0 := at_ (s_ZQ s) 0 in let* dz := mk_int (d0 - z0) in
  let* z12 := at_ (s_ZQ s) 12 in let* xz := mk_int (d0 - z12) in
  let* z15 := at_ (s_ZQ s) 15 in let* lq := mk_int (d0 - z15) in
  let* z11 := at_ (s_ZQ s) 11 in let* mz := mk_int (d0 - z11) in
  let* z13 := at_ (s_ZQ s) 13 in let* xs := mk_int (d0 - z13) in
  let* mi := (if (d0 =? hs) || (d0 =? p_d0 p) then month_info_at s mk else prev) in
  let* jq := term_name (s_ZQ s) d0 in
  let* ly := year_spring (s_ZQ s) d0 in
  let* ly0 := year_festival s d0 in
  let* a := mk_int (ly + 12000) in let* ly2 := gz a in
  let* a := mk_int (ly0 + 12000) in let* ly3 := gz a in
  let* a := mk_int (ly0 + 1984) in let* ly4 := mk_int (a + 2698) in
  let* mp := month_pillar (s_ZQ s) d0 in let* lm2 := gz mp in
  let* dp := day_pillar d0 in let* ld2 := gz dp in
  let* xiz := zodiac (s_ZQ s) d0 in
  let* H := getHuiLi (fZ d0) in
  Some (mkLunar mk Ldi Ldc dz xz lq mz xs mi jq ly ly0 ly2 ly3 ly4 (Z.rem mp 12) lm2 ld2 xiz H).

(** lunar/lunar.cpp:151-153  the festivals of the day; the strings A, B, C start empty and the flag Fjia without a value *)
Definition page_notes (tab : list (list bytes)) (wtab : list bytes) (p : head) (c : civil_day) (l : lunar_day) (errno : bool) : option (bool * notes) :=
  let* (errno, r) := getDayName tab wtab (mkDayIn (p_y p) (p_m p) (c_d c) (c_week c) (p_w0 p) (c_weeki c) (c_weekN c)) (errno, mkNotes [] [] [] None) in
  let mi := y_month l in
  let* r := getDayName2 (mkLunarIn (m_Lmc mi) (m_Lmc2 mi) (y_Ldc l) (m_Ldn mi) (m_Lleap mi) (y_Ljq l) (y_Lday2 l) (y_dz l) (y_xz l) (y_lq l) (y_mz l) (y_xs l)) r in
  Some (errno, r).

Record page_day := mkPageDay { g_civil : civil_day; g_lunar : lunar_day; g_notes : notes }.
(** lunar/lunar.cpp:39-154  the loop over the days; state: the static tables of SSQ, errno, the month information of the day before *)
Fixpoint page_days (cal : f64 -> Z -> option Z) (tab : list (list bytes)) (wtab : list bytes) (p : head) (n : nat) (i : Z)
    (s : sui) (errno : bool) (prev : option month_info) : option (sui * bool * list page_day) :=
  match n with
  | O => Some (s, errno, [])
  | S n =>
      let* c := page_civil p i in
      let* s := sui_for cal s (c_d0 c) in
      let* l := page_lunar s p prev (c_d0 c) in
      let* (errno, r) := page_notes tab wtab p c l errno in
      let* (s, errno, rest) := page_days cal tab wtab p n (i + 1) s errno (Some (y_month l)) in
      Some (s, errno, mkPageDay c l r :: rest)
  end.
Record page := mkPage { pg_head : head; pg_nianhao : bytes; pg_days : list page_day }.
(** lunar/lunar.cpp:16-154; lun.day has 31 elements (lunar/lunar.h) *)
Definition yueLiCalc (cal : f64 -> Z -> option Z) (tab : list (list bytes)) (wtab JNB : list bytes) (s : sui) (errno : bool) (By Bm : Z)
  : option (sui * bool * page) :=
  let* p := page_head By Bm in
  let* (errno, nh) := getNH JNB By errno in
  if 31 <? p_dn p then None
  else
    let* (s, errno, days) := page_days cal tab wtab p (Z.to_nat (p_dn p)) 0 s errno None in
    Some (s, errno, mkPage p nh days).

(** ** Phases and terms *)
(** lunar/lunar.cpp:163-176 and 181-194  one of the two do-while loops: [time] is so_accurate / qi_accurate, [step] the angle
    between two events, [name w] the index of the event; a found event (index into lun.day, name, time) is stored in the day.
    [slack] is 5 or 12.  The loop need not end for an arbitrary [time]; [fuel] bounds the rounds. *)
Fixpoint event_loop (fuel : nat) (time : f64 -> f64) (step : f64) (name : f64 -> option Z) (slack Bd0 Bdn : Z) (w : f64) : option (list (Z * Z * f64)) :=
  match fuel with
  | O => Some []
  | S fuel =>
      let d := time w in
      let* D := int2 (fadd d (lit 5 10)) in
      let* xn := name w in
      let w := fadd w step in
      let* e := mk_int (Bd0 + Bdn) in
      if e <=? D then Some []
      else
        let* D5 := mk_int (D + slack) in
        let* rest := (if D5 <? e then event_loop fuel time step name slack Bd0 Bdn w else Some []) in
        if D <? Bd0 then Some rest
        else let* k := mk_int (D - Bd0) in Some ((k, xn, d) :: rest)
  end.
