(** The texts of the rising and setting of Sun and Moon: shengjiang and shengjiang2 of eph/eph_show.cpp.
    SZJ::St, SZJ::Mt (eph/eph_szj.cpp) and sunShengJ (eph/eph0.cpp), with the station (L, fa) as arguments, are parameters. *)
From Coq Require Import ZArith List Ascii String Bool.
From Coq Require Import Floats.SpecFloat.
From Verif Require FormModel.
From Verif Require Import F64 Str CalModel FmtModel ItoaModel AngModel YearModel.
Import ListNotations.
Open Scope Z_scope.
Open Scope opt_scope.

(** eph/eph_szj.h:4-23, the members that are printed *)
Record sj_day := mkDay { d_z : f64; d_x : f64; d_s : f64; d_j : f64; d_c : f64; d_h : f64; d_c2 : f64; d_h2 : f64; d_c3 : f64; d_h3 : f64; d_sm : bytes }.
Definition NL : bytes := [ascii_of_nat 10].
(** eph/eph_show.cpp:245: J2000 + 8 / 24.0 *)
Definition beijing : f64 := fadd (fZ 2451545) (fdiv (fZ 8) (fZ 24)).
(** eph/eph_show.cpp:248-252, 257-258: two labelled moments and the end of the line *)
Definition pair_line (l1 : string) (a : f64) (l2 : string) (b : f64) : option bytes :=
  let* x := JD2str (fadd a beijing) in
  let* y := JD2str (fadd b beijing) in
  Some (B l1 ++ x ++ B l2 ++ y ++ NL).
(** eph/eph_show.cpp:253: timeStr(b - a - 0.5) *)
Definition span_text (a b : f64) : option bytes := timeStr (fsub (fsub b a) (lit 5 10)).

Section Rpt.
Variables St Mt : f64 -> f64 -> f64 -> sj_day.
Variable sunShengJ : f64 -> f64 -> f64 -> Z -> f64.

(** eph/eph_show.cpp:235-261; L and fa are jw.J / radd and jw.W / radd *)
Definition shengjiang (L fa : f64) (y m d : Z) : option bytes :=
  let* j := toJD (mkDate y m d 12 0 (fZ 0)) in
  let jd := fsub j (fZ 2451545) in
  let sq := fmul (fdiv L FormModel.pi2) (fZ 24) in
  let r := St L fa (fsub jd (fdiv sq (fZ 24))) in
  let s := ESC :: B "[31;1m北京时间(转为格林尼治时间请减8小时)：" ++ ESC :: B "[0m" ++ NL in
  let* l1 := pair_line "太阳升起 " (d_s r) " 太阳降落 " (d_j r) in
  let* l2 := pair_line "日上中天 " (d_z r) " 日下中天 " (d_x r) in
  let* l3 := pair_line "民用天亮 " (d_c r) " 民用天黑 " (d_h r) in
  let* l4 := pair_line "航海天亮 " (d_c2 r) " 航海天黑 " (d_h2 r) in
  let* l5 := pair_line "天文天亮 " (d_c3 r) " 天文天黑 " (d_h3 r) in
  let* t1 := span_text (d_s r) (d_j r) in
  let* t2 := span_text (d_c r) (d_h r) in
  let l6 := B "日照长度  " ++ t1 ++ B " " ++ NL ++ B "日光长度  " ++ t2 ++ NL in
  let l7 := match d_sm r with [] => [] | sm => B "注：" ++ sm ++ NL end in
  let r := Mt L fa (fsub jd (fdiv sq (fZ 24))) in
  let* l8 := pair_line "月亮升起 " (d_s r) " 月亮降落 " (d_j r) in
  let* l9 := pair_line "月上中天 " (d_z r) " 月下中天 " (d_x r) in
  Some (s ++ l1 ++ l2 ++ l3 ++ l4 ++ l5 ++ l6 ++ l7 ++ l8 ++ l9).

(** eph/eph_show.cpp:274-277: the row of the day jd + i *)
Definition sun_row (L fa jd : f64) (i : Z) : option bytes :=
  let a := fadd (fadd (sunShengJ (fadd jd (fZ i)) L fa (-1)) (fZ 2451545)) (fdiv (fZ 8) (fZ 24)) in
  let* t := JD2str a in
  let* c := substr t 1 14 in
  let b := fadd (fadd (sunShengJ (fadd jd (fZ i)) L fa 1) (fZ 2451545)) (fdiv (fZ 8) (fZ 24)) in
  let* u := timeStr b in
  Some (B "  " ++ ESC :: B "[31m" ++ c ++ ESC :: B "[0m  " ++ u ++ NL).
(** eph/eph_show.cpp:272-278: the rows from i on, n rows to go *)
Fixpoint sun_rows (L fa jd : f64) (n : nat) (i : Z) : option bytes :=
  match n with
  | O => Some []
  | S n => let* r := sun_row L fa jd i in let* rs := sun_rows L fa jd n (i + 1) in Some (r ++ rs)
  end.
(** eph/eph_show.cpp:263-282 *)
Definition shengjiang2 (L fa : f64) (y : Z) : option bytes :=
  let* j := toJD (mkDate y 1 1 12 0 (fZ 0)) in
  let* rows := sun_rows L fa (fsub j (fZ 2451545)) 368 0 in
  let* ys := to_str y in
  Some (ys ++ B "年太阳年度升降表" ++ NL ++ B "        升        降" ++ NL ++ rows).
End Rpt.
