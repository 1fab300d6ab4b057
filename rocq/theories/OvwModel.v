(** The overview of one solar eclipse that rs2_calc of eph/eph_show.cpp returns. *)
From Coq Require Import ZArith List Ascii String Bool.
From Coq Require Import Floats.SpecFloat.
From Verif Require Import F64 Str CalModel FmtModel DtoaModel FmModel YearModel RptModel RysModel.
Import ListNotations.
Open Scope Z_scope.
Open Scope opt_scope.

(** eph/eph_rsgs.h:45-49: one of the points gk1 to gk5: longitude, latitude, moment *)
Record gpoint := mkG { g_J : f64; g_W : f64; g_t : f64 }.
(** eph/eph_rsgs.h:25-74: the members of _FEATURE that are printed; Sdp is (f_SJ, f_SW) *)
Record ovw := mkOvw { f_gk1 : gpoint; f_gk2 : gpoint; f_gk3 : gpoint; f_gk4 : gpoint; f_gk5 : gpoint; f_D : f64; f_zxJ : f64; f_zxW : f64; f_jd : f64; f_SJ : f64; f_SW : f64; f_lx : bytes; f_sf : f64; f_tt : f64; f_dw : f64 }.
(** eph/eph_show.cpp:178, 187: bold *)
Definition bold (t : string) : bytes := ESC :: B "[1m" ++ B t ++ ESC :: B "[0m" ++ NL.
(** eph/eph_show.cpp:180-185: the line of one point *)
Definition point_line (label : string) (g : gpoint) : option bytes :=
  let* t := JD2str (fadd (g_t g) (fZ 2451545)) in
  let* j := rad2str2 (g_J g) in
  let* w := rad2str2 (g_W g) in
  Some (B label ++ t ++ B " " ++ j ++ B "," ++ w ++ NL).
(** eph/eph_show.cpp:180-185: the lines of the points; [gk5[1] != 100] *)
Definition points (r : ovw) : option bytes :=
  let* a := point_line "偏食始：" (f_gk3 r) in
  let* b := point_line "中心始：" (f_gk1 r) in
  let* c := (if feqb (g_W (f_gk5 r)) (fZ 100) then Some [] else point_line "视午食：" (f_gk5 r)) in
  let* d := point_line "中心终：" (f_gk2 r) in
  let* e := point_line "偏食终：" (f_gk4 r) in
  Some (a ++ b ++ c ++ d ++ e).
Section Ovw.
(** what the digit generation reads behind its table (DtoaModel.v); the entry of lxb for a kind (LxbModel.v) *)
Variables (beyond : Z -> option Z) (name : bytes -> bytes).
(** eph/eph_show.cpp:188-193 *)
Definition center (r : ovw) : option bytes :=
  let* g := to_str_double beyond (f_D r) 4 0 false in
  let* j := to_str_double beyond (fmul (f_zxJ r) deg_per_rad) 2 0 false in
  let* w := to_str_double beyond (fmul (f_zxW r) deg_per_rad) 2 0 false in
  let* t := JD2str (fadd (f_jd r) (fZ 2451545)) in
  let* a := to_str_double beyond (fmul (f_SJ r) deg_per_rad) 0 0 false in
  let* h := to_str_double beyond (fmul (f_SW r) deg_per_rad) 0 0 false in
  let* s := to_str_double beyond (f_sf r) 4 0 false in
  let* l := m2fm beyond (fmul (f_tt r) (fZ 86400)) 0 2 in
  let* d := to_str_double beyond (f_dw r) 0 0 false in
  Some (B "影轴地心距 γ = " ++ g ++ NL ++ B "中心地标 (经,纬) = " ++ j ++ B "," ++ w ++ NL ++ B "中心时刻 tm = " ++ t ++ NL ++ B "太阳方位 (经,纬) = " ++ a ++ B "," ++ h ++ NL ++
        B "日食类型 LX = " ++ f_lx r ++ B " " ++ name (f_lx r) ++ NL ++ B "食分=" ++ s ++ B ", 食延=" ++ l ++ B ", 食带=" ++ d ++ B "km" ++ NL ++ NL).
(** eph/eph_show.cpp:175-195: the text returned for one eclipse *)
Definition overview (r : ovw) : option bytes :=
  if beq (f_lx r) (B "N") then Some (B "无日食") else
  let* p := points r in
  let* c := center r in
  Some (NL ++ bold "本次日食概述(力学时)" ++ p ++ bold "中心点特征" ++ c).
End Ovw.
