(** The lines of rysCalc of eph/eph_show.cpp before and after its tables (RysModel.v): radii and distances of Sun, Moon and shadow, duration and magnitude. *)
From Coq Require Import ZArith List Ascii String Bool.
From Coq Require Import Floats.SpecFloat.
From Verif Require Import F64 Str CalModel FmtModel DtoaModel FmModel YearModel AngModel RptModel.
Import ListNotations.
Open Scope Z_scope.
Open Scope opt_scope.

Section Ryh.
(** what the digit generation reads behind its table (DtoaModel.v) *)
Variable beyond : Z -> option Z.
(** eph/eph_show.cpp:43-44, 94-96: minutes and seconds of arc *)
Definition arc (v : f64) : option bytes := m2fm beyond v 2 0.
(** eph/eph_show.cpp:39-40: radians in degrees *)
Definition zx_text (v : f64) : option bytes := to_str_double beyond (fmul (fdiv v dpi) (fZ 180)) 5 0 false.
(** eph/eph_show.cpp:36-42: the place of the axis of the shadow *)
Definition axis_text (zxJ zxW : f64) : option bytes :=
  if feqb zxW (fZ 100) then Some (B "此刻月亮本影中心线不经过地球。") else
  let* j := zx_text zxJ in
  let* w := zx_text zxW in
  Some (B "食中心地标：经 " ++ j ++ B " 纬 " ++ w).
(** eph/eph_show.cpp:34-44; sr, mr are MSC::sRad, MSC::mRad, d1 the distance j1_j2(...) * rad *)
Definition solar_lines (sr mr d1 zxJ zxW : f64) : option bytes :=
  let d0 := fadd mr sr in
  let* s2 := axis_text zxJ zxW in
  let* a := arc sr in
  let* b := arc mr in
  let* c := arc d1 in
  let* d := arc d0 in
  let* e := arc (fsub sr mr) in
  let* f := arc (fsub d1 d0) in
  Some (B "日月站心视半径 " ++ a ++ B "及" ++ b ++ B " " ++ NL ++ ESC :: B "[31m" ++ s2 ++ ESC :: B "[0m" ++ NL ++ B "日月中心视距 " ++ c ++ B " 日月半径和 " ++ d ++ NL ++ B "半径差 " ++ e ++ [ascii_of_nat 9] ++ B "距外切 " ++ f).
(** eph/eph_show.cpp:92-96; er, Er, mr are MSC::eShadow, MSC::eShadow2, MSC::e_mRad *)
Definition lunar_lines (er Er mr d1 : f64) : option bytes :=
  let d0 := fadd mr er in
  let d2 := fadd mr Er in
  let* a := arc er in
  let* b := arc Er in
  let* c := arc mr in
  let* d := arc d1 in
  let* e := arc d0 in
  let* f := arc (fsub d1 d0) in
  let* g := arc (fsub d1 d2) in
  Some (B "本影半径 " ++ a ++ B " 半影半径 " ++ b ++ B " 月亮地心视半径 " ++ c ++ NL ++ B "影月中心距 " ++ d ++ B " 影月半径和 " ++ e ++ B " " ++ NL ++ B "距相切 " ++ ESC :: B "[31m" ++ f ++ ESC :: B "[0m 距第二相切 " ++ g).
(** eph/eph_show.cpp:82-86; dur, sf, b1 are those of RS_PL, [nasa] is to_str(RS_PL::nasa_r) *)
Definition solar_tail (dur sf b1 : f64) (nasa : bytes) : option bytes :=
  let* a := m2fm beyond (fmul dur (fZ 86400)) 1 1 in
  let* b := to_str_double beyond sf 5 0 false in
  let* c := to_str_double beyond b1 5 0 false in
  Some (B "时长: " ++ a ++ NL ++ B "食分: " ++ b ++ NL ++ B "月日视径比: " ++ c ++ B "(全或环食分)" ++ NL ++ B "是否NASA径比(1是,0否): " ++ nasa ++ NL ++ B "食分指日面直径被遮比例" ++ NL ++ NL).
(** eph/eph_show.cpp:111-112; sf is YS_PL::sf *)
Definition lunar_tail (sf : f64) : option bytes :=
  let* b := to_str_double beyond sf 5 0 false in
  Some (B "食分:" ++ b ++ NL ++ B "食分指月面直径被遮比例" ++ NL ++ NL).
End Ryh.
