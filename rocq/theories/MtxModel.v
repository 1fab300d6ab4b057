(** The text of the places of Sun and Moon: MSC::toStr of eph/eph_msc.cpp. *)
From Coq Require Import ZArith List Ascii String Bool.
From Coq Require Import Floats.SpecFloat.
From Verif Require Import F64 Str CalModel FmtModel DtoaModel FmModel YearModel RptModel.
From Verif Require FormModel.
Import ListNotations.
Open Scope Z_scope.
Open Scope opt_scope.

(** eph/eph_msc.h:20-54: the members of one body that are printed *)
Record mtx_body := mkBd { b_HJ : f64; b_HW : f64; b_CJ : f64; b_CW : f64; b_R : f64; b_PJ : f64; b_PW : f64; b_ShiJ : f64; b_Rad : f64 }.
(** eph/eph_msc.h:10-58: the members that are printed *)
Record mtx := mkMtx { x_T : f64; x_dt : f64; x_dL : f64; x_dE : f64; x_E : f64; x_pty : f64; x_zty : f64; x_sc : f64; x_mIll : f64; x_m : mtx_body; x_s : mtx_body }.
(** eph/eph_msc.cpp:185, 190, 197, 205, 211 *)
Definition rule : bytes := B "-------------------------------------------".

Section Mtx.
(** what the digit generation reads behind its table (DtoaModel.v) *)
Variable beyond : Z -> option Z.
(** eph/eph_msc.cpp:191-194, 198-200: one line of two angles *)
Definition two_angles (label : string) (a b : f64) (tim : bool) : option bytes :=
  let* x := rad2str a tim in
  let* y := rad2str b tim in
  Some (B label ++ x ++ B "  " ++ y ++ NL).
(** eph/eph_msc.cpp:185-188 *)
Definition mtx_head (r : mtx) : option bytes :=
  let* p := timeStr (x_pty r) in
  let* z := timeStr (x_zty r) in
  let* c := m2fm beyond (fmul (x_sc r) (fZ 86400)) 2 1 in
  let* i := to_str_double beyond (fmul (x_mIll r) (fZ 100)) 2 0 false in
  Some (rule ++ NL ++ B "平太阳 " ++ p ++ B " 真太阳 " ++ z ++ NL ++ B "时差 " ++ c ++ B " 月亮被照亮 " ++ i ++ B "% " ++ NL).
(** eph/eph_msc.cpp:190-195 *)
Definition mtx_one (m s : mtx_body) : option bytes :=
  let* a := two_angles "视黄经 " (b_HJ m) (b_HJ s) false in
  let* b := two_angles "视黄纬 " (b_HW m) (b_HW s) false in
  let* c := two_angles "视赤经 " (b_CJ m) (b_CJ s) true in
  let* d := two_angles "视赤纬 " (b_CW m) (b_CW s) false in
  let* e := to_str_double beyond (b_R m) 2 0 false in
  let* f := to_str_double beyond (b_R s) 8 0 false in
  Some (rule ++ NL ++ B "表一       月亮            太阳" ++ NL ++ a ++ b ++ c ++ d ++ B "距离    " ++ e ++ B "千米    " ++ f ++ B "AU" ++ NL).
(** eph/eph_msc.cpp:197-201 *)
Definition mtx_two (m s : mtx_body) : option bytes :=
  let* a := two_angles "方位角 " (b_PJ m) (b_PJ s) false in
  let* b := two_angles "高度角 " (b_PW m) (b_PW s) false in
  let* c := two_angles "时角   " (b_ShiJ m) (b_ShiJ s) false in
  let* e := m2fm beyond (b_Rad m) 2 0 in
  let* f := m2fm beyond (b_Rad s) 2 0 in
  Some (rule ++ NL ++ B "表二       月亮            太阳" ++ NL ++ a ++ b ++ c ++ B "视半径   " ++ e ++ B "       " ++ f ++ B " (观测点)" ++ NL).
(** eph/eph_msc.cpp:208-209: radians to seconds of arc, v / pi2 * 360 * 3600 *)
Definition to_arcsec (v : f64) : f64 := fmul (fmul (fdiv v FormModel.pi2) (fZ 360)) (fZ 3600).
(** eph/eph_msc.cpp:205-211 *)
Definition mtx_more (r : mtx) : option bytes :=
  let* t := JD2str (fadd (x_T r) (fZ 2451545)) in
  let* d := to_str_double beyond (fmul (x_dt r) (fZ 86400)) 1 0 false in
  let* l := to_str_double beyond (to_arcsec (x_dL r)) 2 0 false in
  let* e := to_str_double beyond (to_arcsec (x_dE r)) 2 0 false in
  let* o := rad2str (x_E r) false in
  Some (rule ++ NL ++ B "力学时" ++ t ++ B " ΔT=" ++ d ++ B "秒" ++ NL ++ B "黄经章 " ++ l ++ B """ " ++ B "交角章 " ++ e ++ B """ " ++ B "ε=" ++ o ++ NL ++ rule ++ NL).
(** eph/eph_msc.cpp:182-215 *)
Definition mtx_text (r : mtx) (fs : bool) : option bytes :=
  let* h := mtx_head r in
  let* a := mtx_one (x_m r) (x_s r) in
  let* b := mtx_two (x_m r) (x_s r) in
  let* c := (if fs then mtx_more r else Some []) in
  Some (h ++ a ++ b ++ c).
End Mtx.
