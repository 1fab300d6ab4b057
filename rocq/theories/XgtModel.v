(** The text of xingX of eph/eph.cpp; the numbers that it shows (XpModel.v) are given here as doubles. *)
From Coq Require Import ZArith List Ascii String Bool.
From Coq Require Import Floats.SpecFloat.
From Verif Require Import F64 Str CalModel FmtModel DtoaModel YearModel RptModel.
Import ListNotations.
Open Scope Z_scope.
Open Scope opt_scope.

(** eph/eph.cpp:248-287: the numbers printed.  g_hel: heliocentric longitude, latitude, distance (not for the Moon); g_ecl, g_equ, g_top: the two angles and the distance of
    the lines of the apparent ecliptic, apparent equatorial and topocentric place; g_hor: azimuth and altitude; g_gp, g_gt: mean and true sidereal time, made 0 to 2 pi *)
Record xgt := mkXgt { g_hel : f64 * f64 * f64; g_ecl : f64 * f64 * f64; g_equ : f64 * f64 * f64; g_top : f64 * f64 * f64; g_hor : f64 * f64; g_gp : f64; g_gt : f64 }.

Section Xgt.
(** what the digit generation reads behind its table (DtoaModel.v) *)
Variable beyond : Z -> option Z.
(** eph/eph.cpp:248, 251, 258, 271, 274, 278: a line of two angles, the first in hours if [tim], and a distance with [p] decimals *)
Definition place_line (l1 : string) (tim : bool) (l2 l3 : string) (p : Z) (v : f64 * f64 * f64) : option bytes :=
  let '(a, b, r) := v in
  let* x := rad2str a tim in
  let* y := rad2str b false in
  let* d := to_str_double beyond r p 0 false in
  Some (B l1 ++ x ++ B l2 ++ y ++ B l3 ++ d ++ NL).
(** eph/eph.cpp:215-290; [None] for a number that names no body: the distance is then used without a value (278) *)
Definition xingX_text (xt : Z) (r : xgt) : option bytes :=
  let rfn := if xt =? 10 then 2 else 8 in
  let* h := (if xt =? 10 then Some [] else if (xt <? 10) && (0 <=? xt) then place_line "黄经一 " false " 黄纬一 " " 向径一 " rfn (g_hel r) else None) in
  let* e := place_line "视黄经 " false " 视黄纬 " " 地心距 " rfn (g_ecl r) in
  let* q := place_line "视赤经 " true " 视赤纬 " " 光行距 " rfn (g_equ r) in
  let* t := place_line "站赤经 " true " 站赤纬 " " 视距离 " rfn (g_top r) in
  let* a := rad2str (fst (g_hor r)) false in
  let* b := rad2str (snd (g_hor r)) false in
  let* p := rad2str (g_gp r) true in
  let* g := rad2str (g_gt r) true in
  Some (h ++ e ++ q ++ t ++ B "方位角 " ++ a ++ B " 高度角 " ++ b ++ NL ++ B "恒星时 " ++ p ++ B "(平) " ++ g ++ B "(真)" ++ NL).
End Xgt.
