(** rysCalc of eph/eph_show.cpp: which eclipse is shown, the table of limits and the timetables of the contacts.
    dt_T (eph/eph0.cpp) and the texts of numbers (to_str, mylib/tool.cpp) are parameters; the lines of angles before the tables are not modelled. *)
From Coq Require Import ZArith List Ascii String Bool.
From Coq Require Import Floats.SpecFloat.
From Verif Require Import F64 Str CalModel FmtModel AngModel RptModel.
Import ListNotations.
Open Scope Z_scope.
Open Scope opt_scope.

(** radd, eph/eph0.h:17 *)
Definition deg_per_rad : f64 := fdiv (fZ 180) dpi.
(** eph/eph_show.cpp:31, 89: the elongation for which the tables of a solar and of a lunar eclipse are given *)
Definition solar_shown (msHJ : f64) : bool := fltb msHJ (fdiv (fZ 3) deg_per_rad) || fltb (fdiv (fZ 357) deg_per_rad) msHJ.
Definition lunar_shown (msHJ : f64) : bool := fltb (fdiv (fZ 170) deg_per_rad) msHJ && fltb msHJ (fdiv (fZ 190) deg_per_rad).

Section Rys.
Variables (dt_T : f64 -> f64) (num : f64 -> bytes).
(** -8/24.0 + dt_T(jd) *)
Definition zone_shift (jd : f64) : f64 := fadd (fdiv (fZ (-8)) (fZ 24)) (dt_T jd).
(** eph/eph_show.cpp:20-22 *)
Definition to_td (is_utc : bool) (jd : f64) : f64 := if is_utc then fadd jd (zone_shift jd) else jd.
(** eph/eph_show.cpp:79, 108 *)
Definition from_td (is_utc : bool) (jd : f64) : f64 := if is_utc then fsub jd (zone_shift jd) else jd.
(** eph/eph_show.cpp:73-81, 102-110: one line for each time other than zero; [td] is the unit, which the first line changes *)
Fixpoint timetable (is_utc : bool) (td : bytes) (l : list (bytes * f64)) (s : bytes) : option bytes :=
  match l with
  | [] => Some s
  | (mc, jd) :: l =>
    if feqb jd (fZ 0) then timetable is_utc td l s
    else
      let td := if is_utc then B " UTC" else td in
      let* t := JD2str (fadd (from_td is_utc jd) (fZ 2451545)) in
      timetable is_utc td l (s ++ mc ++ B ":" ++ t ++ td ++ NL)
  end.
(** eph/eph_show.cpp:68-71; [annular] is LX == "环" *)
Definition solar_names (annular : bool) : list bytes :=
  [B "初亏"; B "食甚"; B "复圆"; if annular then B "环食始" else B "食既"; if annular then B "环食终" else B "生光"].
(** eph/eph_show.cpp:99 *)
Definition lunar_names : list bytes := [B "初亏"; B "食甚"; B "复圆"; B "半影食始"; B "半影食终"; B "食既"; B "生光"].
(** eph/eph_show.cpp:66-81 and 98-110: the tables *)
Definition solar_table (is_utc annular : bool) (sT : list f64) (s : bytes) : option bytes := timetable is_utc (B " TD") (combine (solar_names annular) sT) s.
Definition lunar_table (is_utc : bool) (lT : list f64) (s : bytes) : option bytes := timetable is_utc (B " TD") (combine lunar_names lT) s.
(** eph/eph_show.cpp:49-62: the table of the limits; RS_PL::V has ten members, longitudes and latitudes in turn *)
Fixpoint limit_lines (mc : list bytes) (i : nat) (V : list f64) (s : bytes) : option bytes :=
  match mc with
  | [] => Some s
  | c :: mc =>
    let* w := nth_error V (i * 2 + 1) in
    if feqb w (fZ 100) then limit_lines mc (S i) V (s ++ c ++ B "：" ++ B "无　　　　　无" ++ NL)
    else
      let* j := nth_error V (i * 2) in
      limit_lines mc (S i) V (s ++ c ++ B "：" ++ num (fmul j deg_per_rad) ++ B "　" ++ num (fmul w deg_per_rad) ++ NL)
  end.
Definition limit_table (V : list f64) (s : bytes) : option bytes := limit_lines [B "食中心点"; B "本影北界"; B "本影南界"; B "半影北界"; B "半影南界"] 0 V s.
End Rys.
