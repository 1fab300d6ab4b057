(** rs2_calc of eph/eph_show.cpp: the eclipse on the screen and the keys that move it. *)
From Coq Require Import ZArith List Bool String Ascii.
From Coq Require Import Floats.SpecFloat.
From Verif Require Import F64 CalModel Str FmtModel AngModel SmModel EsModel.
Import ListNotations.
Open Scope Z_scope.
Open Scope opt_scope.

Section Calc.
(** sin and cos of the C library, the table XL1 of the Moon; [summary n k] the text of eph/eph_show.cpp:173-195 and [line n k] the text that eph/eph_show.cpp:209-219 adds
    for lunation number k after RS_GS::init with n points (empty for lx = "N").  As for EsModel: init leaves the same members for every jd of the lunation whatever was
    asked before (C42), and feature puts RS_GS::Zjd in the place of its argument (eph/eph_rsgs.cpp:176). *)
Variables (fsin fcos : f64 -> f64) (XL1 : list (list (list f64))) (summary line : Z -> Z -> bytes).
(** the first value of the static variable, eph/eph_show.cpp:157 *)
Definition rs2_start : f64 := fsub (lit 2454679926741 1000000) (fZ 2451545).
(** the headline of the table, eph/eph_show.cpp:206; ESC is byte 27 *)
Definition headline : bytes := (ascii_of_nat 27 :: B "[33;1m       力学时           γ      型      中心地标      方位角           食分   食带  食延 ") ++ [ascii_of_nat 10] ++ (ascii_of_nat 27 :: B "[0m").
(** eph/eph_show.cpp:207-220: [i] rounds from the static [jd] on; RS_GS::init fails where suoN does *)
Fixpoint rs2_rows (i : nat) (jd step : f64) (s : bytes) : option (f64 * bytes) :=
  match i with
  | O => Some (jd, s)
  | S i => let* k := lunation jd in rs2_rows i (fadd jd step) step (s ++ line 3 k)
  end.
(** eph/eph_show.cpp:154-224, with the static variable [jd] before and after, the line on the console and the text returned.
    [fs] is an uint8_t; a value above 5 runs off the end of the function, which returns no string: None. *)
Definition rs2_calc (fs : Z) (jd0 step jd : f64) : option (f64 * (bytes * bytes)) :=
  if fs =? 0 then Some (jd, ([], []))
  else
    let jd := if fs =? 1 then jd0 else jd in
    let jd := if fs =? 3 then fsub jd step else jd in
    let jd := if fs =? 4 then fadd jd step else jd in
    let* k := lunation jd in
    let* t := MS_aLon_t2 fsin fcos XL1 (fmul (fmul (fZ k) dpi) (fZ 2)) in
    let jd := fmul t (fZ 36525) in
    let* c := JD2str (fadd jd (fZ 2451545)) in
    if (fs =? 1) || (fs =? 2) || (fs =? 3) || (fs =? 4) then let* k := lunation jd in Some (jd, (c, summary 7 k))
    else if fs =? 5 then let* (jd, s) := rs2_rows 100 jd step headline in Some (jd, (c, s))
    else None.
(** a program that calls it again and again: the answers in turn, from the first value of the static variable *)
Fixpoint rs2_all (jd : f64) (calls : list (Z * f64 * f64)) : option (f64 * list (bytes * bytes)) :=
  match calls with
  | [] => Some (jd, [])
  | (fs, jd0, step) :: calls =>
    let* (jd, a) := rs2_calc fs jd0 step jd in
    let* (jd, l) := rs2_all jd calls in
    Some (jd, a :: l)
  end.
End Calc.
