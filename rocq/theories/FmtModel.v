(** Model of the text formatting functions of mylib/tool.cpp. *)
From Coq Require Import ZArith List Ascii String Bool.
From Coq Require Import Floats.SpecFloat.
From Verif Require Import F64 CalModel Str DecSpec ItoaModel.
Import ListNotations.
Open Scope Z_scope.
Open Scope opt_scope.

(** [S.substr(S.length() - n, n)]; when S is shorter than n the size_t difference wraps and substr throws (None) *)
Definition lastn (s : bytes) (n : Z) : option bytes := substr s (len s - n) n.

(** ["0" + to_str(x)] cut to its last two bytes, e.g. mylib/tool.cpp:34-37 *)
Definition two (x : Z) : option bytes := let* t := to_str x in lastn (B "0" ++ t) 2.

(** mylib/tool.cpp:25-32  whole seconds of the day of jd, split into h, m, s *)
Definition timeStr_hms (jd : f64) : option (Z * Z * Z) :=
  let jd := fadd jd (lit 5 10) in
  let* d := int2 jd in
  let jd := fsub jd (fZ d) in
  let* s := int2 (fadd (fmul jd (fZ 86400)) (lit 5 10)) in
  let* h := int2 (fdiv (fZ s) (fZ 3600)) in
  let* h3600 := mk_int (h * 3600) in
  let* s := mk_int (s - h3600) in
  let* m := int2 (fdiv (fZ s) (fZ 60)) in
  let* m60 := mk_int (m * 60) in
  let* s := mk_int (s - m60) in
  Some (h, m, s).

(** mylib/tool.cpp:23-38  timeStr *)
Definition timeStr (jd : f64) : option bytes :=
  let* (h, m, s) := timeStr_hms jd in
  let* H := two h in
  let* M := two m in
  let* Sx := two s in
  Some (H ++ B ":" ++ M ++ B ":" ++ Sx).

(** mylib/tool.cpp:181-185  rounding of the seconds with carry *)
Definition DD_hms (r : Date) : option (Z * Z * Z) :=
  let* s := int2 (fadd (CalModel.s r) (lit 5 10)) in
  let* (s, m) := (if 60 <=? s then let* s := mk_int (s - 60) in let* m := mk_int (CalModel.m r + 1) in Some (s, m)
                  else Some (s, CalModel.m r)) in
  let* (m, h) := (if 60 <=? m then let* m := mk_int (m - 60) in let* h := mk_int (CalModel.h r + 1) in Some (m, h)
                  else Some (m, CalModel.h r)) in
  Some (h, m, s).

(** mylib/tool.cpp:174-199  DD2str *)
Definition DD2str (r : Date) : option bytes :=
  let* y := to_str (CalModel.Y r) in
  let* (h, m, s) := DD_hms r in
  let* _Y := lastn (B "     " ++ y) 5 in
  let* _M := two (CalModel.M r) in
  let* _D := two (CalModel.D r) in
  let* _h := two h in
  let* _m := two m in
  let* _s := two s in
  Some (_Y ++ B "-" ++ _M ++ B "-" ++ _D ++ B " " ++ _h ++ B ":" ++ _m ++ B ":" ++ _s).

(** mylib/tool.cpp:202-206  JD2str *)
Definition JD2str (jd : f64) : option bytes := let* r := setFromJD jd in DD2str r.

(** mylib/math_patch.h:12-14 / <cmath>: the double nearest to pi *)
Definition M_PI : f64 := fdiv (fZ 884279719003555) (fZ (2 ^ 48)).

(** [int a = floor(d);] *)
Definition floor_int (d : f64) : option Z := cast_int (ffloor d).

(** mylib/tool.cpp:57-71  split of the scaled angle into degrees, minutes, seconds and decimals with carries.
    Simplification: [pow(10, ext)] is exactly 10^ext (ext is 0..5 wherever it is called). *)
Definition rad2strE_split (d : f64) (ext : Z) : option (Z * Z * Z * f64) :=
  let* a := floor_int d in
  let d := fmul (fsub d (fZ a)) (fZ 60) in
  let* b := floor_int d in
  let d := fmul (fsub d (fZ b)) (fZ 60) in
  let* c := floor_int d in
  let Q := fZ (10 ^ ext) in
  let d := ffloor (fadd (fmul (fsub d (fZ c)) Q) (lit 5 10)) in
  let* (d, c) := (if fgeb d Q then let* c := mk_int (c + 1) in Some (fsub d Q, c) else Some (d, c)) in
  let* (c, b) := (if 60 <=? c then let* c := mk_int (c - 60) in let* b := mk_int (b + 1) in Some (c, b) else Some (c, b)) in
  let* (b, a) := (if 60 <=? b then let* b := mk_int (b - 60) in let* a := mk_int (a + 1) in Some (b, a) else Some (b, a)) in
  Some (a, b, c, d).

(** mylib/tool.cpp:41-83  rad2strE(d, flag, ext) *)
Definition rad2strE (d : f64) (flag : bool) (ext : Z) : option bytes :=
  let '(d, s) := if fltb d (fZ 0) then (fopp d, B "-") else (d, B " ") in
  let '(d, w1, w2, w3) :=
    if flag then (fmul d (fdiv (fZ 12) M_PI), B "h", B "m", B "s")
    else (fmul d (fdiv (fZ 180) M_PI), B "°", B "'", B """") in
  let* (a, b, c, d) := rad2strE_split d ext in
  let* dd := cast_int d in
  let* A := to_str a in
  let* A := lastn (B "   " ++ A) 3 in
  let* Bm := two b in
  let* C := two c in
  let* D := to_str dd in
  let* D := (if ext =? 0 then Some [] else
             let* D := lastn (B "00000" ++ D) ext in Some (B "." ++ D ++ w3)) in
  Some (s ++ A ++ w1 ++ Bm ++ w2 ++ C ++ D).

(** mylib/tool.cpp:86-89 *)
Definition rad2str (d : f64) (tim : bool) : option bytes := rad2strE d tim 2.

(** mylib/tool.cpp:98-101  degrees and rounded minutes with carry *)
Definition rad2str2_split (d : f64) : option (Z * Z) :=
  let* a := floor_int d in
  let* b := floor_int (fadd (fmul (fsub d (fZ a)) (fZ 60)) (lit 5 10)) in
  if 60 <=? b then let* b := mk_int (b - 60) in let* a := mk_int (a + 1) in Some (a, b) else Some (a, b).

(** mylib/tool.cpp:92-107  rad2str2 *)
Definition rad2str2 (d : f64) : option bytes :=
  let '(d, s) := if fltb d (fZ 0) then (fopp d, B "-") else (d, B "+") in
  let d := fmul d (fdiv (fZ 180) M_PI) in
  let* (a, b) := rad2str2_split d in
  let* A := to_str a in
  let* A := lastn (B "   " ++ A) 3 in
  let* Bm := two b in
  Some (s ++ A ++ B "°" ++ Bm ++ B "'").
