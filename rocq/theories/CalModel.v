(** Model of the civil-calendar conversions of mylib/tool.cpp.  [None] = undefined behaviour
    (int overflow or out-of-range double-to-int conversion). *)
From Coq Require Import ZArith Bool.
From Coq Require Import Floats.SpecFloat.
From Verif Require Import F64.
Open Scope Z_scope.
Open Scope opt_scope.

(** mylib/tool.h:15-19  [struct Date { int Y, M, D, h, m; double s; }] *)
Record Date := mkDate { Y : Z; M : Z; D : Z; h : Z; m : Z; s : f64 }.

(** mylib/tool.cpp:131-132  [if (m <= 2) m += 12, y--;] on doubles holding ints. *)
Definition toJD_ym (dy dm : f64) : f64 * f64 :=
  if fleb dm (fZ 2) then (fsub dy (fZ 1), fadd dm (fZ 12)) else (dy, dm).

(** mylib/tool.cpp:133-135  the Gregorian century correction (0 before 15 Oct 1582). *)
Definition toJD_century (date : Date) (y : f64) : option f64 :=
  let* a := mk_int (Y date * 372) in
  let* b := mk_int (M date * 31) in
  let* ab := mk_int (a + b) in
  let* key := mk_int (ab + D date) in
  if 588829 <=? key then
    let* c := cast_int (fdiv y (fZ 100)) in
    let* q := cast_int (fdiv (fZ c) (fZ 4)) in
    Some (fadd (fsub (fZ 2) (fZ c)) (fZ q))
  else Some (fZ 0).

(** mylib/tool.cpp:127-140  [double toJD(Date date)] *)
Definition toJD (date : Date) : option f64 :=
  let '(y, mm) := toJD_ym (fZ (Y date)) (fZ (M date)) in
  let* n := toJD_century date y in
  let* yd := cast_int (fadd (fmul (lit 36525 100) (fadd y (fZ 4716))) (lit 1 100)) in
  let n := fadd n (fZ yd) in
  let* md := cast_int (fmul (lit 306 10) (fadd mm (fZ 1))) in
  let* mdd := mk_int (md + D date) in
  let n := fadd n (fZ mdd) in
  let t := fdiv (fadd (fdiv (fadd (fdiv (s date) (fZ 60)) (fZ (m date))) (fZ 60)) (fZ (h date))) (fZ 24) in
  Some (fadd n (fsub t (lit 15245 10))).

(** mylib/tool.cpp:148-149  Gregorian correction of the day number. *)
Definition sfj_greg (d : Z) : option Z :=
  if 2299161 <=? d then
    let* c := int2 (fdiv (fsub (fZ d) (lit 186721625 100)) (lit 3652425 100)) in
    let* q := int2 (fdiv (fZ c) (fZ 4)) in
    let* c1 := mk_int (1 + c) in
    let* c2 := mk_int (c1 - q) in
    mk_int (d + c2)
  else Some d.

(** mylib/tool.cpp:150-159  year, month, day from the corrected day number. *)
Definition sfj_ymd (d : Z) : option (Z * Z * Z) :=
  let* d := mk_int (d + 1524) in
  let* y := int2 (fdiv (fsub (fZ d) (lit 1221 10)) (lit 36525 100)) in
  let* yd := int2 (fmul (lit 36525 100) (fZ y)) in
  let* d := mk_int (d - yd) in
  let* mm := int2 (fdiv (fZ d) (lit 30601 1000)) in
  let* md := int2 (fmul (lit 30601 1000) (fZ mm)) in
  let* d := mk_int (d - md) in
  if 13 <? mm then
    let* mm := mk_int (mm - 13) in let* y := mk_int (y - 4715) in Some (y, mm, d)
  else
    let* mm := mk_int (mm - 1) in let* y := mk_int (y - 4716) in Some (y, mm, d).

(** mylib/tool.cpp:161-169  clock fields from the day fraction F. *)
Definition sfj_hms (F : f64) : option (Z * Z * f64) :=
  let F := fmul F (fZ 24) in
  let* hh := int2 F in
  let F := fsub F (fZ hh) in
  let F := fmul F (fZ 60) in
  let* mi := int2 F in
  let F := fsub F (fZ mi) in
  let F := fmul F (fZ 60) in
  Some (hh, mi, F).

(** mylib/tool.cpp:142-171  [Date setFromJD(double jd)] *)
Definition setFromJD (jd : f64) : option Date :=
  let half := lit 5 10 in
  let* d := int2 (fadd jd half) in
  let F := fsub (fadd jd half) (fZ d) in
  let* d2 := sfj_greg d in
  let* (y, mm, dd) := sfj_ymd d2 in
  let* (hh, mi, ss) := sfj_hms F in
  Some (mkDate y mm dd hh mi ss).
