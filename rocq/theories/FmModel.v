(** Model of m2fm (mylib/tool.cpp): seconds as minutes and seconds. *)
From Coq Require Import ZArith List Ascii String Bool.
From Coq Require Import Floats.SpecFloat.
From Verif Require Import F64 Str ItoaModel DtoaModel FmtModel.
Import ListNotations.
Open Scope Z_scope.
Open Scope opt_scope.

(** tool.cpp:112-116  sign, whole minutes [int f = floor(v / 60)] and seconds [v - f * 60]; the product is one of two ints, so it
    overflows (None) from 35791395 minutes on *)
Definition m2fm_split (v : f64) : option (bytes * Z * f64) :=
  let '(v, gn) := if fltb v (fZ 0) then (fopp v, B "-") else (v, []) in
  let* f := floor_int (fdiv v (fZ 60)) in
  let* f60 := mk_int (f * 60) in
  Some (gn, f, fsub v (fZ f60)).

(** tool.cpp:117-124  the two units, by the third argument; any other value gives the text "error" *)
Definition m2fm_units (fs : Z) : option (bytes * bytes) :=
  if fs =? 0 then Some (B "'", [ascii_of_nat 34]) else if fs =? 1 then Some (B "分", B "秒") else if fs =? 2 then Some (B "m", B "s") else None.

(** tool.cpp:110-125  m2fm.  [beyond] is what the digit generation reads behind its table (DtoaModel.v).
    The split comes first, also for the text "error", as in the source. *)
Definition m2fm (beyond : Z -> option Z) (v : f64) (fx fs : Z) : option bytes :=
  let* (gn, f, m) := m2fm_split v in
  match m2fm_units fs with
  | Some (u1, u2) => let* tf := to_str f in let* tm := to_str_double beyond m fx 0 false in Some (gn ++ tf ++ u1 ++ tm ++ u2)
  | None => Some (B "error")
  end.
