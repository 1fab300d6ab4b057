(** The text of shengjiang3 of eph/eph_show.cpp: the table of the equation of time.  The numbers of the rows are a parameter (row_value of EtModel.v). *)
From Coq Require Import ZArith List Ascii String Bool.
From Coq Require Import Floats.SpecFloat.
From Verif Require Import F64 Str CalModel FmtModel FmModel YearModel RptModel.
Import ListNotations.
Open Scope Z_scope.
Open Scope opt_scope.

Section Ett.
(** [beyond] is what the digit generation reads behind its table (DtoaModel.v); [value jd i] is pty_zty for row i *)
Variables (beyond : Z -> option Z) (value : f64 -> Z -> option f64).
(** eph/eph_show.cpp:293-295: the text that row i adds *)
Definition et_line (jd : f64) (i : Z) : option bytes :=
  let* t := value jd i in
  let* x := JD2str (fadd jd (fZ i)) in
  let* d := substr x 0 11 in
  let* m := m2fm beyond (fmul t (fZ 86400)) 2 2 in
  Some (d ++ B " " ++ ESC :: B "[31m" ++ m ++ ESC :: B "[0m" ++ NL).
(** eph/eph_show.cpp:291-296: n rows from i on *)
Fixpoint et_lines (jd : f64) (n : nat) (i : Z) (s2 : bytes) : option bytes :=
  match n with
  | O => Some s2
  | S n => let* r := et_line jd i in et_lines jd n (i + 1) (s2 ++ r)
  end.
(** eph/eph_show.cpp:284-299; s stays empty *)
Definition et_text (y : Z) : option bytes :=
  let* jd := toJD (mkDate y 1 1 12 0 (fZ 0)) in
  let* s2 := et_lines jd 368 0 [] in
  Some (B "太阳时差表(所用时间为北京时间每日12点)" ++ NL ++ s2).
End Ett.
