(** The table of the limits of a solar eclipse: RS_GS::jieX3 of eph/eph_rsgs.cpp. *)
From Coq Require Import ZArith List Ascii String Bool.
From Coq Require Import Floats.SpecFloat.
From Verif Require Import F64 Str CalModel FmtModel YearModel RptModel.
Import ListNotations.
Open Scope Z_scope.
Open Scope opt_scope.

(** eph/eph_rsgs.cpp:375-381: one limit (longitude, latitude) as text, with the text between, the text after and the dashes for none *)
Definition jx_cell (between after none : string) (p : f64 * f64) : option (bytes * bool) :=
  if feqb (snd p) (fZ 100) then Some (B none, false) else
  let* j := rad2str2 (fst p) in
  let* w := rad2str2 (snd p) in
  Some (j ++ B between ++ w ++ B after, true).
Section Jx.
(** the limits that nanbei and bseXY2db give for the moment t: north of the penumbra, north of the umbra, center, south of the umbra, south of the penumbra *)
Variable limits : f64 -> (f64 * f64) * (f64 * f64) * (f64 * f64) * (f64 * f64) * (f64 * f64).
(** eph/eph_rsgs.cpp:373-382: what the moment t adds; k counts the limits *)
Definition jx_row (t : f64) : option bytes :=
  let '(pn, un, c, us, ps) := limits t in
  let* m := JD2str (fadd t (fZ 2451545)) in
  let* (a, ka) := jx_cell "  " " |" "-------------------|" pn in
  let* (b, kb) := jx_cell "  " " |" "-------------------|" un in
  let* (c, kc) := jx_cell "  " " |" "-------------------|" c in
  let* (d, kd) := jx_cell "  " " |" "-------------------|" us in
  let* (e, ke) := jx_cell " " " " "------------------- " ps in
  Some (if ka || kb || kc || kd || ke then (m ++ B " " ++ a ++ b ++ c ++ d ++ e) ++ NL else []).
(** eph/eph_rsgs.cpp:362: 1/1440.0 *)
Definition jx_dt : f64 := fdiv (fZ 1) (fZ 1440).
(** eph/eph_rsgs.cpp:365-383: n turns of the loop *)
Fixpoint jx_rows (n : nat) (t : f64) (s : bytes) : option bytes :=
  match n with
  | O => Some s
  | S n => let* r := jx_row t in jx_rows n (fadd t jx_dt) (s ++ r)
  end.
(** eph/eph_rsgs.cpp:361 *)
Definition jx_start (jd : f64) : f64 := fsub (fdiv (ffloor (fmul jd (fZ 1440))) (fZ 1440)) (fdiv (fZ 3) (fZ 24)).
(** eph/eph_rsgs.cpp:354-385; jd is re.jd of the feature *)
Definition jieX3 (jd : f64) : option bytes :=
  let* s := jx_rows 360 (jx_start jd) [] in
  Some (ESC :: B "[41;37;1m 时间(力学时) 半影北界限 本影北界线 中心线 本影南界线 半影南界线" ++ ESC :: B "[0m(伪本影南北界应互换)" ++ NL ++ NL ++ NL ++ NL ++ s).
End Jx.
