(** Model of the four pillars, lunar/lunar_ob.cpp:311-341 (OBB::mingLiBaZi).
    The series are parameters: [dt_T] (delta T), [S_aLon] (apparent longitude of the sun) and [pty_zty2] (equation of time). *)
From Coq Require Import ZArith List Ascii String Bool.
From Coq Require Import Floats.SpecFloat.
From Verif Require Import F64 Str CalModel FmtModel SsqModel ObTab ObModel PageModel.
Import ListNotations.
Open Scope Z_scope.
Open Scope opt_scope.

(** eph/eph0.h:6, 19 *)
Definition pi2 : f64 := fmul M_PI (fZ 2).
(** lunar/lunar_ob.cpp:317  number of jie since the beginning of spring 1984 *)
Definition jie_count (w : f64) : option Z :=
  int2 (fdiv (fadd (fadd (fmul (fdiv w pi2) (fZ 360)) (fZ 45)) (fZ 5400)) (fZ 30)).
(** lunar/lunar_ob.cpp:321-322  day from 23 h of the day before, and double hour, of the local time jd (days from noon) *)
Definition day_and_hour (jd : f64) : option (Z * Z) :=
  let jd := fadd jd (fdiv (fZ 13) (fZ 24)) in
  let* D := cast_int (ffloor jd) in
  let* SC := int2 (fmul (fsub jd (fZ D)) (fZ 12)) in
  Some (D, SC).
(** lunar/lunar_ob.cpp:334-340  the loop over the 13 double hours: texts (joined with spaces) and bz_js *)
Fixpoint hour_loop (n : nat) (v SC i : Z) (JS js : bytes) : option (bytes * bytes) :=
  match n with
  | O => Some (JS, js)
  | S n =>
      let* vi := mk_int (v + i) in
      let* c := gz vi in
      let '(js, c) := if SC =? i then (c, ["027"%char] ++ B "[31m" ++ c ++ ["027"%char] ++ B "[0m") else (js, c) in
      hour_loop n v SC (i + 1) (JS ++ (if i =? 0 then [] else B " ") ++ c) js
  end.
Record bazi := mkBazi { bz_zty : bytes; bz_jn : bytes; bz_jy : bytes; bz_jr : bytes; bz_js : bytes; bz_JS : bytes }.
(** lunar/lunar_ob.cpp:323-340, for the jie number k and the local true solar time jd *)
Definition bazi_at (k : Z) (jd : f64) : option bazi :=
  let* t := timeStr jd in
  let* (D, SC) := day_and_hour jd in
  let* v := int2 (fadd (fdiv (fZ k) (fZ 12)) (fZ 6000000)) in
  let* jn := gz v in
  let* a := mk_int (k + 2) in let* v := mk_int (a + 60000000) in
  let* jy := gz v in
  let* a := mk_int (D - 6) in let* v := mk_int (a + 9000000) in
  let* jr := gz v in
  let* a := mk_int (D - 1) in let* b := mk_int (a * 12) in let* c := mk_int (b + 90000000) in let* v := mk_int (c + SC) in
  let* js := gz v in
  let* v := mk_int (v - SC) in
  let* (JS, js) := hour_loop 13 v SC 0 [] js in
  Some (mkBazi t jn jy jr js JS).
(** lunar/lunar_ob.cpp:311-341 *)
Definition mingLiBaZi (dt_T S_aLon pty_zty2 : f64 -> f64) (jd J : f64) : option bazi :=
  let jd2 := fadd jd (dt_T jd) in
  let w := S_aLon (fdiv jd2 (fZ 36525)) in
  let* k := jie_count w in
  bazi_at k (fadd jd (fadd (pty_zty2 (fdiv jd2 (fZ 36525))) (fdiv (fdiv J M_PI) (fZ 2)))).
