(** Model of Delta T (eph/eph0.cpp:149-208). *)
From Coq Require Import ZArith Bool List.
From Coq Require Import Floats.SpecFloat.
From Verif Require Import F64 SsqModel.
Import ListNotations.
Open Scope Z_scope.

(** eph/eph0.cpp:149-153 [dt_ext] *)
Definition dt_ext (y jsd : f64) : f64 :=
  let dy := fdiv (fsub y (fZ 1820)) (fZ 100) in
  fadd (fZ (-20)) (fmul (fmul jsd dy) dy).

(** eph/eph0.cpp:157-181: the table, each literal as numerator and denominator *)
Definition dt_lits : list (Z * Z) :=
  [
   (-4000, 1); (1083717, 10); (-1303680, 100); (392000, 1000); (0, 10000);
   (-500, 1); (172010, 10); (-62782, 100); (16170, 1000); (-3413, 10000);
   (-150, 1); (122006, 10); (-34641, 100); (5403, 1000); (-1593, 10000);
   (150, 1); (91138, 10); (-32813, 100); (-1647, 1000); (377, 10000);
   (500, 1); (57075, 10); (-39141, 100); (915, 1000); (3145, 10000);
   (900, 1); (22034, 10); (-28345, 100); (13034, 1000); (-1778, 10000);
   (1300, 1); (4901, 10); (-5735, 100); (2085, 1000); (-72, 10000);
   (1600, 1); (1200, 10); (-981, 100); (-1532, 1000); (1403, 10000);
   (1700, 1); (102, 10); (-91, 100); (510, 1000); (-370, 10000);
   (1800, 1); (134, 10); (-72, 100); (202, 1000); (-193, 10000);
   (1830, 1); (78, 10); (-181, 100); (416, 1000); (-247, 10000);
   (1860, 1); (83, 10); (-13, 100); (-406, 1000); (292, 10000);
   (1880, 1); (-54, 10); (32, 100); (-183, 1000); (173, 10000);
   (1900, 1); (-23, 10); (206, 100); (169, 1000); (-135, 10000);
   (1920, 1); (212, 10); (169, 100); (-304, 1000); (167, 10000);
   (1940, 1); (242, 10); (122, 100); (-64, 1000); (31, 10000);
   (1960, 1); (332, 10); (51, 100); (231, 1000); (-109, 10000);
   (1980, 1); (510, 10); (129, 100); (-26, 1000); (32, 10000);
   (2000, 1); (6387, 100); (1, 10); (0, 1); (0, 1);
   (2005, 1); (647, 10); (21, 100); (0, 1); (0, 1);
   (2012, 1); (668, 10); (22, 100); (0, 1); (0, 1);
   (2018, 1); (690, 10); (36, 100); (0, 1); (0, 1);
   (2028, 1); (726, 10)].
Definition dt_at : list f64 := map (fun '(n, d) => lit n d) dt_lits.

(** eph/eph0.cpp:195-200: the search [for (i = 0; i < len; i += 5) if (y < dt_at[i + 5]) break;].  [None] is a read
    outside the array; [fuel] bounds the number of rounds (24 is enough, 120 > 112). *)
Fixpoint dt_search (fuel : nat) (y : f64) (i : Z) : option Z :=
  match fuel with
  | O => None
  | S fuel =>
      if i <? 112 then
        let* b := at_ dt_at (i + 5) in
        if fltb y b then Some i else dt_search fuel y (i + 5)
      else Some i
  end.

(** eph/eph0.cpp:201-202: the cubic of a row *)
Definition dt_cubic (y a b c1 c2 c3 c4 : f64) : f64 :=
  let t1 := fmul (fdiv (fsub y a) (fsub b a)) (fZ 10) in
  let t2 := fmul t1 t1 in
  let t3 := fmul t2 t1 in
  fadd (fadd (fadd c1 (fmul c2 t1)) (fmul c3 t2)) (fmul c4 t3).

(** eph/eph0.cpp:155-203 [dt_calc] *)
Definition dt_calc (y : f64) : option f64 :=
  let* y0 := at_ dt_at (112 - 2) in
  let* t0 := at_ dt_at (112 - 1) in
  if fgeb y y0 then
    let jsd := fZ 31 in
    if fgtb y (fadd y0 (fZ 100)) then Some (dt_ext y jsd)
    else
      let v := dt_ext y jsd in
      let dv := fsub (dt_ext y0 jsd) t0 in
      Some (fsub v (fdiv (fmul dv (fsub (fadd y0 (fZ 100)) y)) (fZ 100)))
  else
    let* i := dt_search 24 y 0 in
    let* a := at_ dt_at i in
    let* b := at_ dt_at (i + 5) in
    let* c1 := at_ dt_at (i + 1) in
    let* c2 := at_ dt_at (i + 2) in
    let* c3 := at_ dt_at (i + 3) in
    let* c4 := at_ dt_at (i + 4) in
    Some (dt_cubic y a b c1 c2 c3 c4).

(** eph/eph0.cpp:205-208 [dt_T] *)
Definition dt_T (t : f64) : option f64 :=
  let* v := dt_calc (fadd (fdiv t (lit 3652425 10000)) (fZ 2000)) in
  Some (fdiv v (lit 864000 10)).
