(** Model of moonIll (eph/eph0.cpp:811-820).  The C library's sin and cos are parameters. *)
From Coq Require Import ZArith.
From Coq Require Import Floats.SpecFloat.
From Verif Require Import F64 AngModel.
Open Scope Z_scope.

Section Ill.
Variables fsin fcos : f64 -> f64.
(** eph/eph0.cpp:814  dm *)
Definition dm : f64 := fdiv dpi (fZ 180).
(** eph/eph0.cpp:815 *)
Definition ill_D (t t2 t3 t4 : f64) : f64 :=
  fmul (fsub (fadd (fsub (fadd (lit 2978502042 10000000) (fmul (lit 4452671115168 10000000) t)) (fmul (lit 16300 10000000) t2)) (fdiv t3 (fZ 545868)))
             (fdiv t4 (fZ 113065000))) dm.
(** eph/eph0.cpp:816 *)
Definition ill_M (t t2 t3 : f64) : f64 :=
  fmul (fadd (fsub (fadd (lit 3575291092 10000000) (fmul (lit 359990502909 10000000) t)) (fmul (lit 1536 10000000) t2)) (fdiv t3 (fZ 24490000))) dm.
(** eph/eph0.cpp:817 *)
Definition ill_m (t t2 t3 t4 : f64) : f64 :=
  fmul (fsub (fadd (fadd (fadd (lit 1349634114 10000000) (fmul (lit 4771988676313 10000000) t)) (fmul (lit 89970 10000000) t2)) (fdiv t3 (fZ 69699)))
             (fdiv t4 (fZ 14712000))) dm.
(** eph/eph0.cpp:818 *)
Definition ill_a (D M m : f64) : f64 :=
  fadd (fsub dpi D)
    (fmul (fsub (fsub (fsub (fsub (fadd (fmul (fopp (lit 6289 1000)) (fsin m)) (fmul (lit 2100 1000) (fsin M)))
                                  (fmul (lit 1274 1000) (fsin (fsub (fmul D (fZ 2)) m))))
                            (fmul (lit 658 1000) (fsin (fmul D (fZ 2)))))
                      (fmul (lit 214 1000) (fsin (fmul m (fZ 2)))))
                (fmul (lit 110 1000) (fsin D))) dm).
(** eph/eph0.cpp:811-820 *)
Definition moonIll (t : f64) : f64 :=
  let t2 := fmul t t in let t3 := fmul t2 t in let t4 := fmul t3 t in
  let D := ill_D t t2 t3 t4 in
  let M := ill_M t t2 t3 in
  let m := ill_m t t2 t3 t4 in
  let a := ill_a D M m in
  fdiv (fadd (fZ 1) (fcos a)) (fZ 2).
End Ill.
