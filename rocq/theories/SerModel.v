(** Model of the precession quantities (eph/eph0.cpp:210-234) and of the evaluation of the planet and moon series
    (eph/eph0.cpp:376-425, 493-528). *)
From Coq Require Import ZArith Bool List Ascii String.
From Coq Require Import Floats.SpecFloat.
From Verif Require Import F64 Str StrModel SsqModel AngModel.
Import ListNotations.
Open Scope Z_scope.
Open Scope opt_scope.

(** eph/eph0.h:16 [#define rad (180*3600/_pi)] *)
Definition rad : f64 := fdiv (fZ (180 * 3600)) dpi.

(** ** prece *)
(** eph/eph_data.h:5-46: the three tables, each literal as numerator and denominator *)
Definition lits_IAU1976 : list (Z * Z) :=
  [(0, 1); (50387784, 10000); (-107259, 100000); (-1147, 1000000);
   (84381448, 1000); (0, 1); (5127, 100000); (-7726, 1000000);
   (0, 1); (41976, 10000); (19447, 100000); (-179, 1000000);
   (0, 1); (-468150, 10000); (5059, 100000); (344, 1000000);
   (84381448, 1000); (-468150, 10000); (-59, 100000); (1813, 1000000);
   (0, 1); (105526, 10000); (-238064, 100000); (-1125, 1000000);
   (0, 1); (470028, 10000); (-3301, 100000); (57, 1000000);
   (629554886, 1000); (-8698192, 10000); (3666, 100000); (-1504, 1000000);
   (0, 1); (50290966, 10000); (111113, 100000); (6, 1000000);
   (0, 1); (20043109, 10000); (-42665, 100000); (-41833, 1000000);
   (0, 1); (23062181, 10000); (30188, 100000); (17998, 1000000);
   (0, 1); (23062181, 10000); (109468, 100000); (18203, 1000000)].
Definition lits_IAU2000 : list (Z * Z) :=
  [(0, 1); (5038478750, 1000000); (-107259, 100000); (-1147, 1000000); (0, 1); (0, 1);
   (84381448, 1000); (-25240, 1000000); (5127, 100000); (-7726, 1000000); (0, 1); (0, 1);
   (0, 1); (41976, 10000); (19447, 100000); (-179, 1000000); (0, 1); (0, 1);
   (0, 1); (-468150, 10000); (5059, 100000); (344, 1000000); (0, 1); (0, 1);
   (84381448, 1000); (-4684024, 100000); (-59, 100000); (1813, 1000000); (0, 1); (0, 1);
   (0, 1); (105526, 10000); (-238064, 100000); (-1125, 1000000); (0, 1); (0, 1);
   (0, 1); (470028, 10000); (-3301, 100000); (57, 1000000); (0, 1); (0, 1);
   (629554886, 1000); (-8698192, 10000); (3666, 100000); (-1504, 1000000); (0, 1); (0, 1);
   (0, 1); (502879695, 100000); (111113, 100000); (6, 1000000); (0, 1); (0, 1);
   (0, 1); (20041917476, 10000000); (-4269353, 10000000); (-418251, 10000000); (-601, 10000000); (-1, 10000000);
   (25976176, 10000000); (23060809506, 10000000); (3019015, 10000000); (179663, 10000000); (-327, 10000000); (-2, 10000000);
   (-25976176, 10000000); (23060803226, 10000000); (10947790, 10000000); (182273, 10000000); (470, 10000000); (-3, 10000000)].
Definition lits_P03 : list (Z * Z) :=
  [(0, 1); (5038481507, 1000000); (-10790069, 10000000); (-114045, 100000000); (132851, 1000000000); (-951, 10000000000);
   (84381406000, 1000000); (-25754, 1000000); (512623, 10000000); (-772503, 100000000); (-467, 1000000000); (3337, 10000000000);
   (0, 1); (4199094, 1000000); (1939873, 10000000); (-22466, 100000000); (-912, 1000000000); (120, 10000000000);
   (0, 1); (-46811015, 1000000); (510283, 10000000); (52413, 100000000); (-646, 1000000000); (-172, 10000000000);
   (84381406000, 1000000); (-46836769, 1000000); (-1831, 10000000); (200340, 100000000); (-576, 1000000000); (-434, 10000000000);
   (0, 1); (10556403, 1000000); (-23814292, 10000000); (-121197, 100000000); (170663, 1000000000); (-560, 10000000000);
   (0, 1); (46998973, 1000000); (-334926, 10000000); (-12559, 100000000); (113, 1000000000); (-22, 10000000000);
   (6295467936, 10000); (-86795758, 100000); (157992, 1000000); (-5371, 10000000); (-4797, 100000000); (72, 1000000000);
   (0, 1); (5028796195, 1000000); (11054348, 10000000); (7964, 100000000); (-23857, 1000000000); (383, 10000000000);
   (0, 1); (2004191903, 1000000); (-4294934, 10000000); (-4182264, 100000000); (-7089, 1000000000); (-1274, 10000000000);
   (2650545, 1000000); (2306083227, 1000000); (2988499, 10000000); (1801828, 100000000); (-5971, 1000000000); (-3173, 10000000000);
   (-2650545, 1000000); (2306077181, 1000000); (10927348, 10000000); (1826837, 100000000); (-28596, 1000000000); (-2904, 10000000000)].
Definition table_of (l : list (Z * Z)) : list f64 := map (fun '(n, d) => lit n d) l.
(** eph/eph0.cpp:226 *)
Definition prece_names : bytes := B "fi w  P  Q  E  x  pi II p  th Z  z ".
(** eph/eph0.cpp:231-232: the loop [for (i = 0; i < n; i++, tn *= t) c += p[sc * n + i] * tn], k rounds to go *)
Fixpoint prece_loop (k : nat) (p : list f64) (j : Z) (t tn c : f64) : option f64 :=
  match k with
  | O => Some c
  | S k => let* x := at_ p j in prece_loop k p (j + 1) t (fmul tn t) (fadd c (fmul x tn))
  end.
(** eph/eph0.cpp:210-234.  [ss], [mx] are the texts without the final NUL.  [None]: the name does not fit into
    [char s[4]] together with a space and the NUL, or a read outside the table. *)
Definition prece (t : f64) (ss mx : bytes) : option f64 :=
  if 4 <? len ss + 2 then None else
  let s := ss ++ B " " in
  let beq a b := if list_eq_dec ascii_dec a b then true else false in
  let go n p :=
    match find prece_names s 0 with
    | None => Some (fZ 0)
    | Some i => let* c := prece_loop n (table_of p) (Z.quot i 3 * Z.of_nat n) t (fZ 1) (fZ 0) in Some (fdiv c rad)
    end in
  if beq mx (B "IAU1976") then go 4%nat lits_IAU1976
  else if beq mx (B "IAU2000") then go 6%nat lits_IAU2000
  else if beq mx (B "P03") then go 6%nat lits_P03
  else Some (fZ 0).

(** ** the series; the C library function [cos] and the coefficient tables are parameters *)
Section Series.
Variable cosd : f64 -> f64.

(** eph/eph0.cpp:404-405: [for (j = n1, c = 0; j < N; j += 3) c += F[j] * cos(F[j + 1] + t * F[j + 2])];
    [fuel] is larger than the number of rounds *)
Fixpoint xl0_terms (fuel : nat) (F : list f64) (t : f64) (j N : Z) (c : f64) : option f64 :=
  match fuel with
  | O => None
  | S fuel =>
      if j <? N then
        let* a := at_ F j in let* b := at_ F (j + 1) in let* d := at_ F (j + 2) in
        let* j' := mk_int (j + 3) in
        xl0_terms fuel F t j' N (fadd c (fmul a (cosd (fadd b (fmul t d)))))
      else Some c
  end.
(** eph/eph0.cpp:387-402: the end of the terms used of series i, that is in F[n1..n2) *)
Definition xl0_end (n n0 N0 n1 n2 i : Z) : option Z :=
  if n <? 0 then Some n2
  else
    let* a := mk_int (3 * n) in
    let* a := mk_int (a * n0) in
    if N0 =? 0 then None else
    let* a := mk_int (Z.quot a N0) in
    let* N := int2 (fadd (fZ a) (lit 1 2)) in
    let* N := mk_int (N + n1) in
    let* N := (if i =? 0 then Some N else mk_int (N + 3)) in
    Some (if n2 <? N then n2 else N).
(** eph/eph0.cpp:385-407: [for (i = 0; i < 6; i++, tn *= t)], k rounds to go *)
Fixpoint xl0_loop (k : nat) (F : list f64) (pn n N0 : Z) (t : f64) (i : Z) (tn v : f64) : option f64 :=
  match k with
  | O => Some v
  | S k =>
      let* f1 := at_ F (pn + i) in let* n1 := cast_int f1 in
      let* f2 := at_ F (pn + 1 + i) in let* n2 := cast_int f2 in
      let* n0 := mk_int (n2 - n1) in
      if n0 =? 0 then xl0_loop k F pn n N0 t (i + 1) (fmul tn t) v
      else
        let* N := xl0_end n n0 N0 n1 n2 i in
        let* c := xl0_terms (S (Z.to_nat (N - n1))) F t n1 N (fZ 0) in
        xl0_loop k F pn n N0 t (i + 1) (fmul tn t) (fadd v (fmul c tn))
  end.
(** eph/eph0.cpp:377-408: up to [v /= F[0]]; [t] is in thousands of years *)
Definition xl0_sum (F : list f64) (zn : Z) (t : f64) (n : Z) : option f64 :=
  let pn := zn * 6 + 1 in
  let* f1 := at_ F (pn + 1) in let* f0 := at_ F pn in
  let* nn0 := cast_int (fsub f1 f0) in
  let* v := xl0_loop 6 F pn n nn0 t 0 (fZ 1) (fZ 0) in
  let* f := at_ F 0 in
  Some (fdiv v f).
(** eph/eph_data.h:343- *)
Definition XL0_xzb : list f64 := table_of
  [(-8631, 100000); (39, 100000); (-8, 100000); (-7447, 100000); (6, 100000); (17, 100000); (-7135, 100000); (-26, 100000); (-176, 100000); (-20239, 100000); (273, 100000); (-347, 100000); (-25486, 100000); (276, 100000); (42926, 100000); (24588, 100000); (345, 100000); (-1446266, 100000); (-95116, 100000); (2481, 100000); (5830651, 100000)].
(** eph/eph0.cpp:376-425 [XL0_calc]; [tabs] is the array XL0 of coefficient tables *)
Definition XL0_calc (tabs : list (list f64)) (xt zn : Z) (t : f64) (n : Z) : option f64 :=
  let t := fdiv t (fZ 10) in
  let* F := at_ tabs xt in
  let* v := xl0_sum F zn t n in
  if xt =? 0 then
    let t2 := fmul t t in
    let t3 := fmul t2 t in
    let cub a b c d := fadd (fadd (fadd a (fmul b t)) (fmul c t2)) (fmul d t3) in
    (* [a - b * t] is written [a + (-b) * t]; both round alike *)
    let v := if zn =? 0 then fadd v (fdiv (cub (lit (-728) 10000) (lit (-27702) 10000) (lit (-11019) 10000) (lit (-996) 10000)) rad) else v in
    let v := if zn =? 1 then fadd v (fdiv (cub (lit 0 10000) (lit 4 10000) (lit 4 10000) (lit (-26) 10000)) rad) else v in
    let v := if zn =? 2 then fadd v (fdiv (cub (lit (-20) 10000) (lit 44 10000) (lit 213 10000) (lit (-250) 10000)) (fZ 1000000)) else v in
    Some v
  else
    let* dv := at_ XL0_xzb ((xt - 1) * 3 + zn) in
    let v := if zn =? 0 then fadd v (fdiv (fmul (fZ (-3)) t) rad) else v in
    Some (if zn =? 2 then fadd v (fdiv dv (fZ 1000000)) else fadd v (fdiv dv rad)).

(** eph/eph0.cpp:520-521: [for (j = 0, c = 0; j < N; j += 6) c += F[j] * cos(...)] *)
Fixpoint xl1_terms (fuel : nat) (F : list f64) (t t2 t3 t4 : f64) (j N : Z) (c : f64) : option f64 :=
  match fuel with
  | O => None
  | S fuel =>
      if j <? N then
        let* a := at_ F j in let* b := at_ F (j + 1) in let* d := at_ F (j + 2) in
        let* e := at_ F (j + 3) in let* f := at_ F (j + 4) in let* g := at_ F (j + 5) in
        let* j' := mk_int (j + 6) in
        xl1_terms fuel F t t2 t3 t4 j' N
          (fadd c (fmul a (cosd (fadd (fadd (fadd (fadd b (fmul t d)) (fmul t2 e)) (fmul t3 f)) (fmul t4 g)))))
      else Some c
  end.
(** eph/eph0.cpp:493-498: the lengths of the tables *)
Definition len_M : list (list Z) := [[2652; 894; 204; 12]; [1236; 270; 72]; [1326; 312; 72]].
(** eph/eph0.cpp:517-519 *)
Definition xl1_end (n li l0 i : Z) : option Z :=
  let* a := mk_int (n * li) in
  if l0 =? 0 then None else
  let* N := int2 (fadd (fZ (Z.quot a l0)) (lit 1 2)) in
  let* N := (if i =? 0 then Some N else mk_int (N + 6)) in
  Some (if li <=? N then li else N).
(** eph/eph0.cpp:514-523: the loop over the tables of one coordinate; k rounds to go *)
Fixpoint xl1_loop (k : nat) (ob : list (list f64)) (lens : list Z) (n : Z) (t t2 t3 t4 : f64) (i : Z) (tn v : f64) : option f64 :=
  match k with
  | O => Some v
  | S k =>
      let* F := at_ ob i in
      let* li := at_ lens i in let* l0 := at_ lens 0 in
      let* N := xl1_end n li l0 i in
      let* c := xl1_terms (S (Z.to_nat N)) F t t2 t3 t4 0 N (fZ 0) in
      xl1_loop k ob lens n t t2 t3 t4 (i + 1) (fmul tn t) (fadd v (fmul c tn))
  end.
(** eph/eph0.cpp:506-511: the polynomial part of the longitude (0 for the other coordinates);
    [a - b] of a product is written [fsub], as in the source *)
Definition xl1_mean (zn : Z) (t : f64) : f64 :=
  if zn =? 0 then
    let t2 := fmul t t in let t3 := fmul t2 t in let t4 := fmul t3 t in let t5 := fmul t4 t in
    let tx := fsub t (fZ 10) in
    let v := fadd (fZ 0) (fmul (fsub (fadd (fsub (fadd (lit 381034409 100000000) (fmul (lit 8399684730072 1000000000) t)) (fmul (lit 3319 100000000) t2)) (fmul (lit 311 10000000000) t3)) (fmul (lit 2033 10000000000000) t4)) rad) in
    let v := fadd v (fsub (fsub (fadd (fadd (fmul (lit 5028792262 1000000) t) (fmul (lit 11124406 10000000) t2)) (fmul (lit 7699 100000000) t3)) (fmul (lit 23479 1000000000) t4)) (fmul (lit 178 10000000000) t5)) in
    if fgtb tx (fZ 0) then fadd v (fadd (fadd (lit (-866) 1000) (fmul (lit 143 100) tx)) (fmul (fmul (lit 54 1000) tx) tx)) else v
  else fZ 0.
(** eph/eph0.cpp:500-527 [XL1_calc]; [obs] is the array XL1 of the tables of the three coordinates *)
Definition XL1_calc (obs : list (list (list f64))) (zn : Z) (t : f64) (n : Z) : option f64 :=
  let* ob := at_ obs zn in
  let t2 := fmul t t in let t3 := fmul t2 t in let t4 := fmul t3 t in
  let v := xl1_mean zn t in
  let t2 := fdiv t2 (fZ 10000) in let t3 := fdiv t3 (fZ 100000000) in let t4 := fdiv t4 (fZ 100000000) in
  let* n := mk_int (n * 6) in
  let* lens := at_ len_M zn in
  let* l0 := at_ lens 0 in
  let n := if n <? 0 then l0 else n in
  let* v := xl1_loop (List.length lens) ob lens n t t2 t3 t4 0 (fZ 1) v in
  Some (if zn =? 2 then v else fdiv v rad).
End Series.
