(** Model of the table of Besselian elements: RS_GS::init and RS_GS::chazhi (eph/eph_rsgs.cpp:18-95). *)
From Coq Require Import ZArith Reals Bool List.
From Coq Require Import Floats.SpecFloat.
From Flocq Require Import Core.
From Verif Require Import F64 SsqModel AngModel.
Import ListNotations.
Open Scope Z_scope.
Open Scope opt_scope.

(** ** chazhi: the interpolation, for any kind of numbers; used with doubles and, for its value, with real numbers *)
Section Chazhi.
Context {num : Type}.
Variables (add sub mul div : num -> num -> num) (ofZ : Z -> num) (half : num) (floor_int : num -> option Z).
(** eph/eph_rsgs.cpp:81: [(jd-Zjd)/Zdt+N/2.0-0.5] *)
Definition node_pos (Zjd Zdt jd : num) (N : Z) : num := sub (add (div (sub jd Zjd) Zdt) (div (ofZ N) (ofZ 2))) half.
(** eph/eph_rsgs.cpp:83-87: one component in the case of two rows *)
Definition linear (B : list num) (p w : Z) (t : num) : option num :=
  let* b0 := at_ B p in let* b1 := at_ B (p + w) in Some (add b0 (mul (sub b1 b0) t)).
(** eph/eph_rsgs.cpp:90-91: one component in the other case *)
Definition parabolic (B : list num) (p w : Z) (t : num) : option num :=
  let* b0 := at_ B p in let* bp := at_ B (p + w) in let* bm := at_ B (p - w) in
  Some (add b0 (div (mul (add (sub bp bm) (mul (sub (add bp bm) (mul b0 (ofZ 2))) t)) t) (ofZ 2))).
(** eph/eph_rsgs.cpp:88: [int c=floor(t+0.5); if(c<=0) c=1; if(c>N-2) c=N-2;] *)
Definition centre (c N : Z) : Z := let c := if c <=? 0 then 1 else c in if N - 2 <? c then N - 2 else c.
(** eph/eph_rsgs.cpp:75-93.  [None]: read outside the table, division by zero ([B.size()/N] with N = 0), or conversion of a double
    outside int.  The table is shorter than 2^31 elements.  [xt*3] with 0 <= xt <= 2. *)
Definition chazhi (Zs : list num) (Zjd Zdt jd : num) (xt : Z) : option (num * num * num) :=
  let p := xt * 3 in
  let size := Z.of_nat (List.length Zs) in
  let N := size / 9 in
  if N =? 0 then None else
  let w := size / N in
  let t := node_pos Zjd Zdt jd N in
  if N =? 2 then
    let* z0 := linear Zs p w t in let* z1 := linear Zs (p + 1) w t in let* z2 := linear Zs (p + 2) w t in Some (z0, z1, z2)
  else
    let* c := floor_int (add t half) in
    let c := centre c N in
    let t := sub t (ofZ c) in
    let p := p + c * w in
    let* z0 := parabolic Zs p w t in let* z1 := parabolic Zs (p + 1) w t in let* z2 := parabolic Zs (p + 2) w t in Some (z0, z1, z2).
(** eph/eph_rsgs.cpp:32: [Zjd + (i-n/2.0+0.5)*Zdt], the time of row i (before the division by 36525) *)
Definition row_time (Zjd Zdt : num) (n i : Z) : num := add Zjd (mul (add (sub (ofZ i) (div (ofZ n) (ofZ 2))) half) Zdt).
End Chazhi.
(** doubles *)
Definition chazhi_d := chazhi fadd fsub fmul fdiv fZ (lit 5 10) int2.
(** real numbers; the conversion to int is taken as unbounded *)
Definition chazhi_R := chazhi Rplus Rminus Rmult Rdiv IZR (/ 2)%R (fun x => Some (Zfloor x)).
Definition row_time_R := row_time Rplus Rminus Rmult Rdiv IZR (/ 2)%R.

(** ** init *)
(** eph/eph0.cpp:751-754 *)
Definition suoN (jd : f64) : option Z := int2 (fdiv (fadd jd (fZ 8)) (lit 295306 10000)).
Definition f3 : Type := (f64 * f64 * f64)%type.
Definition fst3 (v : f3) : f64 := fst (fst v).
(** the static members of RS_GS *)
Record rsgs := mkRsgs { Zjd : f64; Zs : list f64; dT : f64; dyj : f64; tanf1 : f64; tanf2 : f64; srad : f64; bba : f64; bhc : f64 }.
(** eph/eph_rsgs.cpp:7-16 *)
Definition rsgs0 : rsgs := mkRsgs (fZ 0) [] (fZ 0) (fZ 23500) (lit 46 10000) (lit 45 10000) (lit 46 10000) (fZ 1) (fZ 0).
Definition Zdt : f64 := lit 4 100.
(** eph/eph0.h:7-25 *)
Definition cs_rEar : f64 := lit 63781366 10000.
Definition cs_ba : f64 := lit 99664719 100000000.
Definition cs_ba2 : f64 := fmul cs_ba cs_ba.
Definition cs_AU : f64 := lit 14959787069100 100000.
Definition cs_k : f64 := lit 2725076 10000000.
Definition cs_k2 : f64 := lit 2722810 10000000.
Definition cs_k0 : f64 := lit 1091222 10000.

Section Init.
(** the other functions of the library that init calls, and the C library *)
Variables (MS_aLon_t2 dt_T hcjj gxc_sunLon gxc_sunLat gxc_moonLon gxc_moonLat sind cosd tand atand : f64 -> f64)
          (nutation2 : f64 -> f64 * f64) (e_coord m_coord : f64 -> Z -> Z -> Z -> f3)
          (llrConv : f3 -> f64 -> f3) (llr2xyz xyz2llr : f3 -> f3) (pGST : f64 -> f64 -> f64).
(** eph/eph_rsgs.cpp:42-43, 54: [if(i && x<a0) x+=pi2] *)
Definition unwrap (first : option f64) (x : f64) : f64 :=
  match first with Some a0 => if fltb x a0 then fadd x d2pi else x | None => x end.
(** eph/eph_rsgs.cpp:30-57: row i; [first] are the elements 0, 3, 6 of row 0 (none for row 0); S and M keep their values of the
    round before when n is none of 7, 3, 2.  Returns the nine elements, S and M. *)
Definition init_row (zjd dT : f64) (zd : f64 * f64) (E : f64) (n i : Z) (first : option (f64 * f64 * f64)) (SM : f3 * f3) : list f64 * (f3 * f3) :=
  let T := fdiv (row_time fadd fsub fmul fdiv fZ (lit 5 10) zjd Zdt n i) (fZ 36525) in
  let SM := if n =? 7 then (e_coord T (-1) (-1) (-1), m_coord T (-1) (-1) (-1)) else SM in
  let SM := if n =? 3 then (e_coord T 65 65 65, m_coord T (-1) 150 150) else SM in
  let SM := if n =? 2 then (e_coord T 20 20 20, m_coord T 30 30 30) else SM in
  let '((S0, S1, S2), (M0, M1, M2)) := SM in
  let S := (fadd (fadd (fadd S0 (fst zd)) (gxc_sunLon T)) dpi, fadd (fopp S1) (gxc_sunLat T), S2) in
  let M := (fadd (fadd M0 (fst zd)) (gxc_moonLon T), fadd M1 (gxc_moonLat T), M2) in
  let '(S0, S1, S2) := llrConv S E in
  let '(M0, M1, M2) := llrConv M E in
  let S2 := fmul S2 cs_AU in
  let S0 := unwrap (option_map (fun f => fst (fst f)) first) S0 in
  let M0 := unwrap (option_map (fun f => snd (fst f)) first) M0 in
  let '(sx, sy, sz) := llr2xyz (S0, S1, S2) in
  let '(mx, my, mz) := llr2xyz (M0, M1, M2) in
  let '(B0, B1, B2) := xyz2llr (fsub sx mx, fsub sy my, fsub sz mz) in
  let B0 := fadd (fdiv dpi (fZ 2)) B0 in
  let B1 := fsub (fdiv dpi (fZ 2)) B1 in
  let B0 := unwrap (option_map snd first) B0 in
  ([S0; S1; S2; M0; M1; M2; B0; B1; fadd (pGST (fsub (fmul T (fZ 36525)) dT) dT) (fmul (fst zd) (cosd E))],
   ((sx, sy, sz), (mx, my, mz))).
(** eph/eph_rsgs.cpp:30-58: rows i .. n-1, k of them *)
Fixpoint init_rows (k : nat) (zjd dT : f64) (zd : f64 * f64) (E : f64) (n i : Z) (first : option (f64 * f64 * f64)) (SM : f3 * f3) : list f64 :=
  match k with
  | O => []
  | S k =>
      let '(r, SM) := init_row zjd dT zd E n i first SM in
      let first := match first with None => Some (nth 0 r (fZ 0), nth 3 r (fZ 0), nth 6 r (fZ 0)) | f => f end in
      r ++ init_rows k zjd dT zd E n (i + 1) first SM
  end.
(** eph/eph_rsgs.cpp:21-68: everything after the test, for lunation number [k] *)
Definition init_table (k n : Z) : rsgs :=
  let jd := fmul (MS_aLon_t2 (fmul (fmul (fZ k) dpi) (fZ 2))) (fZ 36525) in
  let dT := dt_T jd in
  let zd := nutation2 (fdiv jd (fZ 36525)) in
  let E := fadd (hcjj (fdiv jd (fZ 36525))) (snd zd) in
  let z3 := (fZ 0, fZ 0, fZ 0) in
  let a := init_rows (Z.to_nat n) jd dT zd E n 0 None (z3, z3) in
  let p := Nat.sub (List.length a) 9 in
  let el i := nth i a (fZ 0) in
  let two := fZ 2 in
  let dyj := fdiv (fdiv (fsub (fsub (fadd (el 2%nat) (el (p + 2)%nat)) (el 5%nat)) (el (p + 5)%nat)) two) cs_rEar in
  let bba := sind (fdiv (fadd (el 1%nat) (el (p + 1)%nat)) two) in
  mkRsgs jd a dT dyj (fdiv (fadd cs_k0 cs_k) dyj) (fdiv (fsub cs_k0 cs_k2) dyj)
    (fdiv cs_k0 (fdiv (fdiv (fadd (el 2%nat) (el (p + 2)%nat)) two) cs_rEar))
    (fmul cs_ba (fadd (fZ 1) (fdiv (fmul (fmul (fsub (fZ 1) cs_ba2) bba) bba) two)))
    (fopp (atand (fmul (tand E) (sind (fdiv (fadd (el 6%nat) (el (p + 6)%nat)) two))))).
(** eph/eph_rsgs.cpp:18-70; n >= 1 *)
Definition init (st : rsgs) (jd : f64) (n : Z) : option rsgs :=
  let* k := suoN jd in
  let* k0 := suoN (Zjd st) in
  let* n9 := mk_int (n * 9) in
  if (k =? k0) && (Z.of_nat (List.length (Zs st)) =? n9) then Some st
  else Some (init_table k n).
(** a program calling init again and again *)
Fixpoint init_all (st : rsgs) (calls : list (f64 * Z)) : option rsgs :=
  match calls with
  | [] => Some st
  | (jd, n) :: calls => let* st := init st jd n in init_all st calls
  end.
End Init.
