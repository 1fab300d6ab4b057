(** Model of the table of risings and settings, SZJ::calcRTS (eph/eph_szj.cpp:146-191). *)
From Coq Require Import ZArith Bool List Ascii String.
From Coq Require Import Floats.SpecFloat.
From Verif Require Import F64 Str SsqModel.
Import ListNotations.
Open Scope Z_scope.
Open Scope opt_scope.

(** eph/eph_szj.h:25-37 *)
Record sjs := mkSjs { e_s : bytes; e_z : bytes; e_j : bytes; e_c : bytes; e_h : bytes; e_ch : bytes; e_sj : bytes; e_Ms : bytes; e_Mz : bytes; e_Mj : bytes }.
Definition sjs0 : sjs := mkSjs [] [] [] [] [] [] [] [] [] [].
(** the members of SJ (eph/eph_szj.h:4-23) that calcRTS uses *)
Record sj := mkSj { t_s : f64; t_z : f64; t_j : f64; t_c : f64; t_h : f64 }.

(** [rts[i]] replaced by [f rts[i]]; [None] outside the vector *)
Definition put (rts : list sjs) (i : Z) (f : sjs -> sjs) : option (list sjs) :=
  let* x := at_ rts i in
  Some (firstn (Z.to_nat i) rts ++ f x :: skipn (S (Z.to_nat i)) rts).
Definition set_Ms (v : bytes) (x : sjs) : sjs := mkSjs (e_s x) (e_z x) (e_j x) (e_c x) (e_h x) (e_ch x) (e_sj x) v (e_Mz x) (e_Mj x).
Definition set_Mz (v : bytes) (x : sjs) : sjs := mkSjs (e_s x) (e_z x) (e_j x) (e_c x) (e_h x) (e_ch x) (e_sj x) (e_Ms x) v (e_Mj x).
Definition set_Mj (v : bytes) (x : sjs) : sjs := mkSjs (e_s x) (e_z x) (e_j x) (e_c x) (e_h x) (e_ch x) (e_sj x) (e_Ms x) (e_Mz x) v.

Section Calc.
(** SZJ::St and SZJ::Mt (the station L, fa given; dt and E are set by every call of St and Mt before use), and timeStr *)
Variables (St Mt : f64 -> f64 -> f64 -> sj) (timeStr : f64 -> bytes).
(** eph/eph_szj.cpp:167-173 *)
Definition set_sun (sq : f64) (r : sj) (x : sjs) : sjs :=
  mkSjs (timeStr (fsub (t_s r) sq)) (timeStr (fsub (t_z r) sq)) (timeStr (fsub (t_j r) sq)) (timeStr (fsub (t_c r) sq)) (timeStr (fsub (t_h r) sq))
    (timeStr (fsub (fsub (t_h r) (t_c r)) (lit 5 10))) (timeStr (fsub (fsub (t_j r) (t_s r)) (lit 5 10))) (e_Ms x) (e_Mz x) (e_Mj x).
(** eph/eph_szj.cpp:176 (179, 182): [c = int2(r.s - sq + 0.5) - jd] *)
Definition slot (jd sq x : f64) : option Z := let* k := int2 (fadd (fsub x sq) (lit 5 10)) in cast_int (fsub (fZ k) jd).
(** eph/eph_szj.cpp:176-178 (179-181, 182-184) *)
Definition set_moon (rts : list sjs) (jd sq x : f64) (n : Z) (set : bytes -> sjs -> sjs) : option (list sjs) :=
  let* c := slot jd sq x in
  if (0 <=? c) && (c <? n) then put rts c (set (timeStr (fsub x sq))) else Some rts.
(** eph/eph_szj.cpp:162-185: the body of the loop *)
Definition rts_day (rts : list sjs) (jd L fa sq : f64) (n i : Z) : option (list sjs) :=
  let t := fadd (fadd jd (fZ i)) sq in
  let* rts := (if (0 <=? i) && (i <? n) then put rts i (set_sun sq (St L fa t)) else Some rts) in
  let r := Mt L fa t in
  let* rts := set_moon rts jd sq (t_s r) n set_Ms in
  let* rts := set_moon rts jd sq (t_z r) n set_Mz in
  set_moon rts jd sq (t_j r) n set_Mj.
Fixpoint rts_days (k : nat) (rts : list sjs) (jd L fa sq : f64) (n i : Z) : option (list sjs) :=
  match k with
  | O => Some rts
  | S k => let* rts := rts_day rts jd L fa sq n i in rts_days k rts jd L fa sq n (i + 1)
  end.
(** eph/eph_szj.cpp:157-161: [rr = rts[i]] copies; the assignments to [rr] change only the copy.  What remains are the reads. *)
Definition reads_ok (rts : list sjs) (n : Z) : bool := n <=? Z.of_nat (List.length rts).
(** eph/eph_szj.cpp:146-187; 0 <= n *)
Definition calcRTS (rts : list sjs) (jd : f64) (n : Z) (Jdl Wdl sq : f64) : option (list sjs) :=
  let rts := match rts with [] => repeat sjs0 31 | _ => rts end in
  let sq := fdiv sq (fZ 24) in
  if reads_ok rts n then rts_days (Z.to_nat (n + 2)) rts jd Jdl Wdl sq n (-1) else None.
End Calc.
