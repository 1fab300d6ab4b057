(** Model in exact arithmetic, as in GeoModel, of the searches for extreme distances, nodes, elongations, stations and conjunctions
    (eph/eph0.cpp: moonMinR, moonNode, earthMinR; eph/eph.cpp: daJu, xingLiu, xingHY, xingHR).  The series are parameters. *)
From Coq Require Import ZArith Reals List.
From Flocq Require Import Core.Raux.
From Verif Require Import GeoModel.
Import ListNotations.
Open Scope R_scope.

(** eph/eph0.cpp:673, 702, 728 and eph/eph.cpp:50: the mean time closest to t *)
Definition mean_time (a b t : R) : R := b + a * IZR (Zfloor ((t - b) / a + 0.5)).
(** eph/eph0.cpp:677-680 (also 682-685, 688-691, 732-735, 737-740, 743-746), eph/eph.cpp:56-59 and, for the first coordinate, 123-126 *)
Definition vertex (f : R -> R) (t dt : R) : R :=
  let r1 := f (t - dt) in let r2 := f t in let r3 := f (t + dt) in t + (r1 - r3) / (r1 + r3 - 2 * r2) * dt / 2.
(** eph/eph0.cpp:692 (747), eph/eph.cpp:61: the value, from the three of the last round *)
Definition vertex_value (f : R -> R) (t dt : R) : R :=
  let r1 := f (t - dt) in let r2 := f t in let r3 := f (t + dt) in r2 + (r1 - r3) / (r1 + r3 - 2 * r2) * (r3 - r1) / 8.
(** three rounds *)
Definition extreme (f0 f1 f2 : R -> R) (d0 d1 d2 t : R) : R * R :=
  let t := vertex f0 t d0 in let t := vertex f1 t d1 in (vertex f2 t d2, vertex_value f2 t d2).
(** eph/eph0.cpp:666-694; [f n t] is XL1_calc(2, t, n) *)
Definition moonMinR (f : Z -> R -> R) (t : R) (min : bool) : R * R :=
  let a := 27.55454988 / 36525 in let b := if min then - 10.3302 / 36525 else 3.4471 / 36525 in
  extreme (f 10%Z) (f 20%Z) (f (-1)%Z) (2 / 36525) (0.5 / 36525) (1200 / 86400 / 36525) (mean_time a b t).
(** eph/eph0.cpp:720-749; [f n t] is XL0_calc(0, 2, t, n) *)
Definition earthMinR (f : Z -> R -> R) (t : R) (min : bool) : R * R :=
  let a := 365.25963586 / 36525 in let b := if min then 1.7 / 36525 else 184.5 / 36525 in
  extreme (f 10%Z) (f 80%Z) (f (-1)%Z) (3 / 36525) (0.2 / 36525) (0.01 / 36525) (mean_time a b t).
(** eph/eph.cpp:31-63 for xt = 1 (Mercury, [true]) and xt = 2 (Venus, [false]); for other xt it divides by 0; [f i t] is xingJJ(xt, t, i) *)
Definition daJu (f : Z -> R -> R) (mercury : bool) (t : R) (dx : bool) : R * R :=
  let a := (if mercury then 115.8774777586 else 583.9213708245) / 36525 in
  let c0 := if mercury then 2 else 4 in
  let c3 := if mercury then 46 else 382 in
  let c4 := if mercury then 87 else 521 in
  let b := (if dx then c3 else c4) / 36525 in
  extreme (f 0%Z) (f 1%Z) (f 2%Z) (c0 / 36525) (0.2 / 36525) (0.01 / 36525) (mean_time a b t).
(** eph/eph0.cpp:696-718; [w n t] is XL1_calc(1, t, n), [lon t] is XL1_calc(0, t, -1) *)
Definition moonNode (w : Z -> R -> R) (lon : R -> R) (t : R) (asc : bool) : R * R :=
  let a := 27.21222082 / 36525 in let b := if asc then 21 / 36525 else 35 / 36525 in
  let t := mean_time a b t in
  let dt := 0.5 / 36525 in
  let v := (w 10%Z (t + dt) - w 10%Z t) / dt in
  let t := t - w 10%Z t / v in
  let dt := 0.05 / 36525 in
  let v := (w 40%Z (t + dt) - w 40%Z t) / dt in
  let t := t - w 40%Z t / v in
  let t := t - w (-1)%Z t / v in
  (t, lon t).
(** eph/eph0.h:29: cs_xxHH[xt - 1], the synodic periods in days, 1 <= xt <= 8 *)
Definition synodic (xt : Z) : R := nth (Z.to_nat (xt - 1)) [116; 584; 780; 399; 378; 370; 367; 367] 0.
(** eph/eph.cpp:89-92, 197-199: the speed of the planet relative to the Earth per century *)
Definition speed (xt : Z) : R := let v := 2 * PI / (synodic xt / 36525) in if (2 <? xt)%Z then - v else v.
(** eph/eph.cpp:93-94, 200-201: k rounds; [hd t] is XL0_calc(xt, 0, t, 8) - XL0_calc(0, 0, t, 8) *)
Fixpoint approach (hd : R -> R) (w0 v : R) (k : nat) (t : R) : R :=
  match k with O => t | S k => approach hd w0 v k (t - rad2rrad (hd t - w0) / v) end.
(** eph/eph.cpp:83-129; [pos n g t] is (right ascension, distance) of xingLiu0(xt, t, n, g); [Agx] is cs_Agx *)
Definition xingLiu (hd : R -> R) (pos : Z -> R -> R -> R * R) (Agx : R) (xt : Z) (t : R) (sn : bool) : R :=
  let t := approach hd 0 (speed xt) 6 t in
  let tc := nth (Z.to_nat (xt - 1)) [17.4; 28; 52; 82; 86; 88; 89; 90] 0 / 36525 in
  let t := if sn then (if (2 <? xt)%Z then t - tc else t + tc) else (if (2 <? xt)%Z then t + tc else t - tc) in
  let ra g n x := fst (pos n g x) in
  let t := vertex (ra 0 8%Z) t (5 / 36525) in
  let t := vertex (ra 0 8%Z) t (1 / 36525) in
  let g := snd (pos 8%Z 0 t) * Agx in
  let t := vertex (ra 0 8%Z) t (0.5 / 36525) in
  vertex (ra g (-1)%Z) t 0.000002.
(** eph/eph.cpp:186-216; [sp n t w ts tp] is xingSP(xt, t, n, w, ts, tp) *)
Definition xingHR (hd : R -> R) (sp : Z -> R -> R -> R -> R -> R * R * R * R) (xt : Z) (t : R) (f : bool) : R * R :=
  let dt := 0.00002 in
  let w0 := if f then 0 else PI in
  let w1 := if f then (if (2 <? xt)%Z then PI else 0) else 0 in
  let t := approach hd w0 (speed xt) 6 t in
  let '(a0, _, a2, a3) := sp 8%Z t w1 0 0 in
  let '(b0, _, _, _) := sp 8%Z (t + dt) w1 0 0 in
  let v := (b0 - a0) / dt in
  let '(a0, _, a2, a3) := sp 40%Z t w1 a2 a3 in
  let t := t - a0 / v in
  let '(a0, a1, _, _) := sp (-1)%Z t w1 a2 a3 in
  (t - a0 / v, a1).
(** eph/eph.cpp:147-169; [mp n t E g] is xingMP(xt, t, n, E, g), [obl] is hcjj, [nut] is nutation2 *)
Definition xingHY (mp : Z -> R -> R -> R * R * R * R -> R * R * R * R) (obl : R -> R) (nut : R -> R * R) (t : R) : R * R :=
  let step t := t - (let '(d0, _, _, _) := mp 8%Z t 0.4091 (0, 0, 0, 0) in d0) / 8192 in
  let t2 := step (step t) in
  let '(_, _, d2, d3) := mp 8%Z t2 0.4091 (0, 0, 0, 0) in
  let t := step t2 in
  let E := obl t in
  let g := (d2, d3, fst (nut t), snd (nut t)) in
  let '(d0, _, _, _) := mp 8%Z t E g in
  let '(e0, _, _, _) := mp 8%Z (t + 0.000001) E g in
  let v := (e0 - d0) / 0.000001 in
  let '(d0, _, _, _) := mp 30%Z t E g in
  let t := t - d0 / v in
  let '(d0, d1, _, _) := mp (-1)%Z t E g in
  (t - d0 / v, d1).
