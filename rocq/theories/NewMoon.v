(** The day SSQ::calc returns for a new moon in the eras of the series. *)
From Coq Require Import ZArith Reals Lia Lra Bool List.
From Coq Require Import Floats.SpecFloat.
From Flocq Require Import Core IEEE754.BinarySingleNaN.
From Verif Require Import F64 F64R F64T F64E AngModel PiBound ErrExpr SmTab SerModel SerSpec FormModel FormSpec FormProps WaveF WaveR SmModel SmSpec SmLon SmProps SmSun SmNewton SunProps LonProps SmMoon MoonProps IllProps DtSpec QuickR HighR QuickSun QuickMoonR QuickMoon TermDay.
From Verif Require FmtModel SsqModel SsqSpec SsqProof2 SsqProof3 SsqProof4 SsqProof5 SsqProof6 SsqProps.
Import ListNotations.
Open Scope R_scope.

(** the day of a new moon: so_high W gives the moment of the elongation w, W being w up to rounding, and the day is the day of that moment unless it is within 250 seconds of midnight *)
Lemma so_high_day fsin fcos XL1 XL0 rest W w : good_lib fsin sin -> good_lib fcos cos -> nth_error XL1 0 = Some moon_lon_tables -> nth_error XL0 0 = Some (memory (earth_table rest)) -> length rest = 1518%nat -> ok W -> -232800 <= w <= 77640 -> Rabs (R64 W - w) <= 1e-9 ->
  exists v r y, so_high fsin fcos XL1 XL0 W = Some v /\ ok v /\ elongation r = w /\ -30 <= r <= 10 /\ (forall r', -30 <= r' <= 10 -> elongation r' = w -> r' = r) /\
    Rabs (365.2425 * (y - 2000) - 36525 * r) <= 6 /\ Rabs (R64 v - civil r y) <= 1.1 /\
    forall d, cast_int (ffloor (fadd v (lit 5 10))) = Some d -> IZR d - 250 / 86400 < civil r y + 1 / 2 < IZR d + 1 + 250 / 86400.
Proof.
  intros Gs Gc H1 H0 HR OW Bw DW. pose proof el_slope3 as SL. pose proof el_dev3 as DV. pose proof earth_rho3 as ER. pose proof earth_K3 as EK. pose proof moon_rho30 as MR. pose proof moon_K30 as MK.
  assert (Bw' : Rabs w <= 232800) by (apply Rabs_le; lra). assert (BW1 : Rabs (R64 W) <= 232801). { replace (R64 W) with (w + (R64 W - w)) by ring. apply Rle_trans with (1 := sum_le _ _ _ _ Bw' DW). decs. lra. }
  assert (MEAN : forall x, Rabs x <= 30 -> Rabs (w - elongation x) <= 0.001 -> -1.4 <= w - 7771.37714500204 * x <= 1.4).
  { intros x Bx Ex. pose proof (el_dev_ok (10 * 3) 3 x ltac:(lia) ltac:(lia) ltac:(change (10 * 3)%Z with 30%Z; lra)) as MD. revert MD DV Ex. unfold el_mean. decs. intros MD DV Ex. apply Rabs_le_inv in MD. apply Rabs_le_inv in Ex. lra. }
  assert (X : exists a r, MS_aLon_t fsin fcos XL1 XL0 W = Some a /\ ok a /\ elongation r = w /\ -30 <= r <= 10 /\ Rabs (R64 a - r) <= 107 / (36525 * 86400) /\ forall r', -30 <= r' <= 10 -> elongation r' = w -> r' = r).
  { destruct (moon_search fsin fcos Gs Gc XL1 XL0 rest H1 H0 HR W OW 3 232801 1478.7 125.4 7088600 0.018101 0.0017604 1.8224e-05 0.24781 3.4225e-05 0.068728 1.1154e-05 0.0040461 6.4312e-07 0.00020793) as (v & E & O & B & D);
      try lia; try (unfold el_rho, el_K; change (10 * 3)%Z with 30%Z in *; tails; revert MR MK ER EK SL DV; decs; lra).
    replace (10 * 3) with 30 in B by ring. assert (D001 : 0 < 0.001) by (decs; lra).
    assert (D' : Rabs (w - elongation (R64 v)) <= 0.000208). { replace (w - elongation (R64 v)) with ((R64 W - elongation (R64 v)) - (R64 W - w)) by ring. apply Rle_trans with (1 := diff_le _ _ _ _ D DW). decs. lra. }
    pose proof (MEAN (R64 v) ltac:(lra) ltac:(revert D'; decs; lra)) as MV. assert (DD : 107 / (36525 * 86400) <= 0.001) by (decs; lra).
    assert (HS : 0.000208 <= (7771 - 1478.7) * (107 / (36525 * 86400))) by (decs; lra).
    destruct (el_root 3 (R64 v) w 0.000208 1478.7 (107 / (36525 * 86400)) ltac:(lia) ltac:(lra) ltac:(revert MV; decs; lra) SL ltac:(decs; lra) D' ltac:(lra) HS) as (r & R1 & R2 & R3 & R4).
    exists v, r. assert (Br : Rabs r <= 30) by (replace r with (R64 v - (R64 v - r)) by ring; apply Rle_trans with (1 := diff_le _ _ _ _ B R2); lra).
    split; [exact E|]. split; [exact O|]. split; [exact R1|]. split; [apply Rabs_le_inv in Br; lra|]. split; [exact R2|]. intros r' B' E'. apply R4; [apply Rabs_le; lra|lra|exact E']. }
  destruct X as (a & r & Ea & Oa & Er & Br & Da & Uq). assert (Br' : Rabs r <= 30) by (apply Rabs_le; lra).
  pose proof (MEAN r Br' ltac:(rewrite Er; replace (w - w) with 0 by ring; rewrite Rabs_R0; decs; lra)) as MV.
  destruct (moon_terms fsin fcos Gs Gc XL1 H1 W OW ltac:(lra)) as (T0 & T1 & t2 & E2 & O2 & M0 & D1 & D2).
  assert (M0' : Rabs (w - el_mean T0) <= 2e-8). { replace (w - el_mean T0) with ((R64 W - el_mean T0) - (R64 W - w)) by ring. apply Rle_trans with (1 := diff_le _ _ _ _ M0 DW). decs. lra. }
  destruct (moon_guess w T0 T1 ltac:(lra) M0' D1) as [B1 G1]. pose proof (el_quick_far T1 B1) as QF.
  assert (D2' : Rabs (short_speed T1 * (R64 t2 - T1) - (w - el_quick T1)) <= 2e-8).
  { assert (RW : Rabs (R64 W - el_quick T1) <= 0.9).
    { replace (R64 W - el_quick T1) with ((R64 W - w) + (w - elongation T1) - (el_quick T1 - elongation T1)) by ring. apply Rle_trans with (1 := diff_le _ _ _ _ (sum_le _ _ _ _ DW G1) QF). decs. lra. }
    specialize (D2 RW). replace (short_speed T1 * (R64 t2 - T1) - (w - el_quick T1)) with ((short_speed T1 * (R64 t2 - T1) - (R64 W - el_quick T1)) + (R64 W - w)) by ring. apply Rle_trans with (1 := sum_le _ _ _ _ D2 DW). decs. lra. }
  pose proof (moon_quick_far w r T0 T1 (R64 t2) ltac:(lra) Br' Er M0' D1 D2') as Far.
  destruct (high_day fsin fcos Gs Gc (MS_aLon_t2 fsin fcos XL1 W) (MS_aLon_t fsin fcos XL1 XL0 W) t2 a 1800 r 2049 107 250 E2 O2 Ea Oa ltac:(lia) ltac:(lra) Far Da ltac:(lra) ltac:(decs; lra)) as (v & y & Ev & Ov & Y1 & Y2 & Y3).
  - destruct (Rle_or_lt w (-7000)) as [N|N].
    + left. apply Rabs_le_inv in Far. revert MV. decs. lra.
    + right. split; [|decs; lra]. apply (moon_quick_near w r T0 T1); try assumption; [apply Rabs_le; lra|]. revert MV. decs. intros MV. apply Rabs_le. lra.
  - exists v, r, y. repeat (split; [assumption|]). exact Y3.
Qed.

(** the angle n * 360 degrees as calc computes it, and the day it then returns *)
Definition so_of (n : Z) : f64 := fmul (fmul (fZ n) FmtModel.M_PI) (fZ 2).
Definition moon (e : SsqModel.ssq_env) (n : Z) : option Z := cast_int (ffloor (fadd (SsqModel.so_high e (so_of n)) (lit 5 10))).
(** the number of the new moon and its elongation *)
Lemma so_angle_near fsin fcos J : good_lib fsin sin -> good_lib fcos cos -> ok J -> Rabs (R64 J - 2451545) <= 1100000 ->
  exists n, ok (SsqModel.so_angle J (fZ 14)) /\ Rabs (R64 (SsqModel.so_angle J (fZ 14)) - IZR n * (2 * PI)) <= 1e-9 /\
    IZR n - 1e-7 <= (R64 J - 2451537) / 29.5306 <= IZR n + 1 + 1e-7 /\ (n <> 0%Z -> SsqModel.so_angle J (fZ 14) = so_of n).
Proof.
  intros Gs Gc O B. apply Rabs_le_inv in B. unfold SsqModel.so_angle.
  assert (E : env_ok [J] [R64 J] [given 4000000]) by (constructor; [apply given_ok; [assumption|apply Rabs_le; lra]|constructor]).
  set (F := fdiv (fsub (fadd J (fZ 14)) (fZ 2451551)) SsqModel.synodic).
  assert (H : ok F /\ Rabs (R64 F - (R64 J - 2451537) / 29.5306) <= IZR 126765060022822940149670 * U) by (unfold F, SsqModel.synodic; formula2 fsin fcos Gs Gc [J] E).
  destruct H as [OF DF]. destruct (ffloor_ok F OF) as [Ofl Vfl]. set (n := Zfloor (R64 F)) in *. pose proof (Zfloor_lb (R64 F)) as LB. pose proof (Zfloor_ub (R64 F)) as UB. fold n in LB, UB.
  set (X := (R64 J - 2451537) / 29.5306) in *. assert (BX : -38000 <= X <= 38000). { unfold X. decs. replace (295306 * / 10000) with (295306 / 10000) by field. replace ((R64 J - 2451537) / (295306 / 10000)) with ((R64 J - 2451537) * (10000 / 295306)) by field. lra. }
  clearbody X. assert (DF' : Rabs (R64 F - X) <= 1e-7) by (apply Rle_trans with (1 := DF); unfold U, one; decs; lra). revert DF'. decs. intros DF'. apply Rabs_le_inv in DF'.
  set (nf := ffloor F) in *. assert (Bn : Rabs (R64 nf) <= 38010) by (rewrite Vfl; apply Rabs_le; lra).
  assert (E2 : env_ok [nf] [R64 nf] [given 38010]) by (constructor; [apply given_ok; assumption|constructor]).
  exists n. rewrite mpi_is. set (G := fmul (fmul nf dpi) (fZ 2)).
  assert (H : ok G /\ Rabs (R64 G - R64 nf * (2 * PI)) <= IZR 1267650600228229401000 * U) by (unfold G; formula2 fsin fcos Gs Gc [nf] E2).
  destruct H as [OG DG]. split; [exact OG|]. split; [|split; [lra|]].
  - rewrite <- Vfl. apply Rle_trans with (1 := DG). unfold U, one. decs. lra.
  - intros NZ. unfold G, so_of. rewrite mpi_is. f_equal. f_equal. destruct (fZ_ok n) as [On Vn]. { assert (-39000 < n < 39000)%Z by (split; apply lt_IZR; lra). lia. }
    apply R64_inj; [exact Ofl|exact On|rewrite Vfl, Vn; reflexivity|]. rewrite Vfl. now apply not_0_IZR.
Qed.

(** the functions of the calendar's environment are the series *)
Definition series_so (fsin fcos : f64 -> f64) (XL1 : list (list (list f64))) (XL0 : list (list f64)) (e : SsqModel.ssq_env) : Prop :=
  forall W v, so_high fsin fcos XL1 XL0 W = Some v -> SsqModel.so_high e W = v.

(** d is the day of the n-th new moon, the moment at which the Moon's longitude less the Sun's is n full circles by the series: the moment r, in centuries of
    dynamical time, is the only one between 30 centuries before and 10 centuries after J2000, and d is its civil day in Beijing time, give or take 250 seconds at its
    two ends; Delta T is that of a date y within 6 days *)
Definition moon_of (n d : Z) : Prop := exists r y, elongation r = IZR n * (2 * PI) /\ -30 <= r <= 10 /\ (forall r', -30 <= r' <= 10 -> elongation r' = IZR n * (2 * PI) -> r' = r) /\
  Rabs (365.2425 * (y - 2000) - 36525 * r) <= 6 /\ IZR d - 250 / 86400 < civil r y + 1 / 2 < IZR d + 1 + 250 / 86400.

Lemma moon_day fsin fcos XL1 XL0 rest e jd : good_lib fsin sin -> good_lib fcos cos -> nth_error XL1 0 = Some moon_lon_tables -> nth_error XL0 0 = Some (memory (earth_table rest)) -> length rest = 1518%nat -> series_so fsin fcos XL1 XL0 e ->
  ok jd -> -1000000 <= R64 jd <= -993862 \/ -14610 <= R64 jd <= 364000 ->
  exists n d, IZR n - 1e-6 <= (R64 jd + 8) / 29.5306 <= IZR n + 1 + 1e-6 /\ SsqModel.calc e jd 0 = Some d /\ moon_of n d /\
    (n <> 0%Z \/ SsqModel.so_angle (fadd jd (fZ 2451545)) (fZ 14) = so_of n -> SsqModel.calc e jd 0 = moon e n).
Proof.
  intros Gs Gc H1 H0 HR SE Oj Bj. assert (Bj' : Rabs (R64 jd) <= 1000000) by (apply Rabs_le; lra).
  destruct (SsqProof4.shift_ok jd Oj Bj') as [OJ DJ].
  assert (ERA : SsqProps.era 0 (R64 (fadd jd (fZ 2451545))) 0).
  { apply SsqProps.era_far. destruct Bj as [Bj|Bj]; [left|right].
    - destruct (SsqProof2.f1_bounds 0) as [_ F1]. lra.
    - destruct (fZ_ok 2451545 ltac:(lia)) as [O1 E1]. destruct (fadd_ok jd (fZ 2451545) Oj O1) as [_ E]. { rewrite E1. apply big_ok. apply Rabs_le. lra. }
      rewrite E, E1. apply rnd_ge_repr; [apply repr_IZR; lia|lra]. }
  rewrite (SsqProps.C17_served_by_era e jd 0 0 ltac:(left; reflexivity) Oj Bj' ERA).
  change (Z.eqb 0 1) with false. cbn iota.
  set (J := fadd jd (fZ 2451545)) in *. clearbody J.
  destruct (so_angle_near fsin fcos J Gs Gc OJ) as (n & OW & DW & Hn & Hq). { apply Rabs_le. lra. }
  assert (Hn' : IZR n - 1e-6 <= (R64 jd + 8) / 29.5306 <= IZR n + 1 + 1e-6).
  { assert (D : Rabs ((R64 jd + 8) / 29.5306 - (R64 J - 2451537) / 29.5306) <= 1 / 10000000).
    { replace ((R64 jd + 8) / 29.5306 - (R64 J - 2451537) / 29.5306) with ((R64 J - (R64 jd + 2451545)) * (- (10000 / 295306))) by (decs; field). apply Rle_trans with (/ 1000000 * (10000 / 295306)); [|lra].
      apply prod_le; [apply Rabs_le; lra|rewrite Rabs_Ropp, Rabs_pos_eq; lra]. }
    apply Rabs_le_inv in D. revert Hn. decs. lra. }
  assert (Bn : -232800 <= IZR n * (2 * PI) <= 77640).
  { pose proof PI_bounds as P. revert Hn' P. decs. intros Hn' P. replace ((R64 jd + 8) / (295306 * / 10000)) with ((R64 jd + 8) * (10000 / 295306)) in Hn' by field.
    assert (BN : -34000 <= IZR n <= 12327) by lra. set (p := PI) in *. clearbody p. split.
    - apply Rle_trans with (-34000 * (2 * p)); [lra|]. apply Rmult_le_compat_r; lra.
    - apply Rle_trans with (12327 * (2 * p)); [|lra]. apply Rmult_le_compat_r; lra. }
  destruct (so_high_day fsin fcos XL1 XL0 rest _ _ Gs Gc H1 H0 HR OW Bn DW) as (v & r & y & Ev & Ov & Er & Br & Uq & Hy & Dv & Hd).
  rewrite (SE _ _ Ev). exists n.
  assert (BV : Rabs (R64 v) <= 4000000).
  { assert (By : -7000 <= y <= 5200) by (revert Hy; decs; intros Hy; apply Rabs_le_inv in Hy; lra). pose proof (delta_T_abs y By) as DT. apply Rabs_le_inv in DT. revert Dv. unfold civil. decs. intros Dv. apply Rabs_le_inv in Dv. apply Rabs_le. lra. }
  destruct (SsqProof3.near_day v Ov ltac:(lra)) as (d & Of & Vf & _ & Bd). exists d.
  assert (Ed : cast_int (ffloor (fadd v (lit 5 10))) = Some d) by (apply (SsqProof3.cast_shift _ d Of Vf Bd)).
  split; [exact Hn'|]. split; [exact Ed|]. split.
  - exists r, y. split; [exact Er|]. split; [exact Br|]. split; [exact Uq|]. split; [exact Hy|]. exact (Hd d Ed).
  - intros NZ. unfold moon. assert (Q : SsqModel.so_angle J (fZ 14) = so_of n) by (destruct NZ as [NZ|Q]; [exact (Hq NZ)|exact Q]). rewrite <- Q, (SE _ _ Ev). reflexivity.
Qed.
Lemma moon_date n r : -30 <= r <= 10 -> -34100 <= IZR n <= 12350 -> elongation r = IZR n * (2 * PI) -> Rabs (36525 * r - (IZR n * 29.5306 + 5.1)) <= 1.6.
Proof.
  intros Br Bn Er. pose proof el_dev3 as DV. pose proof (el_dev_ok (10 * 3) 3 r ltac:(lia) ltac:(lia) ltac:(change (10 * 3)%Z with 30%Z; apply Rabs_le; lra)) as MD. rewrite Er in MD. revert MD DV. unfold el_mean. decs. intros MD DV.
  pose proof PI_bounds as P. revert P. decs. intros P. set (c := 314159265358979 / 100000000000000). set (q := IZR n * (PI - c)).
  assert (Q : Rabs q <= 34100 * (1 / 100000000000000)) by (apply prod_le; [apply Rabs_le; lra|unfold c; apply Rabs_le; lra]).
  replace (IZR n * (2 * PI)) with (IZR n * (2 * c) + 2 * q) in MD by (unfold q; ring). clearbody q. unfold c in *. apply Rabs_le_inv in MD. apply Rabs_le_inv in Q. apply Rabs_le. lra.
Qed.
(** the day is where the mean motion has it, give or take 6 days *)
Lemma moon_mean_day n d : -34100 <= IZR n <= 12350 -> moon_of n d -> Rabs (IZR d - (IZR n * 29.5306 + 5.43)) <= 5.4.
Proof.
  intros Bn (r & y & Er & Br & _ & Hy & Dd). pose proof (moon_date n r Br Bn Er) as T. revert T Hy Dd. unfold civil. decs. intros T Hy Dd.
  apply Rabs_le_inv in T. apply Rabs_le_inv in Hy. pose proof (delta_T_abs y ltac:(lra)) as DT. apply Rabs_le_inv in DT. apply Rabs_le. lra.
Qed.

(** C94: the day SSQ::calc returns for the new moon near a day of the years -738..-721 and 1960..2996. *)
Theorem C94_new_moon fsin fcos XL1 XL0 rest e jd : good_lib fsin sin -> good_lib fcos cos -> nth_error XL1 0 = Some moon_lon_tables -> nth_error XL0 0 = Some (memory (earth_table rest)) -> length rest = 1518%nat -> series_so fsin fcos XL1 XL0 e ->
  ok jd -> -1000000 <= R64 jd <= -993862 \/ -14610 <= R64 jd <= 364000 ->
  exists n d, IZR n - 1e-6 <= (R64 jd + 8) / 29.5306 <= IZR n + 1 + 1e-6 /\ SsqModel.calc e jd 0 = Some d /\ moon_of n d /\ Rabs (IZR d - R64 jd) <= 22.
Proof.
  intros Gs Gc H1 H0 HR SE Oj Bj. destruct (moon_day fsin fcos XL1 XL0 rest e jd Gs Gc H1 H0 HR SE Oj Bj) as (n & d & Hn & Ed & T & _).
  exists n, d. split; [exact Hn|]. split; [exact Ed|]. split; [exact T|].
  revert Hn. decs. replace ((R64 jd + 8) / (295306 * / 10000)) with ((R64 jd + 8) * (10000 / 295306)) by field. intros Hn.
  pose proof (moon_mean_day n d ltac:(lra) T) as M. revert M. decs. intros M. apply Rabs_le_inv in M. apply Rabs_le. lra.
Qed.

(** ** the new moons of a year *)
(** the new moon of January 2000 is number 0; its angle is the same for all whole days in its range *)
Lemma zero_angle a : (-8 <= a <= 21)%Z -> SsqModel.so_angle (fadd (fZ a) (fZ 2451545)) (fZ 14) = so_of 0.
Proof.
  assert (S : forallb (fun k => SFeqb (SsqModel.so_angle (fadd (fZ (k - 8)) (fZ 2451545)) (fZ 14)) (so_of 0) && (match SsqModel.so_angle (fadd (fZ (k - 8)) (fZ 2451545)) (fZ 14) with S754_zero false => true | _ => false end)) (SsqModel.upto 30) = true) by (vm_compute; reflexivity).
  intros H. rewrite forallb_forall in S. specialize (S (a + 8)%Z). replace (a + 8 - 8)%Z with a in S by ring. assert (Z0 : so_of 0 = S754_zero false) by (vm_compute; reflexivity).
  assert (I : In (a + 8)%Z (SsqModel.upto 30)) by (unfold SsqModel.upto; apply in_map_iff; exists (Z.to_nat (a + 8)); split; [lia|apply in_seq; lia]).
  apply S in I. apply andb_prop in I. destruct I as [_ I]. rewrite Z0. destruct (SsqModel.so_angle _ _) as [[]| | |]; try discriminate I. reflexivity.
Qed.
Lemma zero_angle1 q : (-1 <= q <= 12)%Z -> SsqModel.so_angle (fadd (fadd (fsub (fZ q) (lit 2953 100)) (fmul SsqModel.synodic (fZ 1))) (fZ 2451545)) (fZ 14) = so_of 0.
Proof.
  assert (S : forallb (fun k => match SsqModel.so_angle (fadd (fadd (fsub (fZ (k - 1)) (lit 2953 100)) (fmul SsqModel.synodic (fZ 1))) (fZ 2451545)) (fZ 14) with S754_zero false => true | _ => false end) (SsqModel.upto 14) = true) by (vm_compute; reflexivity).
  intros H. rewrite forallb_forall in S. specialize (S (q + 1)%Z). replace (q + 1 - 1)%Z with q in S by ring. assert (Z0 : so_of 0 = S754_zero false) by (vm_compute; reflexivity).
  assert (I : In (q + 1)%Z (SsqModel.upto 14)) by (unfold SsqModel.upto; apply in_map_iff; exists (Z.to_nat (q + 1)); split; [lia|apply in_seq; lia]).
  apply S in I. rewrite Z0. destruct (SsqModel.so_angle _ _) as [[]| | |]; try discriminate I. reflexivity.
Qed.
Lemma zero_angle0 q : (-1 <= q <= 12)%Z -> SsqModel.so_angle (fadd (fadd (fZ q) (fmul SsqModel.synodic (fZ 0))) (fZ 2451545)) (fZ 14) = so_of 0.
Proof.
  assert (S : forallb (fun k => match SsqModel.so_angle (fadd (fadd (fZ (k - 1)) (fmul SsqModel.synodic (fZ 0))) (fZ 2451545)) (fZ 14) with S754_zero false => true | _ => false end) (SsqModel.upto 14) = true) by (vm_compute; reflexivity).
  intros H. rewrite forallb_forall in S. specialize (S (q + 1)%Z). replace (q + 1 - 1)%Z with q in S by ring. assert (Z0 : so_of 0 = S754_zero false) by (vm_compute; reflexivity).
  assert (I : In (q + 1)%Z (SsqModel.upto 14)) by (unfold SsqModel.upto; apply in_map_iff; exists (Z.to_nat (q + 1)); split; [lia|apply in_seq; lia]).
  apply S in I. rewrite Z0. destruct (SsqModel.so_angle _ _) as [[]| | |]; try discriminate I. reflexivity.
Qed.
Lemma month_offset fsin fcos w i : good_lib fsin sin -> good_lib fcos cos -> ok w -> Rabs (R64 w) <= 1100000 -> (0 <= i < 15)%Z ->
  ok (fadd w (fmul SsqModel.synodic (fZ i))) /\ Rabs (R64 (fadd w (fmul SsqModel.synodic (fZ i))) - (R64 w + 29.5306 * IZR i)) <= 1e-6.
Proof.
  intros Gs Gc Ow Bw Hi. destruct (fZ_ok i ltac:(lia)) as [Oi Vi]. set (fi := fZ i) in *. clearbody fi. assert (Bi : Rabs (R64 fi) <= 25) by (rewrite Vi, <- abs_IZR; apply IZR_le; lia).
  assert (E : env_ok [w; fi] [R64 w; R64 fi] [given 1100000; given 25]) by (constructor; [apply given_ok; assumption|constructor; [apply given_ok; assumption|constructor]]).
  set (x := fadd w (fmul SsqModel.synodic fi)).
  assert (H : ok x /\ Rabs (R64 x - (R64 w + 29.5306 * R64 fi)) <= IZR 1267650600228229401496703 * U) by (unfold x, SsqModel.synodic; formula2 fsin fcos Gs Gc [w; fi] E).
  destruct H as [Ox Dx]. split; [exact Ox|]. rewrite <- Vi. apply Rle_trans with (1 := Dx). unfold U, one. decs. lra.
Qed.
Lemma month_back fsin fcos w : good_lib fsin sin -> good_lib fcos cos -> ok w -> Rabs (R64 w) <= 1100000 -> ok (fsub w (lit 2953 100)) /\ Rabs (R64 (fsub w (lit 2953 100)) - (R64 w - 29.53)) <= 1e-6.
Proof.
  intros Gs Gc Ow Bw. assert (E : env_ok [w] [R64 w] [given 1100000]) by (constructor; [apply given_ok; assumption|constructor]). set (x := fsub w (lit 2953 100)).
  assert (H : ok x /\ Rabs (R64 x - (R64 w - 29.53)) <= IZR 1267650600228229401496703 * U) by (unfold x; formula2 fsin fcos Gs Gc [w] E).
  destruct H as [Ox Dx]. split; [exact Ox|]. apply Rle_trans with (1 := Dx). unfold U, one. decs. lra.
Qed.
Section Months.
Variables fsin fcos : f64 -> f64.
Hypothesis Gs : good_lib fsin sin.
Hypothesis Gc : good_lib fcos cos.
Variable XL1 : list (list (list f64)).
Variable XL0 : list (list f64).
Variable rest : list f64.
Hypothesis H1 : nth_error XL1 0 = Some moon_lon_tables.
Hypothesis H0 : nth_error XL0 0 = Some (memory (earth_table rest)).
Hypothesis HR : length rest = 1518%nat.
Variable e : SsqModel.ssq_env.
Hypothesis SE : series_so fsin fcos XL1 XL0 e.

Lemma at_moon x m : ok x -> Rabs (R64 x - (IZR m * 29.5306 + 5.43)) <= 7 -> -1000000 <= R64 x <= -993862 \/ -14610 <= R64 x <= 364000 ->
  exists d, SsqModel.calc e x 0 = Some d /\ moon_of m d /\ (m <> 0%Z \/ SsqModel.so_angle (fadd x (fZ 2451545)) (fZ 14) = so_of 0 -> SsqModel.calc e x 0 = moon e m).
Proof.
  intros Ox Dx Bx. destruct (moon_day fsin fcos XL1 XL0 rest e x Gs Gc H1 H0 HR SE Ox Bx) as (n & d & Hn & Ed & T & Ht).
  revert Hn Dx. decs. replace ((R64 x + 8) / (295306 * / 10000)) with ((R64 x + 8) * (10000 / 295306)) by field. intros Hn Dx. apply Rabs_le_inv in Dx.
  assert (En : n = m).
  { assert (L1 : IZR n < IZR (m + 1)) by (rewrite plus_IZR; lra). assert (L2 : IZR (m - 1) < IZR n) by (rewrite minus_IZR; lra). apply lt_IZR in L1. apply lt_IZR in L2. lia. }
  subst n. exists d. split; [exact Ed|]. split; [exact T|]. intros M. apply Ht. destruct (Z.eq_dec m 0) as [->|NZ]; [|left; exact NZ]. destruct M as [M|M]; [contradiction|right; exact M].
Qed.
(** the new moons from number m on *)
Lemma months_from w m : ok w -> Rabs (R64 w - (IZR m * 29.5306 + 5.43)) <= 6 -> -999970 <= R64 w <= -994280 \/ -14600 <= R64 w <= 363500 ->
  exists HS, SsqModel.mapM (fun i => SsqModel.calc e (fadd w (fmul SsqModel.synodic (fZ i))) 0) (SsqModel.upto 15) = Some HS /\ List.length HS = 15%nat /\
    forall i, (0 <= i < 15)%Z -> exists d, SsqModel.at_ HS i = Some d /\ moon_of (m + i) d /\
      ((m + i <> 0)%Z \/ SsqModel.so_angle (fadd (fadd w (fmul SsqModel.synodic (fZ i))) (fZ 2451545)) (fZ 14) = so_of 0 -> moon e (m + i) = Some d).
Proof.
  intros Ow Dw Bw. assert (Bw' : Rabs (R64 w) <= 1100000) by (apply Rabs_le; lra). revert Dw. decs. intros Dw. apply Rabs_le_inv in Dw.
  destruct (SsqProof5.mapM_ok (fun i => SsqModel.calc e (fadd w (fmul SsqModel.synodic (fZ i))) 0) (fun i d => moon_of (m + i) d /\
      ((m + i <> 0)%Z \/ SsqModel.so_angle (fadd (fadd w (fmul SsqModel.synodic (fZ i))) (fZ 2451545)) (fZ 14) = so_of 0 -> moon e (m + i) = Some d)) (SsqModel.upto 15)) as (HS & EM & F).
  { intros i Hi. assert (I : (0 <= i < 15)%Z) by (unfold SsqModel.upto in Hi; apply in_map_iff in Hi; destruct Hi as (j & <- & Hm); apply in_seq in Hm; lia).
    destruct (month_offset fsin fcos w i Gs Gc Ow Bw' I) as [Ox Dx]. revert Dx. decs. intros Dx. apply Rabs_le_inv in Dx. assert (Bi : 0 <= IZR i <= 14) by (split; apply IZR_le; lia).
    destruct (at_moon _ (m + i) Ox ltac:(rewrite plus_IZR; decs; apply Rabs_le; lra) ltac:(lra)) as (d & Ed & T & Ht). exists d. split; [exact Ed|]. split; [exact T|]. intros J. rewrite <- (Ht J). exact Ed. }
  exists HS. split; [exact EM|]. split; [rewrite <- (SsqProof5.Forall2_len _ _ _ F); reflexivity|].
  intros i Hi. destruct (SsqProof5.Forall2_at _ _ _ i i F (SsqProof5.at_upto 15 i Hi)) as (d & Ed & T). exists d. split; [exact Ed|exact T].
Qed.
(** the months SSQ::calcY builds on the solstice A0: 15 successive new moons, the first on or before the solstice, the second after it *)
Lemma months_of_year A0 : (-999900 <= A0 <= -994330 \/ -14560 <= A0 <= 363400)%Z ->
  exists m HS b0 b1, SsqModel.sui_months (SsqModel.calc e) A0 = Some HS /\ List.length HS = 15%nat /\ (forall i, (0 <= i < 15)%Z -> exists d, SsqModel.at_ HS i = Some d /\ moon_of (m + i) d) /\
    SsqModel.at_ HS 0 = Some b0 /\ SsqModel.at_ HS 1 = Some b1 /\ (b0 <= A0 < b1)%Z /\ (-33900 <= m <= 12330)%Z.
Proof.
  intros BA. unfold SsqModel.sui_months. destruct (fZ_ok A0 ltac:(lia)) as [OA VA].
  assert (BA' : -999900 <= IZR A0 <= -994330 \/ -14560 <= IZR A0 <= 363400) by (destruct BA as [[]|[]]; [left|right]; split; apply IZR_le; assumption).
  destruct (moon_day fsin fcos XL1 XL0 rest e (fZ A0) Gs Gc H1 H0 HR SE OA ltac:(rewrite VA; lra)) as (n & q & Hn & Eq & Tq & Hq). rewrite VA in Hn. rewrite Eq in *. cbn [obind].
  revert Hn. decs. replace ((IZR A0 + 8) / (295306 * / 10000)) with ((IZR A0 + 8) * (10000 / 295306)) by field. intros Hn.
  pose proof (moon_mean_day n q ltac:(lra) Tq) as M. revert M. decs. intros M. apply Rabs_le_inv in M.
  assert (Bq : (-1000000 < q < 400000)%Z) by (split; apply lt_IZR; lra). destruct (fZ_ok q ltac:(lia)) as [Oq Vq].
  assert (Bn : (-33880 <= n <= 12330)%Z). { assert (L1 : IZR n < 12331) by lra. assert (L2 : -33881 < IZR n) by lra. apply lt_IZR in L1. apply lt_IZR in L2. lia. }
  change (fgtb (fZ q) (fZ A0)) with (fltb (fZ A0) (fZ q)). rewrite (fltb_ok _ _ OA Oq), VA, Vq.
  assert (Hm : n <> 0%Z \/ (n = 0)%Z) by lia.
  assert (Q0 : moon e n = Some q). { symmetry. apply Hq. destruct Hm as [NZ|Z0]; [left; exact NZ|right]. subst n. apply zero_angle. assert (L1 : IZR A0 < 22) by lra. assert (L2 : -9 < IZR A0) by lra. apply lt_IZR in L1. apply lt_IZR in L2. lia. }
  assert (Q1 : (n = 0 -> -1 <= q <= 12)%Z). { intros ->. assert (L1 : IZR q < 13) by lra. assert (L2 : -2 < IZR q) by lra. apply lt_IZR in L1. apply lt_IZR in L2. lia. }
  destruct (Rlt_bool_spec (IZR A0) (IZR q)) as [L|L].
  - destruct (month_back fsin fcos (fZ q) Gs Gc Oq ltac:(rewrite Vq; apply Rabs_le; lra)) as [Ow Dw]. set (w := fsub (fZ q) (lit 2953 100)) in *. rewrite Vq in Dw. revert Dw. decs. intros Dw. apply Rabs_le_inv in Dw.
    destruct (months_from w (n - 1) Ow) as (HS & EM & LH & T); [rewrite minus_IZR; decs; apply Rabs_le; lra|lra|]. rewrite EM.
    destruct (T 0%Z ltac:(lia)) as (b0 & E0 & T0 & _). destruct (T 1%Z ltac:(lia)) as (b1 & E1 & T1 & M1).
    exists (n - 1)%Z, HS, b0, b1. split; [reflexivity|]. split; [exact LH|]. split; [intros i Hi; destruct (T i Hi) as (d & ? & ? & _); exists d; now split|]. split; [exact E0|]. split; [exact E1|]. split; [|lia]. split.
    + pose proof (moon_mean_day (n - 1 + 0) b0 ltac:(rewrite !plus_IZR, minus_IZR; assert (-33880 <= IZR n <= 12330) by (split; apply IZR_le; lia); lra) T0) as M0. rewrite plus_IZR, minus_IZR in M0. revert M0. decs. intros M0. apply Rabs_le_inv in M0. apply le_IZR. lra.
    + replace (n - 1 + 1)%Z with n in M1 by ring. assert (E : moon e n = Some b1). { apply M1. destruct Hm as [NZ|Z0]; [left; exact NZ|right]. unfold w. apply zero_angle1. now apply Q1. }
      rewrite Q0 in E. injection E as <-. now apply lt_IZR.
  - destruct (months_from (fZ q) n Oq) as (HS & EM & LH & T); [rewrite Vq; decs; apply Rabs_le; lra|rewrite Vq; lra|]. rewrite EM.
    destruct (T 0%Z ltac:(lia)) as (b0 & E0 & T0 & M0). destruct (T 1%Z ltac:(lia)) as (b1 & E1 & T1 & _).
    exists n, HS, b0, b1. split; [reflexivity|]. split; [exact LH|]. split; [intros i Hi; destruct (T i Hi) as (d & ? & ? & _); exists d; now split|]. split; [exact E0|]. split; [exact E1|]. split; [|lia]. split.
    + replace (n + 0)%Z with n in M0 by ring. assert (E : moon e n = Some b0). { apply M0. destruct Hm as [NZ|Z0]; [left; exact NZ|right]. apply zero_angle0. now apply Q1. }
      rewrite Q0 in E. injection E as <-. now apply le_IZR.
    + pose proof (moon_mean_day (n + 1) b1 ltac:(rewrite !plus_IZR; assert (-33880 <= IZR n <= 12330) by (split; apply IZR_le; lia); lra) T1) as M1. rewrite plus_IZR in M1. revert M1. decs. intros M1. apply Rabs_le_inv in M1. apply lt_IZR. lra.
Qed.
End Months.
