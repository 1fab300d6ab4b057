(** The day SSQ::calc returns for a solar term in the eras of the series. *)
From Coq Require Import ZArith Reals Lia Lra Bool List.
From Coq Require Import Floats.SpecFloat.
From Flocq Require Import Core IEEE754.BinarySingleNaN.
From Verif Require Import F64 F64R F64T F64E AngModel PiBound ErrExpr SmTab SerModel SerSpec FormModel FormSpec FormProps WaveF WaveR SmModel SmSpec SmLon SmProps SmSun SmNewton SunProps IllProps DtSpec QuickR HighR QuickSun.
From Verif Require FmtModel SsqModel SsqSpec SsqProof2 SsqProof3 SsqProof4 SsqProof5 SsqProof6 SsqProps.
Import ListNotations.
Open Scope R_scope.

Lemma mpi_is : FmtModel.M_PI = dpi. Proof. vm_compute. reflexivity. Qed.

Lemma R64_inj x y : ok x -> ok y -> R64 x = R64 y -> R64 x <> 0 -> x = y.
Proof.
  intros [Vx Fx] [Vy Fy] E N. rewrite <- (B2SF_SF2B 53 1024 x Vx), <- (B2SF_SF2B 53 1024 y Vy). f_equal. apply B2R_inj.
  - destruct x; try reflexivity; try discriminate Fx. exfalso. apply N. reflexivity.
  - destruct y; try reflexivity; try discriminate Fy. exfalso. apply N. rewrite E. reflexivity.
  - rewrite !B2R_SF2B. exact E.
Qed.
(** the angle n * 15 degrees as calc computes it, and the day it then returns *)
Definition qi_of (n : Z) : f64 := fdiv (fmul (fZ n) FmtModel.M_PI) (fZ 12).
Definition term (e : SsqModel.ssq_env) (n : Z) : option Z := cast_int (ffloor (fadd (SsqModel.qi_high e (qi_of n)) (lit 5 10))).
Ltac formula2 fsin fcos Gs Gc xs E :=
  lazymatch goal with |- ok ?F /\ Rabs (R64 ?F - ?r) <= IZR ?n * U =>
    let e := reify fsin fcos xs F in apply (formula_ok fsin fcos Gs Gc _ _ _ e F r n E); [cbn [evF nth]; reflexivity| |vm_compute; reflexivity]; cbn [evR nth]; decs; try field end.
Section Angle.
Variables fsin fcos : f64 -> f64.
Hypothesis Gs : good_lib fsin sin.
Hypothesis Gc : good_lib fcos cos.
Ltac formula xs E :=
  lazymatch goal with |- ok ?F /\ Rabs (R64 ?F - ?r) <= IZR ?n * U =>
    let e := reify fsin fcos xs F in apply (formula_ok fsin fcos Gs Gc _ _ _ e F r n E); [cbn [evF nth]; reflexivity| |vm_compute; reflexivity]; cbn [evR nth]; decs; try field end.
(** the number of the term and its longitude *)
Lemma qi_angle_near J : ok J -> Rabs (R64 J - 2451545) <= 1100000 -> exists n, ok (SsqModel.qi_angle J (fZ 7)) /\ Rabs (R64 (SsqModel.qi_angle J (fZ 7)) - IZR n * PI / 12) <= 1e-10 /\
  IZR n - 1e-7 <= (R64 J - 2451252) / 365.2422 * 24 <= IZR n + 1 + 1e-7 /\
  (n <> 0%Z -> SsqModel.qi_angle J (fZ 7) = qi_of n).
Proof.
  intros O B. apply Rabs_le_inv in B. unfold SsqModel.qi_angle.
  assert (E : env_ok [J] [R64 J] [given 4000000]) by (constructor; [apply given_ok; [assumption|apply Rabs_le; lra]|constructor]).
  set (F := fmul (fdiv (fsub (fadd J (fZ 7)) (fZ 2451259)) SsqModel.tropical) (fZ 24)).
  assert (H : ok F /\ Rabs (R64 F - (R64 J - 2451252) / 365.2422 * 24) <= IZR 126765060022822940149670 * U) by (unfold F, SsqModel.tropical; formula [J] E).
  destruct H as [OF DF]. destruct (ffloor_ok F OF) as [Ofl Vfl]. set (n := Zfloor (R64 F)) in *. pose proof (Zfloor_lb (R64 F)) as LB. pose proof (Zfloor_ub (R64 F)) as UB. fold n in LB, UB.
  set (X := (R64 J - 2451252) / 365.2422 * 24) in *. assert (BX : -75000 <= X <= 75000). { unfold X. decs. replace (3652422 * / 10000) with (3652422 / 10000) by field. replace ((R64 J - 2451252) / (3652422 / 10000) * 24) with ((R64 J - 2451252) * (240000 / 3652422)) by field. lra. }
  clearbody X. assert (DF' : Rabs (R64 F - X) <= 1e-7) by (apply Rle_trans with (1 := DF); unfold U, one; decs; lra). revert DF'. decs. intros DF'. apply Rabs_le_inv in DF'.
  set (nf := ffloor F) in *. assert (Bn : Rabs (R64 nf) <= 75010) by (rewrite Vfl; apply Rabs_le; lra).
  assert (E2 : env_ok [nf] [R64 nf] [given 75010]) by (constructor; [apply given_ok; assumption|constructor]).
  exists n. rewrite mpi_is. set (G := fdiv (fmul nf dpi) (fZ 12)).
  assert (H : ok G /\ Rabs (R64 G - R64 nf * PI / 12) <= IZR 126765060022822940149 * U) by (unfold G; formula [nf] E2).
  destruct H as [OG DG]. split; [exact OG|]. split; [|split; [lra|]].
  - rewrite <- Vfl. apply Rle_trans with (1 := DG). unfold U, one. decs. lra.
  - intros NZ. unfold G, qi_of. rewrite mpi_is. f_equal. f_equal. destruct (fZ_ok n) as [On Vn]. { assert (-76000 < n < 76000)%Z by (split; apply lt_IZR; lra). lia. }
    apply R64_inj; [exact Ofl|exact On|rewrite Vfl, Vn; reflexivity|]. rewrite Vfl. now apply not_0_IZR.
Qed.
End Angle.

(** the functions of the calendar's environment are the series *)
Definition series_qi (fsin fcos : f64 -> f64) (XL0 : list (list f64)) (e : SsqModel.ssq_env) : Prop :=
  forall W v, qi_high fsin fcos XL0 W = Some v -> SsqModel.qi_high e W = v.

(** d is the day of the moment at which the Sun's longitude by the series is n times 15 degrees: the moment r, in centuries of dynamical time, is the only one
    within 30 centuries of J2000, and d is its civil day in Beijing time, give or take 2.3 seconds at its two ends; Delta T is that of a date y within 6 days *)
Definition term_of (n d : Z) : Prop := exists r y, sun_longitude r = IZR n * PI / 12 /\ Rabs r <= 30 /\ (forall r', Rabs r' <= 30 -> sun_longitude r' = IZR n * PI / 12 -> r' = r) /\
  Rabs (365.2425 * (y - 2000) - 36525 * r) <= 6 /\ IZR d - 2.3 / 86400 < civil r y + 1 / 2 < IZR d + 1 + 2.3 / 86400.
Lemma f1_far : 1640643 + 1 / 10 <= R64 (SsqProof2.f1_of 1).
Proof.
  assert (O1 : ok (lit 16406431 10)) by (apply lit_ok; lia). destruct (SsqProof2.f1_bounds 1) as [O2 _].
  assert (L : fltb (SsqProof2.f1_of 1) (lit 16406434 10) = false) by (vm_compute; reflexivity).
  assert (O3 : ok (lit 16406434 10)) by (apply lit_ok; lia). rewrite (fltb_ok _ _ O2 O3) in L. destruct (Rlt_bool_spec (R64 (SsqProof2.f1_of 1)) (R64 (lit 16406434 10))); [discriminate|].
  destruct (lit_near 16406434 10 21) as [_ N]; try lia. change (bpow radix2 (21 - 54)) with (/ 8589934592) in N. apply Rabs_le_inv in N. lra.
Qed.
Lemma term_day fsin fcos XL0 rest e jd : good_lib fsin sin -> good_lib fcos cos -> nth_error XL0 0 = Some (memory (earth_table rest)) -> length rest = 1518%nat -> series_qi fsin fcos XL0 e ->
  ok jd -> -1000000 <= R64 jd <= -810902 \/ -14610 <= R64 jd <= 364000 ->
  exists n d, IZR n - 1e-6 <= (R64 jd + 293) / 365.2422 * 24 <= IZR n + 1 + 1e-6 /\ SsqModel.calc e jd 1 = Some d /\ term_of n d /\ (n <> 0%Z -> SsqModel.calc e jd 1 = term e n).
Proof.
  intros Gs Gc H0 HR SE Oj Bj. assert (Bj' : Rabs (R64 jd) <= 1000000) by (apply Rabs_le; lra).
  destruct (SsqProof4.shift_ok jd Oj Bj') as [OJ DJ]. 
  assert (ERA : SsqProps.era 1 (R64 (fadd jd (fZ 2451545))) 0).
  { apply SsqProps.era_far. destruct Bj as [Bj|Bj]; [left|right].
    - pose proof f1_far. lra.
    - destruct (fZ_ok 2451545 ltac:(lia)) as [O1 E1]. destruct (fadd_ok jd (fZ 2451545) Oj O1) as [_ E]. { rewrite E1. apply big_ok. apply Rabs_le. lra. }
      rewrite E, E1. apply rnd_ge_repr; [apply repr_IZR; lia|lra]. }
  rewrite (SsqProps.C17_served_by_era e jd 1 0 ltac:(right; reflexivity) Oj Bj' ERA). cbn [Z.eqb].
  change (Z.eqb 1 1) with true. cbn iota.
  set (J := fadd jd (fZ 2451545)) in *. clearbody J.
  destruct (qi_angle_near fsin fcos Gs Gc J OJ) as (n & OW & DW & Hn & Hq). { apply Rabs_le. lra. }
  assert (Hn' : IZR n - 1e-6 <= (R64 jd + 293) / 365.2422 * 24 <= IZR n + 1 + 1e-6).
  { assert (D : Rabs ((R64 jd + 293) / 365.2422 * 24 - (R64 J - 2451252) / 365.2422 * 24) <= 1 / 10000000).
    { replace ((R64 jd + 293) / 365.2422 * 24 - (R64 J - 2451252) / 365.2422 * 24) with ((R64 J - (R64 jd + 2451545)) * (- (240000 / 3652422))) by (decs; field). apply Rle_trans with (/ 1000000 * (240000 / 3652422)); [|lra].
      apply prod_le; [apply Rabs_le; lra|rewrite Rabs_Ropp, Rabs_pos_eq; lra]. }
    apply Rabs_le_inv in D. revert Hn. decs. lra. }
  assert (Bn : -18779 <= IZR n * PI / 12 <= 6269).
  { pose proof PI_bounds as P. revert Hn' P. decs. intros Hn' P. replace ((R64 jd + 293) / (3652422 * / 10000) * 24) with ((R64 jd + 293) * (240000 / 3652422)) in Hn' by field.
    assert (BN : -65800 <= IZR n <= 23940) by lra. set (p := PI) in *. clearbody p. unfold Rdiv. rewrite Rmult_assoc. split.
    - apply Rle_trans with (-65800 * (p * / 12)); [lra|]. apply Rmult_le_compat_r; lra.
    - apply Rle_trans with (23940 * (p * / 12)); [|lra]. apply Rmult_le_compat_r; lra. }
  destruct (qi_high_day fsin fcos XL0 rest _ _ Gs Gc H0 HR OW Bn DW) as (v & r & y & Ev & Ov & Er & Br & Uq & Hy & Dv & Hd).
  rewrite (SE _ _ Ev). exists n.
  assert (BV : Rabs (R64 v) <= 4000000).
  { assert (By : -7000 <= y <= 5200) by (revert Hy; decs; intros Hy; apply Rabs_le_inv in Hy; apply Rabs_le_inv in Br; lra). pose proof (delta_T_abs y By) as DT. apply Rabs_le_inv in DT. revert Dv. unfold civil. decs. intros Dv. apply Rabs_le_inv in Dv. apply Rabs_le_inv in Br. apply Rabs_le. lra. }
  destruct (SsqProof3.near_day v Ov ltac:(lra)) as (d & Of & Vf & _ & Bd). exists d.
  assert (Ed : cast_int (ffloor (fadd v (lit 5 10))) = Some d) by (apply (SsqProof3.cast_shift _ d Of Vf Bd)).
  split; [exact Hn'|]. split; [exact Ed|]. split.
  - exists r, y. split; [exact Er|]. split; [exact Br|]. split; [exact Uq|]. split; [exact Hy|]. exact (Hd d Ed).
  - intros NZ. unfold term. rewrite <- (Hq NZ), (SE _ _ Ev). reflexivity.
Qed.
Lemma term_date n r : Rabs r <= 30 -> -65900 <= IZR n <= 24000 -> sun_longitude r = IZR n * PI / 12 -> Rabs (36525 * r - (IZR n * (365.2422 / 24) - 284.55)) <= 2.9.
Proof.
  intros Br Bn Er. pose proof dev3 as D3. pose proof (sun_dev 3 r ltac:(lia) ltac:(lra)) as MD. rewrite Er in MD. revert MD D3. unfold sun_mean. decs. intros MD D3.
  pose proof PI_bounds as P. revert P. decs. intros P. set (c := 314159265358979 / 100000000000000). set (q := IZR n * (PI - c)).
  assert (Q : Rabs q <= 66000 * (1 / 100000000000000)) by (apply prod_le; [apply Rabs_le; lra|unfold c; apply Rabs_le; lra]).
  replace (IZR n * PI / 12) with (IZR n * c / 12 + q / 12) in MD by (unfold q; field). clearbody q. unfold c in *. apply Rabs_le_inv in MD. apply Rabs_le_inv in Q. apply Rabs_le. lra.
Qed.

(** the day is where the mean motion has it, give or take 8 days *)
Lemma term_mean n d : -65900 <= IZR n <= 24000 -> term_of n d -> Rabs (IZR d - (IZR n * (365.2422 / 24) - 284.2)) <= 7.9.
Proof.
  intros Bn (r & y & Er & Br & _ & Hy & Dd). pose proof (term_date n r Br Bn Er) as T. revert T Hy Dd. unfold civil. decs. intros T Hy Dd.
  apply Rabs_le_inv in T. apply Rabs_le_inv in Hy. apply Rabs_le_inv in Br. pose proof (delta_T_abs y ltac:(lra)) as DT. apply Rabs_le_inv in DT. apply Rabs_le. lra.
Qed.

(** C92: the day SSQ::calc returns for the solar term near a day of the years -738..-222 and 1960..2996. *)
Theorem C92_solar_term fsin fcos XL0 rest e jd : good_lib fsin sin -> good_lib fcos cos -> nth_error XL0 0 = Some (memory (earth_table rest)) -> length rest = 1518%nat -> series_qi fsin fcos XL0 e ->
  ok jd -> -1000000 <= R64 jd <= -810902 \/ -14610 <= R64 jd <= 364000 ->
  exists n d, IZR n - 1e-6 <= (R64 jd + 293) / 365.2422 * 24 <= IZR n + 1 + 1e-6 /\ SsqModel.calc e jd 1 = Some d /\ term_of n d /\ Rabs (IZR d - R64 jd) <= 17.
Proof.
  intros Gs Gc H0 HR SE Oj Bj. destruct (term_day fsin fcos XL0 rest e jd Gs Gc H0 HR SE Oj Bj) as (n & d & Hn & Ed & T & _).
  exists n, d. split; [exact Hn|]. split; [exact Ed|]. split; [exact T|].
  revert Hn. decs. replace ((R64 jd + 293) / (3652422 * / 10000) * 24) with ((R64 jd + 293) * (240000 / 3652422)) by field. intros Hn.
  pose proof (term_mean n d ltac:(lra) T) as M. revert M. decs. intros M. apply Rabs_le_inv in M. apply Rabs_le. lra.
Qed.

(** ** the solar terms of a year *)
Section Head.
Variables fsin fcos : f64 -> f64.
Hypothesis Gs : good_lib fsin sin.
Hypothesis Gc : good_lib fcos cos.
Ltac formula xs E :=
  lazymatch goal with |- ok ?F /\ Rabs (R64 ?F - ?r) <= IZR ?n * U =>
    let e := reify fsin fcos xs F in apply (formula_ok fsin fcos Gs Gc _ _ _ e F r n E); [cbn [evF nth]; reflexivity| |vm_compute; reflexivity]; cbn [evR nth]; decs; try field end.
(** the day from which the first solstice is sought *)
Lemma head_some jd : ok jd -> Rabs (R64 jd) <= 1000000 -> exists n, int2 (fdiv (fadd (fsub jd (fZ 355)) (fZ 183)) SsqModel.tropical) = Some n.
Proof.
  intros O B. assert (E : env_ok [jd] [R64 jd] [given 1000000]) by (constructor; [apply given_ok; assumption|constructor]).
  set (F := fdiv (fadd (fsub jd (fZ 355)) (fZ 183)) SsqModel.tropical) in *.
  assert (H : ok F /\ Rabs (R64 F - (R64 jd - 172) / 365.2422) <= IZR 126765060022822940149670 * U) by (unfold F, SsqModel.tropical; formula [jd] E).
  destruct H as [OF DF]. assert (DF' : Rabs (R64 F - (R64 jd - 172) / 365.2422) <= 1e-7) by (apply Rle_trans with (1 := DF); unfold U, one; decs; lra). clear DF.
  revert DF'. decs. replace ((R64 jd - 172) / (3652422 * / 10000)) with ((R64 jd - 172) * (10000 / 3652422)) by field. intros DF'. apply Rabs_le_inv in DF'. apply Rabs_le_inv in B.
  pose proof (Zfloor_lb (R64 F)) as LB. pose proof (Zfloor_ub (R64 F)) as UB. exists (Zfloor (R64 F)). rewrite int2_ok by exact OF. apply mk_int_in. unfold int_min, int_max.
  assert (L1 : IZR (Zfloor (R64 F)) < 10000) by lra. assert (L2 : -10000 < IZR (Zfloor (R64 F))) by lra. apply lt_IZR in L1. apply lt_IZR in L2. lia.
Qed.
Lemma head_near jd n : ok jd -> Rabs (R64 jd) <= 1000000 -> int2 (fdiv (fadd (fsub jd (fZ 355)) (fZ 183)) SsqModel.tropical) = Some n ->
  (Z.abs n <= 2740)%Z /\ IZR n * 365.2422 + 171 <= R64 jd <= (IZR n + 1) * 365.2422 + 173 /\
  ok (fadd (fmul (fZ n) SsqModel.tropical) (fZ 355)) /\ Rabs (R64 (fadd (fmul (fZ n) SsqModel.tropical) (fZ 355)) - (IZR n * 365.2422 + 355)) <= 1e-6 /\
  ok (fsub (fadd (fmul (fZ n) SsqModel.tropical) (fZ 355)) SsqModel.tropical) /\ Rabs (R64 (fsub (fadd (fmul (fZ n) SsqModel.tropical) (fZ 355)) SsqModel.tropical) - ((IZR n - 1) * 365.2422 + 355)) <= 1e-6.
Proof.
  intros O B En. assert (E : env_ok [jd] [R64 jd] [given 1000000]) by (constructor; [apply given_ok; assumption|constructor]).
  set (F := fdiv (fadd (fsub jd (fZ 355)) (fZ 183)) SsqModel.tropical) in *.
  assert (H : ok F /\ Rabs (R64 F - (R64 jd - 172) / 365.2422) <= IZR 126765060022822940149670 * U) by (unfold F, SsqModel.tropical; formula [jd] E).
  destruct H as [OF DF]. assert (DF' : Rabs (R64 F - (R64 jd - 172) / 365.2422) <= 1e-7) by (apply Rle_trans with (1 := DF); unfold U, one; decs; lra). clear DF.
  rewrite int2_ok in En by exact OF. unfold mk_int in En. destruct (in_int _) in En; [|discriminate En]. injection En as En.
  pose proof (Zfloor_lb (R64 F)) as LB. pose proof (Zfloor_ub (R64 F)) as UB. rewrite En in LB, UB.
  revert DF'. decs. replace ((R64 jd - 172) / (3652422 * / 10000)) with ((R64 jd - 172) * (10000 / 3652422)) by field. intros DF'. apply Rabs_le_inv in DF'. apply Rabs_le_inv in B.
  assert (BN : -2740 <= IZR n <= 2740) by lra. assert (BZ : (Z.abs n <= 2740)%Z) by (assert (-2740 <= n <= 2740)%Z by (split; apply le_IZR; lra); lia).
  split; [exact BZ|]. split; [lra|]. destruct (fZ_ok n ltac:(lia)) as [On Vn].
  assert (E2 : env_ok [fZ n] [R64 (fZ n)] [given 2740]) by (constructor; [apply given_ok; [assumption|rewrite Vn; apply Rabs_le; lra]|constructor]).
  set (W := fadd (fmul (fZ n) SsqModel.tropical) (fZ 355)). set (nf := fZ n) in *. clearbody nf.
  assert (H1 : ok W /\ Rabs (R64 W - (R64 nf * 365.2422 + 355)) <= IZR 1267650600228229401496703 * U) by (unfold W, SsqModel.tropical; formula [nf] E2).
  assert (H2 : ok (fsub W SsqModel.tropical) /\ Rabs (R64 (fsub W SsqModel.tropical) - ((R64 nf - 1) * 365.2422 + 355)) <= IZR 1267650600228229401496703 * U) by (unfold W, SsqModel.tropical; formula [nf] E2).
  rewrite Vn in H1, H2. revert H1 H2. decs. assert (UU : IZR 1267650600228229401496703 * U <= 1 / 1000000) by (unfold U, one; lra).
  intros [O1 D1] [O2 D2]. split; [exact O1|]. split; [lra|]. split; [exact O2|]. lra.
Qed.
End Head.
Section Year.
Variables fsin fcos : f64 -> f64.
Hypothesis Gs : good_lib fsin sin.
Hypothesis Gc : good_lib fcos cos.
Variable XL0 : list (list f64).
Variable rest : list f64.
Hypothesis H0 : nth_error XL0 0 = Some (memory (earth_table rest)).
Hypothesis HR : length rest = 1518%nat.
Variable e : SsqModel.ssq_env.
Hypothesis SE : series_qi fsin fcos XL0 e.

(** the term that is j terms after the solstice of year k *)
Lemma at_term x k j : ok x -> Rabs (R64 x - (IZR k * 365.2422 + 355 + IZR j * (365.2422 / 24))) <= 0.2 -> (-2 <= j <= 24)%Z -> (-2740 <= k <= 1000)%Z ->
  -1000000 <= R64 x <= -810902 \/ -14610 <= R64 x <= 364000 ->
  exists d, SsqModel.calc e x 1 = Some d /\ term_of (24 * k + 42 + j) d /\ (j = 0 \/ j = 24 -> SsqModel.calc e x 1 = term e (24 * k + 42 + j))%Z.
Proof.
  intros Ox Dx Hj Hk Bx. destruct (term_day fsin fcos XL0 rest e x Gs Gc H0 HR SE Ox Bx) as (n & d & Hn & Ed & T & Ht).
  assert (Bj : -2 <= IZR j <= 24) by (split; apply IZR_le; lia). assert (Bk : -2740 <= IZR k <= 1000) by (split; apply IZR_le; lia).
  revert Hn Dx. decs. replace ((R64 x + 293) / (3652422 * / 10000) * 24) with ((R64 x + 293) * (240000 / 3652422)) by field. intros Hn Dx. apply Rabs_le_inv in Dx.
  assert (En : (n = 24 * k + 42 + j)%Z).
  { assert (L1 : IZR n < IZR (24 * k + 43 + j)) by (rewrite !plus_IZR, mult_IZR; lra). assert (L2 : IZR (24 * k + 41 + j) < IZR n) by (rewrite !plus_IZR, mult_IZR; lra). apply lt_IZR in L1. apply lt_IZR in L2. lia. }
  subst n. exists d. split; [exact Ed|]. split; [exact T|]. intros J. apply Ht. lia.
Qed.
Lemma offset_near W i : ok W -> Rabs (R64 W) <= 1100000 -> (0 <= i < 25)%Z ->
  ok (fadd W (fmul (lit 152184 10000) (fZ i))) /\ Rabs (R64 (fadd W (fmul (lit 152184 10000) (fZ i))) - (R64 W + 15.2184 * IZR i)) <= 1e-6.
Proof.
  intros OW BW Hi. destruct (fZ_ok i ltac:(lia)) as [Oi Vi]. set (fi := fZ i) in *. clearbody fi. assert (Bi : Rabs (R64 fi) <= 25) by (rewrite Vi, <- abs_IZR; apply IZR_le; lia).
  assert (E : env_ok [W; fi] [R64 W; R64 fi] [given 1100000; given 25]) by (constructor; [apply given_ok; assumption|constructor; [apply given_ok; assumption|constructor]]).
  set (x := fadd W (fmul (lit 152184 10000) fi)).
  assert (H : ok x /\ Rabs (R64 x - (R64 W + 15.2184 * R64 fi)) <= IZR 1267650600228229401496703 * U) by (unfold x; formula2 fsin fcos Gs Gc [W; fi] E).
  destruct H as [Ox Dx]. split; [exact Ox|]. rewrite <- Vi. apply Rle_trans with (1 := Dx). unfold U, one. decs. lra.
Qed.
Lemma back_near W : ok W -> Rabs (R64 W) <= 1100000 -> ok (fsub W (lit 152 10)) /\ Rabs (R64 (fsub W (lit 152 10)) - (R64 W - 15.2)) <= 1e-6 /\ ok (fsub W (lit 304 10)) /\ Rabs (R64 (fsub W (lit 304 10)) - (R64 W - 30.4)) <= 1e-6.
Proof.
  intros OW BW. assert (E : env_ok [W] [R64 W] [given 1100000]) by (constructor; [apply given_ok; assumption|constructor]).
  set (x := fsub W (lit 152 10)). set (x' := fsub W (lit 304 10)). assert (UU : IZR 1267650600228229401496703 * U <= 1e-6) by (unfold U, one; decs; lra).
  assert (H : ok x /\ Rabs (R64 x - (R64 W - 15.2)) <= IZR 1267650600228229401496703 * U) by (unfold x; formula2 fsin fcos Gs Gc [W] E).
  assert (H' : ok x' /\ Rabs (R64 x' - (R64 W - 30.4)) <= IZR 1267650600228229401496703 * U) by (unfold x'; formula2 fsin fcos Gs Gc [W] E).
  destruct H as [Ox Dx]. destruct H' as [Ox' Dx']. split; [exact Ox|]. split; [lra|]. split; [exact Ox'|lra].
Qed.
Lemma terms_from W k : ok W -> Rabs (R64 W - (IZR k * 365.2422 + 355)) <= 0.1 -> (-2740 <= k <= 1000)%Z -> -999900 <= R64 W <= -811500 \/ -14570 <= R64 W <= 363600 ->
  exists ZQ p0 p1, SsqModel.mapM (fun i => SsqModel.calc e (fadd W (fmul (lit 152184 10000) (fZ i))) 1) (SsqModel.upto 25) = Some ZQ /\
    SsqModel.calc e (fsub W (lit 152 10)) 1 = Some p0 /\ SsqModel.calc e (fsub W (lit 304 10)) 1 = Some p1 /\ List.length ZQ = 25%nat /\
    (forall i, (0 <= i < 25)%Z -> exists d, SsqModel.at_ ZQ i = Some d /\ term_of (24 * k + 42 + i) d /\ (i = 0 \/ i = 24 -> term e (24 * k + 42 + i) = Some d)%Z) /\
    term_of (24 * k + 41) p0 /\ term_of (24 * k + 40) p1.
Proof.
  intros OW DW Hk BW. assert (BW' : Rabs (R64 W) <= 1100000) by (apply Rabs_le; lra). revert DW. decs. intros DW. apply Rabs_le_inv in DW.
  destruct (SsqProof5.mapM_ok (fun i => SsqModel.calc e (fadd W (fmul (lit 152184 10000) (fZ i))) 1) (fun i d => term_of (24 * k + 42 + i) d /\ (i = 0 \/ i = 24 -> term e (24 * k + 42 + i) = Some d)%Z) (SsqModel.upto 25)) as (ZQ & EM & F).
  { intros i Hi. assert (I : (0 <= i < 25)%Z) by (unfold SsqModel.upto in Hi; apply in_map_iff in Hi; destruct Hi as (m & <- & Hm); apply in_seq in Hm; lia).
    destruct (offset_near W i OW BW' I) as [Ox Dx]. revert Dx. decs. intros Dx. apply Rabs_le_inv in Dx. assert (Bi : 0 <= IZR i <= 24) by (split; apply IZR_le; lia).
    destruct (at_term _ k i Ox ltac:(decs; apply Rabs_le; lra) ltac:(lia) Hk ltac:(lra)) as (d & Ed & T & Ht). exists d. split; [exact Ed|]. split; [exact T|]. intros J. rewrite <- (Ht J). exact Ed. }
  destruct (back_near W OW BW') as (O1 & D1 & O2 & D2). revert D1 D2. decs. intros D1 D2. apply Rabs_le_inv in D1. apply Rabs_le_inv in D2.
  destruct (at_term _ k (-1) O1 ltac:(decs; apply Rabs_le; lra) ltac:(lia) Hk ltac:(lra)) as (p0 & E0 & T0 & _).
  destruct (at_term _ k (-2) O2 ltac:(decs; apply Rabs_le; lra) ltac:(lia) Hk ltac:(lra)) as (p1 & E1 & T1 & _).
  exists ZQ, p0, p1. split; [exact EM|]. split; [exact E0|]. split; [exact E1|]. split; [rewrite <- (SsqProof5.Forall2_len _ _ _ F); reflexivity|].
  split; [|split; [replace (24 * k + 41)%Z with (24 * k + 42 + -1)%Z by ring; exact T0|replace (24 * k + 40)%Z with (24 * k + 42 + -2)%Z by ring; exact T1]].
  intros i Hi. destruct (SsqProof5.Forall2_at _ _ _ i i F (SsqProof5.at_upto 25 i Hi)) as (d & Ed & T). exists d. split; [exact Ed|exact T].
Qed.
(** C93: the solar terms SSQ::calcY starts from, for a day of the years -735..-245 and 1961..2993: 25 terms from the winter solstice on or before the day to the next
    winter solstice, which is after it, and the two terms before. *)
Theorem C93_terms_of_year jd : ok jd -> -999000 <= R64 jd <= -820000 \/ -14000 <= R64 jd <= 363000 ->
  exists k ZQ p0 p1 A0 A24, SsqModel.sui_terms (SsqModel.calc e) jd = Some (ZQ, [p0; p1]) /\ List.length ZQ = 25%nat /\
    (forall i, (0 <= i < 25)%Z -> exists d, SsqModel.at_ ZQ i = Some d /\ term_of (24 * k + 42 + i) d) /\ term_of (24 * k + 41) p0 /\ term_of (24 * k + 40) p1 /\
    SsqModel.at_ ZQ 0 = Some A0 /\ SsqModel.at_ ZQ 24 = Some A24 /\ IZR A0 <= R64 jd < IZR A24 /\ IZR k * 365.2422 + 346 <= R64 jd <= (IZR k + 1) * 365.2422 + 363.
Proof.
  intros Oj Bj. assert (Bj' : Rabs (R64 jd) <= 1000000) by (apply Rabs_le; lra). unfold SsqModel.sui_terms.
  assert (N : exists n, int2 (fdiv (fadd (fsub jd (fZ 355)) (fZ 183)) SsqModel.tropical) = Some n) by (apply (head_some fsin fcos Gs Gc); assumption). destruct N as [n En]. rewrite En. cbn [obind].
  destruct (head_near fsin fcos Gs Gc jd n Oj Bj' En) as (_ & Hn & O1 & D1 & O2 & D2).
  set (W := fadd (fmul (fZ n) SsqModel.tropical) (fZ 355)) in *. set (W' := fsub W SsqModel.tropical) in *. clearbody W'. clearbody W. revert Hn D1 D2. decs. intros Hn D1 D2. apply Rabs_le_inv in D1. apply Rabs_le_inv in D2.
  assert (Bn : (-2737 <= n <= 995)%Z). { assert (L1 : IZR n < 996) by lra. assert (L2 : -2738 < IZR n) by lra. apply lt_IZR in L1. apply lt_IZR in L2. lia. }
  destruct (at_term W n 0 O1 ltac:(decs; apply Rabs_le; lra) ltac:(lia) ltac:(lia) ltac:(lra)) as (q & Eq & Tq & Hq). specialize (Hq (or_introl eq_refl)). rewrite Eq in *. cbn [obind].
  assert (Bn' : -2737 <= IZR n <= 995) by (split; apply IZR_le; lia).
  assert (Mq : Rabs (IZR q - (IZR n * 365.2422 + 354.96)) <= 8).
  { pose proof (term_mean (24 * n + 42 + 0) q ltac:(rewrite !plus_IZR, mult_IZR; lra) Tq) as M. rewrite !plus_IZR, mult_IZR in M. revert M. decs. intros M. apply Rabs_le_inv in M. apply Rabs_le. lra. }
  revert Mq. decs. intros Mq. apply Rabs_le_inv in Mq.
  change (fgtb (fZ q) jd) with (fltb jd (fZ q)). assert (Bq : (Z.abs q <= 2000000)%Z). { assert (L1 : IZR q < 2000000) by lra. assert (L2 : -2000000 < IZR q) by lra. apply lt_IZR in L1. apply lt_IZR in L2. lia. }
  destruct (fZ_ok q ltac:(lia)) as [Oq Vq]. rewrite (fltb_ok _ _ Oj Oq), Vq. destruct (Rlt_bool_spec (R64 jd) (IZR q)) as [L|L].
  - destruct (terms_from W' (n - 1) O2) as (ZQ & p0 & p1 & EM & E0 & E1 & LZ & T & T0 & T1); [rewrite minus_IZR; decs; apply Rabs_le; lra|lia|lra|].
    rewrite EM. cbn [obind]. rewrite E0. cbn [obind]. rewrite E1. cbn [obind].
    destruct (T 0%Z ltac:(lia)) as (A0 & EA & TA & _). destruct (T 24%Z ltac:(lia)) as (A24 & EB & TB & HB). specialize (HB (or_intror eq_refl)).
    replace (24 * (n - 1) + 42 + 24)%Z with (24 * n + 42 + 0)%Z in HB by ring. rewrite <- Hq in HB. injection HB as <-.
    exists (n - 1)%Z, ZQ, p0, p1, A0, q. split; [reflexivity|]. split; [exact LZ|]. split; [intros i Hi; destruct (T i Hi) as (d & ? & ? & _); exists d; now split|]. split; [exact T0|]. split; [exact T1|]. split; [exact EA|]. split; [exact EB|].
    split; [|rewrite minus_IZR; decs; lra]. split; [|exact L]. pose proof (term_mean (24 * (n - 1) + 42 + 0) A0 ltac:(rewrite !plus_IZR, mult_IZR, minus_IZR; lra) TA) as M. rewrite !plus_IZR, mult_IZR, minus_IZR in M. revert M. decs. intros M. apply Rabs_le_inv in M. lra.
  - destruct (terms_from W n O1) as (ZQ & p0 & p1 & EM & E0 & E1 & LZ & T & T0 & T1); [decs; apply Rabs_le; lra|lia|lra|].
    rewrite EM. cbn [obind]. rewrite E0. cbn [obind]. rewrite E1. cbn [obind].
    destruct (T 0%Z ltac:(lia)) as (A0 & EA & TA & HA). destruct (T 24%Z ltac:(lia)) as (A24 & EB & TB & _). specialize (HA (or_introl eq_refl)). rewrite <- Hq in HA. injection HA as <-.
    exists n, ZQ, p0, p1, q, A24. split; [reflexivity|]. split; [exact LZ|]. split; [intros i Hi; destruct (T i Hi) as (d & ? & ? & _); exists d; now split|]. split; [exact T0|]. split; [exact T1|]. split; [exact EA|]. split; [exact EB|].
    split; [|decs; lra]. split; [exact L|]. pose proof (term_mean (24 * n + 42 + 24) A24 ltac:(rewrite !plus_IZR, mult_IZR; lra) TB) as M. rewrite !plus_IZR, mult_IZR in M. revert M. decs. intros M. apply Rabs_le_inv in M. lra.
Qed.
(** C19: in the years before the tables start (-721 to -245) naming the months succeeds for every day *)
Theorem C19_from_721 jd : ok jd -> -993825 <= R64 jd <= -820000 ->
  exists s, SsqModel.calcY (SsqModel.calc e) jd = Some s /\ SsqModel.s_leap s = 0%Z /\ List.length (SsqModel.s_ym s) = 14%nat /\ forall m, In m (SsqModel.s_ym s) -> In m SsqProof5.month_names_all.
Proof.
  intros Oj Bj. destruct (C93_terms_of_year jd Oj ltac:(lra)) as (k & ZQ & p0 & p1 & A0 & A24 & ET & _ & T & _ & _ & EA & EB & BA & BK).
  destruct (T 0%Z ltac:(lia)) as (A & EA' & TA). rewrite EA in EA'. injection EA' as <-. revert BK. decs. intros BK.
  assert (Bk : (-2722 <= k <= -2245)%Z). { assert (L1 : IZR k < -2244) by lra. assert (L2 : -2723 < IZR k) by lra. apply lt_IZR in L1. apply lt_IZR in L2. lia. }
  assert (Bk' : -2722 <= IZR k <= -2245) by (split; apply IZR_le; lia).
  pose proof (term_mean (24 * k + 42 + 0) A0 ltac:(rewrite !plus_IZR, mult_IZR; lra) TA) as M. rewrite !plus_IZR, mult_IZR in M. revert M. decs. intros M. apply Rabs_le_inv in M.
  assert (Y : SsqSpec.sui_year A0 = (2001 + k)%Z).
  { unfold SsqSpec.sui_year. assert (D : ((A0 + 190) * 10000 / 3652422 = k + 1)%Z); [|lia]. symmetry. apply (Z.div_unique_pos _ _ _ ((A0 + 190) * 10000 - 3652422 * (k + 1))); [|ring].
    assert (0 <= IZR ((A0 + 190) * 10000 - 3652422 * (k + 1)) < 3652422) by (rewrite minus_IZR, !mult_IZR, !plus_IZR; lra). split; [apply le_IZR; lra|apply lt_IZR; lra]. }
  apply (SsqProof5.old_years e jd ZQ [p0; p1] A0 (2001 + k) ET EA); [rewrite <- Y; reflexivity|lia|].
  intros K. assert (-993843 < IZR A0) by (assert (K' : k = (-2722)%Z) by lia; rewrite K' in *; lra). apply lt_IZR in H. lia.
Qed.
End Year.

(** the hypotheses can be met; the days of 2024-08-22 and of 721 BC *)
Example C92_example : exists fsin fcos XL0 rest e, good_lib fsin sin /\ good_lib fcos cos /\ nth_error XL0 0 = Some (memory (earth_table rest)) /\ length rest = 1518%nat /\ series_qi fsin fcos XL0 e /\
  ok (fZ 9000) /\ -14000 <= R64 (fZ 9000) <= 363000 /\ ok (fZ (-993800)) /\ -993825 <= R64 (fZ (-993800)) <= -820000.
Proof.
  destruct good_lib_exists as (fsin & fcos & _ & Gs & Gc & _). set (X := [memory (earth_table (repeat (fZ 0) 1518))]).
  exists fsin, fcos, X, (repeat (fZ 0) 1518), (SsqModel.mkEnv (fun W => match qi_high fsin fcos X W with Some v => v | None => fZ 0 end) (fun x => x) (fun x => x) (fun x => x) [] []).
  split; [exact Gs|]. split; [exact Gc|]. split; [reflexivity|]. split; [apply repeat_length|]. split; [intros W v E; cbn [SsqModel.qi_high]; rewrite E; reflexivity|].
  destruct (fZ_ok 9000 ltac:(lia)) as [O1 V1]. destruct (fZ_ok (-993800) ltac:(lia)) as [O2 V2]. rewrite V1, V2. repeat split; try assumption; lra.
Qed.
Print Assumptions C92_solar_term.
Print Assumptions C93_terms_of_year.
Print Assumptions C19_from_721.
