(** C139: the equation of time and the local true solar time. *)
From Coq Require Import ZArith Reals Lia Lra Bool List.
From Coq Require Import Floats.SpecFloat.
From Flocq Require Import Core IEEE754.BinarySingleNaN.
From Verif Require Import F64 F64R F64T F64E Str AngModel AngProps PiBound ErrExpr SmTab SerModel SerSpec FormModel FormSpec FormProps WaveF WaveR SmModel SmSpec SmLon SmProps SmSun SunProps IllProps DtModel DtSpec DtProps HighR.
From Verif Require GeoModel GeoProof F64B FmtModel BaziModel.
From Verif Require Import StModel StSpec StReal StProof StNoon StDay StProps PtModel.
Import ListNotations.
Open Scope list_scope.
Open Scope R_scope.

(** the mean Sun of the program and its obliquity, as real functions *)
Definition mean_sun (t : R) : R := 1.753470142 + 628.3319653318 * t + 5.29674e-6 * t ^ 2 + PI.
Definition tilt (t : R) : R := arcsec (84381.4088 - 46.836051 * t).

(** turned to the sidereal time th the point l stands near the meridian when th is near l *)
Lemma near_meridian l e th : Rabs e <= 0.416 -> Rabs (th - l) <= 0.0535 -> Rabs (to_west l e th) <= 0.0968 /\ 0.9 <= to_meridian l e th.
Proof.
  intros BE BE'. set (eta := th - l) in *. destruct (cosE _ BE) as [CE1 CE2]. set (p := (1 + cos e) / 2). set (q := (1 - cos e) / 2).
  assert (M : to_meridian l e th = p * cos eta + q * cos (th + l)) by (unfold eta, to_meridian, p, q; rewrite cos_minus, cos_plus; field).
  assert (W : to_west l e th = p * sin eta + q * sin (th + l)) by (unfold eta, to_west, p, q; rewrite sin_minus, sin_plus; field).
  assert (P0 : 0.9567 <= p <= 1) by (unfold p; revert CE1; decs; lra). assert (Q0 : Rabs q <= 0.0433) by (apply Rabs_le; unfold q; revert CE1; decs; lra).
  split.
  - rewrite W. apply Rle_trans with (1 * 0.0535 + 0.0433 * 1); [|decs; lra]. apply sum_le; apply prod_le; try assumption; [apply Rabs_le; revert P0; decs; lra|pose proof (sin_abs eta); lra|apply one_sin].
  - rewrite M. pose proof (cos_lb eta) as X. pose proof (prod_le _ _ _ _ BE' BE') as Y. apply Rabs_le_inv in Y. pose proof (prod_le _ _ _ _ Q0 (one_cos (th + l))) as Z. apply Rabs_le_inv in Z.
    assert (H1 : 0.955 * 0.998 <= p * cos eta) by (apply Rmult_le_compat; revert P0 X Y; decs; lra). revert H1 Z. decs. lra.
Qed.

(** the sidereal time less the mean solar time is the longitude of the mean Sun, less the aberration, nearly *)
Definition drift (t dt : R) : R := sidereal_time (36525 * t - dt) dt - 2 * PI * (36525 * t - dt) - mean_sun t + arcsec 20.5.
Lemma drift_le B t dt : 0 <= B -> Rabs t <= B -> Rabs (drift t dt) <= 2.2e-6 + 4.1e-6 * B + 0.0172022 * Rabs dt + 1.4746e-6 * B ^ 2 + 4.8482e-6 * (0.00009344 * B ^ 3 + 0.00001882 * B ^ 4).
Proof.
  intros B0 Ht. pose proof PI_bounds as PB. unfold drift, sidereal_time, mean_sun. cbv zeta. replace ((36525 * t - dt + dt) / 36525) with t by field. unfold arcsec.
  match goal with |- Rabs ?z <= _ => replace z with ((2 * PI * 0.7790572732640 - 1.753470142 - PI + PI / 648000 * 20.514506) + (2 * PI * 36525 * 0.00273781191135448 + PI / 648000 * 4612.15739966 - 628.3319653318) * t
    - 2 * PI * 0.00273781191135448 * dt + (PI / 648000 * 1.39667721 - 5.29674e-6) * t ^ 2 - PI / 648000 * (0.00009344 * t ^ 3 - 0.00001882 * t ^ 4)) by (decs; field) end.
  assert (P : forall k, Rabs (t ^ k) <= B ^ k) by (intros k; rewrite <- RPow_abs; apply pow_incr; split; [apply Rabs_pos|exact Ht]).
  apply diff_le; [apply sum_le; [apply diff_le; [apply sum_le|]|]|].
  - apply Rabs_le. revert PB. decs. lra.
  - apply prod_le; [apply Rabs_le; revert PB; decs; lra|exact Ht].
  - apply prod_le; [rewrite Rabs_pos_eq; revert PB; decs; lra|apply Rle_refl].
  - apply prod_le; [apply Rabs_le; revert PB; decs; lra|apply P].
  - apply prod_le; [rewrite Rabs_pos_eq; revert PB; decs; lra|]. apply diff_le; apply prod_le; try apply P; rewrite Rabs_pos_eq; decs; lra.
Qed.
Lemma tilt_le B t : 0 <= B -> Rabs t <= B -> Rabs (obliquity t - tilt t) <= 4.8482e-6 * (0.0028 + 0.000718 * B + 0.0001831 * B ^ 2 + 0.0020034 * B ^ 3 + 5.76e-7 * B ^ 4 + 4.34e-8 * B ^ 5).
Proof.
  intros B0 Ht. pose proof PI_bounds as PB. unfold obliquity, tilt, arcsec.
  match goal with |- Rabs ?z <= _ => replace z with (PI / 648000 * (-0.0028 - 0.000718 * t - 0.0001831 * t ^ 2 + 0.0020034 * t ^ 3 - 5.76e-7 * t ^ 4 - 4.34e-8 * t ^ 5)) by (decs; field) end.
  assert (P : forall k, Rabs (t ^ k) <= B ^ k) by (intros k; rewrite <- RPow_abs; apply pow_incr; split; [apply Rabs_pos|exact Ht]).
  apply prod_le; [rewrite Rabs_pos_eq; revert PB; decs; lra|].
  apply diff_le; [apply diff_le; [apply sum_le; [apply diff_le; [apply diff_le|]|]|]|]; try (apply prod_le; [rewrite Rabs_pos_eq; decs; lra|first [exact Ht|apply P]]). apply Rabs_le; decs; lra.
Qed.

Section Lib.
Variables fsin fcos ftan fasin : f64 -> f64.
Variable fatan2 : f64 -> f64 -> f64.
Hypothesis Gs : good_lib fsin sin.
Hypothesis Gc : good_lib fcos cos.
Hypothesis Gt : close_on ftan tan.
Hypothesis Ga : close_on fasin asin.
Hypothesis G2 : close_atan2 fatan2.
Variables (XL0 : list (list f64)) (rest : list f64).
Hypothesis H0 : nth_error XL0 0 = Some (memory (earth_table rest)).
Hypothesis HR : List.length rest = 1518%nat.

Ltac formula xs E :=
  lazymatch goal with |- ok ?F /\ Rabs (R64 ?F - ?r) <= IZR ?n * U =>
    let e := reify fsin fcos xs F in apply (formula_ok fsin fcos Gs Gc _ _ _ e F r n E); [cbn [evF nth]; reflexivity| |vm_compute; reflexivity]; cbn [evR nth]; decs; try field end.
Lemma L_near t : ok t -> Rabs (R64 t) <= 28 -> ok (pt_L t) /\ Rabs (R64 (pt_L t) - mean_sun (R64 t)) <= 1e-10.
Proof.
  intros Ot Bt. assert (E : env_ok [t] [R64 t] [given 28]) by (repeat (constructor; [apply given_ok; assumption|]); constructor).
  assert (H : ok (pt_L t) /\ Rabs (R64 (pt_L t) - mean_sun (R64 t)) <= IZR 126765060022822940149 * U) by (unfold pt_L, mean_sun; formula [t] E).
  destruct H as [O D]. split; [exact O|]. apply Rle_trans with (1 := D). unfold U, one. decs. lra.
Qed.
Lemma E_near t : ok t -> Rabs (R64 t) <= 28 -> ok (pt_E t) /\ Rabs (R64 (pt_E t) - tilt (R64 t)) <= 1e-14.
Proof.
  intros Ot Bt. assert (E : env_ok [t] [R64 t] [given 28]) by (repeat (constructor; [apply given_ok; assumption|]); constructor).
  assert (H : ok (pt_E t) /\ Rabs (R64 (pt_E t) - tilt (R64 t)) <= IZR 12676506002282294 * U) by (unfold pt_E, tilt, rad, arcsec; formula [t] E; pose proof PI_bounds; revert H; decs; lra).
  destruct H as [O D]. split; [exact O|]. apply Rle_trans with (1 := D). unfold U, one. decs. lra.
Qed.
Lemma plus_pi e : ok e -> Rabs (R64 e) <= 64000 -> let J := fadd e dpi in ok J /\ Rabs (R64 J - (R64 e + PI)) <= 1e-10.
Proof.
  intros Oe Be J. assert (E : env_ok [e] [R64 e] [given 64000]) by (repeat (constructor; [apply given_ok; assumption|]); constructor).
  assert (H : ok J /\ Rabs (R64 J - (R64 e + PI)) <= IZR 126765060022822940149 * U) by (unfold J; formula [e] E).
  destruct H as [O D]. split; [exact O|]. apply Rle_trans with (1 := D). unfold U, one. decs. lra.
Qed.
Lemma minus_ra g ra : ok g -> ok ra -> Rabs (R64 g) <= 18000 -> Rabs (R64 ra) <= 8 -> let v := fsub g ra in ok v /\ Rabs (R64 v - (R64 g - R64 ra)) <= 1e-10.
Proof.
  intros Og Or Bg Br v. assert (E : env_ok [g; ra] [R64 g; R64 ra] [given 18000; given 8]) by (repeat (constructor; [apply given_ok; assumption|]); constructor).
  assert (H : ok v /\ Rabs (R64 v - (R64 g - R64 ra)) <= IZR 126765060022822940149 * U) by (unfold v; formula [g; ra] E).
  destruct H as [O D]. split; [exact O|]. apply Rle_trans with (1 := D). unfold U, one. decs. lra.
Qed.
Lemma over_pi2 x : ok x -> Rabs (R64 x) <= 4 -> let r := fdiv x pi2 in ok r /\ Rabs (R64 r - R64 x / (2 * PI)) <= 1e-14.
Proof.
  intros Ox Bx r. assert (E : env_ok [x] [R64 x] [given 4]) by (repeat (constructor; [apply given_ok; assumption|]); constructor).
  assert (H : ok r /\ Rabs (R64 r - R64 x / (2 * PI)) <= IZR 12676506002282294 * U).
  { unfold r, pi2. formula [x] E. pose proof PI_bounds. revert H. decs. lra. }
  destruct H as [O D]. split; [exact O|]. apply Rle_trans with (1 := D). unfold U, one. decs. lra.
Qed.

(** what pty_zty2 returns: the hour angle, in turns, that a point near the Sun has when the sidereal time is the longitude
    of the mean Sun *)
Lemma pty_ok t : ok t -> Rabs (R64 t) <= 27.5 ->
  exists x l E, pty_zty2 fsin fcos ftan fasin fatan2 XL0 t = Some x /\ ok x /\ Rabs (R64 x) <= 0.0175 /\
    Rabs (l - (sun_of_date (R64 t) + arcsec 20.5)) <= 3.012e-4 /\ Rabs E <= 0.416 /\ Rabs (E - tilt (R64 t)) <= 1e-14 /\
    Rabs (to_west l E (mean_sun (R64 t) - 2 * PI * R64 x)) <= 1e-9 /\ 0.899 <= to_meridian l E (mean_sun (R64 t) - 2 * PI * R64 x).
Proof.
  intros Ot Bt. assert (Bt' : Rabs (R64 t) <= 28) by (revert Bt; decs; lra). pose proof PI_bounds as PB. unfold pty_zty2. cbv zeta.
  destruct (earth_n_near fsin fcos Gs Gc XL0 rest H0 HR t Ot ltac:(lra) 5 ltac:(lia)) as (e & Ee & Oe & De & Me). rewrite Ee. cbn [obind].
  assert (Be : Rabs (R64 e) <= 64000). { replace (R64 e) with (earth_n 5 (R64 t) + (R64 e - earth_n 5 (R64 t))) by ring. apply Rle_trans with (1 := sum_le _ _ _ _ Me De). decs. lra. }
  destruct (plus_pi e Oe Be) as [OJ DJ]. set (J := fadd e dpi) in *. clearbody J.
  destruct (E_near t Ot Bt') as [OE DE]. set (E := pt_E t) in *. clearbody E.
  assert (BE : Rabs (R64 E) <= 0.416).
  { replace (R64 E) with (tilt (R64 t) + (R64 E - tilt (R64 t))) by ring. apply Rle_trans with (0.4158 + 1e-14); [|decs; lra]. apply sum_le; [|exact DE].
    unfold tilt, arcsec. assert (Bt2 := Bt'). apply Rabs_le_inv in Bt2. replace ((84381.4088 - 46.836051 * R64 t) * PI / 648000) with ((84381.4088 - 46.836051 * R64 t) * (PI / 648000)) by (unfold Rdiv; ring).
    apply Rle_trans with (85693 * 4.8482e-6); [|decs; lra]. apply prod_le; [apply Rabs_le; revert Bt2; decs; lra|rewrite Rabs_pos_eq; revert PB; decs; lra]. }
  pose proof (coords fsin fcos ftan fasin fatan2 Gs Gc Gt Ga G2 J E OJ OE BE) as C. destruct (llr_conv fsin fcos ftan fasin fatan2 J (fZ 0) E) as [ra de]. destruct C as (Ora & Ode & Bra & Cde & C1 & C2 & C3).
  destruct (L_near t Ot Bt') as [OL DL]. set (g := pt_L t) in *. clearbody g. set (M := mean_sun (R64 t)) in *.
  assert (BM : Rabs M <= 17700). { unfold M, mean_sun. assert (P2 : Rabs (R64 t ^ 2) <= 784) by (apply Rle_trans with (28 ^ 2); [rewrite <- RPow_abs; apply pow_incr; split; [apply Rabs_pos|exact Bt']|lra]).
    apply Rabs_le_inv in P2. apply Rabs_le_inv in Bt'. apply Rabs_le. revert PB P2 Bt'. decs. lra. }
  assert (Bg : Rabs (R64 g) <= 18000). { replace (R64 g) with (M + (R64 g - M)) by ring. apply Rle_trans with (1 := sum_le _ _ _ _ BM DL). decs. lra. }
  destruct (minus_ra g ra OL Ora Bg ltac:(apply Rabs_le; lra)) as [Ov Dv]. set (v := fsub g ra) in *. clearbody v.
  destruct (C31_rrad_double v Ov) as (OH & BH & k & EH). set (H := rad2rrad_d v) in *. clearbody H.
  pose proof dpi_range as DR.
  assert (BH' : Rabs (R64 H) <= 4) by (apply Rabs_le; lra).
  destruct (over_pi2 H OH BH') as [Ox Dx]. set (x := fdiv H pi2) in *. clearbody x.
  assert (KM : Rabs (IZR k) <= 3100).
  { apply Rle_trans with ((4 + Rabs (R64 v)) / 6).
    - apply abs_cases. rewrite <- EH. exact BH'.
    - assert (Rabs (R64 v) <= 18100); [|lra]. revert Dv. decs. intros Dv. apply Rabs_le_inv in Dv. apply Rabs_le_inv in Bg. apply Rabs_le. lra. }
  assert (TV : Rabs (R64 H - (R64 v + IZR k * (2 * PI))) <= 1e-15 + 3100 * 4e-16).
  { apply turns; [exact KM|]. rewrite EH, Rminus_diag_eq, Rabs_R0 by reflexivity. decs. lra. }
  set (X := 2 * PI * R64 x). assert (DX : Rabs (X - R64 H) <= 6.3 * 1e-14) by (apply two_pi; exact Dx).
  assert (HA : Rabs (X - (M - R64 ra + IZR k * (2 * PI))) <= 2.1e-10).
  { replace (X - (M - R64 ra + IZR k * (2 * PI))) with ((X - R64 H) + (R64 H - (R64 v + IZR k * (2 * PI))) + (R64 v - (R64 g - R64 ra)) + (R64 g - M)) by ring.
    apply Rle_trans with (1 := sum_le _ _ _ _ (sum_le _ _ _ _ (sum_le _ _ _ _ DX TV) Dv) DL). decs. lra. }
  set (c := cos (R64 de)) in *. assert (C0 : Rabs c <= 1) by apply one_cos. set (l := R64 J) in *.
  assert (LL : Rabs (l - (sun_of_date (R64 t) + arcsec 20.5)) <= 3.012e-4).
  { pose proof (earth_tail 3 5 (R64 t) ltac:(lra)) as ET. let x := eval vm_compute in (etail 3 5) in change (etail 3 5) with x in ET.
    pose proof (aberr_const (R64 t) ltac:(lra)) as AC.
    replace (l - (sun_of_date (R64 t) + arcsec 20.5)) with ((l - (R64 e + PI)) + (R64 e - earth_n 5 (R64 t)) + (earth_n 5 (R64 t) - earth_full (R64 t)) - (sun_aberration (R64 t) + arcsec 20.5)) by (unfold sun_of_date; ring).
    apply Rle_trans with (1 := diff_le _ _ _ _ (sum_le _ _ _ _ (sum_le _ _ _ _ DJ De) ET) AC). decs. lra. }
  (* turned by the angle X, the point is on the meridian *)
  assert (ON : Rabs (to_west l (R64 E) (M - X)) <= 1e-9 /\ 0.899 <= to_meridian l (R64 E) (M - X)).
  { set (th := M - X). set (dd := th + IZR k * (2 * PI) - R64 ra). assert (BD : Rabs dd <= 2.1e-10). { replace dd with (- (X - (M - R64 ra + IZR k * (2 * PI)))) by (unfold dd, th; ring). rewrite Rabs_Ropp. exact HA. }
    assert (TS : sin (th - R64 ra) = sin dd). { unfold dd. replace (th + IZR k * (2 * PI) - R64 ra) with (th - R64 ra + IZR k * (2 * PI)) by ring. now rewrite turn_sin. }
    assert (TC : cos (th - R64 ra) = cos dd). { unfold dd. replace (th + IZR k * (2 * PI) - R64 ra) with (th - R64 ra + IZR k * (2 * PI)) by ring. now rewrite turn_cos. }
    rewrite sin_minus in TS. rewrite cos_minus in TC. split.
    - replace (to_west l (R64 E) th) with (c * sin dd - sin th * (c * cos (R64 ra) - cos l) + cos th * (c * sin (R64 ra) - cos (R64 E) * sin l)) by (rewrite <- TS; unfold to_west; ring).
      apply Rle_trans with (1 * 2.1e-10 + 1 * 3e-14 + 1 * 3e-14); [|decs; lra]. apply sum_le; [apply diff_le|]; apply prod_le; try assumption; try apply one_cos; try apply one_sin. apply Rle_trans with (1 := sin_abs dd). exact BD.
    - replace (to_meridian l (R64 E) th) with (c * cos dd - (cos th * (c * cos (R64 ra) - cos l) + sin th * (c * sin (R64 ra) - cos (R64 E) * sin l))) by (rewrite <- TC; unfold to_meridian; ring).
      assert (Z : Rabs (cos th * (c * cos (R64 ra) - cos l) + sin th * (c * sin (R64 ra) - cos (R64 E) * sin l)) <= 1 * 3e-14 + 1 * 3e-14) by (apply sum_le; apply prod_le; try assumption; try apply one_cos; try apply one_sin).
      pose proof (cos_lb dd) as CD. pose proof (prod_le _ _ _ _ BD BD) as DD. apply Rabs_le_inv in DD. apply Rabs_le_inv in Z.
      assert (Y : 0.9 * 0.9999 <= c * cos dd) by (apply Rmult_le_compat; revert Cde CD DD; decs; lra). revert Y Z. decs. lra. }
  exists x, l, (R64 E). split; [reflexivity|]. split; [exact Ox|]. split; [|split; [exact LL|split; [exact BE|split; [exact DE|exact ON]]]].
  (* the equation of time is small *)
  destruct ON as [ON1 ON2].
  assert (ML : Rabs (M - l) <= 0.0535).
  { pose proof (sun_dev 3 (R64 t) ltac:(lia) ltac:(lra)) as SD. pose proof dev3 as D3. pose proof (nut_small (R64 t) ltac:(lra)) as N.
    assert (SD' : Rabs (sun_mean (R64 t) - sun_longitude (R64 t)) <= 0.0480499) by lra.
    assert (P2 : Rabs (5.29674e-6 * R64 t ^ 2) <= 5.29674e-6 * 784). { apply prod_le; [rewrite Rabs_pos_eq; decs; lra|]. apply Rle_trans with (28 ^ 2); [rewrite <- RPow_abs; apply pow_incr; split; [apply Rabs_pos|exact Bt']|lra]. }
    assert (K1 : Rabs 1.42e-7 <= 1.42e-7) by (rewrite Rabs_pos_eq; decs; lra). assert (K2 : Rabs (arcsec 20.5) <= 1e-4) by (unfold arcsec; rewrite Rabs_pos_eq; revert PB; decs; lra).
    replace (M - l) with ((sun_mean (R64 t) - sun_longitude (R64 t)) + nut_lon (R64 t) + 1.42e-7 + 5.29674e-6 * R64 t ^ 2 - arcsec 20.5 - (l - (sun_of_date (R64 t) + arcsec 20.5))) by (unfold M, mean_sun, sun_mean, sun_longitude, sun_of_date; decs; field).
    apply Rle_trans with (1 := diff_le _ _ _ _ (diff_le _ _ _ _ (sum_le _ _ _ _ (sum_le _ _ _ _ (sum_le _ _ _ _ SD' N) K1) P2) K2) LL). decs. lra. }
  destruct (near_meridian l (R64 E) M BE ML) as [NW NM].
  pose proof (turn_west l (R64 E) (M - X) X) as TW. pose proof (turn_meridian l (R64 E) (M - X) X) as TM. replace (M - X + X) with M in TW, TM by ring.
  set (w := to_west l (R64 E) (M - X)) in *. set (m := to_meridian l (R64 E) (M - X)) in *. clearbody w m.
  assert (BX : Rabs X <= 0.1095).
  { apply (angle_small X 0.1095 0.10768).
    - replace X with ((X - R64 H) + R64 H) by ring. apply Rle_trans with (6.3 * 1e-14 + 3.1416); [|decs; lra]. apply sum_le; [exact DX|]. pose proof dpi_pi as DP. apply Rabs_le_inv in DP. apply Rabs_le. revert DP PB. decs. lra.
    - assert (ZW : Rabs (w * sin X) <= 1e-9 * 1) by (apply prod_le; [exact ON1|apply one_sin]). apply Rabs_le_inv in ZW. assert (0 < m * cos X) by (revert TM NM ZW; decs; lra).
      revert ON2. decs. intros ON2. destruct (Rle_dec (cos X) 0) as [Q|Q]; [nra|lra].
    - assert (ZW : Rabs (w * cos X) <= 1e-9 * 1) by (apply prod_le; [exact ON1|apply one_cos]). assert (Q : Rabs (m * sin X) <= 0.0968 + 1e-9 * 1). { replace (m * sin X) with (to_west l (R64 E) M - w * cos X) by (rewrite TW; ring). now apply diff_le. }
      rewrite Rabs_mult, (Rabs_pos_eq m) in Q by (revert ON2; decs; lra). pose proof (Rabs_pos (sin X)) as Y. assert (Z : 0.899 * Rabs (sin X) <= m * Rabs (sin X)) by (now apply Rmult_le_compat_r). revert Q Z. decs. lra.
    - decs. lra.
    - decs. lra. }
  replace (R64 x) with (X / (2 * PI)) by (unfold X; field; revert PB; decs; lra). apply Rle_trans with (1 := per_turn _ _ BX). decs. lra.
Qed.

Lemma clock_sum jd p J : ok jd -> ok p -> ok J -> Rabs (R64 jd) <= 1000000 -> Rabs (R64 p) <= 1 -> Rabs (R64 J) <= 7 ->
  let s := fadd jd (fadd p (fdiv (fdiv J dpi) (fZ 2))) in ok s /\ Rabs (R64 s - (R64 jd + R64 p + R64 J / (2 * PI))) <= 3e-10.
Proof.
  intros Oj Op OJ Bj Bp BJ s. assert (E : env_ok [jd; p; J] [R64 jd; R64 p; R64 J] [given 1000000; given 1; given 7]) by (repeat (constructor; [apply given_ok; assumption|]); constructor).
  assert (H : ok s /\ Rabs (R64 s - (R64 jd + R64 p + R64 J / (2 * PI))) <= IZR 380295180068468820449 * U).
  { unfold s. formula [jd; p; J] E. pose proof PI_bounds. revert H. decs. lra. }
  destruct H as [O D]. split; [exact O|]. apply Rle_trans with (1 := D). unfold U, one. decs. lra.
Qed.
Lemma solar_ok jd J B kap eps : ok jd -> ok J -> Rabs (R64 J) <= 7 -> 0 <= B <= 27.39 -> Rabs (R64 jd) <= 36525 * B - 1 -> Rabs (R64 jd) <= 1000000 -> 0 <= kap ->
  2.2e-6 + 4.1e-6 * B + 1.4746e-6 * B ^ 2 + 4.8482e-6 * (0.00009344 * B ^ 3 + 0.00001882 * B ^ 4) <= kap ->
  4.8482e-6 * (0.0028 + 0.000718 * B + 0.0001831 * B ^ 2 + 0.0020034 * B ^ 3 + 5.76e-7 * B ^ 4 + 4.34e-8 * B ^ 5) <= eps ->
  exists dt s, dt_T jd = Some dt /\ solar_time fsin fcos ftan fasin fatan2 XL0 jd J = Some s /\ ok s /\ Rabs (R64 dt) <= 0.348 /\
    Rabs (R64 s - (R64 jd + R64 J / (2 * PI))) <= 0.0176 /\
    let th := local_time (R64 J) (R64 dt) (R64 jd) - 2 * PI * R64 s in let T := (R64 jd + R64 dt) / 36525 in
    let tol := 3.25e-4 + 1.05 * kap + 3 * eps + 0.018 * Rabs (R64 dt) in
    Rabs (to_west (sun_of_date T) (obliquity T) th) <= tol /\ 0.899 - tol <= to_meridian (sun_of_date T) (obliquity T) th.
Proof.
  intros Oj OJ BJ B0 Bj Bj' K0 KK EE. pose proof PI_bounds as PB. destruct (day_dt jd Oj Bj') as (dt & Ed & Od & Bd). exists dt.
  unfold solar_time. rewrite Ed. cbn [obind].
  destruct (centuries fsin fcos Gs Gc jd dt Oj Od ltac:(lra) ltac:(revert Bd; decs; lra)) as [Ot Dt]. set (t := fdiv (fadd jd dt) (fZ 36525)) in *. clearbody t.
  set (T := (R64 jd + R64 dt) / 36525) in *.
  assert (BT : Rabs T <= B). { unfold T. revert Bd. decs. intros Bd. apply Rabs_le_inv in Bj. apply Rabs_le_inv in Bd. apply Rabs_le. lra. }
  assert (Bt : Rabs (R64 t) <= 27.5). { replace (R64 t) with (T + (R64 t - T)) by ring. apply Rle_trans with (1 := sum_le _ _ _ _ BT Dt). revert B0. decs. lra. }
  destruct (pty_ok t Ot Bt) as (p & l & E & Ep & Op & Bp & LL & BE & DE & W & M). rewrite Ep. cbn [obind].
  destruct (clock_sum jd p J Oj Op OJ Bj' ltac:(revert Bp; decs; lra) BJ) as [Os Ds]. set (s := fadd jd _) in *. clearbody s.
  exists s. split; [reflexivity|]. split; [reflexivity|]. split; [exact Os|]. split; [exact Bd|]. split.
  { replace (R64 s - (R64 jd + R64 J / (2 * PI))) with ((R64 s - (R64 jd + R64 p + R64 J / (2 * PI))) + R64 p) by ring. apply Rle_trans with (1 := sum_le _ _ _ _ Ds Bp). decs. lra. }
  cbv zeta. set (q := R64 s - (R64 jd + R64 p + R64 J / (2 * PI))) in *. set (mu := drift T (R64 dt)).
  assert (BM : Rabs mu <= kap + 0.0172022 * Rabs (R64 dt)) by (apply Rle_trans with (1 := drift_le B T (R64 dt) ltac:(lra) BT); lra).
  assert (ET : R64 jd = 36525 * T - R64 dt) by (unfold T; field).
  set (mm := mean_sun T - mean_sun (R64 t)). assert (Bmm : Rabs mm <= 1e-10).
  { replace mm with ((628.3319653318 + 5.29674e-6 * (T + R64 t)) * (T - R64 t)) by (unfold mm, mean_sun; decs; field). apply Rle_trans with ((629) * 2e-14); [|decs; lra]. apply prod_le; [|rewrite Rabs_minus_sym; exact Dt].
    assert (BT2 := BT). apply Rabs_le_inv in BT2. assert (Bt2 := Bt). apply Rabs_le_inv in Bt2. apply Rabs_le. revert Bt2 B0. decs. lra. }
  set (ss := sun_of_date T - sun_of_date (R64 t)). assert (Bss : Rabs ss <= 1e-10).
  { pose proof (sun_run (R64 t) T ltac:(revert Bt; decs; lra) ltac:(revert B0; decs; lra)) as SR. rewrite (Rabs_minus_sym T) in SR.
    replace ss with ((sun_of_date T - sun_of_date (R64 t) - 628.33196674749 * (T - R64 t)) + 628.33196674749 * (T - R64 t)) by (unfold ss; ring).
    apply Rle_trans with (26.641 * 2e-14 + 629 * 2e-14); [|decs; lra]. apply sum_le; [|apply prod_le; [rewrite Rabs_pos_eq; decs; lra|rewrite Rabs_minus_sym; exact Dt]].
    apply Rle_trans with (1 := SR). apply Rmult_le_compat_l; [decs; lra|exact Dt]. }
  set (d := ss - (l - (sun_of_date (R64 t) + arcsec 20.5)) - arcsec 20.5). set (m := mu + mm - 2 * PI * q - arcsec 20.5). set (th := mean_sun (R64 t) - 2 * PI * R64 p) in *.
  assert (EL : sun_of_date T = l + d) by (unfold d, ss; ring).
  assert (ETH : local_time (R64 J) (R64 dt) (R64 jd) - 2 * PI * R64 s = th + m).
  { unfold m, mu, drift, th, mm, local_time, q. rewrite <- ET. field. revert PB. decs. lra. }
  assert (K20 : Rabs (arcsec 20.5) <= 1e-4) by (unfold arcsec; rewrite Rabs_pos_eq; revert PB; decs; lra).
  assert (Q2 : Rabs (2 * PI * q) <= 6.2832 * 3e-10) by (apply prod_le; [rewrite Rabs_pos_eq; revert PB; decs; lra|exact Ds]).
  assert (Dk : Rabs (d - m) <= 3.0121e-4 + (kap + 0.0172022 * Rabs (R64 dt))).
  { replace (d - m) with (ss - (l - (sun_of_date (R64 t) + arcsec 20.5)) - mu - mm + 2 * PI * q) by (unfold d, m; ring).
    apply Rle_trans with (1 := sum_le _ _ _ _ (diff_le _ _ _ _ (diff_le _ _ _ _ (diff_le _ _ _ _ Bss LL) BM) Bmm) Q2). decs. lra. }
  assert (D1 : Rabs d <= 4.013e-4). { unfold d. apply Rle_trans with (1 := diff_le _ _ _ _ (diff_le _ _ _ _ Bss LL) K20). decs. lra. }
  assert (M1 : Rabs m <= kap + 0.0172022 * Rabs (R64 dt) + 1.001e-4). { unfold m. apply Rle_trans with (1 := diff_le _ _ _ _ (diff_le _ _ _ _ (sum_le _ _ _ _ BM Bmm) Q2) K20). decs. lra. }
  assert (HE : Rabs (obliquity T - E) <= eps + 1e-13).
  { replace (obliquity T - E) with ((obliquity T - tilt T) + (tilt T - tilt (R64 t)) - (E - tilt (R64 t))) by ring.
    apply Rle_trans with (eps + 1 * 2e-14 + 1e-14); [|decs; lra]. apply diff_le; [apply sum_le|exact DE].
    - apply Rle_trans with (1 := tilt_le B T ltac:(lra) BT). exact EE.
    - replace (tilt T - tilt (R64 t)) with (46.836051 * PI / 648000 * (R64 t - T)) by (unfold tilt, arcsec; field). apply prod_le; [|exact Dt]. rewrite Rabs_pos_eq; revert PB; decs; lra. }
  assert (Z0 : Rabs 0 <= 1) by (rewrite Rabs_R0; lra). assert (Z1 : Rabs 1 <= 1) by (rewrite Rabs_R1; lra).
  rewrite ETH, EL.
  assert (G : forall b c, Rabs b <= 1 -> Rabs c <= 1 -> Rabs b + Rabs c = 1 -> Rabs (along 0 b c (l + d) (obliquity T) (th + m) - along 0 b c l E th) <= 3.249e-4 + 1.05 * kap + 3 * eps + 0.018 * Rabs (R64 dt)).
  { intros b c Hb Hc BC. pose proof (along_run 0 b c E l th d m _ Z0 Hb Hc BE Dk) as A1. pose proof (along_obl 0 b c E (obliquity T) (th + m) (l + d) Z0 Hb Hc) as A2. rewrite BC, Rabs_R0 in A1.
    replace (along 0 b c (l + d) (obliquity T) (th + m) - along 0 b c l E th) with ((along 0 b c (l + d) (obliquity T) (th + m) - along 0 b c (l + d) E (th + m)) + (along 0 b c (l + d) E (th + m) - along 0 b c l E th)) by ring.
    apply Rle_trans with (1 := sum_le _ _ _ _ A2 A1). pose proof (Rabs_pos (R64 dt)). pose proof (Rabs_pos mu). revert HE D1 M1. decs. lra. }
  pose proof (G 0 1 Z0 Z1 ltac:(rewrite Rabs_R0, Rabs_R1; lra)) as GW. pose proof (G 1 0 Z1 Z0 ltac:(rewrite Rabs_R0, Rabs_R1; lra)) as GM.
  unfold along in GW, GM. rewrite !Rmult_0_l, !Rmult_1_l, !Rplus_0_l in GW. rewrite !Rmult_0_l, !Rmult_1_l, !Rplus_0_l, !Rplus_0_r in GM. split.
  - replace (to_west (l + d) (obliquity T) (th + m)) with ((to_west (l + d) (obliquity T) (th + m) - to_west l E th) + to_west l E th) by ring. apply Rle_trans with (1 := sum_le _ _ _ _ GW W). decs. lra.
  - apply Rabs_le_inv in GM. revert GM M. decs. lra.
Qed.

(** C139 *)
Theorem C139_equation_of_time t : ok t -> Rabs (R64 t) <= 27.5 ->
  exists x l E, pty_zty2 fsin fcos ftan fasin fatan2 XL0 t = Some x /\ ok x /\ Rabs (R64 x) <= 0.0175 /\
    Rabs (l - (sun_of_date (R64 t) + arcsec 20.5)) <= 3.012e-4 /\ Rabs (E - tilt (R64 t)) <= 1e-14 /\
    Rabs (to_west l E (mean_sun (R64 t) - 2 * PI * R64 x)) <= 1e-9 /\ 0.899 <= to_meridian l E (mean_sun (R64 t) - 2 * PI * R64 x).
Proof. intros Ot Bt. destruct (pty_ok t Ot Bt) as (x & l & E & A & A1 & A2 & A3 & _ & A4 & A5). exists x, l, E. tauto. Qed.
Theorem C139_solar_time jd J : ok jd -> ok J -> Rabs (R64 J) <= 7 -> Rabs (R64 jd) <= 1000000 ->
  exists dt s, dt_T jd = Some dt /\ solar_time fsin fcos ftan fasin fatan2 XL0 jd J = Some s /\ ok s /\
    Rabs (R64 s - (R64 jd + R64 J / (2 * PI))) <= 0.0176 /\
    let th := local_time (R64 J) (R64 dt) (R64 jd) - 2 * PI * R64 s in
    0.89 <= at_sun to_meridian (R64 dt) (R64 jd) th /\
    Rabs (at_sun to_west (R64 dt) (R64 jd) th) <= 0.0024 + 0.018 * Rabs (R64 dt) /\
    (Rabs (R64 jd) <= 73050 -> Rabs (at_sun to_west (R64 dt) (R64 jd) th) <= 0.00035 + 0.018 * Rabs (R64 dt)).
Proof.
  intros Oj OJ BJ Bj.
  destruct (solar_ok jd J 27.39 1.3e-3 2.15e-4 Oj OJ BJ) as (dt & s & E1 & E2 & Os & Bd & D & X & Y); try assumption; try (cbn [pow]; decs; lra).
  exists dt, s. split; [exact E1|]. split; [exact E2|]. split; [exact Os|]. split; [exact D|]. cbv zeta. unfold at_sun. split; [|split].
  - revert Y Bd. decs. lra.
  - revert X. decs. lra.
  - intros Bn. destruct (solar_ok jd J 2.001 1.66e-5 1.2e-7 Oj OJ BJ) as (dt' & s' & E1' & E2' & _ & _ & _ & X' & _); try assumption; try (cbn [pow]; decs; lra).
    rewrite E1 in E1'. injection E1' as <-. rewrite E2 in E2'. injection E2' as <-. revert X'. decs. lra.
Qed.

(** the moment from which mingLiBaZi (BaziModel) takes the four pillars is this one *)
Theorem C139_bazi dtf sa ptf jd J dt s : dt_T jd = Some dt -> dtf jd = dt ->
  pty_zty2 fsin fcos ftan fasin fatan2 XL0 (fdiv (fadd jd dt) (fZ 36525)) = Some (ptf (fdiv (fadd jd dt) (fZ 36525))) ->
  solar_time fsin fcos ftan fasin fatan2 XL0 jd J = Some s ->
  BaziModel.mingLiBaZi dtf sa ptf jd J = (obind (BaziModel.jie_count (sa (fdiv (fadd jd dt) (fZ 36525)))) (fun k => BaziModel.bazi_at k s)).
Proof.
  intros E1 Ed E2 E3. unfold solar_time in E3. rewrite E1 in E3. cbn [obind] in E3. rewrite E2 in E3. cbn [obind] in E3. injection E3 as <-.
  unfold BaziModel.mingLiBaZi. rewrite Ed. cbv zeta. assert (P : FmtModel.M_PI = dpi) by (vm_compute; reflexivity). now rewrite P.
Qed.
End Lib.

(** the hypotheses can be met: those of the library and the tables by C101_example, with this moment and place *)
Example C139_example : exists fsin fcos ftan fasin fatan2 XL0 rest jd J, good_lib fsin sin /\ good_lib fcos cos /\ close_on ftan tan /\ close_on fasin asin /\ close_atan2 fatan2 /\
  nth_error XL0 0 = Some (memory (earth_table rest)) /\ List.length rest = 1518%nat /\ ok jd /\ ok J /\ R64 J = 2 /\ R64 jd = 10000 /\
  exists dt s, dt_T jd = Some dt /\ solar_time fsin fcos ftan fasin fatan2 XL0 jd J = Some s /\ ok s /\
    pty_zty2 fsin fcos ftan fasin fatan2 XL0 (fdiv (fadd jd dt) (fZ 36525)) <> None.
Proof.
  destruct C101_example as (fsin & fcos & ftan & fasin & facos & fatan2 & XL0 & rest & L & fa & jd & A1 & A2 & A3 & A4 & _ & A6 & A7 & A8 & OL & _ & Oj & EL & _ & Ej).
  exists fsin, fcos, ftan, fasin, fatan2, XL0, rest, jd, L. repeat (split; [assumption|]).
  destruct (C139_solar_time fsin fcos ftan fasin fatan2 A1 A2 A3 A4 A6 XL0 rest A7 A8 jd L Oj OL) as (dt & s & E1 & E2 & Os & _); [rewrite EL, Rabs_pos_eq; lra|rewrite Ej, Rabs_pos_eq; lra|].
  exists dt, s. split; [exact E1|]. split; [exact E2|]. split; [exact Os|]. unfold solar_time in E2. rewrite E1 in E2. cbn [obind] in E2. intros N. rewrite N in E2. discriminate E2.
Qed.
Print Assumptions C139_equation_of_time.
Print Assumptions C139_solar_time.
Print Assumptions C139_bazi.
