(** C101: sunrise, sunset, twilight and the transits of the Sun. *)
From Coq Require Import ZArith Reals Lia Lra Bool List Ascii String.
From Coq Require Import Floats.SpecFloat.
From Flocq Require Import Core IEEE754.BinarySingleNaN.
From Verif Require Import F64 F64R F64T F64E Str AngModel AngProps PiBound ErrExpr SmTab SerModel SerSpec FormModel FormSpec FormProps WaveF WaveR SmModel SmSpec SmLon SmProps SmSun SunProps IllProps DtModel DtSpec DtProps HighR.
From Verif Require GeoModel GeoProof F64B.
From Verif Require Import StModel StSpec StReal StProof StNoon StDay.
Import ListNotations.
Open Scope list_scope.
Open Scope R_scope.

Section Lib.
Variables fsin fcos ftan fasin facos : f64 -> f64.
Variable fatan2 : f64 -> f64 -> f64.
Hypothesis Gs : good_lib fsin sin.
Hypothesis Gc : good_lib fcos cos.
Hypothesis Gt : close_on ftan tan.
Hypothesis Ga : close_on fasin asin.
Hypothesis Gac : close_on facos acos.
Hypothesis G2 : close_atan2 fatan2.
Variables (XL0 : list (list f64)) (rest : list f64).
Hypothesis H0 : nth_error XL0 0 = Some (memory (earth_table rest)).
Hypothesis HR : List.length rest = 1518%nat.

(** the state of the object while a moment is refined *)
Definition station (L fa E dt : f64) : Prop :=
  ok L /\ ok fa /\ ok E /\ ok dt /\ Rabs (R64 L) <= 7 /\ Rabs (R64 fa) <= 1.57 /\ Rabs (R64 E) <= 0.416 /\ Rabs (R64 dt) <= 4.
Lemma Hxm_ok L fa E dt xm de : station L fa E dt -> ok de -> 0.9 <= cos (R64 de) ->
  let H1 := Hxm fsin fcos facos fa xm de in let N := sin (R64 (depth xm)) - sin (R64 fa) * sin (R64 de) in let D := cos (R64 fa) * cos (R64 de) in
  ok H1 /\ -1e-15 <= R64 H1 <= PI + 1e-15 /\ (feqb H1 dpi = false -> Rabs (D * cos (R64 H1) - N) <= 1e-11) /\ (feqb H1 dpi = true -> D <= Rabs N + 1e-11).
Proof. intros (_ & Of & _ & _ & _ & Bf & _) Od Bd. destruct (depth_near fsin fcos Gs Gc xm) as [Oh _]. exact (getH_ok fsin fcos facos Gs Gc Gac fa (depth xm) de Of Oh Od Bf Bd). Qed.
Lemma H_abs H : - R64 dpi < R64 H <= R64 dpi -> Rabs (R64 H) <= 3.15.
Proof. intros B. pose proof dpi_pi as DP. pose proof PI_bounds as PB. apply Rabs_le_inv in DP. apply Rabs_le. revert DP PB. decs. lra. Qed.
Definition sgn (up : bool) (H1 : f64) : f64 := if up then fopp H1 else H1.
Lemma sgn_ok up H1 : ok H1 -> ok (sgn up H1) /\ R64 (sgn up H1) = (if up then - R64 H1 else R64 H1).
Proof. intros O. destruct up; cbn [sgn]; [now apply fopp_ok|now split]. Qed.
Lemma sgn_abs up H1 : -1e-15 <= R64 H1 <= PI + 1e-15 -> ok H1 -> Rabs (R64 (sgn up H1)) <= 3.15.
Proof. intros B O. destruct (sgn_ok up H1 O) as [_ ->]. pose proof PI_bounds as PB. apply Rabs_le. revert B PB. destruct up; decs; lra. Qed.
Lemma sgn_sin x : -1e-15 <= x <= PI + 1e-15 -> - 2e-15 <= sin x.
Proof.
  intros B. revert B. decs. intros B. pose proof PI_bounds as PB. revert PB. decs. intros PB.
  destruct (Rle_dec 0 x) as [P|P]; [destruct (Rle_dec x PI) as [Q|Q]|].
  - pose proof (sin_ge_0 x P Q). lra.
  - pose proof (sin_lip x PI) as X. rewrite sin_PI in X. rewrite (Rabs_pos_eq (x - PI)) in X by lra. apply Rabs_le_inv in X. lra.
  - pose proof (sin_abs x) as X. rewrite (Rabs_left x) in X by lra. apply Rabs_le_inv in X. lra.
Qed.
Lemma below_near xm : Rabs (sin (R64 (depth xm)) - sin (below xm)) <= 1e-15.
Proof. destruct (depth_near fsin fcos Gs Gc xm) as [_ D]. apply Rle_trans with (1 := sin_lip _ _). exact D. Qed.
Lemma refine_ok L fa E dt up xm s0 : station L fa E dt -> ok s0 -> Rabs (R64 s0) <= 1000008 ->
  (forall s1, Rabs (s1 - R64 s0) <= 1 -> Rabs (obliquity ((s1 + R64 dt) / 36525) - R64 E) <= 1e-7) ->
  exists s1 flag, refine fsin fcos ftan fasin facos fatan2 XL0 L fa E dt up xm s0 = Some (s1, flag) /\ ok s1 /\ Rabs (R64 s1 - R64 s0) <= 0.51 /\
    if flag then stays (below xm) (R64 fa) (R64 dt) (R64 s0) else passes up (below xm) (R64 L) (R64 fa) (R64 dt) (Rabs (R64 s1 - R64 s0)) (R64 s1).
Proof.
  intros ST O0 B0 HE. assert (ST' := ST). destruct ST' as (OL & Of & OE & Od & BL & Bf & BE & Bd).
  destruct (Scoord_ok fsin fcos ftan fasin fatan2 Gs Gc Gt Ga G2 XL0 rest H0 HR L E dt s0 OL OE Od O0 ltac:(lra) BE Bd ltac:(lra)) as (H & de & l & ES & OH & Ode & BH & Cde & DL & S1 & S2 & S3).
  unfold refine. rewrite ES. cbn [obind]. destruct (Hxm_ok L fa E dt xm de ST Ode Cde) as (O1 & B1 & F1 & T1). set (H1 := Hxm fsin fcos facos fa xm de) in *. clearbody H1.
  fold (sgn up H1). destruct (sgn_ok up H1 O1) as [Ot Et]. pose proof (sgn_abs up H1 B1 O1) as Bt. set (t := sgn up H1) in *. clearbody t.
  destruct (step_rr fsin fcos Gs Gc t H s0 Ot OH O0 Bt (H_abs H BH) B0) as (Os1 & Ds1 & k & TU). set (s1 := fadd s0 (fdiv (rad2rrad_d (fsub t H)) pi2)) in *. clearbody s1.
  exists s1, (feqb H1 dpi). split; [reflexivity|]. split; [exact Os1|]. split; [exact Ds1|]. pose proof (below_near xm) as BN.
  assert (NU : sin (R64 fa) * sin (R64 fa) + cos (R64 fa) * cos (R64 fa) + 0 * 0 = 1) by (pose proof (sin2_cos2 (R64 fa)) as Q; unfold Rsqr in Q; lra).
  destruct (feqb H1 dpi) eqn:FL.
  - (* the Sun stays above or below *)
    specialize (T1 eq_refl). clear F1. unfold stays, at_sun. set (T0 := (R64 s0 + R64 dt) / 36525) in *.
    set (f := R64 fa) in *. set (c := cos (R64 de)) in *. set (d := sin (R64 de)) in *. set (N := sin (R64 (depth xm)) - sin f * d) in *.
    pose proof (cos_fa f Bf) as CF. assert (K0 : 0 <= cos f * c) by (apply Rmult_le_pos; revert CF Cde; decs; lra).
    assert (ALT : forall th, exists u, Rabs u <= 1 /\ Rabs (sin f * to_pole (sun_of_date T0) (obliquity T0) + cos f * to_meridian (sun_of_date T0) (obliquity T0) th - (sin f * d + cos f * c * u)) <= 3.02e-4).
    { intros th. set (x := th - local_time (R64 L) (R64 dt) (R64 s0)). exists (cos (R64 H + x)). split; [apply one_cos|].
      assert (HE0 := HE (R64 s0) ltac:(rewrite Rminus_diag_eq, Rabs_R0 by reflexivity; lra)). fold T0 in HE0.
      pose proof (along_obl (sin f) (cos f) 0 (R64 E) (obliquity T0) th (sun_of_date T0) (one_sin f) (one_cos f) ltac:(rewrite Rabs_R0; lra)) as X1.
      pose proof (along_lon (sin f) (cos f) 0 (R64 E) th l (sun_of_date T0) NU) as X2. rewrite Rabs_minus_sym in DL.
      assert (X3 : Rabs (along (sin f) (cos f) 0 l (R64 E) th - (sin f * d + cos f * c * cos (R64 H + x))) <= 2e-7).
      { unfold along. rewrite Rmult_0_l, Rplus_0_r. replace th with (local_time (R64 L) (R64 dt) (R64 s0) + x) by (unfold x; ring). rewrite turn_meridian, cos_plus.
        set (M := to_meridian l (R64 E) _) in *. set (W := to_west l (R64 E) _) in *.
        match goal with |- Rabs ?z <= _ => replace z with (- (cos f * ((c * cos (R64 H) - M) * cos x - (c * sin (R64 H) - W) * sin x)) - sin f * (d - to_pole l (R64 E))) by ring end.
        apply Rle_trans with (1 * (5.6e-8 * 1 + 5.6e-8 * 1) + 1 * 1e-14); [|decs; lra]. pose proof (one_cos x). pose proof (one_sin x).
        apply diff_le; [rewrite Rabs_Ropp|]; apply prod_le; try apply one_cos; try apply one_sin; try assumption. apply diff_le; apply prod_le; assumption. }
      match goal with |- Rabs ?z <= _ => replace z with ((along (sin f) (cos f) 0 (sun_of_date T0) (obliquity T0) th - along (sin f) (cos f) 0 (sun_of_date T0) (R64 E) th) +
        (along (sin f) (cos f) 0 (sun_of_date T0) (R64 E) th - along (sin f) (cos f) 0 l (R64 E) th) + (along (sin f) (cos f) 0 l (R64 E) th - (sin f * d + cos f * c * cos (R64 H + x)))) by (unfold along; ring) end.
      apply Rle_trans with (1 := sum_le _ _ _ _ (sum_le _ _ _ _ X1 X2) X3). revert DL HE0. decs. lra. }
    assert (U : forall u, Rabs u <= 1 -> - (cos f * c) <= cos f * c * u <= cos f * c). { intros u Hu. apply Rabs_le_inv in Hu. split; nra. }
    apply Rabs_le_inv in BN. revert T1. destruct (Rle_dec 0 N) as [P|P].
    + rewrite (Rabs_pos_eq N) by exact P. intros T1. left. intros th. destruct (ALT th) as (u & Hu & DU). specialize (U u Hu). apply Rabs_le_inv in DU. unfold N in T1. revert BN T1 DU. decs. lra.
    + rewrite (Rabs_left N) by lra. intros T1. right. intros th. destruct (ALT th) as (u & Hu & DU). specialize (U u Hu). apply Rabs_le_inv in DU. unfold N in T1. revert BN T1 DU. decs. lra.
  - (* the altitude is reached *)
    specialize (F1 eq_refl). clear T1. assert (B1s : Rabs (R64 s1) <= 1000010). { replace (R64 s1) with (R64 s0 + (R64 s1 - R64 s0)) by ring. apply Rle_trans with (1 := sum_le _ _ _ _ B0 Ds1). decs. lra. }
    assert (HE1 := HE (R64 s1) ltac:(revert Ds1; decs; lra)).
    pose proof (moved (sin (R64 fa)) (cos (R64 fa)) 0 (R64 L) (R64 E) (R64 dt) (R64 s0) (R64 s1) (R64 H) (R64 de) l (R64 t) k NU BE Bd ltac:(lra) B1s DL HE1 S1 S2 S3 TU) as M1.
    pose proof (moved 0 0 1 (R64 L) (R64 E) (R64 dt) (R64 s0) (R64 s1) (R64 H) (R64 de) l (R64 t) k ltac:(lra) BE Bd ltac:(lra) B1s DL HE1 S1 S2 S3 TU) as M2.
    rewrite Rabs_R0, Rabs_R1 in M2. rewrite Rabs_R0 in M1. set (D := Rabs (R64 s1 - R64 s0)) in *. assert (D0 : 0 <= D) by apply Rabs_pos.
    assert (CT : cos (R64 t) = cos (R64 H1)) by (rewrite Et; destruct up; [apply cos_neg|reflexivity]).
    split.
    + unfold sin_altitude. rewrite CT in M1. unfold at_sun in *. set (T1 := (R64 s1 + R64 dt) / 36525) in *.
      match goal with |- Rabs ?z <= _ => replace z with ((along (sin (R64 fa)) (cos (R64 fa)) 0 (sun_of_date T1) (obliquity T1) (local_time (R64 L) (R64 dt) (R64 s1)) - (sin (R64 fa) * sin (R64 de) + cos (R64 de) * (cos (R64 fa) * cos (R64 H1) + 0 * sin (R64 t)))) +
        (cos (R64 fa) * cos (R64 de) * cos (R64 H1) - (sin (R64 (depth xm)) - sin (R64 fa) * sin (R64 de))) + (sin (R64 (depth xm)) - sin (below xm))) by (unfold along; ring) end.
      apply Rle_trans with (1 := sum_le _ _ _ _ (sum_le _ _ _ _ M1 F1) BN).
      assert (Y : (0.00747 * Rabs (sin (R64 fa)) + 0.002252 * (Rabs (cos (R64 fa)) + 0)) * D <= 0.0098 * D). { apply Rmult_le_compat_r; [exact D0|]. pose proof (one_sin (R64 fa)). pose proof (one_cos (R64 fa)). decs. lra. }
      revert Y. decs. lra.
    + unfold west. unfold at_sun in *. set (T1 := (R64 s1 + R64 dt) / 36525) in *. set (W := to_west (sun_of_date T1) (obliquity T1) (local_time (R64 L) (R64 dt) (R64 s1))) in *.
      replace (along 0 0 1 (sun_of_date T1) (obliquity T1) (local_time (R64 L) (R64 dt) (R64 s1))) with W in M2 by (unfold along, W; ring).
      replace (0 * sin (R64 de) + cos (R64 de) * (0 * cos (R64 t) + 1 * sin (R64 t))) with (cos (R64 de) * sin (R64 t)) in M2 by ring.
      pose proof (sgn_sin (R64 H1) B1) as SS. pose proof (COS_bound (R64 de)) as CB. apply Rabs_le_inv in M2.
      assert (SD : - 2e-15 <= cos (R64 de) * sin (R64 H1)). { revert SS CB Cde. decs. intros SS CB Cde. set (x := sin (R64 H1)) in *. set (c := cos (R64 de)) in *. clearbody x c. destruct (Rle_dec 0 x) as [P|P]; nra. }
      rewrite Et in M2. destruct up.
      * rewrite sin_neg in M2. revert M2 SD. decs. lra.
      * revert M2 SD. decs. lra.
Qed.

(** what Scoord returns for the moment s *)
Definition coord (L E dt s : f64) (H de : f64) (l : R) : Prop :=
  Scoord fsin fcos ftan fasin fatan2 XL0 L E dt s = Some (H, de) /\ ok H /\ ok de /\ - R64 dpi < R64 H <= R64 dpi /\ 0.9 <= cos (R64 de) /\
    Rabs (l - sun_of_date ((R64 s + R64 dt) / 36525)) <= 3.012e-4 /\
    Rabs (sin (R64 de) - to_pole l (R64 E)) <= 1e-14 /\
    Rabs (cos (R64 de) * cos (R64 H) - to_meridian l (R64 E) (local_time (R64 L) (R64 dt) (R64 s))) <= 5.6e-8 /\
    Rabs (cos (R64 de) * sin (R64 H) - to_west l (R64 E) (local_time (R64 L) (R64 dt) (R64 s))) <= 5.6e-8.
Lemma coord_ex L fa E dt s : station L fa E dt -> ok s -> Rabs (R64 s) <= 1000010 -> exists H de l, coord L E dt s H de l.
Proof. intros (OL & Of & OE & Od & BL & Bf & BE & Bd) Os Bs. exact (Scoord_ok fsin fcos ftan fasin fatan2 Gs Gc Gt Ga G2 XL0 rest H0 HR L E dt s OL OE Od Os ltac:(lra) BE Bd Bs). Qed.
(** coordinates found at sa carried on to sb *)
Lemma follow L fa E dt sa sb Ha da la Hb db lb tau (k : Z) : station L fa E dt -> Rabs (R64 sa) <= 1000010 -> Rabs (R64 sb) <= 1000010 ->
  coord L E dt sa Ha da la -> coord L E dt sb Hb db lb -> Rabs (obliquity ((R64 sb + R64 dt) / 36525) - R64 E) <= 1e-7 ->
  Rabs (R64 Ha + 2 * PI * (R64 sb - R64 sa) - (tau + IZR k * (2 * PI))) <= 2e-9 ->
  let D := Rabs (R64 sb - R64 sa) in
  Rabs (cos (R64 db) * cos (R64 Hb) - cos (R64 da) * cos tau) <= 0.002252 * D + 6.04e-4 /\
  Rabs (cos (R64 db) * sin (R64 Hb) - cos (R64 da) * sin tau) <= 0.002252 * D + 6.04e-4 /\
  Rabs (sin (R64 db) - sin (R64 da)) <= 0.00747 * D + 6.04e-4.
Proof.
  intros (OL & Of & OE & Od & BL & Bf & BE & Bd) Ba Bb (_ & _ & _ & _ & Ca & La & A1 & A2 & A3) (_ & _ & _ & _ & Cb & Lb & B1 & B2 & B3) HE TU D.
  set (Tb := (R64 sb + R64 dt) / 36525) in *. set (th := local_time (R64 L) (R64 dt) (R64 sb)) in *.
  assert (G : forall a b c x y, a * a + b * b + c * c = 1 -> Rabs a <= 1 -> Rabs b <= 1 -> Rabs c <= 1 -> Rabs (x - along a b c lb (R64 E) th) <= 5.6e-8 -> a * sin (R64 da) + cos (R64 da) * (b * cos tau + c * sin tau) = y ->
    Rabs (x - y) <= (0.00747 * Rabs a + 0.002252 * (Rabs b + Rabs c)) * D + 6.04e-4).
  { intros a b c x y N Na Nb Nc X EY. pose proof (moved a b c (R64 L) (R64 E) (R64 dt) (R64 sa) (R64 sb) (R64 Ha) (R64 da) la tau k N BE Bd Ba Bb La HE A1 A2 A3 TU) as M. rewrite EY in M. unfold at_sun in M. fold Tb th D in M.
    pose proof (along_lon a b c (R64 E) th (sun_of_date Tb) lb N) as X1. pose proof (along_obl a b c (obliquity Tb) (R64 E) th (sun_of_date Tb) Na Nb Nc) as X2.
    replace (x - y) with ((x - along a b c lb (R64 E) th) + (along a b c lb (R64 E) th - along a b c (sun_of_date Tb) (R64 E) th) + (along a b c (sun_of_date Tb) (R64 E) th - along a b c (sun_of_date Tb) (obliquity Tb) th) + (along a b c (sun_of_date Tb) (obliquity Tb) th - y)) by ring.
    rewrite Rabs_minus_sym in HE. apply Rle_trans with (1 := sum_le _ _ _ _ (sum_le _ _ _ _ (sum_le _ _ _ _ X X1) X2) M). revert HE Lb. decs. lra. }
  assert (Z0 : Rabs 0 <= 1) by (rewrite Rabs_R0; lra). assert (Z1 : Rabs 1 <= 1) by (rewrite Rabs_R1; lra).
  split; [|split].
  - refine (Rle_trans _ _ _ (G 0 1 0 _ _ ltac:(lra) Z0 Z1 Z0 _ _) _); [|ring|rewrite Rabs_R0, Rabs_R1; decs; lra].
    replace (along 0 1 0 lb (R64 E) th) with (to_meridian lb (R64 E) th) by (unfold along; ring). exact B2.
  - refine (Rle_trans _ _ _ (G 0 0 1 _ _ ltac:(lra) Z0 Z0 Z1 _ _) _); [|ring|rewrite Rabs_R0, Rabs_R1; decs; lra].
    replace (along 0 0 1 lb (R64 E) th) with (to_west lb (R64 E) th) by (unfold along; ring). exact B3.
  - refine (Rle_trans _ _ _ (G 1 0 0 _ _ ltac:(lra) Z1 Z0 Z0 _ _) _); [|ring|rewrite Rabs_R0, Rabs_R1; decs; lra].
    replace (along 1 0 0 lb (R64 E) th) with (to_pole lb (R64 E)) by (unfold along; ring). apply Rle_trans with (1 := B1). decs. lra.
Qed.
Lemma cosE e : Rabs e <= 0.416 -> 1 - 0.0866 <= cos e <= 1.
Proof.
  intros E. split; [|apply COS_bound]. pose proof (cos_lb e) as X. pose proof (prod_le _ _ _ _ E E) as Y. apply Rabs_le_inv in Y. revert X Y. decs. lra.
Qed.
(** near local noon the hour angle is small *)
Lemma noon_H L fa E dt j H de l (n : Z) : station L fa E dt -> coord L E dt j H de l -> Rabs (R64 j) <= 1000002 -> Rabs (R64 dt) <= 0.348 -> Rabs (R64 j + R64 L / (2 * PI) - IZR n) <= 1e-8 -> Rabs (R64 H) <= 0.12.
Proof.
  intros (OL & Of & OE & Od & BL & Bf & BE & Bd) (_ & OH & Ode & BH & Cde & DL & S1 & S2 & S3) Bj Bd' HN.
  pose proof (noon_angle _ _ _ _ Bj Bd' HN) as NA. set (th := local_time (R64 L) (R64 dt) (R64 j)) in *. set (T := (R64 j + R64 dt) / 36525) in *.
  set (eta := th - l - IZR n * (2 * PI)). assert (BE' : Rabs eta <= 0.0604).
  { replace eta with ((th - sun_of_date T - IZR n * (2 * PI)) - (l - sun_of_date T)) by (unfold eta; ring). apply Rle_trans with (1 := diff_le _ _ _ _ NA DL). decs. lra. }
  destruct (cosE _ BE) as [CE1 CE2]. set (p := (1 + cos (R64 E)) / 2). set (q := (1 - cos (R64 E)) / 2).
  assert (TH : th - l = eta + IZR n * (2 * PI)) by (unfold eta; ring).
  assert (M : to_meridian l (R64 E) th = p * cos eta + q * cos (th + l)). { rewrite <- (turn_cos eta n), <- TH. unfold to_meridian, p, q; rewrite cos_minus, cos_plus; field. }
  assert (W : to_west l (R64 E) th = p * sin eta + q * sin (th + l)). { rewrite <- (turn_sin eta n), <- TH. unfold to_west, p, q; rewrite sin_minus, sin_plus; field. }
  assert (P0 : 0.9567 <= p <= 1) by (unfold p; revert CE1; decs; lra). assert (Q0 : Rabs q <= 0.0433) by (apply Rabs_le; unfold q; revert CE1; decs; lra).
  assert (BW : Rabs (to_west l (R64 E) th) <= 0.1038).
  { rewrite W. apply Rle_trans with (1 * 0.0604 + 0.0433 * 1); [|decs; lra]. apply sum_le; apply prod_le; try assumption; [apply Rabs_le; revert P0; decs; lra|pose proof (sin_abs eta); lra|apply one_sin]. }
  assert (CM : 0.9 <= to_meridian l (R64 E) th).
  { rewrite M. pose proof (cos_lb eta) as X. pose proof (prod_le _ _ _ _ BE' BE') as Y. apply Rabs_le_inv in Y. pose proof (prod_le _ _ _ _ Q0 (one_cos (th + l))) as Z. apply Rabs_le_inv in Z.
    assert (0.955 * 0.998 <= p * cos eta) by (apply Rmult_le_compat; revert P0 X Y; decs; lra). revert H1 Z. decs. lra. }
  apply (angle_small _ 0.12 0.1154).
  - pose proof (H_abs H BH) as X. revert X. decs. lra.
  - assert (0 < cos (R64 de) * cos (R64 H)) by (apply Rabs_le_inv in S2; revert S2 CM; decs; lra). revert Cde. decs. intros Cde. destruct (Rle_dec (cos (R64 H)) 0) as [C|C]; [nra|lra].
  - assert (X : Rabs (cos (R64 de) * sin (R64 H)) <= 0.10381). { replace (cos (R64 de) * sin (R64 H)) with ((cos (R64 de) * sin (R64 H) - to_west l (R64 E) th) + to_west l (R64 E) th) by ring. apply Rle_trans with (1 := sum_le _ _ _ _ S3 BW). decs. lra. }
    rewrite Rabs_mult, (Rabs_pos_eq (cos _)) in X by (revert Cde; decs; lra). pose proof (Rabs_pos (sin (R64 H))) as Y.
    assert (Z : 0.9 * Rabs (sin (R64 H)) <= cos (R64 de) * Rabs (sin (R64 H))) by (apply Rmult_le_compat_r; assumption). revert X Z. decs. lra.
  - decs. lra.
  - decs. lra.
Qed.

(** what is known of the local noon j from which the moments of a day are found *)
Definition noon (L fa E dt jd j : f64) (n : Z) : Prop :=
  station L fa E dt /\ ok j /\ Rabs (R64 jd) <= 1000000 /\ Rabs (R64 j - R64 jd) <= 0.501 /\ Rabs (R64 dt) <= 0.348 /\ Rabs (R64 j + R64 L / (2 * PI) - IZR n) <= 1e-8 /\
  forall s, Rabs (s - R64 jd) <= 4 -> Rabs (obliquity ((s + R64 dt) / 36525) - R64 E) <= 1e-7.
Lemma noon_abs jd j s d : Rabs jd <= 1000000 -> Rabs (j - jd) <= 0.501 -> Rabs (s - j) <= d -> d <= 3 -> Rabs s <= 1000004 /\ Rabs (s - jd) <= 4.
Proof. intros A B C D. apply Rabs_le_inv in A. apply Rabs_le_inv in B. apply Rabs_le_inv in C. split; apply Rabs_le; revert B; decs; lra. Qed.
Lemma guess_ok L fa E dt jd j n up xm H de l : noon L fa E dt jd j n -> coord L E dt j H de l ->
  let s0 := first_guess fsin fcos facos fa up xm H de j in
  ok s0 /\ Rabs (R64 s0) <= 1000004 /\ Rabs (R64 s0 - R64 jd) <= 1.03 /\ Rabs (R64 s0 + R64 L / (2 * PI) - (if up then IZR n - / 4 else IZR n + / 4)) <= 0.27 /\
  Rabs (R64 s0 - R64 j) <= 0.52 /\ Rabs (R64 H + 2 * PI * (R64 s0 - R64 j) - R64 (sgn up (Hxm fsin fcos facos fa xm de))) <= 1.9e-9.
Proof.
  intros (ST & Oj & Bjd & Bj & Bd & NN & HE) C s0. assert (C' := C). destruct C' as (_ & OH & Ode & BH & Cde & _).
  destruct (noon_abs _ _ _ 0 Bjd Bj ltac:(rewrite Rminus_diag_eq, Rabs_R0 by reflexivity; lra) ltac:(lra)) as [Aj _].
  assert (HH : Rabs (R64 H) <= 0.12). { apply (noon_H L fa E dt j H de l n ST C); try assumption. apply Rabs_le_inv in Bjd. apply Rabs_le_inv in Bj. apply Rabs_le. revert Bj. decs. lra. }
  destruct (Hxm_ok L fa E dt xm de ST Ode Cde) as (O1 & B1 & _ & _). unfold s0, first_guess. set (H1 := Hxm fsin fcos facos fa xm de) in *. clearbody H1. fold (sgn up H1).
  destruct (sgn_ok up H1 O1) as [Ot Et]. pose proof (sgn_abs up H1 B1 O1) as Bt. set (t := sgn up H1) in *. clearbody t.
  destruct (step_plain fsin fcos Gs Gc t H j Ot OH Oj Bt (H_abs H BH) ltac:(lra)) as (Os & _ & TU). set (s := fadd j (fdiv (fsub t H) pi2)) in *. clearbody s s0.
  pose proof PI_bounds as PB. revert PB. decs. intros PB. set (D := R64 s - R64 j) in *. assert (TU' := TU). revert TU' HH B1 NN Bj. decs. intros TU' HH B1 NN Bj. apply Rabs_le_inv in TU'. apply Rabs_le_inv in HH. apply Rabs_le_inv in NN. apply Rabs_le_inv in Bj. apply Rabs_le_inv in Bjd.
  assert (W : if up then -5195 / 10000 <= D <= 192 / 10000 else -192 / 10000 <= D <= 5195 / 10000). { rewrite Et in TU'. destruct up; split; nra. }
  assert (ED : R64 s = R64 j + D) by (unfold D; ring). split; [exact Os|]. split; [apply Rabs_le; destruct up; lra|]. split; [apply Rabs_le; destruct up; lra|]. split; [apply Rabs_le; destruct up; lra|]. split; [apply Rabs_le; destruct up; lra|]. revert TU. decs. now intros TU.
Qed.
Lemma event_ok L fa E dt jd j n up xm H de l : noon L fa E dt jd j n -> coord L E dt j H de l ->
  exists s f, refine fsin fcos ftan fasin facos fatan2 XL0 L fa E dt up xm (first_guess fsin fcos facos fa up xm H de j) = Some (s, f) /\ ok s /\
    event up (below xm) (R64 L) (R64 fa) (R64 dt) n (R64 s) f.
Proof.
  intros N C. destruct (guess_ok L fa E dt jd j n up xm H de l N C) as (Os & Bs & Bj & W & _). destruct N as (ST & _ & _ & _ & _ & _ & HE). set (s0 := first_guess _ _ _ _ _ _ _ _ _) in *. clearbody s0.
  destruct (refine_ok L fa E dt up xm s0 ST Os ltac:(lra)) as (s1 & f & ER & O1 & D1 & P).
  { intros s Hs. apply HE. replace (s - R64 jd) with ((s - R64 s0) + (R64 s0 - R64 jd)) by ring. apply Rle_trans with (1 := sum_le _ _ _ _ Hs Bj). decs. lra. }
  exists s1, f. split; [exact ER|]. split; [exact O1|]. exists (R64 s0). split; [exact W|]. split; [exact D1|exact P].
Qed.
(** the sides of the triangle at a moment reached with the hour angle tau *)
Lemma reached L fa E dt sa sb H de l tau (k : Z) : station L fa E dt -> Rabs (R64 sa) <= 1000010 -> Rabs (R64 sb) <= 1000010 -> coord L E dt sa H de l ->
  Rabs (obliquity ((R64 sb + R64 dt) / 36525) - R64 E) <= 1e-7 -> Rabs (R64 H + 2 * PI * (R64 sb - R64 sa) - (tau + IZR k * (2 * PI))) <= 2e-9 ->
  let D := Rabs (R64 sb - R64 sa) in
  Rabs (meridian (R64 L) (R64 dt) (R64 sb) - cos (R64 de) * cos tau) <= 0.002252 * D + 3.02e-4 /\
  Rabs (west (R64 L) (R64 dt) (R64 sb) - cos (R64 de) * sin tau) <= 0.002252 * D + 3.02e-4.
Proof.
  intros (OL & Of & OE & Od & BL & Bf & BE & Bd) Ba Bb (_ & _ & _ & _ & Ca & La & A1 & A2 & A3) HE TU D.
  pose proof (moved 0 1 0 (R64 L) (R64 E) (R64 dt) (R64 sa) (R64 sb) (R64 H) (R64 de) l tau k ltac:(lra) BE Bd Ba Bb La HE A1 A2 A3 TU) as M1.
  pose proof (moved 0 0 1 (R64 L) (R64 E) (R64 dt) (R64 sa) (R64 sb) (R64 H) (R64 de) l tau k ltac:(lra) BE Bd Ba Bb La HE A1 A2 A3 TU) as M2.
  rewrite Rabs_R0, Rabs_R1 in M1, M2. fold D in M1, M2. unfold at_sun in M1, M2. unfold meridian, west, at_sun.
  set (T := (R64 sb + R64 dt) / 36525) in *. set (th := local_time (R64 L) (R64 dt) (R64 sb)) in *. split.
  - replace (to_meridian (sun_of_date T) (obliquity T) th) with (along 0 1 0 (sun_of_date T) (obliquity T) th) by (unfold along; ring).
    replace (cos (R64 de) * cos tau) with (0 * sin (R64 de) + cos (R64 de) * (1 * cos tau + 0 * sin tau)) by ring. apply Rle_trans with (1 := M1). decs. lra.
  - replace (to_west (sun_of_date T) (obliquity T) th) with (along 0 0 1 (sun_of_date T) (obliquity T) th) by (unfold along; ring).
    replace (cos (R64 de) * sin tau) with (0 * sin (R64 de) + cos (R64 de) * (0 * cos tau + 1 * sin tau)) by ring. apply Rle_trans with (1 := M2). decs. lra.
Qed.
Lemma upper_ok L fa E dt jd j n H de l : noon L fa E dt jd j n -> coord L E dt j H de l ->
  let z0 := fadd j (fdiv (fsub (fZ 0) H) pi2) in
  exists Hz dz, Scoord fsin fcos ftan fasin fatan2 XL0 L E dt z0 = Some (Hz, dz) /\
    let z := fadd z0 (fdiv (fsub (fZ 0) Hz) pi2) in ok z /\ on_meridian true (R64 L) (R64 dt) n (R64 z).
Proof.
  intros (ST & Oj & Bjd & Bj & Bd & NN & HE) C z0. assert (C' := C). destruct C' as (_ & OH & Ode & BH & Cde & _).
  destruct (noon_abs _ _ _ 0 Bjd Bj ltac:(rewrite Rminus_diag_eq, Rabs_R0 by reflexivity; lra) ltac:(lra)) as [Aj _].
  assert (HH : Rabs (R64 H) <= 0.12). { apply (noon_H L fa E dt j H de l n ST C); try assumption. apply Rabs_le_inv in Bjd. apply Rabs_le_inv in Bj. apply Rabs_le. revert Bj. decs. lra. }
  destruct (fZ_ok 0 ltac:(lia)) as [O0 E0]. assert (B0 : Rabs (R64 (fZ 0)) <= 3.15) by (rewrite E0, Rabs_R0; decs; lra).
  destruct (step_plain fsin fcos Gs Gc (fZ 0) H j O0 OH Oj B0 (H_abs H BH) ltac:(lra)) as (Oz0 & _ & TU). fold z0 in Oz0, TU. clearbody z0. rewrite E0 in TU.
  pose proof PI_bounds as PB. assert (D0 : Rabs (R64 z0 - R64 j) <= 0.0192).
  { set (D := R64 z0 - R64 j) in *. revert TU HH PB. decs. intros TU HH PB. apply Rabs_le_inv in TU. apply Rabs_le_inv in HH. apply Rabs_le; split; nra. }
  destruct (noon_abs _ _ _ _ Bjd Bj D0 ltac:(decs; lra)) as [Az0 Rz0].
  destruct (coord_ex L fa E dt z0 ST Oz0 ltac:(lra)) as (Hz & dz & lz & Cz). exists Hz, dz. split; [exact (proj1 Cz)|].
  destruct (follow L fa E dt j z0 H de l Hz dz lz 0 0 ST ltac:(lra) ltac:(lra) C Cz (HE _ Rz0)) as (F1 & F2 & _).
  { replace (0 + IZR 0 * (2 * PI)) with 0 by (cbn; ring). revert TU. decs. lra. }
  rewrite cos_0 in F1. rewrite sin_0 in F2. assert (Cz' := Cz). destruct Cz' as (_ & OHz & _ & BHz & Cdz & _).
  assert (SZ : Rabs (R64 Hz) <= 0.0008).
  { set (D := Rabs (R64 z0 - R64 j)) in *. pose proof (COS_bound (R64 dz)) as CB. apply (angle_small _ 0.0008 0.00073).
    - pose proof (H_abs Hz BHz) as X. revert X. decs. lra.
    - assert (X : 0 < cos (R64 dz) * cos (R64 Hz)) by (apply Rabs_le_inv in F1; revert F1 D0 Cde; decs; lra). revert Cdz. decs. intros Cdz. destruct (Rle_dec (cos (R64 Hz)) 0) as [Q|Q]; [nra|lra].
    - rewrite Rmult_0_r, Rminus_0_r, Rabs_mult, (Rabs_pos_eq (cos _)) in F2 by (revert Cdz; decs; lra). pose proof (Rabs_pos (sin (R64 Hz))) as Y.
      assert (Z : 0.9 * Rabs (sin (R64 Hz)) <= cos (R64 dz) * Rabs (sin (R64 Hz))) by (apply Rmult_le_compat_r; assumption). revert F2 Z D0. decs. lra.
    - decs. lra.
    - decs. lra. }
  intros z. destruct (step_plain fsin fcos Gs Gc (fZ 0) Hz z0 O0 OHz Oz0 B0 (H_abs Hz BHz) ltac:(lra)) as (Oz & _ & TZ). fold z in Oz, TZ. clearbody z. rewrite E0 in TZ. split; [exact Oz|].
  assert (D1 : Rabs (R64 z - R64 z0) <= 0.0002).
  { set (D := R64 z - R64 z0) in *. revert TZ SZ PB. decs. intros TZ SZ PB. apply Rabs_le_inv in TZ. apply Rabs_le_inv in SZ. apply Rabs_le; split; nra. }
  assert (DZ : Rabs (R64 z - R64 j) <= 0.0194). { replace (R64 z - R64 j) with ((R64 z - R64 z0) + (R64 z0 - R64 j)) by ring. apply Rle_trans with (1 := sum_le _ _ _ _ D1 D0). decs. lra. }
  destruct (noon_abs _ _ _ _ Bjd Bj DZ ltac:(decs; lra)) as [Az Rz].
  destruct (reached L fa E dt z0 z Hz dz lz 0 0 ST ltac:(lra) ltac:(lra) Cz (HE _ Rz)) as [R1 R2].
  { replace (0 + IZR 0 * (2 * PI)) with 0 by (cbn; ring). revert TZ. decs. lra. }
  rewrite cos_0 in R1. rewrite sin_0, Rmult_0_r, Rminus_0_r in R2. split; [|split].
  - apply Rabs_le_inv in DZ. apply Rabs_le_inv in NN. apply Rabs_le. revert DZ NN. decs. lra.
  - apply Rle_trans with (1 := R2). revert D1. decs. lra.
  - apply Rabs_le_inv in R1. revert R1 D1 Cdz. decs. lra.
Qed.
Lemma lower_ok L fa E dt jd j n H de l : noon L fa E dt jd j n -> coord L E dt j H de l ->
  let z0 := fadd j (fdiv (fsub dpi H) pi2) in
  exists Hz dz, Scoord fsin fcos ftan fasin fatan2 XL0 L E dt z0 = Some (Hz, dz) /\
    let z := fadd z0 (fdiv (rad2rrad_d (fsub dpi Hz)) pi2) in ok z /\ on_meridian false (R64 L) (R64 dt) n (R64 z).
Proof.
  intros (ST & Oj & Bjd & Bj & Bd & NN & HE) C z0. assert (C' := C). destruct C' as (_ & OH & Ode & BH & Cde & _).
  destruct (noon_abs _ _ _ 0 Bjd Bj ltac:(rewrite Rminus_diag_eq, Rabs_R0 by reflexivity; lra) ltac:(lra)) as [Aj _].
  assert (HH : Rabs (R64 H) <= 0.12). { apply (noon_H L fa E dt j H de l n ST C); try assumption. apply Rabs_le_inv in Bjd. apply Rabs_le_inv in Bj. apply Rabs_le. revert Bj. decs. lra. }
  pose proof PI_bounds as PB. pose proof dpi_pi as DP. assert (O0 : ok dpi) by (split; vm_compute; reflexivity).
  assert (B0 : Rabs (R64 dpi) <= 3.15) by (apply Rabs_le_inv in DP; apply Rabs_le; revert DP PB; decs; lra).
  destruct (step_plain fsin fcos Gs Gc dpi H j O0 OH Oj B0 (H_abs H BH) ltac:(lra)) as (Oz0 & _ & TU). fold z0 in Oz0, TU. clearbody z0.
  assert (TU' : Rabs (R64 H + 2 * PI * (R64 z0 - R64 j) - PI) <= 2e-9).
  { replace (_ - PI) with ((R64 H + 2 * PI * (R64 z0 - R64 j) - R64 dpi) + (R64 dpi - PI)) by ring. apply Rle_trans with (1 := sum_le _ _ _ _ TU DP). decs. lra. }
  assert (D0 : Rabs (R64 z0 - R64 j - / 2) <= 0.0192).
  { set (D := R64 z0 - R64 j) in *. revert TU' HH PB. decs. intros TU' HH PB. apply Rabs_le_inv in TU'. apply Rabs_le_inv in HH. apply Rabs_le; split; nra. }
  assert (D0' : Rabs (R64 z0 - R64 j) <= 0.5192) by (apply Rabs_le_inv in D0; apply Rabs_le; revert D0; decs; lra).
  destruct (noon_abs _ _ _ _ Bjd Bj D0' ltac:(decs; lra)) as [Az0 Rz0].
  destruct (coord_ex L fa E dt z0 ST Oz0 ltac:(lra)) as (Hz & dz & lz & Cz). exists Hz, dz. split; [exact (proj1 Cz)|].
  destruct (follow L fa E dt j z0 H de l Hz dz lz PI 0 ST ltac:(lra) ltac:(lra) C Cz (HE _ Rz0)) as (F1 & F2 & _).
  { replace (PI + IZR 0 * (2 * PI)) with PI by (cbn; ring). exact TU'. }
  rewrite cos_PI in F1. rewrite sin_PI in F2. assert (Cz' := Cz). destruct Cz' as (_ & OHz & _ & BHz & Cdz & _).
  intros z. destruct (step_rr fsin fcos Gs Gc dpi Hz z0 O0 OHz Oz0 B0 (H_abs Hz BHz) ltac:(lra)) as (Oz & Dz & k & TZ). fold z in Oz, Dz, TZ. clearbody z. split; [exact Oz|].
  set (y := 2 * PI * (R64 z - R64 z0)) in *.
  assert (TY : Rabs (y - ((PI - R64 Hz) + IZR k * (2 * PI))) <= 2.1e-9).
  { replace (y - _) with ((R64 Hz + y - (R64 dpi + IZR k * (2 * PI))) + (R64 dpi - PI)) by ring. apply Rle_trans with (1 := sum_le _ _ _ _ TZ DP). decs. lra. }
  assert (YC : Rabs (cos y + cos (R64 Hz)) <= 2.1e-9).
  { replace (cos y + cos (R64 Hz)) with (cos y - cos ((PI - R64 Hz) + IZR k * (2 * PI))) by (rewrite turn_cos, cos_minus, cos_PI, sin_PI; ring). apply Rle_trans with (1 := cos_lip _ _). exact TY. }
  assert (YS : Rabs (sin y - sin (R64 Hz)) <= 2.1e-9).
  { replace (sin y - sin (R64 Hz)) with (sin y - sin ((PI - R64 Hz) + IZR k * (2 * PI))) by (rewrite turn_sin, sin_minus, cos_PI, sin_PI; ring). apply Rle_trans with (1 := sin_lip _ _). exact TY. }
  assert (SZ : Rabs y <= 0.0021).
  { set (D := Rabs (R64 z0 - R64 j)) in *. pose proof (COS_bound (R64 dz)) as CB. apply (angle_small _ 0.0021 0.00200).
    - unfold y. rewrite Rabs_mult, (Rabs_pos_eq (2 * PI)) by (revert PB; decs; lra). revert Dz PB. decs. intros Dz PB. apply Rle_trans with (2 * (3141593 / 1000000) * (51 / 100)); [|lra]. apply Rmult_le_compat; try lra. apply Rabs_pos.
    - assert (X : cos (R64 dz) * cos (R64 Hz) <= - 0.89) by (apply Rabs_le_inv in F1; revert F1 D0' Cde; decs; lra). apply Rabs_le_inv in YC. revert Cdz YC X. decs. intros Cdz YC X. assert (Y : cos (R64 Hz) <= - (89 / 100)) by nra. lra.
    - assert (X : Rabs (sin (R64 Hz)) <= 0.00198).
      { rewrite Rmult_0_r, Rminus_0_r, Rabs_mult, (Rabs_pos_eq (cos _)) in F2 by (revert Cdz; decs; lra). pose proof (Rabs_pos (sin (R64 Hz))) as Y.
        assert (Z : 0.9 * Rabs (sin (R64 Hz)) <= cos (R64 dz) * Rabs (sin (R64 Hz))) by (apply Rmult_le_compat_r; assumption). revert F2 Z D0'. decs. lra. }
      replace (sin y) with ((sin y - sin (R64 Hz)) + sin (R64 Hz)) by ring. apply Rle_trans with (1 := sum_le _ _ _ _ YS X). decs. lra.
    - decs. lra.
    - decs. lra. }
  assert (D1 : Rabs (R64 z - R64 z0) <= 0.0004).
  { unfold y in SZ. set (D := R64 z - R64 z0) in *. revert SZ PB. decs. intros SZ PB. apply Rabs_le_inv in SZ. apply Rabs_le; split; nra. }
  assert (DZ : Rabs (R64 z - R64 j - / 2) <= 0.0196). { replace (R64 z - R64 j - / 2) with ((R64 z - R64 z0) + (R64 z0 - R64 j - / 2)) by ring. apply Rle_trans with (1 := sum_le _ _ _ _ D1 D0). decs. lra. }
  assert (DZ' : Rabs (R64 z - R64 j) <= 0.5196) by (apply Rabs_le_inv in DZ; apply Rabs_le; revert DZ; decs; lra).
  destruct (noon_abs _ _ _ _ Bjd Bj DZ' ltac:(decs; lra)) as [Az Rz].
  destruct (reached L fa E dt z0 z Hz dz lz (R64 dpi) k ST ltac:(lra) ltac:(lra) Cz (HE _ Rz)) as [R1 R2]; [exact TZ|].
  assert (CP : Rabs (cos (R64 dpi) - -1) <= 1e-9). { rewrite <- cos_PI. apply Rle_trans with (1 := cos_lip _ _). apply Rle_trans with (1 := DP). decs. lra. }
  assert (SP : Rabs (sin (R64 dpi)) <= 1e-9). { replace (sin (R64 dpi)) with (sin (R64 dpi) - sin PI) by (rewrite sin_PI; ring). apply Rle_trans with (1 := sin_lip _ _). apply Rle_trans with (1 := DP). decs. lra. }
  split; [|split].
  - apply Rabs_le_inv in DZ. apply Rabs_le_inv in NN. apply Rabs_le. revert DZ NN. decs. lra.
  - pose proof (prod_le _ _ _ _ (one_cos (R64 dz)) SP) as Q. replace (west (R64 L) (R64 dt) (R64 z)) with ((west (R64 L) (R64 dt) (R64 z) - cos (R64 dz) * sin (R64 dpi)) + cos (R64 dz) * sin (R64 dpi)) by ring.
    apply Rle_trans with (1 := sum_le _ _ _ _ R2 Q). revert D1. decs. lra.
  - pose proof (prod_le _ _ _ _ (one_cos (R64 dz)) CP) as Q. apply Rabs_le_inv in Q. apply Rabs_le_inv in R1. revert R1 Q D1 Cdz. decs. lra.
Qed.

Lemma halves x z : sin x + sin z = 2 * (sin ((x + z) / 2) * cos ((x - z) / 2)) /\ cos x - cos z = - 2 * (sin ((x + z) / 2) * sin ((x - z) / 2)).
Proof.
  assert (E : forall a b, sin (a + b) + sin (a - b) = 2 * (sin a * cos b) /\ cos (a + b) - cos (a - b) = - 2 * (sin a * sin b)) by (intros a b; rewrite sin_plus, sin_minus, cos_plus, cos_minus; split; ring).
  specialize (E ((x + z) / 2) ((x - z) / 2)). replace ((x + z) / 2 + (x - z) / 2) with x in E by field. replace ((x + z) / 2 - (x - z) / 2) with z in E by field. exact E.
Qed.
Lemma whole (k : Z) d w : Rabs w <= 0.0213 -> Rabs d <= 0.51 -> Rabs (2 * PI * d - (w + IZR k * (2 * PI))) <= 2e-9 -> k = 0%Z /\ Rabs d <= 0.0034.
Proof.
  intros W D T. pose proof PI_bounds as PB. revert W D T PB. decs. intros W D T PB. apply Rabs_le_inv in W. apply Rabs_le_inv in D. apply Rabs_le_inv in T.
  assert (K : -1 < IZR k < 1). { assert (P : -3300 / 1000 <= IZR k * (2 * PI) <= 3300 / 1000) by nra. split; nra. }
  assert (Z0 : k = 0%Z) by (assert (-1 < k < 1)%Z by (split; apply lt_IZR; lra); lia). split; [exact Z0|]. subst k. rewrite Rmult_0_l in T. apply Rabs_le; split; nra.
Qed.
Lemma lat60 f : Rabs f <= PI / 3 -> / 2 <= cos f /\ Rabs (sin f) <= 0.8661.
Proof.
  intros BF. pose proof PI_bounds as PB. assert (CF : / 2 <= cos f).
  { replace (/ 2) with (cos (PI / 3)) by (rewrite cos_PI3; field). replace (cos f) with (cos (Rabs f)) by (unfold Rabs; destruct (Rcase_abs f); [apply cos_neg|reflexivity]).
    apply cos_decr_1; try apply Rabs_pos; try exact BF; pose proof (Rabs_pos f); revert PB; decs; lra. }
  split; [exact CF|]. pose proof (sin2_cos2 f) as Q. rewrite <- (Rabs_pos_eq 0.8661) by (decs; lra). apply Rsqr_le_abs_0. unfold Rsqr in *. revert Q. decs. intros Q. nra.
Qed.
(** up to sixty degrees of latitude the Sun rises and sets, and the second step is small *)
Lemma temperate_H1 L fa E dt s H de l : station L fa E dt -> Rabs (R64 fa) <= PI / 3 -> coord L E dt s H de l ->
  let H1 := Hxm fsin fcos facos fa 1 de in
  feqb H1 dpi = false /\ Rabs (cos (R64 H1)) <= 0.84 /\ 0.54 <= sin (R64 H1) /\ Rabs (cos (R64 fa) * cos (R64 de) * cos (R64 H1) - (sin (R64 (depth 1)) - sin (R64 fa) * sin (R64 de))) <= 1e-11.
Proof.
  intros ST BF (_ & _ & Ode & _ & Cde & _ & S1 & _) H1. destruct (Hxm_ok L fa E dt 1 de ST Ode Cde) as (O1 & B1 & F1 & T1). fold H1 in O1, B1, F1, T1. clearbody H1.
  destruct ST as (_ & _ & _ & _ & _ & _ & BE & _). pose proof PI_bounds as PB.
  destruct (lat60 _ BF) as [CF SF].
  assert (SD : Rabs (sin (R64 de)) <= 0.4161).
  { replace (sin (R64 de)) with ((sin (R64 de) - to_pole l (R64 E)) + to_pole l (R64 E)) by ring. unfold to_pole in *. pose proof (sin_abs (R64 E)) as X.
    apply Rle_trans with (1 := sum_le _ _ _ _ S1 (prod_le _ _ _ _ (Rle_trans _ _ _ X BE) (one_sin l))). decs. lra. }
  assert (SH : Rabs (sin (R64 (depth 1))) <= 0.0146).
  { pose proof (below_near 1) as X. replace (sin (R64 (depth 1))) with ((sin (R64 (depth 1)) - sin (below 1)) + sin (below 1)) by ring. apply Rle_trans with (1e-15 + 0.014545); [|decs; lra]. apply sum_le; [exact X|]. apply Rle_trans with (1 := sin_abs _).
    apply Rabs_le. unfold below, arcsec. revert PB. decs. lra. }
  set (N := sin (R64 (depth 1)) - sin (R64 fa) * sin (R64 de)) in *. assert (BN : Rabs N <= 0.376). { unfold N. apply Rle_trans with (1 := diff_le _ _ _ _ SH (prod_le _ _ _ _ SF SD)). decs. lra. }
  assert (K : 0.45 <= cos (R64 fa) * cos (R64 de)). { apply Rle_trans with (/ 2 * 0.9); [decs; lra|]. apply Rmult_le_compat; try assumption; decs; lra. }
  assert (FL : feqb H1 dpi = false). { destruct (feqb H1 dpi) eqn:Q; [|reflexivity]. specialize (T1 eq_refl). revert T1 K BN. decs. lra. }
  specialize (F1 FL). split; [exact FL|]. assert (CH : Rabs (cos (R64 H1)) <= 0.84).
  { assert (X : Rabs (cos (R64 fa) * cos (R64 de) * cos (R64 H1)) <= 0.3761). { replace (_ * cos (R64 H1)) with ((cos (R64 fa) * cos (R64 de) * cos (R64 H1) - N) + N) by ring. apply Rle_trans with (1 := sum_le _ _ _ _ F1 BN). decs. lra. }
    rewrite Rabs_mult, (Rabs_pos_eq (cos (R64 fa) * cos (R64 de))) in X by (revert K; decs; lra). pose proof (Rabs_pos (cos (R64 H1))) as Y. assert (Z : 0.45 * Rabs (cos (R64 H1)) <= cos (R64 fa) * cos (R64 de) * Rabs (cos (R64 H1))) by (apply Rmult_le_compat_r; assumption). revert X Z. decs. lra. }
  split; [exact CH|]. split; [|exact F1]. pose proof (sgn_sin _ B1) as S0. pose proof (sin2_cos2 (R64 H1)) as Q. unfold Rsqr in Q. pose proof (prod_le _ _ _ _ CH CH) as P. apply Rabs_le_inv in P.
  revert S0 P. decs. intros S0 P. destruct (Rle_dec (54 / 100) (sin (R64 H1))) as [G|G]; [exact G|exfalso]. nra.
Qed.
Lemma refine_small L fa E dt jd j n up H de l s f : noon L fa E dt jd j n -> coord L E dt j H de l -> Rabs (R64 fa) <= PI / 3 ->
  let s0 := first_guess fsin fcos facos fa up 1 H de j in
  refine fsin fcos ftan fasin facos fatan2 XL0 L fa E dt up 1 s0 = Some (s, f) -> f = false /\ Rabs (R64 s - R64 s0) <= 0.0034.
Proof.
  intros NO C BF s0 ER. destruct (guess_ok L fa E dt jd j n up 1 H de l NO C) as (Os & Bs & Bj & _ & D0 & TU). fold s0 in Os, Bs, Bj, D0, TU. clearbody s0. destruct NO as (ST & Oj & Bjd & Bjj & _ & _ & HE).
  destruct (noon_abs _ _ _ 0 Bjd Bjj ltac:(rewrite Rminus_diag_eq, Rabs_R0 by reflexivity; lra) ltac:(lra)) as [Aj _].
  destruct (temperate_H1 L fa E dt j H de l ST BF C) as (_ & _ & SA & FA). assert (C' := C). destruct C' as (_ & _ & Ode & _ & Cde & _).
  destruct (Hxm_ok L fa E dt 1 de ST Ode Cde) as (OA & BA & _ & _). set (HA := Hxm fsin fcos facos fa 1 de) in *. clearbody HA.
  destruct (coord_ex L fa E dt s0 ST Os ltac:(lra)) as (Hb & db & lb & Cb).
  destruct (temperate_H1 L fa E dt s0 Hb db lb ST BF Cb) as (FL & CB & SB & FB). unfold refine in ER. rewrite (proj1 Cb) in ER. cbn [obind] in ER.
  assert (Cb' := Cb). destruct Cb' as (_ & OHb & Odb & BHb & Cdb & _). destruct (Hxm_ok L fa E dt 1 db ST Odb Cdb) as (OB & BB & _ & _). set (HB := Hxm fsin fcos facos fa 1 db) in *. clearbody HB.
  fold (sgn up HB) in ER. injection ER as <- <-. split; [exact FL|]. destruct (sgn_ok up HB OB) as [Ot Et]. pose proof (sgn_abs up HB BB OB) as Bt. destruct (sgn_ok up HA OA) as [Ota Eta].
  destruct (step_rr fsin fcos Gs Gc (sgn up HB) Hb s0 Ot OHb Os Bt (H_abs Hb BHb) ltac:(lra)) as (_ & Dz & k & TZ). set (s1 := fadd s0 _) in *. clearbody s1.
  assert (Rs : Rabs (R64 s0 - R64 jd) <= 4) by (revert Bj; decs; lra).
  destruct (follow L fa E dt j s0 H de l Hb db lb (R64 (sgn up HA)) 0 ST ltac:(lra) ltac:(lra) C Cb (HE _ Rs)) as (Q1 & Q2 & Q3).
  { cbn -[IZR]. rewrite Rmult_0_l, Rplus_0_r. revert TU. decs. lra. }
  set (D := Rabs (R64 s0 - R64 j)) in *. pose proof PI_bounds as PB.
  assert (G1' : Rabs (cos (R64 db) * cos (R64 Hb) - cos (R64 de) * cos (R64 HA)) <= 0.00178). { replace (cos (R64 HA)) with (cos (R64 (sgn up HA))) by (rewrite Eta; destruct up; [apply cos_neg|reflexivity]). apply Rle_trans with (1 := Q1). revert D0. decs. lra. }
  set (z := if up then - R64 Hb else R64 Hb).
  assert (G2' : Rabs (cos (R64 db) * sin z - cos (R64 de) * sin (R64 HA)) <= 0.00178).
  { assert (G2'' : Rabs (cos (R64 db) * sin (R64 Hb) - cos (R64 de) * sin (R64 (sgn up HA))) <= 0.00178) by (apply Rle_trans with (1 := Q2); revert D0; decs; lra). rewrite Eta in G2''. unfold z. destruct up; [|exact G2''].
    rewrite sin_neg in G2'' |- *. rewrite <- Rabs_Ropp. replace (- _) with (cos (R64 db) * sin (R64 Hb) - cos (R64 de) * - sin (R64 HA)) by ring. exact G2''. }
  assert (SZ : 0.48 <= sin z). { apply Rabs_le_inv in G2'. pose proof (COS_bound (R64 db)) as X. revert G2' SA Cde Cdb. decs. intros. destruct (Rle_dec (48 / 100) (sin z)) as [?|Q]; [assumption|exfalso]. assert (9 / 10 * (54 / 100) <= cos (R64 de) * sin (R64 HA)) by (apply Rmult_le_compat; lra). nra. }
  assert (CZ : cos z = cos (R64 Hb)) by (unfold z; destruct up; [apply cos_neg|reflexivity]).
  assert (CD : Rabs (cos (R64 HB) - cos z) <= 0.0107).
  { rewrite CZ. destruct (lat60 _ BF) as [CF SF].
    assert (X : Rabs (cos (R64 fa) * cos (R64 db) * cos (R64 HB) - cos (R64 fa) * cos (R64 de) * cos (R64 HA)) <= 0.00389).
    { replace (_ - _) with ((cos (R64 fa) * cos (R64 db) * cos (R64 HB) - (sin (R64 (depth 1)) - sin (R64 fa) * sin (R64 db))) - (cos (R64 fa) * cos (R64 de) * cos (R64 HA) - (sin (R64 (depth 1)) - sin (R64 fa) * sin (R64 de))) - sin (R64 fa) * (sin (R64 db) - sin (R64 de))) by ring.
      apply Rle_trans with (1 := diff_le _ _ _ _ (diff_le _ _ _ _ FB FA) (prod_le _ _ _ _ SF Q3)). revert D0. decs. lra. }
    assert (Y : Rabs (cos (R64 fa) * (cos (R64 db) * cos (R64 HB) - cos (R64 de) * cos (R64 HA))) <= 0.00389). { replace (cos (R64 fa) * _) with (cos (R64 fa) * cos (R64 db) * cos (R64 HB) - cos (R64 fa) * cos (R64 de) * cos (R64 HA)) by ring. exact X. }
    set (w := cos (R64 db) * cos (R64 HB) - cos (R64 de) * cos (R64 HA)) in *. rewrite Rabs_mult, (Rabs_pos_eq (cos (R64 fa))) in Y by lra.
    assert (W : Rabs w <= 0.00778). { assert (HW : / 2 * Rabs w <= cos (R64 fa) * Rabs w) by (apply Rmult_le_compat_r; [apply Rabs_pos|exact CF]). revert Y HW. clear. decs. lra. }
    assert (V : Rabs (cos (R64 db) * (cos (R64 HB) - cos (R64 Hb))) <= 0.00956). { replace (cos (R64 db) * _) with (w - (cos (R64 db) * cos (R64 Hb) - cos (R64 de) * cos (R64 HA))) by (unfold w; ring). apply Rle_trans with (1 := diff_le _ _ _ _ W G1'). decs. lra. }
    rewrite Rabs_mult, (Rabs_pos_eq (cos (R64 db))) in V by (revert Cdb; decs; lra). assert (V' : 0.9 * Rabs (cos (R64 HB) - cos (R64 Hb)) <= cos (R64 db) * Rabs (cos (R64 HB) - cos (R64 Hb))) by (apply Rmult_le_compat_r; [apply Rabs_pos|exact Cdb]). revert V V'. decs. lra. }
  set (x := R64 HB) in *.
  assert (BZ : - 3.15 <= z <= 3.15). { pose proof (H_abs Hb BHb) as X. apply Rabs_le_inv in X. unfold z. destruct up; lra. }
  assert (ZP : 0 < z < PI).
  { destruct (Rle_dec z 0) as [Q|Q].
    - exfalso. destruct (Rle_dec (- PI) z) as [P|P]. + pose proof (sin_le_0 (z + 2 * PI) ltac:(lra) ltac:(lra)) as X. replace (sin (z + 2 * PI)) with (sin z) in X by (rewrite sin_plus, cos_2PI, sin_2PI; ring). revert X SZ. decs. lra.
      + pose proof (sin_lip z (- PI)) as X. rewrite sin_neg, sin_PI in X. replace (sin z - - 0) with (sin z) in X by ring. rewrite (Rabs_left (z - - PI)) in X by lra. apply Rabs_le_inv in X. revert X SZ BZ PB. decs. lra.
    - split; [lra|]. destruct (Rlt_dec z PI) as [P|P]; [exact P|exfalso]. pose proof (sin_lip z PI) as X. rewrite sin_PI, Rminus_0_r in X. rewrite (Rabs_pos_eq (z - PI)) in X by lra. apply Rabs_le_inv in X. revert X SZ BZ PB. decs. lra. }
  assert (XP : 0 < x < PI).
  { split; [destruct (Rlt_dec 0 x) as [P|P]|destruct (Rlt_dec x PI) as [P|P]]; try exact P; exfalso.
    - pose proof (sin_abs x) as X. rewrite (Rabs_left1 x) in X by lra. apply Rabs_le_inv in X. revert X SB BB. decs. lra.
    - pose proof (sin_lip x PI) as X. rewrite sin_PI, Rminus_0_r in X. rewrite (Rabs_pos_eq (x - PI)) in X by lra. apply Rabs_le_inv in X. revert X SB BB. decs. lra. }
  assert (CH : 0 < cos ((x - z) / 2)) by (apply cos_gt_0; lra).
  assert (SP : 0.51 <= sin ((x + z) / 2)).
  { destruct (halves x z) as [Q _].
    pose proof (COS_bound ((x - z) / 2)) as X. assert (S0 : 0 < sin ((x + z) / 2)) by (apply sin_gt_0; lra). revert SB SZ. decs. intros SB SZ. nra. }
  assert (SM : Rabs ((x - z) / 2) <= 0.0106).
  { apply (angle_small _ 0.0106 0.0105); try (decs; lra); [apply Rabs_le; revert PB; decs; lra|].
    destruct (halves x z) as [_ Q].
    rewrite Q, !Rabs_mult, (Rabs_left (-2)), (Rabs_pos_eq (sin ((x + z) / 2))) in CD by (revert SP; decs; lra). pose proof (Rabs_pos (sin ((x - z) / 2))) as X.
    assert (Y : 0.51 * Rabs (sin ((x - z) / 2)) <= sin ((x + z) / 2) * Rabs (sin ((x - z) / 2))) by (apply Rmult_le_compat_r; assumption). revert CD Y. decs. lra. }
  refine (proj2 (whole k _ (if up then z - x else x - z) _ Dz _)).
  - apply Rabs_le_inv in SM. apply Rabs_le. revert SM. decs. destruct up; lra.
  - rewrite Et in TZ. replace (_ - _) with (R64 Hb + 2 * PI * (R64 s1 - R64 s0) - ((if up then - x else x) + IZR k * (2 * PI))) by (unfold z; destruct up; ring). exact TZ.
Qed.

Lemma day_noon L fa jd : ok L -> ok fa -> ok jd -> Rabs (R64 L) <= 7 -> Rabs (R64 fa) <= 1.57 -> Rabs (R64 jd) <= 1000000 ->
  exists dt n, dt_T jd = Some dt /\ noon L fa (hcjj (fdiv jd (fZ 36525))) dt jd (local_noon L jd) n.
Proof.
  intros OL Of Oj BL Bf Bj. destruct (day_dt jd Oj Bj) as (dt & ED & Od & Bd). destruct (day_E fsin fcos jd (R64 dt) Gs Gc Oj Bj Bd) as (OE & BE & HE).
  destruct (local_noon_ok fsin fcos L jd Gs Gc OL Oj BL Bj) as (n & On & Bn & Dn). exists dt, n. split; [exact ED|].
  split; [|split; [exact On|split; [exact Bj|split; [exact Bn|split; [exact Bd|split; [exact Dn|exact HE]]]]]].
  split; [exact OL|]. split; [exact Of|]. split; [exact OE|]. split; [exact Od|]. split; [exact BL|]. split; [exact Bf|]. split; [exact BE|]. revert Bd. decs. lra.
Qed.
(** the eight rises and sets of a day: which kind, and where St puts it *)
Definition events (r : day) : list (bool * nat * f64 * string) :=
  [(true, 1%nat, d_s r, "无升起."); (false, 1%nat, d_j r, "无降落."); (true, 2%nat, d_c r, "无民用晨."); (false, 2%nat, d_h r, "无民用昏.");
   (true, 3%nat, d_c2 r, "无航海晨."); (false, 3%nat, d_h2 r, "无航海昏."); (true, 4%nat, d_c3 r, "无天文晨."); (false, 4%nat, d_h3 r, "无天文昏.")]%string.

(** C101: for a day within 2738 years of J2000 and a latitude up to 1.57, St returns ten moments belonging to the local day n nearest to jd:
    the Sun is on the meridian, above and below the pole, at d_z and d_x; and at each of the other eight it passes the altitude asked for,
    unless the text says that it does not, in which case at the Sun's place no turn of the sky would take it across that altitude.
    The errors, 3.04e-4 and 3.03e-4 (63 arc seconds) besides 0.0098 per day of the last step, include those of the short series used. *)
Theorem C101_sun L fa jd : ok L -> ok fa -> ok jd -> Rabs (R64 L) <= 7 -> Rabs (R64 fa) <= 1.57 -> Rabs (R64 jd) <= 1000000 ->
  exists r dt n never, St fsin fcos ftan fasin facos fatan2 XL0 L fa jd = Some r /\ dt_T jd = Some dt /\ Rabs (R64 dt) <= 0.348 /\
    Rabs (R64 jd + R64 L / (2 * PI) - IZR n) <= 0.502 /\
    (ok (d_z r) /\ on_meridian true (R64 L) (R64 dt) n (R64 (d_z r))) /\ (ok (d_x r) /\ on_meridian false (R64 L) (R64 dt) n (R64 (d_x r))) /\
    Forall2 (fun e f => let '(up, xm, s, _) := e in ok s /\ event up (below xm) (R64 L) (R64 fa) (R64 dt) n (R64 s) f) (events r) never /\
    d_sm r = List.concat (map (fun ef : bool * nat * f64 * string * bool => let '((_, _, _, t), f) := ef in if f then B t else []) (combine (events r) never)) /\
    (Rabs (R64 fa) <= PI / 3 -> forall e f, In (e, f) (combine (events r) never) -> let '(up, xm, s, _) := e in xm = 1%nat ->
       f = false /\ Rabs (sin_altitude (R64 L) (R64 fa) (R64 dt) (R64 s) - sin (below 1)) <= 3.37e-4).
Proof.
  intros OL Of Oj BL Bf Bj. destruct (day_noon L fa jd OL Of Oj BL Bf Bj) as (dt & n & ED & NO). unfold St. rewrite ED. cbn [obind].
  set (E := hcjj (fdiv jd (fZ 36525))) in *. set (j := local_noon L jd) in *. clearbody E j.
  assert (NO' := NO). destruct NO' as (ST & Ojj & _ & Bjj & Bd & NN & _).
  destruct (noon_abs _ _ _ 0 Bj Bjj ltac:(rewrite Rminus_diag_eq, Rabs_R0 by reflexivity; lra) ltac:(lra)) as [Aj _].
  destruct (coord_ex L fa E dt j ST Ojj ltac:(lra)) as (H & de & l & C). rewrite (proj1 C). cbn [obind].
  assert (EV : forall up xm, exists s f, refine fsin fcos ftan fasin facos fatan2 XL0 L fa E dt up xm (first_guess fsin fcos facos fa up xm H de j) = Some (s, f) /\ ok s /\
    event up (below xm) (R64 L) (R64 fa) (R64 dt) n (R64 s) f /\
    (Rabs (R64 fa) <= PI / 3 -> xm = 1%nat -> f = false /\ Rabs (sin_altitude (R64 L) (R64 fa) (R64 dt) (R64 s) - sin (below 1)) <= 3.37e-4)).
  { intros up xm. destruct (event_ok L fa E dt jd j n up xm H de l NO C) as (s & f & ER & Os & EV). exists s, f. split; [exact ER|]. split; [exact Os|]. split; [exact EV|].
    intros F60 ->. destruct (refine_small L fa E dt jd j n up H de l s f NO C F60 ER) as [-> D]. split; [reflexivity|].
    destruct (guess_ok L fa E dt jd j n up 1 H de l NO C) as (Og & Bg & Bgj & _). set (g := first_guess _ _ _ _ _ _ _ _ _) in *. clearbody g.
    destruct (refine_ok L fa E dt up 1 g ST Og ltac:(lra)) as (s' & f' & ER' & _ & _ & P).
    { intros x Hx. destruct NO as (_ & _ & _ & _ & _ & _ & HE). apply HE. replace (x - R64 jd) with ((x - R64 g) + (R64 g - R64 jd)) by ring. apply Rle_trans with (1 := sum_le _ _ _ _ Hx Bgj). decs. lra. }
    rewrite ER in ER'. injection ER' as <- <-. destruct P as [P _]. apply Rle_trans with (1 := P). revert D. decs. lra. }
  destruct (EV true 1%nat) as (v1 & f1 & -> & V1). cbn [obind]. destruct (EV false 1%nat) as (v2 & f2 & -> & V2). cbn [obind].
  destruct (EV true 2%nat) as (v3 & f3 & -> & V3). cbn [obind]. destruct (EV false 2%nat) as (v4 & f4 & -> & V4). cbn [obind].
  destruct (EV true 3%nat) as (v5 & f5 & -> & V5). cbn [obind]. destruct (EV false 3%nat) as (v6 & f6 & -> & V6). cbn [obind].
  destruct (EV true 4%nat) as (v7 & f7 & -> & V7). cbn [obind]. destruct (EV false 4%nat) as (v8 & f8 & -> & V8). cbn [obind]. clear EV.
  destruct (upper_ok L fa E dt jd j n H de l NO C) as (Hz & dz & -> & UZ). cbn [obind]. destruct (lower_ok L fa E dt jd j n H de l NO C) as (Hx & dx & -> & UX). cbn [obind].
  eexists _, dt, n, [f1; f2; f3; f4; f5; f6; f7; f8]. split; [reflexivity|]. split; [reflexivity|]. split; [exact Bd|].
  split; [apply Rabs_le_inv in Bjj; apply Rabs_le_inv in NN; apply Rabs_le; revert Bjj NN; decs; lra|]. cbn [d_z d_x d_sm]. split; [exact UZ|]. split; [exact UX|]. split; [|split].
  - cbn [events d_s d_j d_c d_h d_c2 d_h2 d_c3 d_h3]. constructor; [split; [exact (proj1 V1)|exact (proj1 (proj2 V1))]|]. constructor; [split; [exact (proj1 V2)|exact (proj1 (proj2 V2))]|]. constructor; [split; [exact (proj1 V3)|exact (proj1 (proj2 V3))]|]. constructor; [split; [exact (proj1 V4)|exact (proj1 (proj2 V4))]|]. constructor; [split; [exact (proj1 V5)|exact (proj1 (proj2 V5))]|]. constructor; [split; [exact (proj1 V6)|exact (proj1 (proj2 V6))]|]. constructor; [split; [exact (proj1 V7)|exact (proj1 (proj2 V7))]|]. constructor; [split; [exact (proj1 V8)|exact (proj1 (proj2 V8))]|]. constructor.
  - cbn [events combine map List.concat d_s d_j d_c d_h d_c2 d_h2 d_c3 d_h3]. unfold note. now rewrite !app_nil_r.
  - intros F60 e f. cbn [events combine d_s d_j d_c d_h d_c2 d_h2 d_c3 d_h3]. intros IN. repeat (destruct IN as [IN|IN]; [injection IN as <- <-; intros X; first [discriminate X | exact (proj2 (proj2 V1) F60 X) | exact (proj2 (proj2 V2) F60 X)]|]). destruct IN.
Qed.
End Lib.

(** the hypotheses can be met *)
Lemma round64_ok4 x : Rabs x <= 4 -> ok (round64 x) /\ R64 (round64 x) = rnd x.
Proof.
  intros Bx. unfold round64. set (m := Ztrunc _). set (e := cexp _ _ _). assert (F : F2R (Float radix2 m e) = rnd x) by (symmetry; exact (rnd_is_repr x)).
  pose proof (binary_normalize_correct 53 1024 Hprec53 Hmax1024 mode_NE m e false) as H. cbv zeta in H. rewrite F, !rnd_eq in H.
  rewrite (rnd_repr _ (rnd_is_repr x)) in H. rewrite Rlt_bool_true in H.
  - destruct H as (A & C & _). split; [apply ok_of_B, C|]. rewrite R64_B. exact A.
  - apply (rnd_bound x 2); [lia|exact Bx].
Qed.
Lemma round64_near x : Rabs x <= 3.15 -> ok (round64 x) /\ Rabs (R64 (round64 x)) <= 4 /\ Rabs (R64 (round64 x) - x) <= 4 * u53.
Proof.
  intros Bx. revert Bx. decs. intros Bx. destruct (round64_ok4 x ltac:(lra)) as [O E]. split; [exact O|]. rewrite E. split; [apply (F64B.rnd_small _ 2); [lia|change (bpow radix2 2) with 4; lra]|].
  apply Rle_trans with (1 := rnd_close _ _ Bx). unfold u53, tiny. lra.
Qed.
Lemma atan2_abs y x : Rabs (GeoModel.atan2 y x) <= 3.15.
Proof.
  pose proof PI_bounds as PB. unfold GeoModel.atan2.
  assert (S : forall u, (0 <= u -> 0 <= atan u) /\ (u <= 0 -> atan u <= 0)). { intros u. split; intros [Q|Q]; try (apply atan_increasing in Q; rewrite atan_0 in Q; lra); subst; rewrite atan_0; lra. }
  destruct (S (y / x)) as [S1 S2]. pose proof (atan_bound (y / x)) as AB.
  destruct (Rlt_dec 0 x); [|destruct (Rlt_dec x 0) as [N|N]; [assert (I : / x < 0) by (now apply Rinv_lt_0_compat); destruct (Rle_dec 0 y)|destruct (Rlt_dec 0 y); [|destruct (Rlt_dec y 0)]]]; apply Rabs_le; revert PB; decs; try lra.
  - assert (y / x <= 0) by (unfold Rdiv; nra). specialize (S2 H). lra.
  - assert (0 <= y / x) by (unfold Rdiv; nra). specialize (S1 H). lra.
Qed.
Example C101_example : exists fsin fcos ftan fasin facos fatan2 XL0 rest L fa jd, good_lib fsin sin /\ good_lib fcos cos /\ close_on ftan tan /\ close_on fasin asin /\ close_on facos acos /\ close_atan2 fatan2 /\
  nth_error XL0 0 = Some (memory (earth_table rest)) /\ List.length rest = 1518%nat /\ ok L /\ ok fa /\ ok jd /\ R64 L = 2 /\ R64 fa = 1 /\ R64 jd = 10000.
Proof.
  exists (fun x => round64 (sin (R64 x))), (fun x => round64 (cos (R64 x))), (fun x => round64 (tan (R64 x))), (fun x => round64 (asin (R64 x))), (fun x => round64 (acos (R64 x))), (fun y x => round64 (GeoModel.atan2 (R64 y) (R64 x))).
  exists [memory (earth_table (repeat (fZ 0) 1518))], (repeat (fZ 0) 1518), (fZ 2), (fZ 1), (fZ 10000). pose proof PI_bounds as PB.
  split; [apply round64_good; intros x; apply Rabs_le, SIN_bound|]. split; [apply round64_good; intros x; apply Rabs_le, COS_bound|].
  assert (CO : forall g, (forall x, Rabs x <= 1 -> Rabs (g x) <= 3.15) -> close_on (fun x => round64 (g (R64 x))) g) by (intros g G x _ Bx; destruct (round64_near _ (G _ Bx)) as (A & _ & D); split; assumption).
  split; [|split; [|split; [|split; [|split; [|split]]]]].
  - apply CO. intros x Bx. unfold tan. assert (K : / 2 <= cos x). { pose proof (cos_lb x) as Q. pose proof (prod_le _ _ _ _ Bx Bx) as P. apply Rabs_le_inv in P. lra. }
    unfold Rdiv. apply Rle_trans with (1 * 2); [|decs; lra]. apply prod_le; [apply one_sin|]. rewrite Rabs_pos_eq by (left; apply Rinv_0_lt_compat; lra). replace 2 with (/ / 2) by field. apply Rinv_le_contravar; lra.
  - apply CO. intros x Bx. pose proof (asin_bound x). apply Rabs_le. revert PB. decs. lra.
  - apply CO. intros x Bx. pose proof (acos_bound x). apply Rabs_le. revert PB. decs. lra.
  - intros y x _ _ _. destruct (round64_near _ (atan2_abs (R64 y) (R64 x))) as (A & Q & D). split; [exact A|]. split; [exact Q|]. exists 0%Z. rewrite Rmult_0_l, Rplus_0_r. exact D.
  - reflexivity.
  - apply repeat_length.
  - destruct (fZ_ok 2 ltac:(lia)) as [A1 A2]. destruct (fZ_ok 1 ltac:(lia)) as [A3 A4]. destruct (fZ_ok 10000 ltac:(lia)) as [A5 A6]. repeat (split; [assumption|]). assumption.
Qed.
Print Assumptions C101_sun.
