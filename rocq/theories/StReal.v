(** Real-number part of the proof about sunrise: how the direction of the Sun depends on the angles, and how fast they run. *)
From Coq Require Import ZArith Reals Lia Lra.
From Flocq Require Import Core.
From Verif Require Import F64E PiBound FormSpec FormProps SmTab WaveF WaveR SmSpec SmLon SmProps SmSun SunProps StSpec.
Open Scope R_scope.

(** the part of the direction along the unit vector (a, b, c) *)
Definition along (a b c l e th : R) : R := a * to_pole l e + b * to_meridian l e th + c * to_west l e th.
Lemma unit_le a b : a * a + b * b <= 1 -> forall x, Rabs (a * cos x - b * sin x) <= 1.
Proof.
  intros H x. pose proof (sin2_cos2 x) as S. unfold Rsqr in S. set (s := sin x) in *. set (k := cos x) in *. clearbody s k.
  assert (Q : (a * k - b * s) * (a * k - b * s) <= 1).
  { replace ((a * k - b * s) * (a * k - b * s)) with ((a * a + b * b) * (s * s + k * k) - (a * s + b * k) * (a * s + b * k)) by ring. rewrite S.
    pose proof (Rle_0_sqr (a * s + b * k)) as P. unfold Rsqr in P. lra. }
  apply Rabs_le. nra.
Qed.
Lemma sin_abs x : Rabs (sin x) <= Rabs x.
Proof. pose proof (sin_lip x 0) as H. rewrite sin_0, !Rminus_0_r in H. exact H. Qed.
Lemma along_lon a b c e th l l' : a * a + b * b + c * c = 1 -> Rabs (along a b c l' e th - along a b c l e th) <= Rabs (l' - l).
Proof.
  intros N. pose proof (sin2_cos2 th) as Q. pose proof (sin2_cos2 e) as P. unfold Rsqr in Q, P.
  set (A := a * sin e + cos e * (b * sin th - c * cos th)). set (D := b * cos th + c * sin th).
  assert (AD : A * A + D * D <= 1).
  { assert (A * A + D * D + (a * cos e - sin e * (b * sin th - c * cos th)) * (a * cos e - sin e * (b * sin th - c * cos th)) = 1).
    { transitivity (a * a * (sin e * sin e + cos e * cos e) + (sin e * sin e + cos e * cos e) * ((b * sin th - c * cos th) * (b * sin th - c * cos th)) + D * D); [unfold A, D; ring|].
      rewrite P. unfold D. transitivity (a * a + (b * b + c * c) * (sin th * sin th + cos th * cos th)); [ring|]. rewrite Q. lra. }
    pose proof (Rle_0_sqr (a * cos e - sin e * (b * sin th - c * cos th))) as X. unfold Rsqr in X. lra. }
  assert (F : forall x, along a b c x e th = A * sin x + D * cos x) by (intros x; unfold along, to_pole, to_meridian, to_west, A, D; ring).
  rewrite !F. clear F. replace (A * sin l' + D * cos l' - (A * sin l + D * cos l)) with (A * (sin l' - sin l) + D * (cos l' - cos l)) by ring.
  rewrite form4, form2. replace (A * (2 * cos ((l' + l) / 2) * sin ((l' - l) / 2)) + D * (-2 * sin ((l' - l) / 2) * sin ((l' + l) / 2)))
    with (2 * sin ((l' - l) / 2) * (A * cos ((l' + l) / 2) - D * sin ((l' + l) / 2))) by ring.
  pose proof (unit_le A D AD ((l' + l) / 2)) as U. pose proof (sin_abs ((l' - l) / 2)) as S.
  replace (Rabs (l' - l)) with (2 * Rabs ((l' - l) / 2) * 1); [|unfold Rdiv; rewrite Rabs_mult, (Rabs_pos_eq (/ 2)) by lra; lra].
  apply prod_le; [|exact U]. rewrite Rabs_mult, (Rabs_pos_eq 2) by lra. lra.
Qed.
Lemma one_sin x : Rabs (sin x) <= 1. Proof. apply Rabs_le, SIN_bound. Qed.
Lemma one_cos x : Rabs (cos x) <= 1. Proof. apply Rabs_le, COS_bound. Qed.
Lemma along_obl a b c e e' th l : Rabs a <= 1 -> Rabs b <= 1 -> Rabs c <= 1 -> Rabs (along a b c l e' th - along a b c l e th) <= 3 * Rabs (e' - e).
Proof.
  intros A Bb C. unfold along, to_pole, to_meridian, to_west.
  match goal with |- Rabs ?z <= _ => replace z with (a * ((sin e' - sin e) * sin l) + b * ((cos e' - cos e) * (sin l * sin th)) - c * ((cos e' - cos e) * (sin l * cos th))) by ring end.
  pose proof (one_sin l). pose proof (one_sin th). pose proof (one_cos th).
  apply Rle_trans with (1 * (Rabs (e' - e) * 1) + 1 * (Rabs (e' - e) * (1 * 1)) + 1 * (Rabs (e' - e) * (1 * 1))); [|lra].
  apply diff_le; [apply sum_le|]; (apply prod_le; [assumption|apply prod_le; [apply sin_lip || apply cos_lip|try assumption; apply prod_le; assumption]]).
Qed.
(** when longitude and sidereal time run at nearly the same rate *)
Lemma along_run a b c e l th d m k : Rabs a <= 1 -> Rabs b <= 1 -> Rabs c <= 1 -> Rabs e <= 0.416 -> Rabs (d - m) <= k ->
  Rabs (along a b c (l + d) e (th + m) - along a b c l e th) <= Rabs a * (0.416 * Rabs d) + (Rabs b + Rabs c) * (k + 0.0433 * (Rabs d + Rabs m)).
Proof.
  intros A Bb C E K.
  assert (CE : 1 - 0.0866 <= cos e <= 1).
  { split; [|apply COS_bound]. pose proof (cos_lip e 0) as X. pose proof (sin2_cos2 (e / 2)) as Q. unfold Rsqr in Q. 
    assert (cos e = 1 - 2 * sin (e / 2) * sin (e / 2)). { replace e with (2 * (e / 2)) at 1 by field. rewrite cos_2a_sin. ring. }
    pose proof (sin_abs (e / 2)) as S. assert (Rabs (e / 2) <= 0.208). { unfold Rdiv. rewrite Rabs_mult, (Rabs_pos_eq (/ 2)) by lra. lra. }
    assert (Rabs (sin (e / 2)) <= 0.208) by lra. pose proof (prod_le _ _ _ _ H1 H1) as Y. apply Rabs_le_inv in Y. lra. }
  assert (SE : Rabs (sin e) <= 0.416) by (pose proof (sin_abs e); lra).
  set (p := (1 + cos e) / 2). set (q := (1 - cos e) / 2).
  assert (M : forall x t, to_meridian x e t = p * cos (t - x) + q * cos (t + x)) by (intros; unfold to_meridian, p, q; rewrite cos_minus, cos_plus; field).
  assert (W : forall x t, to_west x e t = p * sin (t - x) + q * sin (t + x)) by (intros; unfold to_west, p, q; rewrite sin_minus, sin_plus; field).
  assert (P0 : Rabs p <= 1) by (apply Rabs_le; unfold p; lra). assert (Q0 : Rabs q <= 0.0433) by (apply Rabs_le; unfold q; lra).
  assert (R1 : Rabs ((th + m - (l + d)) - (th - l)) <= k) by (replace (th + m - (l + d) - (th - l)) with (- (d - m)) by ring; rewrite Rabs_Ropp; exact K).
  assert (R2 : Rabs ((th + m + (l + d)) - (th + l)) <= Rabs d + Rabs m) by (replace (th + m + (l + d) - (th + l)) with (d + m) by ring; apply Rabs_triang).
  unfold along. 
  match goal with |- Rabs ?z <= _ => replace z with (a * (to_pole (l + d) e - to_pole l e) + (b * (to_meridian (l + d) e (th + m) - to_meridian l e th) + c * (to_west (l + d) e (th + m) - to_west l e th))) by ring end.
  rewrite Rmult_plus_distr_r. apply sum_le; [|apply sum_le].
  - apply prod_le; [lra|]. unfold to_pole. replace (sin e * sin (l + d) - sin e * sin l) with (sin e * (sin (l + d) - sin l)) by ring.
    apply prod_le; [exact SE|]. pose proof (sin_lip (l + d) l) as X. replace (l + d - l) with d in X by ring. exact X.
  - apply prod_le; [lra|]. rewrite !M. match goal with |- Rabs ?z <= _ => replace z with (p * (cos (th + m - (l + d)) - cos (th - l)) + q * (cos (th + m + (l + d)) - cos (th + l))) by ring end.
    apply Rle_trans with (1 * k + 0.0433 * (Rabs d + Rabs m)); [|lra].
    apply sum_le; apply prod_le; try assumption; (eapply Rle_trans; [apply cos_lip|assumption]).
  - apply prod_le; [lra|]. rewrite !W. match goal with |- Rabs ?z <= _ => replace z with (p * (sin (th + m - (l + d)) - sin (th - l)) + q * (sin (th + m + (l + d)) - sin (th + l))) by ring end.
    apply Rle_trans with (1 * k + 0.0433 * (Rabs d + Rabs m)); [|lra].
    apply sum_le; apply prod_le; try assumption; (eapply Rle_trans; [apply sin_lip|assumption]).
Qed.

Definition omega : R := 628.33196674749 / 36525.
Lemma sun_run t t' : Rabs t <= 30 -> Rabs t' <= 30 -> Rabs (sun_of_date t' - sun_of_date t - 628.33196674749 * (t' - t)) <= 26.641 * Rabs (t' - t).
Proof.
  intros H H'. pose proof (sun_slope 3 t t' ltac:(lia) ltac:(lra) ltac:(lra)) as S. pose proof (nut_lip t t' ltac:(lra) ltac:(lra)) as N.
  assert (X : slope_dev 3 * Rabs (t' - t) <= 26.6 * Rabs (t' - t)) by (apply Rmult_le_compat_r; [apply Rabs_pos|exact slope3]).
  unfold sun_longitude in S. unfold sun_of_date.
  match goal with |- Rabs ?z <= _ => replace z with ((earth_full t' + nut_lon t' + sun_aberration t' + PI - (earth_full t + nut_lon t + sun_aberration t + PI) - 628.33196674749 * (t' - t)) - (nut_lon t' - nut_lon t)) by ring end.
  apply Rle_trans with (1 := diff_le _ _ _ _ S N). pose proof (Rabs_pos (t' - t)). revert X. decs. lra.
Qed.
(** differences of powers *)
Lemma pow_run n M x y : Rabs x <= M -> Rabs y <= M -> Rabs (x ^ S n - y ^ S n) <= INR (S n) * M ^ n * Rabs (x - y).
Proof.
  intros X Y. assert (M0 : 0 <= M) by (pose proof (Rabs_pos x); lra). induction n as [|n IH].
  - rewrite !pow_1, pow_O. cbn [INR]. lra.
  - replace (x ^ S (S n) - y ^ S (S n)) with (x * (x ^ S n - y ^ S n) + (x - y) * y ^ S n) by (cbn [pow]; ring).
    replace (INR (S (S n)) * M ^ S n * Rabs (x - y)) with (M * (INR (S n) * M ^ n * Rabs (x - y)) + Rabs (x - y) * M ^ S n) by (rewrite (S_INR (S n)); cbn [pow]; ring).
    apply sum_le; apply prod_le; try assumption; try lra. rewrite <- RPow_abs. apply pow_incr. split; [apply Rabs_pos|exact Y].
Qed.
Lemma obl_run t t' : Rabs t <= 30 -> Rabs t' <= 30 -> Rabs (obliquity t' - obliquity t) <= 0.0003 * Rabs (t' - t).
Proof.
  intros H H'. pose proof (pow_run 1 30 t' t H' H) as P2. pose proof (pow_run 2 30 t' t H' H) as P3. pose proof (pow_run 3 30 t' t H' H) as P4. pose proof (pow_run 4 30 t' t H' H) as P5.
  set (d := Rabs (t' - t)) in *. unfold obliquity, arcsec.
  match goal with |- Rabs ?z <= _ => replace z with ((PI / 648000) * ((- 46.836769) * (t' - t) - 0.0001831 * (t' ^ 2 - t ^ 2) + 0.00200340 * (t' ^ 3 - t ^ 3) - 5.76e-7 * (t' ^ 4 - t ^ 4) - 4.34e-8 * (t' ^ 5 - t ^ 5))) by (decs; field) end.
  pose proof PI_bounds as PB. assert (D0 : 0 <= d) by apply Rabs_pos.
  assert (P1 : Rabs (t' - t) <= d) by (unfold d; lra). clearbody d.
  replace (0.0003 * d) with (5e-6 * (60 * d)) by (decs; lra).
  apply prod_le. { rewrite Rabs_pos_eq by lra. decs. lra. }
  match goal with |- Rabs ?z <= _ => assert (Q : Rabs z <= Rabs (- 46.836769) * d + Rabs 0.0001831 * (INR 2 * 30 ^ 1 * d) + Rabs 0.00200340 * (INR 3 * 30 ^ 2 * d) + Rabs 5.76e-7 * (INR 4 * 30 ^ 3 * d) + Rabs 4.34e-8 * (INR 5 * 30 ^ 4 * d)) end.
  { apply diff_le; [apply diff_le; [apply sum_le; [apply diff_le|]|]|]; (apply prod_le; [apply Rle_refl|assumption]). }
  apply Rle_trans with (1 := Q). rewrite (Rabs_left (- 46.836769)) by (decs; lra). rewrite !Rabs_pos_eq by (decs; lra). cbn [INR pow]. decs. lra.
Qed.
(** the sidereal time gains on the solar day what the Sun runs in longitude *)
Lemma sid_run dt T T' : Rabs ((T + dt) / 36525) <= 30 -> Rabs ((T' + dt) / 36525) <= 30 ->
  Rabs (sidereal_time T' dt - sidereal_time T dt - 2 * PI * (T' - T) - omega * (T' - T)) <= 2e-8 * Rabs (T' - T).
Proof.
  intros H H'. set (t := (T + dt) / 36525) in *. set (t' := (T' + dt) / 36525) in *.
  pose proof (pow_run 1 30 t' t H' H) as P2. pose proof (pow_run 2 30 t' t H' H) as P3. pose proof (pow_run 3 30 t' t H' H) as P4.
  assert (DT : T' - T = 36525 * (t' - t)) by (unfold t, t'; field). set (d := Rabs (t' - t)) in *.
  assert (DA : Rabs (T' - T) = 36525 * d) by (rewrite DT, Rabs_mult, (Rabs_pos_eq 36525) by lra; reflexivity). rewrite DA.
  unfold sidereal_time, arcsec, omega. cbv zeta. fold t t'.
  match goal with |- Rabs ?z <= _ => replace z with ((2 * PI * 36525 * 0.00273781191135448 + PI / 648000 * 4612.15739966 - 628.33196674749) * (t' - t) + (PI / 648000) * (1.39667721 * (t' ^ 2 - t ^ 2) - 0.00009344 * (t' ^ 3 - t ^ 3) + 0.00001882 * (t' ^ 4 - t ^ 4))) by (clearbody t t'; replace T' with (T + 36525 * (t' - t)) by lra; decs; field) end.
  pose proof PI_bounds as PB. assert (D0 : 0 <= d) by apply Rabs_pos.
  assert (P1 : Rabs (t' - t) <= d) by (unfold d; lra). clearbody d.
  match goal with |- Rabs (?u * (t' - t) + ?p * ?z) <= _ => assert (Q : Rabs (u * (t' - t) + p * z) <= 0.00001 * d + 5e-6 * (Rabs 1.39667721 * (INR 2 * 30 ^ 1 * d) + Rabs 0.00009344 * (INR 3 * 30 ^ 2 * d) + Rabs 0.00001882 * (INR 4 * 30 ^ 3 * d))) end.
  { apply sum_le; apply prod_le; try assumption.
    - apply Rabs_le. decs. lra.
    - rewrite Rabs_pos_eq by lra. decs. lra.
    - apply sum_le; [apply diff_le|]; (apply prod_le; [apply Rle_refl|assumption]). }
  apply Rle_trans with (1 := Q). rewrite !Rabs_pos_eq by (decs; lra). cbn [INR pow]. decs. lra.
Qed.
Lemma aberr_const t : Rabs t <= 30 -> Rabs (sun_aberration t + arcsec 20.5) <= 1.9e-6.
Proof.
  intros H. unfold sun_aberration, arcsec. set (c := cos _). assert (C : Rabs c <= 1) by apply one_cos. clearbody c. pose proof PI_bounds as PB.
  match goal with |- Rabs ?z <= _ => replace z with (PI / 648000 * (0.00448 - 20.49552 * ((0.016708634 - 0.000042037 * t - 0.0000001267 * t ^ 2) * c))) by (decs; field) end.
  apply Rle_trans with (4.8482e-6 * (0.00448 + 20.49552 * (0.0182 * 1))); [|decs; lra].
  apply prod_le. { rewrite Rabs_pos_eq by lra. decs. lra. }
  apply diff_le; [rewrite Rabs_pos_eq; decs; lra|]. apply prod_le; [rewrite Rabs_pos_eq; decs; lra|]. apply prod_le; [|exact C].
  assert (T2 : Rabs (t ^ 2) <= 900). { replace (t ^ 2) with (t * t) by ring. apply Rle_trans with (30 * 30); [apply prod_le; assumption|lra]. }
  apply Rabs_le_inv in T2. apply Rabs_le_inv in H. apply Rabs_le. decs. lra.
Qed.
