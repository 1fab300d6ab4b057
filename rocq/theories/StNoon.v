(** Real-number lemmas about local noon and small angles, for the times of the Sun. *)
From Coq Require Import ZArith Reals Lia Lra.
From Flocq Require Import Core.
From Verif Require Import F64E PiBound FormSpec FormProps SmTab WaveF WaveR SmSpec SmLon SmProps SmSun SunProps DtSpec HighR StSpec StReal.
From Verif Require Import StProof.
Open Scope R_scope.

Lemma delta_T_near y : -740 <= y <= 4740 -> Rabs (delta_T y) <= 30000.
Proof.
  intros Y. unfold delta_T. destruct (Rlt_dec y 2028).
  - unfold rows. cbn [in_table next_first first_year].
    match goal with |- context [Rlt_dec y ?b] => destruct (Rlt_dec y b) as [C|C] end.
    + match goal with |- Rabs (cubic _ ?t) <= _ => set (tau := t); assert (T : 93 / 10 <= tau <= 10) by (unfold tau; lra) end. clearbody tau.
      unfold cubic. assert (Q1 : tau ^ 2 <= 193 / 10 * tau - 93) by nra. assert (Q2 : 20 * tau - 100 <= tau ^ 2) by nra. rewrite Rmult_0_l, Rplus_0_r. apply Rabs_le. lra.
    + repeat match goal with |- context [Rlt_dec y ?b] => destruct (Rlt_dec y b); [match goal with |- Rabs (cubic ?c ?t) <= _ => apply Rle_trans with (1 := cubic_abs c t ltac:(apply Rabs_le; lra)); cbn -[IZR]; lra end|] end; lra.
  - assert (P : -20 <= parabola y <= 29000). { unfold parabola. pose proof (sq_le ((y - 1820) / 100) 30 ltac:(lra) ltac:(apply Rabs_le; lra)). lra. }
    assert (P2 : 113 <= parabola 2028 <= 115) by (unfold parabola; lra).
    destruct (Rle_dec y 2128); apply Rabs_le; [|lra].
    assert (0 <= (parabola 2028 - 726 / 10) * (2128 - y) / 100 <= 43 * 100 / 100).
    { unfold Rdiv. split; [apply Rmult_le_pos; [apply Rmult_le_pos|]; lra|]. apply Rmult_le_compat_r; [lra|]. apply Rmult_le_compat; lra. } lra.
Qed.

(** the Sun is near the meridian at local mean noon *)
Lemma noon_angle L dt T (n : Z) : Rabs T <= 1000002 -> Rabs dt <= 0.348 -> Rabs (T + L / (2 * PI) - IZR n) <= 1e-8 ->
  Rabs (local_time L dt T - sun_of_date ((T + dt) / 36525) - IZR n * (2 * PI)) <= 0.0600.
Proof.
  intros BT Bd HN. pose proof PI_bounds as PB. set (t := (T + dt) / 36525).
  assert (Ht : Rabs t <= 27.5). { revert Bd. decs. intros Bd. unfold t. apply Rabs_le_inv in BT. apply Rabs_le_inv in Bd. apply Rabs_le. lra. }
  revert Ht. decs. intros Ht. pose proof (sun_dev 3 t ltac:(lia) ltac:(lra)) as SD. pose proof dev3 as D3. pose proof (nut_small t ltac:(lra)) as N.
  assert (ET : T = 36525 * t - dt) by (unfold t; field). set (e := T + L / (2 * PI) - IZR n) in *.
  assert (EL : L = 2 * PI * (e - T + IZR n)) by (unfold e; field; revert PB; decs; lra).
  assert (P2 : Rabs (t ^ 2) <= 760) by (apply Rle_trans with (27.5 ^ 2); [rewrite <- RPow_abs; apply pow_incr; split; [apply Rabs_pos|decs; lra]|cbn [pow]; decs; lra]).
  assert (P3 : Rabs (t ^ 3) <= 20800) by (apply Rle_trans with (27.5 ^ 3); [rewrite <- RPow_abs; apply pow_incr; split; [apply Rabs_pos|decs; lra]|cbn [pow]; decs; lra]).
  assert (P4 : Rabs (t ^ 4) <= 572000) by (apply Rle_trans with (27.5 ^ 4); [rewrite <- RPow_abs; apply pow_incr; split; [apply Rabs_pos|decs; lra]|cbn [pow]; decs; lra]).
  set (dv := sun_mean t - sun_longitude t) in *.
  assert (ES : sun_of_date t = sun_mean t - dv - nut_lon t) by (unfold dv, sun_longitude, sun_of_date; ring).
  unfold local_time, sidereal_time. cbv zeta. fold t. rewrite ES. clear ES. clearbody dv e t. unfold sun_mean, arcsec.
  match goal with |- Rabs ?z <= _ => replace z with ((2 * PI * 0.7790572732640 - 1.75347 - PI) + (2 * PI * 36525 * 0.00273781191135448 + PI / 648000 * 4612.15739966 - 628.3319653318) * t
    - 2 * PI * 0.00273781191135448 * dt + (PI / 648000) * (0.014506 + 1.39667721 * t ^ 2 - 0.00009344 * t ^ 3 + 0.00001882 * t ^ 4) + 2 * PI * e + dv + nut_lon t) by (rewrite EL, ET; decs; field) end.
  assert (D3' : Rabs dv <= 0.0480499) by lra. clear SD D3.
  apply Rle_trans with (0.00011 + 0.000012 * 27.5 + 0.0172022 * 0.348 + 4.8482e-6 * 1077 + 6.2832 * 1e-8 + 0.0480499 + 22 / 206264); [|decs; lra].
  apply sum_le; [|exact N]. apply sum_le; [|exact D3']. apply sum_le; [apply sum_le; [apply diff_le; [apply sum_le|]|]|].
  - apply Rabs_le. revert PB. decs. lra.
  - apply prod_le; [apply Rabs_le; revert PB; decs; lra|decs; lra].
  - apply prod_le; [rewrite Rabs_pos_eq; revert PB; decs; lra|exact Bd].
  - apply prod_le; [rewrite Rabs_pos_eq; revert PB; decs; lra|]. apply Rabs_le_inv in P2. apply Rabs_le_inv in P3. apply Rabs_le_inv in P4. apply Rabs_le. revert P2 P3 P4. decs. lra.
  - apply prod_le; [rewrite Rabs_pos_eq; revert PB; decs; lra|exact HN].
Qed.

Lemma sin_lb y : 0 <= y <= 1 -> y * (1 - y * y / 2) <= sin y.
Proof.
  intros Y. destruct (Req_dec y 0) as [->|NZ]; [rewrite sin_0; lra|].
  destruct (MVT_cor2 sin cos 0 y ltac:(lra) (fun c _ => derivable_pt_lim_sin c)) as [c [EC RC]]. rewrite sin_0, !Rminus_0_r in EC. rewrite EC.
  pose proof (cos_lb c) as LB. rewrite (Rmult_comm (cos c)). apply Rmult_le_compat_l; [lra|]. nra.
Qed.
Lemma angle_small H y e : Rabs H <= 3.3 -> 0 < cos H -> Rabs (sin H) <= e -> 0 < y <= 1 -> e < y * (1 - y * y / 2) -> Rabs H <= y.
Proof.
  intros B C S Y E. pose proof PI_bounds as PB. revert PB B. decs. intros PB B. pose proof (sin_lb y ltac:(lra)) as LB.
  assert (G : forall x, 0 <= x <= 33 / 10 -> 0 < cos x -> Rabs (sin x) <= e -> x <= y).
  { intros x X CX SX. destruct (Rle_dec x y) as [|N]; [assumption|exfalso]. destruct (Rle_dec (PI / 2) x) as [Q|Q].
    - pose proof (cos_le_0 x Q ltac:(lra)). lra.
    - assert (sin y <= sin x) by (apply sin_incr_1; lra). apply Rabs_le_inv in SX. lra. }
  unfold Rabs in *. destruct (Rcase_abs H) as [N|N].
  - apply G; [lra|rewrite cos_neg; exact C|]. rewrite sin_neg. destruct (Rcase_abs (- sin H)), (Rcase_abs (sin H)); lra.
  - apply G; [lra|exact C|exact S].
Qed.
