(** C140: Moon and Sun over a place (MSC::calc). *)
From Coq Require Import ZArith Reals Lia Lra.
From Flocq Require Import Core.
From Verif Require Import GeoModel GeoSpec GeoProof GeoProps ObsModel ObsSpec ObsProps PiBound FormSpec FormProps WaveR MscModel.
Open Scope R_scope.

(** directions over the place with latitude fa when the local sidereal time is th, in the axes of the equator and equinox:
    the vertical, the west and the south *)
Definition up (fa th : R) : point := (cos fa * cos th, cos fa * sin th, sin fa).
Definition west (th : R) : point := (sin th, - cos th, 0).
Definition south (fa th : R) : point := (sin fa * cos th, sin fa * sin th, - cos fa).
(** the three directions are a frame *)
Lemma frame fa th : dot (up fa th) (up fa th) = 1 /\ dot (west th) (west th) = 1 /\ dot (south fa th) (south fa th) = 1 /\
  dot (up fa th) (west th) = 0 /\ dot (up fa th) (south fa th) = 0 /\ dot (west th) (south fa th) = 0.
Proof.
  pose proof (cs fa) as F. pose proof (cs th) as T. unfold dot, up, west, south. set (a := cos fa) in *. set (b := sin fa) in *. set (c := cos th) in *. set (d := sin th) in *. clearbody a b c d.
  repeat split; try ring.
  - transitivity (a * a * (c * c + d * d) + b * b); [ring|rewrite T, F; ring].
  - transitivity (c * c + d * d); [ring|rewrite T; ring].
  - transitivity (b * b * (c * c + d * d) + a * a); [ring|rewrite T, F; ring].
  - transitivity (a * b * (c * c + d * d - 1)); [ring|rewrite T; ring].
Qed.

(** ** Where a body is seen *)
Lemma hour_angle gst L cj : let H := rad2mrad (gst + L - cj) in let H := if Rlt_dec PI H then H - 2 * PI else H in
  - PI < H <= PI /\ exists k, H = gst + L - cj + 2 * PI * IZR k.
Proof.
  cbv zeta. destruct (rad2mrad_ok (gst + L - cj)) as [R [k E]]. pose proof PI_RGT_0. destruct (Rlt_dec PI (rad2mrad (gst + L - cj))) as [Q|Q].
  - split; [lra|]. exists (k - 1)%Z. rewrite E, minus_IZR. ring.
  - split; [lra|]. exists k. exact E.
Qed.
Lemma rot_z_turn th k p : rot_z (th + 2 * PI * IZR k) p = rot_z th p.
Proof. destruct p as [[x y] z]. unfold rot_z. now rewrite cos_Z, sin_Z. Qed.
(** Let v be the body's place in kilometres (the distance is given in astronomical units if below 500) and d that place seen from
    the station.  Right ascension and declination give v; the hour angle is the sidereal time over the place less the right
    ascension; the corrected coordinates give d; azimuth (from the south, westward) and altitude are those of d. *)
Theorem C140_place E gst L fa high hj hw r : - (PI / 2) < fa < PI / 2 -> - (PI / 2) < hw < PI / 2 ->
  let unit := if Rlt_dec r 500 then cs_AU else 1 in let b := observe E gst L fa high (hj, hw, r) in let th := gst + L in
  exists px pz, station cs_ba cs_rEar fa high px pz /\
    let v := rot_x E (llr2xyz (hj, hw, r * unit)) in let d := minus v (rot_z th (px, 0, pz)) in
    (HJ b, HW b, R0 b) = (hj, hw, r) /\ llr2xyz (CJ b, CW b, R0 b * unit) = v /\ 0 <= CJ b < 2 * PI /\ - (PI / 2) <= CW b <= PI / 2 /\
    - PI < ShiJ b <= PI /\ (exists k, ShiJ b = th - CJ b + 2 * PI * IZR k) /\
    ((fst (fst d), snd (fst d)) <> (0, 0) ->
     llr2xyz (CJ2 b, CW2 b, R2 b * unit) = d /\ 0 <= CJ2 b < 2 * PI /\ R2 b * unit = norm d /\
     0 <= DJ b < 2 * PI /\ - (PI / 2) <= DW b <= PI / 2 /\
     norm d * sin (DW b) = dot d (up fa th) /\ norm d * (cos (DW b) * sin (DJ b)) = dot d (west th) /\ norm d * (cos (DW b) * cos (DJ b)) = dot d (south fa th) /\
     PJ b = DJ b /\ PW b = (if Rlt_dec 0 (DW b) then DW b + MQC (DW b) else DW b)).
Proof.
  intros Hf Hw unit b th. assert (U0 : 0 < unit) by (unfold unit, cs_AU; destruct (Rlt_dec r 500); lra).
  assert (EB : b = observe E gst L fa high (hj, hw, r)) by reflexivity. clearbody b. revert EB. unfold observe. pose proof (C37_rotation hj hw r E Hw) as CR. pose proof (C37_ranges hj hw r E) as CG.
  assert (CR' : forall c, llr2xyz (fst (llrConv (hj, hw, r) E), r * c) = rot_x E (llr2xyz (hj, hw, r * c))).
  { intros c. rewrite <- (C37_rotation hj hw (r * c) E Hw). reflexivity. }
  destruct (llrConv (hj, hw, r) E) as [[cj cw] r1]. destruct CG as (G1 & G2 & ->). cbn [fst] in CR'.
  destruct (hour_angle gst L cj) as (H1 & k & H2). cbv zeta in H1, H2. cbv zeta. set (H := if Rlt_dec PI (rad2mrad (gst + L - cj)) then rad2mrad (gst + L - cj) - 2 * PI else rad2mrad (gst + L - cj)) in *.
  destruct (C102_topocentric cj cw r H fa high Hf) as (px & pz & ST & TP). fold unit in TP. intros EB. exists px, pz. split; [exact ST|]. revert EB. cbv zeta. cbv zeta in TP.
  replace (cj + H) with (th + 2 * PI * IZR k) in TP by (rewrite H2; unfold th; ring). rewrite rot_z_turn, (CR' unit) in TP. rewrite <- (CR' unit). rewrite <- (CR' unit) in TP.
  set (v := llr2xyz (cj, cw, r * unit)) in *. set (d := minus v (rot_z th (px, 0, pz))) in *. clearbody H.
  destruct (parallax (cj, cw, r) H fa high) as [[cj2 cw2] r2] eqn:EP.
  assert (EC : llrConv (cj2 + (PI / 2 - gst - L), cw2, r2) (PI / 2 - fa) = llrConv (cj2 + PI / 2 - gst - L, cw2, r2) (PI / 2 - fa)) by (f_equal; f_equal; f_equal; ring).
  rewrite EC. pose proof (C59_horizontal cj2 cw2 r2 L fa gst) as HZ. cbv zeta in HZ. unfold CD2DP in HZ.
  destruct (llrConv (cj2 + PI / 2 - gst - L, cw2, r2) (PI / 2 - fa)) as [[a h] r3]. intros ->. cbn [HJ HW R0 CJ CW ShiJ CJ2 CW2 R2 DJ DW PJ PW].
  split; [reflexivity|]. split; [reflexivity|]. split; [exact G1|]. split; [exact G2|]. split; [exact H1|]. split; [exists k; exact H2|].
  intros NZ. destruct TP as (J' & W' & r' & EQ & RJ & RW & Rr & ED). { intros Z. apply NZ. rewrite Z. reflexivity. }
  injection EQ as -> -> ->. split; [exact ED|]. split; [exact RJ|].
  assert (Rp : 0 < r' * unit) by (apply Rmult_lt_0_compat; assumption). set (q := r' * unit) in *.
  assert (CW0 : cos W' <> 0). { intros Z. apply NZ. rewrite <- ED. unfold llr2xyz. cbn [fst snd]. rewrite Z. f_equal; ring. }
  assert (IW : - (PI / 2) < W' < PI / 2).
  { split; [destruct (Req_dec W' (- (PI / 2))) as [Q|Q]|destruct (Req_dec W' (PI / 2)) as [Q|Q]]; try lra; exfalso; apply CW0; rewrite Q; [rewrite cos_neg|]; apply cos_PI2. }
  destruct (HZ IW) as (A & h' & EH & RA & Rh & S1 & S2 & S3). injection EH as EA -> ->. rewrite EA.
  assert (NQ : q = norm d). { rewrite <- ED. unfold norm, llr2xyz. pose proof (cs W') as K1. pose proof (cs J') as K2.
    match goal with |- _ = sqrt ?z => replace z with (q * q) end; [symmetry; apply sqrt_square; lra|].
    set (a1 := cos W') in *. set (a2 := sin W') in *. set (a3 := cos J') in *. set (a4 := sin J') in *. clearbody a1 a2 a3 a4. transitivity (q * q * (a1 * a1 * (a3 * a3 + a4 * a4) + a2 * a2)); [rewrite K2, K1|]; ring. }
  split; [exact NQ|]. split; [exact RA|]. split; [exact Rh|]. rewrite <- NQ, <- ED, S1, S2, S3. unfold dot, llr2xyz, up, west, south. fold th. rewrite cos_minus, sin_minus.
  split; [ring|]. split; [ring|]. split; [ring|]. split; reflexivity.
Qed.

(** ** Refraction *)
Definition apparent (h : R) : R := if Rlt_dec 0 h then h + MQC h else h.
Lemma bend_incr h h' : 0 <= h -> h <= h' -> h + 0.003138 / (h + 0.08919) <= h' + 0.003138 / (h' + 0.08919) <= h + 0.003138 / (h + 0.08919) + (h' - h).
Proof.
  intros H0 H1. assert (E : 0.003138 / (h + 0.08919) - 0.003138 / (h' + 0.08919) = (h' - h) * (0.003138 / ((h + 0.08919) * (h' + 0.08919)))) by (field; lra).
  assert (P : 0.0079 <= (h + 0.08919) * (h' + 0.08919)) by nra.
  assert (Q : 0 <= 0.003138 / ((h + 0.08919) * (h' + 0.08919)) <= 1).
  { split; [apply Rmult_le_pos; [lra|left; apply Rinv_0_lt_compat; lra]|]. apply (Rmult_le_reg_r ((h + 0.08919) * (h' + 0.08919))); [lra|]. unfold Rdiv. rewrite Rmult_assoc, Rinv_l by lra. lra. }
  set (z := 0.003138 / ((h + 0.08919) * (h' + 0.08919))) in *. clearbody z. assert (0 <= (h' - h) * z <= h' - h) by (split; nra). lra.
Qed.
Lemma bend_range h : 0 <= h <= PI / 2 -> let x := h + 0.003138 / (h + 0.08919) in 0.03518 <= x <= PI / 2 + 0.0019 /\ h + 0.00188 <= x.
Proof.
  intros H x. pose proof PI_bounds as PB. destruct (bend_incr 0 h ltac:(lra) ltac:(lra)) as [A _]. assert (E0 : 0.03518 <= 0 + 0.003138 / (0 + 0.08919)) by lra.
  assert (E1 : 0.003138 / (PI / 2 + 0.08919) <= 0.0019). { apply (Rmult_le_reg_r (PI / 2 + 0.08919)); [lra|]. unfold Rdiv at 1. rewrite Rmult_assoc, Rinv_l by lra. revert PB. lra. }
  destruct (bend_incr h (PI / 2) ltac:(lra) ltac:(lra)) as [B _]. unfold x. split; [lra|].
  assert (E2 : 0.00188 <= 0.003138 / (h + 0.08919)); [|lra]. apply (Rmult_le_reg_r (h + 0.08919)); [lra|]. unfold Rdiv at 1. rewrite Rmult_assoc, Rinv_l by lra. lra.
Qed.
Lemma sin_low x : 0.03518 <= x <= PI / 2 + 0.0019 -> 0.0351 <= sin x.
Proof.
  intros X. pose proof PI_bounds as PB. pose proof (SIN_bound x). destruct (Rle_dec x (PI / 2)) as [Q|Q].
  - apply Rle_trans with (sin 0.03518); [|apply sin_incr_1; lra].
    destruct (SIN 0.03518) as [S _]; [lra|lra|]. unfold sin_lb, sin_approx, sin_term in S. cbn [sum_f_R0 Nat.add Nat.mul] in S. cbn in S. lra.
  - pose proof (sin_PI_x x) as E. rewrite <- E. apply Rle_trans with (sin (1)); [|apply sin_incr_1; lra].
    destruct (SIN 1) as [S _]; [lra|lra|]. unfold sin_lb, sin_approx, sin_term in S. cbn in S. lra.
Qed.
Lemma sin_le_x x : 0 <= x -> sin x <= x.
Proof. intros [H|<-]; [left; now apply sin_lt_x|rewrite sin_0; lra]. Qed.
Lemma MQC_eq h : MQC h = 0.0002967 * (cos (h + 0.003138 / (h + 0.08919)) / sin (h + 0.003138 / (h + 0.08919))).
Proof. unfold MQC, tan, Rdiv. now rewrite Rinv_mult, Rinv_inv, (Rmult_comm (/ sin _)). Qed.
(** The apparent altitude grows with the true one, is at most the right angle, and differs from the true altitude by at most
    0.00846 (29 minutes of arc); near the zenith the correction is below zero, by less than 6e-7 (0.12 seconds). *)
Theorem C140_refraction h : 0 < h <= PI / 2 -> h - 6e-7 <= apparent h <= h + 0.00846 /\ apparent h <= PI / 2.
Proof.
  intros H. pose proof PI_bounds as PB. unfold apparent. destruct (Rlt_dec 0 h) as [_|]; [|lra]. rewrite MQC_eq.
  destruct (bend_range h ltac:(lra)) as [[X1 X2] X3]. cbv zeta in *. set (x := h + 0.003138 / (h + 0.08919)) in *. clearbody x.
  pose proof (sin_low x ltac:(lra)) as S0. pose proof (SIN_bound x) as S1. set (k := cos x / sin x). assert (EK : k * sin x = cos x) by (unfold k; field; lra). clearbody k.
  destruct (Rle_dec x (PI / 2)) as [Q|Q].
  - assert (C0 : 0 <= cos x) by (apply cos_ge_0; lra). assert (K0 : 0 <= k) by nra.
    assert (KS : k <= 1 / 0.0351). { assert (k * 0.0351 <= 1) by (pose proof (COS_bound x); nra). lra. }
    split; [lra|]. (* cos x <= pi/2 - x *)
    assert (CX : cos x <= PI / 2 - x). { rewrite <- sin_shift. apply sin_le_x. lra. }
    destruct (Rle_dec x 0.6) as [Q6|Q6]; [lra|].
    assert (SX : 0.5 <= sin x). { apply Rle_trans with (sin (PI / 6)); [rewrite sin_PI6; lra|apply sin_incr_1; lra]. }
    assert (k <= 2 * (PI / 2 - x)) by nra. lra.
  - assert (SX : 0.99 <= sin x). { rewrite <- (sin_PI_x x). apply Rle_trans with (sin 1.5); [|apply sin_incr_1; lra]. destruct (SIN 1.5) as [S _]; [lra|lra|]. unfold sin_lb, sin_approx, sin_term in S. cbn in S. lra. }
    assert (CX : - 0.0019 <= cos x <= 0). { replace (cos x) with (- sin (x - PI / 2)); [|rewrite sin_minus, cos_PI2, sin_PI2; ring]. pose proof (sin_le_x (x - PI / 2) ltac:(lra)). pose proof (sin_ge_0 (x - PI / 2) ltac:(lra) ltac:(lra)). lra. }
    assert (- 0.00192 <= k <= 0) by (split; nra). lra.
Qed.
Theorem C140_refraction_grows h h' : h < h' <= PI / 2 -> apparent h < apparent h'.
Proof.
  intros H. pose proof PI_bounds as PB. destruct (Rle_dec h 0) as [N|N].
  - unfold apparent at 1. destruct (Rlt_dec 0 h) as [|_]; [lra|]. destruct (Rle_dec h' 0) as [N'|N']; [unfold apparent; destruct (Rlt_dec 0 h'); lra|].
    unfold apparent. destruct (Rlt_dec 0 h') as [_|]; [|lra]. rewrite MQC_eq. destruct (bend_range h' ltac:(lra)) as [[X1 X2] X3]. destruct (bend_incr 0 h' ltac:(lra) ltac:(lra)) as [_ B2]. cbv zeta in *. set (x := h' + 0.003138 / (h' + 0.08919)) in *. clearbody x.
    pose proof (sin_low x ltac:(lra)) as S0. set (k := cos x / sin x). assert (EK : k * sin x = cos x) by (unfold k; field; lra). clearbody k.
    destruct (Rle_dec x (PI / 2)) as [Q|Q]; [assert (C0 : 0 <= cos x) by (apply cos_ge_0; lra); assert (0 <= k) by nra; lra|].
    assert (-30 <= k) by (pose proof (COS_bound x); nra). lra.
  - unfold apparent. destruct (Rlt_dec 0 h) as [_|]; [|lra]. destruct (Rlt_dec 0 h') as [_|]; [|lra]. rewrite !MQC_eq.
    destruct (bend_range h ltac:(lra)) as [X1 _]. destruct (bend_range h' ltac:(lra)) as [Y1 _]. cbv zeta in *. destruct (bend_incr h h' ltac:(lra) ltac:(lra)) as [B1 B2].
    set (x := h + 0.003138 / (h + 0.08919)) in *. set (y := h' + 0.003138 / (h' + 0.08919)) in *. clearbody x y.
    pose proof (sin_low x X1) as S0. pose proof (sin_low y Y1) as S1.
    assert (E : cos x / sin x - cos y / sin y = sin (y - x) / (sin x * sin y)) by (rewrite sin_minus; field; lra).
    assert (D : sin (y - x) <= h' - h) by (pose proof (sin_le_x (y - x) ltac:(lra)); lra).
    assert (P : 0.00123 <= sin x * sin y) by nra. assert (Q : sin (y - x) / (sin x * sin y) <= (h' - h) * 814).
    { apply (Rmult_le_reg_r (sin x * sin y)); [lra|]. unfold Rdiv. rewrite Rmult_assoc, Rinv_l by lra. rewrite Rmult_1_r. apply Rle_trans with (1 := D). nra. }
    lra.
Qed.
(** no body is ever shown between the horizon and 0.0083 (28 minutes of arc): below the horizon refraction is left out *)
Theorem C140_refraction_gap h : h <= PI / 2 -> apparent h <= 0 \/ 0.0083 <= apparent h.
Proof.
  intros H. pose proof PI_bounds as PB. destruct (Rle_dec h 0) as [N|N]; [left; unfold apparent; destruct (Rlt_dec 0 h); lra|right].
  destruct (Rle_dec 0.1 h) as [Q|Q]; [destruct (C140_refraction h ltac:(lra)) as [[A _] _]; lra|].
  unfold apparent. destruct (Rlt_dec 0 h) as [_|]; [|lra]. rewrite MQC_eq.
    set (x := h + 0.003138 / (h + 0.08919)). assert (X : 0.03518 <= x <= 0.0352 + 0.82 * h).
  { split; [apply (bend_range h); lra|]. unfold x. assert (0.003138 / (h + 0.08919) <= 0.0352 - 0.18 * h); [|lra]. apply (Rmult_le_reg_r (h + 0.08919)); [lra|]. unfold Rdiv. rewrite Rmult_assoc, Rinv_l by lra. nra. }
  clearbody x. pose proof (sin_low x ltac:(lra)) as S0. pose proof (sin_le_x x ltac:(lra)) as S1.
  assert (C0 : 1 - x * x / 2 <= cos x). { pose proof (cos_2a_sin (x / 2)) as E. replace (2 * (x / 2)) with x in E by field. pose proof (sin_le_x (x / 2) ltac:(lra)). pose proof (sin_ge_0 (x / 2) ltac:(lra) ltac:(lra)). nra. }
  assert (K : (1 - x * x / 2) / x <= cos x / sin x).
  { unfold Rdiv at 1 3. apply Rmult_le_compat; [nra|left; apply Rinv_0_lt_compat; lra|exact C0|apply Rinv_le_contravar; lra]. }
  assert (EX : (1 - x * x / 2) / x = / x - x / 2) by (field; lra).
  assert (IX : / (0.0352 + 0.82 * h) <= / x) by (apply Rinv_le_contravar; lra).
  assert (IH : 0.0083 - h + 0.0002967 * 0.06 <= 0.0002967 * / (0.0352 + 0.82 * h)).
  { apply (Rmult_le_reg_r (0.0352 + 0.82 * h)); [lra|]. rewrite (Rmult_assoc 0.0002967), Rinv_l by lra. nra. }
  assert (x / 2 <= 0.06) by lra. lra.
Qed.

(** ** True solar time *)
Definition slip (T dt : R) : R := sidereal_time (36525 * T - dt) dt - 2 * PI * (36525 * T - dt) - mean_lon T.
Lemma slip_le B T dt : 0 <= B -> Rabs T <= B ->
  Rabs (slip T dt) <= 2.2e-6 + 4.1e-6 * B + 0.0172022 * Rabs dt + 1.4746e-6 * B ^ 2 + 8.86e-10 * B ^ 3 + 2.04e-10 * B ^ 4 + 9.1e-14 * B ^ 5.
Proof.
  intros B0 Ht. pose proof PI_bounds as PB. unfold slip, sidereal_time, mean_lon, sec_rad. cbv zeta. replace ((36525 * T - dt + dt) / 36525) with T by field. unfold arcsec.
  match goal with |- Rabs ?z <= _ => replace z with ((2 * PI * 0.7790572732640 - 1.753470142 - PI + PI / 648000 * 20.514506) + (2 * PI * 36525 * 0.00273781191135448 + PI / 648000 * 4612.15739966 - 628.3319653318) * T
    - 2 * PI * 0.00273781191135448 * dt + (PI / 648000 * 1.39667721 - 5.29674e-6) * T ^ 2 - (PI / 648000 * 0.00009344 + 4.32e-10) * T ^ 3 + (PI / 648000 * 0.00001882 + 1.124e-10) * T ^ 4 + 9e-14 * T ^ 5) by (decs; field; lra) end.
  assert (P : forall k, Rabs (T ^ k) <= B ^ k) by (intros k; rewrite <- RPow_abs; apply pow_incr; split; [apply Rabs_pos|exact Ht]).
  apply sum_le; [apply sum_le; [apply diff_le; [apply sum_le; [apply diff_le; [apply sum_le|]|]|]|]|].
  - apply Rabs_le. lra.
  - apply prod_le; [apply Rabs_le; lra|exact Ht].
  - apply prod_le; [rewrite Rabs_pos_eq; lra|apply Rle_refl].
  - apply prod_le; [apply Rabs_le; lra|apply P].
  - apply prod_le; [rewrite Rabs_pos_eq; lra|apply P].
  - apply prod_le; [rewrite Rabs_pos_eq; lra|apply P].
  - apply prod_le; [rewrite Rabs_pos_eq; lra|apply P].
Qed.
Section Calc.
Variables dt_T hcjj gxc_moonLon gxc_moonLat gxc_sunLon gxc_sunLat moonIll : R -> R.
Variable nutation2 : R -> R * R.
Variables m_coord e_coord : R -> vec.
Notation calc := (calc dt_T hcjj gxc_moonLon gxc_moonLat gxc_sunLon gxc_sunLat moonIll nutation2 sidereal_time m_coord e_coord).

(** what of the Sun's hour angle observe gives *)
Lemma observe_hour E gst L fa high z : let b := observe E gst L fa high z in - PI < ShiJ b <= PI /\ exists k, ShiJ b = gst + L - CJ b + 2 * PI * IZR k.
Proof.
  cbv zeta. unfold observe. destruct z as [[hj hw] r], (llrConv _ E) as [[cj cw] r1]. cbv zeta. pose proof (hour_angle gst L cj) as H. cbv zeta in H.
  destruct (parallax _ _ fa high) as [[cj2 cw2] r2], (llrConv _ (PI / 2 - fa)) as [[a h] r3]. exact H.
Qed.
Lemma eq_time_ok T c dL E : - / 2 < eq_time T c dL E <= / 2 /\ exists k, 2 * PI * eq_time T c dL E = mean_lon T - (c - dL * cos E) + 2 * PI * IZR k.
Proof.
  unfold eq_time. cbv zeta. set (x := mean_lon T - (c - dL * cos E)). destruct (rad2mrad_ok x) as [R [k K]]. pose proof PI_RGT_0 as P.
  assert (G : forall y, - PI < y <= PI -> - / 2 < y / (2 * PI) <= / 2).
  { intros y Y. split; [apply (Rmult_lt_reg_r (2 * PI)); [lra|]|apply (Rmult_le_reg_r (2 * PI)); [lra|]]; unfold Rdiv; rewrite Rmult_assoc, Rinv_l by lra; lra. }
  destruct (Rlt_dec PI (rad2mrad x)).
  - split; [apply G; lra|]. exists (k - 1)%Z. rewrite minus_IZR. transitivity (rad2mrad x - 2 * PI); [field; lra|rewrite K; ring].
  - split; [apply G; lra|]. exists k. transitivity (rad2mrad x); [field; lra|exact K].
Qed.
(** The true solar time shown is the Sun's hour angle shown, in days, up to whole days; mean and true time differ by at most half a day. *)
Theorem C140_solar_time T0 L fa high : Rabs T0 <= 1000000 -> let r := calc T0 L fa high in
  v_pty r = T0 - dt_T T0 + L / (2 * PI) /\ Rabs (v_zty r - v_pty r) <= / 2 /\
  exists k : Z, let e := Rabs (ShiJ (v_s r) - 2 * PI * v_zty r - 2 * PI * IZR k) in
    e <= 0.0014 + 0.0172022 * Rabs (dt_T T0) /\ (Rabs T0 <= 73050 -> e <= 1.7e-5 + 0.0172022 * Rabs (dt_T T0)).
Proof.
  intros BT. cbv zeta. unfold MscModel.calc. destruct (nutation2 (T0 / 36525)) as [dL dE]. cbv zeta. cbn [v_pty v_zty v_s v_gst].
  set (T := T0 / 36525). set (dt := dt_T T0). set (E := hcjj T + dE). set (gst := sidereal_time (T0 - dt) dt + dL * cos E). set (s := observe E gst L fa high _).
  destruct (observe_hour E gst L fa high (sun_place gxc_sunLon gxc_sunLat e_coord T dL)) as [_ [k K]]. fold s in K. clearbody s.
  destruct (eq_time_ok T (CJ s) dL E) as [EB [j J]]. set (sc := eq_time T (CJ s) dL E) in *. clearbody sc. pose proof PI_RGT_0 as P.
  split; [reflexivity|]. split; [apply Rabs_le; lra|]. exists (k - j)%Z. assert (ET : T0 = 36525 * T) by (unfold T; field).
  assert (EE : ShiJ s - 2 * PI * (T0 - dt + L / (2 * PI) + sc) - 2 * PI * IZR (k - j) = slip T dt).
  { rewrite minus_IZR. unfold slip. rewrite <- ET. rewrite K. unfold gst. replace (2 * PI * (T0 - dt + L / (2 * PI) + sc)) with (2 * PI * (T0 - dt) + L + 2 * PI * sc) by (field; lra). rewrite J. ring. }
  rewrite EE. apply Rabs_le_inv in BT. split.
  - apply Rle_trans with (1 := slip_le 27.4 T dt ltac:(lra) ltac:(apply Rabs_le; lra)). decs. lra.
  - intros BN. apply Rabs_le_inv in BN. apply Rle_trans with (1 := slip_le 2 T dt ltac:(lra) ltac:(apply Rabs_le; lra)). decs. lra.
Qed.

(** ** The centre of a solar eclipse *)
(** the geodetic longitude J (from the meridian that has the right ascension gst) and latitude W of the point X of the ellipsoid *)
Definition geodetic (gst : R) (X : point) (J W : R) : Prop := let '(x, y, z) := X in - PI < J <= PI /\ - (PI / 2) < W < PI / 2 /\
  (0 < x * x + y * y -> exists k, 0 < k /\ rot_z (- gst) (x, y, z / (cs_ba * cs_ba)) = llr2xyz (J, W, k)).
Lemma nearest P Q gst : llr2xyz P <> llr2xyz Q ->
  match lineEar P Q gst cs_ba cs_rEar with
  | None => forall s, ~ on_ellipsoid cs_ba cs_rEar (on_line (llr2xyz P) (llr2xyz Q) s)
  | Some (h, J, W) => exists t, let X := on_line (llr2xyz P) (llr2xyz Q) t in on_ellipsoid cs_ba cs_rEar X /\
      (forall s, on_ellipsoid cs_ba cs_rEar (on_line (llr2xyz P) (llr2xyz Q) s) -> Rabs t <= Rabs s) /\ geodetic gst X J W
  end.
Proof.
  intros NE. assert (B0 : 0 < cs_ba) by (unfold cs_ba; lra). pose proof (C62_lineEar P Q gst cs_ba cs_rEar B0 NE) as H. pose proof (C39_hit _ _ cs_ba cs_rEar B0 NE) as N. revert H. unfold lineEar.
  set (p := llr2xyz P) in *. set (q := llr2xyz Q) in *. clearbody p q.
  assert (P0 : on_line p q 0 = p) by (destruct p as [[? ?] ?], q as [[? ?] ?]; unfold on_line; f_equal; [f_equal|]; ring).
  assert (DP : 0 < dist p q).
  { destruct p as [[a b] c], q as [[a' b'] c']. unfold dist, norm, minus. apply sqrt_lt_R0.
    pose proof (Rle_0_sqr (a - a')) as S1. pose proof (Rle_0_sqr (b - b')) as S2. pose proof (Rle_0_sqr (c - c')) as S3. fold (Rsqr (a - a')) (Rsqr (b - b')) (Rsqr (c - c')).
    destruct (Req_dec a a') as [->|D]; [|pose proof (Rlt_0_sqr (a - a') ltac:(lra)); lra]. destruct (Req_dec b b') as [->|D]; [|pose proof (Rlt_0_sqr (b - b') ltac:(lra)); lra].
    destruct (Req_dec c c') as [->|D]; [now contradiction NE|pose proof (Rlt_0_sqr (c - c') ltac:(lra)); lra]. }
  assert (DL : forall t, dist (on_line p q t) p = dist p q * Rabs t). { intros t. rewrite <- P0 at 2. rewrite dist_line. do 2 f_equal. ring. }
  destruct p as [[px py] pz], q as [[qx qy] qz]. destruct (snd (lineEll px py pz qx qy qz cs_ba cs_rEar)) as [h|]; [|intros _; exact N].
  intros (_ & _ & RJ & RW & G). destruct N as (t & EX & EL & _ & _ & NR). exists t. cbv zeta. split; [exact EL|]. split.
  - intros s ES. specialize (NR s ES). rewrite !DL in NR. apply (Rmult_le_reg_l _ _ _ DP NR).
  - rewrite <- EX. unfold geodetic. split; [exact RJ|]. split; [exact RW|exact G].
Qed.

Lemma cos_low x : 1 - x * x / 2 <= cos x.
Proof.
  pose proof (cos_2a_sin (x / 2)) as E. replace (2 * (x / 2)) with x in E by field. rewrite E.
  assert (A : Rabs (sin (x / 2)) <= Rabs (x / 2)).
  { destruct (Rle_dec 0 (x / 2)) as [P|P].
    - rewrite (Rabs_pos_eq (x / 2)) by exact P. apply Rabs_le. split; [|apply sin_le_x; exact P]. destruct (Rle_dec (x / 2) PI) as [Q|Q]; [pose proof (sin_ge_0 (x / 2) P Q); lra|pose proof (SIN_bound (x / 2)); pose proof PI2_3_2; unfold PI2 in *; lra].
    - rewrite (Rabs_left (x / 2)) by lra. apply Rabs_le. pose proof (sin_le_x (- (x / 2)) ltac:(lra)) as S. rewrite sin_neg in S. split; [lra|].
      destruct (Rle_dec (- (x / 2)) PI) as [Q|Q]; [pose proof (sin_ge_0 (- (x / 2)) ltac:(lra) Q) as S'; rewrite sin_neg in S'; lra|pose proof (SIN_bound (x / 2)); pose proof PI2_3_2; unfold PI2 in *; lra]. }
  pose proof (prod_le _ _ _ _ A A) as Q. rewrite <- !Rabs_mult in Q. rewrite !Rabs_pos_eq in Q by apply Rle_0_sqr. lra.
Qed.
Lemma dot_line p q t : dot (on_line p q t) (on_line p q t) = (1 - t) * (1 - t) * dot p p + 2 * (t * (1 - t)) * dot p q + t * t * dot q q.
Proof. destruct p as [[x y] z], q as [[a b] c]. unfold dot, on_line. ring. Qed.
Lemma dot_le p q : 2 * dot p q <= dot p p + dot q q.
Proof. destruct p as [[x y] z], q as [[a b] c]. unfold dot. pose proof (Rle_0_sqr (x - a)). pose proof (Rle_0_sqr (y - b)). pose proof (Rle_0_sqr (z - c)). unfold Rsqr in *. lra. Qed.
Lemma ell_small x y z : on_ellipsoid cs_ba cs_rEar (x, y, z) -> x * x + y * y + z * z <= 6379 * 6379.
Proof.
  unfold on_ellipsoid. intros E. assert (z * z <= z * z / (cs_ba * cs_ba)); [|unfold cs_rEar in E; lra].
  pose proof (Rle_0_sqr z) as Z. unfold Rsqr in Z. unfold Rdiv. assert (1 <= / (cs_ba * cs_ba)); [|nra]. rewrite <- Rinv_1. apply Rinv_le_contravar; unfold cs_ba; lra.
Qed.
(** when Sun and Moon are within a right angle, the line through them meets the Earth only behind the Moon *)
Lemma behind p q t : 300000 * 300000 <= dot p p -> dot p p <= dot q q -> 0 <= dot p q -> on_ellipsoid cs_ba cs_rEar (on_line p q t) -> t < 0.
Proof.
  intros P Q PQ ON. destruct (Rlt_dec t 0) as [|N]; [assumption|exfalso].
  assert (S : dot (on_line p q t) (on_line p q t) <= 6379 * 6379). { destruct (on_line p q t) as [[x y] z]. unfold dot. now apply ell_small. }
  rewrite dot_line in S. pose proof (dot_le p q) as D. set (a := dot p p) in *. set (b := dot q q) in *. set (c := dot p q) in *. clearbody a b c.
  destruct (Rle_dec t 1) as [T|T].
  - assert (0 <= t * (1 - t) * c) by (apply Rmult_le_pos; [nra|lra]). assert ((1 - t) * (1 - t) * a + t * t * a <= (1 - t) * (1 - t) * a + t * t * b) by nra.
    assert (HH : / 2 <= (1 - t) * (1 - t) + t * t) by (pose proof (Rle_0_sqr (2 * t - 1)) as X; unfold Rsqr in X; lra).
    assert (H' := Rmult_le_compat_r a _ _ ltac:(lra) HH). lra.
  - assert (E : (1 - t) * (1 - t) * a + 2 * (t * (1 - t)) * c + t * t * b = b + 2 * (t - 1) * (b - c) + (t - 1) * (t - 1) * (a + b - 2 * c)) by ring. rewrite E in S.
    assert (0 <= (t - 1) * (b - c)) by (apply Rmult_le_pos; lra). assert (0 <= (t - 1) * (t - 1) * (a + b - 2 * c)) by (apply Rmult_le_pos; [nra|lra]). lra.
Qed.

(** of the points of the line in the ellipsoid, the one nearest to p and behind it is on the side turned to q *)
Lemma sunlit p q t : on_ellipsoid cs_ba cs_rEar (on_line p q t) -> p <> q ->
  (forall s, on_ellipsoid cs_ba cs_rEar (on_line p q s) -> s <= t) ->
  let '(x, y, z) := on_line p q t in 0 <= dot (x, y, z / (cs_ba * cs_ba)) (minus q p).
Proof.
  destruct p as [[x y] z], q as [[a b] c]. unfold on_ellipsoid, on_line, dot, minus. intros ON NE TOP.
  set (f := / (cs_ba * cs_ba)). assert (F : 0 < f) by (unfold f, cs_ba; apply Rinv_0_lt_compat; lra).
  set (A := (a - x) * (a - x) + (b - y) * (b - y) + (c - z) * (c - z) * f).
  set (B := (x + (a - x) * t) * (a - x) + (y + (b - y) * t) * (b - y) + (z + (c - z) * t) / (cs_ba * cs_ba) * (c - z)).
  assert (A0 : 0 < A).
  { unfold A. pose proof (Rle_0_sqr (a - x)) as S1. pose proof (Rle_0_sqr (b - y)) as S2. pose proof (Rle_0_sqr (c - z)) as S3. unfold Rsqr in *.
    assert (0 <= (c - z) * (c - z) * f) by (apply Rmult_le_pos; lra).
    destruct (Req_dec a x) as [->|D]; [|pose proof (Rlt_0_sqr (a - x) ltac:(lra)) as Y; unfold Rsqr in Y; lra].
    destruct (Req_dec b y) as [->|D]; [|pose proof (Rlt_0_sqr (b - y) ltac:(lra)) as Y; unfold Rsqr in Y; lra].
    destruct (Req_dec c z) as [->|D]; [now contradiction NE|]. pose proof (Rlt_0_sqr (c - z) ltac:(lra)) as Y. unfold Rsqr in Y. assert (0 < (c - z) * (c - z) * f) by (apply Rmult_lt_0_compat; lra). lra. }
  specialize (TOP (t - 2 * B / A)).
  assert (E : forall u, (x + (a - x) * (t + u)) * (x + (a - x) * (t + u)) + (y + (b - y) * (t + u)) * (y + (b - y) * (t + u)) + (z + (c - z) * (t + u)) * (z + (c - z) * (t + u)) / (cs_ba * cs_ba)
      = ((x + (a - x) * t) * (x + (a - x) * t) + (y + (b - y) * t) * (y + (b - y) * t) + (z + (c - z) * t) * (z + (c - z) * t) / (cs_ba * cs_ba)) + u * (2 * B + A * u)).
  { intros u. unfold B, A, Rdiv. fold f. ring. }
  replace (t - 2 * B / A) with (t + (- (2 * B / A))) in TOP by ring. rewrite E, ON in TOP.
  assert (G : t + - (2 * B / A) <= t). { apply TOP. field. lra. }
  assert (0 <= 2 * B / A) by lra. assert (0 <= 2 * B / A * A) by (apply Rmult_le_pos; lra). replace (2 * B / A * A) with (2 * B) in * by (field; lra). lra.
Qed.
(** a body within 30 degrees of the equator *)
Lemma cos30 w : Rabs w <= PI / 6 -> 0.86 <= cos w /\ Rabs (sin w) <= 1 / 2.
Proof.
  intros B. apply Rabs_le_inv in B. pose proof PI_bounds as P. split.
  - apply Rle_trans with (2 := cos_low w). assert (w * w <= 0.5236 * 0.5236); [|lra]. assert (- 0.5236 <= w <= 0.5236) by lra. nra.
  - apply Rabs_le. rewrite <- sin_PI6. replace (- sin (PI / 6)) with (sin (- (PI / 6))) by apply sin_neg. split; apply sin_incr_1; lra.
Qed.
Lemma dot_self j w r : dot (llr2xyz (j, w, r)) (llr2xyz (j, w, r)) = r * r.
Proof. unfold dot, llr2xyz. pose proof (sin2_cos2 j) as J. pose proof (sin2_cos2 w) as W. unfold Rsqr in *. replace (r * r) with (r * r * ((sin w * sin w) + cos w * cos w * (sin j * sin j + cos j * cos j))) by (rewrite J, Rmult_1_r, W; ring). ring. Qed.
Lemma dot_pq j w r j' w' r' : dot (llr2xyz (j, w, r)) (llr2xyz (j', w', r')) = r * r' * (cos w * cos w' * cos (j - j') + sin w * sin w').
Proof. unfold dot, llr2xyz. rewrite cos_minus. ring. Qed.

(** bodies 45 degrees or more apart in right ascension: no shadow on the Earth *)
Lemma apart j w r j' w' r' t : cos (j - j') <= 0.7072 -> 300000 <= r -> 0 < r' -> Rabs w <= PI / 6 -> Rabs w' <= PI / 6 -> t <= 0 ->
  ~ on_ellipsoid cs_ba cs_rEar (on_line (llr2xyz (j, w, r)) (llr2xyz (j', w', r')) t).
Proof.
  intros C R' R1 W W' T ON. destruct (cos30 w W) as [CW _]. destruct (cos30 w' W') as [CW' _].
  revert ON. unfold llr2xyz, on_line. intros ON. apply ell_small in ON.
  set (a := (1 - t) * (r * cos w)). set (b := - t * (r' * cos w')).
  assert (A : 258000 <= a). { unfold a. assert (258000 <= r * cos w) by nra. nra. }
  assert (B : 0 <= b). { unfold b. apply Rmult_le_pos; [lra|]. apply Rmult_le_pos; lra. }
  match type of ON with ?X + ?Y + ?Z <= _ => assert (E : X + Y = a * a + b * b - 2 * (a * b) * cos (j - j')) end.
  { rewrite cos_minus. unfold a, b. pose proof (sin2_cos2 j) as J. pose proof (sin2_cos2 j') as J'. unfold Rsqr in *.
    transitivity ((1 - t) * (r * cos w) * ((1 - t) * (r * cos w)) * (sin j * sin j + cos j * cos j) + - t * (r' * cos w') * (- t * (r' * cos w')) * (sin j' * sin j' + cos j' * cos j') - 2 * ((1 - t) * (r * cos w) * (- t * (r' * cos w'))) * (cos j * cos j' + sin j * sin j')); [ring|rewrite J, J'; ring]. }
  match type of ON with ?X + ?Y + ?Z <= _ => assert (Z0 : 0 <= Z) by apply Rle_0_sqr; set (z := Z) in *; clearbody z end. rewrite E in ON.
  assert (M : a * b * cos (j - j') <= a * b * 0.7072) by (apply Rmult_le_compat_l; [apply Rmult_le_pos; lra|exact C]).
  pose proof (Rle_0_sqr (b - 0.7072 * a)) as S. unfold Rsqr in S. assert (258000 * 258000 <= a * a) by nra. lra.
Qed.

(** The point that MSC::calc gives as the centre of a solar eclipse is the first point of the Earth that the axis of the shadow meets; 100 is given exactly
    when the axis passes the Earth by. The right ascension filter of the code loses nothing. *)
Theorem C140_central m s gst : Rabs (CW m) <= PI / 6 -> Rabs (CW s) <= PI / 6 -> 300000 <= R0 m <= 1000000 -> 0.9 <= R0 s ->
  let M := llr2xyz (CJ m, CW m, R0 m) in let S := llr2xyz (CJ s, CW s, R0 s * cs_AU) in
  (central m s gst = (100, 100) /\ forall t, t <= 0 -> ~ on_ellipsoid cs_ba cs_rEar (on_line M S t)) \/
  (exists J W t, central m s gst = (J, W) /\ t < 0 /\ let X := on_line M S t in on_ellipsoid cs_ba cs_rEar X /\
    (forall u, on_ellipsoid cs_ba cs_rEar (on_line M S u) -> u <= t) /\
    (let '(x, y, z) := X in 0 <= dot (x, y, z / (cs_ba * cs_ba)) (minus S M)) /\ geodetic gst X J W).
Proof.
  intros BM BS RM RS. set (M := llr2xyz (CJ m, CW m, R0 m)). set (S := llr2xyz (CJ s, CW s, R0 s * cs_AU)). cbv zeta.
  assert (RA : 100000000 <= R0 s * cs_AU) by (unfold cs_AU; lra). pose proof PI_bounds as P.
  unfold central. destruct (rad2rrad_ok (CJ m - CJ s)) as [_ [k K]]. assert (CC : cos (rad2rrad (CJ m - CJ s)) = cos (CJ m - CJ s)) by apply cos_rrad.
  destruct (rad2rrad_ok (CJ m - CJ s)) as [RB _]. set (D := rad2rrad (CJ m - CJ s)) in *. destruct (Rlt_dec (Rabs D) (50 / 180 * PI)) as [N|N].
  - assert (MM : dot M M = R0 m * R0 m) by apply dot_self. assert (SS : dot S S = R0 s * cs_AU * (R0 s * cs_AU)) by apply dot_self.
    assert (M0 : 300000 * 300000 <= dot M M) by (rewrite MM; apply Rmult_le_compat; lra). assert (MS' : dot M M < dot S S) by (rewrite MM, SS; apply Rle_lt_trans with (1000000 * 1000000); [apply Rmult_le_compat; lra|apply Rlt_le_trans with (100000000 * 100000000); [lra|apply Rmult_le_compat; lra]]).
    assert (NE : M <> S) by (intros X; rewrite X in MS'; lra).
    assert (PQ : 0 <= dot M S).
    { unfold M, S. rewrite dot_pq, <- CC. apply Rmult_le_pos; [apply Rmult_le_pos; lra|]. destruct (cos30 _ BM) as [C1 S1]. destruct (cos30 _ BS) as [C2 S2].
      assert (CD : 0.6 <= cos D). { apply Rle_trans with (2 := cos_low D). assert (- 0.88 <= D <= 0.88) by (apply Rabs_def2 in N; lra). assert (D * D <= 0.88 * 0.88) by nra. lra. }
      pose proof (prod_le _ _ _ _ S1 S2) as SP. apply Rabs_le_inv in SP.
      assert (0.86 * 0.86 <= cos (CW m) * cos (CW s)) by (apply Rmult_le_compat; lra). assert (0.86 * 0.86 * 0.6 <= cos (CW m) * cos (CW s) * cos D) by (apply Rmult_le_compat; lra). lra. }
    assert (BH : forall t, on_ellipsoid cs_ba cs_rEar (on_line M S t) -> t < 0) by (intros t; apply behind; [exact M0|lra|exact PQ]).
    pose proof (nearest (CJ m, CW m, R0 m) (CJ s, CW s, R0 s * cs_AU) gst NE) as H. fold M S in H. destruct (lineEar _ _ gst cs_ba cs_rEar) as [[[h J] W]|].
    + right. destruct H as (t & ON & NR & G). exists J, W, t. split; [reflexivity|]. pose proof (BH t ON) as T. split; [exact T|]. cbv zeta.
      assert (TOP : forall u, on_ellipsoid cs_ba cs_rEar (on_line M S u) -> u <= t). { intros u U. specialize (NR u U). pose proof (BH u U). rewrite !Rabs_left in NR by assumption. lra. }
      split; [exact ON|]. split; [exact TOP|]. split; [apply (sunlit M S t ON NE TOP)|exact G].
    + left. split; [reflexivity|]. intros t _. apply H.
  - left. split; [reflexivity|]. intros t T. apply apart; try lra; try assumption. rewrite <- CC.
    assert (Q : cos (Rabs D) = cos D) by (unfold Rabs; destruct (Rcase_abs D); [apply cos_neg|reflexivity]). rewrite <- Q.
    apply Rle_trans with (cos (PI / 4)). { assert (Rabs D <= PI) by (apply Rabs_le; lra). assert (0 <= Rabs D) by apply Rabs_pos. apply cos_decr_1; lra. }
    rewrite cos_PI4. assert (0 < sqrt 2) by (apply sqrt_lt_R0; lra). apply Rmult_le_reg_r with (1 := H). replace (1 / sqrt 2 * sqrt 2) with 1 by (field; lra).
    apply Rle_trans with (0.7072 * 1.4141); [lra|]. apply Rmult_le_compat_l; [lra|]. rewrite <- (sqrt_square 1.4141) by lra. apply sqrt_le_1; lra.
Qed.

(** the radii in arcseconds: the umbra of the Earth at the Moon is wider than the Moon, and lies within the penumbra; they are 1.02 times the sum of the
    parallaxes of Moon and Sun, less and plus the radius of the Sun *)
Theorem C140_shadow T0 L fa high : let r := calc T0 L fa high in
  350000 <= R0 (v_m r) <= 410000 -> 0.98 <= R0 (v_s r) <= 1.02 -> 0 < v_emRad r < v_eShadow r /\ v_eShadow r < v_eShadow2 r /\
  v_eShadow2 r - v_eShadow r = 2 * (1.02 * 959.63 / R0 (v_s r)) /\ v_eShadow2 r + v_eShadow r = 2 * (1.02 * (0.99834 * cs_rEar / R0 (v_m r) * (648000 / PI) + 8.794 / R0 (v_s r))).
Proof.
  cbv zeta. unfold MscModel.calc. destruct (nutation2 (T0 / 36525)) as [dL dE]. cbv zeta. cbn [v_m v_s v_emRad v_eShadow v_eShadow2].
  set (mr := R0 _). set (sr := R0 (observe _ _ _ _ _ (sun_place _ _ _ _ _))). clearbody mr sr. intros BM BS. pose proof PI_bounds as P.
  assert (S : 206000 <= sec_rad). { unfold sec_rad. apply Rmult_le_reg_r with PI; [lra|]. replace (648000 / PI * PI) with 648000 by (field; lra). lra. }
  set (X := cs_rEar * sec_rad / mr). set (X' := cs_rEar * sec_rad / mr). assert (EX : X = X') by reflexivity. assert (BX : 3200 <= X).
  { unfold X. apply Rmult_le_reg_r with mr; [lra|]. replace (cs_rEar * sec_rad / mr * mr) with (cs_rEar * sec_rad) by (field; lra). unfold cs_rEar. lra. }
  replace (cs_sMoon / mr) with (cs_k * 1.0000036 * X) by (unfold cs_sMoon, X; field; lra). replace (cs_rEarA / mr * sec_rad) with (0.99834 * X) by (unfold cs_rEarA, X; field; lra). clearbody X.
  set (Y := / sr). assert (0 < Y <= 1.03). { unfold Y. split; [apply Rinv_0_lt_compat; lra|]. apply Rmult_le_reg_r with sr; [lra|]. rewrite Rinv_l; lra. }
  assert (SX : 0.99834 * cs_rEar / mr * (648000 / PI) = 0.99834 * X') by (unfold X', sec_rad; field; lra). rewrite SX. unfold Rdiv. fold Y. rewrite EX in *. clearbody Y X'. unfold cs_k. lra.
Qed.

(** What calc puts together: both bodies are observed with the same obliquity and sidereal time, from the apparent places: for the Moon the coordinates of
    m_coord moved by aberration and nutation, for the Sun the direction opposite to that of the Earth, so moved. *)
Theorem C140_apparent T0 L fa high : let r := calc T0 L fa high in let T := T0 / 36525 in
  v_dt r = dt_T T0 /\ v_jd r + v_dt r = T0 /\ (v_dL r, v_dE r) = nutation2 T /\ v_E r = hcjj T + v_dE r /\ v_gst r = sidereal_time (v_jd r) (v_dt r) + v_dL r * cos (v_E r) /\
  v_m r = observe (v_E r) (v_gst r) L fa high (HJ (v_m r), HW (v_m r), R0 (v_m r)) /\
  v_s r = observe (v_E r) (v_gst r) L fa high (HJ (v_s r), HW (v_s r), R0 (v_s r)) /\
  0 <= HJ (v_m r) < 2 * PI /\ 0 <= HJ (v_s r) < 2 * PI /\
  llr2xyz (HJ (v_m r) - gxc_moonLon T - v_dL r, HW (v_m r) - gxc_moonLat T, R0 (v_m r)) = llr2xyz (m_coord T) /\
  llr2xyz (HJ (v_s r) - gxc_sunLon T - v_dL r, HW (v_s r) - gxc_sunLat T, R0 (v_s r)) = minus (0, 0, 0) (llr2xyz (e_coord T)) /\
  v_zx r = central (v_m r) (v_s r) (v_gst r) /\ v_mIll r = moonIll T /\
  (R2 (v_m r) <> 0 -> R0 (v_m r) <> 0 -> v_mRad r * R2 (v_m r) = v_emRad r * R0 (v_m r)) /\ (R2 (v_s r) <> 0 -> v_sRad r * R2 (v_s r) = 959.63).
Proof.
  cbv zeta. unfold MscModel.calc. destruct (nutation2 (T0 / 36525)) as [dL dE]. cbv zeta. cbn [v_dt v_jd v_dL v_dE v_E v_gst v_m v_s v_zx v_mIll v_mRad v_sRad v_emRad].
  set (T := T0 / 36525). assert (OB : forall E gst z, let b := observe E gst L fa high z in (HJ b, HW b, R0 b) = z).
  { intros E gst [[a b] r]. cbv zeta. unfold observe. destruct (llrConv _ E) as [[? ?] ?]. cbv zeta. destruct (parallax _ _ fa high) as [[? ?] ?]. destruct (llrConv _ (PI / 2 - fa)) as [[? ?] ?]. reflexivity. }
  set (E := hcjj T + dE). set (gst := sidereal_time (T0 - dt_T T0) (dt_T T0) + dL * cos E). pose proof (OB E gst (moon_place gxc_moonLon gxc_moonLat m_coord T dL)) as OM. pose proof (OB E gst (sun_place gxc_sunLon gxc_sunLat e_coord T dL)) as OS. cbv zeta in OM, OS.
  split; [reflexivity|]. split; [ring|]. split; [reflexivity|]. split; [reflexivity|]. split; [reflexivity|].
  split; [rewrite OM; reflexivity|]. split; [rewrite OS; reflexivity|]. revert OM OS. set (m := observe E gst L fa high (moon_place _ _ _ T dL)). set (s := observe E gst L fa high (sun_place _ _ _ T dL)). clearbody m s.
  unfold moon_place, sun_place. destruct (m_coord T) as [[ma mb] mr], (e_coord T) as [[ea eb] er]. intros OM OS. injection OM as M1 M2 M3. injection OS as S1 S2 S3.
  destruct (rad2mrad_ok (ma + gxc_moonLon T + dL)) as [RM [k K]]. destruct (rad2mrad_ok (ea + PI + gxc_sunLon T + dL)) as [RS [j J]].
  split; [rewrite M1; lra|]. split; [rewrite S1; lra|]. split.
  { rewrite M1, M2, M3, K. replace (ma + gxc_moonLon T + dL + 2 * PI * IZR k - gxc_moonLon T - dL) with (ma + 2 * PI * IZR k) by ring. replace (mb + gxc_moonLat T - gxc_moonLat T) with mb by ring. unfold llr2xyz. now rewrite cos_Z, sin_Z. }
  split. { rewrite S1, S2, S3, J. replace (ea + PI + gxc_sunLon T + dL + 2 * PI * IZR j - gxc_sunLon T - dL) with (ea + PI + 2 * PI * IZR j) by ring. replace (- eb + gxc_sunLat T - gxc_sunLat T) with (- eb) by ring.
    unfold llr2xyz, minus. rewrite cos_Z, sin_Z, neg_cos, neg_sin, cos_neg, sin_neg. f_equal; [f_equal|]; ring. }
  split; [reflexivity|]. split; [reflexivity|]. split; intros; field; auto. 
Qed.
End Calc.

(** *** Non-vacuity *)
(** a place in Beijing, a Moon at mean distance and the Sun (in astronomical units) near the ecliptic *)
Example C140_place_example : - (PI / 2) < 40 * PI / 180 < PI / 2 /\ - (PI / 2) < 5 * PI / 180 < PI / 2 /\ (if Rlt_dec 1 500 then cs_AU else 1) = cs_AU /\ (if Rlt_dec 384400 500 then cs_AU else 1) = 1.
Proof. pose proof PI_bounds. repeat split; try lra; destruct (Rlt_dec _ 500); lra. Qed.
(** Sun and Moon both on the equator in one direction: the centre is where that direction is overhead *)
Definition new_moon : body * body := (mkBody 0 0 384400 0 0 0 0 0 0 0 0 0 0, mkBody 0 0 1 0 0 0 0 0 0 0 0 0 0).
Example C140_central_example : let '(m, s) := new_moon in Rabs (CW m) <= PI / 6 /\ Rabs (CW s) <= PI / 6 /\ 300000 <= R0 m <= 1000000 /\ 0.9 <= R0 s /\
  exists t, t < 0 /\ on_ellipsoid cs_ba cs_rEar (on_line (llr2xyz (CJ m, CW m, R0 m)) (llr2xyz (CJ s, CW s, R0 s * cs_AU)) t).
Proof.
  unfold new_moon. cbn [CW CJ R0]. rewrite Rabs_R0. pose proof PI_bounds. repeat split; try lra. exists ((cs_rEar - 384400) / (cs_AU - 384400)). split.
  - unfold Rdiv. assert (0 < / (cs_AU - 384400)) by (apply Rinv_0_lt_compat; unfold cs_AU; lra). assert (cs_rEar - 384400 < 0) by (unfold cs_rEar; lra). nra.
  - unfold llr2xyz, on_line, on_ellipsoid. rewrite cos_0, sin_0. unfold cs_AU, cs_ba, cs_rEar. field. lra.
Qed.
(** and a Moon 100 degrees from the Sun has no shadow on the Earth *)
Example C140_central_none : let m := mkBody 0 0 384400 (100 * PI / 180) 0 0 0 0 0 0 0 0 0 in let s := snd new_moon in
  forall t, t <= 0 -> ~ on_ellipsoid cs_ba cs_rEar (on_line (llr2xyz (CJ m, CW m, R0 m)) (llr2xyz (CJ s, CW s, R0 s * cs_AU)) t).
Proof.
  cbv zeta. unfold new_moon. cbn [CW CJ R0 snd]. intros t T. pose proof PI_bounds as P. apply apart; try lra; try (rewrite Rabs_R0; lra); [|unfold cs_AU; lra].
  replace (100 * PI / 180 - 0) with (PI / 2 + PI / 18) by field. rewrite cos_plus, cos_PI2, sin_PI2. pose proof (sin_ge_0 (PI / 18) ltac:(lra) ltac:(lra)). lra.
Qed.
(** a moment of 2020 and the refraction at 10 degrees *)
Example C140_solar_time_example : Rabs 7305 <= 1000000 /\ Rabs 7305 <= 73050 /\ 0 < PI / 18 <= PI / 2.
Proof. rewrite Rabs_pos_eq by lra. pose proof PI_bounds. repeat split; lra. Qed.

Print Assumptions C140_place.
Print Assumptions C140_refraction.
Print Assumptions C140_refraction_grows.
Print Assumptions C140_refraction_gap.
Print Assumptions C140_solar_time.
Print Assumptions C140_central.
Print Assumptions C140_shadow.
Print Assumptions C140_apparent.
