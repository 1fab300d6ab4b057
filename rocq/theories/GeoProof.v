(** Lemmas for the geometry in exact arithmetic. *)
From Coq Require Import ZArith Reals Lra Lia Psatz.
From Flocq Require Import Core.
From Verif Require Import GeoModel GeoSpec.
Open Scope R_scope.

(** ** periods *)
Lemma cos_Z x k : cos (x + 2 * PI * IZR k) = cos x.
Proof.
  destruct (Z_le_gt_dec 0 k) as [H|H].
  - replace (2 * PI * IZR k) with (2 * INR (Z.to_nat k) * PI); [apply cos_period|]. rewrite INR_IZR_INZ, Z2Nat.id by lia. ring.
  - rewrite <- (cos_period (x + 2 * PI * IZR k) (Z.to_nat (- k))). f_equal. rewrite INR_IZR_INZ, Z2Nat.id by lia. rewrite opp_IZR. ring.
Qed.
Lemma sin_Z x k : sin (x + 2 * PI * IZR k) = sin x.
Proof.
  destruct (Z_le_gt_dec 0 k) as [H|H].
  - replace (2 * PI * IZR k) with (2 * INR (Z.to_nat k) * PI); [apply sin_period|]. rewrite INR_IZR_INZ, Z2Nat.id by lia. ring.
  - rewrite <- (sin_period (x + 2 * PI * IZR k) (Z.to_nat (- k))). f_equal. rewrite INR_IZR_INZ, Z2Nat.id by lia. rewrite opp_IZR. ring.
Qed.

Lemma fmod_ok x y : 0 < y -> exists k, fmod x y = x + y * IZR k /\ - y < fmod x y < y.
Proof.
  intros Hy. unfold fmod. set (k := Ztrunc (x / y)). exists (- k)%Z. rewrite opp_IZR.
  assert (XY : x = y * (x / y)) by (field; lra).
  assert (IY : 0 < / y) by (apply Rinv_0_lt_compat; exact Hy).
  split; [ring|]. destruct (Rle_lt_dec 0 x) as [P|P].
  - assert (Q : 0 <= x / y) by (unfold Rdiv; nra). unfold k. rewrite Ztrunc_floor by exact Q. pose proof (Zfloor_lb (x / y)). pose proof (Zfloor_ub (x / y)).
    set (f := IZR (Zfloor (x / y))) in *. set (q := x / y) in *. clearbody f q. assert (0 <= y * (q - f) < y) by nra. replace (x - y * f) with (y * (q - f)) by (rewrite XY; ring). lra.
  - assert (Q : x / y <= 0) by (unfold Rdiv; nra). unfold k. rewrite Ztrunc_ceil by exact Q. pose proof (Zceil_ub (x / y)). pose proof (Zceil_lb (x / y)).
    set (f := IZR (Zceil (x / y))) in *. set (q := x / y) in *. clearbody f q. assert (- y < y * (q - f) <= 0) by nra. replace (x - y * f) with (y * (q - f)) by (rewrite XY; ring). lra.
Qed.
Lemma rad2mrad_ok v : 0 <= rad2mrad v < 2 * PI /\ exists k, rad2mrad v = v + 2 * PI * IZR k.
Proof.
  pose proof PI_RGT_0 as P. destruct (fmod_ok v (2 * PI) ltac:(lra)) as (k & E & B). unfold rad2mrad. cbv zeta.
  destruct (Rlt_dec (fmod v (2 * PI)) 0); split; try lra.
  - exists (k + 1)%Z. rewrite E, plus_IZR. ring.
  - exists k. exact E.
Qed.
Lemma rad2rrad_ok v : - PI < rad2rrad v <= PI /\ exists k, rad2rrad v = v + 2 * PI * IZR k.
Proof.
  pose proof PI_RGT_0 as P. destruct (fmod_ok v (2 * PI) ltac:(lra)) as (k & E & B). unfold rad2rrad. cbv zeta.
  destruct (Rle_dec (fmod v (2 * PI)) (- PI)); [|destruct (Rlt_dec PI (fmod v (2 * PI)))]; split; try lra.
  - exists (k + 1)%Z. rewrite E, plus_IZR. ring.
  - exists (k - 1)%Z. rewrite E, minus_IZR. ring.
  - exists k. exact E.
Qed.
Lemma cos_mrad v : cos (rad2mrad v) = cos v.
Proof. destruct (rad2mrad_ok v) as [_ [k ->]]. apply cos_Z. Qed.
Lemma sin_mrad v : sin (rad2mrad v) = sin v.
Proof. destruct (rad2mrad_ok v) as [_ [k ->]]. apply sin_Z. Qed.
Lemma cos_rrad v : cos (rad2rrad v) = cos v.
Proof. destruct (rad2rrad_ok v) as [_ [k ->]]. apply cos_Z. Qed.
Lemma sin_rrad v : sin (rad2rrad v) = sin v.
Proof. destruct (rad2rrad_ok v) as [_ [k ->]]. apply sin_Z. Qed.

(** two angles of one turn with equal sine and cosine are equal *)
Lemma angle_unique a b : Rabs (a - b) < 2 * PI -> cos a = cos b -> sin a = sin b -> a = b.
Proof.
  intros B C S. assert (E : cos (a - b) = 1).
  { rewrite cos_minus, C, S. pose proof (sin2_cos2 b) as H. unfold Rsqr in H. lra. }
  set (h := (a - b) / 2). assert (H : sin h = 0).
  { replace (a - b) with (2 * h) in E by (unfold h; field). rewrite cos_2a_sin in E. nra. }
  pose proof PI_RGT_0. apply Rabs_def2 in B. destruct (Rtotal_order h 0) as [L|[L|L]].
  - assert (0 < sin (- h)) by (apply sin_gt_0; unfold h in *; lra). rewrite sin_neg in *. lra.
  - unfold h in L. lra.
  - assert (0 < sin h) by (apply sin_gt_0; unfold h in *; lra). lra.
Qed.

(** ** atan2 *)
Lemma sqrt_scale a b : 0 < a -> 0 <= b -> a * sqrt b = sqrt (a * a * b).
Proof. intros A Bb. rewrite sqrt_mult by nra. rewrite sqrt_square by lra. reflexivity. Qed.
Lemma polar y x : let r := sqrt (x * x + y * y) in r * cos (atan2 y x) = x /\ r * sin (atan2 y x) = y.
Proof.
  cbv zeta. unfold atan2.
  assert (K : forall q, 0 < sqrt (1 + q²)) by (intros q; apply sqrt_lt_R0; pose proof (Rle_0_sqr q); lra).
  assert (G : forall x y, x <> 0 -> sqrt (x * x + y * y) = Rabs x * sqrt (1 + (y / x)²)).
  { intros a b Ha. rewrite sqrt_scale; [|apply Rabs_pos_lt; exact Ha|pose proof (Rle_0_sqr (b / a)); lra].
    f_equal. rewrite <- Rabs_mult, Rabs_right by nra. unfold Rsqr. field. exact Ha. }
  destruct (Rlt_dec 0 x) as [X|X]; [|destruct (Rlt_dec x 0) as [X'|X']].
  - rewrite G by lra. rewrite Rabs_right by lra. rewrite cos_atan, sin_atan. specialize (K (y / x)). split; field; repeat split; lra.
  - rewrite G by lra. rewrite Rabs_left by lra. specialize (K (y / x)).
    assert (N : forall a, cos (a - PI) = - cos a /\ sin (a - PI) = - sin a).
    { intros a. split; [rewrite cos_minus, cos_PI, sin_PI|rewrite sin_minus, cos_PI, sin_PI]; ring. }
    destruct (Rle_dec 0 y).
    + rewrite neg_cos, neg_sin, cos_atan, sin_atan. split; field; repeat split; lra.
    + destruct (N (atan (y / x))) as [-> ->]. rewrite cos_atan, sin_atan. split; field; repeat split; lra.
  - assert (x = 0) by lra. subst x. replace (0 * 0 + y * y) with (y * y) by ring.
    destruct (Rlt_dec 0 y); [|destruct (Rlt_dec y 0)].
    + rewrite sqrt_square by lra. rewrite cos_PI2, sin_PI2. split; ring.
    + replace (y * y) with ((- y) * (- y)) by ring. rewrite sqrt_square by lra. rewrite cos_neg, sin_neg, cos_PI2, sin_PI2. split; ring.
    + assert (y = 0) by lra. subst y. rewrite Rmult_0_l, sqrt_0. split; ring.
Qed.
Lemma polar_scaled y x c : 0 < c -> let r := sqrt (x * x + y * y) in r * cos (atan2 (y * c) (x * c)) = x /\ r * sin (atan2 (y * c) (x * c)) = y.
Proof.
  intros H. cbv zeta. pose proof (polar (y * c) (x * c)) as [P1 P2]. cbv zeta in P1, P2.
  replace (x * c * (x * c) + y * c * (y * c)) with (c * c * (x * x + y * y)) in P1, P2 by ring.
  rewrite <- sqrt_scale in P1, P2 by (first [exact H|nra]).
  split; apply (Rmult_eq_reg_l c); try lra.
Qed.
(** cosine of asin together with a complementary pair *)
Lemma asin_pair a b c : a * a + b * b + c * c = 1 -> sin (asin c) = c /\ cos (asin c) = sqrt (a * a + b * b).
Proof.
  intros H. assert (B : -1 <= c <= 1) by nra. split; [apply sin_asin; exact B|]. rewrite cos_asin by exact B. f_equal. unfold Rsqr. lra.
Qed.
Lemma cs x : cos x * cos x = 1 - sin x * sin x.
Proof. pose proof (sin2_cos2 x) as H. unfold Rsqr in H. lra. Qed.

(** ** directions *)
Lemma llr2xyz_at p : at_direction (fst (fst p)) (snd (fst p)) (snd p) (llr2xyz p).
Proof. destruct p as [[J W] r]. cbn. auto. Qed.
Lemma sphere_point a b c r th : a * a + b * b + c * c = 1 -> sqrt (a * a + b * b) * cos th = a -> sqrt (a * a + b * b) * sin th = b ->
  llr2xyz (th, asin c, r) = (r * a, r * b, r * c).
Proof.
  intros H1 H2 H3. destruct (asin_pair a b c H1) as [E1 E2]. unfold llr2xyz. rewrite E1, E2, !Rmult_assoc, H2, H3. reflexivity.
Qed.
Lemma cos_in W : - (PI / 2) < W < PI / 2 -> 0 < cos W.
Proof. intros [A B]. apply cos_gt_0; assumption. Qed.
Lemma llrConv_ok J W r E : - (PI / 2) < W < PI / 2 -> llr2xyz (llrConv (J, W, r) E) = rot_x E (llr2xyz (J, W, r)).
Proof.
  intros HW. pose proof (cos_in W HW) as CW. unfold llrConv.
  set (a := cos W * cos J). set (b := cos W * sin J * cos E - sin W * sin E). set (c := cos E * sin W + sin E * cos W * sin J).
  assert (N : a * a + b * b + c * c = 1).
  { unfold a, b, c. pose proof (cs W). pose proof (cs J). pose proof (cs E).
    replace (cos W * cos J * (cos W * cos J) + (cos W * sin J * cos E - sin W * sin E) * (cos W * sin J * cos E - sin W * sin E) +
      (cos E * sin W + sin E * cos W * sin J) * (cos E * sin W + sin E * cos W * sin J))
      with ((cos W * cos W) * (cos J * cos J) + ((cos W * cos W) * (sin J * sin J) + sin W * sin W) * (cos E * cos E + sin E * sin E)) by ring.
    rewrite H1. rewrite H0, H. ring. }
  destruct (polar_scaled b a (/ cos W)) as [P1 P2]; [apply Rinv_0_lt_compat; exact CW|].
  replace (b * / cos W) with (sin J * cos E - tan W * sin E) in P1, P2 by (unfold b, tan; field; lra).
  replace (a * / cos W) with (cos J) in P1, P2 by (unfold a; field; lra).
  rewrite (sphere_point a b c r _ N) by (rewrite ?cos_mrad, ?sin_mrad; assumption).
  unfold rot_x, llr2xyz, a, b, c. f_equal; [f_equal|]; ring.
Qed.
Lemma CD_turn_ok J W r Z z th : llr2xyz (CD_turn (J, W, r) Z z th) = rot_z z (rot_y th (rot_z Z (llr2xyz (J, W, r)))).
Proof.
  unfold CD_turn. set (b := cos W * sin (Z + J)). set (a := cos th * cos W * cos (Z + J) - sin th * sin W). set (c := sin th * cos W * cos (Z + J) + cos th * sin W).
  assert (N : a * a + b * b + c * c = 1).
  { unfold a, b, c. pose proof (cs W). pose proof (cs (Z + J)). pose proof (cs th).
    set (k := Z + J) in *. clearbody k.
    replace ((cos th * cos W * cos k - sin th * sin W) * (cos th * cos W * cos k - sin th * sin W) + cos W * sin k * (cos W * sin k) +
      (sin th * cos W * cos k + cos th * sin W) * (sin th * cos W * cos k + cos th * sin W))
      with ((cos W * cos W) * (sin k * sin k) + ((cos W * cos W) * (cos k * cos k) + sin W * sin W) * (cos th * cos th + sin th * sin th)) by ring.
    rewrite H1. rewrite H0, H. ring. }
  destruct (polar b a) as [P1 P2].
  destruct (asin_pair a b c N) as [E1 E2]. unfold llr2xyz at 1. rewrite E1, E2, cos_mrad, sin_mrad, cos_plus, sin_plus.
  set (rho := sqrt (a * a + b * b)) in *. set (g := atan2 b a) in *. clearbody rho g.
  replace (r * rho * (cos g * cos z - sin g * sin z)) with (r * ((rho * cos g) * cos z - (rho * sin g) * sin z)) by ring.
  replace (r * rho * (sin g * cos z + cos g * sin z)) with (r * ((rho * sin g) * cos z + (rho * cos g) * sin z)) by ring.
  rewrite P1, P2. unfold llr2xyz, rot_z, rot_y, a, b, c. rewrite !cos_plus, !sin_plus. f_equal; [f_equal|]; ring.
Qed.

(** ** rotations undo each other *)
Lemma rot_z_inv E p : rot_z (- E) (rot_z E p) = p.
Proof.
  destruct p as [[x y] z]. unfold rot_z. rewrite cos_neg, sin_neg. pose proof (cs E) as H. f_equal; f_equal.
  - transitivity (x * (cos E * cos E + sin E * sin E)); [ring|rewrite H; ring].
  - transitivity (y * (cos E * cos E + sin E * sin E)); [ring|rewrite H; ring].
Qed.
Lemma rot_x_inv E p : rot_x (- E) (rot_x E p) = p.
Proof.
  destruct p as [[x y] z]. unfold rot_x. rewrite cos_neg, sin_neg. pose proof (cs E) as H. f_equal; [f_equal|].
  - transitivity (y * (cos E * cos E + sin E * sin E)); [ring|rewrite H; ring].
  - transitivity (z * (cos E * cos E + sin E * sin E)); [ring|rewrite H; ring].
Qed.
Lemma rot_y_inv E p : rot_y (- E) (rot_y E p) = p.
Proof.
  destruct p as [[x y] z]. unfold rot_y. rewrite cos_neg, sin_neg. pose proof (cs E) as H. f_equal; [f_equal|].
  - transitivity (x * (cos E * cos E + sin E * sin E)); [ring|rewrite H; ring].
  - transitivity (z * (cos E * cos E + sin E * sin E)); [ring|rewrite H; ring].
Qed.
Lemma rot_x_inv' E p : rot_x E (rot_x (- E) p) = p.
Proof. rewrite <- (Ropp_involutive E) at 1. apply rot_x_inv. Qed.
Lemma rot_z_inv' E p : rot_z E (rot_z (- E) p) = p.
Proof. rewrite <- (Ropp_involutive E) at 1. apply rot_z_inv. Qed.
Lemma rot_y_inv' E p : rot_y E (rot_y (- E) p) = p.
Proof. rewrite <- (Ropp_involutive E) at 1. apply rot_y_inv. Qed.
Lemma turn_long J W r d : llr2xyz (J + d, W, r) = rot_z d (llr2xyz (J, W, r)).
Proof. unfold llr2xyz, rot_z. rewrite cos_plus, sin_plus. f_equal; f_equal; ring. Qed.
Lemma turn_long_mrad J W r : llr2xyz (rad2mrad J, W, r) = llr2xyz (J, W, r).
Proof. unfold llr2xyz. rewrite cos_mrad, sin_mrad. reflexivity. Qed.

(** ** normal spherical coordinates *)
Definition normal (p : vec) : Prop := let '(J, W, r) := p in 0 <= J < 2 * PI /\ - (PI / 2) < W < PI / 2 /\ 0 < r.
Definition not_pole (v : point) : Prop := let '(x, y, _) := v in 0 < x * x + y * y.
Lemma llr_inj p q : normal p -> normal q -> llr2xyz p = llr2xyz q -> p = q.
Proof.
  destruct p as [[J W] r], q as [[J' W'] r']. intros (HJ & HW & Hr) (HJ' & HW' & Hr') E. unfold llr2xyz in E.
  pose proof (cos_in W HW) as CW. pose proof (cos_in W' HW') as CW'.
  assert (E1 : r * cos W * cos J = r' * cos W' * cos J') by congruence. assert (E2 : r * cos W * sin J = r' * cos W' * sin J') by congruence. assert (E3 : r * sin W = r' * sin W') by congruence. clear E.
  assert (ER : r = r').
  { assert (r * r = r' * r'); [|nra].
    assert (L : forall r W J, r * r = (r * cos W * cos J) * (r * cos W * cos J) + (r * cos W * sin J) * (r * cos W * sin J) + (r * sin W) * (r * sin W)).
    { intros s u v. transitivity (s * s * (cos u * cos u * (cos v * cos v + sin v * sin v) + sin u * sin u)); [|ring]. rewrite (cs v), (cs u). ring. }
    rewrite (L r W J), (L r' W' J'), E1, E2, E3. reflexivity. }
  subst r'. assert (ES : sin W = sin W') by (apply (Rmult_eq_reg_l r); lra).
  assert (EW : W = W') by (rewrite <- (asin_sin W), <- (asin_sin W') by lra; rewrite ES; reflexivity). subst W'.
  assert (EJ : J = J').
  { apply angle_unique; [apply Rabs_def1; lra| |]; (apply (Rmult_eq_reg_l (r * cos W)); [|nra]); lra. }
  subst. reflexivity.
Qed.
Lemma normal_of J W r : 0 <= J < 2 * PI -> - (PI / 2) <= W <= PI / 2 -> 0 < r -> not_pole (llr2xyz (J, W, r)) -> normal (J, W, r).
Proof.
  intros HJ HW Hr NP. split; [exact HJ|]. split; [|exact Hr]. unfold not_pole, llr2xyz in NP.
  assert (C : cos W <> 0) by (intros C; rewrite C in NP; nra).
  split; destruct (Rtotal_order W (- (PI / 2))) as [|[|]], (Rtotal_order W (PI / 2)) as [|[|]]; subst; try lra; rewrite ?cos_neg, ?cos_PI2 in C; lra.
Qed.
Lemma llrConv_range J W r E : let '(J', W', r') := llrConv (J, W, r) E in 0 <= J' < 2 * PI /\ - (PI / 2) <= W' <= PI / 2 /\ r' = r.
Proof. cbn. split; [apply rad2mrad_ok|]. split; [apply asin_bound|reflexivity]. Qed.
