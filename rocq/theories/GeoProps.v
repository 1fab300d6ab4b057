(** Theorems about the geometry in exact arithmetic (C31, C36-C40, C57-C61). *)
From Coq Require Import ZArith Reals Lra Lia Psatz.
From Flocq Require Import Core.
From Verif Require Import GeoModel GeoSpec GeoProof.
Open Scope R_scope.

(** ** C31, exact arithmetic *)
Theorem C31_mrad_exact v : 0 <= rad2mrad v < 2 * PI /\ exists k : Z, rad2mrad v = v + 2 * PI * IZR k.
Proof. exact (rad2mrad_ok v). Qed.
Theorem C31_rrad_exact v : - PI < rad2rrad v <= PI /\ exists k : Z, rad2rrad v = v + 2 * PI * IZR k.
Proof. exact (rad2rrad_ok v). Qed.
(** and these are the only angles with the property *)
Theorem C31_unique v a b : (exists k : Z, a = v + 2 * PI * IZR k) -> (exists k : Z, b = v + 2 * PI * IZR k) -> Rabs (a - b) < 2 * PI -> a = b.
Proof.
  intros [k ->] [j ->] H. apply angle_unique; [exact H| |]; rewrite ?cos_Z, ?sin_Z; reflexivity.
Qed.
Example C31_exact_witness : rad2mrad (- (PI / 2)) = 3 / 2 * PI /\ rad2rrad (3 / 2 * PI) = - (PI / 2).
Proof.
  pose proof PI_RGT_0. split.
  - destruct (rad2mrad_ok (- (PI / 2))) as [B E]. apply (C31_unique (- (PI / 2))); [exact E|exists 1%Z; lra|apply Rabs_def1; lra].
  - destruct (rad2rrad_ok (3 / 2 * PI)) as [B E]. apply (C31_unique (3 / 2 * PI)); [exact E|exists (-1)%Z; lra|apply Rabs_def1; lra].
Qed.

(** ** C38 *)
Theorem C38_rectangular x y z : (x, y, z) <> (0, 0, 0) -> llr2xyz (xyz2llr (x, y, z)) = (x, y, z).
Proof.
  intros NZ. unfold xyz2llr. set (r := sqrt (x * x + y * y + z * z)).
  assert (P : 0 < x * x + y * y + z * z).
  { destruct (Req_dec x 0) as [->|]; [|nra]. destruct (Req_dec y 0) as [->|]; [|nra]. destruct (Req_dec z 0) as [->|]; [|nra]. contradiction NZ; reflexivity. }
  assert (Hr : 0 < r) by (apply sqrt_lt_R0; exact P). assert (RR : r * r = x * x + y * y + z * z) by (apply sqrt_sqrt; lra).
  assert (IR : 0 < / r) by (apply Rinv_0_lt_compat; exact Hr).
  assert (N : x / r * (x / r) + y / r * (y / r) + z / r * (z / r) = 1) by (field_simplify; [|lra]; replace (x ^ 2 + y ^ 2 + z ^ 2) with (r * r) by (rewrite RR; ring); field; lra).
  destruct (polar_scaled (y / r) (x / r) r Hr) as [P1 P2].
  replace (y / r * r) with y in P1, P2 by (field; lra). replace (x / r * r) with x in P1, P2 by (field; lra).
  rewrite (sphere_point _ _ _ r _ N) by (rewrite ?cos_mrad, ?sin_mrad; assumption). f_equal; [f_equal|]; field; lra.
Qed.
Theorem C38_spherical J W r : 0 <= J < 2 * PI -> - (PI / 2) < W < PI / 2 -> 0 < r -> xyz2llr (llr2xyz (J, W, r)) = (J, W, r).
Proof.
  intros HJ HW Hr. pose proof (cos_in W HW) as CW.
  set (p := llr2xyz (J, W, r)). destruct p as [[x y] z] eqn:Ep. unfold p in Ep. clear p.
  assert (NP : 0 < x * x + y * y).
  { unfold llr2xyz in Ep. injection Ep as <- <- <-. replace (r * cos W * cos J * (r * cos W * cos J) + r * cos W * sin J * (r * cos W * sin J)) with (r * cos W * (r * cos W) * (cos J * cos J + sin J * sin J)) by ring. rewrite cs.
    assert (0 < r * cos W) by nra. nra. }
  assert (NZ : (x, y, z) <> (0, 0, 0)) by (intros E; assert (x = 0) by congruence; assert (y = 0) by congruence; nra).
  pose proof (C38_rectangular x y z NZ) as H. apply llr_inj; [|split; [|split]; assumption|rewrite H; symmetry; exact Ep].
  unfold xyz2llr. apply normal_of; [apply rad2mrad_ok|apply asin_bound| |].
  - apply sqrt_lt_R0. nra.
  - unfold xyz2llr in H. rewrite H. exact NP.
Qed.
Theorem C38_ranges x y z : let '(J, W, r) := xyz2llr (x, y, z) in 0 <= J < 2 * PI /\ - (PI / 2) <= W <= PI / 2 /\ r = norm (x, y, z).
Proof. cbn. split; [apply rad2mrad_ok|]. split; [apply asin_bound|reflexivity]. Qed.
Example C38_witness : llr2xyz (xyz2llr (-3, 4, -5)) = (-3, 4, -5) /\ xyz2llr (llr2xyz (5, -1, 2)) = (5, -1, 2).
Proof.
  split; [apply C38_rectangular; intros E; injection E; lra|]. pose proof PI2_3_2. unfold PI2 in *. pose proof PI_4.
  apply C38_spherical; lra.
Qed.

(** ** C37 *)
Theorem C37_rotation J W r E : - (PI / 2) < W < PI / 2 -> llr2xyz (llrConv (J, W, r) E) = rot_x E (llr2xyz (J, W, r)).
Proof. apply llrConv_ok. Qed.
Theorem C37_ranges J W r E : let '(J', W', r') := llrConv (J, W, r) E in 0 <= J' < 2 * PI /\ - (PI / 2) <= W' <= PI / 2 /\ r' = r.
Proof. apply llrConv_range. Qed.
Example C37_witness : llr2xyz (llrConv (PI / 2, 0, 1) (PI / 2)) = (0, 0, 1).
Proof.
  rewrite C37_rotation by (pose proof PI_RGT_0; lra). unfold rot_x, llr2xyz. rewrite cos_PI2, sin_PI2, cos_0, sin_0. f_equal; [f_equal|]; ring.
Qed.

(** ** C36 *)
Lemma cd_range p Z z th : let '(J', W', r') := CD_turn p Z z th in 0 <= J' < 2 * PI /\ - (PI / 2) <= W' <= PI / 2 /\ r' = snd p.
Proof. destruct p as [[J W] r]. cbn. split; [apply rad2mrad_ok|]. split; [apply asin_bound|reflexivity]. Qed.
Lemma cd_back q p : llr2xyz (CDllr_D2J q (CDllr_J2D q p)) = llr2xyz p.
Proof.
  destruct p as [[J W] r]. unfold CDllr_D2J, CDllr_J2D. set (p := CD_turn (J, W, r) (q_Z q) (q_z q) (q_th q)). destruct p as [[J' W'] r'] eqn:Ep. unfold p in Ep. clear p.
  rewrite CD_turn_ok, <- Ep, CD_turn_ok, rot_z_inv, rot_y_inv, rot_z_inv. reflexivity.
Qed.
Lemma cd_forth q p : llr2xyz (CDllr_J2D q (CDllr_D2J q p)) = llr2xyz p.
Proof.
  destruct p as [[J W] r]. unfold CDllr_D2J, CDllr_J2D. set (p := CD_turn (J, W, r) (- q_z q) (- q_Z q) (- q_th q)). destruct p as [[J' W'] r'] eqn:Ep. unfold p in Ep. clear p.
  rewrite CD_turn_ok, <- Ep, CD_turn_ok, rot_z_inv', rot_y_inv', rot_z_inv'. reflexivity.
Qed.
Lemma llr_not_pole J W r : - (PI / 2) < W < PI / 2 -> 0 < r -> not_pole (llr2xyz (J, W, r)).
Proof.
  intros HW Hr. pose proof (cos_in W HW). unfold not_pole, llr2xyz.
  replace (r * cos W * cos J * (r * cos W * cos J) + r * cos W * sin J * (r * cos W * sin J)) with (r * cos W * (r * cos W) * (cos J * cos J + sin J * sin J)) by ring. rewrite cs.
  assert (0 < r * cos W) by nra. nra.
Qed.
(** Equatorial precession: the same direction comes back, for every direction; in normal coordinates the same coordinates. *)
Theorem C36_equatorial q p : llr2xyz (CDllr_D2J q (CDllr_J2D q p)) = llr2xyz p /\ llr2xyz (CDllr_J2D q (CDllr_D2J q p)) = llr2xyz p.
Proof. exact (conj (cd_back q p) (cd_forth q p)). Qed.
Theorem C36_equatorial_coordinates q J W r : 0 <= J < 2 * PI -> - (PI / 2) < W < PI / 2 -> 0 < r ->
  CDllr_D2J q (CDllr_J2D q (J, W, r)) = (J, W, r).
Proof.
  intros HJ HW Hr. apply llr_inj; [|split; [|split]; assumption|apply cd_back].
  pose proof (cd_back q (J, W, r)) as E. pose proof (cd_range (CDllr_J2D q (J, W, r)) (- q_z q) (- q_Z q) (- q_th q)) as RG. fold (CDllr_D2J q (CDllr_J2D q (J, W, r))) in RG.
  pose proof (cd_range (J, W, r) (q_Z q) (q_z q) (q_th q)) as RG1. fold (CDllr_J2D q (J, W, r)) in RG1.
  destruct (CDllr_J2D q (J, W, r)) as [[J1 W1] r1]. destruct RG1 as (_ & _ & R1). cbn [snd] in R1. subst r1.
  destruct (CDllr_D2J q (J1, W1, r)) as [[J2 W2] r2]. destruct RG as (G1 & G2 & G3). cbn [snd] in G3. subst r2.
  apply normal_of; try assumption. rewrite E. apply llr_not_pole; assumption.
Qed.
(** Ecliptic precession: the direction comes back unless it is a pole of one of the three frames passed through (where tan of the latitude is used). *)
Theorem C36_ecliptic q J W r : let v := llr2xyz (J, W, r) in
  - (PI / 2) < W < PI / 2 -> 0 < r ->
  not_pole (rot_x (q_w q) (rot_z (q_fi q) v)) ->
  not_pole (rot_x (- q_E q) (rot_z (- q_x q) (rot_x (q_w q) (rot_z (q_fi q) v)))) ->
  llr2xyz (HDllr_J2D q (J, W, r)) = rot_x (- q_E q) (rot_z (- q_x q) (rot_x (q_w q) (rot_z (q_fi q) v))) /\
  llr2xyz (HDllr_D2J q (HDllr_J2D q (J, W, r))) = v.
Proof.
  cbv zeta. intros HW Hr N1 N2. unfold HDllr_J2D.
  pose proof (llrConv_ok (J + q_fi q) W r (q_w q) HW) as E1. rewrite turn_long in E1.
  pose proof (llrConv_range (J + q_fi q) W r (q_w q)) as G1.
  destruct (llrConv (J + q_fi q, W, r) (q_w q)) as [[J1 W1] r1]. destruct G1 as (G1 & G2 & ->).
  destruct (normal_of J1 W1 r G1 G2 Hr) as (_ & HW1 & _); [rewrite E1; exact N1|].
  pose proof (llrConv_ok (J1 - q_x q) W1 r (- q_E q) HW1) as E2. unfold Rminus in E2 at 2. rewrite turn_long, E1 in E2.
  split; [exact E2|].
  pose proof (llrConv_range (J1 - q_x q) W1 r (- q_E q)) as G3.
  destruct (llrConv (J1 - q_x q, W1, r) (- q_E q)) as [[J2 W2] r2]. destruct G3 as (G3 & G4 & ->).
  destruct (normal_of J2 W2 r G3 G4 Hr) as (_ & HW2 & _); [rewrite E2; exact N2|].
  unfold HDllr_D2J.
  pose proof (llrConv_ok J2 W2 r (q_E q) HW2) as E3. rewrite E2, rot_x_inv' in E3.
  pose proof (llrConv_range J2 W2 r (q_E q)) as G5.
  destruct (llrConv (J2, W2, r) (q_E q)) as [[J3 W3] r3]. destruct G5 as (G5 & G6 & ->).
  destruct (normal_of J3 W3 r G5 G6 Hr) as (_ & HW3 & _).
  { rewrite E3. revert N1. generalize (rot_x (q_w q) (rot_z (q_fi q) (llr2xyz (J, W, r)))). intros [[x y] z] N. unfold not_pole, rot_z in *. rewrite cos_neg, sin_neg.
    replace ((x * cos (q_x q) - y * - sin (q_x q)) * (x * cos (q_x q) - y * - sin (q_x q)) + (x * - sin (q_x q) + y * cos (q_x q)) * (x * - sin (q_x q) + y * cos (q_x q)))
      with ((x * x + y * y) * (cos (q_x q) * cos (q_x q) + sin (q_x q) * sin (q_x q))) by ring. rewrite cs. lra. }
  pose proof (llrConv_ok (J3 + q_x q) W3 r (- q_w q) HW3) as E4. rewrite turn_long, E3, rot_z_inv', rot_x_inv in E4.
  destruct (llrConv (J3 + q_x q, W3, r) (- q_w q)) as [[J4 W4] r4].
  rewrite turn_long_mrad. unfold Rminus. rewrite turn_long, E4, rot_z_inv. reflexivity.
Qed.
Example C36_witness : let q := mkPrec 1 0 0 1 1 1 1 in let v := llr2xyz (0, 0, 1) in
  not_pole (rot_x (q_w q) (rot_z (q_fi q) v)) /\ not_pole (rot_x (- q_E q) (rot_z (- q_x q) (rot_x (q_w q) (rot_z (q_fi q) v)))).
Proof.
  cbv zeta. cbn [q_w q_fi q_E q_x]. unfold not_pole, rot_x, rot_z, llr2xyz. rewrite Ropp_0, cos_0, sin_0, cos_neg, sin_neg. pose proof (cs 1) as H. split.
  - replace (_ + _) with (cos 1 * cos 1 + sin 1 * sin 1) by ring. rewrite H. lra.
  - replace (_ + _) with ((cos 1 * cos 1 + sin 1 * sin 1) * (cos 1 * cos 1 + sin 1 * sin 1)) by ring. rewrite H. lra.
Qed.

(** ** C39 *)
Lemma sq_neg a b : a * a = b -> ~ b < 0.
Proof. intros <- H. pose proof (Rle_0_sqr a) as K. unfold Rsqr in K. lra. Qed.
Lemma sq3 a b c : 0 <= a * a + b * b + c * c.
Proof. pose proof (Rle_0_sqr a). pose proof (Rle_0_sqr b). pose proof (Rle_0_sqr c). unfold Rsqr in *. lra. Qed.
Lemma sq_cases a b : a * a = b * b -> a = b \/ a = - b.
Proof. intros H. assert (K : (a - b) * (a + b) = 0) by lra. apply Rmult_integral in K. destruct K; [left|right]; lra. Qed.
Lemma dist_line p q t s : dist (on_line p q t) (on_line p q s) = dist p q * Rabs (t - s).
Proof.
  destruct p as [[x y] z], q as [[a b] c]. unfold dist, norm, minus, on_line.
  replace (Rabs (t - s)) with (sqrt ((t - s) * (t - s))).
  2:{ change ((t - s) * (t - s)) with (Rsqr (t - s)). apply sqrt_Rsqr_abs. }
  rewrite <- sqrt_mult; [f_equal; ring| |]; repeat match goal with |- context [?a * ?a] => let H := fresh in pose proof (Rle_0_sqr a) as H; unfold Rsqr in H; revert H; generalize (a * a); intros end; lra.
Qed.
(** For two distinct points p and q: if the line meets the ellipsoid, lineEll returns a point of the line on the ellipsoid, with its distances from
    p and q, and no other common point is nearer to p; otherwise it reports a miss, exactly then. *)
Theorem C39_hit p q e r : 0 < e -> p <> q ->
  match snd (let '(x1, y1, z1) := p in let '(x2, y2, z2) := q in lineEll x1 y1 z1 x2 y2 z2 e r) with
  | Some h => exists t, (h_x h, h_y h, h_z h) = on_line p q t /\ on_ellipsoid e r (on_line p q t) /\
                h_R1 h = dist (on_line p q t) p /\ h_R2 h = dist (on_line p q t) q /\
                forall s, on_ellipsoid e r (on_line p q s) -> dist (on_line p q t) p <= dist (on_line p q s) p
  | None => forall s, ~ on_ellipsoid e r (on_line p q s)
  end.
Proof.
  intros He NE. assert (P0 : on_line p q 0 = p) by (destruct p as [[? ?] ?], q as [[? ?] ?]; unfold on_line; f_equal; [f_equal|]; ring).
  assert (P1 : on_line p q 1 = q) by (destruct p as [[? ?] ?], q as [[? ?] ?]; unfold on_line; f_equal; [f_equal|]; ring).
  assert (DP : 0 <= dist p q) by (destruct p as [[? ?] ?], q as [[? ?] ?]; unfold dist, norm, minus; apply sqrt_pos).
  assert (DL : forall t, dist (on_line p q t) p = dist p q * Rabs t).
  { intros t. rewrite <- P0 at 2. rewrite dist_line. do 2 f_equal. ring. }
  assert (DL1 : forall t, dist (on_line p q t) q = dist p q * Rabs (t - 1)).
  { intros t. rewrite <- P1 at 2. apply dist_line. }
  assert (DD : dist p q = sqrt ((let '(x1, y1, z1) := p in let '(x2, y2, z2) := q in (x2 - x1) * (x2 - x1) + (y2 - y1) * (y2 - y1) + (z2 - z1) * (z2 - z1)))).
  { destruct p as [[? ?] ?], q as [[? ?] ?]. unfold dist, norm, minus. f_equal. ring. }
  destruct p as [[x1 y1] z1], q as [[x2 y2] z2]. unfold lineEll.
  set (dx := x2 - x1) in *. set (dy := y2 - y1) in *. set (dz := z2 - z1) in *.
  assert (EE : 0 < e * e) by nra. assert (IE : 0 < / (e * e)) by (apply Rinv_0_lt_compat; exact EE).
  set (A := dx * dx + dy * dy + dz * dz / (e * e)). set (B := x1 * dx + y1 * dy + z1 * dz / (e * e)). set (C := x1 * x1 + y1 * y1 + z1 * z1 / (e * e) - r * r).
  assert (HA : 0 < A).
  { unfold A, Rdiv. destruct (Req_dec dx 0) as [X|X]; [|nra]. destruct (Req_dec dy 0) as [Y|Y]; [|nra]. destruct (Req_dec dz 0) as [Z|Z]; [|assert (0 < dz * dz) by nra; nra].
    contradiction NE. unfold dx, dy, dz in *. f_equal; [f_equal|]; lra. }
  assert (ON : forall t, on_ellipsoid e r (on_line (x1, y1, z1) (x2, y2, z2) t) <-> A * t * t + 2 * B * t + C = 0).
  { intros t. unfold on_ellipsoid, on_line. fold dx dy dz. unfold A, B, C, Rdiv.
    replace ((x1 + dx * t) * (x1 + dx * t) + (y1 + dy * t) * (y1 + dy * t) + (z1 + dz * t) * (z1 + dz * t) * / (e * e)) with
      ((dx * dx + dy * dy + dz * dz * / (e * e)) * t * t + 2 * (x1 * dx + y1 * dy + z1 * dz * / (e * e)) * t + (x1 * x1 + y1 * y1 + z1 * z1 * / (e * e) - r * r) + r * r) by ring.
    split; lra. }
  clearbody A B C. destruct (Rlt_dec (B * B - A * C) 0) as [ND|ND]; cbn [snd].
  - intros s. rewrite ON. intros K. assert (Q : (A * s + B) * (A * s + B) = B * B - A * C) by (transitivity (A * (A * s * s + 2 * B * s + C) + B * B - A * C); [ring|rewrite K; ring]). apply (sq_neg _ _ Q). exact ND.
  - set (D := sqrt (B * B - A * C)). assert (D0 : 0 <= D) by apply sqrt_pos. assert (DD2 : D * D = B * B - A * C) by (apply sqrt_sqrt; lra). clearbody D.
    set (d := if Rlt_dec B 0 then - D else D). assert (Hd : d * d = B * B - A * C) by (unfold d; destruct (Rlt_dec B 0); nra).
    exists ((- B + d) / A). set (t := (- B + d) / A). assert (At : A * t = - B + d) by (unfold t; field; lra). cbn [h_x h_y h_z h_R1 h_R2].
    split; [unfold on_line; reflexivity|]. split.
    { apply ON. apply (Rmult_eq_reg_l A); [|lra]. transitivity ((A * t) * (A * t) + 2 * B * (A * t) + A * C); [ring|]. rewrite At. lra. }
    rewrite DL, DL1. rewrite <- DD. split; [reflexivity|]. split; [reflexivity|].
    intros s K. rewrite DL. apply ON in K. apply Rmult_le_compat_l; [exact DP|].
    assert (Q : (A * s + B) * (A * s + B) = D * D) by (rewrite DD2; transitivity (A * (A * s * s + 2 * B * s + C) + B * B - A * C); [ring|rewrite K; ring]).
    assert (S2 : A * s + B = D \/ A * s + B = - D) by (apply sq_cases; exact Q).
    assert (T1 : A * Rabs t = Rabs (- B + d)) by (rewrite <- At, Rabs_mult, (Rabs_right A) by lra; reflexivity).
    assert (T2 : A * Rabs s = Rabs (A * s)) by (rewrite Rabs_mult, (Rabs_right A) by lra; reflexivity).
    apply (Rmult_le_reg_l A); [exact HA|]. rewrite T1, T2. unfold d. destruct (Rlt_dec B 0); destruct S2 as [S2|S2];
      (replace (A * s) with (- B + (A * s + B)) by ring); rewrite S2; unfold Rabs; repeat destruct (Rcase_abs _); lra.
Qed.
Theorem C39_miss_iff x1 y1 z1 x2 y2 z2 e r : 0 < e -> (x1, y1, z1) <> (x2, y2, z2) ->
  (fst (lineEll x1 y1 z1 x2 y2 z2 e r) < 0 <-> forall s, ~ on_ellipsoid e r (on_line (x1, y1, z1) (x2, y2, z2) s)).
Proof.
  intros He NE. pose proof (C39_hit (x1, y1, z1) (x2, y2, z2) e r He NE) as H. cbv beta iota in H. revert H. unfold lineEll. cbv zeta.
  match goal with |- context [Rlt_dec ?d 0] => destruct (Rlt_dec d 0) as [N|N] end; cbn [fst snd]; intros H.
  - split; [intros _; exact H|intros _; exact N].
  - destruct H as (t & _ & O & _). split; [intros K; lra|]. intros K. exfalso. exact (K t O).
Qed.
Example C39_witness : (2, 0, 0) <> (0, 0, 0) /\ exists h, snd (lineEll 2 0 0 0 0 0 1 1) = Some h /\ h_x h = 1.
Proof.
  split; [intros E; injection E; lra|]. unfold lineEll.
  match goal with |- context [Rlt_dec ?d 0] => replace d with (2 * 2) by field end.
  destruct (Rlt_dec (2 * 2) 0) as [N|N]; [lra|]. eexists. split; [reflexivity|]. cbn [h_x].
  match goal with |- context [Rlt_dec ?d 0] => replace d with (- (4)) by field end.
  destruct (Rlt_dec (- (4)) 0) as [B|B]; [|lra]. rewrite sqrt_square by lra. field.
Qed.

(** ** C57: line and ellipse *)
Definition on_ellipse (ba r x y : R) : Prop := x * x + y * y / (ba * ba) = r * r.
Theorem C57_lineOvl x1 y1 dx dy r ba : 0 < ba -> (dx, dy) <> (0, 0) ->
  match lineOvl x1 y1 dx dy r ba with
  | Some (n, (ax, ay), (bx, by'), R1, R2) =>
      (exists t, ax = x1 + dx * t /\ ay = y1 + dy * t /\ R1 = sqrt (dx * dx + dy * dy) * Rabs t) /\
      (exists t, bx = x1 + dx * t /\ by' = y1 + dy * t /\ R2 = sqrt (dx * dx + dy * dy) * Rabs t) /\
      (forall t, on_ellipse ba r (x1 + dx * t) (y1 + dy * t) <-> (x1 + dx * t, y1 + dy * t) = (ax, ay) \/ (x1 + dx * t, y1 + dy * t) = (bx, by')) /\
      (n = 1%Z <-> (ax, ay) = (bx, by')) /\ (n = 1%Z \/ n = 2%Z)
  | None => forall t, ~ on_ellipse ba r (x1 + dx * t) (y1 + dy * t)
  end.
Proof.
  intros Hb NE. unfold lineOvl. assert (EE : 0 < ba * ba) by nra. assert (IE : 0 < / (ba * ba)) by (apply Rinv_0_lt_compat; exact EE).
  set (A := dx * dx + dy * dy / (ba * ba)). set (B := x1 * dx + y1 * dy / (ba * ba)). set (C := x1 * x1 + y1 * y1 / (ba * ba) - r * r).
  assert (HA : 0 < A).
  { unfold A, Rdiv. destruct (Req_dec dx 0) as [X|X]; [|assert (0 < dx * dx) by nra; assert (0 <= dy * dy) by nra; nra].
    destruct (Req_dec dy 0) as [Y|Y]; [|assert (0 < dy * dy) by nra; nra]. contradiction NE. subst. reflexivity. }
  assert (ON : forall t, on_ellipse ba r (x1 + dx * t) (y1 + dy * t) <-> A * t * t + 2 * B * t + C = 0).
  { intros t. unfold on_ellipse, A, B, C, Rdiv.
    replace ((x1 + dx * t) * (x1 + dx * t) + (y1 + dy * t) * (y1 + dy * t) * / (ba * ba)) with
      ((dx * dx + dy * dy * / (ba * ba)) * t * t + 2 * (x1 * dx + y1 * dy * / (ba * ba)) * t + (x1 * x1 + y1 * y1 * / (ba * ba) - r * r) + r * r) by ring.
    split; lra. }
  assert (INJ : forall t s, (x1 + dx * t, y1 + dy * t) = (x1 + dx * s, y1 + dy * s) -> t = s).
  { intros t s E. assert (E1 : dx * (t - s) = 0) by (injection E; lra). assert (E2 : dy * (t - s) = 0) by (injection E; lra).
    apply Rmult_integral in E1, E2. destruct E1 as [E1|E1], E2 as [E2|E2]; try lra. subst. contradiction NE; reflexivity. }
  clearbody A B C. destruct (Rlt_dec (B * B - A * C) 0) as [ND|ND].
  - intros s. rewrite ON. intros K. assert (Q : (A * s + B) * (A * s + B) = B * B - A * C) by (transitivity (A * (A * s * s + 2 * B * s + C) + B * B - A * C); [ring|rewrite K; ring]). apply (sq_neg _ _ Q). exact ND.
  - set (D := sqrt (B * B - A * C)). assert (D0 : 0 <= D) by apply sqrt_pos. assert (DD : D * D = B * B - A * C) by (apply sqrt_sqrt; lra). clearbody D.
    set (t1 := (- B + D) / A). set (t2 := (- B - D) / A).
    assert (A1 : A * t1 = - B + D) by (unfold t1; field; lra). assert (A2 : A * t2 = - B - D) by (unfold t2; field; lra). clearbody t1 t2.
    split; [exists t1; auto|]. split; [exists t2; auto|]. split; [|split].
    + intros t. rewrite ON. split.
      * intros K. assert (Q : (A * t + B) * (A * t + B) = D * D) by (rewrite DD; transitivity (A * (A * t * t + 2 * B * t + C) + B * B - A * C); [ring|rewrite K; ring]).
        assert (S2 : A * t + B = D \/ A * t + B = - D) by (apply sq_cases; exact Q).
        destruct S2 as [S2|S2]; [left; assert (t = t1) by (apply (Rmult_eq_reg_l A); lra)|right; assert (t = t2) by (apply (Rmult_eq_reg_l A); lra)]; subst; reflexivity.
      * intros [K|K]; apply INJ in K; subst t; (apply (Rmult_eq_reg_l A); [|lra]).
        -- transitivity ((A * t1) * (A * t1) + 2 * B * (A * t1) + A * C); [ring|]. rewrite A1. lra.
        -- transitivity ((A * t2) * (A * t2) + 2 * B * (A * t2) + A * C); [ring|]. rewrite A2. lra.
    + destruct (Req_EM_T (B * B - A * C) 0) as [Z0|Z0].
      * split; [intros _|reflexivity]. assert (D = 0) by nra. assert (t1 = t2) by (apply (Rmult_eq_reg_l A); lra). subst. reflexivity.
      * split; [discriminate|]. intros K. apply INJ in K. subst t2. exfalso. apply Z0. nra.
    + destruct (Req_EM_T (B * B - A * C) 0); auto.
Qed.
Example C57_witness : exists a b c d, lineOvl 0 0 1 0 1 1 = Some (2%Z, a, b, c, d) /\ fst a = 1.
Proof.
  unfold lineOvl. match goal with |- context [Rlt_dec ?d 0] => replace d with 1 by field end.
  destruct (Rlt_dec 1 0) as [N|N]; [lra|]. destruct (Req_EM_T 1 0) as [Z0|Z0]; [lra|].
  eexists _, _, _, _. split; [reflexivity|]. cbn [fst]. rewrite sqrt_1. field.
Qed.

(** ** C40 *)
(** The body is at (x, y) at time t and moves with velocity (v, u), v > 0 (the moon overtakes the sun and the shadow).  The returned time puts it on
    the circle; n = 1 gives the last such time, n = 0 the first; no time is returned exactly when it never is on the circle. *)
Theorem C40_contact t x y v u r n : 0 < v ->
  let on s := let X := x + v * (s - t) in let Y := y + u * (s - t) in X * X + Y * Y = r * r in
  match lineT t x y v u r n with
  | Some s => on s /\ forall s', on s' -> if n then s' <= s else s <= s'
  | None => forall s, ~ on s
  end.
Proof.
  intros Hv on. unfold lineT. set (b := y * v - x * u). set (A := u * u + v * v). set (B := u * b). set (C := b * b - r * r * v * v).
  assert (HA : 0 < A) by (unfold A; nra).
  (* in terms of the abscissa X = x + v (s - t): A X^2 + 2 B X + C = 0 *)
  assert (ON : forall s, on s <-> A * (x + v * (s - t)) * (x + v * (s - t)) + 2 * B * (x + v * (s - t)) + C = 0).
  { intros s. unfold on. set (X := x + v * (s - t)). set (Y := y + u * (s - t)). assert (K : v * Y = u * X + b) by (unfold X, Y, b; ring).
    assert (Q : A * X * X + 2 * B * X + C = v * v * (X * X + Y * Y - r * r)).
    { transitivity (v * v * X * X + (v * Y) * (v * Y) - r * r * v * v); [|ring]. rewrite K. unfold A, B, C. ring. }
    rewrite Q. assert (0 < v * v) by nra. split; intros H'; [rewrite H'; ring|]. apply Rmult_integral in H'. destruct H'; lra. }
  clearbody A B C. destruct (Rlt_dec (B * B - A * C) 0) as [ND|ND].
  - intros s. rewrite ON. set (X := x + v * (s - t)). intros K. assert (Q : (A * X + B) * (A * X + B) = B * B - A * C) by (transitivity (A * (A * X * X + 2 * B * X + C) + B * B - A * C); [ring|rewrite K; ring]). apply (sq_neg _ _ Q). exact ND.
  - set (D := sqrt (B * B - A * C)). assert (D0 : 0 <= D) by apply sqrt_pos. assert (DD : D * D = B * B - A * C) by (apply sqrt_sqrt; lra). clearbody D.
    set (d := if n then D else - D). assert (Hd : d * d = B * B - A * C) by (unfold d; destruct n; nra).
    set (X := (- B + d) / A). assert (AX : A * X = - B + d) by (unfold X; field; lra). clearbody X.
    assert (EX : x + v * (t + (X - x) / v - t) = X) by (field; lra).
    split.
    + apply ON. rewrite EX. apply (Rmult_eq_reg_l A); [|lra]. transitivity ((A * X) * (A * X) + 2 * B * (A * X) + A * C); [ring|]. rewrite AX. lra.
    + intros s' K. apply ON in K. set (X' := x + v * (s' - t)) in *. assert (ES : s' = t + (X' - x) / v) by (unfold X'; field; lra). clearbody X'.
      assert (Q : (A * X' + B) * (A * X' + B) = D * D) by (rewrite DD; transitivity (A * (A * X' * X' + 2 * B * X' + C) + B * B - A * C); [ring|rewrite K; ring]).
      assert (S2 : A * X' + B = D \/ A * X' + B = - D) by (apply sq_cases; exact Q).
      assert (IV : 0 < / v) by (apply Rinv_0_lt_compat; exact Hv). rewrite ES. unfold d in AX. unfold Rdiv.
      destruct n; [assert (X' <= X)|assert (X <= X')]; try (apply (Rmult_le_reg_l A); [exact HA|]; lra); nra.
Qed.
(** With a negative velocity the two roots are exchanged, so "earlier or later as requested" fails. *)
Theorem C40_order_refuted : exists t x y v u r s s', v <> 0 /\ lineT t x y v u r true = Some s /\ lineT t x y v u r false = Some s' /\ s < s'.
Proof.
  exists 0, 0, 0, (-1), 0, 1, (-1), 1. split; [lra|]. unfold lineT. replace (0 * (0 * -1 - 0 * 0) * (0 * (0 * -1 - 0 * 0)) - (0 * 0 + -1 * -1) * ((0 * -1 - 0 * 0) * (0 * -1 - 0 * 0) - 1 * 1 * -1 * -1)) with 1 by ring.
  destruct (Rlt_dec 1 0); [lra|]. rewrite sqrt_1. split; [f_equal; field|]. split; [f_equal; field|lra].
Qed.
Example C40_witness : lineT 10 0 0 2 0 6 true = Some 13 /\ lineT 10 0 0 2 0 6 false = Some 7.
Proof.
  unfold lineT. replace (0 * (0 * 2 - 0 * 0) * (0 * (0 * 2 - 0 * 0)) - (0 * 0 + 2 * 2) * ((0 * 2 - 0 * 0) * (0 * 2 - 0 * 0) - 6 * 6 * 2 * 2)) with (24 * 24) by ring.
  destruct (Rlt_dec (24 * 24) 0); [lra|]. rewrite sqrt_square by lra. split; f_equal; field.
Qed.

(** ** C58: change of centre *)
Theorem C58_change_of_centre z a : llr2xyz z <> llr2xyz a -> llr2xyz (h2g z a) = minus (llr2xyz z) (llr2xyz a).
Proof.
  intros NE. unfold h2g. destruct (llr2xyz a) as [[ax ay] az], (llr2xyz z) as [[zx zy] zz]. apply C38_rectangular.
  intros E. apply NE. assert (zx - ax = 0) by congruence. assert (zy - ay = 0) by congruence. assert (zz - az = 0) by congruence. f_equal; [f_equal|]; lra.
Qed.
Example C58_witness : llr2xyz (0, 0, 2) <> llr2xyz (0, 0, 1).
Proof. unfold llr2xyz. rewrite cos_0, sin_0. intros E. assert (2 * 1 * 1 = 1 * 1 * 1) by congruence. lra. Qed.

(** ** C59: horizontal coordinates *)
(** With H = gst + L - J the hour angle: altitude and azimuth (from the south, westward) satisfy the three equations of the astronomical triangle. *)
Theorem C59_horizontal J W r L fa gst : - (PI / 2) < W < PI / 2 ->
  let H := gst + L - J in
  exists A h, CD2DP (J, W, r) L fa gst = (A, h, r) /\ 0 <= A < 2 * PI /\ - (PI / 2) <= h <= PI / 2 /\
    sin h = sin fa * sin W + cos fa * cos W * cos H /\
    cos h * sin A = cos W * sin H /\
    cos h * cos A = sin fa * cos W * cos H - cos fa * sin W.
Proof.
  intros HW H. unfold CD2DP. pose proof (llrConv_ok (J + PI / 2 - gst - L) W 1 (PI / 2 - fa) HW) as E. pose proof (llrConv_range (J + PI / 2 - gst - L) W 1 (PI / 2 - fa)) as G.
  assert (S : llrConv (J + PI / 2 - gst - L, W, r) (PI / 2 - fa) = (fst (llrConv (J + PI / 2 - gst - L, W, 1) (PI / 2 - fa)), r)) by reflexivity. rewrite S.
  destruct (llrConv (J + PI / 2 - gst - L, W, 1) (PI / 2 - fa)) as [[a h] r']. cbn [fst]. destruct G as (G1 & G2 & ->).
  exists (rad2mrad (PI / 2 - a)), h. split; [reflexivity|]. split; [apply rad2mrad_ok|]. split; [exact G2|].
  rewrite cos_mrad, sin_mrad, cos_shift, sin_shift.
  unfold llr2xyz, rot_x in E. rewrite cos_shift, sin_shift in E.
  replace (J + PI / 2 - gst - L) with (PI / 2 - H) in E by (unfold H; ring). rewrite cos_shift, sin_shift in E.
  assert (E1 : 1 * cos h * cos a = 1 * cos W * sin H) by congruence.
  assert (E2 : 1 * cos h * sin a = 1 * cos W * cos H * sin fa - 1 * sin W * cos fa) by congruence.
  assert (E3 : 1 * sin h = 1 * cos W * cos H * cos fa + 1 * sin W * sin fa) by congruence. lra.
Qed.

Example C59_witness : - (PI / 2) < 1 < PI / 2.
Proof. pose proof PI2_3_2. unfold PI2 in *. lra. Qed.

(** ** C60: angular distance *)
Theorem C60_angle J1 W1 J2 W2 : 1 / 1000 <= Rabs (rad2rrad (J1 - J2)) \/ 1 / 1000 <= Rabs (W1 - W2) ->
  0 <= j1_j2 J1 W1 J2 W2 <= PI /\ cos (j1_j2 J1 W1 J2 W2) = dot (llr2xyz (J1, W1, 1)) (llr2xyz (J2, W2, 1)).
Proof.
  intros H. set (c := sin W1 * sin W2 + cos W1 * cos W2 * cos (rad2rrad (J1 - J2))).
  assert (E : j1_j2 J1 W1 J2 W2 = acos c).
  { unfold j1_j2. fold c. destruct (Rlt_dec _ _); [|reflexivity]. destruct (Rlt_dec _ _); [|reflexivity]. destruct H; lra. }
  assert (D : c = dot (llr2xyz (J1, W1, 1)) (llr2xyz (J2, W2, 1))) by (unfold c, dot, llr2xyz; rewrite cos_rrad, cos_minus; ring).
  rewrite E. split; [apply acos_bound|]. rewrite cos_acos; [exact D|]. rewrite D. unfold dot, llr2xyz.
  assert (L : forall a b c x y z, a * a + b * b + c * c = 1 -> x * x + y * y + z * z = 1 -> -1 <= a * x + b * y + c * z <= 1).
  { intros a b k x y z N1 N2. pose proof (sq3 (a - x) (b - y) (k - z)). pose proof (sq3 (a + x) (b + y) (k + z)). split; lra. }
  assert (U : forall W J, 1 * cos W * cos J * (1 * cos W * cos J) + 1 * cos W * sin J * (1 * cos W * sin J) + 1 * sin W * (1 * sin W) = 1).
  { intros W J. transitivity (cos W * cos W * (cos J * cos J + sin J * sin J) + sin W * sin W); [ring|]. rewrite (cs J), (cs W). ring. }
  apply L; apply U.
Qed.
(** Nearer than a milliradian in both coordinates the plane formula is used: its square and the square of the chord between the two unit vectors
    agree to a millionth. *)
Lemma sin_near x : Rabs x <= / 2000 -> x * x * (1 - / 10000000) <= sin x * sin x <= x * x.
Proof.
  intros H. assert (K : forall y, 0 <= y <= / 2000 -> y * (1 - / 20000000) <= sin y <= y).
  { intros y Hy. pose proof PI2_3_2. unfold PI2 in *. destruct (SIN y) as [L U]; [lra|lra|]. split.
    - revert L. unfold sin_lb, sin_approx, sum_f_R0, sin_term. cbn [Nat.mul Nat.add pow fact INR]. intros L.
      assert (E : - 1 * 1 * y = - y) by ring. 
      assert (Y2 : 0 <= y * y <= / 4000000) by nra.
      assert (Y3 : 0 <= y * y * y <= y * / 4000000) by nra. assert (0 <= y * y * y * y * y <= y * / 4000000 * / 4000000) by nra.
      assert (Y7 : 0 <= y * y * y * y * y * y * y <= y * / 4000000 * / 4000000 * / 4000000) by nra. simpl in L. lra.
    - destruct (Req_dec y 0) as [->|]; [rewrite sin_0; lra|]. apply Rlt_le, sin_lt_x. lra. }
  destruct (Rle_lt_dec 0 x) as [P|P].
  - rewrite Rabs_right in H by lra. destruct (K x ltac:(lra)). assert (0 <= sin x) by nra. split; nra.
  - rewrite Rabs_left in H by lra. destruct (K (- x) ltac:(lra)) as [K1 K2]. rewrite sin_neg in K1, K2. assert (0 <= - sin x) by nra. split; nra.
Qed.
Theorem C60_near J1 W1 J2 W2 : Rabs (rad2rrad (J1 - J2)) < 1 / 1000 -> Rabs (W1 - W2) < 1 / 1000 ->
  let v := j1_j2 J1 W1 J2 W2 in let c := dist (llr2xyz (J1, W1, 1)) (llr2xyz (J2, W2, 1)) in
  0 <= v /\ v * v * (1 - / 1000000) <= c * c <= v * v.
Proof.
  intros HJ HW. cbv zeta. unfold j1_j2. destruct (Rlt_dec _ _) as [_|N]; [|contradiction]. destruct (Rlt_dec _ _) as [_|N]; [|contradiction].
  set (m := (W1 + W2) / 2). set (h := (W1 - W2) / 2). set (d := rad2rrad (J1 - J2)) in *. set (k := d / 2).
  split; [apply sqrt_pos|].
  assert (N : 0 <= d * cos m * (d * cos m) + (W1 - W2) * (W1 - W2)) by (pose proof (sq3 (d * cos m) (W1 - W2) 0); lra).
  rewrite sqrt_sqrt by exact N.
  assert (C : dist (llr2xyz (J1, W1, 1)) (llr2xyz (J2, W2, 1)) * dist (llr2xyz (J1, W1, 1)) (llr2xyz (J2, W2, 1)) =
              4 * (sin h * sin h * (1 - sin k * sin k) + cos m * cos m * (sin k * sin k))).
  { unfold dist, norm, minus, llr2xyz. rewrite sqrt_sqrt by apply sq3.
    assert (CD : cos J1 * cos J2 + sin J1 * sin J2 = 1 - 2 * (sin k * sin k)).
    { rewrite <- cos_minus. rewrite <- (cos_rrad (J1 - J2)). fold d. replace d with (2 * k) by (unfold k; field). rewrite cos_2a_sin. ring. }
    transitivity (cos W1 * cos W1 * (cos J1 * cos J1 + sin J1 * sin J1) + cos W2 * cos W2 * (cos J2 * cos J2 + sin J2 * sin J2) + sin W1 * sin W1 + sin W2 * sin W2
                   - 2 * (sin W1 * sin W2 + cos W1 * cos W2 * (cos J1 * cos J2 + sin J1 * sin J2))); [ring|].
    rewrite CD, (cs J1), (cs J2), (cs W1), (cs W2). replace W1 with (m + h) by (unfold m, h; field). replace W2 with (m - h) by (unfold m, h; field).
    rewrite sin_plus, sin_minus, cos_plus, cos_minus. set (sm := sin m). set (sh := sin h). set (sk := sin k).
    pose proof (cs m) as Cm. pose proof (cs h) as Ch. fold sm in Cm. fold sh in Ch. set (cm := cos m) in *. set (ch := cos h) in *.
    transitivity (2 - 2 * ((sm * sm) * (ch * ch) - (cm * cm) * (sh * sh) + ((cm * cm) * (ch * ch) - (sm * sm) * (sh * sh)) * (1 - 2 * (sk * sk)))); [ring|].
    rewrite Ch, Cm. ring. }
  rewrite C. assert (Bh : Rabs h <= / 2000).
  { apply Rabs_def2 in HW. apply Rabs_le. unfold h. lra. }
  assert (Bk : Rabs k <= / 2000). { apply Rabs_def2 in HJ. apply Rabs_le. unfold k. lra. }
  pose proof (sin_near h Bh) as Sh. pose proof (sin_near k Bk) as Sk. set (p := sin h * sin h) in *. set (q := sin k * sin k) in *.
  assert (Kq : k * k <= / 4000000) by (apply Rabs_le_inv in Bk; nra).
  assert (M0 : 0 <= cos m * cos m) by (pose proof (Rle_0_sqr (cos m)); assumption).
  replace (d * cos m * (d * cos m) + (W1 - W2) * (W1 - W2)) with (4 * (h * h + cos m * cos m * (k * k))) by (unfold h, k; field).
  set (c2 := cos m * cos m) in *. assert (Hh : 0 <= h * h) by (pose proof (Rle_0_sqr h); assumption). assert (Hk : 0 <= k * k) by (pose proof (Rle_0_sqr k); assumption).
  set (h2 := h * h) in *. set (k2 := k * k) in *. assert (Q0 : 0 <= q) by (unfold q; pose proof (Rle_0_sqr (sin k)); assumption). clearbody p q c2 h2 k2.
  assert (P1 : h2 * (1 - / 10000000) * (1 - / 4000000) <= p * (1 - q)).
  { apply Rmult_le_compat; [lra|lra|lra|lra]. }
  assert (P2 : p * (1 - q) <= h2) by nra.
  assert (P3 : c2 * (k2 * (1 - / 10000000)) <= c2 * q) by (apply Rmult_le_compat_l; lra).
  assert (P4 : c2 * q <= c2 * k2) by (apply Rmult_le_compat_l; lra).
  assert (P5 : 0 <= c2 * k2) by nra. lra.
Qed.
Example C60_near_witness : Rabs (rad2rrad (0 - 0)) < 1 / 1000 /\ Rabs (0 - / 2000) < 1 / 1000.
Proof.
  split; [|apply Rabs_def1; lra]. replace (rad2rrad (0 - 0)) with 0; [rewrite Rabs_R0; lra|].
  destruct (rad2rrad_ok (0 - 0)) as [Bd E]. pose proof PI_RGT_0. apply (C31_unique (0 - 0)); [exists 0%Z; lra|exact E|apply Rabs_def1; lra].
Qed.
Example C60_witness : 1 / 1000 <= Rabs (rad2rrad (0 - 0)) \/ 1 / 1000 <= Rabs (1 - 0).
Proof. right. rewrite Rabs_right; lra. Qed.

(** ** C61: Besselian coordinates *)
Theorem C61_besselian_inverse J W r I0 I1 I2 : - (PI / 2) < W < PI / 2 -> 0 < r ->
  not_pole (rot_x (- I1) (rot_z (- I0) (llr2xyz (J, W, r)))) ->
  cd2bse (J, W, r) (I0, I1, I2) = rot_x (- I1) (rot_z (- I0) (llr2xyz (J, W, r))) /\
  llr2xyz (bse2cd (cd2bse (J, W, r) (I0, I1, I2)) (I0, I1, I2)) = llr2xyz (J, W, r).
Proof.
  intros HW Hr NP. assert (E : cd2bse (J, W, r) (I0, I1, I2) = rot_x (- I1) (rot_z (- I0) (llr2xyz (J, W, r)))).
  { unfold cd2bse. rewrite llrConv_ok by exact HW. unfold Rminus. rewrite turn_long. reflexivity. }
  split; [exact E|]. rewrite E. unfold bse2cd. set (v := rot_x (- I1) (rot_z (- I0) (llr2xyz (J, W, r)))) in *.
  destruct v as [[x y] z] eqn:Ev. assert (NZ : (x, y, z) <> (0, 0, 0)) by (intros K; assert (x = 0) by congruence; assert (y = 0) by congruence; unfold not_pole in NP; nra).
  pose proof (C38_rectangular x y z NZ) as Q. pose proof (C38_ranges x y z) as G.
  destruct (xyz2llr (x, y, z)) as [[a b] c]. destruct G as (G1 & G2 & G3).
  assert (Hc : 0 < c). { rewrite G3. unfold norm. apply sqrt_lt_R0. unfold not_pole in NP. nra. }
  destruct (normal_of a b c G1 G2 Hc) as (_ & HB & _); [rewrite Q; exact NP|].
  pose proof (llrConv_ok a b c I1 HB) as E1. rewrite Q, <- Ev in E1. unfold v in E1. rewrite rot_x_inv' in E1.
  destruct (llrConv (a, b, c) I1) as [[a' b'] c']. rewrite turn_long_mrad, turn_long, E1, rot_z_inv'. reflexivity.
Qed.
Example C61_witness : not_pole (rot_x (- 0) (rot_z (- 0) (llr2xyz (0, 0, 1)))).
Proof. unfold not_pole, rot_x, rot_z, llr2xyz. rewrite Ropp_0, cos_0, sin_0. lra. Qed.

(** ** C62: place on the Earth *)
(** The normal of the ellipsoid x^2 + y^2 + z^2/e^2 = r^2 at (x, y, z) has the direction (x, y, z/e^2); its longitude and latitude are the geographic ones. *)
Lemma normal_direction x y z c d : 0 < x * x + y * y -> (exists j, d = atan2 y x + c + 2 * PI * IZR j) ->
  exists k, 0 < k /\ rot_z c (x, y, z) = llr2xyz (d, atan (z / sqrt (x * x + y * y)), k).
Proof.
  intros H (j & Ed). set (rho := sqrt (x * x + y * y)). assert (Hr : 0 < rho) by (apply sqrt_lt_R0; exact H).
  destruct (polar y x) as [P1 P2]. fold rho in P1, P2.
  assert (S : 0 < sqrt (1 + (z / rho)²)) by (apply sqrt_lt_R0; pose proof (Rle_0_sqr (z / rho)); lra).
  exists (rho * sqrt (1 + (z / rho)²)). split; [nra|]. unfold rot_z, llr2xyz. rewrite cos_atan, sin_atan, Ed, cos_Z, sin_Z, cos_plus, sin_plus.
  set (g := atan2 y x) in *. set (q := sqrt (1 + (z / rho)²)) in *. clearbody rho g q. subst x y. f_equal; [f_equal|]; field; try lra; split; lra.
Qed.
Lemma div_e z e rho : 0 < e -> z / e / e / rho = z / (e * e) / rho.
Proof. intros H. unfold Rdiv. rewrite Rinv_mult by lra. ring. Qed.
Theorem C62_lineEar2 x1 y1 z1 x2 y2 z2 e r I0 I1 I2 : 0 < e -> (x1, y1, z1) <> (x2, y2, z2) ->
  let p := rot_x I1 (x1, y1, z1) in let q := rot_x I1 (x2, y2, z2) in
  match lineEar2 x1 y1 z1 x2 y2 z2 e r (I0, I1, I2) with
  | None => forall s, ~ on_ellipsoid e r (on_line p q s)
  | Some (h, J, W) => (exists t, (h_x h, h_y h, h_z h) = on_line p q t) /\ on_ellipsoid e r (h_x h, h_y h, h_z h) /\
      - PI < J <= PI /\ - (PI / 2) < W < PI / 2 /\
      (0 < h_x h * h_x h + h_y h * h_y h -> exists k, 0 < k /\ rot_z (I0 - I2) (h_x h, h_y h, h_z h / (e * e)) = llr2xyz (J, W, k))
  end.
Proof.
  intros He NE p q. unfold lineEar2.
  replace (cos I1 * y1 - sin I1 * z1) with (y1 * cos I1 - z1 * sin I1) by ring. replace (sin I1 * y1 + cos I1 * z1) with (y1 * sin I1 + z1 * cos I1) by ring.
  replace (cos I1 * y2 - sin I1 * z2) with (y2 * cos I1 - z2 * sin I1) by ring. replace (sin I1 * y2 + cos I1 * z2) with (y2 * sin I1 + z2 * cos I1) by ring.
  assert (NE' : p <> q).
  { intros E. apply NE. rewrite <- (rot_x_inv I1 (x1, y1, z1)), <- (rot_x_inv I1 (x2, y2, z2)). fold p q. rewrite E. reflexivity. }
  pose proof (C39_hit p q e r He NE') as H. unfold p, q, rot_x in H. cbv beta iota in H.
  destruct (snd (lineEll x1 (y1 * cos I1 - z1 * sin I1) (y1 * sin I1 + z1 * cos I1) x2 (y2 * cos I1 - z2 * sin I1) (y2 * sin I1 + z2 * cos I1) e r)) as [h|]; [|exact H].
  destruct H as (t & E & O & _). rewrite <- E in O. split; [exists t; exact E|]. split; [exact O|].
  split; [apply rad2rrad_ok|]. split; [match goal with |- _ < atan ?a < _ => pose proof (atan_bound a) end; lra|]. intros NP. rewrite div_e by exact He.
  apply normal_direction; [exact NP|]. destruct (rad2rrad_ok (atan2 (h_y h) (h_x h) + I0 - I2)) as [_ [j ->]]. exists j. ring.
Qed.
Theorem C62_lineEar P Q gst ba rE : 0 < ba -> llr2xyz P <> llr2xyz Q ->
  match lineEar P Q gst ba rE with
  | None => forall s, ~ on_ellipsoid ba rE (on_line (llr2xyz P) (llr2xyz Q) s)
  | Some (h, J, W) => (exists t, (h_x h, h_y h, h_z h) = on_line (llr2xyz P) (llr2xyz Q) t) /\ on_ellipsoid ba rE (h_x h, h_y h, h_z h) /\
      - PI < J <= PI /\ - (PI / 2) < W < PI / 2 /\
      (0 < h_x h * h_x h + h_y h * h_y h -> exists k, 0 < k /\ rot_z (- gst) (h_x h, h_y h, h_z h / (ba * ba)) = llr2xyz (J, W, k))
  end.
Proof.
  intros He NE. unfold lineEar. pose proof (C39_hit _ _ ba rE He NE) as H. destruct (llr2xyz P) as [[px py] pz], (llr2xyz Q) as [[qx qy] qz].
  destruct (snd (lineEll px py pz qx qy qz ba rE)) as [h|]; [|exact H].
  destruct H as (t & E & O & _). rewrite <- E in O. split; [exists t; exact E|]. split; [exact O|].
  split; [apply rad2rrad_ok|]. split; [match goal with |- _ < atan ?a < _ => pose proof (atan_bound a) end; lra|]. intros NP.
  apply normal_direction; [exact NP|]. destruct (rad2rrad_ok (atan2 (h_y h) (h_x h) - gst)) as [_ [j ->]]. exists j. ring.
Qed.
Example C62_witness : (2, 0, 0) <> (0, 0, 0) /\ exists h J W, lineEar2 2 0 0 0 0 0 1 1 (0, 0, 0) = Some (h, J, W) /\ 0 < h_x h * h_x h + h_y h * h_y h.
Proof.
  split; [intros E; injection E; lra|]. unfold lineEar2. rewrite cos_0, sin_0.
  replace (1 * 0 - 0 * 0) with 0 by ring. replace (0 * 0 + 1 * 0) with 0 by ring.
  destruct C39_witness as (_ & h & E & X). rewrite E. eexists h, _, _. split; [reflexivity|]. rewrite X. nra.
Qed.

Print Assumptions C31_mrad_exact.
Print Assumptions C31_rrad_exact.
Print Assumptions C31_unique.
Print Assumptions C38_rectangular.
Print Assumptions C38_spherical.
Print Assumptions C38_ranges.
Print Assumptions C37_rotation.
Print Assumptions C37_ranges.
Print Assumptions C36_equatorial.
Print Assumptions C36_equatorial_coordinates.
Print Assumptions C36_ecliptic.
Print Assumptions C39_hit.
Print Assumptions C39_miss_iff.
Print Assumptions C57_lineOvl.
Print Assumptions C40_contact.
Print Assumptions C40_order_refuted.
Print Assumptions C58_change_of_centre.
Print Assumptions C59_horizontal.
Print Assumptions C60_angle.
Print Assumptions C60_near.
Print Assumptions C61_besselian_inverse.
Print Assumptions C62_lineEar2.
Print Assumptions C62_lineEar.
