(** C126, C127: the instants of an eclipse and its north and south limits. *)
From Coq Require Import ZArith Reals Lia Lra.
From Verif Require Import GeoModel GeoSpec GeoProof GeoProps ShModel.
Open Scope R_scope.

(** ** C126 *)
(** three positions of a uniformly accelerated motion give its speed and acceleration *)
Theorem instants_speed p q r tg : tg <> 0 -> let f := fun t => p + q * t + r / 2 * (t * t) in velocity (f (- tg)) (f tg) tg = q /\ acceleration (f (- tg)) (f 0) (f tg) tg = r.
Proof. intros H f. unfold velocity, acceleration, f. split; field; exact H. Qed.
Section Motion.
Variables b0 b1 vx vy : R.
Hypothesis HV : (vx, vy) <> (0, 0).
Let v := sqrt (vx * vx + vy * vy).
Local Lemma vv : 0 < vx * vx + vy * vy.
Proof. destruct (Req_dec vx 0) as [E|E]; [destruct (Req_dec vy 0) as [E2|E2]|]; [elim HV; congruence|nra|nra]. Qed.
Local Lemma v_pos : 0 < v. Proof. apply sqrt_lt_R0, vv. Qed.
Local Lemma v_sq : v * v = vx * vx + vy * vy. Proof. apply sqrt_sqrt. pose proof vv. lra. Qed.
(** the square of the distance at time t, about the middle *)
Local Lemma dist_eq t : (b0 + vx * t) * (b0 + vx * t) + (b1 + vy * t) * (b1 + vy * t) = mid_dist b0 b1 vx vy * mid_dist b0 b1 vx vy + v * v * ((t - mid_time b0 b1 vx vy) * (t - mid_time b0 b1 vx vy)).
Proof.
  unfold mid_dist, mid_time. fold v. pose proof v_pos as P. pose proof v_sq as Q.
  transitivity ((vx * b1 - vy * b0) * (vx * b1 - vy * b0) / (v * v) + v * v * ((t + (b0 * vx + b1 * vy) / (v * v)) * (t + (b0 * vx + b1 * vy) / (v * v)))); [|field; lra].
  rewrite Q. field. pose proof vv. lra.
Qed.
End Motion.
(** the place of the middle is the position at its time, no other position is nearer, and its distance is that of the signed distance, which is the same for every position *)
Theorem instants_middle b0 b1 vx vy : (vx, vy) <> (0, 0) -> let t0 := mid_time b0 b1 vx vy in let D := mid_dist b0 b1 vx vy in
  mid_place b0 b1 vx vy = (b0 + vx * t0, b1 + vy * t0) /\ (b0 + vx * t0) * (b0 + vx * t0) + (b1 + vy * t0) * (b1 + vy * t0) = D * D /\
  (forall t, t <> t0 -> D * D < (b0 + vx * t) * (b0 + vx * t) + (b1 + vy * t) * (b1 + vy * t)) /\
  (forall t, D * sqrt (vx * vx + vy * vy) = vx * (b1 + vy * t) - vy * (b0 + vx * t)).
Proof.
  intros HV t0 D. split; [reflexivity|]. split; [|split].
  - rewrite (dist_eq b0 b1 vx vy HV). fold D t0. ring.
  - intros t Ht. rewrite (dist_eq b0 b1 vx vy HV). fold D t0. pose proof (v_pos vx vy HV) as P. set (v := sqrt (vx * vx + vy * vy)) in *. assert (Q : 0 < (t - t0) * (t - t0)). { destruct (Rtotal_order t t0) as [C|[C|C]]; [nra|contradiction|nra]. } assert (0 < v * v) by nra. assert (0 < v * v * ((t - t0) * (t - t0))) by (apply Rmult_lt_0_compat; assumption). lra.
  - intros t. unfold D, mid_dist. pose proof (v_pos vx vy HV) as P. field. lra.
Qed.
(** the axis is within ls of the Earth's centre exactly between the two instants; when it never is, both are the middle *)
Theorem instants_between b0 b1 vx vy ls : (vx, vy) <> (0, 0) -> 0 < ls -> let '(t2, t3) := instants b0 b1 vx vy ls in
  (forall t, (b0 + vx * t) * (b0 + vx * t) + (b1 + vy * t) * (b1 + vy * t) < ls * ls <-> t2 < t < t3) /\
  (t2 < t3 -> (b0 + vx * t2) * (b0 + vx * t2) + (b1 + vy * t2) * (b1 + vy * t2) = ls * ls /\ (b0 + vx * t3) * (b0 + vx * t3) + (b1 + vy * t3) * (b1 + vy * t3) = ls * ls) /\
  t2 + t3 = 2 * mid_time b0 b1 vx vy /\ t2 <= t3.
Proof.
  intros HV HL. unfold instants. pose proof (v_pos vx vy HV) as P. set (v := sqrt (vx * vx + vy * vy)) in *. set (D := mid_dist b0 b1 vx vy). set (t0 := mid_time b0 b1 vx vy).
  pose proof (Rabs_pos D) as AD. assert (DD : Rabs D * Rabs D = D * D) by (rewrite <- Rabs_mult; apply Rabs_pos_eq; nra).
  assert (V2 : 0 < v * v) by nra.
  destruct (Rlt_dec (Rabs D) ls) as [C|C].
  - assert (Q : 0 < ls * ls - Rabs D * Rabs D) by nra. set (dt := sqrt (ls * ls - Rabs D * Rabs D) / v).
    assert (T : 0 < dt) by (apply Rdiv_lt_0_compat; [apply sqrt_lt_R0; exact Q|exact P]).
    assert (T2 : v * v * (dt * dt) = ls * ls - D * D). { unfold dt. transitivity (sqrt (ls * ls - Rabs D * Rabs D) * sqrt (ls * ls - Rabs D * Rabs D)); [field; lra|]. rewrite sqrt_sqrt by lra. lra. }
    split; [|split; [|split; [ring|lra]]].
    + intros t. rewrite (dist_eq b0 b1 vx vy HV). fold v D t0. set (y := t - t0). assert (EY : (v * v * (y * y) < v * v * (dt * dt)) <-> y * y < dt * dt). { split; intros Y; [apply Rmult_lt_reg_l with (v * v); assumption|apply Rmult_lt_compat_l; assumption]. }
      split; [intros Y; assert (y * y < dt * dt) by (apply EY; lra); unfold y in *; split; nra|intros Y]. assert (y * y < dt * dt) by (unfold y; nra). apply EY in H. lra.
    + intros _. rewrite !(dist_eq b0 b1 vx vy HV). fold v D t0. replace (t0 - dt - t0) with (- dt) by ring. replace (t0 + dt - t0) with dt by ring. split; lra.
  - split; [|split; [intros; lra|split; [ring|lra]]]. intros t. split; [|intros; lra]. intros Y. exfalso. rewrite (dist_eq b0 b1 vx vy HV) in Y. fold v D t0 in Y. assert (0 <= (t - t0) * (t - t0)) by apply Rle_0_sqr. assert (0 <= v * v * ((t - t0) * (t - t0))) by (apply Rmult_le_pos; lra). nra.
Qed.
Theorem instants_noon b0 vx : vx <> 0 -> b0 + vx * noon b0 vx = 0.
Proof. intros H. unfold noon. field. exact H. Qed.
Example instants_ex : (3, 4) <> (0, 0) /\ Rabs (mid_dist 0 (1 / 2) 3 4) < 1.
Proof.
  split; [intros E; injection E; lra|]. unfold mid_dist. replace (3 * 3 + 4 * 4) with (5 * 5) by ring. rewrite sqrt_square by lra. rewrite Rabs_pos_eq; lra.
Qed.

(** ** C127: the limits *)
(** (x, y) is the point of the shadow's edge (distance r from the axis (M0, M1)) on the left (h = 1) or right (h = -1) of the motion relative to the surface,
    which is taken at the height z on the line from (x0, y0, 0) to the Moon's centre, z being the height of the unit sphere over (x0, y0), or 0 outside *)
Definition relative_speed (vx0 vy0 I1 : R) (p : point) : R * R := let '(x, y, z) := p in (vx0 - 2 * PI * (sin I1 * z - cos I1 * y), vy0 - 2 * PI * (cos I1 * x)).
Definition edge (M : vec) (vx0 vy0 h r I1 x y sinA cosA : R) : Prop := let '(M0, M1, M2) := M in exists x0 y0 z,
  (z * z = 1 - x0 * x0 - y0 * y0 \/ (z = 0 /\ 1 < x0 * x0 + y0 * y0)) /\ 0 <= z /\
  let '(X, Y, _) := on_line (x0, y0, 0) M (z / M2) in let '(vx, vy) := relative_speed vx0 vy0 I1 (X, Y, z) in let v := sqrt (vx * vx + vy * vy) in
  sinA = h * vy / v /\ cosA = h * vx / v /\ x = M0 - r * sinA /\ y = M1 + r * cosA.
Lemma round_edge M0 M1 M2 vx0 vy0 h r I1 x0 y0 z0 : (z0 = 1 - x0 * x0 - y0 * y0 /\ 0 <= z0 \/ z0 = 0 /\ 1 < x0 * x0 + y0 * y0) ->
  let '(x, y, (s, c)) := nanbei_round (M0, M1, M2) vx0 vy0 h r I1 x0 y0 z0 in edge (M0, M1, M2) vx0 vy0 h r I1 x y s c.
Proof.
  intros HZ. unfold nanbei_round. cbv zeta. exists x0, y0, (sqrt z0). split; [|split; [apply sqrt_pos|]].
  - destruct HZ as [[-> P]|[-> P]]; [left; now apply sqrt_sqrt|right; split; [apply sqrt_0|exact P]].
  - unfold on_line, relative_speed. set (z := sqrt z0).
    replace (x0 + (M0 - x0) * (z / M2)) with (x0 - (x0 - M0) * z / M2) by (unfold Rdiv; ring). replace (y0 + (M1 - y0) * (z / M2)) with (y0 - (y0 - M1) * z / M2) by (unfold Rdiv; ring).
    replace (2 * PI * (cos I1 * (x0 - (x0 - M0) * z / M2))) with (2 * PI * cos I1 * (x0 - (x0 - M0) * z / M2)) by ring. cbv zeta. auto.
Qed.
Lemma loop_edge n M vx0 vy0 h r I1 : forall js x y sc, (n = O -> js = true -> sc <> None) -> (js = true -> sc <> None) -> (sc = None -> n <> O) ->
  (forall s c, sc = Some (s, c) -> edge M vx0 vy0 h r I1 x y s c) ->
  exists x' y' s c, nanbei_loop n M vx0 vy0 h r I1 js x y sc = (x', y', Some (s, c)) /\ edge M vx0 vy0 h r I1 x' y' s c.
Proof.
  destruct M as [[M0 M1] M2]. induction n as [|n IH]; intros js x y sc _ HJ HN HE.
  - destruct sc as [[s c]|]; [|now elim HN]. exists x, y, s, c. split; [reflexivity|now apply HE].
  - cbn [nanbei_loop]. cbv zeta. destruct (Rlt_dec (1 - x * x - y * y) 0) as [C|C].
    + destruct js.
      * destruct sc as [[s c]|]; [|now elim HJ]. exists x, y, s, c. split; [reflexivity|now apply HE].
      * pose proof (round_edge M0 M1 M2 vx0 vy0 h r I1 x y 0 ltac:(right; split; lra)) as E. destruct (nanbei_round (M0, M1, M2) vx0 vy0 h r I1 x y 0) as [[x1 y1] [s1 c1]].
        apply IH; try discriminate. intros s c Q. injection Q as <- <-. exact E.
    + pose proof (round_edge M0 M1 M2 vx0 vy0 h r I1 x y (1 - x * x - y * y) ltac:(left; split; lra)) as E. destruct (nanbei_round (M0, M1, M2) vx0 vy0 h r I1 x y (1 - x * x - y * y)) as [[x1 y1] [s1 c1]].
      apply IH; try discriminate. intros s c Q. injection Q as <- <-. exact E.
Qed.
(** nothing is read unset; the line that is cut with the Earth runs from the point of the Moon's limb on that side to the edge of the shadow; the answer 100 means that it misses the Earth *)
Theorem limits_edge M0 M1 M2 vx0 vy0 h r I0 I1 I2 k ba : 0 < ba -> M2 <> 0 -> exists J W x y s c,
  nanbei (M0, M1, M2) vx0 vy0 h r (I0, I1, I2) k ba = Some (J, W, x, y) /\ edge (M0, M1, M2) vx0 vy0 h r I1 x y s c /\
  let p := rot_x I1 (M0 - k * s, M1 + k * c, M2) in let q := rot_x I1 (x, y, 0) in
  (J = 100 /\ W = 100 /\ forall t, ~ on_ellipsoid ba 1 (on_line p q t)) \/
  (- PI < J <= PI /\ - (PI / 2) < W < PI / 2 /\ exists u v w t, (u, v, w) = on_line p q t /\ on_ellipsoid ba 1 (u, v, w) /\ (0 < u * u + v * v -> exists n, 0 < n /\ rot_z (I0 - I2) (u, v, w / (ba * ba)) = llr2xyz (J, W, n))).
Proof.
  intros HB HM. unfold nanbei.
  destruct (loop_edge 3 (M0, M1, M2) vx0 vy0 h r I1 false (M0 - vy0 / vx0 * r * h) (M1 + h * r) None) as (x & y & s & c & E & ED); try discriminate. rewrite E.
  assert (NE : (M0 - k * s, M1 + k * c, M2) <> (x, y, 0)) by (intros Q; injection Q; intros; contradiction).
  pose proof (C62_lineEar2 (M0 - k * s) (M1 + k * c) M2 x y 0 ba 1 I0 I1 I2 HB NE) as H. cbv zeta in H.
  destruct (lineEar2 (M0 - k * s) (M1 + k * c) M2 x y 0 ba 1 (I0, I1, I2)) as [[[g J] W]|].
  - exists J, W, x, y, s, c. split; [reflexivity|]. split; [exact ED|]. cbv zeta. right. destruct H as ((t & Et) & O & RJ & RW & N). split; [exact RJ|]. split; [exact RW|]. exists (h_x g), (h_y g), (h_z g), t. split; [exact Et|]. split; [exact O|exact N].
  - exists 100, 100, x, y, s, c. split; [reflexivity|]. split; [exact ED|]. cbv zeta. left. split; [reflexivity|]. split; [reflexivity|exact H].
Qed.
(** what [edge] says: the edge point is at the distance |r| from the axis, across the relative motion and on the side h *)
Theorem limits_across M0 M1 M2 vx0 vy0 h r I1 x y s c : edge (M0, M1, M2) vx0 vy0 h r I1 x y s c -> h * h = 1 -> exists x0 y0 z vx vy,
  (let '(X, Y, _) := on_line (x0, y0, 0) (M0, M1, M2) (z / M2) in relative_speed vx0 vy0 I1 (X, Y, z) = (vx, vy)) /\
  ((vx, vy) <> (0, 0) -> s * s + c * c = 1 /\ (x - M0) * (x - M0) + (y - M1) * (y - M1) = r * r /\ (x - M0) * vx + (y - M1) * vy = 0 /\ (0 < r -> 0 < h * (vx * (y - M1) - vy * (x - M0)))).
Proof.
  intros (x0 & y0 & z & _ & _ & H) HH. exists x0, y0, z. unfold on_line in *. unfold relative_speed in *. cbv zeta in H.
  set (vx := vx0 - _) in *. set (vy := vy0 - _) in *. exists vx, vy. split; [reflexivity|]. intros NV. destruct H as (Es & Ec & Ex & Ey).
  assert (VV : 0 < vx * vx + vy * vy) by (destruct (Req_dec vx 0) as [E|E]; [destruct (Req_dec vy 0) as [E2|E2]|]; [elim NV; congruence|nra|nra]).
  set (v := sqrt (vx * vx + vy * vy)) in *. assert (P : 0 < v) by (apply sqrt_lt_R0; exact VV). assert (Q : v * v = vx * vx + vy * vy) by (apply sqrt_sqrt; lra). clearbody v vx vy.
  assert (SC : s * s + c * c = 1). { rewrite Es, Ec. transitivity (h * h * ((vx * vx + vy * vy) / (v * v))); [field; lra|]. rewrite HH, Q. field. lra. }
  split; [exact SC|]. replace (x - M0) with (- (r * s)) by (rewrite Ex; ring). replace (y - M1) with (r * c) by (rewrite Ey; ring).
  split; [transitivity (r * r * (s * s + c * c)); [ring|rewrite SC; ring]|]. split.
  - rewrite Es, Ec. field. lra.
  - intros R0. replace (h * (vx * (r * c) - vy * - (r * s))) with (r * v). { apply Rmult_lt_0_compat; assumption. }
    rewrite Es, Ec. transitivity (h * h * r * ((vx * vx + vy * vy) / v)); [rewrite HH, <- Q; field; lra|field; lra].
Qed.
Example limits_ex : 0 < 99664719 / 100000000 /\ 57 <> 0 /\ 1 * 1 = 1 /\ -1 * -1 = 1.
Proof. repeat split; lra. Qed.

(** the place on the limb of the Earth's disc (an ellipse) where the greatest eclipse is at sunrise or sunset: seen from the shadow's axis it lies across the motion relative to the surface,
    at most r away *)
Definition across (M0 M1 vx0 vy0 I1 bba : R) (a : R * R) (R : R) : Prop := exists b, let V := Vxy (fst b) (snd b) I1 vx0 vy0 in
  (w_x V, w_y V) <> (0, 0) -> on_ellipse bba 1 (fst a) (snd a) /\ (fst a - M0) * w_x V + (snd a - M1) * w_y V = 0 /\ 0 <= R /\ R * R = (fst a - M0) * (fst a - M0) + (snd a - M1) * (snd a - M1).
Lemma mDian_loop_ok M0 M1 vx0 vy0 AB I1 bba : 0 < bba -> forall n a p, (forall b R, p = Some (b, R) -> across M0 M1 vx0 vy0 I1 bba b R) ->
  forall b R, mDian_loop n M0 M1 vx0 vy0 AB I1 bba a p = Some (b, R) -> across M0 M1 vx0 vy0 I1 bba b R.
Proof.
  intros HB. induction n as [|n IH]; intros a p HP b R E; [now apply HP|]. cbn [mDian_loop] in E. cbv zeta in E.
  set (V := Vxy (fst a) (snd a) I1 vx0 vy0) in *. pose proof (C57_lineOvl M0 M1 (w_y V) (- w_x V) 1 bba HB) as H.
  destruct (lineOvl M0 M1 (w_y V) (- w_x V) 1 bba) as [[[[[k [ax ay]] [bx by']] R1] R2]|] eqn:EL; [|discriminate].
  revert E. apply IH. intros c Rc Q. exists a. fold V. cbv zeta. intros NV.
  assert (NV2 : (w_y V, - w_x V) <> (0, 0)) by (intros Z; apply NV; pose proof (f_equal fst Z) as Z1; pose proof (f_equal snd Z) as Z2; cbn [fst snd] in Z1, Z2; apply f_equal2; lra). specialize (H NV2). destruct H as ((t1 & X1 & Y1 & L1) & (t2 & X2 & Y2 & L2) & OE & _).
  assert (G : forall x y t L, x = M0 + w_y V * t -> y = M1 + - w_x V * t -> L = sqrt (w_y V * w_y V + - w_x V * - w_x V) * Rabs t -> on_ellipse bba 1 x y -> on_ellipse bba 1 x y /\ (x - M0) * w_x V + (y - M1) * w_y V = 0 /\ 0 <= L /\ L * L = (x - M0) * (x - M0) + (y - M1) * (y - M1)).
  { intros x y t L Ex Ey El O. split; [exact O|]. rewrite Ex, Ey, El. split; [ring|]. split; [apply Rmult_le_pos; [apply sqrt_pos|apply Rabs_pos]|].
    assert (SS : sqrt (w_y V * w_y V + - w_x V * - w_x V) * sqrt (w_y V * w_y V + - w_x V * - w_x V) = w_y V * w_y V + w_x V * w_x V). { rewrite sqrt_sqrt; [ring|]. apply Rplus_le_le_0_compat; apply Rle_0_sqr. }
    assert (TT : Rabs t * Rabs t = t * t) by (rewrite <- Rabs_mult; apply Rabs_pos_eq; apply Rle_0_sqr).
    transitivity (sqrt (w_y V * w_y V + - w_x V * - w_x V) * sqrt (w_y V * w_y V + - w_x V * - w_x V) * (Rabs t * Rabs t)); [ring|]. rewrite SS, TT. ring. }
  injection Q as <- <-. destruct AB; cbn [fst snd].
  - apply (G ax ay t1 R1 X1 Y1 L1). rewrite X1, Y1. apply OE. left. now rewrite X1, Y1.
  - apply (G bx by' t2 R2 X2 Y2 L2). rewrite X2, Y2. apply OE. right. now rewrite X2, Y2.
Qed.
Theorem limits_sunrise M0 M1 M2 vx0 vy0 AB r I0 I1 I2 bba ba J W : 0 < bba -> mDian (M0, M1, M2) vx0 vy0 AB r (I0, I1, I2) bba ba = Some (J, W) ->
  exists a0 a1 R c, across M0 M1 vx0 vy0 I1 bba (a0, a1) R /\ R <= r /\ bse2db (a0, a1, 0) (I0, I1, I2) true ba = (J, W, c).
Proof.
  intros HB E. unfold mDian in E. destruct (mDian_loop 2 M0 M1 vx0 vy0 AB I1 bba (M0, M1) None) as [[[a0 a1] R]|] eqn:EL; [|discriminate].
  destruct (Rle_dec R r) as [C|C]; [|discriminate]. exists a0, a1, R. destruct (bse2db (a0, a1, 0) (I0, I1, I2) true ba) as [[J' W'] c] eqn:EB. exists c. injection E as <- <-.
  split; [|split; [exact C|reflexivity]]. apply (mDian_loop_ok M0 M1 vx0 vy0 AB I1 bba HB 2 (M0, M1) None); [discriminate|exact EL].
Qed.
Print Assumptions instants_speed. Print Assumptions instants_middle. Print Assumptions instants_between. Print Assumptions limits_edge. Print Assumptions limits_across. Print Assumptions limits_sunrise.
