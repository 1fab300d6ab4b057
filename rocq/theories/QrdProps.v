(** C144: the places where the shadow first and last touches the Earth (QrdModel). *)
From Coq Require Import ZArith Reals Lia Lra.
From Flocq Require Import Core.
From Verif Require Import GeoModel GeoSpec GeoProof GeoProps ShModel ShProps2 WaveR QrdModel.
Open Scope R_scope.

(** ** specification *)
(** the outline of the Earth in the fundamental plane, with the half axes 1 and b *)
Definition inside (b u v : R) : Prop := u * u + v * v / (b * b) <= 1.
Definition on_outline (b u v : R) : Prop := u * u + v * v / (b * b) = 1.
(** the circle with radius r about (x, y) touches the outline from outside in (u, v) *)
Definition touching (b r x y u v : R) : Prop :=
  on_outline b u v /\ (x - u) * (x - u) + (y - v) * (y - v) = r * r /\
  forall u' v', inside b u' v' -> r * r <= (x - u') * (x - u') + (y - v') * (y - v').

(** ** the circle about the end of a normal touches *)
Lemma touch_intro b r u v m : 0 < b -> 0 <= r -> on_outline b u v -> 0 < m -> m * m = u * u + v * v / (b * b) / (b * b) ->
  touching b r (u + r * (u / m)) (v + r * (v / (b * b) / m)) u v.
Proof.
  intros HB HR HO HM EM. unfold touching. assert (B2 : 0 < b * b) by nra. split; [exact HO|]. set (c := v / (b * b)) in *.
  assert (EV : v = c * (b * b)) by (unfold c; field; lra).
  assert (EM' : m * m = u * u + c * c). { rewrite EM. unfold c. field. lra. }
  assert (N1 : u / m * (u / m) + c / m * (c / m) = 1). { replace (u / m * (u / m) + c / m * (c / m)) with ((u * u + c * c) / (m * m)) by (field; lra). rewrite <- EM'. field. lra. }
  set (p := u / m) in *. set (q := c / m) in *. split.
  { replace ((u + r * p - u) * (u + r * p - u) + (v + r * q - v) * (v + r * q - v)) with (r * r * (p * p + q * q)) by ring. rewrite N1. ring. }
  intros u' v' HI. unfold inside in HI. unfold on_outline in HO.
  (* the tangent has the whole outline on one side *)
  set (c' := v' / (b * b)). assert (EV' : v' = c' * (b * b)) by (unfold c'; field; lra).
  assert (HI' : u' * u' + c' * c' * (b * b) <= 1). { replace (c' * c' * (b * b)) with (v' * v' / (b * b)) by (unfold c'; field; lra). exact HI. }
  assert (HO' : u * u + c * c * (b * b) = 1). { replace (c * c * (b * b)) with (v * v / (b * b)) by (unfold c; field; lra). exact HO. }
  assert (T : (u' - u) * u + (v' - v) * c <= 0).
  { rewrite EV, EV'. pose proof (Rle_0_sqr (u' - u)) as S1. unfold Rsqr in S1. assert (0 <= (c' - c) * (c' - c) * (b * b)) by (apply Rmult_le_pos; [apply Rle_0_sqr|lra]). lra. }
  assert (T' : (u' - u) * p + (v' - v) * q <= 0).
  { replace ((u' - u) * p + (v' - v) * q) with (((u' - u) * u + (v' - v) * c) / m) by (unfold p, q; field; lra). apply Rmult_le_reg_r with m; [exact HM|]. unfold Rdiv. rewrite Rmult_assoc, Rinv_l by lra. lra. }
  replace ((u + r * p - u') * (u + r * p - u') + (v + r * q - v') * (v + r * q - v')) with
    (r * r * (p * p + q * q) - 2 * r * ((u' - u) * p + (v' - v) * q) + ((u' - u) * (u' - u) + (v' - v) * (v' - v))) by ring.
  rewrite N1. pose proof (Rle_0_sqr (u' - u)) as S1. unfold Rsqr in S1. pose proof (Rle_0_sqr (v' - v)) as S2. unfold Rsqr in S2. assert (0 <= r * - ((u' - u) * p + (v' - v) * q)) by (apply Rmult_le_pos; lra). lra.
Qed.

Lemma inv_sqrt z : Rabs z <= 1 / 4 -> Rabs (/ sqrt (1 + z) - (1 - z / 2)) <= z * z.
Proof.
  intros H. apply Rabs_le_inv in H. assert (P : 0 < sqrt (1 + z)) by (apply sqrt_lt_R0; lra). pose proof (sqrt_sqrt (1 + z) ltac:(lra)) as S. set (q := sqrt (1 + z)) in *.
  assert (EZ : z = q * q - 1) by lra. assert (Q1 : 4 / 5 <= q) by nra. assert (Q2 : q <= 6 / 5) by nra.
  replace (/ q - (1 - z / 2)) with ((q - 1) * (q - 1) * ((q + 2) / (2 * q))) by (rewrite EZ; field; lra).
  replace (z * z) with ((q - 1) * (q - 1) * ((q + 1) * (q + 1))) by (rewrite EZ; ring).
  assert (W : 0 <= (q + 2) / (2 * q) <= (q + 1) * (q + 1)).
  { split; [apply Rle_mult_inv_pos; lra|]. apply Rmult_le_reg_r with (2 * q); [lra|]. unfold Rdiv. rewrite Rmult_assoc, Rinv_l by lra. nra. }
  rewrite Rabs_right; [|apply Rle_ge, Rmult_le_pos; [apply Rle_0_sqr|apply W]]. apply Rmult_le_compat_l; [apply Rle_0_sqr|apply W].
Qed.

(** ** the point of contact to first order *)
Section Core.
Variables (X Y k r c s g e : R).
Hypotheses (U : X * X + Y * Y = 1) (HK : 0 <= k <= 1 / 100) (HR : 0 <= r <= 3 / 5) (HC : Rabs c <= k / 3)
  (HG : Rabs (c - r * k * X * Y / (1 + r)) <= g) (HE : Rabs (s - (1 + r - k * (Y * Y) / 2)) <= e).
Let xi := X + c * Y.
Let et := Y - c * xi.
Let za := xi * xi + (1 + k) * (et * et) - 1.
Let zb := xi * xi + (1 + k) * (1 + k) * (et * et) - 1.

Lemma X1 : Rabs X <= 1. Proof. apply Rabs_le. nra. Qed.
Lemma Y1 : Rabs Y <= 1. Proof. apply Rabs_le. nra. Qed.
Lemma c_small : Rabs c <= 1 / 300. Proof. lra. Qed.
Lemma xi1 : Rabs xi <= 101 / 100.
Proof. unfold xi. apply Rle_trans with (1 + 1 / 300 * 1); [|lra]. apply sum_le; [exact X1|]. apply prod_le; [exact c_small|exact Y1]. Qed.
Lemma et_Y : Rabs (et - Y) <= 101 / 300 * k.
Proof. unfold et. replace (Y - c * xi - Y) with (- (c * xi)) by ring. rewrite Rabs_Ropp. apply Rle_trans with (k / 3 * (101 / 100)); [|lra]. apply prod_le; [exact HC|exact xi1]. Qed.
Lemma et1 : Rabs et <= 101 / 100.
Proof. replace et with (Y + (et - Y)) by ring. apply Rle_trans with (1 + 101 / 300 * k); [|lra]. apply sum_le; [exact Y1|exact et_Y]. Qed.
Lemma et_sq : Rabs (et * et - Y * Y) <= 7 / 10 * k.
Proof. replace (et * et - Y * Y) with ((et - Y) * (et + Y)) by ring. apply Rle_trans with (101 / 300 * k * (101 / 100 + 1)); [|lra]. apply prod_le; [exact et_Y|]. apply sum_le; [exact et1|exact Y1]. Qed.
Lemma cc : Rabs (c * c) <= k * k / 9.
Proof. apply Rle_trans with (k / 3 * (k / 3)); [|lra]. apply prod_le; exact HC. Qed.
Lemma norm_w : Rabs (xi * xi + et * et - 1) <= k * k / 4.
Proof.
  replace (xi * xi + et * et - 1) with (c * c * (xi * xi - Y * Y)) by (unfold et, xi; nra).
  apply Rle_trans with (k * k / 9 * (101 / 100 * (101 / 100) + 1 * 1)); [|nra]. apply prod_le; [exact cc|]. apply diff_le; apply prod_le; first [exact xi1|exact Y1].
Qed.
Lemma za_Y : Rabs (za - k * (Y * Y)) <= k * k.
Proof.
  replace (za - k * (Y * Y)) with (xi * xi + et * et - 1 + k * (et * et - Y * Y)) by (unfold za; ring).
  apply Rle_trans with (k * k / 4 + k * (7 / 10 * k)); [|nra]. apply sum_le; [exact norm_w|]. apply prod_le; [rewrite Rabs_right; lra|exact et_sq].
Qed.
Lemma zb_Y : Rabs (zb - 2 * k * (Y * Y)) <= 3 * (k * k).
Proof.
  replace (zb - 2 * k * (Y * Y)) with (xi * xi + et * et - 1 + 2 * k * (et * et - Y * Y) + k * k * (et * et)) by (unfold zb; ring).
  apply Rle_trans with (k * k / 4 + 2 * k * (7 / 10 * k) + k * k * (101 / 100 * (101 / 100))); [|nra]. apply sum_le; [apply sum_le; [exact norm_w|]|].
  - apply prod_le; [rewrite Rabs_right; lra|exact et_sq].
  - apply prod_le; [rewrite Rabs_right; nra|]. apply prod_le; exact et1.
Qed.
Lemma YY : Rabs (Y * Y) <= 1. Proof. replace 1 with (1 * 1) by ring. apply prod_le; exact Y1. Qed.
Lemma za1 : Rabs za <= 101 / 100 * k.
Proof. replace za with (k * (Y * Y) + (za - k * (Y * Y))) by ring. apply Rle_trans with (k * 1 + k * k); [|nra]. apply sum_le; [|exact za_Y]. apply prod_le; [rewrite Rabs_right; lra|exact YY]. Qed.
Lemma zb1 : Rabs zb <= 203 / 100 * k.
Proof. replace zb with (2 * k * (Y * Y) + (zb - 2 * k * (Y * Y))) by ring. apply Rle_trans with (2 * k * 1 + 3 * (k * k)); [|nra]. apply sum_le; [|exact zb_Y]. apply prod_le; [rewrite Rabs_right; lra|exact YY]. Qed.
Let A := / sqrt (1 + za).
Let B := / sqrt (1 + zb).
Lemma A_ok : Rabs (A - (1 - k * (Y * Y) / 2)) <= 2 * (k * k).
Proof.
  replace (A - (1 - k * (Y * Y) / 2)) with (A - (1 - za / 2) - / 2 * (za - k * (Y * Y))) by (field; lra). pose proof za1 as Z.
  apply Rle_trans with (101 / 100 * k * (101 / 100 * k) + / 2 * (k * k)); [|nra]. apply diff_le.
  - apply Rle_trans with (za * za); [apply inv_sqrt; lra|]. apply Rle_trans with (Rabs (za * za)); [apply RRle_abs|]. apply prod_le; exact Z.
  - apply prod_le; [rewrite Rabs_right; lra|exact za_Y].
Qed.
Lemma B_ok : Rabs (B - (1 - k * (Y * Y))) <= 7 * (k * k).
Proof.
  replace (B - (1 - k * (Y * Y))) with (B - (1 - zb / 2) - / 2 * (zb - 2 * k * (Y * Y))) by (field; lra). pose proof zb1 as Z.
  apply Rle_trans with (203 / 100 * k * (203 / 100 * k) + / 2 * (3 * (k * k))); [|nra]. apply diff_le.
  - apply Rle_trans with (zb * zb); [apply inv_sqrt; lra|]. apply Rle_trans with (Rabs (zb * zb)); [apply RRle_abs|]. apply prod_le; exact Z.
  - apply prod_le; [rewrite Rabs_right; lra|exact zb_Y].
Qed.
Let a := A - (1 - k * (Y * Y) / 2).
Let b := B - (1 - k * (Y * Y)).
Let e1 := s - (1 + r - k * (Y * Y) / 2).
Let g1 := c - r * k * X * Y / (1 + r).
Lemma absr : Rabs r <= 3 / 5. Proof. rewrite Rabs_right; lra. Qed.
Lemma absk : Rabs k <= k. Proof. rewrite Rabs_right; lra. Qed.
Lemma absr1 : Rabs (1 + r) <= 8 / 5. Proof. rewrite Rabs_right; lra. Qed.
Lemma absk1 : Rabs (1 + k) <= 101 / 100. Proof. rewrite Rabs_right; lra. Qed.
Lemma kk0 : 0 <= k * k. Proof. apply Rle_0_sqr. Qed.
Lemma kkk : k * k * k <= k * k / 100.
Proof. apply Rle_trans with (k * k * (1 / 100)); [|lra]. apply Rmult_le_compat_l; [exact kk0|lra]. Qed.
Lemma core_x : Rabs (xi * A + r * (xi * B) - s * X) <= 8 * (k * k) + e + 2 * g.
Proof.
  replace (xi * A + r * (xi * B) - s * X) with
    (X * (a + r * b - e1) + g1 * (Y * (1 + r)) + c * (Y * (- (k * (/ 2 * (Y * Y))) - k * (r * (Y * Y)) + a + r * b))) by (unfold a, b, e1, g1, xi; field; lra).
  assert (G0 : 0 <= g) by (apply Rle_trans with (2 := HG), Rabs_pos).
  assert (HA : Rabs a <= 2 * (k * k)) by exact A_ok. assert (HB : Rabs b <= 7 * (k * k)) by exact B_ok. assert (HE1 : Rabs e1 <= e) by exact HE. assert (HG1 : Rabs g1 <= g) by exact HG.
  apply Rle_trans with (1 * (2 * (k * k) + 3 / 5 * (7 * (k * k)) + e) + g * (1 * (8 / 5)) + k / 3 * (1 * (k * (/ 2 * 1) + k * (3 / 5 * 1) + 2 * (k * k) + 3 / 5 * (7 * (k * k))))).
  2: { pose proof kk0. pose proof kkk. lra. }
  apply sum_le; [apply sum_le|].
  - apply prod_le; [exact X1|]. apply diff_le; [apply sum_le; [exact HA|apply prod_le; [exact absr|exact HB]]|exact HE1].
  - apply prod_le; [exact HG1|apply prod_le; [exact Y1|exact absr1]].
  - apply prod_le; [exact HC|]. apply prod_le; [exact Y1|]. apply sum_le; [apply sum_le; [apply diff_le|]|].
    + rewrite Rabs_Ropp. apply prod_le; [exact absk|apply prod_le; [rewrite Rabs_right; lra|exact YY]].
    + apply prod_le; [exact absk|apply prod_le; [exact absr|exact YY]].
    + exact HA.
    + apply prod_le; [exact absr|exact HB].
Qed.
Lemma XX : Rabs (X * X) <= 1. Proof. replace 1 with (1 * 1) by ring. apply prod_le; exact X1. Qed.
Lemma core_y : Rabs (et * A + r * ((1 + k) * et * B) - s * Y) <= 9 * (k * k) + e + 2 * g.
Proof.
  set (f := a + r * ((1 + k) * b - k * (k * (Y * Y)))).
  assert (E : et * A + r * ((1 + k) * et * B) - s * Y =
    Y * (f - e1) - g1 * (X * (1 + r)) - c * (X * (- (k * (/ 2 * (Y * Y))) + k * (r * (X * X)) + f)) - c * c * (Y * ((1 + r) + (- (k * (/ 2 * (Y * Y))) + k * (r * (X * X)) + f)))).
  { assert (E0 : A + r * ((1 + k) * B) = 1 + r + (- (k * (/ 2 * (Y * Y))) + k * (r * (X * X)) + f)). { unfold f, a, b. replace (X * X) with (1 - Y * Y) by lra. field. }
    replace (et * A + r * ((1 + k) * et * B) - s * Y) with (et * (A + r * ((1 + k) * B)) - s * Y) by ring. rewrite E0.
    assert (S0 : s = e1 + (1 + r - k * (Y * Y) / 2)) by (unfold e1; ring). assert (C0 : c * (1 + r) = g1 * (1 + r) + r * k * X * Y) by (unfold g1; field; lra).
    rewrite S0. set (h := - (k * (/ 2 * (Y * Y))) + k * (r * (X * X)) + f). unfold et, xi.
    replace ((Y - c * (X + c * Y)) * (1 + r + h)) with (Y * (1 + r + h) - c * (1 + r) * X - c * X * h - c * c * Y * (1 + r + h)) by ring. rewrite C0. unfold h. field. }
  rewrite E. clear E.
  assert (G0 : 0 <= g) by (apply Rle_trans with (2 := HG), Rabs_pos).
  assert (HA : Rabs a <= 2 * (k * k)) by exact A_ok. assert (HB : Rabs b <= 7 * (k * k)) by exact B_ok. assert (HE1 : Rabs e1 <= e) by exact HE. assert (HG1 : Rabs g1 <= g) by exact HG.
  assert (HF : Rabs f <= 7 * (k * k)).
  { unfold f. apply Rle_trans with (2 * (k * k) + 3 / 5 * (101 / 100 * (7 * (k * k)) + k * (k * 1))); [|nra]. apply sum_le; [exact HA|]. apply prod_le; [exact absr|].
    apply diff_le; [apply prod_le; [exact absk1|exact HB]|]. apply prod_le; [exact absk|apply prod_le; [exact absk|exact YY]]. }
  assert (HH : Rabs (- (k * (/ 2 * (Y * Y))) + k * (r * (X * X)) + f) <= 6 / 5 * k).
  { apply Rle_trans with (k * (/ 2 * 1) + k * (3 / 5 * 1) + 7 * (k * k)); [|nra]. apply sum_le; [apply sum_le|exact HF].
    - rewrite Rabs_Ropp. apply prod_le; [exact absk|apply prod_le; [rewrite Rabs_right; lra|exact YY]].
    - apply prod_le; [exact absk|apply prod_le; [exact absr|exact XX]]. }
  apply Rle_trans with (1 * (7 * (k * k) + e) + g * (1 * (8 / 5)) + k / 3 * (1 * (6 / 5 * k)) + k * k / 9 * (1 * (8 / 5 + 6 / 5 * k))).
  2: { pose proof kk0. pose proof kkk. lra. }
  apply diff_le; [apply diff_le; [apply diff_le|]|].
  - apply prod_le; [exact Y1|]. apply diff_le; [exact HF|exact HE1].
  - apply prod_le; [exact HG1|apply prod_le; [exact X1|exact absr1]].
  - apply prod_le; [exact HC|]. apply prod_le; [exact X1|exact HH].
  - apply prod_le; [exact cc|]. apply prod_le; [exact Y1|]. apply sum_le; [exact absr1|exact HH].
Qed.
End Core.

(** ** one step of qrd *)
Section Step.
Variables (b r x0 y0 dx dy : R).
Let k := 1 / (b * b) - 1.
Let d := qrd_d b x0 y0 r.
Let t := qrd_t d x0 y0 dx dy.
Let tau := Rabs t * sqrt (dx * dx + dy * dy).
Let x := x0 + t * dx.
Let y := y0 + t * dy.
Hypotheses (HB : 0 < b) (HK : 0 <= k <= 1 / 100) (HR : 0 <= r <= 3 / 5) (HD : dx * x0 + dy * y0 <> 0) (HT : tau <= 1 / 5).
Let n2 := x0 * x0 + y0 * y0.
Lemma n2_pos : 0 < n2.
Proof.
  unfold n2. pose proof (Rle_0_sqr x0) as A1. pose proof (Rle_0_sqr y0) as A2. unfold Rsqr in A1, A2. destruct (Req_dec x0 0) as [Z|Z]; destruct (Req_dec y0 0) as [Z'|Z'].
  - exfalso. apply HD. rewrite Z, Z'. ring.
  - pose proof (Rsqr_pos_lt y0 Z') as P. unfold Rsqr in P. lra.
  - pose proof (Rsqr_pos_lt x0 Z) as P. unfold Rsqr in P. lra.
  - pose proof (Rsqr_pos_lt x0 Z) as P. unfold Rsqr in P. lra.
Qed.
Let w0 := y0 * y0 / n2.
Lemma w0_range : 0 <= w0 <= 1.
Proof.
  unfold w0. pose proof n2_pos as N. pose proof (Rle_0_sqr x0) as A1. pose proof (Rle_0_sqr y0) as A2. unfold Rsqr in A1, A2. split; [apply Rle_mult_inv_pos; assumption|].
  apply Rmult_le_reg_r with n2; [exact N|]. unfold Rdiv. rewrite Rmult_assoc, Rinv_l by lra. unfold n2. lra.
Qed.
Lemma d_eq : d = 1 + r - k * w0 / 2.
Proof. unfold d, qrd_d. fold k. unfold w0, n2. pose proof n2_pos as N. unfold n2 in N. field. lra. Qed.
Lemma d_range : 199 / 200 <= d <= 1 + r.
Proof. rewrite d_eq. pose proof w0_range. assert (0 <= k * w0 <= 1 / 100) by nra. lra. Qed.
Lemma tau_pos : 0 <= tau.
Proof. apply Rmult_le_pos; [apply Rabs_pos|apply sqrt_pos]. Qed.
Lemma speed2 : 0 <= dx * dx + dy * dy.
Proof. pose proof (Rle_0_sqr dx) as A1. pose proof (Rle_0_sqr dy) as A2. unfold Rsqr in A1, A2. lra. Qed.
Lemma tau2 : tau * tau = t * t * (dx * dx + dy * dy).
Proof.
  unfold tau. replace (Rabs t * sqrt (dx * dx + dy * dy) * (Rabs t * sqrt (dx * dx + dy * dy))) with (Rabs t * Rabs t * (sqrt (dx * dx + dy * dy) * sqrt (dx * dx + dy * dy))) by ring.
  rewrite sqrt_sqrt by exact speed2. f_equal. rewrite <- Rabs_mult. apply Rabs_right, Rle_ge, Rle_0_sqr.
Qed.
(** the new distance: one Newton step *)
Lemma newton : x * x + y * y = d * d + tau * tau.
Proof.
  rewrite tau2. assert (E : 2 * t * (dx * x0 + dy * y0) = d * d - x0 * x0 - y0 * y0) by (unfold t, qrd_t; field; exact HD).
  unfold x, y. replace ((x0 + t * dx) * (x0 + t * dx) + (y0 + t * dy) * (y0 + t * dy)) with (x0 * x0 + y0 * y0 + 2 * t * (dx * x0 + dy * y0) + t * t * (dx * dx + dy * dy)) by ring.
  rewrite E. ring.
Qed.
Let s := sqrt (x * x + y * y).
Lemma s_sq : s * s = d * d + tau * tau.
Proof. unfold s. rewrite sqrt_sqrt; [exact newton|]. rewrite newton. pose proof (Rle_0_sqr d) as A1. pose proof (Rle_0_sqr tau) as A2. unfold Rsqr in A1, A2. lra. Qed.
Lemma s_ge : d <= s.
Proof. pose proof d_range. pose proof s_sq as S. pose proof (Rle_0_sqr tau) as A2. unfold Rsqr in A2. apply Rsqr_incr_0; [unfold Rsqr; lra|lra|apply sqrt_pos]. Qed.
Let X := x / s.
Let Y := y / s.
Lemma unit : X * X + Y * Y = 1.
Proof.
  pose proof d_range. pose proof s_ge. unfold X, Y. replace (x / s * (x / s) + y / s * (y / s)) with ((x * x + y * y) / (s * s)) by (field; lra). rewrite newton, <- s_sq. field. lra.
Qed.
Lemma s_d : Rabs (s - d) <= 51 / 100 * (tau * tau).
Proof.
  pose proof d_range. pose proof s_ge. rewrite Rabs_right by lra. pose proof s_sq as S. assert (E : (s - d) * (s + d) = tau * tau) by lra. assert (0 <= (s - d) * (s + d - 199 / 100)) by (apply Rmult_le_pos; lra). lra.
Qed.
Lemma cauchy p q u v : p * p + q * q = 1 -> u * u + v * v = 1 -> Rabs (p * v + q * u) <= 1.
Proof. intros A1 A2. apply Rabs_le. pose proof (Rle_0_sqr (p - v)). pose proof (Rle_0_sqr (p + v)). pose proof (Rle_0_sqr (q - u)). pose proof (Rle_0_sqr (q + u)). unfold Rsqr in *. lra. Qed.
Lemma w_diff : Rabs (Y * Y - w0) <= 101 / 100 * tau.
Proof.
  pose proof n2_pos as N. pose proof d_range. pose proof s_ge. set (n := sqrt n2). assert (NP : 0 < n) by (apply sqrt_lt_R0; exact N). assert (NN : n * n = n2) by (apply sqrt_sqrt; lra).
  set (X0 := x0 / n). set (Y0 := y0 / n). assert (U0 : X0 * X0 + Y0 * Y0 = 1). { unfold X0, Y0. replace (x0 / n * (x0 / n) + y0 / n * (y0 / n)) with (n2 / (n * n)) by (unfold n2; field; lra). rewrite NN. field. lra. }
  assert (W0 : w0 = Y0 * Y0). { unfold w0, Y0. rewrite <- NN. field. lra. }
  assert (E : Y * Y - w0 = (X0 * Y - Y0 * X) * (X0 * Y + Y0 * X)).
  { rewrite W0. replace ((X0 * Y - Y0 * X) * (X0 * Y + Y0 * X)) with (X0 * X0 * (Y * Y) - Y0 * Y0 * (X * X)) by ring. pose proof unit as U. replace (X * X) with (1 - Y * Y) by lra. replace (X0 * X0) with (1 - Y0 * Y0) by lra. ring. }
  rewrite E. replace (101 / 100 * tau) with (101 / 100 * tau * 1) by ring. apply prod_le; [|apply cauchy; [exact U0|exact unit]].
  (* the turn is at most the way divided by the distance *)
  assert (C : (X0 * Y - Y0 * X) * s = t * (X0 * dy - Y0 * dx)) by (unfold X, Y, X0, Y0, x, y; field; lra).
  assert (L : (X0 * dy - Y0 * dx) * (X0 * dy - Y0 * dx) <= dx * dx + dy * dy).
  { pose proof (Rle_0_sqr (X0 * dx + Y0 * dy)) as A1. unfold Rsqr in A1. replace (dx * dx + dy * dy) with ((X0 * X0 + Y0 * Y0) * (dx * dx + dy * dy)) by (rewrite U0; ring). lra. }
  assert (Q : Rabs ((X0 * Y - Y0 * X) * s) <= tau).
  { rewrite C. apply Rsqr_incr_0_var; [|exact tau_pos]. rewrite <- Rsqr_abs. unfold Rsqr. rewrite tau2. replace (t * (X0 * dy - Y0 * dx) * (t * (X0 * dy - Y0 * dx))) with (t * t * ((X0 * dy - Y0 * dx) * (X0 * dy - Y0 * dx))) by ring.
    apply Rmult_le_compat_l; [apply Rle_0_sqr|exact L]. }
  rewrite Rabs_mult, (Rabs_right s) in Q by lra. pose proof (Rabs_pos (X0 * Y - Y0 * X)). assert (0 <= Rabs (X0 * Y - Y0 * X) * (s - 199 / 200)) by (apply Rmult_le_pos; lra). lra.
Qed.
Lemma s_err : Rabs (s - (1 + r - k * (Y * Y) / 2)) <= 51 / 100 * (tau * tau) + 51 / 100 * (k * tau).
Proof.
  replace (s - (1 + r - k * (Y * Y) / 2)) with (s - d + k / 2 * (Y * Y - w0)) by (rewrite d_eq; field). apply Rle_trans with (51 / 100 * (tau * tau) + k / 2 * (101 / 100 * tau)).
  - apply sum_le; [exact s_d|]. apply prod_le; [rewrite Rabs_right; lra|exact w_diff].
  - pose proof tau_pos. assert (0 <= k * tau) by (apply Rmult_le_pos; lra). lra.
Qed.
Let c := (1 - b * b) * r * x * y / d / d / d.
Let F := s * s / ((1 + k) * (d * d * d)).
Lemma c_eq : c = k * (r * (X * Y) * F).
Proof.
  pose proof d_range. pose proof s_ge. assert (KB : (1 + k) * (b * b) = 1) by (unfold k; field; lra). assert (E : 1 - b * b = k * / (1 + k)). { apply Rmult_eq_reg_l with (1 + k); [|lra]. replace ((1 + k) * (k * / (1 + k))) with k by (field; lra). lra. }
  unfold c. rewrite E. unfold F, X, Y. field. lra.
Qed.
Lemma XY : Rabs (X * Y) <= 1 / 2.
Proof. pose proof unit as U. pose proof (Rle_0_sqr (X - Y)) as A1. pose proof (Rle_0_sqr (X + Y)) as A2. unfold Rsqr in A1, A2. apply Rabs_le. lra. Qed.
Lemma rXY : Rabs (r * (X * Y)) <= 3 / 10.
Proof. apply Rle_trans with (3 / 5 * (1 / 2)); [|lra]. apply prod_le; [rewrite Rabs_right; lra|exact XY]. Qed.
Lemma tt_small : 0 <= tau * tau <= tau / 5.
Proof. pose proof tau_pos. split; [apply Rle_0_sqr|]. assert (0 <= tau * (1 / 5 - tau)) by (apply Rmult_le_pos; lra). lra. Qed.
Lemma inv_le p q : 0 < p -> p * q >= 1 -> / p <= q.
Proof. intros P H. apply Rmult_le_reg_l with p; [exact P|]. rewrite Rinv_r by lra. lra. Qed.
Lemma F_ok : Rabs (F - 1 / (1 + r)) <= 162 / 100 * k + 102 / 100 * (tau * tau).
Proof.
  pose proof d_range as D. pose proof tt_small as TS.
  replace (F - 1 / (1 + r)) with ((1 + r - (1 + k) * d) * (/ ((1 + k) * d * (1 + r))) + tau * tau * / ((1 + k) * (d * d * d))) by (unfold F; rewrite s_sq; field; lra).
  assert (D2 : 99 / 100 <= d * d) by nra. assert (D3 : 985 / 1000 <= d * d * d) by nra.
  apply Rle_trans with (161 / 100 * k * (1006 / 1000) + tau * tau * (102 / 100)); [|lra]. apply sum_le; apply prod_le.
  - apply Rabs_le. pose proof w0_range as W. assert (0 <= k * w0 <= k) by nra. assert (E : d = 1 + r - k * w0 / 2) by exact d_eq. assert (0 <= k * d <= 16 / 10 * k) by nra. lra.
  - assert (P1 : 199 / 200 <= (1 + k) * d) by nra. assert (P2 : 199 / 200 <= (1 + k) * d * (1 + r)) by nra.
    rewrite Rabs_right; [apply inv_le; lra|]. apply Rle_ge, Rlt_le, Rinv_0_lt_compat. lra.
  - rewrite Rabs_right; lra.
  - assert (P1 : 985 / 1000 <= (1 + k) * (d * d * d)) by nra. rewrite Rabs_right; [apply inv_le; lra|]. apply Rle_ge, Rlt_le, Rinv_0_lt_compat. lra.
Qed.
Lemma F_small : Rabs F <= 11 / 10.
Proof.
  pose proof F_ok as H. pose proof tt_small. replace F with (1 / (1 + r) + (F - 1 / (1 + r))) by ring. apply Rle_trans with (1 + (162 / 100 * k + 102 / 100 * (tau * tau))); [|lra]. apply sum_le; [|exact H].
  unfold Rdiv. rewrite Rmult_1_l. rewrite Rabs_right; [apply inv_le; lra|]. apply Rle_ge, Rlt_le, Rinv_0_lt_compat. lra.
Qed.
Lemma c_ok : Rabs c <= k / 3.
Proof. rewrite c_eq. apply Rle_trans with (k * (3 / 10 * (11 / 10))); [|lra]. apply prod_le; [rewrite Rabs_right; lra|]. apply prod_le; [exact rXY|exact F_small]. Qed.
Lemma c_err : Rabs (c - r * k * X * Y / (1 + r)) <= k * (3 / 10 * (162 / 100 * k + 102 / 100 * (tau * tau))).
Proof.
  rewrite c_eq. replace (k * (r * (X * Y) * F) - r * k * X * Y / (1 + r)) with (k * (r * (X * Y) * (F - 1 / (1 + r)))) by (field; lra).
  apply prod_le; [rewrite Rabs_right; lra|]. apply prod_le; [exact rXY|exact F_ok].
Qed.
End Step.

(** ** C144 *)
(** the centre of the shadow that qrd has moved is within the stated bound of a centre from which the shadow touches the outline of the Earth from outside, and the place it
    answers is the place of the point of contact (in the fundamental plane) *)
Theorem C144_contact bseM bse k0 k k2 dyj b ba jd dx dy (fs : bool) x0 y0 z :
  bseM jd = (x0, y0, z) -> let r := if fs then r1 (rSM k0 k k2 dyj z) else 0 in let f := 1 / (b * b) - 1 in
  0 < b -> 0 < ba -> 0 <= f <= 1 / 100 -> 0 <= r <= 3 / 5 -> dx * x0 + dy * y0 <> 0 ->
  let '(J, W, jd') := qrd bseM bse k0 k k2 dyj b ba jd dx dy fs in
  let t := jd' - jd in let way := Rabs t * sqrt (dx * dx + dy * dy) in let '(I0, I1, I2) := bse jd' in way <= 1 / 5 ->
  exists u v xs ys, touching b r xs ys u v /\
    Rabs (x0 + t * dx - xs) <= 10 * (f * f) + f * way + way * way /\ Rabs (y0 + t * dy - ys) <= 10 * (f * f) + f * way + way * way /\
    (not_pole (rot_x I1 (u, v, 0)) -> let '(p, q, m) := rot_z (I0 - I2) (rot_x I1 (u, v, 0)) in
       - PI < J <= PI /\ - (PI / 2) < W < PI / 2 /\ exists l, 0 < l /\ on_ellipsoid ba 1 (l * p, l * q, l * m) /\ exists n, 0 < n /\ (l * p, l * q, l * m / (ba * ba)) = llr2xyz (J, W, n)).
Proof.
  intros EM r f HB HBA HF HR HD. unfold qrd. rewrite EM. fold r.
  set (d := qrd_d b x0 y0 r). set (t := qrd_t d x0 y0 dx dy). set (x := x0 + t * dx). set (y := y0 + t * dy).
  unfold qrd_turn. cbv zeta. set (c := (1 - b * b) * r * x * y / d / d / d). set (x' := x + c * y). set (y' := y - c * x').
  destruct (bse (jd + t)) as [[I0 I1] I2] eqn:EI. destruct (bse2db (x' / d, y' / d, 0) (I0, I1, I2) true ba) as [[J W] R0] eqn:EB.
  replace (jd + t - jd) with t by ring. rewrite EI. set (way := Rabs t * sqrt (dx * dx + dy * dy)). intros HT.
  pose proof (d_range b r x0 y0 dx dy HF HR HD) as DR. fold d in DR.
  pose proof (s_ge b r x0 y0 dx dy HF HR HD) as SG. fold d in SG. fold t in SG. fold x y in SG.
  set (s := sqrt (x * x + y * y)) in *. set (X := x / s). set (Y := y / s).
  assert (U : X * X + Y * Y = 1) by exact (unit b r x0 y0 dx dy HF HR HD).
  assert (HC : Rabs c <= f / 3) by exact (c_ok b r x0 y0 dx dy HB HF HR HD HT).
  pose proof (c_err b r x0 y0 dx dy HB HF HR HD HT) as HG. pose proof (s_err b r x0 y0 dx dy HF HR HD) as HE.
  fold d in HG, HE. fold t in HG, HE. fold x y in HG, HE. fold s in HG, HE. fold X Y in HG, HE. fold c in HG. fold f way in HG, HE.
  pose proof (core_x X Y f r c s _ _ U HF HR HC HG HE) as CX. pose proof (core_y X Y f r c s _ _ U HF HR HC HG HE) as CY.
  pose proof (za1 X Y f c U HF HC) as ZA. pose proof (zb1 X Y f c U HF HC) as ZB. cbv zeta in CX, CY, ZA, ZB.
  set (xi := X + c * Y) in *. set (et := Y - c * xi) in *.
  set (za := xi * xi + (1 + f) * (et * et) - 1) in *. set (zb := xi * xi + (1 + f) * (1 + f) * (et * et) - 1) in *.
  assert (SP : 0 < s) by lra. apply Rabs_le_inv in ZA. apply Rabs_le_inv in ZB.
  assert (PA : 0 < sqrt (1 + za)) by (apply sqrt_lt_R0; lra). assert (PB : 0 < sqrt (1 + zb)) by (apply sqrt_lt_R0; lra).
  pose proof (sqrt_sqrt (1 + za) ltac:(lra)) as QA. pose proof (sqrt_sqrt (1 + zb) ltac:(lra)) as QB.
  set (A := sqrt (1 + za)) in *. set (B := sqrt (1 + zb)) in *.
  assert (FB : / (b * b) = 1 + f) by (unfold f; field; lra).
  exists (xi * / A), (et * / A), (xi * / A + r * (xi * / A / (B * / A))), (et * / A + r * (et * / A / (b * b) / (B * / A))).
  assert (E1 : xi * / A + r * (xi * / A / (B * / A)) = xi * / A + r * (xi * / B)) by (field; lra).
  assert (E2 : et * / A + r * (et * / A / (b * b) / (B * / A)) = et * / A + r * ((1 + f) * et * / B)) by (rewrite <- FB; field; lra).
  assert (EX : x = s * X) by (unfold X; field; lra). assert (EY : y = s * Y) by (unfold Y; field; lra).
  pose proof (tau_pos b r x0 y0 dx dy) as TP. fold d in TP. fold t in TP. fold way in TP.
  assert (T2 : 0 <= way * way) by apply Rle_0_sqr. assert (FT : 0 <= f * way) by (apply Rmult_le_pos; lra). assert (F2 : 0 <= f * f) by apply Rle_0_sqr.
  assert (FTT : f * (way * way) <= f * way * (1 / 5)). { replace (f * (way * way)) with (f * way * way) by ring. apply Rmult_le_compat_l; lra. }
  split; [|split; [|split]].
  - apply touch_intro; [exact HB|lra| |apply Rmult_lt_0_compat; [exact PB|apply Rinv_0_lt_compat; exact PA]|].
    + unfold on_outline. unfold Rdiv at 1. rewrite FB. replace (xi * / A * (xi * / A) + et * / A * (et * / A) * (1 + f)) with ((1 + za) * / (A * A)) by (unfold za; field; lra). rewrite QA. field. lra.
    + replace (xi * / A * (xi * / A) + et * / A * (et * / A) / (b * b) / (b * b)) with ((1 + zb) * / (A * A)) by (unfold Rdiv; rewrite FB; unfold zb; field; lra).
      replace (B * / A * (B * / A)) with (B * B * / (A * A)) by (field; lra). rewrite QB. reflexivity.
  - rewrite E1. fold x. rewrite EX. rewrite <- Rabs_Ropp. replace (- (s * X - (xi * / A + r * (xi * / B)))) with (xi * / A + r * (xi * / B) - s * X) by ring. lra.
  - rewrite E2. fold y. rewrite EY. rewrite <- Rabs_Ropp. replace (- (s * Y - (et * / A + r * ((1 + f) * et * / B)))) with (et * / A + r * ((1 + f) * et * / B) - s * Y) by ring. lra.
  - intros NP. set (h := d / (s * A)). assert (HP : 0 < h) by (apply Rdiv_lt_0_compat; [lra|apply Rmult_lt_0_compat; lra]).
    assert (W1 : xi * / A = h * (x' / d)) by (unfold h, x', xi; rewrite EX, EY; field; repeat split; lra).
    assert (W2 : et * / A = h * (y' / d)). { unfold h, y', et. replace x' with (s * xi) by (unfold x', xi; rewrite EX, EY; ring). rewrite EY. field. repeat split; lra. }
    rewrite W1, W2 in *. set (xd := x' / d) in *. set (yd := y' / d) in *.
    assert (N0 : not_pole (xd, yd, 0)).
    { unfold not_pole. assert (N : (h * xd) * (h * xd) + (1 + f) * ((h * yd) * (h * yd)) = 1). { rewrite <- W1, <- W2. replace (xi * / A * (xi * / A) + (1 + f) * (et * / A * (et * / A))) with ((1 + za) * / (A * A)) by (unfold za; field; lra). rewrite QA. field. lra. }
      pose proof (Rle_0_sqr xd) as A1. pose proof (Rle_0_sqr yd) as A2. unfold Rsqr in A1, A2. destruct (Req_dec (xd * xd + yd * yd) 0) as [Z|Z]; [|lra]. exfalso.
      assert (Z1 : xd * xd = 0) by lra. assert (Z2 : yd * yd = 0) by lra. replace (h * xd * (h * xd)) with (h * h * (xd * xd)) in N by ring. replace (h * yd * (h * yd)) with (h * h * (yd * yd)) in N by ring. rewrite Z1, Z2 in N. lra. }
    pose proof (place_ellipsoid xd yd 0 I0 I1 I2 ba HBA N0) as PE. rewrite EB in PE.
    assert (ER : rot_x I1 (h * xd, h * yd, 0) = (h * xd, h * (yd * cos I1 - 0 * sin I1), h * (yd * sin I1 + 0 * cos I1))) by (unfold rot_x; f_equal; [f_equal|]; ring).
    rewrite ER in NP |- *. unfold rot_x in PE. set (y2 := yd * cos I1 - 0 * sin I1) in *. set (z2 := yd * sin I1 + 0 * cos I1) in *.
    assert (N1 : not_pole (xd, y2, z2)). { unfold not_pole in *. replace (h * xd * (h * xd) + h * y2 * (h * y2)) with (h * h * (xd * xd + y2 * y2)) in NP by ring. assert (0 < h * h) by (apply Rmult_lt_0_compat; lra). apply Rmult_lt_reg_l with (h * h); [assumption|]. lra. }
    specialize (PE N1). unfold rot_z in PE |- *. destruct PE as (P1 & P2 & l & L1 & L2 & n & L3 & L4). split; [exact P1|]. split; [exact P2|]. exists (l / h). split; [apply Rdiv_lt_0_compat; lra|].
    assert (V1 : l / h * (h * xd * cos (I0 - I2) - h * y2 * sin (I0 - I2)) = l * (xd * cos (I0 - I2) - y2 * sin (I0 - I2))) by (field; lra).
    assert (V2 : l / h * (h * xd * sin (I0 - I2) + h * y2 * cos (I0 - I2)) = l * (xd * sin (I0 - I2) + y2 * cos (I0 - I2))) by (field; lra).
    assert (V3 : l / h * (h * z2) = l * z2) by (field; lra). rewrite V1, V2, V3. split; [exact L2|]. exists n. split; [exact L3|exact L4].
Qed.

(** the Earth's outline: the flattened Earth covers the points of the fundamental plane within an ellipse, and bba is its half axis up to the square of 1 - ba * ba *)
Theorem C144_outline ba w x y : 0 < ba <= 1 -> let b2 := ba * ba * (cos w * cos w) + sin w * sin w in
  ((exists z, let '(p, q, m) := rot_x (PI / 2 - w) (x, y, z) in p * p + q * q + m * m / (ba * ba) <= 1) <-> x * x + y * y / b2 <= 1) /\
  Rabs (outline_axis ba w * outline_axis ba w - b2) <= (1 - ba * ba) * (1 - ba * ba).
Proof.
  intros HB b2. pose proof (sin2_cos2 w) as SC. unfold Rsqr in SC. set (S := sin w) in *. set (C := cos w) in *.
  assert (B2 : 0 < ba * ba <= 1) by nra. pose proof (Rle_0_sqr S) as S0. pose proof (Rle_0_sqr C) as C0. unfold Rsqr in S0, C0.
  assert (BP : 0 < b2) by (unfold b2; nra). split.
  - unfold rot_x. rewrite cos_shift, sin_shift. fold S C.
    assert (E : forall z, x * x + (y * S - z * C) * (y * S - z * C) + (y * C + z * S) * (y * C + z * S) / (ba * ba) =
      x * x + y * y / b2 + (z * b2 + y * (C * S) * (1 - ba * ba)) * (z * b2 + y * (C * S) * (1 - ba * ba)) / (b2 * (ba * ba))).
    { intros z. assert (C2 : C * C = 1 - S * S) by lra. apply Rmult_eq_reg_r with (b2 * (ba * ba)); [|apply Rmult_integral_contrapositive_currified; lra].
      replace ((x * x + (y * S - z * C) * (y * S - z * C) + (y * C + z * S) * (y * C + z * S) / (ba * ba)) * (b2 * (ba * ba))) with
        (x * x * (b2 * (ba * ba)) + b2 * (ba * ba * ((y * S - z * C) * (y * S - z * C)) + (y * C + z * S) * (y * C + z * S))) by (field; lra).
      replace ((x * x + y * y / b2 + (z * b2 + y * (C * S) * (1 - ba * ba)) * (z * b2 + y * (C * S) * (1 - ba * ba)) / (b2 * (ba * ba))) * (b2 * (ba * ba))) with
        (x * x * (b2 * (ba * ba)) + (y * y * (ba * ba) + (z * b2 + y * (C * S) * (1 - ba * ba)) * (z * b2 + y * (C * S) * (1 - ba * ba)))) by (field; lra).
      f_equal. replace (b2 * (ba * ba * ((y * S - z * C) * (y * S - z * C)) + (y * C + z * S) * (y * C + z * S))) with
        (b2 * (z * z * b2 + 2 * (y * z) * (C * S) * (1 - ba * ba) + y * y * (ba * ba * (S * S) + C * C))) by (unfold b2; ring).
      replace (y * y * (ba * ba)) with (y * y * (b2 * (ba * ba * (S * S) + C * C) - C * C * (S * S) * ((1 - ba * ba) * (1 - ba * ba)))); [ring|].
      f_equal. unfold b2. rewrite C2. ring. }
    split.
    + intros [z H]. rewrite E in H. assert (0 <= (z * b2 + y * (C * S) * (1 - ba * ba)) * (z * b2 + y * (C * S) * (1 - ba * ba)) / (b2 * (ba * ba))) by (apply Rle_mult_inv_pos; [apply Rle_0_sqr|apply Rmult_lt_0_compat; lra]). lra.
    + intros H. exists (- (y * (C * S) * (1 - ba * ba)) / b2). rewrite E. replace (- (y * (C * S) * (1 - ba * ba)) / b2 * b2 + y * (C * S) * (1 - ba * ba)) with 0 by (field; lra). unfold Rdiv. rewrite Rmult_0_l, Rmult_0_l. unfold Rdiv in H. lra.
  - unfold outline_axis. fold S. set (e := 1 - ba * ba). assert (HE : 0 <= e < 1) by (unfold e; lra).
    assert (SS : 0 <= S * S <= 1) by lra. set (q := S * S) in *.
    replace (ba * (1 + e * S * S / 2) * (ba * (1 + e * S * S / 2)) - b2) with (- (e * e * (q - q * q / 4 + e * (q * q) / 4))).
    2: { unfold b2. replace (C * C) with (1 - q) by lra. unfold e, q. field. }
    rewrite Rabs_Ropp. assert (QQ : 0 <= q * q <= q) by nra. assert (EQ : 0 <= e * (q * q) <= q * q) by nra.
    rewrite Rabs_right; [|apply Rle_ge, Rmult_le_pos; [apply Rle_0_sqr|lra]]. replace (e * e) with (e * e * 1) at 2 by ring. apply Rmult_le_compat_l; [apply Rle_0_sqr|lra].
Qed.

(** at the place of a point of the fundamental plane the axis of the shadow stands at the horizon, up to the flattening: the sine of its altitude *)
Definition axis (I0 I1 I2 : R) : point := rot_z (I0 - I2) (rot_x I1 (0, 0, 1)).
Lemma altitude_eq u v I0 I1 I2 ba : 0 < ba <= 1 -> not_pole (u, v, 0) -> not_pole (rot_x I1 (u, v, 0)) -> let '(J, W, _) := bse2db (u, v, 0) (I0, I1, I2) true ba in
  exists h, 0 < h /\ h * h * (u * u + v * v) <= 1 /\ dot (llr2xyz (J, W, 1)) (axis I0 I1 I2) = h * v * (sin I1 * cos I1) * (1 / (ba * ba) - 1) /\
    h * h * (u * u + v * cos I1 * (v * cos I1) + v * sin I1 / (ba * ba) * (v * sin I1 / (ba * ba))) = 1.
Proof.
  intros HB N1 N2. pose proof (place_ellipsoid u v 0 I0 I1 I2 ba (proj1 HB) N1 N2) as P. destruct (bse2db (u, v, 0) (I0, I1, I2) true ba) as [[J W] R0].
  unfold rot_x, rot_z in P. destruct P as (_ & _ & l & L1 & _ & n & L3 & L4). unfold llr2xyz in L4 |- *. injection L4 as Q1 Q2 Q3. unfold axis, rot_x, rot_z, dot.
  assert (B2 : 0 < ba * ba) by (apply Rmult_lt_0_compat; lra). exists (l / n). split; [apply Rdiv_lt_0_compat; lra|].
  pose proof (sin2_cos2 (I0 - I2)) as S1. pose proof (sin2_cos2 I1) as S2. pose proof (sin2_cos2 W) as S3. pose proof (sin2_cos2 J) as S4. unfold Rsqr in S1, S2, S3, S4.
  set (cd := cos (I0 - I2)) in *. set (sd := sin (I0 - I2)) in *. set (ce := cos I1) in *. set (se := sin I1) in *.
  assert (T1 : 1 * cos W * cos J = l / n * (u * cd - v * ce * sd)). { apply Rmult_eq_reg_l with n; [|lra]. replace (n * (l / n * (u * cd - v * ce * sd))) with (l * (u * cd - v * ce * sd)) by (field; lra). lra. }
  assert (T2 : 1 * cos W * sin J = l / n * (u * sd + v * ce * cd)). { apply Rmult_eq_reg_l with n; [|lra]. replace (n * (l / n * (u * sd + v * ce * cd))) with (l * (u * sd + v * ce * cd)) by (field; lra). lra. }
  assert (T3 : 1 * sin W = l / n * (v * se / (ba * ba))). { apply Rmult_eq_reg_l with n; [|lra]. replace (n * (l / n * (v * se / (ba * ba)))) with (l * (v * se + 0 * ce) / (ba * ba)) by (field; lra). lra. }
  set (h := l / n) in *. rewrite T1, T2, T3.
  assert (U1 : h * (u * cd - v * ce * sd) * (h * (u * cd - v * ce * sd)) + h * (u * sd + v * ce * cd) * (h * (u * sd + v * ce * cd)) + h * (v * se / (ba * ba)) * (h * (v * se / (ba * ba))) = 1).
  { rewrite <- T1, <- T2, <- T3. replace (1 * cos W * cos J * (1 * cos W * cos J) + 1 * cos W * sin J * (1 * cos W * sin J) + 1 * sin W * (1 * sin W)) with (cos W * cos W * (sin J * sin J + cos J * cos J) + sin W * sin W) by ring. rewrite S4. lra. }
  assert (U2 : h * h * (u * u + v * ce * (v * ce) + v * se / (ba * ba) * (v * se / (ba * ba))) = 1).
  { rewrite <- U1. replace (h * (u * cd - v * ce * sd) * (h * (u * cd - v * ce * sd)) + h * (u * sd + v * ce * cd) * (h * (u * sd + v * ce * cd))) with (h * h * ((u * u + v * ce * (v * ce)) * (sd * sd + cd * cd))) by ring. rewrite S1. ring. }
  split; [|split; [|exact U2]].
  - assert (I : 1 <= / (ba * ba)). { rewrite <- Rinv_1. apply Rinv_le_contravar; [exact B2|]. replace 1 with (1 * 1) by ring. apply Rmult_le_compat; lra. }
    rewrite <- U2. apply Rmult_le_compat_l; [apply Rle_0_sqr|]. unfold Rdiv. set (i := / (ba * ba)) in *. assert (I2' : 1 <= i * i) by (replace 1 with (1 * 1) by ring; apply Rmult_le_compat; lra).
    pose proof (Rle_0_sqr (v * se)) as Q. unfold Rsqr in Q. assert (0 <= v * se * (v * se) * (i * i - 1)) by (apply Rmult_le_pos; lra).
    replace (u * u + v * v) with (u * u + v * v * (se * se + ce * ce)) by (rewrite S2; ring). lra.
  - { replace (h * (u * cd - v * ce * sd) * (0 * cd - (0 * ce - 1 * se) * sd) + h * (u * sd + v * ce * cd) * (0 * sd + (0 * ce - 1 * se) * cd) + h * (v * se / (ba * ba)) * (0 * se + 1 * ce)) with
      (h * v * (se * ce) * (1 / (ba * ba) - (sd * sd + cd * cd))) by (field; lra). rewrite S1. reflexivity. }
Qed.
Theorem C144_horizon u v I0 I1 I2 ba : 0 < ba <= 1 -> not_pole (u, v, 0) -> not_pole (rot_x I1 (u, v, 0)) -> let '(J, W, _) := bse2db (u, v, 0) (I0, I1, I2) true ba in
  Rabs (dot (llr2xyz (J, W, 1)) (axis I0 I1 I2)) <= (1 / (ba * ba) - 1) / 2.
Proof.
  intros HB N1 N2. pose proof (altitude_eq u v I0 I1 I2 ba HB N1 N2) as P. destruct (bse2db (u, v, 0) (I0, I1, I2) true ba) as [[J W] R0]. destruct P as (h & H0 & H1 & E & _). rewrite E.
  assert (I : 1 <= 1 / (ba * ba)). { unfold Rdiv. rewrite Rmult_1_l, <- Rinv_1. apply Rinv_le_contravar; [apply Rmult_lt_0_compat; lra|]. replace 1 with (1 * 1) by ring. apply Rmult_le_compat; lra. }
  replace ((1 / (ba * ba) - 1) / 2) with (1 * (1 / 2) * (1 / (ba * ba) - 1)) by (field; lra). apply prod_le; [apply prod_le|rewrite Rabs_right; lra].
  - rewrite <- (Rabs_right 1) by lra. apply Rsqr_le_abs_0. unfold Rsqr. pose proof (Rle_0_sqr (h * u)) as A1. unfold Rsqr in A1. lra.
  - pose proof (sin2_cos2 I1) as S. unfold Rsqr in S. pose proof (Rle_0_sqr (sin I1 - cos I1)) as A1. pose proof (Rle_0_sqr (sin I1 + cos I1)) as A2. unfold Rsqr in A1, A2. apply Rabs_le. lra.
Qed.
(** but it does not stand at the horizon, although the shadow is seen to touch there *)
Theorem C144_horizon_refuted : exists u v I0 I1 I2, let b2 := let ba := 99664719 / 100000000 in ba * ba * (sin I1 * sin I1) + cos I1 * cos I1 in u * u + v * v / b2 = 1 /\
  let '(J, W, _) := bse2db (u, v, 0) (I0, I1, I2) true (99664719 / 100000000) in dot (llr2xyz (J, W, 1)) (axis I0 I1 I2) <> 0.
Proof.
  set (b2 := 99664719 / 100000000 * (99664719 / 100000000) * (sin (PI / 4) * sin (PI / 4)) + cos (PI / 4) * cos (PI / 4)).
  assert (SC : sin (PI / 4) * sin (PI / 4) = 1 / 2 /\ cos (PI / 4) * cos (PI / 4) = 1 / 2).
  { pose proof (sin2_cos2 (PI / 4)) as S. unfold Rsqr in S. assert (E : sin (PI / 4) = cos (PI / 4)) by (rewrite sin_cos_PI4; reflexivity). rewrite E in *. lra. }
  destruct SC as [S2 C2]. assert (BP : 0 < b2) by (unfold b2; rewrite S2, C2; lra). pose proof (sqrt_sqrt b2 ltac:(lra)) as SB. pose proof (sqrt_lt_R0 b2 BP) as SP.
  exists 0, (sqrt b2), 0, (PI / 4), 0. cbv zeta. fold b2. split; [rewrite SB; field; lra|].
  assert (CP : 0 < cos (PI / 4)) by (apply cos_gt_0; pose proof PI_RGT_0; lra). assert (SN : 0 < sin (PI / 4)) by (apply sin_gt_0; pose proof PI_RGT_0; lra).
  pose proof (altitude_eq 0 (sqrt b2) 0 (PI / 4) 0 (99664719 / 100000000) ltac:(lra)) as P. unfold not_pole, rot_x in P.
  match type of P with ?A -> ?B -> _ => assert (N1 : A) by (rewrite SB; lra); assert (N2 : B) end.
  { replace (0 * 0 + (sqrt b2 * cos (PI / 4) - 0 * sin (PI / 4)) * (sqrt b2 * cos (PI / 4) - 0 * sin (PI / 4))) with (sqrt b2 * sqrt b2 * (cos (PI / 4) * cos (PI / 4))) by ring. rewrite SB, C2. lra. }
  specialize (P N1 N2). destruct (bse2db (0, sqrt b2, 0) (0, PI / 4, 0) true (99664719 / 100000000)) as [[J W] R0]. destruct P as (h & H0 & _ & E & _). rewrite E.
  apply Rgt_not_eq. apply Rmult_lt_0_compat; [|lra]. apply Rmult_lt_0_compat; apply Rmult_lt_0_compat; assumption.
Qed.
(** when the shadow misses the circle of radius ls, feature starts qrd from the nearest point of the path, where the divisor of the step is 0 *)
Theorem C144_missed b0 b1 vx vy ls : (vx, vy) <> (0, 0) -> ls <= Rabs (mid_dist b0 b1 vx vy) -> let '(t4, t5) := instants b0 b1 vx vy ls in
  t4 = t5 /\ vx * (b0 + vx * t4) + vy * (b1 + vy * t4) = 0.
Proof.
  intros NZ H. unfold instants. destruct (Rlt_dec (Rabs (mid_dist b0 b1 vx vy)) ls) as [C|C]; [lra|]. split; [ring|]. rewrite Rminus_0_r. unfold mid_time.
  assert (V : 0 < vx * vx + vy * vy). { pose proof (Rle_0_sqr vx) as A1. pose proof (Rle_0_sqr vy) as A2. destruct (Req_dec vx 0) as [Z|Z]; [destruct (Req_dec vy 0) as [Z'|Z']; [congruence|]|].
    - pose proof (Rsqr_pos_lt vy Z') as P. unfold Rsqr in *. lra.
    - pose proof (Rsqr_pos_lt vx Z) as P. unfold Rsqr in *. lra. }
  rewrite sqrt_sqrt by lra. field. lra.
Qed.

(** a penumbra of radius 0.55 coming from the west with the speed of 13 radii a day *)
Example C144_example : let bseM := fun jd : R => (- (3 / 2) + 13 * jd, 1 / 5, 60) in let b := 9967 / 10000 in let f := 1 / (b * b) - 1 in
  bseM 0 = (- (3 / 2) + 13 * 0, 1 / 5, 60) /\ 0 <= f <= 1 / 100 /\ 0 <= 11 / 20 <= 3 / 5 /\ 13 * (- (3 / 2) + 13 * 0) + 0 * (1 / 5) <> 0 /\
  let d := qrd_d b (- (3 / 2)) (1 / 5) (11 / 20) in Rabs (qrd_t d (- (3 / 2)) (1 / 5) 13 0) * 13 <= 1 / 5.
Proof.
  cbv zeta. assert (F : 0 <= 1 / (9967 / 10000 * (9967 / 10000)) - 1 <= 1 / 100) by (split; lra).
  split; [reflexivity|]. split; [exact F|]. split; [lra|]. split; [lra|]. unfold qrd_d, qrd_t. set (f := 1 / (9967 / 10000 * (9967 / 10000)) - 1) in *. clearbody f.
  set (d := 1 - f * (1 / 5) * (1 / 5) / (- (3 / 2) * - (3 / 2) + 1 / 5 * (1 / 5)) / 2 + 11 / 20).
  assert (D : 15 / 10 <= d <= 16 / 10) by (replace d with (1 - f * (4 / 229) / 2 + 11 / 20) by (unfold d; field); lra). clearbody d.
  replace ((d * d - - (3 / 2) * - (3 / 2) - 1 / 5 * (1 / 5)) / (13 * - (3 / 2) + 0 * (1 / 5)) / 2) with ((d * d - 229 / 100) * - (1 / 39)) by field.
  assert (225 / 100 <= d * d <= 256 / 100) by nra. assert (K : Rabs ((d * d - 229 / 100) * - (1 / 39)) <= 1 / 100) by (apply Rabs_le; lra). lra.
Qed.
Example C144_horizon_example : 0 < 99664719 / 100000000 <= 1 /\ not_pole (3 / 5, 4 / 5, 0) /\ not_pole (rot_x 0 (3 / 5, 4 / 5, 0)).
Proof. unfold not_pole, rot_x. rewrite cos_0, sin_0. repeat split; lra. Qed.
Example C144_missed_example : (13, 0) <> (0, 0) /\ 3 / 2 <= Rabs (mid_dist 0 (8 / 5) 13 0).
Proof.
  split; [intros E; injection E; lra|]. unfold mid_dist. replace (13 * 13 + 0 * 0) with (13 * 13) by ring. rewrite sqrt_square by lra. rewrite Rabs_right; lra.
Qed.
Print Assumptions C144_contact. Print Assumptions C144_outline. Print Assumptions C144_horizon. Print Assumptions C144_horizon_refuted. Print Assumptions C144_missed.
