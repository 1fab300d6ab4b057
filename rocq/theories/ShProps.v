(** C122 - C127: the shadow of the Moon. *)
From Coq Require Import ZArith Reals Lia Lra.
From Verif Require Import GeoModel GeoSpec GeoProof GeoProps ShModel.
Open Scope R_scope.

(** ** plane geometry *)
Definition len2 (x y : R) : R := sqrt (x * x + y * y).
Lemma len2_pos x y : 0 <= len2 x y. Proof. apply sqrt_pos. Qed.
Lemma len2_sq x y : len2 x y * len2 x y = x * x + y * y. Proof. apply sqrt_sqrt. nra. Qed.
Lemma len2_le x y r : 0 <= r -> (len2 x y <= r <-> x * x + y * y <= r * r).
Proof. intros H. pose proof (len2_pos x y). rewrite <- len2_sq. split; intros; nra. Qed.
Lemma len2_lt x y r : 0 <= r -> (len2 x y < r <-> x * x + y * y < r * r).
Proof. intros H. pose proof (len2_pos x y). rewrite <- len2_sq. split; intros; nra. Qed.
Lemma len2_scale c x y : 0 <= c -> len2 (c * x) (c * y) = c * len2 x y.
Proof. intros H. unfold len2. replace (c * x * (c * x) + c * y * (c * y)) with ((c * c) * (x * x + y * y)) by ring. rewrite sqrt_mult by nra. now rewrite sqrt_square. Qed.
Lemma len2_opp x y : len2 (- x) (- y) = len2 x y.
Proof. unfold len2. f_equal. ring. Qed.
Lemma len2_tri a b c d : len2 (a + c) (b + d) <= len2 a b + len2 c d.
Proof.
  apply len2_le; [pose proof (len2_pos a b); pose proof (len2_pos c d); lra|].
  pose proof (len2_sq a b) as E1. pose proof (len2_sq c d) as E2. pose proof (len2_pos a b). pose proof (len2_pos c d).
  assert (CS : a * c + b * d <= len2 a b * len2 c d).
  { apply Rnot_lt_le. intros Q. assert ((a * c + b * d) * (a * c + b * d) <= (len2 a b * len2 a b) * (len2 c d * len2 c d)) by (rewrite E1, E2; pose proof (Rle_0_sqr (a * d - b * c)); unfold Rsqr in *; lra). assert (0 <= len2 a b * len2 c d) by (apply Rmult_le_pos; assumption). set (t := len2 a b * len2 c d) in *. replace (len2 a b * len2 a b * (len2 c d * len2 c d)) with (t * t) in * by (unfold t; ring). clearbody t. nra. }
  nra.
Qed.
Lemma len2_zero x y : len2 x y = 0 -> x = 0 /\ y = 0.
Proof. intros H. pose proof (len2_sq x y). rewrite H in *. nra. Qed.

(** ** C122: the radii of the shadow *)
(** The Moon is a disc of radius k around the axis in the plane at the height m above the observer's, the Sun a disc of radius k0 in the plane at the height m + D.
    The line of sight from (px, py, 0) to the point (sx, sy) of the Sun's plane crosses the Moon's plane at [cross]. *)
Definition cross (m D p s : R) : R := p + (s - p) * (m / (m + D)).
(** part of the Sun is hidden *)
Definition some_hidden (m D k k0 px py : R) : Prop := exists sx sy, sx * sx + sy * sy <= k0 * k0 /\ cross m D px sx * cross m D px sx + cross m D py sy * cross m D py sy < k * k.
(** the whole Sun is hidden *)
Definition all_hidden (m D k k0 px py : R) : Prop := forall sx sy, sx * sx + sy * sy <= k0 * k0 -> cross m D px sx * cross m D px sx + cross m D py sy * cross m D py sy <= k * k.
(** the whole Moon is in front of the Sun *)
Definition moon_inside (m D k k0 px py : R) : Prop := forall sx sy, cross m D px sx * cross m D px sx + cross m D py sy * cross m D py sy <= k * k -> sx * sx + sy * sy <= k0 * k0.

Section Radii.
Variables m D k k0 px py : R.
Hypothesis Hm : 0 < m.
Hypothesis HD : 0 < D.
Hypothesis Hk : 0 < k.
Hypothesis H0 : 0 < k0.
Let s : R := m / (m + D).
Let rho : R := len2 px py.
Local Lemma s_range : 0 < s < 1.
Proof. unfold s. split; [apply Rdiv_lt_0_compat; lra|]. apply Rmult_lt_reg_r with (m + D); [lra|]. unfold Rdiv. rewrite Rmult_assoc, Rinv_l by lra. lra. Qed.
Local Lemma s_eq : (1 - s) * m = s * D.
Proof. unfold s. field. lra. Qed.
Local Lemma cross_eq p t : cross m D p t = (1 - s) * p + s * t.
Proof. unfold cross. fold s. ring. Qed.
(** (1 - s) rho < c + s e  iff  rho < c + (c + e) m / D *)
Local Lemma scale_lt c e : (1 - s) * rho < c + s * e <-> rho < c + (e + c) / D * m.
Proof.
  pose proof s_range as Hs. assert (E1 : 1 - s = D / (m + D)) by (unfold s; field; lra). assert (E2 : s = m / (m + D)) by reflexivity.
  assert (EQ : (1 - s) * (c + (e + c) / D * m) = c + s * e) by (rewrite E1, E2; field; lra). rewrite <- EQ. split; intros H; nra.
Qed.
Local Lemma scale_le c e : (1 - s) * rho <= c + s * e <-> rho <= c + (e + c) / D * m.
Proof.
  pose proof s_range as Hs. assert (E1 : 1 - s = D / (m + D)) by (unfold s; field; lra). assert (E2 : s = m / (m + D)) by reflexivity.
  assert (EQ : (1 - s) * (c + (e + c) / D * m) = c + s * e) by (rewrite E1, E2; field; lra). rewrite <- EQ. split; intros H; nra.
Qed.
Local Lemma unit_dir : 0 < rho -> (px / rho) * (px / rho) + (py / rho) * (py / rho) = 1.
Proof. intros P. pose proof (len2_sq px py) as E. fold rho in E. apply Rmult_eq_reg_r with (rho * rho); [|nra]. replace ((px / rho * (px / rho) + py / rho * (py / rho)) * (rho * rho)) with (px * px + py * py) by (field; lra). lra. Qed.
Lemma penumbra_iff : some_hidden m D k k0 px py <-> rho < k + (k0 + k) / D * m.
Proof.
  rewrite <- scale_lt. pose proof s_range as Hs. pose proof (len2_pos px py) as P0. fold rho in P0. pose proof (len2_sq px py) as EP. fold rho in EP. split.
  - intros (sx & sy & S1 & S2). rewrite !cross_eq in S2.
    assert (A : len2 ((1 - s) * px + s * sx) ((1 - s) * py + s * sy) < k) by (apply len2_lt; lra).
    assert (B : len2 sx sy <= k0) by (apply len2_le; lra).
    pose proof (len2_tri ((1 - s) * px + s * sx) ((1 - s) * py + s * sy) (- (s * sx)) (- (s * sy))) as T. rewrite len2_opp, len2_scale in T by lra.
    replace ((1 - s) * px + s * sx + - (s * sx)) with ((1 - s) * px) in T by ring. replace ((1 - s) * py + s * sy + - (s * sy)) with ((1 - s) * py) in T by ring. rewrite len2_scale in T by lra. fold rho in T.
    assert (s * len2 sx sy <= s * k0) by (apply Rmult_le_compat_l; lra). lra.
  - intros H. destruct (Rle_lt_dec ((1 - s) * rho) (s * k0)) as [C|C].
    + exists (- ((1 - s) / s * px)), (- ((1 - s) / s * py)). rewrite !cross_eq. split.
      * assert (Q : (1 - s) / s * rho <= k0). { apply Rmult_le_reg_l with s; [lra|]. replace (s * ((1 - s) / s * rho)) with ((1 - s) * rho) by (field; lra). exact C. }
        assert (0 <= (1 - s) / s). { apply Rlt_le, Rdiv_lt_0_compat; lra. } set (q := (1 - s) / s) in *. replace (- (q * px) * - (q * px) + - (q * py) * - (q * py)) with ((q * rho) * (q * rho)) by nra. assert (0 <= q * rho) by (apply Rmult_le_pos; assumption). nra.
      * replace ((1 - s) * px + s * - ((1 - s) / s * px)) with 0 by (field; lra). replace ((1 - s) * py + s * - ((1 - s) / s * py)) with 0 by (field; lra). nra.
    + assert (RP : 0 < rho) by nra. pose proof (unit_dir RP) as U. set (u := px / rho) in *. set (w := py / rho) in *. assert (Eu : px = rho * u) by (unfold u; field; lra). assert (Ew : py = rho * w) by (unfold w; field; lra).
      exists (- (k0 * u)), (- (k0 * w)). rewrite !cross_eq. clearbody u w. split; [nra|]. rewrite Eu, Ew.
      replace ((1 - s) * (rho * u) + s * - (k0 * u)) with (((1 - s) * rho - s * k0) * u) by ring. replace ((1 - s) * (rho * w) + s * - (k0 * w)) with (((1 - s) * rho - s * k0) * w) by ring.
      set (d := (1 - s) * rho - s * k0) in *. assert (0 < d < k) by (unfold d; lra). replace (d * u * (d * u) + d * w * (d * w)) with (d * d * (u * u + w * w)) by ring. rewrite U. nra.
Qed.
Lemma umbra_iff : all_hidden m D k k0 px py <-> rho <= k - (k0 - k) / D * m.
Proof.
  replace (k - (k0 - k) / D * m) with (k + (- k0 + k) / D * m) by (field; lra). rewrite <- scale_le. pose proof s_range as Hs. pose proof (len2_pos px py) as P0. fold rho in P0. pose proof (len2_sq px py) as EP. fold rho in EP. split.
  - intros A. destruct (Rle_lt_dec rho 0) as [Z|Z].
    + assert (EZ : rho = 0) by lra. destruct (len2_zero px py EZ) as [-> ->]. specialize (A k0 0 ltac:(lra)). rewrite !cross_eq in A. rewrite EZ. assert (s * k0 * (s * k0) <= k * k) by lra. assert (0 < s * k0) by nra. nra.
    + pose proof (unit_dir Z) as U. set (u := px / rho) in *. set (w := py / rho) in *. assert (Eu : px = rho * u) by (unfold u; field; lra). assert (Ew : py = rho * w) by (unfold w; field; lra). clearbody u w.
      specialize (A (k0 * u) (k0 * w) ltac:(nra)). rewrite !cross_eq, Eu, Ew in A. replace ((1 - s) * (rho * u) + s * (k0 * u)) with (((1 - s) * rho + s * k0) * u) in A by ring. replace ((1 - s) * (rho * w) + s * (k0 * w)) with (((1 - s) * rho + s * k0) * w) in A by ring.
      set (d := (1 - s) * rho + s * k0) in *. replace (d * u * (d * u) + d * w * (d * w)) with (d * d * (u * u + w * w)) in A by ring. rewrite U in A. assert (0 < d) by (unfold d; nra). assert (d <= k) by nra. unfold d in *. lra.
  - intros H sx sy S1. rewrite !cross_eq. apply len2_le; [lra|]. eapply Rle_trans; [apply len2_tri|]. rewrite !len2_scale by lra. fold rho. assert (B : len2 sx sy <= k0) by (apply len2_le; lra). assert (s * len2 sx sy <= s * k0) by (apply Rmult_le_compat_l; lra). lra.
Qed.
Lemma antumbra_iff : moon_inside m D k k0 px py <-> rho <= - (k - (k0 - k) / D * m).
Proof.
  replace (- (k - (k0 - k) / D * m)) with (- k + (k0 + - k) / D * m) by (field; lra). rewrite <- scale_le. pose proof s_range as Hs. pose proof (len2_pos px py) as P0. fold rho in P0. pose proof (len2_sq px py) as EP. fold rho in EP.
  assert (INV : forall p c, cross m D p ((c - (1 - s) * p) / s) = c). { intros. rewrite cross_eq. field. lra. }
  split.
  - intros A. destruct (Rle_lt_dec rho 0) as [Z|Z].
    + assert (EZ : rho = 0) by lra. destruct (len2_zero px py EZ) as [E1 E2]. specialize (A ((k - (1 - s) * px) / s) ((0 - (1 - s) * py) / s)). rewrite !INV in A. specialize (A ltac:(lra)). rewrite E1, E2 in A. rewrite EZ.
      replace ((k - (1 - s) * 0) / s) with (k / s) in A by (field; lra). replace ((0 - (1 - s) * 0) / s) with 0 in A by (field; lra). assert (0 < k / s) by (apply Rdiv_lt_0_compat; lra). assert (k / s <= k0) by nra. assert (s * (k / s) = k) by (field; lra). nra.
    + pose proof (unit_dir Z) as U. set (u := px / rho) in *. set (w := py / rho) in *. assert (Eu : px = rho * u) by (unfold u; field; lra). assert (Ew : py = rho * w) by (unfold w; field; lra). clearbody u w.
      specialize (A ((- (k * u) - (1 - s) * px) / s) ((- (k * w) - (1 - s) * py) / s)). rewrite !INV in A. specialize (A ltac:(nra)). rewrite Eu, Ew in A.
      replace ((- (k * u) - (1 - s) * (rho * u)) / s) with (- ((k + (1 - s) * rho) / s) * u) in A by (field; lra). replace ((- (k * w) - (1 - s) * (rho * w)) / s) with (- ((k + (1 - s) * rho) / s) * w) in A by (field; lra).
      set (d := (k + (1 - s) * rho) / s) in *. assert (ED : s * d = k + (1 - s) * rho) by (unfold d; field; lra). replace (- d * u * (- d * u) + - d * w * (- d * w)) with (d * d * (u * u + w * w)) in A by ring. rewrite U in A. assert (0 < d) by (unfold d; apply Rdiv_lt_0_compat; nra). assert (d <= k0) by nra. nra.
  - intros H sx sy S1. rewrite !cross_eq in S1. apply len2_le; [lra|]. set (c := (1 - s) * px + s * sx) in *. set (e := (1 - s) * py + s * sy) in *. assert (C : len2 c e <= k) by (apply len2_le; lra).
    pose proof (len2_tri c e (- ((1 - s) * px)) (- ((1 - s) * py))) as T. rewrite len2_opp, len2_scale in T by lra. fold rho in T. replace (c + - ((1 - s) * px)) with (s * sx) in T by (unfold c; ring). replace (e + - ((1 - s) * py)) with (s * sy) in T by (unfold e; ring). rewrite len2_scale in T by lra. apply Rmult_le_reg_l with s; lra.
Qed.
End Radii.

(** an observer at the distance rho from the axis in the fundamental plane, the Moon at the height mR, the Sun dyj above the Moon *)
Theorem shadow_penumbra k0 k k2 dyj mR px py : 0 < k0 -> 0 < k -> 0 < dyj -> 0 < mR -> (some_hidden mR dyj k k0 px py <-> len2 px py < r1 (rSM k0 k k2 dyj mR)).
Proof. intros. cbn [rSM r1]. unfold tanf1. now apply penumbra_iff. Qed.
Theorem shadow_umbra k0 k k2 dyj mR px py : 0 < k0 -> 0 < k2 -> 0 < dyj -> 0 < mR -> (all_hidden mR dyj k2 k0 px py <-> len2 px py <= r2 (rSM k0 k k2 dyj mR)).
Proof. intros. cbn [rSM r2]. unfold tanf2. now apply umbra_iff. Qed.
Theorem shadow_antumbra k0 k k2 dyj mR px py : 0 < k0 -> 0 < k2 -> 0 < dyj -> 0 < mR -> (moon_inside mR dyj k2 k0 px py <-> len2 px py <= - r2 (rSM k0 k k2 dyj mR)).
Proof. intros. cbn [rSM r2]. unfold tanf2. now apply antumbra_iff. Qed.
(** the magnitude is the ratio of the apparent sizes; the eclipse is total (annular) on the axis when it is at least (at most) 1 *)
Theorem shadow_magnitude k0 k k2 dyj mR : 0 < k0 -> 0 < k2 -> 0 < dyj -> 0 < mR -> let B := rSM k0 k k2 dyj mR in
  sf B = (k2 / mR) / (k0 / (mR + dyj)) /\ (1 <= sf B <-> all_hidden mR dyj k2 k0 0 0) /\ (sf B <= 1 <-> moon_inside mR dyj k2 k0 0 0) /\ ar2 B = Rabs (r2 B).
Proof.
  intros A1 A2 A3 A4 B. assert (E : sf B = (k2 / mR) / (k0 / (mR + dyj))) by (unfold B; cbn [rSM sf]; field; lra).
  assert (L0 : len2 0 0 = 0) by (unfold len2; replace (0 * 0 + 0 * 0) with 0 by ring; apply sqrt_0).
  assert (ER : r2 B = (sf B - 1) * (k0 * mR / dyj)). { unfold B. cbn [rSM sf r2]. unfold tanf2. field. lra. }
  assert (Q : 0 < k0 * mR / dyj) by (apply Rdiv_lt_0_compat; nra).
  split; [exact E|]. split; [|split; [|reflexivity]].
  - rewrite (shadow_umbra k0 k k2) by assumption. fold B. rewrite L0, ER. split; intros; nra.
  - rewrite (shadow_antumbra k0 k k2) by assumption. fold B. rewrite L0, ER. split; intros; nra.
Qed.
(** the constants of the code and the mean distances *)
Example shadow_ex : let k0 := 1091222 / 10000 in let k := 2725076 / 10000000 in let k2 := 2722810 / 10000000 in
  0 < k0 /\ 0 < k /\ 0 < k2 /\ r2 (rSM k0 k k2 23400 57) > 0 /\ r2 (rSM k0 k k2 23400 60) < 0 /\ some_hidden 60 23400 k k0 (1 / 2) 0.
Proof.
  cbv zeta. do 3 (split; [lra|]). cbn [rSM r2]. unfold tanf2. split; [lra|]. split; [lra|].
  exists (- (1091222 / 10000)), 0. unfold cross. replace (60 / (60 + 23400)) with (1 / 391) by lra. split; lra.
Qed.
Print Assumptions shadow_penumbra. Print Assumptions shadow_umbra. Print Assumptions shadow_antumbra. Print Assumptions shadow_magnitude.
