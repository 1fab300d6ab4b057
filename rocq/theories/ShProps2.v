(** C123 - C127: apexes of the shadow cones, speed on the surface, places, instants and limits of an eclipse. *)
From Coq Require Import ZArith Reals Lia Lra.
From Verif Require Import GeoModel GeoSpec GeoProof GeoProps PiBound ShModel.
Open Scope R_scope.

(** ** C123: the apexes *)
Definition vprod (p q : point) : point := let '(x, y, z) := p in let '(a, b, c) := q in (y * c - z * b, z * a - x * c, x * b - y * a).
Definition norm2 (p : point) : R := dot p p.
(** the line through a and x touches the sphere of radius r around c: their distance is r *)
Definition touches (c : point) (r : R) (a x : point) : Prop := norm2 (vprod (minus c a) (minus x a)) = r * r * norm2 (minus x a).
Lemma apex_place S M q : q <> 0 -> llr2xyz (apex S M q) = on_line (llr2xyz M) (llr2xyz S) (/ q) \/ on_line (llr2xyz M) (llr2xyz S) (/ q) = (0, 0, 0).
Proof.
  intros Q. unfold apex. destruct (llr2xyz S) as [[a b] c], (llr2xyz M) as [[x y] z]. unfold on_line.
  assert (E : ((a - x) / q + x, (b - y) / q + y, (c - z) / q + z) = (x + (a - x) * / q, y + (b - y) * / q, z + (c - z) * / q)) by (f_equal; [f_equal|]; unfold Rdiv; ring). rewrite E.
  set (X := x + (a - x) * / q). set (Y := y + (b - y) * / q). set (Z := z + (c - z) * / q).
  destruct (Req_dec X 0) as [EX|NX]; [destruct (Req_dec Y 0) as [EY|NY]; [destruct (Req_dec Z 0) as [EZ|NZ]|]|].
  - right. now rewrite EX, EY, EZ.
  - left. apply C38_rectangular. congruence.
  - left. apply C38_rectangular. congruence.
  - left. apply C38_rectangular. congruence.
Qed.
Lemma touch_scale m s q t x r : minus s (on_line m s t) = (let '(a, b, c) := minus m (on_line m s t) in (q * a, q * b, q * c)) -> 0 < q * q -> (touches m r (on_line m s t) x <-> touches s (q * r) (on_line m s t) x).
Proof.
  intros E Q. unfold touches. rewrite E. destruct (minus m (on_line m s t)) as [[a b] c]. destruct (minus x (on_line m s t)) as [[u v] w]. unfold vprod, norm2, dot. split; intros H; nra.
Qed.
(** the umbra's apex lies behind the Moon, the penumbra's between Sun and Moon; a line through either touches the Sun (radius k r) exactly when it touches the Moon (radius r) *)
Theorem apex_umbra S M k r x : 1 < k -> on_line (llr2xyz M) (llr2xyz S) (- / (k - 1)) <> (0, 0, 0) -> let A := llr2xyz (umbra_apex S M k) in
  (exists t, 0 < t /\ A = on_line (llr2xyz M) (llr2xyz S) (- t)) /\ (touches (llr2xyz M) r A x <-> touches (llr2xyz S) (k * r) A x).
Proof.
  intros K N A. assert (EI : / (1 - k) = - / (k - 1)) by (field; lra).
  assert (EA : A = on_line (llr2xyz M) (llr2xyz S) (- / (k - 1))). { unfold A, umbra_apex. destruct (apex_place S M (1 - k)) as [E|E]; [lra|now rewrite E, EI|]. rewrite EI in E. contradiction. }
  split; [exists (/ (k - 1)); split; [apply Rinv_0_lt_compat; lra|exact EA]|]. rewrite EA. apply touch_scale; [|nra].
  destruct (llr2xyz S) as [[a b] c], (llr2xyz M) as [[u v] w]. unfold minus, on_line. f_equal; [f_equal|]; field; lra.
Qed.
Theorem apex_penumbra S M k r x : 0 < k -> on_line (llr2xyz M) (llr2xyz S) (/ (1 + k)) <> (0, 0, 0) -> let A := llr2xyz (penumbra_apex S M k) in
  (exists t, 0 < t < 1 /\ A = on_line (llr2xyz M) (llr2xyz S) t) /\ (touches (llr2xyz M) r A x <-> touches (llr2xyz S) (k * r) A x).
Proof.
  intros K N A. assert (EA : A = on_line (llr2xyz M) (llr2xyz S) (/ (1 + k))). { unfold A, penumbra_apex. destruct (apex_place S M (1 + k)) as [E|E]; [lra|exact E|]. contradiction. }
  split. { exists (/ (1 + k)). split; [|exact EA]. split; [apply Rinv_0_lt_compat; lra|]. rewrite <- Rinv_1. apply Rinv_lt_contravar; lra. }
  rewrite EA. unfold touches. assert (E : minus (llr2xyz S) (on_line (llr2xyz M) (llr2xyz S) (/ (1 + k))) = (let '(a, b, c) := minus (llr2xyz M) (on_line (llr2xyz M) (llr2xyz S) (/ (1 + k))) in (- k * a, - k * b, - k * c))).
  { destruct (llr2xyz S) as [[a b] c], (llr2xyz M) as [[u v] w]. unfold minus, on_line. f_equal; [f_equal|]; field; lra. }
  pose proof (touch_scale (llr2xyz M) (llr2xyz S) (- k) (/ (1 + k)) x r E ltac:(nra)) as T. unfold touches in T. rewrite T. replace (- k * r * (- k * r)) with (k * r * (k * r)) by ring. reflexivity.
Qed.
(** the ratio that the code uses is between 400 and 401, and a Sun and Moon on the x axis meet the hypotheses *)
Example apex_ex : let rad := 180 * 3600 / PI in let sMoon := 2725076 / 10000000 * (63781366 / 10000) * (10000036 / 10000000) * rad in let AU := 149597870691 / 1000 in
  let k := radii sMoon AU in 400 < k < 401 /\ on_line (llr2xyz (0, 0, 384000)) (llr2xyz (0, 0, 150000000)) (- / (k - 1)) <> (0, 0, 0) /\ on_line (llr2xyz (0, 0, 384000)) (llr2xyz (0, 0, 150000000)) (/ (1 + k)) <> (0, 0, 0).
Proof.
  cbv zeta. set (k := radii _ _).
  assert (K : 400 < k < 401).
  { assert (P : 3.1415 < PI < 3.1416) by (pose proof PI_bounds; lra). unfold k, radii.
    replace (95963 / 100 / (2725076 / 10000000 * (63781366 / 10000) * (10000036 / 10000000) * (180 * 3600 / PI)) * (149597870691 / 1000)) with (PI * (95963 / 100 * (149597870691 / 1000) / (2725076 / 10000000 * (63781366 / 10000) * (10000036 / 10000000) * 648000))) by (field; lra).
    lra. }
  clearbody k. split; [exact K|]. unfold llr2xyz, on_line. rewrite cos_0, sin_0.
  assert (A : / 400 <= / (k - 1) <= / 399) by (split; apply Rinv_le_contravar; lra). assert (B : 0 < / (1 + k)) by (apply Rinv_0_lt_compat; lra).
  split; intros E; apply (f_equal (fun p => fst (fst p))) in E; cbn [fst] in E; nra.
Qed.

(** ** C124: the speed of a place on the turning Earth *)
(** Besselian coordinates of a place on the unit sphere at latitude w whose right ascension is a at time 0 and grows by a full turn in a day *)
Definition place_at (a w I0 s I2 t : R) : vec := cd2bse (a + 2 * PI * t, w, 1) (I0, s, I2).
Lemma place_eq a w I0 s I2 t : - (PI / 2) < w < PI / 2 -> let A := a + 2 * PI * t - I0 in
  place_at a w I0 s I2 t = (cos w * cos A, cos w * sin A * cos s + sin w * sin s, - (cos w * sin A * sin s) + sin w * cos s).
Proof.
  intros HW A. unfold place_at, cd2bse. rewrite llrConv_ok by exact HW. unfold llr2xyz, rot_x. fold A. rewrite cos_neg, sin_neg. f_equal; [f_equal|]; ring.
Qed.
Definition px3 (p : vec) : R := fst (fst p).
Definition py3 (p : vec) : R := snd (fst p).
Definition pz3 (p : vec) : R := snd p.
Lemma derive_lin a b c t : derivable_pt_lim (fun u => a + b * u - c) t b.
Proof. intros eps H. exists (mkposreal 1 Rlt_0_1). intros h Hh _. replace ((a + b * (t + h) - c - (a + b * t - c)) / h - b) with 0 by (field; exact Hh). rewrite Rabs_R0. exact H. Qed.
(** on the side of the Earth that faces the Moon the speed is the derivative of the position *)
Theorem speed_derivative a w I0 s I2 t vx vy : - (PI / 2) < w < PI / 2 -> 0 <= pz3 (place_at a w I0 s I2 t) ->
  let V := Vxy (px3 (place_at a w I0 s I2 t)) (py3 (place_at a w I0 s I2 t)) s vx vy in
  derivable_pt_lim (fun u => px3 (place_at a w I0 s I2 u)) t (v_x V) /\ derivable_pt_lim (fun u => py3 (place_at a w I0 s I2 u)) t (v_y V) /\
  w_x V = vx - v_x V /\ w_y V = vy - v_y V /\ 0 <= w_ V /\ w_ V * w_ V = w_x V * w_x V + w_y V * w_y V.
Proof.
  intros HW HZ V.
  assert (HL : sqrt (1 - px3 (place_at a w I0 s I2 t) * px3 (place_at a w I0 s I2 t) - py3 (place_at a w I0 s I2 t) * py3 (place_at a w I0 s I2 t)) = pz3 (place_at a w I0 s I2 t) /\ 0 <= 1 - px3 (place_at a w I0 s I2 t) * px3 (place_at a w I0 s I2 t) - py3 (place_at a w I0 s I2 t) * py3 (place_at a w I0 s I2 t)).
  { rewrite place_eq in * by exact HW. cbv zeta in *. unfold px3, py3, pz3 in *. cbn [fst snd] in *. set (A := a + 2 * PI * t - I0) in *.
    pose proof (sin2_cos2 A) as EA. pose proof (sin2_cos2 w) as Ew. pose proof (sin2_cos2 s) as Es. unfold Rsqr in *. set (z := - (cos w * sin A * sin s) + sin w * cos s) in *.
    assert (EZ : 1 - cos w * cos A * (cos w * cos A) - (cos w * sin A * cos s + sin w * sin s) * (cos w * sin A * cos s + sin w * sin s) = z * z).
    { unfold z. replace (cos w * cos A * (cos w * cos A)) with (cos w * cos w * (1 - sin A * sin A)) by (rewrite <- EA; ring).
      assert (G : (cos w * sin A * cos s + sin w * sin s) * (cos w * sin A * cos s + sin w * sin s) + (- (cos w * sin A * sin s) + sin w * cos s) * (- (cos w * sin A * sin s) + sin w * cos s) = (cos w * cos w * (sin A * sin A) + sin w * sin w) * (sin s * sin s + cos s * cos s)) by ring. rewrite Es in G. lra. }
    rewrite EZ. split; [now apply sqrt_square|nra]. }
  destruct HL as [HL HP].
  assert (VE : v_x V = 2 * PI * (sin s * pz3 (place_at a w I0 s I2 t) - cos s * py3 (place_at a w I0 s I2 t)) /\ v_y V = 2 * PI * px3 (place_at a w I0 s I2 t) * cos s).
  { unfold V, Vxy. destruct (Rlt_dec _ 0) as [C|C]; [lra|]. cbn [v_x v_y]. rewrite HL. split; reflexivity. }
  destruct VE as [VX VY]. rewrite VX, VY.
  split; [|split; [|split; [rewrite <- VX; reflexivity|split; [rewrite <- VY; reflexivity|split; [apply sqrt_pos|]]]]].
  - apply (derivable_pt_lim_ext (fun u => cos w * cos (a + 2 * PI * u - I0))). { intros u. rewrite place_eq by exact HW. reflexivity. }
    rewrite place_eq by exact HW. unfold px3, py3, pz3. cbv zeta. cbn [fst snd]. set (A := a + 2 * PI * t - I0).
    pose proof (sin2_cos2 s) as Es. unfold Rsqr in Es.
    replace (2 * PI * (sin s * (- (cos w * sin A * sin s) + sin w * cos s) - cos s * (cos w * sin A * cos s + sin w * sin s))) with (cos w * (- sin A * (2 * PI))).
    2: { replace (sin s * (- (cos w * sin A * sin s) + sin w * cos s) - cos s * (cos w * sin A * cos s + sin w * sin s)) with (- (cos w * sin A) * (sin s * sin s + cos s * cos s)) by ring. rewrite Es. ring. }
    apply derivable_pt_lim_scal. apply (derivable_pt_lim_comp (fun u => a + 2 * PI * u - I0) cos); [|apply derivable_pt_lim_cos].
    apply derive_lin.
  - apply (derivable_pt_lim_ext (fun u => cos w * cos s * sin (a + 2 * PI * u - I0) + sin w * sin s)). { intros u. rewrite place_eq by exact HW. unfold py3. cbv zeta. cbn [fst snd]. ring. }
    rewrite place_eq by exact HW. unfold px3. cbv zeta. cbn [fst]. set (A := a + 2 * PI * t - I0).
    replace (2 * PI * (cos w * cos A) * cos s) with (cos w * cos s * (cos A * (2 * PI)) + 0) by ring. apply derivable_pt_lim_plus; [|apply derivable_pt_lim_const].
    apply derivable_pt_lim_scal. apply (derivable_pt_lim_comp (fun u => a + 2 * PI * u - I0) sin); [|apply derivable_pt_lim_sin].
    apply derive_lin.
  - unfold V, Vxy. cbn [w_ w_x w_y]. apply sqrt_sqrt. apply Rplus_le_le_0_compat; apply Rle_0_sqr.
Qed.
(** beyond the limb the Earth's radius towards the Moon is taken as 0 *)
Theorem speed_outside x y s vx vy : 1 < x * x + y * y -> v_x (Vxy x y s vx vy) = - (2 * PI * cos s * y) /\ v_y (Vxy x y s vx vy) = 2 * PI * cos s * x.
Proof. intros H. unfold Vxy. destruct (Rlt_dec _ 0) as [C|C]; [|lra]. cbn [v_x v_y]. split; ring. Qed.
Example speed_ex : - (PI / 2) < 0 < PI / 2 /\ pz3 (place_at (- (PI / 2)) 0 0 (PI / 2) 0 0) = 1.
Proof.
  pose proof PI_RGT_0. split; [lra|]. rewrite place_eq by lra. unfold pz3. cbv zeta. cbn [snd]. replace (- (PI / 2) + 2 * PI * 0 - 0) with (- (PI / 2)) by ring. rewrite cos_0, sin_0, sin_neg, sin_PI2. ring.
Qed.

(** ** C125: from Besselian coordinates to the place *)
(** f = false: longitude and latitude are those of the direction from the Earth's centre; f = true: the ray from the centre through z meets the ellipsoid at
    the place whose normal has them *)
Lemma bse2db_turn x y z I0 I1 I2 : not_pole (x, y, z) -> let '(a, b, c) := llrConv (xyz2llr (x, y, z)) I1 in let J := rad2rrad (a + I0 - I2) in
  - PI < J <= PI /\ llr2xyz (J, b, c) = rot_z (I0 - I2) (rot_x I1 (x, y, z)) /\ 0 < c /\ - (PI / 2) <= b <= PI / 2.
Proof.
  intros NP. assert (NZ : (x, y, z) <> (0, 0, 0)) by (intros K; assert (x = 0) by congruence; assert (y = 0) by congruence; unfold not_pole in NP; nra).
  pose proof (C38_rectangular x y z NZ) as Q. pose proof (C38_ranges x y z) as G.
  destruct (xyz2llr (x, y, z)) as [[a b] c]. destruct G as (G1 & G2 & G3).
  assert (Hc : 0 < c). { rewrite G3. unfold norm. apply sqrt_lt_R0. unfold not_pole in NP. nra. }
  destruct (normal_of a b c G1 G2 Hc) as (_ & HB & _); [rewrite Q; exact NP|].
  pose proof (llrConv_ok a b c I1 HB) as E1. rewrite Q in E1. pose proof (llrConv_range a b c I1) as RG.
  destruct (llrConv (a, b, c) I1) as [[a' b'] c']. destruct RG as (_ & R2 & R3). cbv zeta.
  destruct (rad2rrad_ok (a' + I0 - I2)) as [RB [j RE]]. split; [exact RB|]. split; [|split; [now rewrite R3|exact R2]].
  rewrite <- E1, <- turn_long. unfold llr2xyz. rewrite RE. rewrite cos_Z, sin_Z. replace (a' + I0 - I2) with (a' + (I0 - I2)) by ring. reflexivity.
Qed.
Theorem place_direction x y z I0 I1 I2 ba : not_pole (x, y, z) ->
  let '(J, W, r) := bse2db (x, y, z) (I0, I1, I2) false ba in - PI < J <= PI /\ llr2xyz (J, W, r) = rot_z (I0 - I2) (rot_x I1 (x, y, z)).
Proof.
  intros NP. pose proof (bse2db_turn x y z I0 I1 I2 NP) as H. unfold bse2db. destruct (llrConv (xyz2llr (x, y, z)) I1) as [[a b] c]. cbv zeta in H. now split.
Qed.
Theorem place_ellipsoid x y z I0 I1 I2 ba : 0 < ba -> not_pole (x, y, z) -> not_pole (rot_x I1 (x, y, z)) ->
  let '(J, W, _) := bse2db (x, y, z) (I0, I1, I2) true ba in let '(u, v, w) := rot_z (I0 - I2) (rot_x I1 (x, y, z)) in
  - PI < J <= PI /\ - (PI / 2) < W < PI / 2 /\ exists q, 0 < q /\ on_ellipsoid ba 1 (q * u, q * v, q * w) /\ exists n, 0 < n /\ (q * u, q * v, q * w / (ba * ba)) = llr2xyz (J, W, n).
Proof.
  intros HB NP NP2. pose proof (bse2db_turn x y z I0 I1 I2 NP) as H. unfold bse2db. destruct (llrConv (xyz2llr (x, y, z)) I1) as [[a b] c]. cbv zeta in H.
  set (J := rad2rrad (a + I0 - I2)) in *. destruct H as (RJ & E & Hc & Hb).
  destruct (rot_z (I0 - I2) (rot_x I1 (x, y, z))) as [[u v] w] eqn:EV.
  assert (NP3 : 0 < u * u + v * v).
  { unfold not_pole in NP2. destruct (rot_x I1 (x, y, z)) as [[x' y'] z']. unfold rot_z in EV. injection EV as <- <- <-. pose proof (sin2_cos2 (I0 - I2)) as S2. unfold Rsqr in S2. match goal with |- 0 < ?g => replace g with ((x' * x' + y' * y') * (sin (I0 - I2) * sin (I0 - I2) + cos (I0 - I2) * cos (I0 - I2))) by ring end. rewrite S2. lra. }
  unfold llr2xyz in E. injection E as E1 E2 E3.
  assert (CB : 0 < cos b). { assert (0 <= cos b) by (apply cos_ge_0; lra). destruct (Req_dec (cos b) 0) as [Z|Z]; [|lra]. rewrite Z in E1, E2. nra. }
  split; [exact RJ|]. pose proof (atan_bound (tan b / (ba * ba))) as AB. split; [lra|].
  assert (B2 : 0 < ba * ba) by nra.
  set (m := u * u + v * v + w * w / (ba * ba)). assert (M : 0 < m). { unfold m. assert (0 <= w * w / (ba * ba)) by (apply Rle_mult_inv_pos; nra). lra. }
  exists (/ sqrt m). assert (SM : 0 < sqrt m) by (apply sqrt_lt_R0; exact M). assert (QP : 0 < / sqrt m) by (apply Rinv_0_lt_compat; exact SM). split; [exact QP|].
  assert (QQ : / sqrt m * / sqrt m * m = 1). { rewrite <- (sqrt_sqrt m) at 3 by lra. field. lra. }
  split.
  { unfold on_ellipsoid. set (q := / sqrt m) in *. replace (q * u * (q * u) + q * v * (q * v) + q * w * (q * w) / (ba * ba)) with (q * q * m) by (unfold m; field; lra). lra. }
  set (q := / sqrt m) in *. set (W := atan (tan b / (ba * ba))) in *. assert (CW : 0 < cos W) by (apply cos_gt_0; lra).
  assert (TW : sin W = cos W * (sin b / cos b / (ba * ba))). { assert (tan W = tan b / (ba * ba)) by (unfold W; apply tan_atan). unfold tan in *. apply Rmult_eq_reg_r with (/ cos W); [|apply Rinv_neq_0_compat; lra]. replace (sin W * / cos W) with (sin W / cos W) by reflexivity. rewrite H. field. lra. }
  exists (q * c * cos b / cos W). split; [apply Rdiv_lt_0_compat; [|exact CW]; apply Rmult_lt_0_compat; [apply Rmult_lt_0_compat; assumption|exact CB]|].
  unfold llr2xyz. rewrite TW, <- E1, <- E2, <- E3. f_equal; [f_equal|]; field; lra.
Qed.
(** the line through (x, y) at right angles to the fundamental plane *)
Theorem place_vertical x y I0 I1 I2 f ba : 0 < ba -> let e := if f : bool then ba else 1 in let p := rot_x I1 (x, y, 2) in let q := rot_x I1 (x, y, 0) in
  (bseXY2db x y (I0, I1, I2) f ba = (100, 100, 0) /\ (forall s, ~ on_ellipsoid e 1 (on_line p q s))) \/
  (exists u v w t J W, bseXY2db x y (I0, I1, I2) f ba = (J, W, 0) /\ (u, v, w) = on_line p q t /\ on_ellipsoid e 1 (u, v, w) /\ - PI < J <= PI /\ - (PI / 2) < W < PI / 2 /\
    (0 < u * u + v * v -> exists k, 0 < k /\ rot_z (I0 - I2) (u, v, w / (e * e)) = llr2xyz (J, W, k))).
Proof.
  intros HB e p q. assert (He : 0 < e) by (unfold e; destruct f; lra). assert (NE : (x, y, 2) <> (x, y, 0)) by (intros E; injection E; lra).
  pose proof (C62_lineEar2 x y 2 x y 0 e 1 I0 I1 I2 He NE) as H. unfold bseXY2db. fold e. cbv zeta in H. fold p q in H.
  destruct (lineEar2 x y 2 x y 0 e 1 (I0, I1, I2)) as [[[h J] W]|]; [right|left; now split].
  destruct H as ((t & E) & O & RJ & RW & N). exists (h_x h), (h_y h), (h_z h), t, J, W. split; [reflexivity|]. split; [exact E|]. split; [exact O|]. split; [exact RJ|]. split; [exact RW|exact N].
Qed.
Example place_ex : not_pole (1 / 2, 0, 1) /\ not_pole (rot_x 0 (1 / 2, 0, 1)).
Proof. unfold not_pole, rot_x. rewrite cos_0, sin_0. lra. Qed.
Print Assumptions apex_umbra. Print Assumptions apex_penumbra. Print Assumptions speed_derivative. Print Assumptions speed_outside. Print Assumptions place_direction. Print Assumptions place_ellipsoid. Print Assumptions place_vertical.
