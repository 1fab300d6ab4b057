(** C147: positions of the planets, the Sun and the Moon (xingX and its companions). *)
From Coq Require Import ZArith Reals Bool Lia Lra.
From Flocq Require Import Core.
From Verif Require Import GeoModel GeoSpec GeoProof GeoProps ObsModel ObsSpec ObsProps PiBound WaveR F64E MscModel MscProps XpModel.
Open Scope R_scope.

Definition scale (k : R) (p : point) : point := let '(x, y, z) := p in (k * x, k * y, k * z).
(** not on the axis *)
Definition off_axis (p : point) : Prop := let '(x, y, z) := p in (x, y) <> (0, 0).

Lemma lon_shift J W r c : llr2xyz (rad2mrad (J + c), W, r) = rot_z c (llr2xyz (J, W, r)).
Proof.
  destruct (rad2mrad_ok (J + c)) as [_ [k E]]. rewrite E. unfold llr2xyz, rot_z. rewrite cos_Z, sin_Z, cos_plus, sin_plus.
  f_equal. f_equal; ring.
Qed.
Lemma lon_mrad J W r : llr2xyz (rad2mrad J, W, r) = llr2xyz (J, W, r).
Proof. destruct (rad2mrad_ok J) as [_ [k E]]. rewrite E. unfold llr2xyz. now rewrite cos_Z, sin_Z. Qed.
Lemma llr_scale J W r k : llr2xyz (J, W, r * k) = scale k (llr2xyz (J, W, r)).
Proof. unfold llr2xyz, scale. f_equal; [f_equal|]; ring. Qed.
Lemma minus_zero p q : p <> q -> minus p q <> (0, 0, 0).
Proof.
  destruct p as [[a b] c], q as [[x y] z]. unfold minus. intros N E. apply N.
  assert (a - x = 0) by congruence. assert (b - y = 0) by congruence. assert (c - z = 0) by congruence. f_equal; [f_equal|]; lra.
Qed.
(** the change of centre *)
Lemma h2g_ok z a : let '(J, W, r) := h2g z a in
  0 <= J < 2 * PI /\ - (PI / 2) <= W <= PI / 2 /\ r = dist (llr2xyz z) (llr2xyz a) /\
  (llr2xyz z <> llr2xyz a -> llr2xyz (J, W, r) = minus (llr2xyz z) (llr2xyz a)) /\
  (off_axis (minus (llr2xyz z) (llr2xyz a)) -> llr2xyz (J, W, r) = minus (llr2xyz z) (llr2xyz a) /\ - (PI / 2) < W < PI / 2).
Proof.
  pose proof (C58_change_of_centre z a) as C. assert (G := C38_ranges). unfold dist. unfold h2g in *.
  destruct (llr2xyz a) as [[ax ay] az], (llr2xyz z) as [[zx zy] zz]. unfold minus in *. specialize (G (zx - ax) (zy - ay) (zz - az)).
  destruct (xyz2llr (zx - ax, zy - ay, zz - az)) as [[J W] r]. destruct G as (G1 & G2 & G3).
  split; [exact G1|]. split; [exact G2|]. split; [exact G3|]. split; [exact C|]. intros O.
  assert (E : llr2xyz (J, W, r) = (zx - ax, zy - ay, zz - az)).
  { apply C. intros Q. apply O. assert (zx = ax) by congruence. assert (zy = ay) by congruence. f_equal; lra. }
  split; [exact E|]. unfold llr2xyz in E. assert (Ex : r * cos W * cos J = zx - ax) by congruence. assert (Ey : r * cos W * sin J = zy - ay) by congruence.
  assert (N : cos W <> 0). { intros Q. apply O. rewrite <- Ex, <- Ey, Q. f_equal; ring. }
  split.
  - destruct (Rle_lt_or_eq_dec _ _ (proj1 G2)) as [|Q]; [assumption|]. exfalso. apply N. rewrite <- Q, cos_neg. apply cos_PI2.
  - destruct (Rle_lt_or_eq_dec _ _ (proj2 G2)) as [|Q]; [assumption|]. exfalso. apply N. rewrite Q. apply cos_PI2.
Qed.
Lemma hour_angle_same v : (let H := rad2mrad v in if Rlt_dec PI H then H - 2 * PI else H) = rad2rrad v.
Proof.
  cbv zeta. destruct (rad2mrad_ok v) as [R [k E]]. destruct (C31_rrad_exact v) as [R' [k' E']]. pose proof PI_RGT_0.
  assert (Q : forall a, - PI < a <= PI -> (exists j, a = v + 2 * PI * IZR j) -> a = rad2rrad v).
  { intros a Ra Ja. apply (C31_unique v); [exact Ja|exists k'; exact E'|]. apply Rabs_def1; lra. }
  destruct (Rlt_dec PI (rad2mrad v)).
  - apply Q; [lra|]. exists (k - 1)%Z. rewrite minus_IZR, E. ring.
  - apply Q; [lra|]. exists k. exact E.
Qed.
(** the rest of xingX is the same computation as in MSC::calc for a place at sea level *)
Lemma view_same E gst L fa hj hw r : let b := observe E gst L fa 0 (hj, hw, r) in
  llrConv (hj, hw, r) E = (CJ b, CW b, r) /\ station_view gst L fa (llrConv (hj, hw, r) E) = ((CJ2 b, CW2 b), (PJ b, PW b)).
Proof.
  cbv zeta. unfold observe, station_view. pose proof (C37_ranges hj hw r E) as G. destruct (llrConv (hj, hw, r) E) as [[cj cw] r1]. destruct G as (_ & _ & ->).
  pose proof (hour_angle_same (gst + L - cj)) as Q. cbv zeta in Q. rewrite Q.
  destruct (parallax (cj, cw, r) (rad2rrad (gst + L - cj)) fa 0) as [[cj2 cw2] r2].
  destruct (llrConv (cj2 + (PI / 2 - gst - L), cw2, r2) (PI / 2 - fa)) as [[a h] q]. cbn. split; reflexivity.
Qed.

(** equatorial coordinates [equ], coordinates [top] seen from a place at sea level with latitude fa under the local sidereal time
    th, azimuth and altitude [hor] with refraction, of a body in the ecliptic position d (in units of [unit] kilometres) *)
Definition seen_at (E th fa unit : R) (d : point) (equ top hor : R * R) : Prop :=
  (exists r, r = norm d /\ llr2xyz (fst equ, snd equ, r) = rot_x E d) /\ 0 <= fst equ < 2 * PI /\ - (PI / 2) <= snd equ <= PI / 2 /\
  exists px pz, station cs_ba cs_rEar fa 0 px pz /\
    let w := minus (rot_x E (scale unit d)) (rot_z th (px, 0, pz)) in
    (off_axis w -> llr2xyz (fst top, snd top, norm w) = w /\ 0 <= fst top < 2 * PI /\
      exists h, - (PI / 2) <= h <= PI / 2 /\ norm w * sin h = dot w (up fa th) /\
        0 <= fst hor < 2 * PI /\ norm w * (cos h * sin (fst hor)) = dot w (west th) /\ norm w * (cos h * cos (fst hor)) = dot w (south fa th) /\
        snd hor = if Rlt_dec 0 h then h + MQC h else h).

Lemma norm_llr J W r : 0 <= r -> norm (llr2xyz (J, W, r)) = r.
Proof.
  intros H. unfold norm, llr2xyz. replace (_ + _ + _) with (r * r); [now apply sqrt_square|].
  transitivity (r * r * (cos W * cos W * (cos J * cos J + sin J * sin J) + sin W * sin W)); [rewrite (cs J), (cs W); ring|ring].
Qed.
Lemma view_ok E gst L fa hj hw r cj cw r1 top hor : - (PI / 2) < fa < PI / 2 -> - (PI / 2) < hw < PI / 2 -> 0 <= r ->
  llrConv (hj, hw, r) E = (cj, cw, r1) -> station_view gst L fa (cj, cw, r1) = (top, hor) ->
  seen_at E (gst + L) fa (if Rlt_dec r 500 then cs_AU else 1) (llr2xyz (hj, hw, r)) (cj, cw) top hor.
Proof.
  intros Hf Hw Hr E1 E2. pose proof (view_same E gst L fa hj hw r) as V. cbv zeta in V. destruct V as [V1 V2]. rewrite E1 in V1, V2. rewrite E2 in V2.
  destruct (C140_place E gst L fa 0 hj hw r Hf Hw) as (px & pz & ST & P). cbv zeta in P. set (b := observe E gst L fa 0 (hj, hw, r)) in *. clearbody b.
  destruct P as (P1 & P2 & P3 & P4 & _ & _ & P5). injection V1 as -> -> ->. injection V2 as -> ->.
  assert (Rb : R0 b = r) by congruence. set (unit := if Rlt_dec r 500 then cs_AU else 1) in *.
  unfold seen_at. cbn [fst snd]. split; [|split; [exact P3|split; [exact P4|]]].
  - exists r. split; [now rewrite norm_llr|]. pose proof (C37_rotation hj hw r E Hw) as C. now rewrite E1 in C.
  - exists px, pz. split; [exact ST|]. cbv zeta. rewrite <- llr_scale. intros O.
    set (w := minus (rot_x E (llr2xyz (hj, hw, r * unit))) (rot_z (gst + L) (px, 0, pz))) in *.
    destruct P5 as (Q1 & Q2 & Q3 & Q4 & Q5 & Q6 & Q7 & Q8 & Q9 & Q10).
    { destruct w as [[x y] z]. exact O. }
    rewrite Q3 in Q1. split; [exact Q1|]. split; [exact Q2|]. exists (DW b). cbn [fst snd]. rewrite Q9. repeat split; try assumption; try apply Q4; try apply Q5.
Qed.

(** ** xingX *)
Section Xp.
Variable pc : Z -> Z -> R -> vec.
Variable mc : Z -> Z -> Z -> R -> vec.
Variable ec : R -> vec.
Variables hcjj pGST2 : R -> R.
Variable nutation2 : R -> R * R.

(** heliocentric position of body xt with n terms at the time t *)
Definition hel (xt n : Z) (t : R) : point := llr2xyz (pc xt n t).
(** seen from the Earth, both at the time t *)
Definition geo (xt n : Z) (t : R) : point := minus (hel xt n t) (hel 0 n t).

(** A planet or the Sun: with the light time tau for the distance of the moment, the answered place is where the body stood
    relative to the Earth at the moment less tau, turned by the nutation. *)
Theorem C147_planet xt jd L fa : (0 <= xt < 10)%Z -> - (PI / 2) < fa < PI / 2 ->
  let T := jd / 36525 in let dL := fst (nutation2 T) in let E := hcjj T + snd (nutation2 T) in let gst := pGST2 jd + dL * cos E in
  let tau := dist (hel xt (-1) T) (hel 0 (-1) T) * cs_Agx in let d := geo xt (-1) (T - tau) in
  off_axis d -> exists p, xingX pc mc ec hcjj pGST2 nutation2 xt jd L fa = Some p /\
    (exists v, x_hel p = Some v /\ llr2xyz v = hel xt (-1) T /\ 0 <= fst (fst v) < 2 * PI) /\
    x_ra p = dist (hel xt (-1) T) (hel 0 (-1) T) /\ x_rb p = dist (hel xt (-1) (T - tau)) (hel 0 (-1) T) /\ x_rc p = norm d /\
    llr2xyz (fst (x_ecl p), snd (x_ecl p), x_rc p) = rot_z dL d /\ 0 <= fst (x_ecl p) < 2 * PI /\ - (PI / 2) < snd (x_ecl p) < PI / 2 /\
    seen_at E (gst + L) fa (if Rlt_dec (norm d) 500 then cs_AU else 1) (rot_z dL d) (x_equ p) (x_top p) (x_hor p) /\
    x_gstp p = rad2mrad (pGST2 jd) /\ x_gst p = rad2mrad gst.
Proof.
  intros Hx Hf T dL E gst tau d O. unfold xingX. fold T. destruct (nutation2 T) as [dL' dE'] eqn:EN. cbn [fst snd] in *.
  destruct (Z.eqb_spec xt 10); [lia|]. replace ((xt <? 10)%Z && (0 <=? xt)%Z)%bool with true by (symmetry; apply andb_true_intro; split; [apply Z.ltb_lt|apply Z.leb_le]; lia).
  destruct (pc xt (-1) T) as [[h0 h1] h2] eqn:EH.
  assert (EV : llr2xyz (rad2mrad h0, h1, h2) = hel xt (-1) T) by (unfold hel; now rewrite EH, lon_mrad).
  pose proof (h2g_ok (rad2mrad h0, h1, h2) (pc 0 (-1) T)) as G1. destruct (h2g (rad2mrad h0, h1, h2) (pc 0 (-1) T)) as [[j1 w1] ra].
  destruct G1 as (_ & _ & Ra & _). rewrite EV in Ra. fold (hel 0 (-1) T) in Ra.
  replace (T - ra * cs_Agx) with (T - tau) by (unfold tau; now rewrite Ra).
  pose proof (h2g_ok (pc xt (-1) (T - tau)) (pc 0 (-1) T)) as G2. destruct (h2g (pc xt (-1) (T - tau)) (pc 0 (-1) T)) as [[j2 w2] rb]. destruct G2 as (_ & _ & Rb & _).
  pose proof (h2g_ok (pc xt (-1) (T - tau)) (pc 0 (-1) (T - tau))) as G3. destruct (h2g (pc xt (-1) (T - tau)) (pc 0 (-1) (T - tau))) as [[z0 z1] rc].
  destruct G3 as (_ & _ & Rc & _ & G3). destruct (G3 O) as [G4 G5]. fold (hel xt (-1) (T - tau)) in *. fold (hel 0 (-1) (T - tau)) in *. fold (hel 0 (-1) T) in Rb.
  change (minus (hel xt (-1) (T - tau)) (hel 0 (-1) (T - tau))) with d in G4. change (dist (hel xt (-1) (T - tau)) (hel 0 (-1) (T - tau))) with (norm d) in Rc.
  destruct (llrConv (rad2mrad (z0 + dL'), z1, rc) (hcjj T + dE')) as [[cj cw] r] eqn:EC.
  destruct (station_view (pGST2 jd + dL' * cos (hcjj T + dE')) L fa (cj, cw, r)) as [top hor] eqn:ES.
  assert (N0 : 0 <= rc) by (rewrite Rc; unfold norm; destruct d as [[? ?] ?]; apply sqrt_pos).
  pose proof (view_ok _ _ _ _ _ _ _ _ _ _ _ _ Hf G5 N0 EC ES) as V. rewrite lon_shift, G4, Rc in V.
  eexists. split; [reflexivity|]. cbn [x_hel x_ra x_rb x_rc x_ecl x_equ x_top x_hor x_gstp x_gst fst snd].
  split; [exists (rad2mrad h0, h1, h2); split; [reflexivity|split; [exact EV|cbn [fst]; apply rad2mrad_ok]]|].
  split; [exact Ra|]. split; [exact Rb|]. split; [exact Rc|]. split; [now rewrite lon_shift, G4|]. split; [apply rad2mrad_ok|]. split; [exact G5|].
  split; [exact V|]. split; reflexivity.
Qed.

(** The Moon: mc is seen from the Earth and in kilometres. *)
Theorem C147_moon jd L fa : - (PI / 2) < fa < PI / 2 ->
  let T := jd / 36525 in let dL := fst (nutation2 T) in let E := hcjj T + snd (nutation2 T) in let gst := pGST2 jd + dL * cos E in
  let tau := snd (mc 1 1 (-1) T) * (cs_Agx / cs_AU) in let '(m0, m1, rc) := mc (-1) (-1) (-1) (T - tau) in let d := llr2xyz (m0, m1, rc) in
  - (PI / 2) < m1 < PI / 2 -> 0 <= rc -> llr2xyz (ec T) <> llr2xyz (ec (T - tau)) ->
  exists p, xingX pc mc ec hcjj pGST2 nutation2 10 jd L fa = Some p /\ x_hel p = None /\ x_ra p = snd (mc 1 1 (-1) T) /\ x_rc p = rc /\
    x_rb p = dist d (scale cs_AU (minus (llr2xyz (ec T)) (llr2xyz (ec (T - tau))))) /\
    llr2xyz (fst (x_ecl p), snd (x_ecl p), x_rc p) = rot_z dL d /\ 0 <= fst (x_ecl p) < 2 * PI /\ snd (x_ecl p) = m1 /\
    seen_at E (gst + L) fa (if Rlt_dec rc 500 then cs_AU else 1) (rot_z dL d) (x_equ p) (x_top p) (x_hor p) /\
    x_gstp p = rad2mrad (pGST2 jd) /\ x_gst p = rad2mrad gst.
Proof.
  intros Hf T dL E gst tau. destruct (mc (-1) (-1) (-1) (T - tau)) as [[m0 m1] rc] eqn:EM. intros d Hm Hr NE. unfold xingX. fold T.
  destruct (nutation2 T) as [dL' dE'] eqn:EN. cbn [fst snd] in *. change ((10 =? 10)%Z) with true. cbv iota.
  destruct (mc 1 1 (-1) T) as [[q0 q1] ra] eqn:EQ. cbn [snd] in tau.
  replace (T - ra * cs_Agx / cs_AU) with (T - tau) by (unfold tau, Rdiv; ring). rewrite EM.
  pose proof (h2g_ok (ec T) (ec (T - tau))) as G1. destruct (h2g (ec T) (ec (T - tau))) as [[b0 b1] b2]. destruct G1 as (_ & _ & _ & G1 & _). specialize (G1 NE).
  pose proof (h2g_ok (m0, m1, rc) (b0, b1, b2 * cs_AU)) as G2. destruct (h2g (m0, m1, rc) (b0, b1, b2 * cs_AU)) as [[c0 c1] rb]. destruct G2 as (_ & _ & Rb & _).
  rewrite llr_scale, G1 in Rb.
  destruct (llrConv (rad2mrad (m0 + dL'), m1, rc) (hcjj T + dE')) as [[cj cw] r] eqn:EC.
  destruct (station_view (pGST2 jd + dL' * cos (hcjj T + dE')) L fa (cj, cw, r)) as [top hor] eqn:ES.
  pose proof (view_ok _ _ _ _ _ _ _ _ _ _ _ _ Hf Hm Hr EC ES) as V. rewrite lon_shift in V.
  eexists. split; [reflexivity|]. cbn [x_hel x_ra x_rb x_rc x_ecl x_equ x_top x_hor x_gstp x_gst fst snd].
  split; [reflexivity|]. split; [reflexivity|]. split; [reflexivity|]. split; [exact Rb|]. split; [apply lon_shift|]. split; [apply rad2mrad_ok|]. split; [reflexivity|].
  split; [exact V|]. split; reflexivity.
Qed.

(** no value for other bodies; for the Earth itself the direction is that of the zero vector *)
Theorem C147_other xt jd L fa : (xt < 0 \/ 10 < xt)%Z -> xingX pc mc ec hcjj pGST2 nutation2 xt jd L fa = None.
Proof.
  intros H. unfold xingX. destruct (nutation2 (jd / 36525)) as [dL dE]. destruct (Z.eqb_spec xt 10); [lia|].
  replace ((xt <? 10)%Z && (0 <=? xt)%Z)%bool with false; [reflexivity|]. symmetry. apply andb_false_iff. rewrite Z.ltb_ge, Z.leb_gt. lia.
Qed.
Theorem C147_earth_refuted : exists xt, (0 <= xt < 10)%Z /\ forall t, norm (geo xt (-1) t) = 0 /\ ~ off_axis (geo xt (-1) t).
Proof.
  exists 0%Z. split; [lia|]. intros t. assert (E : geo 0 (-1) t = (0, 0, 0)). { unfold geo. destruct (hel 0 (-1) t) as [[x y] z]. unfold minus. f_equal; [f_equal|]; ring. }
  rewrite E. split; [|unfold off_axis; tauto]. unfold norm. replace (_ + _ + _) with 0 by ring. apply sqrt_0.
Qed.

(** ** Elongation *)
(** v and w are not within a milliradian of each other *)
Definition apart (v w : point) : Prop := dot v w <= (1 - 1 / 1000000) * (norm v * norm w).
Lemma one_cos x : 1 - x * x / 2 <= cos x.
Proof.
  replace (cos x) with (cos (2 * (x / 2))) by (f_equal; field). rewrite cos_2a_sin. assert (sin (x / 2) * sin (x / 2) <= x / 2 * (x / 2)); [|lra].
  apply (Rsqr_le_abs_1 (sin (x / 2)) (x / 2)). pose proof (sin_lip (x / 2) 0) as Q. now rewrite sin_0, !Rminus_0_r in Q.
Qed.
Lemma norm_pos p : 0 <= norm p.
Proof. destruct p as [[x y] z]. apply sqrt_pos. Qed.
Lemma scale_dot a b p q : dot (scale a p) (scale b q) = a * b * dot p q.
Proof. destruct p as [[x y] z], q as [[u v] w]. unfold scale, dot. ring. Qed.
Lemma elongation_ok z0 z1 z2 a0 a1 a2 : let v := llr2xyz (z0, z1, z2) in let e := llr2xyz (a0, a1, a2) in 0 < z2 -> 0 < a2 -> apart v (scale (-1) e) ->
  let q := j1_j2 z0 z1 (a0 + PI) (- a1) in 0 <= q <= PI /\ norm v * norm e * cos q = - dot v e.
Proof.
  intros v e Hz Ha A q.
  assert (EV : v = scale z2 (llr2xyz (z0, z1, 1))) by (unfold v; rewrite <- llr_scale; now rewrite Rmult_1_l).
  assert (EE : scale (-1) e = scale a2 (llr2xyz (a0 + PI, - a1, 1))).
  { unfold e. rewrite <- llr_scale. unfold scale, llr2xyz. rewrite neg_cos, neg_sin, cos_neg, sin_neg, !Rmult_1_l. f_equal; [f_equal|]; ring. }
  assert (NV : norm v = z2) by (apply norm_llr; lra). assert (NE : norm e = a2) by (apply norm_llr; lra).
  assert (NE' : norm (scale (-1) e) = a2) by (rewrite EE, <- llr_scale, Rmult_1_l; apply norm_llr; lra).
  assert (DE : dot v (scale (-1) e) = - dot v e). { destruct v as [[x y] z], e as [[x' y'] z']. unfold scale, dot. ring. }
  assert (DU : dot v (scale (-1) e) = z2 * a2 * dot (llr2xyz (z0, z1, 1)) (llr2xyz (a0 + PI, - a1, 1))) by (rewrite EV, EE; apply scale_dot).
  unfold apart in A. rewrite NV, NE' in A.
  assert (FAR : 1 / 1000 <= Rabs (rad2rrad (z0 - (a0 + PI))) \/ 1 / 1000 <= Rabs (z1 - - a1)).
  { destruct (Rle_dec (1 / 1000) (Rabs (rad2rrad (z0 - (a0 + PI))))) as [|N1]; [now left|]. destruct (Rle_dec (1 / 1000) (Rabs (z1 - - a1))) as [|N2]; [now right|].
    exfalso. apply Rnot_le_lt in N1, N2. set (dJ := rad2rrad (z0 - (a0 + PI))) in *. set (dW := z1 - - a1) in *.
    assert (U : dot (llr2xyz (z0, z1, 1)) (llr2xyz (a0 + PI, - a1, 1)) = cos dW - cos z1 * cos (- a1) * (1 - cos dJ)).
    { unfold dJ. rewrite cos_rrad. unfold dW, dot, llr2xyz. rewrite (cos_minus z0), (cos_minus z1). ring. }
    pose proof (one_cos dJ) as C1. pose proof (one_cos dW) as C2. pose proof (COS_bound dJ) as B.
    assert (S1 : dJ * dJ < 1 / 1000000). { apply Rabs_def2 in N1. nra. }
    assert (S2 : dW * dW < 1 / 1000000). { apply Rabs_def2 in N2. nra. }
    assert (P : cos z1 * cos (- a1) * (1 - cos dJ) <= 1 - cos dJ).
    { rewrite <- (Rmult_1_l (1 - cos dJ)) at 2. apply Rmult_le_compat_r; [lra|]. pose proof (COS_bound z1). pose proof (COS_bound (- a1)). nra. }
    assert (K : 0 < z2 * a2) by (now apply Rmult_lt_0_compat). rewrite DU, U in A.
    assert (z2 * a2 * (cos dW - cos z1 * cos (- a1) * (1 - cos dJ)) > z2 * a2 * (1 - 1 / 1000000)); [|lra].
    apply Rmult_gt_compat_l; lra. }
  destruct (C60_angle z0 z1 (a0 + PI) (- a1) FAR) as [Q1 Q2]. split; [exact Q1|]. unfold q. rewrite Q2, NV, NE, <- DE. symmetry. exact DU.
Qed.

Lemma norm_gt p : p <> (0, 0, 0) -> 0 < norm p.
Proof.
  intros N. destruct (Rle_lt_or_eq_dec _ _ (norm_pos p)) as [|Z]; [assumption|]. exfalso. apply N. destruct p as [[x y] z]. unfold norm in Z. symmetry in Z. apply sqrt_eq_0 in Z; [|apply sq3].
  pose proof (Rle_0_sqr x). pose proof (Rle_0_sqr y). pose proof (Rle_0_sqr z). unfold Rsqr in *.
  assert (x * x = 0) by lra. assert (y * y = 0) by lra. assert (z * z = 0) by lra. f_equal; [f_equal|]; now apply Rsqr_0_uniq.
Qed.
Lemma minus_self p : minus p p = (0, 0, 0).
Proof. destruct p as [[x y] z]. unfold minus. f_equal; [f_equal|]; ring. Qed.
Lemma elongation_gen z a : let e := llr2xyz a in let v := minus (llr2xyz z) e in 0 < snd a -> v <> (0, 0, 0) -> apart v (scale (-1) e) ->
  let q := let '(a0, a1, _) := a in let '(z0, z1, _) := h2g z a in j1_j2 z0 z1 (a0 + PI) (- a1) in
  0 <= q <= PI /\ norm v * norm e * cos q = - dot v e.
Proof.
  intros e v Ha Nv A. destruct a as [[a0 a1] a2]. cbn [snd] in Ha. pose proof (h2g_ok z (a0, a1, a2)) as G.
  destruct (h2g z (a0, a1, a2)) as [[z0 z1] z2]. destruct G as (_ & _ & R2 & G & _). fold e in G, R2. fold v in G.
  assert (P : 0 < z2) by (rewrite R2; now apply norm_gt).
  rewrite <- G in A |- * by (intros Q; apply Nv; unfold v; rewrite Q; apply minus_self). exact (elongation_ok z0 z1 z2 a0 a1 a2 P Ha A).
Qed.

(** Low and medium precision: the angle at the Earth between the planet and the Sun at the moment. *)
Theorem C147_elongation xt t jing n : (jing <= 0)%Z /\ n = 10%Z \/ jing = 1%Z /\ n = 60%Z ->
  let e := hel 0 n t in let v := geo xt n t in 0 < snd (pc 0 n t) -> v <> (0, 0, 0) -> apart v (scale (-1) e) ->
  let q := xingJJ pc xt t jing in 0 <= q <= PI /\ norm v * norm e * cos q = - dot v e.
Proof.
  intros C e v Ha Nv A q. pose proof (elongation_gen (pc xt n t) (pc 0 n t) Ha Nv A) as Q. cbv zeta in Q.
  replace q with (let '(a0, a1, _) := pc 0 n t in let '(z0, z1, _) := h2g (pc xt n t) (pc 0 n t) in j1_j2 z0 z1 (a0 + PI) (- a1)); [exact Q|].
  unfold q, xingJJ. destruct C as [[C ->]|[-> ->]].
  - destruct (Z.eqb_spec jing 1); [lia|]. destruct (Z.leb_spec 2 jing); [lia|]. reflexivity.
  - reflexivity.
Qed.
(** High precision: the planet at the moment less its light time, but the Earth at the moment less the light time of the Sun. *)
Theorem C147_elongation_high xt t jing : (2 <= jing)%Z ->
  let ts := snd (pc 0 10 t) * cs_Agx in let tp := dist (hel xt 10 t) (hel 0 10 t) * cs_Agx in
  let e := hel 0 (-1) (t - ts) in let v := minus (hel xt (-1) (t - tp)) e in 0 < snd (pc 0 (-1) (t - ts)) -> v <> (0, 0, 0) -> apart v (scale (-1) e) ->
  let q := xingJJ pc xt t jing in 0 <= q <= PI /\ norm v * norm e * cos q = - dot v e.
Proof.
  intros C ts tp e v Ha Nv A q. pose proof (elongation_gen (pc xt (-1) (t - tp)) (pc 0 (-1) (t - ts)) Ha Nv A) as Q. cbv zeta in Q.
  match type of Q with _ /\ _ * cos ?x = _ => replace q with x; [exact Q|] end.
  unfold q, xingJJ. destruct (Z.eqb_spec jing 1); [lia|]. destruct (Z.leb_spec 2 jing); [|lia].
  pose proof (h2g_ok (pc xt 10 t) (pc 0 10 t)) as G. destruct (h2g (pc xt 10 t) (pc 0 10 t)) as [[z0 z1] z2]. destruct G as (_ & _ & R2 & _). cbn [snd].
  rewrite R2. fold (hel xt 10 t) (hel 0 10 t). fold tp ts. reflexivity.
Qed.

(** ** Stations: right ascension and declination of the planet relative to the Earth *)
Theorem C147_station_coordinates xt t n g : let dL := fst (nutation2 t) in let dE := snd (nutation2 t) in let d := geo xt n (t - g) in off_axis d ->
  let p := xingLiu0 pc hcjj nutation2 xt t n g in
  0 <= fst (fst p) < 2 * PI /\ - (PI / 2) <= snd (fst p) <= PI / 2 /\ snd p = norm d /\
  llr2xyz p = if Req_EM_T g 0 then rot_x (hcjj t) d else rot_x (hcjj t + dE) (rot_z dL d).
Proof.
  intros dL dE d O p. unfold p, xingLiu0. pose proof (h2g_ok (pc xt n (t - g)) (pc 0 n (t - g))) as G. destruct (h2g (pc xt n (t - g)) (pc 0 n (t - g))) as [[z0 z1] z2].
  destruct G as (_ & _ & R2 & _ & G). destruct (G O) as [G1 G2]. fold (hel xt n (t - g)) (hel 0 n (t - g)) in G1, R2. fold (geo xt n (t - g)) in G1. fold d in G1.
  assert (K : forall c E, let q := llrConv (z0 + c, z1, z2) E in 0 <= fst (fst q) < 2 * PI /\ - (PI / 2) <= snd (fst q) <= PI / 2 /\ snd q = norm d /\ llr2xyz q = rot_x E (rot_z c d)).
  { intros c E q. pose proof (C37_ranges (z0 + c) z1 z2 E) as Rg. pose proof (C37_rotation (z0 + c) z1 z2 E G2) as Ro. unfold q. rewrite Ro.
    destruct (llrConv (z0 + c, z1, z2) E) as [[u v] w]. destruct Rg as (R3 & R4 & ->). cbn [fst snd]. split; [exact R3|]. split; [exact R4|]. split; [exact R2|].
    rewrite <- G1, <- lon_shift. now rewrite lon_mrad. }
  destruct (Req_EM_T g 0).
  - specialize (K 0 (hcjj t)). rewrite Rplus_0_r in K. cbv zeta in K. replace (rot_z 0 d) with d in K; [exact K|].
    destruct d as [[x y] z]. unfold rot_z. rewrite cos_0, sin_0. f_equal. f_equal; ring.
  - unfold dL, dE. destruct (nutation2 t) as [a b]. exact (K a (hcjj t + b)).
Qed.

(** ** Conjunctions *)
(** a is the angle by which q has to be turned about the axis to stand over p *)
Definition turn (p q : point) (a : R) : Prop := let '(x, y, _) := p in let '(u, v, _) := q in
  let k := sqrt (x * x + y * y) * sqrt (u * u + v * v) in k * cos a = x * u + y * v /\ k * sin a = y * u - x * v.
(** W is the angle between p and the plane of the equator *)
Definition elevation (p : point) (W : R) : Prop := - (PI / 2) <= W <= PI / 2 /\ norm p * sin W = snd p.
Lemma cos_ge W : - (PI / 2) <= W <= PI / 2 -> 0 <= cos W.
Proof. intros H. apply cos_ge_0; lra. Qed.
Lemma turn_ok J1 W1 r1 J2 W2 r2 : - (PI / 2) <= W1 <= PI / 2 -> - (PI / 2) <= W2 <= PI / 2 -> 0 <= r1 -> 0 <= r2 ->
  turn (llr2xyz (J1, W1, r1)) (llr2xyz (J2, W2, r2)) (J1 - J2).
Proof.
  intros H1 H2 P1 P2. unfold turn, llr2xyz.
  assert (S : forall J W r, - (PI / 2) <= W <= PI / 2 -> 0 <= r -> sqrt (r * cos W * cos J * (r * cos W * cos J) + r * cos W * sin J * (r * cos W * sin J)) = r * cos W).
  { intros J W r HW Hr. replace (_ + _) with (r * cos W * (r * cos W)); [apply sqrt_square, Rmult_le_pos; [exact Hr|now apply cos_ge]|].
    transitivity (r * cos W * (r * cos W) * (cos J * cos J + sin J * sin J)); [rewrite (cs J); ring|ring]. }
  rewrite !S by assumption. rewrite cos_minus, sin_minus. split; ring.
Qed.
Lemma turn_mod p q a b : (exists k, b = a + 2 * PI * IZR k) -> turn p q a -> turn p q b.
Proof. intros [k ->]. destruct p as [[x y] z], q as [[u v] w]. unfold turn. now rewrite cos_Z, sin_Z. Qed.
Lemma elevation_ok J W r : - (PI / 2) <= W <= PI / 2 -> 0 <= r -> elevation (llr2xyz (J, W, r)) W.
Proof. intros H P. split; [exact H|]. rewrite norm_llr by exact P. reflexivity. Qed.

(** Planet and Sun: difference in ecliptic longitude less w0, difference in latitude, light times. *)
Theorem C147_sun_difference xt t n w0 ts tp : let '(s0, s1, s2) := pc 0 n (t - ts) in - (PI / 2) <= s1 <= PI / 2 -> 0 <= s2 ->
  let d := geo xt n (t - tp) in let s := scale (-1) (hel 0 n (t - ts)) in off_axis d ->
  let '(a, b, es, ep) := xingSP pc xt t n w0 ts tp in
  - PI < a <= PI /\ turn d s (a + w0) /\ (exists W W', elevation d W /\ elevation s W' /\ b = W - W') /\ es = norm s * cs_Agx /\ ep = norm d * cs_Agx.
Proof.
  destruct (pc 0 n (t - ts)) as [[s0 s1] s2] eqn:EP. intros H1 H2 d s O. unfold xingSP. rewrite EP.
  pose proof (h2g_ok (pc xt n (t - tp)) (pc 0 n (t - tp))) as G. destruct (h2g (pc xt n (t - tp)) (pc 0 n (t - tp))) as [[z0 z1] z2].
  destruct G as (_ & G0 & R2 & _ & G). destruct (G O) as [G1 _]. fold (hel xt n (t - tp)) (hel 0 n (t - tp)) in G1, R2. fold (geo xt n (t - tp)) in G1. fold d in G1.
  change (z2 = norm d) in R2. assert (P2 : 0 <= z2) by (rewrite R2; apply norm_pos).
  assert (ES : s = llr2xyz (s0 + PI, - s1, s2)).
  { unfold s, hel. rewrite EP. unfold scale, llr2xyz. rewrite neg_cos, neg_sin, cos_neg, sin_neg. f_equal; [f_equal|]; ring. }
  destruct (C31_rrad_exact (z0 - (s0 + PI) - w0)) as [Rg [k Ek]]. split; [exact Rg|]. split; [|split; [|split]].
  - apply (turn_mod _ _ (z0 - (s0 + PI))); [exists k; rewrite Ek; ring|]. rewrite <- G1, ES. apply turn_ok; auto; lra.
  - exists z1, (- s1). rewrite <- G1, ES. split; [now apply elevation_ok|]. split; [apply elevation_ok; [lra|exact H2]|reflexivity].
  - rewrite ES, norm_llr by exact H2. reflexivity.
  - now rewrite R2.
Qed.

(** Moon and planet: difference in right ascension and in declination, light times. *)
Theorem C147_moon_difference xt t n E g0 g1 g2 g3 : let '(m0, m1, m2) := mc n n n (t - g0) in - (PI / 2) < m1 < PI / 2 -> 0 <= m2 ->
  let d := geo xt n (t - g1) in off_axis d ->
  let u := rot_x (E + g3) (rot_z g2 (llr2xyz (m0, m1, m2))) in let v := rot_x (E + g3) (rot_z g2 d) in
  let '(a, b, em, ep) := xingMP pc mc xt t n E g0 g1 g2 g3 in
  - PI < a <= PI /\ turn u v a /\ (exists W W', elevation u W /\ elevation v W' /\ b = W - W') /\
  em = norm u / cs_AU * cs_Agx /\ ep = norm v * cs_Agx.
Proof.
  destruct (mc n n n (t - g0)) as [[m0 m1] m2] eqn:EM. intros H1 H2 d O u v. unfold xingMP. rewrite EM.
  pose proof (h2g_ok (pc xt n (t - g1)) (pc 0 n (t - g1))) as G. destruct (h2g (pc xt n (t - g1)) (pc 0 n (t - g1))) as [[z0 z1] z2].
  destruct G as (_ & _ & R2 & _ & G). destruct (G O) as [G1 G2]. fold (hel xt n (t - g1)) (hel 0 n (t - g1)) in G1, R2. fold (geo xt n (t - g1)) in G1. fold d in G1.
  change (z2 = norm d) in R2. assert (P2 : 0 <= z2) by (rewrite R2; apply norm_pos).
  pose proof (C37_ranges (m0 + g2) m1 m2 (E + g3)) as RM. pose proof (C37_rotation (m0 + g2) m1 m2 (E + g3) H1) as TM.
  pose proof (C37_ranges (z0 + g2) z1 z2 (E + g3)) as RP. pose proof (C37_rotation (z0 + g2) z1 z2 (E + g3) G2) as TP.
  destruct (llrConv (m0 + g2, m1, m2) (E + g3)) as [[a0 a1] a2]. destruct (llrConv (z0 + g2, z1, z2) (E + g3)) as [[p0 p1] p2].
  destruct RM as (_ & M1 & ->). destruct RP as (_ & Q1 & ->).
  assert (EU : u = llr2xyz (a0, a1, m2)) by (rewrite TM, <- lon_mrad, lon_shift; reflexivity).
  assert (EV : v = llr2xyz (p0, p1, z2)) by (rewrite TP, <- lon_mrad, lon_shift, G1; reflexivity).
  destruct (C31_rrad_exact (a0 - p0)) as [Rg [k Ek]]. split; [exact Rg|]. split; [|split; [|split]].
  - apply (turn_mod _ _ (a0 - p0)); [exists k; exact Ek|]. rewrite EU, EV. apply turn_ok; auto.
  - exists a1, p1. rewrite EU, EV. split; [now apply elevation_ok|]. split; [now apply elevation_ok|reflexivity].
  - rewrite EU, norm_llr by exact H2. unfold cs_Agx, cs_AU, cs_GS. field; lra.
  - rewrite EV, norm_llr by exact P2. unfold cs_Agx, cs_AU, cs_GS. field; lra.
Qed.
End Xp.

(** ** How good the light time and the aberration of xingX are *)
Lemma cauchy3 a b c x y z : a * x + b * y + c * z <= sqrt (a * a + b * b + c * c) * sqrt (x * x + y * y + z * z).
Proof.
  rewrite <- sqrt_mult by apply sq3. apply Rle_trans with (1 := Rle_abs _). rewrite <- sqrt_Rsqr_abs. apply sqrt_le_1_alt. unfold Rsqr.
  pose proof (sq3 (a * y - b * x) (a * z - c * x) (b * z - c * y)). lra.
Qed.
Lemma dist_triangle p q r : dist p r <= dist p q + dist q r.
Proof.
  destruct p as [[a b] c], q as [[x y] z], r as [[u v] w]. unfold dist, minus, norm.
  set (A := (a - x) * (a - x) + (b - y) * (b - y) + (c - z) * (c - z)). set (B := (x - u) * (x - u) + (y - v) * (y - v) + (z - w) * (z - w)).
  assert (PA : 0 <= A) by apply sq3. assert (PB : 0 <= B) by apply sq3. pose proof (sqrt_pos A) as SA. pose proof (sqrt_pos B) as SB.
  rewrite <- (sqrt_square (sqrt A + sqrt B)) by lra. apply sqrt_le_1_alt. pose proof (cauchy3 (a - x) (b - y) (c - z) (x - u) (y - v) (z - w)) as C. fold A B in C.
  replace ((sqrt A + sqrt B) * (sqrt A + sqrt B)) with (sqrt A * sqrt A + sqrt B * sqrt B + 2 * (sqrt A * sqrt B)) by ring. rewrite !sqrt_sqrt by assumption. unfold A, B in *. lra.
Qed.
Lemma dist_sym p q : dist p q = dist q p.
Proof. destruct p as [[a b] c], q as [[x y] z]. unfold dist, minus, norm. f_equal. ring. Qed.
(** V moves at most with the speed K (per century), e is where the Earth stands; tau' is the true light time. *)
Theorem C147_light_time (V : R -> point) (e : point) T K tau' : (forall s t, dist (V s) (V t) <= K * Rabs (s - t)) -> 0 <= tau' ->
  tau' = dist (V (T - tau')) e * cs_Agx -> Rabs (dist (V T) e * cs_Agx - tau') <= K * cs_Agx * tau'.
Proof.
  intros HK P E. assert (PA : 0 < cs_Agx) by (unfold cs_Agx, cs_AU, cs_GS; lra).
  rewrite E at 1. rewrite <- Rmult_minus_distr_r, Rabs_mult, (Rabs_pos_eq cs_Agx) by lra. replace (K * cs_Agx * tau') with (K * tau' * cs_Agx) by ring.
  apply Rmult_le_compat_r; [lra|]. pose proof (HK T (T - tau')) as H. replace (T - (T - tau')) with tau' in H by ring. rewrite (Rabs_pos_eq tau' P) in H.
  pose proof (dist_triangle (V T) (V (T - tau')) e). pose proof (dist_triangle (V (T - tau')) (V T) e) as H2. rewrite (dist_sym (V (T - tau')) (V T)) in H2.
  apply Rabs_le. lra.
Qed.
(** f is a coordinate of the Earth with the speed f', which changes at most by B per century: taking the Earth at the moment less
    tau moves the body by tau times the speed of the Earth, as the aberration does, up to B tau^2. *)
Theorem C147_aberration (f f' : R -> R) B T tau v : (forall t, derivable_pt_lim f t (f' t)) -> (forall s t, Rabs (f' s - f' t) <= B * Rabs (s - t)) -> 0 <= tau ->
  Rabs ((v - f (T - tau)) - ((v - f T) + tau * f' T)) <= B * (tau * tau).
Proof.
  intros D L P. destruct (Req_dec tau 0) as [->|N].
  { rewrite Rminus_0_r. replace (v - f T - (v - f T + 0 * f' T)) with 0 by ring. rewrite Rabs_R0, !Rmult_0_r. lra. }
  destruct (MVT_cor2 f f' (T - tau) T ltac:(lra) (fun c _ => D c)) as (c & E & Rc).
  replace (v - f (T - tau) - (v - f T + tau * f' T)) with ((f T - f (T - tau)) - tau * f' T) by ring. rewrite E.
  replace (f' c * (T - (T - tau)) - tau * f' T) with (tau * (f' c - f' T)) by ring. rewrite Rabs_mult, (Rabs_pos_eq tau P).
  replace (B * (tau * tau)) with (tau * (B * tau)) by ring. apply Rmult_le_compat_l; [exact P|]. apply Rle_trans with (1 := L c T).
  assert (0 <= B). { pose proof (L 1 0) as Q. pose proof (Rabs_pos (f' 1 - f' 0)). rewrite Rminus_0_r, Rabs_R1 in Q. lra. }
  apply Rmult_le_compat_l; [assumption|]. rewrite Rabs_left1; lra.
Qed.

(** The elongation of high precision is not the one of the apparent places: there the Earth is taken at the same moment as the planet. *)
Theorem C147_elongation_high_refuted : exists pc xt t, let ts := snd (pc 0%Z 10%Z t) * cs_Agx in let tp := dist (hel pc xt 10 t) (hel pc 0 10 t) * cs_Agx in
  let e := hel pc 0 (-1) (t - ts) in let v := geo pc xt (-1) (t - tp) in
  0 < snd (pc 0%Z (-1)%Z (t - ts)) /\ v <> (0, 0, 0) /\ apart v (scale (-1) e) /\ norm v * norm e * cos (xingJJ pc xt t 2) <> - dot v e.
Proof.
  assert (PA : 0 < cs_Agx) by (unfold cs_Agx, cs_AU, cs_GS; lra).
  set (pc := fun (xt n : Z) (t : R) => if (xt =? 0)%Z then (PI / 2 / cs_Agx * t, 0, 1) else (0, 0, 3)). exists pc, 1%Z, 0. intros ts tp e v.
  assert (E0 : hel pc 0 10 0 = (1, 0, 0)). { unfold hel, pc, llr2xyz. cbn [Z.eqb]. rewrite Rmult_0_r, cos_0, sin_0. f_equal; [f_equal|]; ring. }
  assert (E1 : forall n t, hel pc 1 n t = (3, 0, 0)). { intros n t. unfold hel, pc, llr2xyz. cbn [Z.eqb]. rewrite cos_0, sin_0. f_equal; [f_equal|]; ring. }
  assert (Ets : ts = cs_Agx) by (unfold ts, pc; cbn; ring).
  assert (Etp : tp = 2 * cs_Agx).
  { unfold tp. rewrite E0, E1. unfold dist, minus, norm. replace (_ + _ + _) with (2 * 2) by ring. rewrite sqrt_square by lra. ring. }
  assert (Ee : e = (0, -1, 0)).
  { unfold e, hel, pc, llr2xyz. cbn [Z.eqb]. rewrite Ets. replace (PI / 2 / cs_Agx * (0 - cs_Agx)) with (- (PI / 2)) by (field; lra). rewrite cos_0, sin_0, cos_neg, sin_neg, cos_PI2, sin_PI2. f_equal; [f_equal|]; ring. }
  assert (Eb : hel pc 0 (-1) (0 - tp) = (-1, 0, 0)).
  { unfold hel, pc, llr2xyz. cbn [Z.eqb]. rewrite Etp. replace (PI / 2 / cs_Agx * (0 - 2 * cs_Agx)) with (- PI) by (field; lra). rewrite cos_0, sin_0, cos_neg, sin_neg, cos_PI, sin_PI. f_equal; [f_equal|]; ring. }
  assert (Ev : v = (4, 0, 0)). { unfold v, geo. rewrite E1, Eb. unfold minus. f_equal; [f_equal|]; ring. }
  assert (Ne : norm e = 1). { rewrite Ee. unfold norm. replace (_ + _ + _) with (1 * 1) by ring. apply sqrt_square. lra. }
  assert (Nv : norm v = 4). { rewrite Ev. unfold norm. replace (_ + _ + _) with (4 * 4) by ring. apply sqrt_square. lra. }
  assert (Ns : norm (scale (-1) e) = 1). { rewrite Ee. unfold scale, norm. replace (_ + _ + _) with (1 * 1) by ring. apply sqrt_square. lra. }
  split; [unfold pc; cbn; lra|]. split; [rewrite Ev; intros Q; assert (4 = 0) by congruence; lra|]. split.
  - unfold apart. rewrite Nv, Ns, Ev, Ee. unfold scale, dot. lra.
  - set (u := minus (hel pc 1 (-1) (0 - tp)) e). assert (Eu : u = (3, 1, 0)). { unfold u. rewrite E1, Ee. unfold minus. f_equal; [f_equal|]; ring. }
    assert (Nu : norm u = sqrt 10). { rewrite Eu. unfold norm. f_equal. ring. } assert (S3 : 3 <= sqrt 10). { rewrite <- (sqrt_square 3) by lra. apply sqrt_le_1_alt. lra. }
    destruct (C147_elongation_high pc 1 0 2 ltac:(lia)) as [_ Q]; fold ts tp.
    + unfold pc; cbn; lra.
    + fold e u. rewrite Eu. intros Q. assert (3 = 0) by congruence. lra.
    + fold e u. unfold apart. rewrite Nu, Ns, Eu, Ee. unfold scale, dot. lra.
    + fold ts tp in Q. fold e in Q. fold u in Q. rewrite Nu, Ne, Eu, Ee in Q. unfold dot in Q. rewrite Nv, Ne, Ev, Ee. unfold dot. intros C.
      assert (cos (xingJJ pc 1 0 2) = 0) by lra. rewrite H in Q. lra.
Qed.

(** bodies that stand still: the hypotheses of the theorems hold *)
Example C147_ex_planet (t : R) : let pc := fun (xt n : Z) (_ : R) => if (xt =? 0)%Z then (0, 0, 1) else (0, 0, 3) in
  off_axis (geo pc 1 (-1) t) /\ geo pc 1 (-1) t <> (0, 0, 0) /\ 0 < snd (pc 0%Z (-1)%Z t) /\ apart (geo pc 1 (-1) t) (scale (-1) (hel pc 0 (-1) t)).
Proof.
  intros pc. assert (E : geo pc 1 (-1) t = (2, 0, 0)). { unfold geo, hel, pc, llr2xyz, minus. cbn [Z.eqb]. rewrite cos_0, sin_0. f_equal; [f_equal|]; ring. }
  assert (E0 : hel pc 0 (-1) t = (1, 0, 0)). { unfold hel, pc, llr2xyz. cbn [Z.eqb]. rewrite cos_0, sin_0. f_equal; [f_equal|]; ring. }
  rewrite E, E0. unfold off_axis. split; [intros Q; assert (2 = 0) by congruence; lra|]. split; [intros Q; assert (2 = 0) by congruence; lra|]. split; [cbn; lra|].
  unfold apart, scale, dot, norm. replace (2 * 2 + 0 * 0 + 0 * 0) with (2 * 2) by ring. replace (-1 * 1 * (-1 * 1) + -1 * 0 * (-1 * 0) + -1 * 0 * (-1 * 0)) with (1 * 1) by ring. rewrite !sqrt_square by lra. lra.
Qed.
Example C147_ex_moon : let mc := fun (_ _ _ : Z) (_ : R) => (0, 0, 400000) in let ec := fun t => (t, 0, 1) in let tau := snd (mc 1%Z 1%Z (-1)%Z 0) * (cs_Agx / cs_AU) in
  0 < tau < 1 /\ llr2xyz (ec 0) <> llr2xyz (ec (0 - tau)).
Proof.
  intros mc ec tau. assert (0 < tau < 1) as T by (unfold tau; cbn; unfold cs_Agx, cs_AU, cs_GS; lra). split; [exact T|].
  unfold ec, llr2xyz. intros Q. assert (S : 1 * cos 0 * sin 0 = 1 * cos 0 * sin (0 - tau)) by congruence. rewrite cos_0, sin_0 in S.
  replace (0 - tau) with (- tau) in S by ring. rewrite sin_neg in S. pose proof PI2_1. pose proof (sin_gt_0 tau ltac:(lra) ltac:(lra)). lra.
Qed.
Example C147_ex_motion : (forall s t, dist (s, 0, 0) (t, 0, 0) <= 1 * Rabs (s - t)) /\ (forall t, derivable_pt_lim sin t (cos t)) /\ (forall s t, Rabs (cos s - cos t) <= 1 * Rabs (s - t)).
Proof.
  split; [|split].
  - intros s t. unfold dist, minus, norm. replace ((s - t) * (s - t) + (0 - 0) * (0 - 0) + (0 - 0) * (0 - 0)) with (Rsqr (s - t)) by (unfold Rsqr; ring). rewrite sqrt_Rsqr_abs. lra.
  - exact derivable_pt_lim_sin.
  - intros s t. rewrite Rmult_1_l, <- !sin_shift. eapply Rle_trans; [apply sin_lip|]. replace (PI / 2 - s - (PI / 2 - t)) with (- (s - t)) by ring. rewrite Rabs_Ropp. lra.
Qed.
Print Assumptions C147_planet. Print Assumptions C147_moon. Print Assumptions C147_other. Print Assumptions C147_earth_refuted. Print Assumptions C147_elongation.
Print Assumptions C147_elongation_high. Print Assumptions C147_elongation_high_refuted. Print Assumptions C147_station_coordinates. Print Assumptions C147_sun_difference.
Print Assumptions C147_moon_difference. Print Assumptions C147_light_time. Print Assumptions C147_aberration.
