(** Properties of the limits of a solar eclipse on the Earth, in exact arithmetic. *)
From Coq Require Import ZArith Reals Lra Lia Psatz List.
From Flocq Require Import Core.
From Verif Require Import PiBound GeoModel GeoSpec GeoProof GeoProps ObsModel ObsSpec ObsProps ZbModel.
Import ListNotations.
Open Scope R_scope.

(** ** Specification *)
(** the vector from the station at longitude L and latitude fa to the body at (J, W, r), r in kilometres; g is the sidereal time of Greenwich *)
Definition seen_from (g L fa : R) (body : vec) (v : point) : Prop :=
  exists px pz, station cs_ba cs_rEar fa 0 px pz /\ v = minus (llr2xyz body) (rot_z (g + L) (px, 0, pz)).
(** the apparent radii and the place of the Moon relative to the Sun: difference of right ascensions, on the small circle between them, and of declinations *)
Definition appears (p : zb) (L fa mr sr x y : R) : Prop :=
  exists sJ sW sr' mJ mW mr', seen_from (zb_g p) L fa (zb_S p) (llr2xyz (sJ, sW, sr')) /\ seen_from (zb_g p) L fa (zb_M p) (llr2xyz (mJ, mW, mr')) /\
    0 < sr' /\ 0 < mr' /\ Rabs sW <= PI / 2 /\ Rabs mW <= PI / 2 /\
    mr * mr' = 0.2725076 * cs_rEar * 1.0000036 /\ sr * sr' = 959.63 / 3600 * (PI / 180) * cs_AU /\
    y = mW - sW /\ exists d, - PI < d <= PI /\ (exists k, d = mJ - sJ + 2 * PI * IZR k) /\ x = d * cos ((mW + sW) / 2).
(** the place on the Earth where the line from P through Q meets it, and (100, 100) if it does not *)
Definition meets_earth (P Q : vec) (g : R) (place : R * R) : Prop :=
  (place = (100, 100) /\ forall s, ~ on_ellipsoid cs_ba cs_rEar (on_line (llr2xyz P) (llr2xyz Q) s)) \/
  (exists x y z t, (x, y, z) = on_line (llr2xyz P) (llr2xyz Q) t /\ on_ellipsoid cs_ba cs_rEar (x, y, z) /\
    (forall s, on_ellipsoid cs_ba cs_rEar (on_line (llr2xyz P) (llr2xyz Q) s) -> dist (x, y, z) (llr2xyz P) <= dist (on_line (llr2xyz P) (llr2xyz Q) s) (llr2xyz P)) /\
    - PI < fst place <= PI /\ - (PI / 2) < snd place < PI / 2 /\
    (0 < x * x + y * y -> exists k, 0 < k /\ rot_z (- g) (x, y, z / (cs_ba * cs_ba)) = llr2xyz (fst place, snd place, k))).
(** l is the point of the limb of the Sun S, on the left (f = 1) or right (f = -1) of the motion (v, u) and across it *)
Definition limb_point (S : vec) (f : Z) (v u : R) (l : vec) : Prop :=
  let '(J, W, r) := l in let '(S0, S1, S2) := S in
  let dx := (J - S0) * cos ((W + S1) / 2) in let dy := W - S1 in
  r = S2 /\ distance dx dy * S2 = 959.63 / 3600 * (PI / 180) * cs_AU /\ dx * v + dy * u = 0 /\ 0 < IZR f * (v * dy - u * dx).

(** ** Proofs *)
Lemma rad_pos : 0 < zb_rad.
Proof. unfold zb_rad. pose proof PI_RGT_0. apply Rdiv_lt_0_compat; lra. Qed.
Theorem C134_seen p L fa : - (PI / 2) < fa < PI / 2 -> (let '(_, _, r) := zb_S p in 500 <= r) -> (let '(_, _, r) := zb_M p in 500 <= r) ->
  (forall v, seen_from (zb_g p) L fa (zb_S p) v -> v <> (0, 0, 0)) -> (forall v, seen_from (zb_g p) L fa (zb_M p) v -> v <> (0, 0, 0)) ->
  let '(mr, sr, x, y) := zbXY p L fa in appears p L fa mr sr x y.
Proof.
  intros HF RS RM NS NM. unfold zbXY, appears. destruct (zb_S p) as [[S0 S1] S2], (zb_M p) as [[M0 M1] M2].
  destruct (C102_topocentric S0 S1 S2 (zb_g p + L - S0) fa 0 HF) as (px & pz & ST & K). destruct (Rlt_dec S2 500); [lra|]. rewrite Rmult_1_r in K. replace (S0 + (zb_g p + L - S0)) with (zb_g p + L) in K by ring.
  assert (V1 : seen_from (zb_g p) L fa (S0, S1, S2) (minus (llr2xyz (S0, S1, S2)) (rot_z (zb_g p + L) (px, 0, pz)))) by (exists px, pz; split; [exact ST|reflexivity]).
  destruct (K (NS _ V1)) as (sJ & sW & sr' & E1 & _ & B1 & P1 & Q1). rewrite Rmult_1_r in Q1. rewrite <- Q1 in V1. clear K.
  destruct (C102_topocentric M0 M1 M2 (zb_g p + L - M0) fa 0 HF) as (px' & pz' & ST' & K). destruct (Rlt_dec M2 500); [lra|]. rewrite Rmult_1_r in K. replace (M0 + (zb_g p + L - M0)) with (zb_g p + L) in K by ring.
  assert (V2 : seen_from (zb_g p) L fa (M0, M1, M2) (minus (llr2xyz (M0, M1, M2)) (rot_z (zb_g p + L) (px', 0, pz')))) by (exists px', pz'; split; [exact ST'|reflexivity]).
  destruct (K (NM _ V2)) as (mJ & mW & mr' & E2 & _ & B2 & P2 & Q2). rewrite Rmult_1_r in Q2. rewrite <- Q2 in V2. clear K.
  rewrite E1, E2. exists sJ, sW, sr', mJ, mW, mr'. pose proof rad_pos as RP. pose proof PI_RGT_0 as PP.
  split; [exact V1|]. split; [exact V2|]. split; [exact P1|]. split; [exact P2|]. split; [apply Rabs_le; lra|]. split; [apply Rabs_le; lra|].
  split. { unfold zb_sMoon. field. lra. }
  split. { unfold zb_rad. field. lra. }
  split; [reflexivity|]. destruct (rad2rrad_ok (mJ - sJ)) as (RB & k & RK). exists (rad2rrad (mJ - sJ)). split; [exact RB|]. split; [exists k; exact RK|reflexivity].
Qed.
Theorem C134_limb S f v u : (f = 1 \/ f = -1)%Z -> 0 < snd S -> (v, u) <> (0, 0) -> (let '(_, W, _) := limb S f v u in let '(_, S1, _) := S in cos ((W + S1) / 2) <> 0) ->
  limb_point S f v u (limb S f v u).
Proof.
  intros Hf HS N C. destruct S as [[S0 S1] S2]. cbn [snd] in HS. unfold limb, limb_point in *. cbv zeta in *. pose proof PI_RGT_0 as PP.
  assert (H : 0 < u * u + v * v). { destruct (Req_dec u 0) as [->|]; [|nra]. destruct (Req_dec v 0) as [->|]; [contradiction|nra]. }
  set (a := sqrt (u * u + v * v)) in *. assert (HA : 0 < a) by (apply sqrt_lt_R0; exact H). assert (AA : a * a = u * u + v * v) by (apply sqrt_sqrt; lra). clearbody a.
  set (r := 959.63 / S2 / zb_rad * cs_AU) in *. assert (HR : r * S2 = 959.63 / 3600 * (PI / 180) * cs_AU) by (unfold r, zb_rad; field; lra).
  assert (Hr : 0 < r). { apply Rmult_lt_reg_r with S2; [exact HS|]. rewrite HR, Rmult_0_l. unfold cs_AU. nra. } clearbody r.
  assert (ff : IZR f * IZR f = 1) by (destruct Hf as [-> | ->]; lra).
  set (c := cos ((S1 + IZR f * r * v / a + S1) / 2)) in *. clearbody c.
  replace ((S0 - IZR f * r * u / a / c - S0) * c) with (- (IZR f * r * u / a)) by (field; lra). replace (S1 + IZR f * r * v / a - S1) with (IZR f * r * v / a) by ring.
  split; [reflexivity|]. split.
  - replace (distance (- (IZR f * r * u / a)) (IZR f * r * v / a)) with r; [exact HR|]. unfold distance.
    replace (- (IZR f * r * u / a) * - (IZR f * r * u / a) + IZR f * r * v / a * (IZR f * r * v / a)) with ((IZR f * IZR f) * (r * r) * ((u * u + v * v) / (a * a))) by (field; lra).
    rewrite ff, <- AA. replace (1 * (r * r) * (a * a / (a * a))) with (r * r) by (field; lra). symmetry. apply sqrt_square. lra.
  - split; [field; lra|].
    replace (IZR f * (v * (IZR f * r * v / a) - u * - (IZR f * r * u / a))) with ((IZR f * IZR f) * r * ((u * u + v * v) / a)) by (field; lra).
    rewrite ff, <- AA. replace (a * a / a) with a by (field; lra). nra.
Qed.
Theorem C134_ear P Q g : llr2xyz P <> llr2xyz Q -> meets_earth P Q g (ear P Q g).
Proof.
  intros NE. unfold ear. pose proof (C62_lineEar P Q g cs_ba cs_rEar ltac:(unfold cs_ba; lra) NE) as H.
  destruct (lineEar P Q g cs_ba cs_rEar) as [[[h J] W]|] eqn:E; [|left; split; [reflexivity|exact H]].
  right. destruct H as (_ & O & BJ & BW & NP).
  pose proof (C39_hit (llr2xyz P) (llr2xyz Q) cs_ba cs_rEar ltac:(unfold cs_ba; lra) NE) as K. unfold lineEar in E. destruct (llr2xyz P) as [[px py] pz], (llr2xyz Q) as [[qx qy] qz].
  destruct (snd (lineEll px py pz qx qy qz cs_ba cs_rEar)) as [h'|]; [|discriminate]. injection E as <- _ _. destruct K as (t & ET & _ & _ & _ & NEAR).
  exists (h_x h'), (h_y h'), (h_z h'), t. split; [exact ET|]. split; [exact O|]. split; [rewrite ET; exact NEAR|]. auto.
Qed.

(** one round: the limit seen with the motion at the place g *)
Definition limit_step (p q : zb) (apex : vec) (f : Z) (g g' : R * R) : Prop :=
  exists v u, (forall mr sr x y mr' sr' x' y', zbXY p (fst g) (snd g) = (mr, sr, x, y) -> zbXY q (fst g) (snd g) = (mr', sr', x', y') -> v = x' - x /\ u = y' - y) /\
  exists l, ((v, u) <> (0, 0) -> (let '(_, W, _) := l in let '(_, S1, _) := zb_S p in cos ((W + S1) / 2) <> 0) -> limb_point (zb_S p) f v u l) /\
    (llr2xyz l <> llr2xyz apex -> meets_earth l apex (zb_g p) g').
Lemma p2p_ok p q apex f g : (f = 1 \/ f = -1)%Z -> 0 < snd (zb_S p) -> limit_step p q apex f g (p2p p q apex f g).
Proof.
  intros Hf HS. unfold limit_step, p2p. destruct g as [L fa]. cbn [fst snd]. destruct (zbXY p L fa) as [[[mr sr] x] y]. destruct (zbXY q L fa) as [[[mr' sr'] x'] y'].
  exists (x' - x), (y' - y). split. { intros ? ? ? ? ? ? ? ? E1 E2. injection E1 as <- <- <- <-. injection E2 as <- <- <- <-. split; reflexivity. }
  exists (limb (zb_S p) f (x' - x) (y' - y)). split; [|apply C134_ear]. intros N C. apply C134_limb; assumption.
Qed.
Theorem C134_nbj p q A B : 0 < snd (zb_S p) -> llr2xyz (zb_M p) <> llr2xyz (zb_S p) ->
  exists v0 v2 v4 v6 v8 c w, nbj p q A B = ([v0; v2; v4; v6; v8], c, w) /\
  meets_earth (zb_M p) (zb_S p) (zb_g p) v0 /\
  (c = c_none <-> v0 = (100, 100)) /\ (forall mr sr x y, zbXY p (fst v0) (snd v0) = (mr, sr, x, y) -> c <> c_none -> (c = c_annular <-> mr < sr)) /\
  (exists g1, limit_step p q A 1 (0, 0) g1 /\ limit_step p q A 1 g1 v2) /\
  (exists g1, limit_step p q A (-1) (0, 0) g1 /\ limit_step p q A (-1) g1 v4) /\
  (exists g1 g2, limit_step p q B (-1) (0, 0) g1 /\ limit_step p q B (-1) g1 g2 /\ limit_step p q B (-1) g2 v6) /\
  (exists g1 g2, limit_step p q B 1 (0, 0) g1 /\ limit_step p q B 1 g1 g2 /\ limit_step p q B 1 g2 v8) /\
  w = umbra_width (fst v2) (snd v2) (fst v4) (snd v4).
Proof.
  intros HS NE. unfold nbj. pose proof (C134_ear (zb_M p) (zb_S p) (zb_g p) NE) as M0. unfold ear in M0. unfold pp0.
  assert (PJ : forall h J W, lineEar (zb_M p) (zb_S p) (zb_g p) cs_ba cs_rEar = Some (h, J, W) -> W < 4).
  { intros h J W E. pose proof (C62_lineEar (zb_M p) (zb_S p) (zb_g p) cs_ba cs_rEar ltac:(unfold cs_ba; lra) NE) as H. rewrite E in H. pose proof PI_bounds. lra. }
  assert (STEPS : forall apex f, (f = 1 \/ f = -1)%Z -> forall g, limit_step p q apex f g (p2p p q apex f g)) by (intros; apply p2p_ok; assumption).
  destruct (lineEar (zb_M p) (zb_S p) (zb_g p) cs_ba cs_rEar) as [[[h J] W]|].
  - specialize (PJ h J W eq_refl). destruct (zbXY p J W) as [[[mr sr] x] y] eqn:EZ.
    eexists (J, W), _, _, _, _, _, _. split; [reflexivity|]. split; [exact M0|].
    split. { split. { destruct (Rlt_dec mr sr); discriminate. } intros E. injection E. intros. lra. }
    split. { cbn [fst snd]. intros ? ? ? ? E _. rewrite EZ in E. injection E as <- <- <- <-. destruct (Rlt_dec mr sr); split; intros; try lra; try reflexivity; try discriminate. }
    cbn [limit_rounds]. split; [eexists; split; apply STEPS; auto|]. split; [eexists; split; apply STEPS; auto|].
    split; [eexists _, _; split; [|split]; apply STEPS; auto|]. split; [eexists _, _; split; [|split]; apply STEPS; auto|]. reflexivity.
  - eexists (100, 100), _, _, _, _, _, _. split; [reflexivity|]. split; [exact M0|].
    split; [split; reflexivity|]. split; [intros; congruence|].
    cbn [limit_rounds]. split; [eexists; split; apply STEPS; auto|]. split; [eexists; split; apply STEPS; auto|].
    split; [eexists _, _; split; [|split]; apply STEPS; auto|]. split; [eexists _, _; split; [|split]; apply STEPS; auto|]. reflexivity.
Qed.
(** the line along the limb leaves the axis on the side of the limb before the apex and on the other side behind it *)
Theorem C134_side (l c a : point) t : minus (on_line l a t) (on_line c a t) = let '(x, y, z) := minus l c in ((1 - t) * x, (1 - t) * y, (1 - t) * z).
Proof. destruct l as [[? ?] ?], c as [[? ?] ?], a as [[? ?] ?]. unfold minus, on_line. f_equal; [f_equal|]; ring. Qed.
(** the width: the difference of the longitudes taken as an angle *)
Theorem C134_width_partial J1 W1 J2 W2 d : Rabs W1 <= PI / 2 -> Rabs W2 <= PI / 2 -> - PI < d <= PI -> (exists k, d = J1 - J2 + 2 * PI * IZR k) ->
  - PI < J1 - J2 <= PI -> umbra_width J1 W1 J2 W2 = Some (0.99834 * cs_rEar * distance (d * cos ((W1 + W2) / 2)) (W1 - W2)).
Proof.
  intros B1 B2 BD (k & ED) BJ. pose proof PI_bounds as PB. apply Rabs_le_inv in B1, B2. unfold umbra_width. destruct (Req_EM_T W1 100); [lra|]. destruct (Req_EM_T W2 100); [lra|]. cbv zeta.
  assert (k = 0%Z). { destruct (Z_lt_le_dec k 0) as [H|H]. { assert (IZR k <= -1) by (apply IZR_le; lia). nra. } destruct (Z.eq_dec k 0); [assumption|]. assert (1 <= IZR k) by (apply IZR_le; lia). nra. }
  subst k. rewrite Rmult_0_r, Rplus_0_r in ED. subst d. reflexivity.
Qed.
(** and not: two places on the two sides of the meridian of 180 degrees, 64 km apart, for which it says 40000 km *)
Theorem C134_width_refuted : exists J1 W1 J2 W2 w, - PI < J1 <= PI /\ - PI < J2 <= PI /\ Rabs W1 < PI / 2 /\ Rabs W2 < PI / 2 /\
  dist (llr2xyz (J1, W1, cs_rEar)) (llr2xyz (J2, W2, cs_rEar)) < 64 /\ umbra_width J1 W1 J2 W2 = Some w /\ 39000 < w.
Proof.
  pose proof PI_bounds as PB. exists (PI - 0.005), 0, (- PI + 0.005), 0. eexists. split; [lra|]. split; [lra|]. rewrite Rabs_R0. split; [lra|]. split; [lra|]. split.
  - unfold llr2xyz, dist, norm, minus. rewrite cos_0, sin_0. replace (- PI + 0.005) with (- (PI - 0.005)) by ring. rewrite cos_neg, sin_neg.
    replace (sin (PI - 0.005)) with (sin 0.005) by (rewrite sin_minus, sin_PI, cos_PI; ring).
    match goal with |- sqrt ?x < _ => replace x with ((2 * cs_rEar * sin 0.005) * (2 * cs_rEar * sin 0.005)) by ring end.
    pose proof (sin_lt_x 0.005 ltac:(lra)). pose proof (sin_gt_0 0.005 ltac:(lra) ltac:(lra)). rewrite sqrt_square; unfold cs_rEar; nra.
  - unfold umbra_width. destruct (Req_EM_T 0 100); [lra|]. split; [reflexivity|]. cbv zeta. replace ((0 + 0) / 2) with 0 by field. rewrite cos_0.
    match goal with |- _ < _ * sqrt ?x => replace x with ((2 * PI - 0.01) * (2 * PI - 0.01)) by lra end. rewrite sqrt_square by lra. unfold cs_rEar. nra.
Qed.
(** a Moon that moves east along the equator under a fixed Sun, seen from the equator below it: the left point of the limb is the northern one *)
Definition eq_P : zb := mkZb (0, 0, 149600000) (0, 0, 380000) 0.
Definition eq_Q : zb := mkZb (0, 0, 149600000) (0.001, 0, 380000) 0.
Lemma mrad_id v : 0 <= v < 2 * PI -> rad2mrad v = v.
Proof. intros H. destruct (C31_mrad_exact v) as (B & E). apply (C31_unique v); [exact E|exists 0%Z; lra|apply Rabs_def1; lra]. Qed.
Lemma rrad_id v : - PI < v <= PI -> rad2rrad v = v.
Proof. intros H. destruct (C31_rrad_exact v) as (B & E). apply (C31_unique v); [exact E|exists 0%Z; lra|apply Rabs_def1; lra]. Qed.
Lemma eq_par J r : 500 <= r -> cs_rEar < r * cos J -> exists J' W' r', parallax (J, 0, r) (0 + 0 - J) 0 0 = (J', W', r') /\ W' = 0 /\ J' = rad2mrad (atan2 (r * sin J) (r * cos J - cs_rEar)).
Proof.
  intros H C. unfold parallax. destruct (Rlt_dec r 500); [lra|]. rewrite tan_0, Rmult_0_r, atan_0, sin_0, cos_0. replace (J + (0 + 0 - J)) with 0 by ring. rewrite sin_0, cos_0. unfold llr2xyz. rewrite sin_0, cos_0. unfold xyz2llr.
  eexists _, _, _. split; [reflexivity|]. split.
  - match goal with |- asin ?x = 0 => replace x with 0 by (unfold Rdiv; ring) end. apply asin_0.
  - do 2 f_equal; ring.
Qed.
Example C134_witness : exists v, 0 < v /\ forall mr sr x y mr' sr' x' y', zbXY eq_P 0 0 = (mr, sr, x, y) -> zbXY eq_Q 0 0 = (mr', sr', x', y') ->
  x' - x = v /\ y' - y = 0 /\ limb (zb_S eq_P) 1 v 0 = (0, 959.63 / 149600000 / zb_rad * cs_AU, 149600000).
Proof.
  pose proof PI_bounds as PB. assert (CB : 0.999 <= cos 0.001). {  destruct (pre_cos_bound 0.001 0 ltac:(lra) ltac:(lra)) as (L & _). unfold cos_approx, sum_f_R0, cos_term in L. cbn in L. lra. }
  assert (SB : 0 < sin 0.001) by (apply sin_gt_0; lra).
  destruct (eq_par 0 149600000) as (s0 & s1 & s2 & ES & ES1 & ES0); [lra|rewrite cos_0; unfold cs_rEar; lra|].
  destruct (eq_par 0 380000) as (m0 & m1 & m2 & EM & EM1 & EM0); [lra|rewrite cos_0; unfold cs_rEar; lra|].
  destruct (eq_par 0.001 380000) as (n0 & n1 & n2 & EN & EN1 & EN0); [lra|unfold cs_rEar; lra|].
  assert (A0 : forall x, 0 < x -> rad2mrad (atan2 0 x) = 0).
  { intros x Hx. unfold atan2. destruct (Rlt_dec 0 x); [|lra]. unfold Rdiv. rewrite Rmult_0_l, atan_0. apply mrad_id. lra. }
  assert (Z1 : s0 = 0). { rewrite ES0, sin_0, cos_0, Rmult_0_r. apply A0. unfold cs_rEar. lra. }
  assert (Z2 : m0 = 0). { rewrite EM0, sin_0, cos_0, Rmult_0_r. apply A0. unfold cs_rEar. lra. }
  set (b := atan (380000 * sin 0.001 / (380000 * cos 0.001 - cs_rEar))).
  assert (DP : 0 < 380000 * cos 0.001 - cs_rEar) by (unfold cs_rEar; lra).
  assert (Bb : 0 < b < PI / 2). { split; [|apply atan_bound]. unfold b. rewrite <- atan_0. apply atan_increasing. apply Rdiv_lt_0_compat; lra. }
  assert (Z3 : n0 = b). { rewrite EN0. unfold atan2. destruct (Rlt_dec 0 (380000 * cos 0.001 - cs_rEar)); [|lra]. fold b. apply mrad_id. lra. }
  exists b. split; [lra|]. intros ? ? ? ? ? ? ? ? E1 E2. unfold zbXY, eq_P, eq_Q in E1, E2. cbn [zb_S zb_M zb_g] in E1, E2. rewrite ES, EM in E1. rewrite ES, EN in E2.
  injection E1 as _ _ X1 Y1. injection E2 as _ _ X2 Y2.
  rewrite ES1, EM1, Z1, Z2 in X1. rewrite ES1, EM1 in Y1. rewrite ES1, EN1, Z1, Z3 in X2. rewrite ES1, EN1 in Y2.
  replace ((0 + 0) / 2) with 0 in X1, X2 by field. rewrite cos_0, Rmult_1_r, rrad_id in X1, X2 by lra.
  split; [lra|]. split; [lra|]. cbn [zb_S eq_P]. unfold limb. cbv zeta. replace (0 * 0 + b * b) with (b * b) by ring. rewrite sqrt_square by lra. unfold Rdiv. rewrite Rmult_0_r, !Rmult_0_l, Rminus_0_r. do 2 f_equal. pose proof rad_pos. field. repeat split; lra.
Qed.
