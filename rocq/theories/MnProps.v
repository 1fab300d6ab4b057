(** Properties of the rising, transit and setting of the Moon, in exact arithmetic. *)
From Coq Require Import ZArith Reals Lra Lia Psatz.
From Flocq Require Import Core.
From Verif Require Import PiBound GeoModel GeoSpec GeoProof GeoProps ObsModel SjModel SjProps SjPolar MnModel.
Open Scope R_scope.

(** ** Specification *)
(** [a] is an hour angle of a body in the direction p (equatorial axes) when the local sidereal time is th *)
Definition hour_angle (p : point) (th a : R) : Prop :=
  exists rho, 0 < rho /\ dot (zenith 0 th) p = rho * cos a /\ dot (west th) p = rho * sin a.
(** a body in the direction p reaches the altitude h at the hour angle a, at latitude fa *)
Definition reaches (fa h : R) (p : point) (a : R) : Prop :=
  let '(x, y, z) := p in sin fa * z + cos fa * sqrt (x * x + y * y) * cos a = norm p * sin h.
(** sine of the altitude *)
Definition sin_alt (fa th : R) (p : point) : R := dot (zenith fa th) p / norm p.
(** the altitude of the Moon's centre, seen from the centre of the Earth, when its upper limb seems to be on the horizon: parallax less
    radius (0.2725 of the parallax) less 34 minutes of refraction; r is the distance *)
Definition limb (r : R) : R := cs_rEar / r - 0.2725 * (cs_rEar / r) - 34 / 60 * (PI / 180).
(** the Moon at the moment t of UT in equatorial axes *)
Definition moon_at (m_coord : R -> vec) (E dt t : R) : point := rot_x E (llr2xyz (m_coord ((t + dt) / 36525))).
(** the motion of the Moon around t0: it is not at a pole, theta is its hour angle, never far from the mean one, and grows at about the
    mean rate *)
Definition runs (m_coord : R -> vec) (pGST : R -> R -> R) (L E dt t0 eps : R) (theta : R -> R) : Prop :=
  (forall t, Rabs (t - t0) <= 2 -> let '(l, b, r) := m_coord ((t + dt) / 36525) in - (PI / 2) < b < PI / 2 /\ 0 < r) /\
  (forall t, Rabs (t - t0) <= 2 -> hour_angle (moon_at m_coord E dt t) (pGST t dt + L) (theta t)) /\
  (forall t, Rabs (t - t0) <= 2 -> Rabs (theta t - 2 * PI * mn_phase L dt t) <= 0.4) /\
  (forall t u, Rabs (t - t0) <= 2 -> Rabs (u - t0) <= 2 ->
     Rabs (theta u - theta t - 2 * PI * 0.966 * (u - t)) <= eps * (2 * PI * 0.966) * Rabs (u - t)).
(** the hour angle hz at which its limb is on the horizon changes slowly *)
Definition rises (m_coord : R -> vec) (fa E dt t0 delta : R) (hz : R -> R) : Prop :=
  (forall t, Rabs (t - t0) <= 2 -> 0 <= hz t <= PI /\ reaches fa (limb (norm (moon_at m_coord E dt t))) (moon_at m_coord E dt t) (hz t)) /\
  (forall t u, Rabs (t - t0) <= 2 -> Rabs (u - t0) <= 2 -> Rabs (hz u - hz t) <= delta * (2 * PI * 0.966) * Rabs (u - t)).
(** it passes the altitude nowhere *)
Definition never (m_coord : R -> vec) (fa E dt t0 : R) : Prop :=
  forall t, Rabs (t - t0) <= 2 -> forall a, ~ reaches fa (limb (norm (moon_at m_coord E dt t))) (moon_at m_coord E dt t) a.
(** the lunar day of the moment jd by the mean motion: that of the mean transit closest to jd *)
Definition lunar_day (L dt jd : R) (n : Z) : Prop := - (1 / 2) < mn_phase L dt jd - IZR n <= 1 / 2.

(** ** Proofs *)
Lemma mod2_ok a : exists n : Z, mn_mod2 a 1 = a - IZR n /\ - (1 / 2) < a - IZR n <= 1 / 2.
Proof.
  unfold mn_mod2. replace (a / 1) with a by field. pose proof (Zfloor_lb a). pose proof (Zfloor_ub a).
  destruct (Rlt_dec 0.5 (a - IZR (Zfloor a))) as [C|C].
  - exists (Zfloor a + 1)%Z. rewrite plus_IZR. lra.
  - exists (Zfloor a). lra.
Qed.
(** what Mcoord returns *)
Lemma norm_llr J W r : 0 <= r -> norm (llr2xyz (J, W, r)) = r.
Proof.
  intros H. unfold norm, llr2xyz. pose proof (cs W) as A. pose proof (cs J) as B.
  replace (r * cos W * cos J * (r * cos W * cos J) + r * cos W * sin J * (r * cos W * sin J) + r * sin W * (r * sin W)) with (Rsqr r); [apply sqrt_Rsqr, H|].
  unfold Rsqr. transitivity (r * r * ((cos W * cos W) * (cos J * cos J + sin J * sin J) + sin W * sin W)); [rewrite B, A; ring|ring].
Qed.
Lemma place_ok m_coord E dt t : (let '(l, b, r) := m_coord ((t + dt) / 36525) in - (PI / 2) < b < PI / 2 /\ 0 < r) ->
  forall ra de r, llrConv (m_coord ((t + dt) / 36525)) E = (ra, de, r) ->
  moon_at m_coord E dt t = llr2xyz (ra, de, r) /\ 0 < r /\ norm (moon_at m_coord E dt t) = r /\ 0 <= cos de.
Proof.
  unfold moon_at. destruct (m_coord ((t + dt) / 36525)) as [[l b] r0]. intros [B R] ra de r Q.
  pose proof (C37_rotation l b r0 E B) as X. pose proof (C37_ranges l b r0 E) as Y. rewrite Q in X, Y. destruct Y as (_ & D & ->).
  rewrite <- X. repeat split; auto. { apply norm_llr; lra. } { apply cos_ge_0; lra. }
Qed.
Lemma hour_angle_ok ra de r th a : 0 <= cos de -> 0 < r -> hour_angle (llr2xyz (ra, de, r)) th a -> 0 < cos de /\ exists k, a = th - ra + 2 * PI * IZR k.
Proof.
  intros D R (rho & P & C & S). unfold zenith, west, dot, llr2xyz in C, S. rewrite cos_0, sin_0 in C.
  assert (C' : r * cos de * cos (th - ra) = rho * cos a) by (rewrite <- C, cos_minus; ring).
  assert (S' : r * cos de * sin (th - ra) = rho * sin a) by (rewrite <- S, sin_minus; ring).
  pose proof (sin2_cos2 a) as A. pose proof (sin2_cos2 (th - ra)) as B. unfold Rsqr in A, B.
  assert (K : (r * cos de) * (r * cos de) = rho * rho).
  { transitivity ((r * cos de * cos (th - ra)) * (r * cos de * cos (th - ra)) + (r * cos de * sin (th - ra)) * (r * cos de * sin (th - ra))).
    { transitivity ((r * cos de) * (r * cos de) * (sin (th - ra) * sin (th - ra) + cos (th - ra) * cos (th - ra))); [rewrite B; ring|ring]. }
    rewrite C', S'. transitivity (rho * rho * (sin a * sin a + cos a * cos a)); [ring|rewrite A; ring]. }
  assert (K2 : r * cos de = rho). { assert (0 <= r * cos de) by (apply Rmult_le_pos; lra). destruct (sq_cases _ _ K); lra. }
  rewrite K2 in C', S'. split. { destruct D as [D|D]; [exact D|]. rewrite <- D in K2. lra. }
  apply turn; apply Rmult_eq_reg_l with rho; lra.
Qed.
Lemma limb_ok r : 0 < r -> 0.7275 * cs_rEar / r - 34 * 60 / sj_rad = limb r.
Proof.
  intros H. unfold limb, sj_rad. pose proof PI_RGT_0. replace (34 * 60 / (180 * 3600 / PI)) with (34 / 60 * (PI / 180)) by (field; lra).
  set (p := cs_rEar / r). replace (0.7275 * cs_rEar / r) with (0.7275 * p) by (unfold p, Rdiv; ring). lra.
Qed.
Lemma reaches_ok fa h ra de r a : 0 < cos fa -> 0 < cos de -> 0 < r ->
  (reaches fa h (llr2xyz (ra, de, r)) a <-> cos a = (sin h - sin fa * sin de) / cos fa / cos de).
Proof.
  intros F D R. unfold reaches. rewrite norm_llr by lra. unfold llr2xyz.
  replace (r * cos de * cos ra * (r * cos de * cos ra) + r * cos de * sin ra * (r * cos de * sin ra)) with (Rsqr (r * cos de)).
  2:{ unfold Rsqr. pose proof (cs ra) as B. transitivity (r * cos de * (r * cos de) * (cos ra * cos ra + sin ra * sin ra)); [rewrite B; ring|ring]. }
  rewrite sqrt_Rsqr by (apply Rmult_le_pos; lra). split; intros Q.
  - assert (X : sin fa * sin de + cos fa * cos de * cos a = sin h) by (apply Rmult_eq_reg_l with r; lra). rewrite <- X. field. lra.
  - rewrite Q. field. lra.
Qed.
Lemma getH_reaches fa h ra de r a : 0 < cos fa -> 0 < cos de -> 0 < r -> 0 <= a <= PI -> reaches fa h (llr2xyz (ra, de, r)) a -> mn_getH fa h de = a.
Proof.
  intros F D R A Q. apply reaches_ok in Q; auto. unfold mn_getH. rewrite <- Q. destruct (Rlt_dec 1 (Rabs (cos a))) as [N|N].
  - pose proof (COS_bound a). exfalso. revert N. unfold Rabs. destruct (Rcase_abs _); lra.
  - apply acos_cos; exact A.
Qed.
Lemma getH_never fa h ra de r : 0 < cos fa -> 0 < cos de -> 0 < r -> (forall a, ~ reaches fa h (llr2xyz (ra, de, r)) a) -> mn_getH fa h de = PI.
Proof.
  intros F D R N. unfold mn_getH. set (c := (sin h - sin fa * sin de) / cos fa / cos de). destruct (Rlt_dec 1 (Rabs c)) as [C|C]; [reflexivity|].
  exfalso. apply (N (acos c)). apply reaches_ok; auto. apply cos_acos. apply Rnot_lt_le in C. apply Rabs_le_inv in C. exact C.
Qed.

(** two steps from t0 to the moment when theta has the value of g; [H] is theta brought into (-PI, PI] *)
Lemma two_steps (theta g : R -> R) (n : Z) (c sv eta t0 : R) : 0 < sv -> 0 <= eta <= 0.45 ->
  Rabs (t0 - c) <= 1 / 2 -> Rabs (theta t0 - 2 * PI * IZR n) <= 0.508 -> Rabs (g t0) <= PI -> 6.06 <= sv ->
  (forall t u, Rabs (t - c) <= 2 -> Rabs (u - c) <= 2 -> Rabs (theta u - g u - (theta t - g t) - sv * (u - t)) <= eta * sv * Rabs (u - t)) ->
  let t1 := t0 + (g t0 - rad2rrad (theta t0)) / sv in
  let t2 := t1 + rad2rrad (g t1 - rad2rrad (theta t1)) / sv in
  Rabs (theta t2 - (2 * PI * IZR n + g t2)) <= 3.65 * (eta * eta) /\ Rabs (t2 - c) <= 3 / 2 /\ Rabs (t1 - c) <= 2.
Proof.
  intros SV ETA T0 TH G0 SV6 ST t1 t2. pose proof PI_bounds as PB. pose proof PI_RGT_0 as PP.
  assert (Q0 : rad2rrad (theta t0) = theta t0 - 2 * PI * IZR n).
  { destruct (C31_rrad_exact (theta t0)) as (B & X). apply (C31_unique (theta t0)); [exact X|exists (- n)%Z; rewrite opp_IZR; ring|].
    apply Rabs_le_inv in TH. apply Rabs_def1; lra. }
  set (d0 := g t0 - rad2rrad (theta t0)) in *. assert (D0 : Rabs d0 <= 3.65).
  { unfold d0. rewrite Q0. apply Rabs_le_inv in TH, G0. apply Rabs_le. lra. }
  assert (T1 : t1 - t0 = d0 / sv) by (unfold t1; lra). assert (A1 : Rabs (t1 - t0) = Rabs d0 / sv) by (rewrite T1; unfold Rdiv; rewrite Rabs_mult, (Rabs_pos_eq (/ sv)); [reflexivity|left; apply Rinv_0_lt_compat, SV]).
  assert (M1 : Rabs (t1 - t0) <= 0.603). { rewrite A1. apply Rmult_le_reg_r with sv; [exact SV|]. replace (Rabs d0 / sv * sv) with (Rabs d0) by (field; lra). nra. }
  assert (C0 : Rabs (t0 - c) <= 2) by lra. assert (C1 : Rabs (t1 - c) <= 1.103) by (apply Rabs_le_inv in M1, T0; apply Rabs_le; lra).
  pose proof (ST t0 t1 C0 ltac:(lra)) as S1.
  set (G1 := theta t1 - g t1 - 2 * PI * IZR n).
  assert (E1 : Rabs G1 <= eta * 3.65).
  { replace G1 with (theta t1 - g t1 - (theta t0 - g t0) - sv * (t1 - t0)).
    2:{ unfold G1. rewrite T1. replace (sv * (d0 / sv)) with d0 by (field; lra). unfold d0. rewrite Q0. lra. }
    apply Rle_trans with (1 := S1). rewrite A1. replace (eta * sv * (Rabs d0 / sv)) with (eta * Rabs d0) by (field; lra). apply Rmult_le_compat_l; lra. }
  assert (E1' : Rabs G1 <= 1.6425) by nra.
  assert (Q1 : rad2rrad (g t1 - rad2rrad (theta t1)) = - G1).
  { destruct (C31_rrad_exact (theta t1)) as (_ & k & K). rewrite K. set (v := g t1 - (theta t1 + 2 * PI * IZR k)).
    destruct (C31_rrad_exact v) as (B & X). apply (C31_unique v); [exact X|exists (k + n)%Z; rewrite plus_IZR; unfold v, G1; ring|].
    apply Rabs_le_inv in E1'. apply Rabs_def1; lra. }
  assert (T2 : t2 - t1 = - G1 / sv) by (unfold t2; rewrite Q1; lra).
  assert (A2 : Rabs (t2 - t1) = Rabs G1 / sv) by (rewrite T2; unfold Rdiv; rewrite Rabs_mult, Rabs_Ropp, (Rabs_pos_eq (/ sv)); [reflexivity|left; apply Rinv_0_lt_compat, SV]).
  assert (M2 : Rabs (t2 - t1) <= 0.272). { rewrite A2. apply Rmult_le_reg_r with sv; [exact SV|]. replace (Rabs G1 / sv * sv) with (Rabs G1) by (field; lra). nra. }
  assert (C2 : Rabs (t2 - c) <= 3 / 2) by (apply Rabs_le_inv in M2, C1; apply Rabs_le; lra). split; [|split; [exact C2|lra]].
  pose proof (ST t1 t2 ltac:(lra) ltac:(lra)) as S2.
  replace (theta t2 - (2 * PI * IZR n + g t2)) with (theta t2 - g t2 - (theta t1 - g t1) - sv * (t2 - t1)).
  2:{ rewrite T2. replace (sv * (- G1 / sv)) with (- G1) by (field; lra). unfold G1. lra. }
  apply Rle_trans with (1 := S2). rewrite A2. replace (eta * sv * (Rabs G1 / sv)) with (eta * Rabs G1) by (field; lra).
  replace (3.65 * (eta * eta)) with (eta * (eta * 3.65)) by ring. apply Rmult_le_compat_l; lra.
Qed.

Lemma rrad_turn v k : rad2rrad (v + 2 * PI * IZR k) = rad2rrad v.
Proof.
  destruct (C31_rrad_exact v) as (B & j & J). destruct (C31_rrad_exact (v + 2 * PI * IZR k)) as (B' & j' & J').
  apply (C31_unique v); [exists (k + j')%Z; rewrite J', plus_IZR; ring|exists j; exact J|apply Rabs_def1; lra].
Qed.

Section Moon.
Variables (m_coord : R -> vec) (pGST : R -> R -> R) (dt_T hcjj : R -> R) (L fa jd : R).
Let dt := dt_T jd.
Let E := hcjj (jd / 36525).
Hypothesis FA : 0 < cos fa.
Variables (theta : R -> R) (eps : R).
Hypothesis RUNS : runs m_coord pGST L E dt jd eps theta.
Lemma coord_H t : Rabs (t - jd) <= 2 -> fst (Mcoord m_coord pGST L fa E dt t) = rad2rrad (theta t).
Proof.
  intros T. destruct RUNS as (A & B & _). specialize (A t T). specialize (B t T). unfold Mcoord.
  destruct (llrConv (m_coord ((t + dt) / 36525)) E) as [[ra de] r] eqn:Q. destruct (place_ok _ _ _ _ A _ _ _ Q) as (P & R & _ & D). rewrite P in B.
  destruct (hour_angle_ok _ _ _ _ _ D R B) as (_ & k & ->). cbn [fst]. now rewrite rrad_turn.
Qed.
Lemma coord_rises t hz delta : rises m_coord fa E dt jd delta hz -> Rabs (t - jd) <= 2 -> snd (Mcoord m_coord pGST L fa E dt t) = hz t.
Proof.
  intros RI T. destruct RUNS as (A & B & _). specialize (A t T). specialize (B t T). destruct RI as (RI & _). destruct (RI t T) as (Z & RE). unfold Mcoord.
  destruct (llrConv (m_coord ((t + dt) / 36525)) E) as [[ra de] r] eqn:Q. destruct (place_ok _ _ _ _ A _ _ _ Q) as (P & R & N & D). rewrite N in RE. rewrite P in B, RE.
  destruct (hour_angle_ok _ _ _ _ _ D R B) as (D' & _). cbn [snd]. rewrite (limb_ok r R). exact (getH_reaches _ _ _ _ _ _ FA D' R Z RE).
Qed.
Lemma coord_never t : never m_coord fa E dt jd -> Rabs (t - jd) <= 2 -> snd (Mcoord m_coord pGST L fa E dt t) = PI.
Proof.
  intros NV T. destruct RUNS as (A & B & _). specialize (A t T). specialize (B t T). specialize (NV t T). unfold Mcoord.
  destruct (llrConv (m_coord ((t + dt) / 36525)) E) as [[ra de] r] eqn:Q. destruct (place_ok _ _ _ _ A _ _ _ Q) as (P & R & N & D). rewrite N in NV. rewrite P in B, NV.
  destruct (hour_angle_ok _ _ _ _ _ D R B) as (D' & _). cbn [snd]. rewrite (limb_ok r R). exact (getH_never _ _ _ _ _ FA D' R NV).
Qed.
(** with any hour angle [hz] that Mcoord returns *)
Lemma Mt_ok hz delta : 0 <= eps -> 0 <= delta -> eps + delta <= 0.45 ->
  (forall t, Rabs (t - jd) <= 2 -> snd (Mcoord m_coord pGST L fa E dt t) = hz t /\ 0 <= hz t <= PI) ->
  (forall t u, Rabs (t - jd) <= 2 -> Rabs (u - jd) <= 2 -> Rabs (hz u - hz t) <= delta * (2 * PI * 0.966) * Rabs (u - t)) ->
  exists n, lunar_day L dt jd n /\
  let r := Mt m_coord pGST dt_T hcjj L fa jd in let eta := eps + delta in
  Rabs (theta (mn_s r) - (2 * PI * IZR n - hz (mn_s r))) <= 3.65 * (eta * eta) /\
  Rabs (theta (mn_j r) - (2 * PI * IZR n + hz (mn_j r))) <= 3.65 * (eta * eta) /\
  Rabs (theta (mn_z r) - 2 * PI * IZR n) <= 3.65 * (eps * eps) /\
  Rabs (theta (mn_x r) - (2 * PI * IZR n + PI)) <= 3.65 * (eps * eps) /\
  Rabs (mn_s r - jd) <= 3 / 2 /\ Rabs (mn_j r - jd) <= 3 / 2 /\ Rabs (mn_z r - jd) <= 3 / 2 /\ Rabs (mn_x r - jd) <= 3 / 2.
Proof.
  intros E0 D0 ED HZ LIP. pose proof PI_bounds as PB. destruct (mod2_ok (mn_phase L dt jd)) as (n & MO & NB). exists n. split; [exact NB|].
  pose proof RUNS as RN. destruct RN as (_ & _ & ME & ST).
  set (t0 := jd - mn_mod2 (mn_phase L dt jd) 1).
  assert (T0 : Rabs (t0 - jd) <= 1 / 2) by (unfold t0; rewrite MO; apply Rabs_le; lra).
  assert (TH : Rabs (theta t0 - 2 * PI * IZR n) <= 0.508).
  { pose proof (ME t0 ltac:(lra)) as M. apply Rabs_le_inv in M.
    assert (PH : mn_phase L dt t0 = IZR n + 0.033863191967643 * (mn_phase L dt jd - IZR n)) by (unfold t0; rewrite MO; unfold mn_phase; lra).
    rewrite PH in M. set (q := mn_phase L dt jd - IZR n) in *.
    assert (Q : Rabs (2 * PI * (0.033863191967643 * q)) <= 0.108). { apply Rabs_le. nra. }
    apply Rabs_le_inv in Q. apply Rabs_le. lra. }
  set (sv := 2 * PI * 0.966) in *. assert (SV : 6.06 <= sv) by (unfold sv; lra). assert (SV0 : 0 < sv) by lra.
  assert (G : forall s, (s = 1 \/ s = -1) -> forall t u, Rabs (t - jd) <= 2 -> Rabs (u - jd) <= 2 ->
    Rabs (theta u - s * hz u - (theta t - s * hz t) - sv * (u - t)) <= (eps + delta) * sv * Rabs (u - t)).
  { intros s S t u T U. pose proof (ST t u T U) as X. pose proof (LIP t u T U) as Y.
    replace (theta u - s * hz u - (theta t - s * hz t) - sv * (u - t)) with ((theta u - theta t - sv * (u - t)) - s * (hz u - hz t)) by ring.
    replace ((eps + delta) * sv * Rabs (u - t)) with (eps * sv * Rabs (u - t) + delta * sv * Rabs (u - t)) by ring.
    apply Rabs_le_inv in X, Y. apply Rabs_le. destruct S; subst s; lra. }
  assert (K : forall a t u, Rabs (t - jd) <= 2 -> Rabs (u - jd) <= 2 -> Rabs (theta u - a - (theta t - a) - sv * (u - t)) <= eps * sv * Rabs (u - t)).
  { intros a t u T U. replace (theta u - a - (theta t - a) - sv * (u - t)) with (theta u - theta t - sv * (u - t)) by ring. apply ST; assumption. }
  destruct (HZ t0 ltac:(lra)) as (_ & Z0).
  pose proof (two_steps theta (fun t => -1 * hz t) n jd sv (eps + delta) t0 SV0 ltac:(lra) T0 TH ltac:(apply Rabs_le; lra) SV (G (-1) ltac:(auto))) as (RS & RS' & RS1).
  pose proof (two_steps theta (fun t => 1 * hz t) n jd sv (eps + delta) t0 SV0 ltac:(lra) T0 TH ltac:(apply Rabs_le; lra) SV (G 1 ltac:(auto))) as (RJ & RJ' & RJ1).
  pose proof (two_steps theta (fun _ => 0) n jd sv eps t0 SV0 ltac:(lra) T0 TH ltac:(apply Rabs_le; lra) SV (K 0)) as (RZ & RZ' & RZ1).
  pose proof (two_steps theta (fun _ => PI) n jd sv eps t0 SV0 ltac:(lra) T0 TH ltac:(apply Rabs_le; lra) SV (K PI)) as (RX & RX' & RX1).
  cbv beta zeta in RS, RS', RS1, RJ, RJ', RJ1, RZ, RZ', RZ1, RX, RX', RX1.
  unfold Mt. fold dt E sv. cbv zeta. fold t0.
  assert (CO : forall t, Rabs (t - jd) <= 2 -> Mcoord m_coord pGST L fa E dt t = (rad2rrad (theta t), hz t)).
  { intros t T. rewrite (surjective_pairing (Mcoord m_coord pGST L fa E dt t)). rewrite (coord_H t T). destruct (HZ t T) as (-> & _). reflexivity. }
  rewrite (CO t0) by lra. cbn [mn_s mn_j mn_z mn_x].
  replace (- hz t0) with (-1 * hz t0) by ring. replace (hz t0 - rad2rrad (theta t0)) with (1 * hz t0 - rad2rrad (theta t0)) by ring.
  rewrite !(CO _) by assumption.
  set (s1 := t0 + (-1 * hz t0 - rad2rrad (theta t0)) / sv) in *. set (j1 := t0 + (1 * hz t0 - rad2rrad (theta t0)) / sv) in *.
  set (z1 := t0 + (0 - rad2rrad (theta t0)) / sv) in *. set (x1 := t0 + (PI - rad2rrad (theta t0)) / sv) in *.
  replace (- hz s1) with (-1 * hz s1) by ring. replace (hz j1 - rad2rrad (theta j1)) with (1 * hz j1 - rad2rrad (theta j1)) by ring.
  repeat split; try assumption.
  - eapply Rle_trans; [|exact RS]. right. f_equal. ring.
  - eapply Rle_trans; [|exact RJ]. right. f_equal. ring.
  - eapply Rle_trans; [|exact RZ]. right. f_equal. ring.
Qed.
End Moon.

(** C138: the four moments belong to the lunar day whose mean transit is closest to jd.  At the rise the hour angle is that of the limb on
    the horizon before the transit, at the set the one after it, up to 3.65 eta^2, where eta tells how much the motion differs from the
    mean *)
Theorem C138_moon m_coord pGST dt_T hcjj L fa jd theta eps hz delta : 0 < cos fa -> 0 <= eps -> 0 <= delta -> eps + delta <= 0.45 ->
  let dt := dt_T jd in let E := hcjj (jd / 36525) in
  runs m_coord pGST L E dt jd eps theta -> rises m_coord fa E dt jd delta hz ->
  exists n, lunar_day L dt jd n /\
  let r := Mt m_coord pGST dt_T hcjj L fa jd in let eta := eps + delta in
  Rabs (theta (mn_s r) - (2 * PI * IZR n - hz (mn_s r))) <= 3.65 * (eta * eta) /\
  Rabs (theta (mn_j r) - (2 * PI * IZR n + hz (mn_j r))) <= 3.65 * (eta * eta) /\
  Rabs (theta (mn_z r) - 2 * PI * IZR n) <= 3.65 * (eps * eps) /\
  Rabs (theta (mn_x r) - (2 * PI * IZR n + PI)) <= 3.65 * (eps * eps) /\
  Rabs (mn_s r - jd) <= 3 / 2 /\ Rabs (mn_j r - jd) <= 3 / 2 /\ Rabs (mn_z r - jd) <= 3 / 2 /\ Rabs (mn_x r - jd) <= 3 / 2.
Proof.
  intros FA E0 D0 ED dt E RU RI. apply Mt_ok; try assumption. 2:{ apply RI. }
  intros t T. split; [exact (coord_rises _ _ _ _ _ _ _ FA _ _ RU t hz delta RI T)|]. destruct RI as (RI & _). apply (RI t T).
Qed.
Lemma abs_sin' x : Rabs (sin x) <= Rabs x.
Proof. pose proof (SjPolar.abs_sin x) as H. apply Rsqr_le_abs_0. exact H. Qed.
(** there the limb is at the horizon, in the east at the rise and in the west at the set *)
Lemma altitude_ok m_coord E dt t fa th a h : 0 < cos fa ->
  (let '(l, b, r) := m_coord ((t + dt) / 36525) in - (PI / 2) < b < PI / 2 /\ 0 < r) ->
  hour_angle (moon_at m_coord E dt t) th a -> forall c, reaches fa h (moon_at m_coord E dt t) c ->
  forall k e, Rabs (a - (2 * PI * IZR k + c)) <= e ->
  Rabs (sin_alt fa th (moon_at m_coord E dt t) - sin h) <= e /\
  Rabs (dot (west th) (moon_at m_coord E dt t) / norm (moon_at m_coord E dt t) - sqrt (1 - Rsqr (sin_alt (PI / 2) th (moon_at m_coord E dt t))) * sin c) <= e.
Proof.
  intros FA A HA c RE k e D. destruct (llrConv (m_coord ((t + dt) / 36525)) E) as [[ra de] r] eqn:Q.
  destruct (place_ok _ _ _ _ A _ _ _ Q) as (P & R & N & CD). rewrite P in *. destruct (hour_angle_ok _ _ _ _ _ CD R HA) as (CD' & j & J).
  apply reaches_ok in RE; auto.
  assert (AL : forall f, sin_alt f th (llr2xyz (ra, de, r)) = sin f * sin de + cos f * cos de * cos a).
  { intros f. unfold sin_alt. rewrite N. rewrite J, cos_Z, cos_minus. unfold dot, zenith, llr2xyz. field. lra. }
  assert (SH : sin h = sin fa * sin de + cos fa * cos de * cos c) by (rewrite RE; field; lra).
  assert (BF : 0 <= cos fa * cos de <= 1) by (pose proof (COS_bound fa); pose proof (COS_bound de); split; nra).
  pose proof (COS_bound de) as BD.
  split.
  - rewrite AL, SH. replace (sin fa * sin de + cos fa * cos de * cos a - (sin fa * sin de + cos fa * cos de * cos c)) with (cos fa * cos de * (cos a - cos c)) by ring.
    rewrite Rabs_mult, (Rabs_pos_eq (cos fa * cos de)) by lra.
    assert (X : Rabs (cos a - cos c) <= e).
    { apply Rle_trans with (2 := D). rewrite <- (cos_Z c k). replace (2 * PI * IZR k + c) with (c + 2 * PI * IZR k) by ring.
      set (b := c + 2 * PI * IZR k). rewrite form2. rewrite !Rabs_mult, (Rabs_left (-2)) by lra.
      pose proof (abs_sin' ((a - b) / 2)) as S1. pose proof (SIN_bound ((a + b) / 2)) as S2. assert (S3 : Rabs (sin ((a + b) / 2)) <= 1) by (apply Rabs_le; lra).
      pose proof (Rabs_pos (sin ((a - b) / 2))). assert (S4 : Rabs ((a - b) / 2) = Rabs (a - b) / 2) by (unfold Rdiv; rewrite Rabs_mult, (Rabs_pos_eq (/ 2)); lra). nra. }
    pose proof (Rabs_pos (cos a - cos c)). nra.
  - rewrite N, AL, sin_PI2, cos_PI2. 
    replace (sqrt (1 - Rsqr (1 * sin de + 0 * cos de * cos a))) with (cos de).
    2:{ symmetry. replace (1 - Rsqr (1 * sin de + 0 * cos de * cos a)) with (Rsqr (cos de)) by (unfold Rsqr; rewrite cs; ring). apply sqrt_Rsqr; lra. }
    replace (dot (west th) (llr2xyz (ra, de, r)) / r) with (cos de * sin a).
    2:{ rewrite J, sin_Z, sin_minus. unfold dot, west, llr2xyz. field. lra. }
    replace (cos de * sin a - cos de * sin c) with (cos de * (sin a - sin c)) by ring. rewrite Rabs_mult, (Rabs_pos_eq (cos de)) by lra.
    assert (X : Rabs (sin a - sin c) <= e).
    { apply Rle_trans with (2 := D). rewrite <- (sin_Z c k). replace (2 * PI * IZR k + c) with (c + 2 * PI * IZR k) by ring.
      set (b := c + 2 * PI * IZR k). rewrite form4. rewrite !Rabs_mult, (Rabs_pos_eq 2) by lra.
      pose proof (abs_sin' ((a - b) / 2)) as S1. pose proof (COS_bound ((a + b) / 2)) as S2. assert (S3 : Rabs (cos ((a + b) / 2)) <= 1) by (apply Rabs_le; lra).
      pose proof (Rabs_pos (sin ((a - b) / 2))). assert (S4 : Rabs ((a - b) / 2) = Rabs (a - b) / 2) by (unfold Rdiv; rewrite Rabs_mult, (Rabs_pos_eq (/ 2)); lra). pose proof (Rabs_pos (cos ((a + b) / 2))). nra. }
    pose proof (Rabs_pos (sin a - sin c)). nra.
Qed.
Theorem C138_altitude m_coord pGST dt_T hcjj L fa jd theta eps hz delta : 0 < cos fa -> 0 <= eps -> 0 <= delta -> eps + delta <= 0.45 ->
  let dt := dt_T jd in let E := hcjj (jd / 36525) in
  runs m_coord pGST L E dt jd eps theta -> rises m_coord fa E dt jd delta hz ->
  let r := Mt m_coord pGST dt_T hcjj L fa jd in let e := 3.65 * ((eps + delta) * (eps + delta)) in
  let height s := sin_alt fa (pGST s dt + L) (moon_at m_coord E dt s) - sin (limb (norm (moon_at m_coord E dt s))) in
  let to_west s := dot (west (pGST s dt + L)) (moon_at m_coord E dt s) / norm (moon_at m_coord E dt s) in
  Rabs (height (mn_s r)) <= e /\ to_west (mn_s r) <= e /\ Rabs (height (mn_j r)) <= e /\ - e <= to_west (mn_j r).
Proof.
  intros FA E0 D0 ED dt E RU RI r e height to_west.
  destruct (C138_moon m_coord pGST dt_T hcjj L fa jd theta eps hz delta FA E0 D0 ED RU RI) as (n & _ & S & J & _ & _ & SB & JB & _). fold r e in S, J, SB, JB.
  destruct RU as (RA & RB & _). destruct RI as (RI & _).
  assert (Q : forall t c, Rabs (t - jd) <= 3 / 2 -> reaches fa (limb (norm (moon_at m_coord E dt t))) (moon_at m_coord E dt t) c ->
    Rabs (theta t - (2 * PI * IZR n + c)) <= e -> Rabs (height t) <= e /\ exists q, 0 <= q /\ Rabs (to_west t - q * sin c) <= e).
  { intros t c T RE D. destruct (altitude_ok m_coord E dt t fa _ _ _ FA (RA t ltac:(lra)) (RB t ltac:(lra)) c RE n e D) as (X & Y).
    split; [exact X|]. eexists. split; [|exact Y]. apply sqrt_pos. }
  destruct (RI (mn_s r) ltac:(lra)) as (ZS & HS). destruct (RI (mn_j r) ltac:(lra)) as (ZJ & HJ).
  assert (HS' : reaches fa (limb (norm (moon_at m_coord E dt (mn_s r)))) (moon_at m_coord E dt (mn_s r)) (- hz (mn_s r))).
  { revert HS. unfold reaches. destruct (moon_at m_coord E dt (mn_s r)) as [[a b] c]. rewrite cos_neg. auto. }
  destruct (Q _ _ SB HS' ltac:(eapply Rle_trans; [|exact S]; right; f_equal; ring)) as (A1 & q & Q0 & A2).
  destruct (Q _ _ JB HJ J) as (B1 & q' & Q0' & B2).
  pose proof (sin_ge_0 _ (proj1 ZS) (proj2 ZS)) as S1. pose proof (sin_ge_0 _ (proj1 ZJ) (proj2 ZJ)) as S2.
  rewrite sin_neg in A2. apply Rabs_le_inv in A2, B2. repeat split; try assumption; nra.
Qed.
(** where the Moon does not cross the horizon, rise and set are the lower transits before and after *)
Theorem C138_never m_coord pGST dt_T hcjj L fa jd theta eps : 0 < cos fa -> 0 <= eps <= 0.45 ->
  let dt := dt_T jd in let E := hcjj (jd / 36525) in
  runs m_coord pGST L E dt jd eps theta -> never m_coord fa E dt jd ->
  exists n, lunar_day L dt jd n /\ let r := Mt m_coord pGST dt_T hcjj L fa jd in
  Rabs (theta (mn_s r) - (2 * PI * IZR n - PI)) <= 3.65 * (eps * eps) /\ Rabs (theta (mn_j r) - (2 * PI * IZR n + PI)) <= 3.65 * (eps * eps) /\
  Rabs (mn_s r - jd) <= 3 / 2 /\ Rabs (mn_j r - jd) <= 3 / 2.
Proof.
  intros FA E0 dt E RU NV. pose proof PI_RGT_0. destruct (Mt_ok m_coord pGST dt_T hcjj L fa jd theta eps RU (fun _ => PI) 0) as (n & LD & A & B & _ & _ & C & D & _); try lra.
  - intros t T. split; [exact (coord_never _ _ _ _ _ _ _ FA _ _ RU t NV T)|lra].
  - intros t u _ _. rewrite Rminus_diag_eq by reflexivity. rewrite Rabs_R0. lra.
  - exists n. split; [exact LD|]. replace (eps + 0) with eps in A, B by ring. repeat split; assumption.
Qed.
(** no rise, set or transit is left out: a moment s of the n civil days from the one with noon jd is in the lunar day of one of the calls for
    the noons jd - 1, ..., jd + n *)
Lemma cover L dt jd N s n a (theta : R) : Rabs (theta - 2 * PI * mn_phase L dt s) <= 0.4 -> theta = 2 * PI * IZR n + a -> Rabs a <= PI ->
  jd - 1 / 2 <= s <= jd + IZR N - 1 / 2 -> exists i, (-1 <= i <= N)%Z /\ lunar_day L dt (jd + IZR i) n /\ Rabs (s - (jd + IZR i)) <= 1.2.
Proof.
  intros M -> A S. pose proof PI_bounds as PB. apply Rabs_le_inv in M, A.
  assert (P1 : mn_phase L dt s - IZR n <= 0.5641) by nra. assert (P2 : - 0.5641 <= mn_phase L dt s - IZR n) by nra.
  set (c1 := 0.966136808032357). assert (PH : forall t, mn_phase L dt t = mn_phase L dt s + c1 * (t - s)) by (intros; unfold mn_phase, c1; lra).
  set (q := mn_phase L dt s - IZR n) in *.
  set (y := (1 / 2 - q) / c1 + (s - jd)). exists (Zfloor y). pose proof (Zfloor_lb y) as F1. pose proof (Zfloor_ub y) as F2.
  assert (Y0 : y = (1 / 2 - q) * / c1 + (s - jd)) by reflexivity.
  assert (C : 1.0350 <= / c1 <= 1.0351). { unfold c1. split; apply Rmult_le_reg_r with 0.966136808032357; try lra; rewrite Rinv_l by lra; lra. }
  assert (Y1 : y <= IZR N + 0.602) by nra. assert (Y2 : -0.57 <= y) by nra.
  assert (CY : c1 * (y - (s - jd)) = 1 / 2 - q) by (rewrite Y0; field; unfold c1; lra).
  split; [split|split].
  - apply le_IZR. assert (H : (-2 < Zfloor y)%Z) by (apply lt_IZR; lra). apply IZR_le. lia.
  - assert (H : (Zfloor y < N + 1)%Z) by (apply lt_IZR; rewrite plus_IZR; lra). lia.
  - unfold lunar_day. rewrite PH. replace (mn_phase L dt s + c1 * (jd + IZR (Zfloor y) - s) - IZR n) with (q + c1 * (IZR (Zfloor y) - (s - jd))) by (unfold q; ring).
    unfold c1 in *. split; lra.
  - apply Rabs_le. unfold c1 in *. lra.
Qed.
(** while TD-UT and obliquity do not change *)
Theorem C138_all m_coord pGST dt_T hcjj L fa jd theta eps hz delta dt E N : 0 < cos fa -> 0 <= eps -> 0 <= delta -> eps + delta <= 0.45 ->
  (forall t, dt_T t = dt) -> (forall t, hcjj t = E) ->
  (forall t, runs m_coord pGST L E dt t eps theta) -> (forall t, rises m_coord fa E dt t delta hz) ->
  forall s n, jd - 1 / 2 <= s <= jd + IZR N - 1 / 2 -> let eta := eps + delta in let day i := Mt m_coord pGST dt_T hcjj L fa (jd + IZR i) in
  (theta s = 2 * PI * IZR n - hz s -> exists i, (-1 <= i <= N)%Z /\ Rabs (mn_s (day i) - s) * (1 - eta) <= 0.603 * (eta * eta)) /\
  (theta s = 2 * PI * IZR n + hz s -> exists i, (-1 <= i <= N)%Z /\ Rabs (mn_j (day i) - s) * (1 - eta) <= 0.603 * (eta * eta)) /\
  (theta s = 2 * PI * IZR n -> exists i, (-1 <= i <= N)%Z /\ Rabs (mn_z (day i) - s) * (1 - eps) <= 0.603 * (eps * eps)).
Proof.
  intros FA E0 D0 ED DT HC RU RI s n S eta day. pose proof PI_bounds as PB.
  destruct (RU s) as (_ & _ & ME & _). specialize (ME s ltac:(rewrite Rminus_diag_eq by reflexivity; rewrite Rabs_R0; lra)).
  destruct (RI s) as (HZ & _). destruct (HZ s ltac:(rewrite Rminus_diag_eq by reflexivity; rewrite Rabs_R0; lra)) as (ZS & _).
  set (sv := 2 * PI * 0.966). assert (SV : 6.06 <= sv) by (unfold sv; lra).
  (* closeness of two zeros of an almost even motion *)
  assert (CL : forall (g : R -> R) e q c t, 0 <= e <= 0.45 -> Rabs (theta t - (2 * PI * IZR n + g t)) <= q ->
    theta s = 2 * PI * IZR n + g s -> Rabs (t - c) <= 3 / 2 -> Rabs (s - c) <= 1.2 -> q <= 3.65 * (e * e) ->
    (forall t u, Rabs (t - c) <= 2 -> Rabs (u - c) <= 2 -> Rabs (theta u - g u - (theta t - g t) - sv * (u - t)) <= e * sv * Rabs (u - t)) ->
    Rabs (t - s) * (1 - e) <= 0.603 * (e * e)).
  { intros g e q c t EE D Q T SC QE ST. pose proof (ST s t ltac:(lra) ltac:(lra)) as X. set (w := Rabs (t - s)) in *.
    assert (Y : sv * w <= q + e * sv * w).
    { replace (sv * w) with (Rabs (sv * (t - s))) by (unfold w; rewrite Rabs_mult, (Rabs_pos_eq sv); lra).
      apply Rabs_le_inv in X, D. apply Rabs_le. lra. }
    assert (W : 0 <= w) by apply Rabs_pos. assert (Z : sv * (w * (1 - e)) <= 3.65 * (e * e)) by lra.
    assert (0 <= w * (1 - e)) by (apply Rmult_le_pos; lra). nra. }
  assert (LU : forall c i k, lunar_day L dt c i -> lunar_day L dt c k -> k = i).
  { unfold lunar_day. intros c i k A B. assert (H : (k < i + 1 /\ i < k + 1)%Z) by (split; apply lt_IZR; rewrite plus_IZR; lra). lia. }
  assert (MM : forall i, lunar_day L dt (jd + IZR i) n -> let r := day i in
    Rabs (theta (mn_s r) - (2 * PI * IZR n - hz (mn_s r))) <= 3.65 * (eta * eta) /\
    Rabs (theta (mn_j r) - (2 * PI * IZR n + hz (mn_j r))) <= 3.65 * (eta * eta) /\
    Rabs (theta (mn_z r) - 2 * PI * IZR n) <= 3.65 * (eps * eps) /\
    Rabs (mn_s r - (jd + IZR i)) <= 3 / 2 /\ Rabs (mn_j r - (jd + IZR i)) <= 3 / 2 /\ Rabs (mn_z r - (jd + IZR i)) <= 3 / 2).
  { intros i LD. pose proof (C138_moon m_coord pGST dt_T hcjj L fa (jd + IZR i) theta eps hz delta FA E0 D0 ED) as X. cbv zeta in X. rewrite DT, HC in X.
    destruct (X (RU _) (RI _)) as (k & LK & A1 & A2 & A3 & _ & B1 & B2 & B3 & _). rewrite (LU _ _ _ LD LK) in *. repeat split; assumption. }
  assert (GG : forall c sg, (sg = 1 \/ sg = -1) -> forall t u, Rabs (t - c) <= 2 -> Rabs (u - c) <= 2 -> Rabs (theta u - sg * hz u - (theta t - sg * hz t) - sv * (u - t)) <= eta * sv * Rabs (u - t)).
  { intros c sg SG t u T U. destruct (RU c) as (_ & _ & _ & ST). destruct (RI c) as (_ & LIP). pose proof (ST t u T U) as X. pose proof (LIP t u T U) as Y. fold sv in X, Y.
    replace (theta u - sg * hz u - (theta t - sg * hz t) - sv * (u - t)) with ((theta u - theta t - sv * (u - t)) - sg * (hz u - hz t)) by ring.
    replace (eta * sv * Rabs (u - t)) with (eps * sv * Rabs (u - t) + delta * sv * Rabs (u - t)) by (unfold eta; ring).
    apply Rabs_le_inv in X, Y. apply Rabs_le. destruct SG; subst sg; lra. }
  assert (EE : 0 <= eta <= 0.45) by (unfold eta; lra).
  split; [|split]; intros Q.
  - destruct (cover L dt jd N s n (- hz s) (theta s) ME ltac:(lra) ltac:(apply Rabs_le; lra) S) as (i & I & LD & SC). exists i. split; [exact I|].
    destruct (MM i LD) as (A1 & _ & _ & B1 & _).
    apply (CL (fun t => -1 * hz t) eta _ (jd + IZR i) _ EE (Rle_refl _)); try assumption; [lra| |apply GG; auto].
    eapply Rle_trans; [|exact A1]. right. f_equal. ring.
  - destruct (cover L dt jd N s n (hz s) (theta s) ME ltac:(lra) ltac:(apply Rabs_le; lra) S) as (i & I & LD & SC). exists i. split; [exact I|].
    destruct (MM i LD) as (_ & A1 & _ & _ & B1 & _).
    apply (CL (fun t => 1 * hz t) eta _ (jd + IZR i) _ EE (Rle_refl _)); try assumption; [lra| |apply GG; auto].
    eapply Rle_trans; [|exact A1]. right. f_equal. ring.
  - destruct (cover L dt jd N s n 0 (theta s) ME ltac:(lra) ltac:(rewrite Rabs_R0; lra) S) as (i & I & LD & SC). exists i. split; [exact I|].
    destruct (MM i LD) as (_ & _ & A1 & _ & _ & B1).
    apply (CL (fun _ => 0) eps _ (jd + IZR i) _ ltac:(lra) (Rle_refl _)); try assumption; [lra| |].
    + eapply Rle_trans; [|exact A1]. right. f_equal. ring.
    + intros t u T U. destruct (RU (jd + IZR i)) as (_ & _ & _ & ST). replace (theta u - 0 - (theta t - 0) - sv * (u - t)) with (theta u - theta t - sv * (u - t)) by ring. apply ST; assumption.
Qed.

(** ** Witnesses: a Moon at a fixed place b north of the equator, 385000 km away, and the sidereal time of the mean motion *)
Definition still (b : R) : R -> vec := fun _ => (0, b, 385000).
Definition even_gst : R -> R -> R := fun t dt => 2 * PI * mn_phase 0 dt t.
Lemma moon_still b dt t : moon_at (still b) 0 dt t = (385000 * cos b, 0, 385000 * sin b).
Proof. unfold moon_at, still, llr2xyz, rot_x. rewrite cos_0, sin_0. f_equal; [f_equal|]; ring. Qed.
Lemma norm_still b dt t : norm (moon_at (still b) 0 dt t) = 385000.
Proof.
  rewrite moon_still. unfold norm. replace (385000 * cos b * (385000 * cos b) + 0 * 0 + 385000 * sin b * (385000 * sin b)) with (Rsqr 385000); [apply sqrt_Rsqr; lra|].
  unfold Rsqr. pose proof (cs b) as H. transitivity (385000 * 385000 * (cos b * cos b + sin b * sin b)); [rewrite H|]; ring.
Qed.
Lemma limb_small : - 0.1 <= limb 385000 <= 0.1.
Proof. unfold limb, cs_rEar. pose proof PI_bounds. lra. Qed.
Lemma runs_still b t0 : - (PI / 2) < b < PI / 2 -> runs (still b) even_gst 0 0 0 t0 0.00015 (fun t => even_gst t 0).
Proof.
  intros B. pose proof PI_bounds as PB. assert (CB : 0 < cos b) by (apply cos_gt_0; lra). split; [|split; [|split]].
  - intros t _. unfold still. lra.
  - intros t _. rewrite moon_still. exists (385000 * cos b). rewrite Rplus_0_r. unfold zenith, west, dot. rewrite cos_0, sin_0. repeat split; nra.
  - intros t _. unfold even_gst. rewrite Rminus_diag_eq by reflexivity. rewrite Rabs_R0. lra.
  - intros t u _ _. unfold even_gst. replace (2 * PI * mn_phase 0 0 u - 2 * PI * mn_phase 0 0 t - 2 * PI * 0.966 * (u - t)) with (2 * PI * 0.000136808032357 * (u - t)) by (unfold mn_phase; lra).
    rewrite Rabs_mult, Rabs_pos_eq by lra. apply Rmult_le_compat_r; [apply Rabs_pos|]. lra.
Qed.
Lemma rises_still t0 : rises (still 0) 0 0 0 t0 0 (fun _ => acos (sin (limb 385000))).
Proof.
  split.
  - intros t _. split; [apply acos_bound|]. rewrite norm_still, moon_still. unfold reaches. rewrite cos_0, sin_0, cos_acos by apply SIN_bound.
    replace (385000 * 1 * (385000 * 1) + 0 * 0) with (Rsqr 385000) by (unfold Rsqr; ring). rewrite sqrt_Rsqr by lra.
    pose proof (norm_still 0 0 t) as N. rewrite moon_still, cos_0, sin_0 in N. rewrite N. ring.
  - intros t u _ _. rewrite Rminus_diag_eq by reflexivity. rewrite Rabs_R0. lra.
Qed.
Example C138_witness : exists n, let r := Mt (still 0) even_gst (fun _ => 0) (fun _ => 0) 0 0 100 in
  lunar_day 0 0 100 n /\ Rabs (even_gst (mn_z r) 0 - 2 * PI * IZR n) <= 0.0000001 /\
  Rabs (even_gst (mn_s r) 0 - (2 * PI * IZR n - acos (sin (limb 385000)))) <= 0.0000001.
Proof.
  pose proof PI_bounds as PB. destruct (C138_moon (still 0) even_gst (fun _ => 0) (fun _ => 0) 0 0 100 _ 0.00015 _ 0
    ltac:(rewrite cos_0; lra) ltac:(lra) ltac:(lra) ltac:(lra) (runs_still 0 100 ltac:(lra)) (rises_still 100)) as (n & LD & S & _ & Z & _).
  exists n. split; [exact LD|]. split; lra.
Qed.
(** C138 refuted: a Moon that never sets is given a rise and a set *)
Theorem C138_never_refuted : exists m_coord pGST dt_T hcjj L fa jd theta, 0 < cos fa /\
  let dt := dt_T jd in let E := hcjj (jd / 36525) in
  runs m_coord pGST L E dt jd 0.00015 theta /\
  (forall t th, 1 / 2 <= sin_alt fa th (moon_at m_coord E dt t) /\ sin (limb (norm (moon_at m_coord E dt t))) <= 0.1) /\
  let r := Mt m_coord pGST dt_T hcjj L fa jd in exists n,
  Rabs (theta (mn_s r) - (2 * PI * IZR n - PI)) <= 0.0000001 /\ Rabs (theta (mn_j r) - (2 * PI * IZR n + PI)) <= 0.0000001 /\
  Rabs (mn_s r - jd) <= 3 / 2 /\ Rabs (mn_j r - jd) <= 3 / 2.
Proof.
  pose proof PI_bounds as PB. set (b := PI / 3).
  exists (still b), even_gst, (fun _ => 0), (fun _ => 0), 0, b, 100, (fun t => even_gst t 0).
  assert (CB : cos b = 1 / 2) by apply cos_PI3. assert (SB : sin b * sin b = 3 / 4). { pose proof (sin2_cos2 b) as X. unfold Rsqr in X. rewrite CB in X. lra. }
  assert (F : 0 < cos b) by lra. split; [exact F|]. cbv zeta.
  pose proof (runs_still b 100 ltac:(unfold b; lra)) as RU. split; [exact RU|].
  assert (SL : sin (limb 385000) <= 0.1).
  { pose proof limb_small as LS. pose proof (abs_sin' (limb 385000)) as A. apply Rle_trans with (1 := Rle_abs _). apply Rle_trans with (1 := A). apply Rabs_le. lra. }
  assert (UP : forall t th, 1 / 2 <= sin_alt b th (moon_at (still b) 0 0 t)).
  { intros t th. unfold sin_alt. rewrite norm_still, moon_still. unfold dot, zenith. pose proof (COS_bound th).
    replace ((cos b * cos th * (385000 * cos b) + cos b * sin th * 0 + sin b * (385000 * sin b)) / 385000) with (cos b * cos b * cos th + sin b * sin b) by (field; lra).
    rewrite SB, CB. lra. }
  split. { intros t th. rewrite norm_still. split; [apply UP|exact SL]. }
  destruct (C138_never (still b) even_gst (fun _ => 0) (fun _ => 0) 0 b 100 (fun t => even_gst t 0) 0.00015 F ltac:(lra) RU) as (n & _ & A & B & C & D).
  - intros t _ a RE. rewrite norm_still in RE. rewrite moon_still in RE. unfold reaches in RE. pose proof (norm_still b 0 t) as N. rewrite moon_still in N. rewrite N in RE.
    replace (385000 * cos b * (385000 * cos b) + 0 * 0) with (Rsqr (385000 * cos b)) in RE by (unfold Rsqr; ring). rewrite sqrt_Rsqr in RE by lra. rewrite CB in RE. pose proof (COS_bound a). 
    replace (sin b * (385000 * sin b)) with (385000 * (sin b * sin b)) in RE by ring. rewrite SB in RE. lra.
  - exists n. repeat split; lra.
Qed.
Print Assumptions C138_all.
