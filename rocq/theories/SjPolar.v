(** The midnight sun: sunShengJ answers 0, and secMax takes it for a moment. *)
From Coq Require Import ZArith Reals Lra Lia Psatz List.
From Flocq Require Import Core.
From Verif Require Import PiBound GeoModel GeoSpec GeoProof GeoProps ObsModel ObsSpec ObsProps SecModel SecProps SjModel SjProps.
Open Scope R_scope.

Lemma abs_sin x : sin x * sin x <= x * x.
Proof.
  assert (P : forall y, 0 <= y -> - y <= sin y <= y).
  { intros y [H| <-]; [|rewrite sin_0; lra]. pose proof (sin_lt_x y H). destruct (Rle_dec y PI). { pose proof (sin_ge_0 y). lra. } pose proof (SIN_bound y). pose proof PI_bounds. lra. }
  destruct (Rle_dec 0 x) as [H|H]. { specialize (P x H). nra. } specialize (P (- x) ltac:(lra)). rewrite sin_neg in P. nra.
Qed.
Lemma near_one e : 1 - e * e / 2 <= cos e.
Proof. replace (cos e) with (cos (2 * (e / 2))) by (f_equal; field). rewrite cos_2a_sin. pose proof (abs_sin (e / 2)). nra. Qed.
Lemma summer_J s : 171.5 <= s <= 172.5 -> exists e, Rabs e <= 0.05 /\ sj_J (sj_t (s / 36525)) = PI / 2 + 2 * PI + e.
Proof.
  intros H. set (T := s / 36525). set (t := sj_t T). exists (sj_J t - (PI / 2 + 2 * PI)). split; [|ring]. pose proof PI_bounds as PB.
  assert (HT : 171.5 / 36525 <= T <= 172.5 / 36525) by (unfold T; lra).
  assert (Ht : T + 80 / 3155760000 <= t <= T + 90 / 3155760000).
  { unfold t, sj_t. assert (3.255 <= (T + 1.8) * (T + 1.8) <= 3.2612) by (split; nra). split; nra. }
  clearbody t. unfold sj_J.
  pose proof (COS_bound (4.669257 + 628.307585 * t)) as C1. pose proof (COS_bound (4.6261 + 1256.61517 * t)) as C2. pose proof (COS_bound (2.67823 + 628.307585 * t)) as C3.
  set (c1 := cos (4.669257 + 628.307585 * t)) in *. set (c2 := cos (4.6261 + 1256.61517 * t)) in *. set (c3 := cos (2.67823 + 628.307585 * t)) in *. clearbody c1 c2 c3.
  assert (T3 : - 0.01 <= c3 * t <= 0.01) by (split; nra). assert (T2 : 0 <= t * t <= 1) by (split; nra).
  replace (53 * t * t) with (53 * (t * t)) by ring. replace (2060.6 * c3 * t) with (2060.6 * (c3 * t)) by ring.
  set (q := t * t) in *. set (w := c3 * t) in *. clearbody q w. apply Rabs_le. lra.
Qed.
(** for 24 hours around the June solstice of 2000 the Sun does not set north of 1.5 radians (86 degrees) *)
Theorem midnight_sun s fa : 171.5 <= s <= 172.5 -> 1.5 <= fa < PI / 2 ->
  forall th, 0 < dot (zenith fa th) (sun_dir (sj_E (s / 36525)) (sj_J (sj_t (s / 36525)))).
Proof.
  intros HS HF th. set (E := sj_E (s / 36525)). destruct (summer_J s HS) as (e & He & EJ). set (J := sj_J (sj_t (s / 36525))) in *. pose proof PI_bounds as PB.
  assert (HE : 0.4 <= E <= 0.42).
  { unfold E, sj_E, sj_rad. replace ((84381.4060 - 46.836769 * (s / 36525)) / (180 * 3600 / PI)) with (((84381.4060 - 46.836769 * (s / 36525)) / 648000) * PI) by (field; lra).
    assert (0.13 <= (84381.4060 - 46.836769 * (s / 36525)) / 648000 <= 0.131) by lra. nra. }
  assert (CE : 0 < cos E) by (apply cos_gt_0; lra).
  assert (SE : 0.3 <= sin E).
  { destruct (pre_sin_bound E 0 ltac:(lra) ltac:(lra)) as (L & _). unfold sin_approx, sum_f_R0, sin_term in L. cbn in L.
    apply Rle_trans with (2 := L). assert (E * E <= 0.2) by nra. nra. }
  assert (SJ : 0.99 <= sin J). { rewrite EJ. replace (PI / 2 + 2 * PI + e) with (PI / 2 + e + 2 * 1 * PI) by ring. pose proof (sin_period (PI / 2 + e) 1) as P. cbn [INR] in P. rewrite P. replace (PI / 2 + e) with (PI / 2 - (- e)) by ring. rewrite sin_shift, cos_neg. pose proof (near_one e). apply Rabs_le_inv in He. nra. }
  destruct (alt_eq E J fa th CE) as (-> & _). destruct (place E J CE) as (CD & SD & _). set (D := sj_D E J) in *. set (A := sj_A E J). rewrite SD.
  assert (CF : 0 < cos fa <= 0.08).
  { split; [apply cos_gt_0; lra|]. rewrite <- sin_shift. pose proof (sin_lt_x (PI / 2 - fa) ltac:(lra)). lra. }
  assert (SF : 0.9 <= sin fa). { pose proof (sin2_cos2 fa) as Q. unfold Rsqr in Q. assert (0 < sin fa) by (apply sin_gt_0; lra). nra. }
  pose proof (COS_bound (th - A)) as C. pose proof (COS_bound D) as C'. assert (M : -1 <= cos D * cos (th - A)) by nra.
  assert (S1 : 0.29 <= sin E * sin J) by nra. nra.
Qed.
Lemma dip_pos : 0 < sin dip.
Proof. unfold dip. pose proof PI_bounds. apply sin_gt_0; lra. Qed.
Lemma polar_step L s fa sj : (sj = 1 \/ sj = -1)%Z -> 171.5 <= s <= 172.5 -> 1.5 <= fa < PI / 2 -> sj_step L fa sj s = None.
Proof.
  intros HS H HF. pose proof PI_bounds as PB. pose proof (C132_step L fa sj s ltac:(apply cos_gt_0; lra) HS ltac:(apply Rabs_le; lra)) as K. destruct (sj_step L fa sj s); [|reflexivity].
  destruct K as (_ & N & _). elim N. intros th. pose proof (midnight_sun s fa H HF th). pose proof dip_pos. lra.
Qed.
Lemma polar_zero jd L fa sj : (sj = 1 \/ sj = -1)%Z -> 171.6 <= jd <= 172.4 -> Rabs L <= PI -> 1.5 <= fa < PI / 2 -> sunShengJ jd L fa sj = 0.
Proof.
  intros HS HJ HL HF. unfold sunShengJ. assert (F : Zfloor (jd + 0.5) = 172%Z) by (apply Zfloor_imp; cbn; lra). rewrite F. cbv zeta.
  rewrite polar_step; [reflexivity|exact HS| |exact HF]. pose proof PI_RGT_0 as PP. apply Rabs_le_inv in HL.
  assert (- (1 / 2) <= L / (2 * PI) <= 1 / 2). { split; apply Rmult_le_reg_r with (2 * PI); try lra; unfold Rdiv; rewrite Rmult_assoc, Rinv_l; lra. } lra.
Qed.
(** 0 is not told from a moment: under the midnight sun sunrise and sunset both are the beginning of 1 January 2000 (noon), months away *)
Theorem C132_zero_refuted : exists jd L fa, (forall s th, Rabs (s - jd) <= 1 / 2 -> 0 < dot (zenith fa th) (sun_dir (sj_E (s / 36525)) (sj_J (sj_t (s / 36525))))) /\
  sunShengJ jd L fa (-1) = 0 /\ sunShengJ jd L fa 1 = 0 /\ 100 < jd.
Proof.
  exists 172, 0, 1.5. pose proof PI_bounds as PB. split. { intros s th H. apply Rabs_le_inv in H. apply midnight_sun; lra. }
  split; [|split]; [apply polar_zero|apply polar_zero|lra]; try lra; try (rewrite Rabs_R0; lra); auto.
Qed.
(** An eclipse whose greatest phase is at 172, seen under the midnight sun: total, but no moment is left, and the Sun is up all the time *)
Theorem C133_polar_refuted : exists XY dt L fa jd, (forall s, re_t (XY s) = s) /\
  (forall s th, 171.5 <= s <= 172.5 -> 0 < dot (zenith fa th) (sun_dir (sj_E (s / 36525)) (sj_J (sj_t (s / 36525))))) /\
  (forall s, 171.9 <= s <= 172.1 -> distance (re_x (XY s)) (re_y (XY s)) < re_mr (XY s) + re_sr (XY s)) /\
  let l := secMax XY (sec_sun dt L fa) jd in c_kind l = sec_total /\ forall i, (i < 5)%nat -> c_T l i = 0.
Proof.
  pose proof PI_bounds as PB. set (d := 64 / 86400).
  exists (straight (-172) 0 1 0 (2 / 10) (1 / 10) 0), (fun _ => d), 0, 1.5, 171. split; [reflexivity|].
  split. { intros s th H. apply midnight_sun; lra. }
  assert (DD : forall s, distance (-172 + 1 * s) (0 + 0 * s) = Rabs (s - 172)).
  { intros s. unfold distance. replace ((-172 + 1 * s) * (-172 + 1 * s) + (0 + 0 * s) * (0 + 0 * s)) with ((s - 172) * (s - 172)) by ring. fold (Rsqr (s - 172)). apply sqrt_Rsqr_abs. }
  split. { intros s Hs. cbn. rewrite DD. unfold re_sr. cbn. apply Rabs_def1; lra. }
  intros l. destruct (C104_straight (-172) 0 1 0 (2 / 10) (1 / 10) 0 (sec_sun (fun _ => d) 0 1.5) 171) as (m & M & rise & set & S & C); [lra|lra|lra| |].
  { exists 172. rewrite DD. replace (172 - 172) with 0 by ring. rewrite Rabs_R0. lra. }
  cbv zeta in C. change (secMax (straight (-172) 0 1 0 (2 / 10) (1 / 10) 0) (sec_sun (fun _ => d) 0 1.5) 171) with l in C.
  assert (Em : m = 172). { specialize (M 172). rewrite !DD in M. replace (172 - 172) with 0 in M by ring. rewrite Rabs_R0 in M. pose proof (Rabs_pos (m - 172)) as P. assert (Z : Rabs (m - 172) = 0) by lra. destruct (Req_dec (m - 172) 0) as [Q|Q]; [lra|]. elim (Rabs_no_R0 _ Q Z). }
  subst m. rewrite DD in C. replace (172 - 172) with 0 in C by ring. rewrite Rabs_R0 in C.
  unfold sec_sun in S. rewrite !polar_zero in S by (try (rewrite Rabs_R0); auto; unfold d; lra). assert (rise = d) by (assert (0 + d = rise) by congruence; lra). assert (set = d) by (assert (0 + d = set) by congruence; lra). subst rise set.
  assert (A : Rabs (2 / 10 - 1 / 10) = 1 / 10) by (rewrite Rabs_right; lra). rewrite A in C.
  destruct C as (C1 & _ & C2 & CI & (c0 & c2 & (F0 & L2) & C3 & C4) & C5 & C6 & NN & C7).
  destruct (C7 ltac:(lra)) as (c3 & c4 & (F3 & L4) & C8 & C9 & C10). clear C7 CI C2 C5 NN.
  assert (SH : forall r c, r <= 0.3 -> distance (-172 + 1 * c) (0 + 0 * c) <= r -> shown d d c = 0).
  { intros r c Hr Hc. rewrite DD in Hc. apply Rabs_le_inv in Hc. unfold shown. destruct (Rlt_dec c d); [reflexivity|]. destruct (Rlt_dec d c); [reflexivity|]. unfold d in *. lra. }
  split; [apply C6; lra|]. intros i Hi.
  destruct i as [|[|[|[|[|i]]]]]; [rewrite C3|rewrite C1|rewrite C4|rewrite C8|rewrite C9|lia].
  - apply (SH (2 / 10 + 1 / 10)); [lra|]. apply F0.
  - apply (SH 0); [lra|]. rewrite DD. replace (172 - 172) with 0 by ring. rewrite Rabs_R0. lra.
  - apply (SH (2 / 10 + 1 / 10)); [lra|]. apply L2.
  - apply (SH (1 / 10)); [lra|]. apply F3.
  - apply (SH (1 / 10)); [lra|]. apply L4.
Qed.
(** what is kept of an eclipse lies between the two moments of sunShengJ for the day of the greatest phase *)
Theorem C133_times XY dt L fa jd : (forall s, re_t (XY s) = s) -> (forall s, 0 < re_mr (XY s) /\ 0 < re_sr (XY s)) -> exists j, forall i,
  let l := secMax XY (sec_sun dt L fa) jd in
  let at_sun sj := sunShengJ (j - dt j + L / (2 * PI)) L fa sj in
  c_T l i = 0 \/ at_sun (-1)%Z <= c_T l i - dt j <= at_sun 1%Z.
Proof.
  intros Ht HR. destruct (C104_general XY (sec_sun dt L fa) jd Ht HR) as (a0 & a & b & j & rise & set & S & _ & _ & _ & _ & _ & _ & _ & T & _).
  exists j. intros i l at_sun. destruct (T i) as [Z|B]; [left; exact Z|right]. unfold sec_sun in S. injection S as <- <-. fold l in B. fold (at_sun (-1)%Z) in B. fold (at_sun 1%Z) in B. lra.
Qed.
(** at the equator the Sun rises and sets every day *)
Lemma equator s : Rabs s <= 36525000 -> ~ always_up 0 s /\ ~ always_down 0 s.
Proof.
  intros H. assert (HT : Rabs (s / 36525) <= 1000) by (apply Rabs_le_inv in H; apply Rabs_le; lra). pose proof (E_bounds _ HT) as EB. pose proof (cosE_pos _ HT) as CE. pose proof PI_bounds as PB.
  unfold always_up, always_down. set (E := sj_E (s / 36525)) in *. set (J := sj_J (sj_t (s / 36525))).
  pose proof (fun th => alt_eq E J 0 th CE) as AL. destruct (place E J CE) as (CD & SD & X & Y). cbv zeta in AL. set (A := sj_A E J) in *. set (D := sj_D E J) in *.
  assert (SB : sin dip < 0.02) by (pose proof (sin_lt_x dip); unfold dip in *; lra).
  assert (Q : 1 / 2 <= cos E * cos E). { pose proof (near_one E) as N. assert (E * E <= 0.62) by nra. assert (0.69 <= cos E) by lra. destruct (sin2_cos2 E). unfold Rsqr. assert (sin E <= sin (PI / 4)) by (apply sin_incr_1; lra). rewrite sin_PI4 in *. assert (0 < sin E) by (apply sin_gt_0; lra). assert (S2 : (1 / sqrt 2) * (1 / sqrt 2) = 1 / 2). { pose proof (sqrt_lt_R0 2 ltac:(lra)). replace (1 / sqrt 2 * (1 / sqrt 2)) with (1 / (sqrt 2 * sqrt 2)) by (field; lra). rewrite sqrt_sqrt; lra. } pose proof (sin2_cos2 E) as Q. unfold Rsqr in Q. nra. }
  assert (DB : 1 / 2 <= cos D * cos D). { pose proof (sin2_cos2 D) as Q1. pose proof (sin2_cos2 E) as Q2. pose proof (SIN_bound J) as B. unfold Rsqr in Q1, Q2. rewrite SD in Q1. assert (sin J * sin J <= 1) by nra. assert (sin E * sin E * (sin J * sin J) <= 1 / 2) by nra. nra. }
  assert (DL : 0.5 <= cos D) by nra.
  split; intros U.
  - specialize (U (A + PI)). destruct (AL (A + PI)) as (E1 & _). rewrite E1, sin_0, cos_0 in U. replace (A + PI - A) with PI in U by ring. rewrite cos_PI in U. lra.
  - specialize (U A). destruct (AL A) as (E1 & _). rewrite E1, sin_0, cos_0 in U. replace (A - A) with 0 in U by ring. rewrite cos_0 in U. pose proof dip_pos. lra.
Qed.
Example C132_witness : exists s1, next_crossing 0 0 1 5 s1 /\ next_crossing 0 0 1 s1 (sunShengJ 5 0 0 1).
Proof.
  pose proof PI_bounds as PB. destruct (C132_sun 5 0 0 1) as (n & s0 & E & B & K); [rewrite cos_0; lra|auto|rewrite Rabs_right; lra|rewrite Rabs_R0; lra|].
  assert (N : n = 5%Z). { destruct B as (B1 & B2). apply Z.le_antisymm; apply Z.lt_succ_r; apply lt_IZR; cbn; [|]; rewrite ?succ_IZR; lra. } subst n.
  assert (S0 : s0 = 5) by lra. subst s0. destruct K as [K|[(_ & K)|(_ & s1 & N1 & K)]]; [exact K| |].
  - destruct (equator 5) as (U & W); [rewrite Rabs_right; lra|]. destruct K; contradiction.
  - destruct (equator s1) as (U & W). { destruct N1 as (_ & _ & D). apply Rabs_le_inv in D. apply Rabs_le. lra. } destruct K; contradiction.
Qed.
(** At the mean noon of Greenwich the longitude of the Sun is the sidereal time to within two degrees (the equation of the centre), for a century on either side of 2000. *)
Theorem C132_noon n : (-36525 <= n <= 36525)%Z -> exists k, Rabs (sj_gst (IZR n) (IZR n / 36525) - sj_J (sj_t (IZR n / 36525)) - 2 * PI * IZR k) <= 0.0341.
Proof.
  intros H. exists n. assert (HT : -1 <= IZR n / 36525 <= 1). { destruct H as (H1 & H2). apply IZR_le in H1, H2. lra. }
  set (T := IZR n / 36525) in *. assert (EN : IZR n = 36525 * T) by (unfold T; field). rewrite EN. clearbody T. clear EN H n.
  pose proof PI_bounds as PB. unfold sj_gst, sj_rad. set (u := sj_t T).
  assert (Hu : Rabs (u - T) <= 0.0000001). { unfold u, sj_t. apply Rabs_le. assert (0 <= (T + 1.8) * (T + 1.8) <= 7.84) by (split; nra). split; nra. }
  apply Rabs_le_inv in Hu. clearbody u. unfold sj_J.
  pose proof (COS_bound (4.669257 + 628.307585 * u)) as C1. pose proof (COS_bound (4.6261 + 1256.61517 * u)) as C2. pose proof (COS_bound (2.67823 + 628.307585 * u)) as C3.
  set (c1 := cos (4.669257 + 628.307585 * u)) in *. set (c2 := cos (4.6261 + 1256.61517 * u)) in *. set (c3 := cos (2.67823 + 628.307585 * u)) in *. clearbody c1 c2 c3.
  assert (T3 : - 1.01 <= c3 * u <= 1.01) by (split; nra). assert (T2 : 0 <= u * u <= 1.01) by (split; nra). assert (TT : 0 <= T * T <= 1) by (split; nra).
  replace ((0.014506 + 4612.15739966 * T + 1.39667721 * T * T) / (180 * 3600 / PI)) with ((0.014506 * PI + 4612.15739966 * (T * PI) + 1.39667721 * (T * T * PI)) / 648000) by (field; lra).
  assert (TP : -0.00000001 <= T * PI - T * 3.1415926535897932 <= 0.00000001) by (split; nra).
  assert (TP2 : 0 <= T * T * PI <= 3.2) by (split; nra).
  replace ((0.7790572732640 + 1.00273781191135448 * (36525 * T)) * (2 * PI)) with (1.5581145465280 * PI + 2.00547562382270896 * 36525 * (T * PI)) by lra.
  replace (2 * PI * (36525 * T)) with (2 * 36525 * (T * PI)) by ring.
  replace (53 * u * u) with (53 * (u * u)) by ring. replace (2060.6 * c3 * u) with (2060.6 * (c3 * u)) by ring.
  set (q := u * u) in *. set (w := c3 * u) in *. set (tp := T * PI) in *. set (ttp := T * T * PI) in *. clearbody q w tp ttp. apply Rabs_le. split; lra.
Qed.
