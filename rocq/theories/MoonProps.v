(** C91: the moment at which the Moon is ahead of the Sun by a given angle. *)
From Coq Require Import ZArith Reals Lia Lra Bool List.
From Coq Require Import Floats.SpecFloat.
From Flocq Require Import Core IEEE754.BinarySingleNaN.
From Verif Require Import F64 F64R F64T F64E SsqModel AngModel AngProps PiBound ErrExpr SmTab SerModel SerSpec FormModel FormSpec FormProps WaveF WaveR SmModel SmSpec SmF SmLon SmProps SmSun SmNewton SunProps LonProps SmMoon IllProps.
Import ListNotations.
Open Scope R_scope.

Definition el_speed (t : R) : R := moon_speed t - earth_speed t.
Lemma el_is t : elongation t = moon_full t - 3.4e-6 - (sun_longitude t - nut_lon t).
Proof. unfold elongation, sun_longitude. ring. Qed.
Definition el_rho (T S : Z) : R := moon_rho T + earth_rho S + 0.0016.
Definition el_K (T S : Z) : R := moon_K T + earth_K S.
Lemma el_step T S t t' : (10 <= T <= 10 * S)%Z -> (S <= 10)%Z -> Rabs t <= IZR T -> Rabs t' <= IZR T ->
  Rabs (elongation t' - elongation t - el_speed t * (t' - t)) <= el_rho T S * Rabs (t' - t) + el_K T S * (t' - t) ^ 2 + 4.2e-6.
Proof.
  intros HT HS B B'. assert (TS : IZR T <= 10 * IZR S) by (rewrite <- mult_IZR; apply IZR_le; lia). assert (T1 : IZR T <= 100) by (apply IZR_le; lia).
  pose proof (moon_step T t t' ltac:(lia) B B') as M. pose proof (earth_step S ltac:(lia) t t' ltac:(lra) ltac:(lra)) as E. pose proof (sun_ab_lip t t' ltac:(lra) ltac:(lra)) as A.
  assert (Q := diff_le _ _ _ _ (diff_le _ _ _ _ M E) A). unfold elongation, el_speed.
  match type of Q with Rabs ?x <= _ => match goal with |- Rabs ?z <= _ => replace z with x by ring end end. apply Rle_trans with (1 := Q). unfold el_rho, el_K. right. ring.
Qed.
(** against the mean motion *)
Definition el_slope_dev (T S : Z) : R := kap * (group_rho T 0 ML0 + group_rho T 1 ML1 + group_rho T 2 ML2 + group_rho T 3 ML3) + poly_rho T + (1.43 + 0.108 * (IZR T - 10)) / 206264 + slope_dev S + 0.0409.
Lemma el_slope T S t t' : (10 <= T <= 10 * S)%Z -> (S <= 10)%Z -> Rabs t <= IZR T -> Rabs t' <= IZR T ->
  Rabs (elongation t' - elongation t - 7771.37714500204 * (t' - t)) <= el_slope_dev T S * Rabs (t' - t) + 4.2e-6.
Proof.
  intros HT HS B B'. assert (TS : IZR T <= 10 * IZR S) by (rewrite <- mult_IZR; apply IZR_le; lia). assert (T1 : IZR T <= 100) by (apply IZR_le; lia). assert (T0 : (0 <= T)%Z) by lia.
  rewrite !el_is, !moon_full_is. pose proof (sun_slope S t t' ltac:(lia) ltac:(lra) ltac:(lra)) as SS. pose proof (nut_lip t t' ltac:(lra) ltac:(lra)) as N.
  pose proof (mean_step T t t' ltac:(lia) B B') as M. pose proof (late_step T t t' ltac:(lia) B B') as L.
  pose proof kap_range as KR. assert (KP : Rabs kap <= kap) by (rewrite Rabs_pos_eq; [apply Rle_refl|revert KR; decs; lra]).
  pose proof (prod_le _ _ _ _ KP (pows_lip T 0 ML0 t t' T0 B B')) as G0. pose proof (prod_le _ _ _ _ KP (pows_lip T 1 ML1 t t' T0 B B')) as G1.
  pose proof (prod_le _ _ _ _ KP (pows_lip T 2 ML2 t t' T0 B B')) as G2. pose proof (prod_le _ _ _ _ KP (pows_lip T 3 ML3 t t' T0 B B')) as G3.
  fold (group_rho T 0 ML0) in G0. fold (group_rho T 1 ML1) in G1. fold (group_rho T 2 ML2) in G2. fold (group_rho T 3 ML3) in G3.
  rewrite !pow_O, !Rmult_1_l in G0. rewrite !pow_1 in G1.
  assert (D : Rabs ((mean_rate - 628.33196674749 - 7771.37714500204) * (t' - t)) <= 0.00001 * Rabs (t' - t)).
  { apply prod_le; [|apply Rle_refl]. unfold mean_rate. pose proof PI_bounds as P. revert P. decs. intros P. apply Rabs_le. lra. }
  assert (Q := sum_le _ _ _ _ (sum_le _ _ _ _ (diff_le _ _ _ _ (sum_le _ _ _ _ (sum_le _ _ _ _ (sum_le _ _ _ _ (sum_le _ _ _ _ (sum_le _ _ _ _ G0 G1) G2) G3) M) L) SS) N) D).
  match type of Q with Rabs ?x <= _ => match goal with |- Rabs ?z <= _ => replace z with x by ring end end.
  apply Rle_trans with (1 := Q). unfold el_slope_dev. pose proof (Rabs_pos (t' - t)). decs. lra.
Qed.
Definition el_mean (t : R) : R := - 1.08472 + 7771.37714500204 * t.
Definition el_dev (T S : Z) : R := kap * (IZR (amp ML0) + IZR T * IZR (amp ML1) + IZR T ^ 2 * IZR (amp ML2) + IZR T ^ 3 * IZR (amp ML3)) +
  (IZR T ^ 2 * 3.319e-5 + IZR T ^ 3 * 3.11e-8 + IZR T ^ 4 * 2.033e-10 + (IZR T ^ 2 * 1.1124406 + IZR T ^ 3 * 0.00007699 + IZR T ^ 4 * 0.000023479 + IZR T ^ 5 * 0.0000000178 + 0.866 + 1.43 * IZR T + 0.054 * IZR T ^ 2) / 206264) +
  mean_dev S + 0.0011 + 0.00001 * IZR T.
Lemma el_dev_ok T S t : (10 <= T <= 10 * S)%Z -> (S <= 10)%Z -> Rabs t <= IZR T -> Rabs (el_mean t - elongation t) <= el_dev T S.
Proof.
  intros HT HS B. assert (TS : IZR T <= 10 * IZR S) by (rewrite <- mult_IZR; apply IZR_le; lia). assert (T1 : 10 <= IZR T <= 100) by (split; apply IZR_le; lia).
  rewrite el_is, moon_full_is. pose proof (sun_dev S t ltac:(lia) ltac:(lra)) as SD. pose proof (nut_small t ltac:(lra)) as N.
  assert (L : Rabs (late t) <= (0.866 + 1.43 * IZR T + 0.054 * IZR T ^ 2) / 206264).
  { unfold late. destruct (Rlt_dec 10 t) as [Lt|Lt].
    - apply arcsec_le. apply Rabs_le_inv in B. assert (S2 : 0 <= (t - 10) ^ 2 <= IZR T ^ 2) by (split; [apply pow2_ge_0|apply pow_incr; lra]).
      apply Rabs_le. decs. lra.
    - rewrite Rabs_R0. pose proof (pow2_ge_0 (IZR T)). decs. lra. }
  assert (c0 : forall k c, 0 <= c -> Rabs (c * t ^ k) <= IZR T ^ k * c) by (intros k c C; rewrite Rmult_comm; apply prod_le; [apply powk, B|rewrite Rabs_pos_eq; [apply Rle_refl|exact C]]).
  pose proof (c0 2%nat 3.319e-5 ltac:(decs; lra)) as A2. pose proof (c0 3%nat 3.11e-8 ltac:(decs; lra)) as A3. pose proof (c0 4%nat 2.033e-10 ltac:(decs; lra)) as A4.
  assert (C := arcsec_le _ _ (diff_le _ _ _ _ (diff_le _ _ _ _ (sum_le _ _ _ _ (c0 2%nat 1.1124406 ltac:(decs; lra)) (c0 3%nat 0.00007699 ltac:(decs; lra))) (c0 4%nat 0.000023479 ltac:(decs; lra))) (c0 5%nat 0.0000000178 ltac:(decs; lra)))).
  pose proof kap_range as KR. assert (KP : Rabs kap <= kap) by (rewrite Rabs_pos_eq; [apply Rle_refl|revert KR; decs; lra]).
  assert (G := prod_le _ _ _ _ KP (sum_le _ _ _ _ (sum_le _ _ _ _ (sum_le _ _ _ _ (ws_amp ML0 t) (prod_le _ _ _ _ B (ws_amp ML1 t))) (prod_le _ _ _ _ (powk t _ 2 B) (ws_amp ML2 t))) (prod_le _ _ _ _ (powk t _ 3 B) (ws_amp ML3 t)))).
  unfold el_mean, el_dev, moon_mean. unfold sun_mean in SD. pose proof PI_bounds as P.
  set (a2 := 3.319e-5 * t ^ 2) in *. set (a3 := 3.11e-8 * t ^ 3) in *. set (a4 := 2.033e-10 * t ^ 4) in *.
  assert (AE : arcsec (5028.792262 * t + 1.1124406 * t ^ 2 + 0.00007699 * t ^ 3 - 0.000023479 * t ^ 4 - 0.0000000178 * t ^ 5) = 5028.792262 * (PI / 648000) * t + arcsec (1.1124406 * t ^ 2 + 0.00007699 * t ^ 3 - 0.000023479 * t ^ 4 - 0.0000000178 * t ^ 5)) by (unfold arcsec; field).
  rewrite AE. set (ar := arcsec (1.1124406 * t ^ 2 + 0.00007699 * t ^ 3 - 0.000023479 * t ^ 4 - 0.0000000178 * t ^ 5)) in *.
  assert (D : Rabs ((5028.792262 * (PI / 648000) + 8399.684730072 - 628.3319653318 - 7771.37714500204) * t) <= 0.00001 * IZR T).
  { apply prod_le; [|exact B]. revert P. decs. intros P. apply Rabs_le. lra. }
  clearbody a2 a3 a4 ar. clear AE.
  set (g := kap * (ws ML0 t + t * ws ML1 t + t ^ 2 * ws ML2 t + t ^ 3 * ws ML3 t)) in *.
  replace (kap * ws ML0 t + kap * (t * ws ML1 t) + kap * (t ^ 2 * ws ML2 t) + kap * (t ^ 3 * ws ML3 t)) with g by (unfold g; ring).
  set (gb := kap * (IZR (amp ML0) + IZR T * IZR (amp ML1) + IZR T ^ 2 * IZR (amp ML2) + IZR T ^ 3 * IZR (amp ML3))) in *. clearbody g gb.
  set (w := 5028.792262 * (PI / 648000)) in *. set (sl := sun_longitude t) in *. set (nt := nut_lon t) in *. set (lt := late t) in *. clearbody w sl nt lt.
  apply Rabs_le_inv in SD. apply Rabs_le_inv in N. apply Rabs_le_inv in L. apply Rabs_le_inv in A2. apply Rabs_le_inv in A3. apply Rabs_le_inv in A4. apply Rabs_le_inv in C. apply Rabs_le_inv in G. apply Rabs_le_inv in D.
  revert SD P L A2 A3 A4 C D. decs. intros SD P L A2 A3 A4 C D. apply Rabs_le. lra.
Qed.

(** the speed itself: range and how fast it changes *)
Lemma sp_abs l t : Rabs (total (fun x => sp x t) l) <= total (fun x => let '(_, c, _, _, _, _) := x in Rabs c) l.
Proof.
  induction l as [|[[[[[i c] off] b] d] e] l IH]; cbn [total fold_right]; [rewrite Rabs_R0; lra|]. apply sum_le; [|exact IH].
  unfold sp. rewrite <- (Rmult_1_r (Rabs c)). apply prod_le; [apply Rle_refl|apply Rabs_le, SIN_bound].
Qed.
Lemma sp_size : total (fun x => let '(_, c, _, _, _, _) := x in Rabs c) speed_waves = 1410.
Proof. unfold total, speed_waves. cbn [fold_right]. rewrite <- !abs_IZR. cbn [Z.abs]. lra. Qed.
Lemma moon_speed_range t : 6989.7 <= moon_speed t <= 9809.72.
Proof. rewrite speed_is. pose proof (sp_abs speed_waves t) as A. rewrite sp_size in A. apply Rabs_le_inv in A. decs. lra. Qed.
Lemma sp_lip T l t t' : Rabs t <= IZR T -> Rabs t' <= IZR T ->
  Rabs (total (fun x => sp x t') l - total (fun x => sp x t) l) <= total (fun x => let '(_, c, _, _, d, e) := x in Rabs c * (Rabs d + 2 * IZR T * Rabs e)) l * Rabs (t' - t).
Proof.
  intros B B'. induction l as [|[[[[[i c] off] b] d] e] l IH]; cbn [total fold_right]. { rewrite Rminus_0_r, Rabs_R0, Rmult_0_l. apply Rle_refl. }
  fold (total (fun x => sp x t') l) (total (fun x => sp x t) l) (total (fun x => let '(_, c, _, _, d, e) := x in Rabs c * (Rabs d + 2 * IZR T * Rabs e)) l).
  match goal with |- Rabs (?a + ?x - (?b + ?y)) <= _ => replace (a + x - (b + y)) with ((a - b) + (x - y)) by ring end.
  rewrite Rmult_plus_distr_r. apply sum_le; [|exact IH]. unfold sp. rewrite <- Rmult_minus_distr_l, Rmult_assoc. apply prod_le; [apply Rle_refl|]. apply Rle_trans with (1 := sin_lip _ _).
  unfold mq. replace (b + d * t' + e * t' ^ 2 - (b + d * t + e * t ^ 2)) with ((d + (t' + t) * e) * (t' - t)) by ring. apply prod_le; [|apply Rle_refl]. apply sum_le; [apply Rle_refl|].
  apply prod_le; [|apply Rle_refl]. replace (2 * IZR T) with (IZR T + IZR T) by ring. apply sum_le; assumption.
Qed.
Lemma moon_speed_lip t t' : Rabs t <= 100 -> Rabs t' <= 100 -> Rabs (moon_speed t' - moon_speed t) <= 14155000 * Rabs (t' - t).
Proof.
  intros B B'. rewrite !speed_is. replace (8399.71 - total (fun x => sp x t') speed_waves - (8399.71 - total (fun x => sp x t) speed_waves)) with (- (total (fun x => sp x t') speed_waves - total (fun x => sp x t) speed_waves)) by ring.
  rewrite Rabs_Ropp. apply Rle_trans with (1 := sp_lip 100 speed_waves t t' B B'). apply Rmult_le_compat_r; [apply Rabs_pos|]. unfold total, speed_waves. cbn [fold_right]. decs.
  repeat match goal with |- context [Rabs ?x] => first [rewrite (Rabs_pos_eq x) by lra|rewrite (Rabs_left1 x) by lra] end. lra.
Qed.
Lemma earth_speed_lip t t' : Rabs t <= 100 -> Rabs t' <= 100 -> Rabs (earth_speed t' - earth_speed t) <= 30000 * Rabs (t' - t).
Proof.
  intros B B'. unfold earth_speed. cbv zeta.
  assert (K : forall c b n x x', 0 <= c -> Rabs (c * sin (b + n * (628.307585 * x')) - c * sin (b + n * (628.307585 * x))) <= c * (Rabs n * 628.307585 * Rabs (x' - x))).
  { intros c b n x x' C. rewrite <- Rmult_minus_distr_l. rewrite Rabs_mult, (Rabs_pos_eq c) by exact C. apply Rmult_le_compat_l; [exact C|]. apply Rle_trans with (1 := sin_lip _ _).
    replace (b + n * (628.307585 * x') - (b + n * (628.307585 * x))) with (n * 628.307585 * (x' - x)) by ring. rewrite !Rabs_mult. rewrite (Rabs_pos_eq 628.307585) by (decs; lra). apply Rle_refl. }
  pose proof (K 21 1.527 1 t t' ltac:(lra)) as A1. pose proof (K 0.44 1.48 2 t t' ltac:(decs; lra)) as A2. pose proof (K 1 5.82 1 t t' ltac:(lra)) as A3. pose proof (K 1 4.21 1 t t' ltac:(lra)) as A4. clear K.
  rewrite Rabs_R1 in A1, A3, A4. repeat rewrite Rmult_1_l in A1. repeat rewrite Rmult_1_l in A3. repeat rewrite Rmult_1_l in A4. rewrite (Rabs_pos_eq 2) in A2 by lra.
  assert (P : Rabs (t ^ 2) <= 100 ^ 2) by (apply powk; exact B). assert (P2 : Rabs (t' ^ 2 - t ^ 2) <= 200 * Rabs (t' - t)).
  { replace (t' ^ 2 - t ^ 2) with ((t' + t) * (t' - t)) by ring. apply prod_le; [|apply Rle_refl]. replace 200 with (100 + 100) by ring. apply sum_le; assumption. }
  assert (S3 : Rabs (sin (5.82 + 628.307585 * t')) <= 1) by (apply Rabs_le, SIN_bound). assert (S4 : Rabs (sin (4.21 + 628.307585 * t')) <= 1) by (apply Rabs_le, SIN_bound).
  assert (C3 : Rabs 0.129 <= 0.129) by (decs; apply Rabs_le; lra). assert (C4 : Rabs 0.00055 <= 0.00055) by (decs; apply Rabs_le; lra).
  pose proof (prod_le _ _ _ _ C3 (sum_le _ _ _ _ (prod_le _ _ _ _ (Rle_refl (Rabs (t' - t))) S3) (prod_le _ _ _ _ B A3))) as Q3.
  pose proof (prod_le _ _ _ _ C4 (sum_le _ _ _ _ (prod_le _ _ _ _ P2 S4) (prod_le _ _ _ _ P A4))) as Q4.
  assert (Q := sum_le _ _ _ _ (sum_le _ _ _ _ (sum_le _ _ _ _ A1 A2) Q3) Q4).
  match type of Q with Rabs ?x <= _ => match goal with |- Rabs ?z <= _ => replace z with x by (decs; field) end end. apply Rle_trans with (1 := Q). pose proof (Rabs_pos (t' - t)). decs. lra.
Qed.
Lemma el_speed_lip t t' : Rabs t <= 100 -> Rabs t' <= 100 -> Rabs (el_speed t' - el_speed t) <= 14190000 * Rabs (t' - t).
Proof.
  intros B B'. unfold el_speed. assert (Q := diff_le _ _ _ _ (moon_speed_lip t t' B B') (earth_speed_lip t t' B B')).
  match type of Q with Rabs ?x <= _ => match goal with |- Rabs ?z <= _ => replace z with x by ring end end. apply Rle_trans with (1 := Q). pose proof (Rabs_pos (t' - t)). lra.
Qed.
Lemma el_speed_range t : Rabs t <= 100 -> 6321 <= el_speed t <= 9300.
Proof.
  intros B. pose proof (moon_speed_range t) as M. pose proof (speed_range 10 t ltac:(lia) ltac:(lra)) as E. unfold el_speed. revert M E. decs. cbn [pow]. intros. lra.
Qed.

Section Search.
Variables fsin fcos : f64 -> f64.
Hypothesis Gs : good_lib fsin sin.
Hypothesis Gc : good_lib fcos cos.
Variables (XL1 : list (list (list f64))) (XL0 : list (list f64)) (rest : list f64).
Hypothesis H1 : nth_error XL1 0 = Some moon_lon_tables.
Hypothesis H0 : nth_error XL0 0 = Some (memory (earth_table rest)).
Hypothesis HR : length rest = 1518%nat.
Variable W : f64.
Hypothesis OW : ok W.
Definition moon_first : f64 := fdiv (fadd W (lit 108472 100000)) (lit 777137714500204 100000000000).
Lemma moon_first_near : Rabs (R64 W) <= 777000 -> ok moon_first /\ Rabs (R64 moon_first - (R64 W + 1.08472) / 7771.37714500204) <= 1e-12.
Proof.
  intros B. pose proof (env1 W OW 777000 B) as E. unfold moon_first.
  lazymatch goal with |- ok ?F /\ Rabs (R64 ?F - ?r) <= _ =>
    let e := reify fsin fcos [W] F in
    assert (H : ok F /\ Rabs (R64 F - r) <= IZR 1267650600228229401 * U);
    [apply (formula_ok fsin fcos Gs Gc _ _ _ e F r 1267650600228229401 E); [cbn [evF nth]; reflexivity| |vm_compute; reflexivity]; cbn [evR nth]; decs; field
    |destruct H as [H1' H2]; split; [exact H1'|]; apply Rle_trans with (1 := H2); unfold U, one; decs; lra]
  end.
Qed.
Lemma v_near t : ok t -> Rabs (R64 t) <= 100 -> ok (fsub (M_v fsin t) (E_v fsin t)) /\ Rabs (R64 (fsub (M_v fsin t) (E_v fsin t)) - el_speed (R64 t)) <= 1e-6.
Proof.
  intros O B. destruct (Mv_near fsin fcos Gs Gc t O B) as [OM NM]. destruct (Ev_near fsin fcos Gs Gc t O B) as [OE NE].
  pose proof (moon_speed_range (R64 t)) as RM. pose proof (speed_range 10 (R64 t) ltac:(lia) ltac:(lra)) as RE.
  set (m := R64 (M_v fsin t)) in *. set (e := R64 (E_v fsin t)) in *.
  assert (BD : Rabs (m - e) <= 10000). { apply Rabs_le_inv in NM. apply Rabs_le_inv in NE. revert NM NE RM RE. decs. cbn [pow]. intros. apply Rabs_le. lra. }
  destruct (fsub_ok _ _ OM OE) as [Ox Ex]; [apply big_ok; fold m e; lra|]. fold m e in Ex. split; [exact Ox|].
  pose proof (rnd_rel (m - e)) as E1. rewrite <- Ex in E1.
  assert (D : Rabs (m - e) * u53 + tiny <= 2e-12). { assert (Rabs (m - e) * u53 <= 10000 * 1.2e-16) by (apply Rmult_le_compat; [apply Rabs_pos|unfold u53; lra|exact BD|unfold u53; decs; lra]). unfold tiny. revert H. decs. lra. }
  unfold el_speed. match goal with |- Rabs (?x - (?a - ?b)) <= _ => replace (x - (a - b)) with ((x - (m - e)) + ((m - a) - (e - b))) by ring end.
  apply Rle_trans with (1 := sum_le _ _ _ _ E1 (diff_le _ _ _ _ NM NE)). revert D. decs. lra.
Qed.
Lemma el_near S t m n : (0 <= S <= 10)%Z -> ok t -> Rabs (R64 t) <= 10 * IZR S -> (-357913941 <= m <= 134960)%Z -> (n <= 672000)%Z ->
  exists L, MS_aLon fcos XL1 XL0 t m n = Some L /\ ok L /\ Rabs (R64 L - elongation (R64 t)) <= IZR (mtail (10 * S) m) / 100000000 / 206264 + IZR (etail S n) / 10000000000 + 4.5e-9.
Proof.
  intros HS O B Hm Hn. destruct (C89_longitudes fsin fcos XL1 XL0 rest Gs Gc H1 H0 HR t O S HS B) as [_ Q]. destruct (Q m n Hm Hn) as (v & E & Ov & A & _).
  exists v. split; [exact E|]. split; [exact Ov|exact A].
Qed.
Lemma moon_search S Wm sl rho K x0 x1 x2 e0 h0 e1 h1 e2 h2 e3 : (1 <= S <= 10)%Z -> Rabs (R64 W) <= Wm -> Wm <= 777000 -> Wm + 2 <= 7771 * (10 * IZR S - h0 - h1 - h2 - 0.001) ->
  0 <= h0 -> 0 <= h1 -> 0 <= h2 -> el_slope_dev (10 * S) S <= sl -> el_rho (10 * S) S <= rho -> el_K (10 * S) S <= K -> 0 <= sl -> 0 <= rho -> 0 <= K ->
  IZR (mtail (10 * S) 3) / 100000000 / 206264 + IZR (etail S 3) / 10000000000 + 4.5e-9 <= x0 ->
  IZR (mtail (10 * S) 20) / 100000000 / 206264 + IZR (etail S 10) / 10000000000 + 4.5e-9 <= x1 ->
  IZR (mtail (10 * S) (-1)) / 100000000 / 206264 + IZR (etail S 60) / 10000000000 + 4.5e-9 <= x2 ->
  el_dev (10 * S) S + 1e-8 <= e0 -> e0 + x0 + 3e-9 <= 1 -> e0 + x0 + 3e-9 <= 7771 * h0 -> x0 + sl * h0 + 4.3e-6 <= e1 ->
  e1 + x1 + 3e-9 <= 1 -> e1 + x1 + 3e-9 <= 6321 * h1 -> x1 + rho * h1 + K * h1 ^ 2 + 4.3e-6 <= e2 ->
  e2 + x2 + 3e-9 <= 1 -> e2 + x2 + 3e-9 <= 6321 * h2 -> x2 + (rho + 14190000 * h1) * h2 + K * h2 ^ 2 + 4.3e-6 <= e3 ->
  exists v, MS_aLon_t fsin fcos XL1 XL0 W = Some v /\ ok v /\ Rabs (R64 v) <= 10 * IZR S - 0.001 /\ Rabs (R64 W - elongation (R64 v)) <= e3.
Proof.
  intros HS BW Wm1 Wm2 Ph0 Ph1 Ph2 Hsl Hrho HK S0 R0 K0 Hx0 Hx1 Hx2 He0 L0 Hh0 He1 L1 Hh1 He2 L2 Hh2 He3. assert (S1 : 1 <= IZR S <= 10) by (split; apply IZR_le; lia).
  assert (TS : (10 <= 10 * S <= 10 * S)%Z) by lia. assert (S2 : (S <= 10)%Z) by lia. assert (ET : IZR (10 * S) = 10 * IZR S) by apply mult_IZR.
  assert (D1 : 0 < 0.001) by (decs; lra). assert (C9 : 0 <= 3e-9 /\ 0 <= 4.3e-6 - 4.2e-6 - 3e-9) by (decs; lra).
  destruct (moon_first_near ltac:(lra)) as [O0 A0]. unfold MS_aLon_t. fold moon_first. cbv zeta.
  set (t0 := moon_first) in *. clearbody t0.
  assert (M0 : Rabs (R64 W - el_mean (R64 t0)) <= 1e-8).
  { unfold el_mean. replace (R64 W - (- 1.08472 + 7771.37714500204 * R64 t0)) with (- 7771.37714500204 * (R64 t0 - (R64 W + 1.08472) / 7771.37714500204)) by (decs; field).
    assert (X := prod_le (- 7771.37714500204) _ 7771.37714500204 _ ltac:(decs; apply Rabs_le; lra) A0). revert X. decs. lra. }
  assert (B0 : 7771 * Rabs (R64 t0) <= Wm + 2).
  { revert M0. unfold el_mean. decs. intros M0. apply Rabs_le_inv in M0. apply Rabs_le_inv in BW. unfold Rabs. destruct (Rcase_abs (R64 t0)); lra. }
  assert (B0' : Rabs (R64 t0) <= 10 * IZR S - 0.001 - h2 - h1 - h0) by (apply Rmult_le_reg_l with 7771; lra). assert (B0S : Rabs (R64 t0) <= 10 * IZR S) by lra.
  assert (E0 : Rabs (R64 W - elongation (R64 t0)) <= e0).
  { replace (R64 W - elongation (R64 t0)) with ((R64 W - el_mean (R64 t0)) + (el_mean (R64 t0) - elongation (R64 t0))) by ring.
    apply Rle_trans with (1 := sum_le _ _ _ _ M0 (el_dev_ok (10 * S) S (R64 t0) TS S2 ltac:(lra))). lra. }
  (* first step, with the mean speed *)
  destruct (el_near S t0 3 3 ltac:(lia) O0 B0S ltac:(lia) ltac:(lia)) as (l0 & EL & OL & NL). rewrite EL. cbn [obind]. clear EL.
  assert (NV : ok (lit 777137714500204 100000000000) /\ Rabs (R64 (lit 777137714500204 100000000000) - 7771.37714500204) <= 1e-6).
  { destruct (lit_near 777137714500204 100000000000 13) as [O N]; [lia|lia|lia|lia|]. split; [exact O|]. replace 7771.37714500204 with (IZR 777137714500204 / IZR 100000000000) by (decs; field).
    apply Rle_trans with (1 := N). change (bpow radix2 (13 - 54)) with (/ IZR (2 ^ 41)). change (2 ^ 41)%Z with 2199023255552%Z. decs. lra. }
  destruct NV as [OV NV].
  destruct (newton_step elongation (10 * IZR S - 0.001 - h2 - h1) t0 W l0 _ 7771.37714500204 7771 sl 0 4.2e-6 x0 e0 h0 O0 OW OL OV ltac:(lra) B0' Ph0 NV ltac:(decs; lra) ltac:(decs; lra)) as (O1 & P1 & E1).
  { intros t' B'. rewrite Rmult_0_l, Rplus_0_r. apply Rle_trans with (1 := el_slope (10 * S) S (R64 t0) t' TS S2 ltac:(lra) ltac:(lra)). apply Rplus_le_compat_r. apply Rmult_le_compat_r; [apply Rabs_pos|exact Hsl]. }
  { exact S0. } { lra. } { lra. } { exact E0. } { lra. } { exact Hh0. }
  set (t1 := fadd t0 (fdiv (fsub W l0) (lit 777137714500204 100000000000))) in *. clearbody t1. clear NV OV NL OL.
  assert (E1' : Rabs (R64 W - elongation (R64 t1)) <= e1) by lra.
  assert (B1' : Rabs (R64 t1) <= 10 * IZR S - 0.001 - h2 - h1) by (replace (R64 t1) with (R64 t0 + (R64 t1 - R64 t0)) by ring; apply Rle_trans with (1 := sum_le _ _ _ _ B0' P1); lra).
  assert (B1S : Rabs (R64 t1) <= 10 * IZR S) by lra. clear E1 E0 M0 A0 B0 B0S B0' P1 O0. clear t0.
  (* second step *)
  destruct (v_near t1 O1 ltac:(lra)) as [OV NV]. set (v := fsub (M_v fsin t1) (E_v fsin t1)) in *. clearbody v. pose proof (el_speed_range (R64 t1) ltac:(lra)) as VR.
  destruct (el_near S t1 20 10 ltac:(lia) O1 B1S ltac:(lia) ltac:(lia)) as (l1 & EL & OL & NL). rewrite EL. cbn [obind]. clear EL.
  destruct (newton_step elongation (10 * IZR S - 0.001 - h2) t1 W l1 v (el_speed (R64 t1)) 6321 rho K 4.2e-6 x1 e1 h1 O1 OW OL OV ltac:(lra) B1' Ph1 NV ltac:(lra) ltac:(lra)) as (O2 & P2 & E2).
  { intros t' B'. apply Rle_trans with (1 := el_step (10 * S) S (R64 t1) t' TS S2 ltac:(lra) ltac:(lra)). apply Rplus_le_compat_r.
    apply Rplus_le_compat; apply Rmult_le_compat_r; try assumption; [apply Rabs_pos|apply pow2_ge_0]. }
  { exact R0. } { exact K0. } { lra. } { exact E1'. } { lra. } { exact Hh1. }
  set (t2 := fadd t1 (fdiv (fsub W l1) v)) in *. clearbody t2. clear NL OL. assert (E2' : Rabs (R64 W - elongation (R64 t2)) <= e2) by lra.
  assert (B2' : Rabs (R64 t2) <= 10 * IZR S - 0.001 - h2) by (replace (R64 t2) with (R64 t1 + (R64 t2 - R64 t1)) by ring; apply Rle_trans with (1 := sum_le _ _ _ _ B1' P2); lra).
  assert (B2S : Rabs (R64 t2) <= 10 * IZR S) by lra. clear E2.
  (* third step, with the speed of the second *)
  destruct (el_near S t2 (-1) 60 ltac:(lia) O2 B2S ltac:(lia) ltac:(lia)) as (l2 & EL & OL & NL). rewrite EL. cbn [obind]. clear EL.
  pose proof (el_speed_lip (R64 t1) (R64 t2) ltac:(lra) ltac:(lra)) as SL.
  destruct (newton_step elongation (10 * IZR S - 0.001) t2 W l2 v (el_speed (R64 t1)) 6321 (rho + 14190000 * h1) K 4.2e-6 x2 e2 h2 O2 OW OL OV ltac:(lra) B2' Ph2 NV ltac:(lra) ltac:(lra)) as (O3 & P3 & E3).
  { intros t' B'. pose proof (el_step (10 * S) S (R64 t2) t' TS S2 ltac:(lra) ltac:(lra)) as ST. pose proof (prod_le _ _ _ _ SL (Rle_refl (Rabs (t' - R64 t2)))) as SQ.
    replace (elongation t' - elongation (R64 t2) - el_speed (R64 t1) * (t' - R64 t2)) with
      ((elongation t' - elongation (R64 t2) - el_speed (R64 t2) * (t' - R64 t2)) + (el_speed (R64 t2) - el_speed (R64 t1)) * (t' - R64 t2)) by ring.
    apply Rle_trans with (1 := sum_le _ _ _ _ ST SQ).
    assert (X1 : el_rho (10 * S) S * Rabs (t' - R64 t2) <= rho * Rabs (t' - R64 t2)) by (apply Rmult_le_compat_r; [apply Rabs_pos|exact Hrho]).
    assert (X2 : el_K (10 * S) S * (t' - R64 t2) ^ 2 <= K * (t' - R64 t2) ^ 2) by (apply Rmult_le_compat_r; [apply pow2_ge_0|exact HK]).
    assert (X3 : 14190000 * Rabs (R64 t2 - R64 t1) * Rabs (t' - R64 t2) <= 14190000 * h1 * Rabs (t' - R64 t2)) by (apply Rmult_le_compat_r; [apply Rabs_pos|]; lra).
    rewrite Rmult_plus_distr_r. lra. }
  { lra. } { exact K0. } { lra. } { exact E2'. } { lra. } { exact Hh2. }
  set (t3 := fadd t2 (fdiv (fsub W l2) v)) in *. clearbody t3. exists t3. split; [reflexivity|]. split; [exact O3|]. split; [|lra].
  replace (R64 t3) with (R64 t2 + (R64 t3 - R64 t2)) by ring. apply Rle_trans with (1 := sum_le _ _ _ _ B2' P3). lra.
Qed.
End Search.
(** any exact moment is near: the elongation grows steadily, but for the jump of 0.87 arc seconds of the model at t = 10 *)
Lemma moon_root S v W e sl : (1 <= S <= 10)%Z -> Rabs v <= 10 * IZR S -> el_slope_dev (10 * S) S <= sl -> Rabs (W - elongation v) <= e ->
  forall d r, Rabs r <= 10 * IZR S -> elongation r = W -> sl < 7771 -> e + 4.2e-6 <= (7771 - sl) * d -> Rabs (v - r) <= d.
Proof.
  intros HS B L E d r Br Er S7 Hd. assert (ET : IZR (10 * S) = 10 * IZR S) by apply mult_IZR.
  pose proof (el_slope (10 * S) S v r ltac:(lia) ltac:(lia) ltac:(lra) ltac:(lra)) as SS. rewrite Er in SS. rewrite <- (Rabs_Ropp (v - r)). replace (- (v - r)) with (r - v) by ring.
  assert (X : 7771 * Rabs (r - v) <= Rabs (7771.37714500204 * (r - v))) by (rewrite Rabs_mult, (Rabs_pos_eq 7771.37714500204) by (decs; lra); apply Rmult_le_compat_r; [apply Rabs_pos|decs; lra]).
  assert (Y : Rabs (7771.37714500204 * (r - v)) <= e + (el_slope_dev (10 * S) S * Rabs (r - v) + 4.2e-6)).
  { replace (7771.37714500204 * (r - v)) with ((W - elongation v) - (W - elongation v - 7771.37714500204 * (r - v))) by ring. apply diff_le; assumption. }
  assert (Z : el_slope_dev (10 * S) S * Rabs (r - v) <= sl * Rabs (r - v)) by (apply Rmult_le_compat_r; [apply Rabs_pos|exact L]).
  apply Rmult_le_reg_l with (7771 - sl); lra.
Qed.

Lemma earth_rho2 : earth_rho 2 <= 0.62. Proof. unfold earth_rho. numbers. lra. Qed.
Lemma earth_K2 : earth_K 2 <= 8100. Proof. unfold earth_K. numbers. lra. Qed.
Lemma earth_rho6 : earth_rho 6 <= 1.7. Proof. unfold earth_rho. numbers. lra. Qed.
Lemma earth_K6 : earth_K 6 <= 10000. Proof. unfold earth_K. numbers. lra. Qed.
Lemma el_slope2 : el_slope_dev (10 * 2) 2 <= 1475.8. Proof. change (10 * 2)%Z with 20%Z. unfold el_slope_dev, slope_dev, poly_rho. fields. lra. Qed.
Lemma el_slope6 : el_slope_dev (10 * 6) 6 <= 1489.2. Proof. change (10 * 6)%Z with 60%Z. unfold el_slope_dev, slope_dev, poly_rho. fields. lra. Qed.
Lemma el_dev2 : el_dev (10 * 2) 2 <= 0.2213. Proof. change (10 * 2)%Z with 20%Z. unfold el_dev, mean_dev. fields. lra. Qed.
Lemma el_dev6 : el_dev (10 * 6) 6 <= 0.3889. Proof. change (10 * 6)%Z with 60%Z. unfold el_dev, mean_dev. fields. lra. Qed.
Ltac tails :=
  repeat match goal with |- context [mtail ?T ?n] => let v := eval vm_compute in (mtail T n) in change (mtail T n) with v end;
  repeat match goal with |- context [etail ?T ?n] => let v := eval vm_compute in (etail T n) in change (etail T n) with v end.

(** C91: MS_aLon_t finds the moment at which the Moon is W ahead of the Sun (W is counted through all turns, so that
    W = 2 pi n is the n-th new moon after that of January 2000).  Within 20 centuries of J2000 the elongation at the moment returned
    differs from W by at most 1.38e-4 (28 arc seconds), and any moment at which the series reach W is within 72 seconds of it;
    within 60 centuries, 0.00114 and 576 seconds. *)
Theorem C91_moon fsin fcos XL1 XL0 rest W : good_lib fsin sin -> good_lib fcos cos -> nth_error XL1 0 = Some moon_lon_tables ->
  nth_error XL0 0 = Some (memory (earth_table rest)) -> length rest = 1518%nat -> ok W ->
  (Rabs (R64 W) <= 155400 -> exists v, MS_aLon_t fsin fcos XL1 XL0 W = Some v /\ ok v /\ Rabs (R64 v) <= 20 /\ Rabs (R64 W - elongation (R64 v)) <= 1.38e-4 /\
     forall r, Rabs r <= 20 -> elongation r = R64 W -> Rabs (R64 v - r) <= 72 * second) /\
  (Rabs (R64 W) <= 466200 -> exists v, MS_aLon_t fsin fcos XL1 XL0 W = Some v /\ ok v /\ Rabs (R64 v) <= 60 /\ Rabs (R64 W - elongation (R64 v)) <= 0.00114 /\
     forall r, Rabs r <= 60 -> elongation r = R64 W -> Rabs (R64 v - r) <= 576 * second).
Proof.
  intros Gs Gc H1 H0 HR OW. assert (D1 : 0 < 0.001) by (decs; lra). split; intros BW.
  - pose proof moon_rho20 as MR. pose proof moon_K20 as MK. pose proof earth_rho2 as ER. pose proof earth_K2 as EK. pose proof el_slope2 as SL. pose proof el_dev2 as DV.
    destruct (moon_search fsin fcos Gs Gc XL1 XL0 rest H1 H0 HR W OW 2 155400 1475.8 78.85 7088300 0.01794 0.001697 0.0000142 0.2214 3.081e-5 0.06342 1.0303e-5 0.003267 5.192e-7 1.38e-4) as (v & E & O & B & D);
      try lia; try (unfold el_rho, el_K; change (10 * 2)%Z with 20%Z in *; tails; revert MR MK ER EK SL DV; decs; lra).
    exists v. replace (10 * 2) with 20 in B by ring. split; [exact E|]. split; [exact O|]. split; [lra|]. split; [exact D|]. intros r Br Er.
    apply (moon_root 2 (R64 v) (R64 W) 1.38e-4 1475.8 ltac:(lia) ltac:(lra) SL D); [lra|exact Er|decs; lra|]. unfold second. decs. lra.
  - pose proof moon_rho60 as MR. pose proof moon_K60 as MK. pose proof earth_rho6 as ER. pose proof earth_K6 as EK. pose proof el_slope6 as SL. pose proof el_dev6 as DV.
    destruct (moon_search fsin fcos Gs Gc XL1 XL0 rest H1 H0 HR W OW 6 466200 1489.2 414.61 7090200 0.018885 0.0021385 0.0000549 0.38891 5.248e-5 0.09705 1.5692e-5 0.0104 1.6541e-6 0.00114) as (v & E & O & B & D);
      try lia; try (unfold el_rho, el_K; change (10 * 6)%Z with 60%Z in *; tails; revert MR MK ER EK SL DV; decs; lra).
    exists v. replace (10 * 6) with 60 in B by ring. split; [exact E|]. split; [exact O|]. split; [lra|]. split; [exact D|]. intros r Br Er.
    apply (moon_root 6 (R64 v) (R64 W) 0.00114 1489.2 ltac:(lia) ltac:(lra) SL D); [lra|exact Er|decs; lra|]. unfold second. decs. lra.
Qed.
(** a case: the 20000th half turn before J2000 *)
Example C91_example : exists fsin fcos XL1 XL0 rest, good_lib fsin sin /\ good_lib fcos cos /\ nth_error XL1 0 = Some moon_lon_tables /\
  nth_error XL0 0 = Some (memory (earth_table rest)) /\ length rest = 1518%nat /\ ok (fZ (-62832)) /\ Rabs (R64 (fZ (-62832))) <= 155400.
Proof.
  destruct good_lib_exists as (fsin & fcos & _ & Gs & Gc & _). exists fsin, fcos, [moon_lon_tables], [memory (earth_table (repeat (fZ 0) 1518))], (repeat (fZ 0) 1518).
  split; [exact Gs|]. split; [exact Gc|]. split; [reflexivity|]. split; [reflexivity|]. split; [apply repeat_length|]. destruct (fZ_ok (-62832) ltac:(lia)) as [O E]. split; [exact O|].
  rewrite E, <- abs_IZR. cbn [Z.abs]. lra.
Qed.
Print Assumptions C91_moon.
