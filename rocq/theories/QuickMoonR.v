(** The quick search for the new moon, in real numbers. *)
From Coq Require Import ZArith Reals Lia Lra Bool List.
From Flocq Require Import Core.
From Verif Require Import F64R F64E PiBound ErrExpr SmTab FormSpec FormProps WaveF WaveR SmSpec SmLon SmProps SmSun SmNewton SunProps LonProps SmMoon MoonProps QuickR.
Import ListNotations.
Open Scope R_scope.

(** the Sun's longitude, short form, without the nutation *)
Definition sun_short (t : R) : R :=
  4.8950632 + 628.3319653318 * t + 5.297e-6 * t * t + 0.0334166 * cos (4.669257 + 628.307585 * t) + 0.0002061 * cos (2.67823 + 628.307585 * t) * t + 0.000349 * cos (4.6261 + 1256.61517 * t) - arcsec 20.5.
Lemma sun_short_near t : Rabs t <= 10 -> Rabs (sun_short t - (sun_longitude t - nut_lon t)) <= 0.000464.
Proof.
  intros B. unfold sun_longitude, sun_short. rewrite earth_full_is. set (s := t / 10).
  pose proof (aber10 t B) as AB.
  assert (Et : t = 10 * s) by (unfold s; field). assert (Bs : Rabs s <= 1) by (unfold s; apply Rabs_le_inv in B; apply Rabs_le; lra). clearbody s. subst t.
  rewrite el0', el1'.
  assert (E0 : ws (skipn 1 EL0) s = 334165646 * cos (4.669256804 + 6283.075849991 * s) + 3489428 * cos (4.6261024 + 12566.1517 * s) + ws (skipn 3 EL0) s).
  { rewrite (ws_split 2 (skipn 1 EL0) s). change (firstn 2 (skipn 1 EL0)) with [V 334165646 466925680400 6283075849991; V 3489428 462610240000 12566151700000]. change (skipn 2 (skipn 1 EL0)) with (skipn 3 EL0). f_equal.
    cbn [ws fold_right]. unfold V, ph. cbn [wa wb wd we wf wg]. rewrite Rplus_0_r. f_equal; f_equal; f_equal; decs; field. }
  assert (E1 : ws (skipn 1 EL1) s = 20605886 * cos (2.67823456 + 6283.07584999 * s) + ws (skipn 2 EL1) s).
  { rewrite (ws_split 1 (skipn 1 EL1) s). change (firstn 1 (skipn 1 EL1)) with [V 20605886 267823456000 6283075849990]. change (skipn 1 (skipn 1 EL1)) with (skipn 2 EL1). f_equal.
    cbn [ws fold_right]. unfold V, ph. cbn [wa wb wd we wf wg]. rewrite Rplus_0_r. f_equal. f_equal. decs. field. }
  assert (E2 : ws EL2 s = 5291887 + ws (skipn 1 EL2) s).
  { rewrite (ws_split 1 EL2 s). change (firstn 1 EL2) with [V 5291887 0 0]. f_equal. cbn [ws fold_right]. unfold V, ph. cbn [wa wb wd we wf wg]. rewrite Rplus_0_r.
    match goal with |- _ * cos ?a = _ => replace a with 0 by field end. rewrite cos_0. ring. }
  rewrite E0, E1, E2. clear E0 E1 E2.
  assert (W1 := wave_near 0.0334165646 0.0334166 4.669256804 6283.075849991 4.669257 6283.07585 s ltac:(decs; lra) Bs).
  assert (W2 := wave_near 0.0020605886 0.002061 2.67823456 6283.07584999 2.67823 6283.07585 s ltac:(decs; lra) Bs).
  assert (W4 := wave_near 0.0003489428 0.000349 4.6261024 12566.1517 4.6261 12566.1517 s ltac:(decs; lra) Bs).
  assert (W1' : Rabs (0.0334165646 * cos (4.669256804 + 6283.075849991 * s) - 0.0334166 * cos (4.669257 + 6283.07585 * s)) <= 5e-8).
  { apply Rle_trans with (1 := W1). decs. repeat match goal with |- context [Rabs ?x] => first [rewrite (Rabs_pos_eq x) by lra|rewrite (Rabs_left1 x) by lra] end. lra. }
  assert (W2' : Rabs (0.0020605886 * cos (2.67823456 + 6283.07584999 * s) - 0.002061 * cos (2.67823 + 6283.07585 * s)) <= 5e-7).
  { apply Rle_trans with (1 := W2). decs. repeat match goal with |- context [Rabs ?x] => first [rewrite (Rabs_pos_eq x) by lra|rewrite (Rabs_left1 x) by lra] end. lra. }
  assert (W4' : Rabs (0.0003489428 * cos (4.6261024 + 12566.1517 * s) - 0.000349 * cos (4.6261 + 12566.1517 * s)) <= 7e-8).
  { apply Rle_trans with (1 := W4). decs. repeat match goal with |- context [Rabs ?x] => first [rewrite (Rabs_pos_eq x) by lra|rewrite (Rabs_left1 x) by lra] end. lra. }
  clear W1 W2 W4. assert (W3 := prod_le _ _ _ _ Bs W2'). clear W2'.
  replace (4.669257 + 628.307585 * (10 * s)) with (4.669257 + 6283.07585 * s) by (decs; field). replace (2.67823 + 628.307585 * (10 * s)) with (2.67823 + 6283.07585 * s) by (decs; field).
  replace (4.6261 + 1256.61517 * (10 * s)) with (4.6261 + 12566.1517 * s) by (decs; field).
  set (c1 := cos (4.669256804 + 6283.075849991 * s)) in *. set (c1' := cos (4.669257 + 6283.07585 * s)) in *. set (c2 := cos (2.67823456 + 6283.07584999 * s)) in *. set (c2' := cos (2.67823 + 6283.07585 * s)) in *.
  set (c4 := cos (4.6261024 + 12566.1517 * s)) in *. set (c4' := cos (4.6261 + 12566.1517 * s)) in *.
  clearbody c1 c1' c2 c2' c4 c4'.
  assert (P1 : forall k l, Rabs (s ^ k * ws l s) <= IZR (amp l)). { intros k l. replace (IZR (amp l)) with (1 ^ k * IZR (amp l)) by (rewrite Rfunctions.pow1; ring). apply prod_le; [apply powk, Bs|apply ws_amp]. }
  assert (Q := sum_le _ _ _ _ (sum_le _ _ _ _ (sum_le _ _ _ _ (sum_le _ _ _ _ (sum_le _ _ _ _ (ws_amp (skipn 3 EL0) s) (P1 1%nat (skipn 2 EL1))) (P1 2%nat (skipn 1 EL2))) (P1 3%nat EL3)) (P1 4%nat EL4)) (P1 5%nat EL5)).
  clear P1. repeat match type of Q with context [amp ?l] => let v := eval vm_compute in (amp l) in change (amp l) with v in Q end.
  set (g0 := ws (skipn 3 EL0) s) in *. set (g1 := ws (skipn 2 EL1) s) in *. set (g2 := ws (skipn 1 EL2) s) in *. set (g3 := ws EL3 s) in *. set (g4 := ws EL4 s) in *. set (g5 := ws EL5 s) in *. clearbody g0 g1 g2 g3 g4 g5.
  set (X := g0 + s ^ 1 * g1 + s ^ 2 * g2 + s ^ 3 * g3 + s ^ 4 * g4 + s ^ 5 * g5) in *.
  assert (PP : Rabs (4.567e-7 + 1.41569e-5 * s - 5.113e-7 * s ^ 2 + earth_fix s) <= 7.3e-6).
  { unfold earth_fix, arcsec. pose proof PI_bounds as P. powers s 1 Bs. rewrite ?Rfunctions.pow1 in *. revert P. unfold Q2R. cbn. decs. intros P. set (p := PI) in *. clearbody p.
    match goal with |- Rabs ?z <= _ => replace z with ((4567 / 10000000000 - 728 / 10000 * p / 648000) + (141569 / 10000000000 - 27702 / 10000 * p / 648000) * s - (5113 / 10000000000 + 11019 / 10000 * p / 648000) * s ^ 2 - (996 / 10000 * p / 648000) * s ^ 3) by field end.
    match goal with |- Rabs (?a + ?b * s - ?c * s ^ 2 - ?d * s ^ 3) <= _ => assert (Rabs a <= 0.00000011 /\ Rabs b <= 0.00000073 /\ Rabs c <= 0.0000058539 /\ Rabs d <= 0.000000483) as (Ha & Hb & Hc & Hd) by (decs; repeat split; apply Rabs_le; lra) end.
    apply Rle_trans with (1 := diff_le _ _ _ _ (diff_le _ _ _ _ (sum_le _ _ _ _ Ha (prod_le _ _ _ _ Hb Bs)) (prod_le _ _ _ _ Hc H)) (prod_le _ _ _ _ Hd H0)). decs. lra. }
  assert (PC : Rabs (4.8950632 - 1.75347 - PI) <= 6e-7) by (pose proof PI_bounds as P; revert P; decs; intros P; apply Rabs_le; lra).
  assert (AA : Rabs (arcsec (20.5 - 20.49552)) <= 0.00449 / 206264) by (apply arcsec_le; decs; apply Rabs_le; lra).
  match goal with |- Rabs ?z <= _ => replace z with ((4.8950632 - 1.75347 - PI) - (X * / 10000000000 + (4.567e-7 + 1.41569e-5 * s - 5.113e-7 * s ^ 2 + earth_fix s)) - (sun_aberration (10 * s) + arcsec 20.49552) - arcsec (20.5 - 20.49552) -
     (0.0334165646 * c1 - 0.0334166 * c1') - s * (0.0020605886 * c2 - 0.002061 * c2') - (0.0003489428 * c4 - 0.000349 * c4')) by (unfold X, arcsec; decs; field) end.
  assert (Q1 := prod_le _ _ _ _ Q (Rle_refl (Rabs (/ 10000000000)))). rewrite (Rabs_pos_eq (/ 10000000000)) in Q1 by lra.
  apply Rle_trans with (1 := diff_le _ _ _ _ (diff_le _ _ _ _ (diff_le _ _ _ _ (diff_le _ _ _ _ (diff_le _ _ _ _ (diff_le _ _ _ _ PC (sum_le _ _ _ _ Q1 PP)) AB) AA) W1') W3) W4'). decs. lra.
Qed.

(** the square and the waves the first guess allows for *)
Definition moon_wave (t : R) : R :=
  - 3.309e-5 * t ^ 2 + 0.10976 * cos (mq 0.784758 8328.6914246 1.52292e-4 t) + 0.02224 * cos (mq 0.1874 7214.0628654 (- 2.1848e-4) t) - 0.03342 * cos (4.669257 + 628.307585 * t).
Lemma cos_near A B P Q d e : 0 <= B -> Rabs (P - Q) <= d -> Rabs (A - B) <= e -> Rabs (A * cos P - B * cos Q) <= e + B * d.
Proof.
  intros HB HP HA. replace (A * cos P - B * cos Q) with ((A - B) * cos P + B * (cos P - cos Q)) by ring. apply sum_le.
  - rewrite <- (Rmult_1_r e). apply prod_le; [exact HA|apply Rabs_le, COS_bound].
  - apply prod_le; [rewrite Rabs_pos_eq; [apply Rle_refl|exact HB]|]. apply Rle_trans with (1 := cos_lip _ _). exact HP.
Qed.
Lemma late_0 t : t <= 10 -> late t = 0.
Proof. intros H. unfold late. destruct (Rlt_dec 10 t); [lra|reflexivity]. Qed.
Lemma moon_rest t : Rabs t <= 10 -> Rabs (elongation t - el_mean t - moon_wave t) <= 0.0324.
Proof.
  intros B. rewrite el_is, moon_full_is. rewrite late_0 by (apply Rabs_le_inv in B; lra). pose proof (sun_short_near t B) as SS.
  assert (E0 : kap * ws ML0 t = mc 0 t + mc 1 t + kap * ws (skipn 2 ML0) t).
  { rewrite (ws_split 2 ML0 t). change (firstn 2 ML0) with [mw 0; mw 1]. set (g := ws (skipn 2 ML0) t). cbn [ws fold_right]. unfold mc. ring. }
  rewrite E0. clear E0. pose proof kap_range as KR. assert (KP : Rabs kap <= kap) by (rewrite Rabs_pos_eq; [apply Rle_refl|revert KR; decs; lra]).
  assert (B' : Rabs t <= IZR 10) by exact B.
  assert (W0 : Rabs (mc 0 t - 0.10976 * cos (mq 0.784758 8328.6914246 1.52292e-4 t)) <= 0.00003).
  { unfold mc. pose proof (msup_ok 10 (mw 0) 0 0.784758 8328.6914246 1.52292e-4 t B') as M. rewrite Rminus_0_r in M. fold (mq 0.784758 8328.6914246 1.52292e-4 t) in M.
    assert (M' : Rabs (ph (mw 0) t - mq 0.784758 8328.6914246 1.52292e-4 t) <= 0.000265).
    { apply Rle_trans with (1 := M). unfold msup. repeat match goal with |- context [?f (mw 0)] => let v := eval vm_compute in (f (mw 0)) in change (f (mw 0)) with v end. decs. repeat match goal with |- context [Rabs ?x] => first [rewrite (Rabs_pos_eq x) by lra|rewrite (Rabs_left1 x) by lra] end. lra. }
    assert (AB : Rabs (kap * IZR (wa (mw 0)) - 0.10976) <= 0.0000003) by (change (wa (mw 0)) with 2263958600000%Z; revert KR; decs; intros KR; apply Rabs_le; lra).
    apply Rle_trans with (1 := cos_near _ 0.10976 _ _ _ _ ltac:(decs; lra) M' AB). decs. lra. }
  assert (W1 : Rabs (mc 1 t - 0.02224 * cos (mq 0.1874 7214.0628654 (- 2.1848e-4) t)) <= 0.000012).
  { unfold mc. pose proof (msup_ok 10 (mw 1) 0 0.1874 7214.0628654 (- 2.1848e-4) t B') as M. rewrite Rminus_0_r in M. fold (mq 0.1874 7214.0628654 (- 2.1848e-4) t) in M.
    assert (M' : Rabs (ph (mw 1) t - mq 0.1874 7214.0628654 (- 2.1848e-4) t) <= 0.00021).
    { apply Rle_trans with (1 := M). unfold msup. repeat match goal with |- context [?f (mw 1)] => let v := eval vm_compute in (f (mw 1)) in change (f (mw 1)) with v end. decs. repeat match goal with |- context [Rabs ?x] => first [rewrite (Rabs_pos_eq x) by lra|rewrite (Rabs_left1 x) by lra] end. lra. }
    assert (AB : Rabs (kap * IZR (wa (mw 1)) - 0.02224) <= 0.000005) by (change (wa (mw 1)) with 458643800000%Z; revert KR; decs; intros KR; apply Rabs_le; lra).
    apply Rle_trans with (1 := cos_near _ 0.02224 _ _ _ _ ltac:(decs; lra) M' AB). decs. lra. }
  assert (G := prod_le _ _ _ _ KP (sum_le _ _ _ _ (sum_le _ _ _ _ (sum_le _ _ _ _ (ws_amp (skipn 2 ML0) t) (prod_le _ _ _ _ B (ws_amp ML1 t))) (prod_le _ _ _ _ (powk t _ 2 B) (ws_amp ML2 t))) (prod_le _ _ _ _ (powk t _ 3 B) (ws_amp ML3 t)))).
  repeat match type of G with context [amp ?l] => let v := eval vm_compute in (amp l) in change (amp l) with v in G end.
  assert (G' : Rabs (kap * (ws (skipn 2 ML0) t + t * ws ML1 t + t ^ 2 * ws ML2 t + t ^ 3 * ws ML3 t)) <= 0.02907) by (apply Rle_trans with (1 := G); revert KR; decs; lra). clear G.
  assert (PP : Rabs (moon_mean t - (4.8950632 + 628.3319653318 * t + 5.297e-6 * t * t) - el_mean t + 3.309e-5 * t ^ 2) <= 0.00004).
  { unfold moon_mean, el_mean, arcsec. pose proof PI_bounds as P. powers t 10 B. revert P. decs. intros P. set (p := PI) in *. clearbody p.
    match goal with |- Rabs ?z <= _ => replace z with ((381034409 / 100000000 - 48950632 / 10000000 + 108472 / 100000) + (8399684730072 / 1000000000 + 5028792262 / 1000000 * p / 648000 - 6283319653318 / 10000000000 - 777137714500204 / 100000000000) * t +
      (- (3319 / 100000000) + 11124406 / 10000000 * p / 648000 - 5297 / 1000000000 + 3309 / 100000000) * t ^ 2 + (311 / 10000000000 + 7699 / 100000000 * p / 648000) * t ^ 3 - (2033 / 10000000000000 + 23479 / 1000000000 * p / 648000) * t ^ 4 - (178 / 10000000000 * p / 648000) * t ^ 5) by field end.
    match goal with |- Rabs (?a + ?b * t + ?c * t ^ 2 + ?d * t ^ 3 - ?e * t ^ 4 - ?f * t ^ 5) <= _ =>
      assert (Rabs a <= 0.000001 /\ Rabs b <= 0.00000002 /\ Rabs c <= 0.00000001 /\ Rabs d <= 0.000000032 /\ Rabs e <= 0.00000000032 /\ Rabs f <= 0.0000000000001) as (Ha & Hb & Hc & Hd & He & Hf) by (decs; repeat split; apply Rabs_le; lra) end.
    apply Rle_trans with (1 := diff_le _ _ _ _ (diff_le _ _ _ _ (sum_le _ _ _ _ (sum_le _ _ _ _ (sum_le _ _ _ _ Ha (prod_le _ _ _ _ Hb B)) (prod_le _ _ _ _ Hc H)) (prod_le _ _ _ _ Hd H0)) (prod_le _ _ _ _ He H1)) (prod_le _ _ _ _ Hf H2)). decs. lra. }
  assert (AA : Rabs (arcsec 20.5) <= 20.5 / 206264) by (apply arcsec_le; decs; apply Rabs_le; lra).
  set (c1 := cos (4.669257 + 628.307585 * t)) in *. set (c2 := cos (2.67823 + 628.307585 * t)) in *. set (c4 := cos (4.6261 + 1256.61517 * t)) in *.
  assert (S1 : Rabs ((0.0334166 - 0.03342) * c1) <= 0.0000035 * 1) by (apply prod_le; [decs; apply Rabs_le; lra|apply Rabs_le, COS_bound]).
  assert (S2 : Rabs (0.0002061 * c2 * t) <= 0.0002061 * 1 * 10) by (apply prod_le; [apply prod_le; [decs; apply Rabs_le; lra|apply Rabs_le, COS_bound]|exact B]).
  assert (S4 : Rabs (0.000349 * c4) <= 0.000349 * 1) by (apply prod_le; [decs; apply Rabs_le; lra|apply Rabs_le, COS_bound]).
  assert (C3 : Rabs 3.4e-6 <= 3.4e-6) by (decs; apply Rabs_le; lra).
  unfold sun_short in SS. fold c1 c2 c4 in SS. unfold moon_wave. fold c1. set (sl := sun_longitude t) in *. set (nu := nut_lon t) in *. set (a := arcsec 20.5) in *. set (m0 := cos (mq 0.784758 8328.6914246 1.52292e-4 t)) in *. set (m1 := cos (mq 0.1874 7214.0628654 (- 2.1848e-4) t)) in *.
  set (g0 := ws (skipn 2 ML0) t) in *. set (g1 := ws ML1 t) in *. set (g2 := ws ML2 t) in *. set (g3 := ws ML3 t) in *. set (mm := moon_mean t) in *. set (em := el_mean t) in *. set (k0 := mc 0 t) in *. set (k1 := mc 1 t) in *.
  clearbody c1 c2 c4 sl nu a m0 m1 g0 g1 g2 g3 mm em k0 k1.
  assert (Q := diff_le _ _ _ _ (sum_le _ _ _ _ (diff_le _ _ _ _ (diff_le _ _ _ _ (diff_le _ _ _ _ (sum_le _ _ _ _ (sum_le _ _ _ _ (sum_le _ _ _ _ (sum_le _ _ _ _ PP W0) W1) G') SS) S1) S2) S4) AA) C3).
  match type of Q with Rabs ?x <= _ => match goal with |- Rabs ?z <= _ => replace z with x by (decs; field) end end. apply Rle_trans with (1 := Q). decs. lra.
Qed.

(** the first guess *)
Lemma cos_shift' p x : Rabs (cos (p + x) - cos p) <= Rabs x * Rabs (sin p) + x ^ 2 / 2 * Rabs (cos p).
Proof.
  rewrite cos_plus. replace (cos p * cos x - sin p * sin x - cos p) with (cos p * (cos x - 1) - sin x * sin p) by ring.
  assert (S : Rabs (sin x) <= Rabs x) by (pose proof (sin_lip x 0) as L; rewrite sin_0, !Rminus_0_r in L; exact L).
  assert (C : Rabs (cos x - 1) <= x ^ 2 / 2).
  { replace (cos x - 1) with (- (2 * (sin (x / 2)) ^ 2)) by (replace x with (2 * (x / 2)) at 2 by field; rewrite cos_2a_sin; ring). rewrite Rabs_Ropp.
    assert (H : Rabs (sin (x / 2)) <= Rabs (x / 2)) by (pose proof (sin_lip (x / 2) 0) as L; rewrite sin_0, !Rminus_0_r in L; exact L).
    rewrite Rabs_pos_eq by (pose proof (pow2_ge_0 (sin (x / 2))); lra). rewrite <- (pow2_abs (sin (x / 2))). assert (K : Rabs (sin (x / 2)) ^ 2 <= Rabs (x / 2) ^ 2) by (apply pow_incr; split; [apply Rabs_pos|exact H]). rewrite (pow2_abs (x / 2)) in K.
    replace ((x / 2) ^ 2) with (x ^ 2 / 4) in K by field. lra. }
  rewrite Rplus_comm, (Rmult_comm (x ^ 2 / 2)). apply diff_le; [apply prod_le; [apply Rle_refl|exact C]|]. apply prod_le; [exact S|apply Rle_refl].
Qed.
Lemma corner c s : 0 <= c <= 1 -> 0 <= s <= 1 -> s ^ 2 + c ^ 2 = 1 -> (0.10976 * c + 0.05898) * (s + 0.09043 * c) <= 0.10682.
Proof.
  intros C S E. assert (A1 : 0 <= (1239 / 1000 * c - s) ^ 2) by apply pow2_ge_0. assert (A2 : 0 <= (s - 1 / (2 * (6425 / 10000))) ^ 2) by apply pow2_ge_0. assert (A3 : 0 <= (c - 1 / (2 * (7962 / 10000))) ^ 2) by apply pow2_ge_0.
  decs. set (cs := c * s). replace ((1239 / 1000 * c - s) ^ 2) with ((1239 / 1000) ^ 2 * c ^ 2 - 2 * (1239 / 1000) * cs + s ^ 2) in A1 by (unfold cs; ring).
  replace ((s - 1 / (2 * (6425 / 10000))) ^ 2) with (s ^ 2 - s / (6425 / 10000) + (1 / (2 * (6425 / 10000))) ^ 2) in A2 by field. replace ((c - 1 / (2 * (7962 / 10000))) ^ 2) with (c ^ 2 - c / (7962 / 10000) + (1 / (2 * (7962 / 10000))) ^ 2) in A3 by field.
  match goal with |- ?x <= _ => replace x with (1372 / 12500 * cs + 5898 / 100000 * s + 9043 / 100000 * (1372 / 12500) * c ^ 2 + 9043 / 100000 * (5898 / 100000) * c) by (unfold cs; field) end.
  set (c2 := c ^ 2) in *. set (s2 := s ^ 2) in *. clearbody cs c2 s2. lra.
Qed.
Definition el_v : R := 7771.37714500204.
Lemma moon_shift T0 T1 : Rabs T0 <= 9.995 -> Rabs (el_v * (T1 - T0) + moon_wave T0) <= 1e-8 -> Rabs T1 <= 10 /\ Rabs (moon_wave T1 - moon_wave T0) <= 0.01652.
Proof.
  intros B D. set (p := mq 0.784758 8328.6914246 1.52292e-4 T0). set (q := mq 0.1874 7214.0628654 (- 2.1848e-4) T0). set (o := 4.669257 + 628.307585 * T0). set (h := T1 - T0) in *.
  assert (B10 : Rabs T0 <= 10) by (revert B; decs; lra). pose proof (powk T0 10 2 B10) as P2.
  set (b := - 3.309e-5 * T0 ^ 2 + 0.02224 * cos q - 0.03342 * cos o).
  assert (Bb : Rabs b <= 0.05897).
  { unfold b. apply Rle_trans with (3.309e-5 * 10 ^ 2 + 0.02224 * 1 + 0.03342 * 1); [|decs; lra].
    apply diff_le; [apply sum_le|]; (apply prod_le; [decs; apply Rabs_le; lra|]); [exact P2|apply Rabs_le, COS_bound|apply Rabs_le, COS_bound]. }
  assert (E0 : moon_wave T0 = 0.10976 * cos p + b) by (unfold moon_wave, b, p, q, o; ring).
  assert (Bh : 7771.37714500204 * Rabs h <= 0.10976 * Rabs (cos p) + 0.05897 + 1e-8).
  { rewrite <- (Rabs_pos_eq 7771.37714500204) by (decs; lra). rewrite <- Rabs_mult. replace (7771.37714500204 * h) with ((el_v * h + moon_wave T0) - (0.10976 * cos p + b)) by (rewrite E0; unfold el_v; ring).
    assert (A : Rabs (0.10976 * cos p) <= 0.10976 * Rabs (cos p)) by (rewrite Rabs_mult; rewrite (Rabs_pos_eq 0.10976) by (decs; lra); apply Rle_refl).
    apply Rle_trans with (1 := diff_le _ _ _ _ D (sum_le _ _ _ _ A Bb)). lra. }
  assert (C1 : 0 <= Rabs (cos p) <= 1) by (split; [apply Rabs_pos|apply Rabs_le, COS_bound]). assert (S1 : 0 <= Rabs (sin p) <= 1) by (split; [apply Rabs_pos|apply Rabs_le, SIN_bound]).
  assert (SC : Rabs (sin p) ^ 2 + Rabs (cos p) ^ 2 = 1) by (rewrite !pow2_abs; pose proof (sin2_cos2 p) as E; unfold Rsqr in E; cbn [pow]; lra).
  assert (Bh1 : Rabs h <= 0.0000217133). { revert Bh. decs. lra. }
  assert (B1 : Rabs T1 <= 10). { replace T1 with (T0 + h) by (unfold h; ring). apply Rle_trans with (1 := sum_le _ _ _ _ B Bh1). decs. lra. }
  split; [exact B1|].
  assert (BS : Rabs (T1 + T0) <= 20) by (replace 20 with (10 + 10) by ring; apply sum_le; assumption).
  set (x := (8328.6914246 + 1.52292e-4 * (T1 + T0)) * h).
  assert (K1 : Rabs (8328.6914246 + 1.52292e-4 * (T1 + T0)) <= 8328.695) by (apply Rabs_le_inv in BS; decs; apply Rabs_le; lra).
  assert (Bx : Rabs x <= 1.07172 * (0.10976 * Rabs (cos p) + 0.05898)).
  { unfold x. rewrite Rabs_mult. apply Rle_trans with (8328.695 * Rabs h); [apply Rmult_le_compat_r; [apply Rabs_pos|exact K1]|]. revert Bh. decs. lra. }
  assert (Bx1 : Rabs x <= 0.18086) by (revert Bx; decs; lra).
  assert (Ep : mq 0.784758 8328.6914246 1.52292e-4 T1 = p + x) by (unfold mq, p, x, h; unfold mq; ring).
  assert (P1 : Rabs (cos (p + x) - cos p) <= 0.114482).
  { apply Rle_trans with (1 := cos_shift' p x). pose proof (corner _ _ C1 S1 SC) as CO. set (c := Rabs (cos p)) in *. set (s := Rabs (sin p)) in *. pose proof (Rabs_pos x) as X0.
    assert (X2 : x ^ 2 / 2 * c <= Rabs x * (0.09043 * c)).
    { rewrite <- pow2_abs. set (ax := Rabs x) in *. replace (ax ^ 2 / 2 * c) with (ax * (ax / 2 * c)) by field. apply Rmult_le_compat_l; [exact X0|]. apply Rmult_le_compat_r; [apply C1|]. revert Bx1. decs. lra. }
    apply Rle_trans with (Rabs x * (s + 0.09043 * c)); [lra|]. apply Rle_trans with (1.07172 * (0.10976 * c + 0.05898) * (s + 0.09043 * c)).
    - apply Rmult_le_compat_r; [|exact Bx]. assert (0 <= 0.09043 * c) by (apply Rmult_le_pos; [decs; lra|apply C1]). lra.
    - rewrite Rmult_assoc. apply Rle_trans with (1.07172 * 0.10682); [|decs; lra]. apply Rmult_le_compat_l; [decs; lra|exact CO]. }
  assert (Q1 : Rabs (cos (mq 0.1874 7214.0628654 (- 2.1848e-4) T1) - cos q) <= 7214.0673 * 0.0000217133).
  { apply Rle_trans with (1 := cos_lip _ _). replace (mq 0.1874 7214.0628654 (- 2.1848e-4) T1 - q) with ((7214.0628654 + - 2.1848e-4 * (T1 + T0)) * h) by (unfold q, mq, h; ring). apply prod_le; [|exact Bh1]. apply Rabs_le_inv in BS. decs. apply Rabs_le. lra. }
  assert (O1 : Rabs (cos (4.669257 + 628.307585 * T1) - cos o) <= 628.307585 * 0.0000217133).
  { apply Rle_trans with (1 := cos_lip _ _). replace (4.669257 + 628.307585 * T1 - o) with (628.307585 * h) by (unfold o, h; ring). apply prod_le; [decs; apply Rabs_le; lra|exact Bh1]. }
  replace (moon_wave T1 - moon_wave T0) with (- 3.309e-5 * (h * (T1 + T0)) + 0.10976 * (cos (p + x) - cos p) + 0.02224 * (cos (mq 0.1874 7214.0628654 (- 2.1848e-4) T1) - cos q) - 0.03342 * (cos (4.669257 + 628.307585 * T1) - cos o)).
  - apply Rle_trans with (3.309e-5 * (0.0000217133 * 20) + 0.10976 * 0.114482 + 0.02224 * (7214.0673 * 0.0000217133) + 0.03342 * (628.307585 * 0.0000217133)); [|decs; lra].
    apply diff_le; [apply sum_le; [apply sum_le|]|]; (apply prod_le; [decs; apply Rabs_le; lra|]); [apply prod_le; assumption|exact P1|exact Q1|exact O1].
  - unfold moon_wave. rewrite Ep. fold p q o. unfold h. ring.
Qed.

(** the speed of the only step *)
Definition short_speed (t : R) : R := 7771.38 - 914 * sin (mq 0.7848 8328.691425 1.523e-4 t) - 179 * sin (2.543 + 15542.7543 * t) - 160 * sin (0.1874 + 7214.0629 * t).
Lemma short_range t : 6518.38 <= short_speed t <= 9024.38.
Proof.
  unfold short_speed. pose proof (SIN_bound (mq 0.7848 8328.691425 1.523e-4 t)) as A. pose proof (SIN_bound (2.543 + 15542.7543 * t)) as B. pose proof (SIN_bound (0.1874 + 7214.0629 * t)) as C. revert A B C. decs. lra.
Qed.
Lemma short_speed_near S t : (0 <= S <= 10)%Z -> Rabs t <= 10 * IZR S -> Rabs (el_speed t - short_speed t) <= 178.45 + 1.29 * IZR S + 0.055 * IZR S ^ 2.
Proof.
  intros HS B. pose proof (speed_range S t HS B) as E. unfold el_speed, short_speed. rewrite speed_is. set (l := skipn 3 speed_waves).
  assert (X : total (fun x => sp x t) speed_waves = 914 * sin (mq 0.7848 8328.691425 1.523e-4 t) + (179 * sin (2.543 + 15542.7543 * t) + (160 * sin (0.1874 + 7214.0629 * t) + total (fun x => sp x t) l))).
  { assert (H : forall a b c d : R, a = b -> c = d -> a + c = b + d) by (intros; congruence).
    change (total (fun x => sp x t) speed_waves) with (914 * sin (mq 0.7848 8328.691425 0.0001523 t) + (179 * sin (mq 2.543 15542.7543 0 t) + (160 * sin (mq 0.1874 7214.0629 0 t) + total (fun x => sp x t) l))).
    apply H; [|apply H; [|apply H; [|reflexivity]]]; apply f_equal; apply f_equal; unfold mq; decs; field. }
  rewrite X. pose proof (sp_abs l t) as A. assert (L : total (fun x => let '(_, c, _, _, _, _) := x in Rabs c) l = 157).
  { unfold total, l. cbn [speed_waves skipn fold_right]. rewrite <- !abs_IZR. cbn [Z.abs]. lra. }
  rewrite L in A. clear X L. set (z := total (fun x => sp x t) l) in *. clearbody z. apply Rabs_le_inv in A. revert E. decs. intros E. apply Rabs_le. lra.
Qed.

(** ** the exact moment: up to the year 3000 the elongation is continuous and grows *)
Lemma el_slope0 T S t t' : (10 <= T <= 10 * S)%Z -> (S <= 10)%Z -> Rabs t <= IZR T -> Rabs t' <= IZR T -> t <= 10 -> t' <= 10 ->
  Rabs (elongation t' - elongation t - 7771.37714500204 * (t' - t)) <= el_slope_dev T S * Rabs (t' - t).
Proof.
  intros HT HS B B' b b'. assert (TS : IZR T <= 10 * IZR S) by (rewrite <- mult_IZR; apply IZR_le; lia). assert (T1 : 10 <= IZR T <= 100) by (split; apply IZR_le; lia). assert (T0 : (0 <= T)%Z) by lia.
  rewrite !el_is, !moon_full_is, !late_0 by assumption. pose proof (sun_slope S t t' ltac:(lia) ltac:(lra) ltac:(lra)) as SS. pose proof (nut_lip t t' ltac:(lra) ltac:(lra)) as N.
  pose proof (mean_step T t t' ltac:(lia) B B') as M.
  pose proof kap_range as KR. assert (KP : Rabs kap <= kap) by (rewrite Rabs_pos_eq; [apply Rle_refl|revert KR; decs; lra]).
  pose proof (prod_le _ _ _ _ KP (pows_lip T 0 ML0 t t' T0 B B')) as G0. pose proof (prod_le _ _ _ _ KP (pows_lip T 1 ML1 t t' T0 B B')) as G1.
  pose proof (prod_le _ _ _ _ KP (pows_lip T 2 ML2 t t' T0 B B')) as G2. pose proof (prod_le _ _ _ _ KP (pows_lip T 3 ML3 t t' T0 B B')) as G3.
  fold (group_rho T 0 ML0) in G0. fold (group_rho T 1 ML1) in G1. fold (group_rho T 2 ML2) in G2. fold (group_rho T 3 ML3) in G3.
  rewrite !pow_O, !Rmult_1_l in G0. rewrite !pow_1 in G1.
  assert (D : Rabs ((mean_rate - 628.33196674749 - 7771.37714500204) * (t' - t)) <= 0.00001 * Rabs (t' - t)).
  { apply prod_le; [|apply Rle_refl]. unfold mean_rate. pose proof PI_bounds as P. revert P. decs. intros P. apply Rabs_le. lra. }
  assert (Q := sum_le _ _ _ _ (sum_le _ _ _ _ (diff_le _ _ _ _ (sum_le _ _ _ _ (sum_le _ _ _ _ (sum_le _ _ _ _ (sum_le _ _ _ _ G0 G1) G2) G3) M) SS) N) D).
  match type of Q with Rabs ?x <= _ => match goal with |- Rabs ?z <= _ => replace z with x by ring end end.
  apply Rle_trans with (1 := Q). unfold el_slope_dev. pose proof (Rabs_pos (t' - t)) as P0.
  assert (P1 : 0 <= (1.43 + 0.108 * (IZR T - 10)) / 206264 * Rabs (t' - t)) by (apply Rmult_le_pos; [decs; lra|exact P0]). revert P1. decs. lra.
Qed.
Lemma el_cont : continuity (fun t => elongation t - late t).
Proof.
  assert (E : forall t, elongation t - late t = moon_mean t + (kap * ws ML0 t + kap * (t * ws ML1 t) + kap * (t ^ 2 * ws ML2 t) + kap * (t ^ 3 * ws ML3 t)) - (3.4e-6 + sun_longitude t - nut_lon t)) by (intros t; rewrite el_is, moon_full_is; ring).
  assert (C : continuity (fun t => moon_mean t + (kap * ws ML0 t + kap * (t * ws ML1 t) + kap * (t ^ 2 * ws ML2 t) + kap * (t ^ 3 * ws ML3 t)) - (3.4e-6 + sun_longitude t - nut_lon t))).
  { apply continuity_minus.
    - apply continuity_plus; [unfold moon_mean, arcsec; reg|]. pose proof (ws_cont ML0) as C0. pose proof (ws_cont ML1) as C1. pose proof (ws_cont ML2) as C2. pose proof (ws_cont ML3) as C3.
      apply continuity_plus; [apply continuity_plus; [apply continuity_plus|]|].
      + apply (continuity_scal (ws ML0)), C0.
      + apply (continuity_scal (fun t => t * ws ML1 t)). apply (continuity_mult (fun t => t)); [reg|exact C1].
      + apply (continuity_scal (fun t => t ^ 2 * ws ML2 t)). apply (continuity_mult (fun t => t ^ 2)); [reg|exact C2].
      + apply (continuity_scal (fun t => t ^ 3 * ws ML3 t)). apply (continuity_mult (fun t => t ^ 3)); [reg|exact C3].
    - apply continuity_minus; [apply continuity_plus; [apply continuity_const; intros ? ?; reflexivity|apply sun_cont]|].
      unfold nut_lon, arcsec, nutation_terms, nut_arg. cbn [map sum fold_right fst snd]. reg. }
  intros t eps He. destruct (C t eps He) as (a & A & H). exists a. split; [exact A|]. intros x Hx. rewrite !E. apply H, Hx.
Qed.
Lemma el_root S v W e sl d : (1 <= S <= 10)%Z -> Rabs v <= 10 * IZR S - d -> v <= 10 - d -> el_slope_dev (10 * S) S <= sl -> sl < 7771 -> Rabs (W - elongation v) <= e -> 0 < d -> e <= (7771 - sl) * d ->
  exists r, elongation r = W /\ Rabs (v - r) <= d /\ r <= 10 /\ forall r', Rabs r' <= 10 * IZR S -> r' <= 10 -> elongation r' = W -> r' = r.
Proof.
  intros HS B L10 L SL E d0 Hd. assert (ET : IZR (10 * S) = 10 * IZR S) by apply mult_IZR. assert (TS : (10 <= 10 * S <= 10 * S)%Z) by lia. assert (S2 : (S <= 10)%Z) by lia.
  apply Rabs_le_inv in B. apply Rabs_le_inv in E.
  assert (BV : Rabs v <= IZR (10 * S)) by (rewrite ET; apply Rabs_le; lra). assert (BM : Rabs (v - d) <= IZR (10 * S)) by (rewrite ET; apply Rabs_le; lra). assert (BP : Rabs (v + d) <= IZR (10 * S)) by (rewrite ET; apply Rabs_le; lra).
  pose proof (el_slope0 _ S v (v - d) TS S2 BV BM ltac:(lra) ltac:(lra)) as SM. pose proof (el_slope0 _ S v (v + d) TS S2 BV BP ltac:(lra) ltac:(lra)) as SP.
  replace (v - d - v) with (- d) in SM by ring. replace (v + d - v) with d in SP by ring. rewrite Rabs_Ropp in SM. rewrite (Rabs_pos_eq d) in SM, SP by lra. apply Rabs_le_inv in SM. apply Rabs_le_inv in SP.
  assert (X0 : el_slope_dev (10 * S) S * d <= sl * d) by (apply Rmult_le_compat_r; lra).
  assert (XX : 7771.37714500204 * d = 7771 * d + 0.37714500204 * d) by (decs; field). assert (X1 : 0 < 0.37714500204 * d) by (apply Rmult_lt_0_compat; [decs; lra|exact d0]).
  rewrite Rmult_minus_distr_r in Hd. replace (7771.37714500204 * - d) with (- (7771.37714500204 * d)) in SM by ring.
  destruct (IVT (fun x => elongation x - late x - W) (v - d) (v + d)) as (r & (R1 & R2) & Er).
  - apply (continuity_minus (fun x => elongation x - late x) (fun _ => W)); [apply el_cont|apply continuity_const; intros ? ?; reflexivity].
  - lra.
  - rewrite late_0 by lra. lra.
  - rewrite late_0 by lra. lra.
  - rewrite late_0 in Er by lra. exists r. split; [lra|]. split; [apply Rabs_le; lra|]. split; [lra|]. intros r' B' b' E'. assert (BR : Rabs r <= IZR (10 * S)) by (rewrite ET; apply Rabs_le; lra).
    pose proof (el_slope0 _ S r r' TS S2 BR ltac:(rewrite ET; exact B') ltac:(lra) b') as SS. rewrite E' in SS. replace (elongation r) with W in SS by lra.
    destruct (Req_dec r' r) as [Q|Q]; [exact Q|exfalso]. assert (NZ : 0 < Rabs (r' - r)) by (apply Rabs_pos_lt; lra).
    replace (W - W - 7771.37714500204 * (r' - r)) with (- (7771.37714500204 * (r' - r))) in SS by ring. rewrite Rabs_Ropp, Rabs_mult, (Rabs_pos_eq 7771.37714500204) in SS by (decs; lra).
    assert (0 < (7771.37714500204 - el_slope_dev (10 * S) S) * Rabs (r' - r)) by (apply Rmult_lt_0_compat; [revert L SL; decs; lra|exact NZ]). lra.
Qed.

(** ** the error of the quick search *)
Lemma quick_step S T1 T2 r L c q e h sl rho K dv : (1 <= S <= 10)%Z -> Rabs T1 <= 10 * IZR S -> Rabs r <= 10 * IZR S -> el_slope_dev (10 * S) S <= sl -> sl < 7771 -> el_rho (10 * S) S <= rho -> el_K (10 * S) S <= K -> 0 <= K -> 0 <= rho ->
  Rabs (el_speed T1 - short_speed T1) <= dv -> Rabs (short_speed T1 * (T2 - T1) - (elongation r - L)) <= c -> Rabs (L - elongation T1) <= q -> Rabs (elongation r - elongation T1) <= e -> e + 4.2e-6 <= (7771 - sl) * h ->
  6518.38 * Rabs (T2 - r) <= c + q + (rho + dv) * h + K * h ^ 2 + 4.2e-6.
Proof.
  intros HS B1 Br Hsl SL Hr HK K0 R0 Hdv D Q E Hh. assert (ET : IZR (10 * S) = 10 * IZR S) by apply mult_IZR. assert (TS : (10 <= 10 * S <= 10 * S)%Z) by lia. assert (S2 : (S <= 10)%Z) by lia.
  pose proof (moon_root S T1 (elongation r) e sl HS B1 Hsl E h r Br eq_refl SL Hh) as Bx. rewrite <- Rabs_Ropp in Bx. replace (- (T1 - r)) with (r - T1) in Bx by ring.
  pose proof (el_step (10 * S) S T1 r TS S2 ltac:(lra) ltac:(lra)) as ST. set (x := r - T1) in *. pose proof (Rabs_pos x) as X0. pose proof (short_range T1) as SR.
  apply Rle_trans with (Rabs (short_speed T1 * (T2 - r))).
  { rewrite Rabs_mult. apply Rmult_le_compat_r; [apply Rabs_pos|]. rewrite Rabs_pos_eq; [apply SR|]. revert SR. decs. lra. }
  replace (short_speed T1 * (T2 - r)) with ((short_speed T1 * (T2 - T1) - (elongation r - L)) - (L - elongation T1) + (elongation r - elongation T1 - el_speed T1 * x) + (el_speed T1 - short_speed T1) * x) by (unfold x; ring).
  apply Rle_trans with (1 := sum_le _ _ _ _ (sum_le _ _ _ _ (diff_le _ _ _ _ D Q) ST) (prod_le _ _ _ _ Hdv Bx)).
  assert (A1 : el_rho (10 * S) S * Rabs x <= rho * h) by (apply Rle_trans with (rho * Rabs x); [apply Rmult_le_compat_r; assumption|apply Rmult_le_compat_l; assumption]).
  assert (A2 : el_K (10 * S) S * x ^ 2 <= K * h ^ 2) by (rewrite <- (pow2_abs x); apply Rle_trans with (K * Rabs x ^ 2); [apply Rmult_le_compat_r; [apply pow2_ge_0|exact HK]|apply Rmult_le_compat_l; [exact K0|apply pow_incr; split; assumption]]).
  rewrite Rmult_plus_distr_r. lra.
Qed.
Lemma moon_rho10 : moon_rho 10 <= 51.6. Proof. unfold moon_rho, poly_rho. fields. lra. Qed.
Lemma moon_K10 : moon_K 10 <= 7080200. Proof. unfold moon_K. fields. lra. Qed.
Lemma earth_rho1 : earth_rho 1 <= 0.51. Proof. unfold earth_rho. numbers. lra. Qed.
Lemma earth_K1 : earth_K 1 <= 8000. Proof. unfold earth_K. numbers. lra. Qed.
Lemma el_slope1 : el_slope_dev (10 * 1) 1 <= 1472.9. Proof. change (10 * 1)%Z with 10%Z. unfold el_slope_dev, slope_dev, poly_rho. fields. lra. Qed.
Lemma moon_rho30 : moon_rho 30 <= 124.6. Proof. unfold moon_rho, poly_rho. fields. lra. Qed.
Lemma moon_K30 : moon_K 30 <= 7080200. Proof. unfold moon_K. fields. lra. Qed.
Lemma el_slope3 : el_slope_dev (10 * 3) 3 <= 1478.7. Proof. change (10 * 3)%Z with 30%Z. unfold el_slope_dev, slope_dev, poly_rho. fields. lra. Qed.
Lemma el_dev3 : el_dev (10 * 3) 3 <= 0.2478. Proof. change (10 * 3)%Z with 30%Z. unfold el_dev, mean_dev. fields. lra. Qed.
(** the elongation of the only step *)
Definition el_quick (t : R) : R := moon_n 20 t - sun_short t.
Lemma el_quick_near t : Rabs t <= 10 -> Rabs (el_quick t - elongation t) <= 0.001984.
Proof.
  intros B. pose proof (moon_tail 10 20 t B) as MT. revert MT. tails. intros MT. pose proof (sun_short_near t B) as SS. unfold el_quick. rewrite el_is.
  assert (C3 : Rabs 3.4e-6 <= 3.4e-6) by (decs; apply Rabs_le; lra).
  match goal with |- Rabs ?z <= _ => replace z with ((moon_n 20 t - moon_full t) - (sun_short t - (sun_longitude t - nut_lon t)) + 3.4e-6) by ring end.
  apply Rle_trans with (1 := sum_le _ _ _ _ (diff_le _ _ _ _ MT SS) C3). decs. lra.
Qed.
Lemma el_quick_far t : Rabs t <= 30 -> Rabs (el_quick t - elongation t) <= 0.096.
Proof.
  intros B. pose proof (moon_tail 30 20 t B) as MT. revert MT. match goal with |- context [mtail ?T ?n] => let v := eval vm_compute in (mtail T n) in change (mtail T n) with v end. intros MT. pose proof (sun_dev 3 t ltac:(lia) ltac:(lra)) as SD. pose proof dev3 as D3. pose proof (nut_small t ltac:(lra)) as N. unfold el_quick. rewrite el_is.
  assert (C3 : Rabs 3.4e-6 <= 3.4e-6) by (decs; apply Rabs_le; lra).
  assert (PC : Rabs (4.8950632 - 1.75347 - PI) <= 6e-7) by (pose proof PI_bounds as P; revert P; decs; intros P; apply Rabs_le; lra).
  assert (AA : Rabs (arcsec 20.5) <= 20.5 / 206264) by (apply arcsec_le; decs; apply Rabs_le; lra).
  assert (SS : Rabs (sun_short t - sun_mean t) <= 0.0451).
  { unfold sun_short, sun_mean. set (c1 := cos (4.669257 + 628.307585 * t)). set (c2 := cos (2.67823 + 628.307585 * t)). set (c4 := cos (4.6261 + 1256.61517 * t)).
    assert (S0 : Rabs (5.297e-6 * t * t) <= 5.297e-6 * 30 * 30) by (apply prod_le; [apply prod_le; [decs; apply Rabs_le; lra|exact B]|exact B]).
    assert (S1 : Rabs (0.0334166 * c1) <= 0.0334166 * 1) by (apply prod_le; [decs; apply Rabs_le; lra|apply Rabs_le, COS_bound]).
    assert (S2 : Rabs (0.0002061 * c2 * t) <= 0.0002061 * 1 * 30) by (apply prod_le; [apply prod_le; [decs; apply Rabs_le; lra|apply Rabs_le, COS_bound]|exact B]).
    assert (S4 : Rabs (0.000349 * c4) <= 0.000349 * 1) by (apply prod_le; [decs; apply Rabs_le; lra|apply Rabs_le, COS_bound]). clearbody c1 c2 c4.
    assert (Q := diff_le _ _ _ _ (sum_le _ _ _ _ (sum_le _ _ _ _ (sum_le _ _ _ _ (sum_le _ _ _ _ PC S0) S1) S2) S4) AA).
    match type of Q with Rabs ?x <= _ => match goal with |- Rabs ?z <= _ => replace z with x by ring end end. apply Rle_trans with (1 := Q). decs. lra. }
  match goal with |- Rabs ?z <= _ => replace z with ((moon_n 20 t - moon_full t) - (sun_short t - sun_mean t) - (sun_mean t - sun_longitude t) - nut_lon t + 3.4e-6) by ring end.
  apply Rle_trans with (1 := sum_le _ _ _ _ (diff_le _ _ _ _ (diff_le _ _ _ _ (diff_le _ _ _ _ MT SS) SD) N) C3). revert D3. decs. lra.
Qed.
(** up to ten centuries from J2000: 2049 seconds *)
Lemma moon_quick_near W r T0 T1 T2 : Rabs W <= 77650 -> Rabs r <= 10 -> elongation r = W -> Rabs (W - el_mean T0) <= 2e-8 -> Rabs (el_v * (T1 - T0) + moon_wave T0) <= 1e-8 -> Rabs (short_speed T1 * (T2 - T1) - (W - el_quick T1)) <= 2e-8 ->
  Rabs (T2 - r) <= 2049 / (36525 * 86400).
Proof.
  intros BW Br Er M0 D1 D2.
  assert (B0 : Rabs T0 <= 9.995). { revert M0. unfold el_mean. decs. intros M0. apply Rabs_le_inv in M0. apply Rabs_le_inv in BW. apply Rabs_le. lra. }
  destruct (moon_shift T0 T1 B0 D1) as [B1 WS].
  assert (E1 : Rabs (W - elongation T1) <= 0.04893).
  { replace (W - elongation T1) with ((W - el_mean T0) - (el_v * (T1 - T0) + moon_wave T0) - (moon_wave T1 - moon_wave T0) - (elongation T1 - el_mean T1 - moon_wave T1)) by (unfold el_mean, el_v; ring).
    apply Rle_trans with (1 := diff_le _ _ _ _ (diff_le _ _ _ _ (diff_le _ _ _ _ M0 D1) WS) (moon_rest T1 B1)). decs. lra. }
  pose proof (short_speed_near 1 T1 ltac:(lia) ltac:(lra)) as SP. rewrite <- Er in E1, D2. pose proof moon_rho10 as R1. pose proof moon_K10 as K1. pose proof earth_rho1 as R2. pose proof earth_K1 as K2.
  assert (HR : el_rho (10 * 1) 1 <= 52.12) by (unfold el_rho; change (10 * 1)%Z with 10%Z; revert R1 R2; decs; lra). assert (HK : el_K (10 * 1) 1 <= 7088200) by (unfold el_K; change (10 * 1)%Z with 10%Z; revert K1 K2; decs; lra).
  assert (DV : Rabs (el_speed T1 - short_speed T1) <= 179.8) by (apply Rle_trans with (1 := SP); decs; lra).
  assert (H0 : 0.04893 + 4.2e-6 <= (7771 - 1472.9) * 7.7697e-6) by (decs; lra).
  pose proof (quick_step 1 T1 T2 r (el_quick T1) 2e-8 0.001984 0.04893 7.7697e-6 1472.9 52.12 7088200 179.8 ltac:(lia) ltac:(lra) ltac:(lra) el_slope1 ltac:(decs; lra) HR HK ltac:(lra) ltac:(decs; lra) DV D2 (el_quick_near T1 B1) E1 H0) as X.
  revert X. decs. lra.
Qed.
Lemma moon_guess W T0 T1 : Rabs W <= 232901 -> Rabs (W - el_mean T0) <= 2e-8 -> Rabs (el_v * (T1 - T0) + moon_wave T0) <= 1e-8 -> Rabs T1 <= 30 /\ Rabs (W - elongation T1) <= 0.4432.
Proof.
  intros BW M0 D1.
  assert (B0 : Rabs T0 <= 29.98). { revert M0. unfold el_mean. decs. intros M0. apply Rabs_le_inv in M0. apply Rabs_le_inv in BW. apply Rabs_le. lra. }
  assert (B30 : Rabs T0 <= 30) by (revert B0; decs; lra).
  assert (WV : Rabs (moon_wave T0) <= 0.1953).
  { unfold moon_wave. apply Rle_trans with (3.309e-5 * 30 ^ 2 + 0.10976 * 1 + 0.02224 * 1 + 0.03342 * 1); [|decs; lra].
    apply diff_le; [apply sum_le; [apply sum_le|]|]; (apply prod_le; [decs; apply Rabs_le; lra|]); [apply (powk T0 30 2 B30)|apply Rabs_le, COS_bound|apply Rabs_le, COS_bound|apply Rabs_le, COS_bound]. }
  assert (B1 : Rabs T1 <= 30).
  { replace T1 with (T0 + (el_v * (T1 - T0) + moon_wave T0) * / el_v - moon_wave T0 * / el_v) by (unfold el_v; decs; field).
    assert (IV : Rabs (/ el_v) <= / 7000) by (rewrite Rabs_pos_eq; unfold el_v; decs; lra).
    apply Rle_trans with (1 := diff_le _ _ _ _ (sum_le _ _ _ _ B0 (prod_le _ _ _ _ D1 IV)) (prod_le _ _ _ _ WV IV)). decs. lra. }
  pose proof (el_dev_ok (10 * 3) 3 T1 ltac:(lia) ltac:(lia) ltac:(change (10 * 3)%Z with 30%Z; lra)) as MD. pose proof el_dev3 as D3.
  split; [exact B1|].
  replace (W - elongation T1) with ((W - el_mean T0) - (el_v * (T1 - T0) + moon_wave T0) + moon_wave T0 + (el_mean T1 - elongation T1)) by (unfold el_mean, el_v; ring).
    apply Rle_trans with (1 := sum_le _ _ _ _ (sum_le _ _ _ _ (diff_le _ _ _ _ M0 D1) WV) MD). revert D3. decs. lra.
Qed.
(** up to thirty centuries: one day *)
Lemma moon_quick_far W r T0 T1 T2 : Rabs W <= 232900 -> Rabs r <= 30 -> elongation r = W -> Rabs (W - el_mean T0) <= 2e-8 -> Rabs (el_v * (T1 - T0) + moon_wave T0) <= 1e-8 -> Rabs (short_speed T1 * (T2 - T1) - (W - el_quick T1)) <= 2e-8 ->
  Rabs (T2 - r) <= / 36525.
Proof.
  intros BW Br Er M0 D1 D2.
  destruct (moon_guess W T0 T1 ltac:(lra) M0 D1) as [B1 E1].
  pose proof (short_speed_near 3 T1 ltac:(lia) ltac:(lra)) as SP. rewrite <- Er in E1, D2. pose proof moon_rho30 as R1. pose proof moon_K30 as K1. pose proof earth_rho3 as R2. pose proof earth_K3 as K2.
  assert (HR : el_rho (10 * 3) 3 <= 126) by (unfold el_rho; change (10 * 3)%Z with 30%Z; revert R1 R2; decs; lra). assert (HK : el_K (10 * 3) 3 <= 7090000) by (unfold el_K; change (10 * 3)%Z with 30%Z; revert K1 K2; decs; lra).
  assert (DV : Rabs (el_speed T1 - short_speed T1) <= 184) by (apply Rle_trans with (1 := SP); decs; lra).
  assert (H0 : 0.4432 + 4.2e-6 <= (7771 - 1478.7) * 0.00007045) by (decs; lra).
  pose proof (quick_step 3 T1 T2 r (el_quick T1) 2e-8 0.096 0.4432 0.00007045 1478.7 126 7090000 184 ltac:(lia) ltac:(lra) ltac:(lra) el_slope3 ltac:(decs; lra) HR HK ltac:(lra) ltac:(lra) DV D2 (el_quick_far T1 B1) E1 H0) as X.
  revert X. decs. lra.
Qed.
