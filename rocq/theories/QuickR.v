(** The quick search for the Sun, in real numbers. *)
From Coq Require Import ZArith Reals Lia Lra Bool List.
From Flocq Require Import Core.
From Verif Require Import F64R F64E PiBound ErrExpr SmTab FormSpec FormProps WaveF WaveR SmSpec SmLon SmProps SmSun SmNewton SunProps.
Import ListNotations.
Open Scope R_scope.

(** the waves and the square the first guess allows for *)
Definition sun_wave (t : R) : R := 5.297e-6 * t ^ 2 + 0.0334166 * cos (4.669257 + 628.307585 * t) + 0.0002061 * t * cos (2.67823 + 628.307585 * t).
(** the longitude used in the only step *)
Definition sun_quick (t : R) : R := earth_n 8 t + PI - arcsec (20.5 + 17.2 * sin (2.1824 - 33.75705 * t)).

Lemma aber10 t : Rabs t <= 10 -> Rabs (sun_aberration t + arcsec 20.49552) <= 0.3525 / 206264.
Proof.
  intros B. unfold sun_aberration. powers t 10 B. match goal with |- Rabs (arcsec ?x + arcsec ?y) <= _ => replace (arcsec x + arcsec y) with (arcsec (x + y)) by (unfold arcsec; field) end.
  apply arcsec_le. match goal with |- Rabs (?k * (1 + ?e * ?c) + 20.49552) <= _ => replace (k * (1 + e * c) + 20.49552) with (- 20.49552 * e * c) by (decs; ring); set (E := e) end.
  apply Rle_trans with (20.49552 * 0.0171950 * 1); [|decs; lra]. apply prod_le; [|apply Rabs_le, COS_bound]. apply prod_le; [decs; apply Rabs_le; lra|].
  unfold E. apply Rabs_le_inv in B. apply Rabs_le_inv in H. apply Rabs_le. decs. lra.
Qed.
Lemma nut10 t : Rabs t <= 10 -> Rabs (nut_lon t) <= 19.485 / 206264 /\ Rabs (nut_lon t + arcsec (17.2 * sin (2.1824 - 33.75705 * t))) <= 2.35 / 206264.
Proof.
  intros B. unfold nut_lon. set (l := tl nutation_terms). set (a := 2.1824 - 33.75705 * t + 36e-6 * t ^ 2). set (b := 2.1824 - 33.75705 * t).
  assert (E : sum (map (fun x => snd (fst x) * sin (nut_arg t x)) nutation_terms) = - 1720 * sin a + sum (map (fun x => snd (fst x) * sin (nut_arg t x)) l)).
  { unfold l, nutation_terms. cbn [map sum fold_right fst snd tl]. f_equal. f_equal. f_equal. unfold nut_arg, a. decs. ring. }
  rewrite E. pose proof (nut_sum_abs l t) as A. assert (AL : sum (map (fun x => Rabs (snd (fst x))) l) <= 211) by (unfold l, nutation_terms; cbn [map sum fold_right fst snd tl]; rewrite <- !abs_IZR; cbn [Z.abs]; lra).
  assert (A' := Rle_trans _ _ _ A AL). clear A AL E. set (q := sum (map (fun x => snd (fst x) * sin (nut_arg t x)) l)) in *. clearbody q.
  assert (S1 : Rabs (sin a) <= 1) by (apply Rabs_le, SIN_bound). assert (C : Rabs (1.742 * t * sin a) <= 1.742 * 10 * 1) by (apply prod_le; [apply prod_le; [decs; apply Rabs_le; lra|exact B]|exact S1]).
  assert (D : Rabs (sin b - sin a) <= 36e-6 * 10 ^ 2).
  { apply Rle_trans with (1 := sin_lip _ _). unfold a, b. replace (2.1824 - 33.75705 * t - (2.1824 - 33.75705 * t + 36e-6 * t ^ 2)) with (- (36e-6 * t ^ 2)) by ring. rewrite Rabs_Ropp. apply prod_le; [decs; apply Rabs_le; lra|apply powk, B]. }
  clearbody a b. set (sa := sin a) in *. set (sb := sin b) in *. set (c := 1.742 * t * sa) in *. clearbody sa sb c. apply Rabs_le_inv in A'. apply Rabs_le_inv in S1. revert C D. decs. intros C D. apply Rabs_le_inv in C. apply Rabs_le_inv in D. split.
  - apply arcsec_le. apply Rabs_le. lra.
  - match goal with |- Rabs (arcsec ?x + arcsec ?y) <= _ => replace (arcsec x + arcsec y) with (arcsec (x + y)) by (unfold arcsec; field) end. apply arcsec_le. apply Rabs_le. lra.
Qed.
Lemma wave_near A B b d b' d' s : 0 <= B -> Rabs s <= 1 -> Rabs (A * cos (b + d * s) - B * cos (b' + d' * s)) <= Rabs (A - B) + B * (Rabs (b - b') + Rabs (d - d')).
Proof.
  intros HB Hs. replace (A * cos (b + d * s) - B * cos (b' + d' * s)) with ((A - B) * cos (b + d * s) + B * (cos (b + d * s) - cos (b' + d' * s))) by ring. apply sum_le.
  - rewrite <- (Rmult_1_r (Rabs (A - B))). apply prod_le; [apply Rle_refl|apply Rabs_le, COS_bound].
  - rewrite <- (Rabs_pos_eq B HB) at 2. apply prod_le; [apply Rle_refl|]. apply Rle_trans with (1 := cos_lip _ _). replace (b + d * s - (b' + d' * s)) with ((b - b') + (d - d') * s) by ring.
    apply sum_le; [apply Rle_refl|]. rewrite <- (Rmult_1_r (Rabs (d - d'))). apply prod_le; [apply Rle_refl|exact Hs].
Qed.
(** what mean motion and waves leave *)
Lemma sun_rest t : Rabs t <= 10 -> Rabs (sun_longitude t - sun_mean t - sun_wave t) <= 0.0010051.
Proof.
  intros B. unfold sun_longitude, sun_mean, sun_wave. rewrite earth_full_is. set (s := t / 10).
  pose proof (aber10 t B) as AB. destruct (nut10 t B) as [NU _].
  assert (Et : t = 10 * s) by (unfold s; field). assert (Bs : Rabs s <= 1) by (unfold s; apply Rabs_le_inv in B; apply Rabs_le; lra). clearbody s. subst t.
  rewrite el0', el1'.
  assert (E0 : ws (skipn 1 EL0) s = 334165646 * cos (4.669256804 + 6283.075849991 * s) + ws (skipn 2 EL0) s).
  { rewrite (ws_split 1 (skipn 1 EL0) s). change (firstn 1 (skipn 1 EL0)) with [V 334165646 466925680400 6283075849991]. change (skipn 1 (skipn 1 EL0)) with (skipn 2 EL0). f_equal.
    cbn [ws fold_right]. unfold V, ph. cbn [wa wb wd we wf wg]. rewrite Rplus_0_r. f_equal. f_equal. decs. field. }
  assert (E1 : ws (skipn 1 EL1) s = 20605886 * cos (2.67823456 + 6283.07584999 * s) + ws (skipn 2 EL1) s).
  { rewrite (ws_split 1 (skipn 1 EL1) s). change (firstn 1 (skipn 1 EL1)) with [V 20605886 267823456000 6283075849990]. change (skipn 1 (skipn 1 EL1)) with (skipn 2 EL1). f_equal.
    cbn [ws fold_right]. unfold V, ph. cbn [wa wb wd we wf wg]. rewrite Rplus_0_r. f_equal. f_equal. decs. field. }
  assert (E2 : ws EL2 s = 5291887 + ws (skipn 1 EL2) s).
  { rewrite (ws_split 1 EL2 s). change (firstn 1 EL2) with [V 5291887 0 0]. f_equal. cbn [ws fold_right]. unfold V, ph. cbn [wa wb wd we wf wg]. rewrite Rplus_0_r.
    match goal with |- _ * cos ?a = _ => replace a with 0 by field end. rewrite cos_0. ring. }
  rewrite E0, E1, E2. clear E0 E1 E2.
  assert (W1 := wave_near 0.0334165646 0.0334166 4.669256804 6283.075849991 4.669257 6283.07585 s ltac:(decs; lra) Bs).
  assert (W2 := wave_near 0.0020605886 0.002061 2.67823456 6283.07584999 2.67823 6283.07585 s ltac:(decs; lra) Bs).
  assert (W1' : Rabs (0.0334165646 * cos (4.669256804 + 6283.075849991 * s) - 0.0334166 * cos (4.669257 + 6283.07585 * s)) <= 5e-8).
  { apply Rle_trans with (1 := W1). decs. repeat match goal with |- context [Rabs ?x] => first [rewrite (Rabs_pos_eq x) by lra|rewrite (Rabs_left1 x) by lra] end. lra. }
  assert (W2' : Rabs (0.0020605886 * cos (2.67823456 + 6283.07584999 * s) - 0.002061 * cos (2.67823 + 6283.07585 * s)) <= 5e-7).
  { apply Rle_trans with (1 := W2). decs. repeat match goal with |- context [Rabs ?x] => first [rewrite (Rabs_pos_eq x) by lra|rewrite (Rabs_left1 x) by lra] end. lra. }
  clear W1 W2. assert (W3 := prod_le _ _ _ _ Bs W2'). clear W2'.
  replace (4.669257 + 628.307585 * (10 * s)) with (4.669257 + 6283.07585 * s) by (decs; field). replace (2.67823 + 628.307585 * (10 * s)) with (2.67823 + 6283.07585 * s) by (decs; field).
  set (c1 := cos (4.669256804 + 6283.075849991 * s)) in *. set (c1' := cos (4.669257 + 6283.07585 * s)) in *. set (c2 := cos (2.67823456 + 6283.07584999 * s)) in *. set (c2' := cos (2.67823 + 6283.07585 * s)) in *.
  clearbody c1 c1' c2 c2'.
  assert (P1 : forall k l, Rabs (s ^ k * ws l s) <= IZR (amp l)). { intros k l. replace (IZR (amp l)) with (1 ^ k * IZR (amp l)) by (rewrite Rfunctions.pow1; ring). apply prod_le; [apply powk, Bs|apply ws_amp]. }
  assert (Q := sum_le _ _ _ _ (sum_le _ _ _ _ (sum_le _ _ _ _ (sum_le _ _ _ _ (sum_le _ _ _ _ (ws_amp (skipn 2 EL0) s) (P1 1%nat (skipn 2 EL1))) (P1 2%nat (skipn 1 EL2))) (P1 3%nat EL3)) (P1 4%nat EL4)) (P1 5%nat EL5)).
  clear P1. repeat match type of Q with context [amp ?l] => let v := eval vm_compute in (amp l) in change (amp l) with v in Q end.
  set (g0 := ws (skipn 2 EL0) s) in *. set (g1 := ws (skipn 2 EL1) s) in *. set (g2 := ws (skipn 1 EL2) s) in *. set (g3 := ws EL3 s) in *. set (g4 := ws EL4 s) in *. set (g5 := ws EL5 s) in *. clearbody g0 g1 g2 g3 g4 g5.
  set (X := g0 + s ^ 1 * g1 + s ^ 2 * g2 + s ^ 3 * g3 + s ^ 4 * g4 + s ^ 5 * g5) in *.
  (* the polynomial part *)
  assert (PP : Rabs (4.567e-7 + 1.41569e-5 * s - 5.113e-7 * s ^ 2 + earth_fix s) <= 7.3e-6).
  { unfold earth_fix, arcsec. pose proof PI_bounds as P. powers s 1 Bs. rewrite ?Rfunctions.pow1 in *. revert P. unfold Q2R. cbn. decs. intros P. set (p := PI) in *. clearbody p.
    match goal with |- Rabs ?z <= _ => replace z with ((4567 / 10000000000 - 728 / 10000 * p / 648000) + (141569 / 10000000000 - 27702 / 10000 * p / 648000) * s - (5113 / 10000000000 + 11019 / 10000 * p / 648000) * s ^ 2 - (996 / 10000 * p / 648000) * s ^ 3) by field end.
    match goal with |- Rabs (?a + ?b * s - ?c * s ^ 2 - ?d * s ^ 3) <= _ => assert (Rabs a <= 0.00000011 /\ Rabs b <= 0.00000073 /\ Rabs c <= 0.0000058539 /\ Rabs d <= 0.000000483) as (Ha & Hb & Hc & Hd) by (decs; repeat split; apply Rabs_le; lra) end.
    apply Rle_trans with (1 := diff_le _ _ _ _ (diff_le _ _ _ _ (sum_le _ _ _ _ Ha (prod_le _ _ _ _ Hb Bs)) (prod_le _ _ _ _ Hc H)) (prod_le _ _ _ _ Hd H0)). decs. lra. }
  match goal with |- Rabs ?z <= _ => replace z with ((X * / 10000000000 + (4.567e-7 + 1.41569e-5 * s - 5.113e-7 * s ^ 2 + earth_fix s)) + (nut_lon (10 * s) + (sun_aberration (10 * s) + arcsec 20.49552)) - arcsec 20.49552 +
     (0.0334165646 * c1 - 0.0334166 * c1') + s * (0.0020605886 * c2 - 0.002061 * c2')) by (unfold X; decs; field) end.
  assert (AA : Rabs (arcsec 20.49552) <= 20.49552 / 206264) by (apply arcsec_le; decs; apply Rabs_le; lra).
  assert (Q1 := prod_le _ _ _ _ Q (Rle_refl (Rabs (/ 10000000000)))). rewrite (Rabs_pos_eq (/ 10000000000)) in Q1 by lra.
  apply Rle_trans with (1 := sum_le _ _ _ _ (sum_le _ _ _ _ (diff_le _ _ _ _ (sum_le _ _ _ _ (sum_le _ _ _ _ Q1 PP) (sum_le _ _ _ _ NU AB)) AA) W1') W3). decs. lra.
Qed.
Lemma sun_quick_near t : Rabs t <= 10 -> Rabs (sun_quick t - sun_longitude t) <= 0.0001706.
Proof.
  intros B. pose proof (earth_tail 1 8 t ltac:(lra)) as ET. let v := eval vm_compute in (etail 1 8) in change (etail 1 8) with v in ET.
  pose proof (aber10 t B) as AB. destruct (nut10 t B) as [_ NU]. unfold sun_quick, sun_longitude.
  set (sn := sin (2.1824 - 33.75705 * t)) in *. clearbody sn.
  assert (K : Rabs (arcsec (20.5 - 20.49552)) <= 0.00449 / 206264) by (apply arcsec_le; decs; apply Rabs_le; lra).
  match goal with |- Rabs ?z <= _ => replace z with ((earth_n 8 t - earth_full t) - (nut_lon t + arcsec (17.2 * sn)) - (sun_aberration t + arcsec 20.49552) - arcsec (20.5 - 20.49552)) by (unfold arcsec; field) end.
  apply Rle_trans with (1 := diff_le _ _ _ _ (diff_le _ _ _ _ (diff_le _ _ _ _ ET NU) AB) K). decs. lra.
Qed.

(** the first guess: the step allows for the waves at the moment of the mean longitude, not at the moment itself *)
Lemma half_product x : Rabs (sin x * cos x) <= 1 / 2.
Proof. replace (sin x * cos x) with (sin (2 * x) * / 2) by (rewrite sin_2a; field). replace (1 / 2) with (1 * / 2) by field. apply prod_le; [apply Rabs_le, SIN_bound|rewrite Rabs_pos_eq; lra]. Qed.
Lemma cos_shift p x : Rabs (cos (p + x) - cos p) <= Rabs x * Rabs (sin p) + x ^ 2 / 2.
Proof.
  rewrite cos_plus. replace (cos p * cos x - sin p * sin x - cos p) with (cos p * (cos x - 1) - sin x * sin p) by ring.
  assert (S : Rabs (sin x) <= Rabs x) by (pose proof (sin_lip x 0) as L; rewrite sin_0, !Rminus_0_r in L; exact L).
  assert (C : Rabs (cos x - 1) <= x ^ 2 / 2).
  { replace (cos x - 1) with (- (2 * (sin (x / 2)) ^ 2)) by (replace x with (2 * (x / 2)) at 2 by field; rewrite cos_2a_sin; ring). rewrite Rabs_Ropp.
    assert (H : Rabs (sin (x / 2)) <= Rabs (x / 2)) by (pose proof (sin_lip (x / 2) 0) as L; rewrite sin_0, !Rminus_0_r in L; exact L).
    rewrite Rabs_pos_eq by (pose proof (pow2_ge_0 (sin (x / 2))); lra). rewrite <- (pow2_abs (sin (x / 2))). assert (K : Rabs (sin (x / 2)) ^ 2 <= Rabs (x / 2) ^ 2) by (apply pow_incr; split; [apply Rabs_pos|exact H]). rewrite (pow2_abs (x / 2)) in K.
    replace ((x / 2) ^ 2) with (x ^ 2 / 4) in K by field. lra. }
  rewrite Rplus_comm. apply Rle_trans with (1 * (x ^ 2 / 2) + Rabs x * Rabs (sin p)); [|lra]. apply diff_le; [apply prod_le; [apply Rabs_le, COS_bound|exact C]|]. rewrite Rabs_mult. apply Rmult_le_compat_r; [apply Rabs_pos|exact S].
Qed.
Lemma wave_shift T0 T1 : Rabs T0 <= 9.995 -> Rabs (628.3319653318 * (T1 - T0) + sun_wave T0) <= 1e-8 -> Rabs T1 <= 10 /\ Rabs (sun_wave T1 - sun_wave T0) <= 0.000746.
Proof.
  intros B D. set (p := 4.669257 + 628.307585 * T0). set (q := 2.67823 + 628.307585 * T0). set (h := T1 - T0) in *. set (x := 628.307585 * h).
  assert (B10 : Rabs T0 <= 10) by (revert B; decs; lra). powers T0 10 B10.
  set (b := 5.297e-6 * T0 ^ 2 + 0.0002061 * T0 * cos q).
  assert (Bb : Rabs b <= 0.0025907).
  { unfold b. apply Rle_trans with (5.297e-6 * 10 ^ 2 + 0.0002061 * 10 * 1); [|decs; lra]. apply sum_le; [apply prod_le; [decs; apply Rabs_le; lra|assumption]|].
    apply prod_le; [apply prod_le; [decs; apply Rabs_le; lra|assumption]|apply Rabs_le, COS_bound]. }
  assert (E0 : sun_wave T0 = 0.0334166 * cos p + b) by (unfold sun_wave, b, p, q; ring).
  assert (Bh : 628.3319653318 * Rabs h <= 0.0334166 * Rabs (cos p) + 0.0025907 + 1e-8).
  { rewrite <- (Rabs_pos_eq 628.3319653318) by (decs; lra). rewrite <- Rabs_mult. replace (628.3319653318 * h) with ((628.3319653318 * h + sun_wave T0) - (0.0334166 * cos p + b)) by (rewrite E0; ring).
    assert (A : Rabs (0.0334166 * cos p) <= 0.0334166 * Rabs (cos p)) by (rewrite Rabs_mult; rewrite (Rabs_pos_eq 0.0334166) by (decs; lra); apply Rle_refl).
    apply Rle_trans with (1 := diff_le _ _ _ _ D (sum_le _ _ _ _ A Bb)). lra. }
  assert (C1 : 0 <= Rabs (cos p) <= 1) by (split; [apply Rabs_pos|apply Rabs_le, COS_bound]).
  assert (Bx : Rabs x <= 0.0334166 * Rabs (cos p) + 0.0025908).
  { unfold x. rewrite Rabs_mult, (Rabs_pos_eq 628.307585) by (decs; lra). pose proof (Rabs_pos h). revert Bh. decs. lra. }
  assert (Bx1 : Rabs x <= 0.0360074) by (revert Bx; decs; lra).
  assert (Bh1 : Rabs h <= 0.00006). { revert Bh. decs. lra. }
  assert (B1 : Rabs T1 <= 10). { replace T1 with (T0 + h) by (unfold h; ring). apply Rle_trans with (1 := sum_le _ _ _ _ B Bh1). decs. lra. }
  split; [exact B1|].
  (* the three parts *)
  assert (P1 : Rabs (cos (p + x) - cos p) <= 0.02 ).
  { apply Rle_trans with (1 := cos_shift p x). assert (SC : Rabs (cos p) * Rabs (sin p) <= 1 / 2) by (rewrite <- Rabs_mult, Rmult_comm; apply half_product).
    assert (S1 : 0 <= Rabs (sin p) <= 1) by (split; [apply Rabs_pos|apply Rabs_le, SIN_bound]).
    assert (K : Rabs x * Rabs (sin p) <= (0.0334166 * Rabs (cos p) + 0.0025908) * Rabs (sin p)) by (apply Rmult_le_compat_r; [apply S1|exact Bx]).
    assert (X2 : x ^ 2 <= 0.0360074 ^ 2) by (rewrite <- pow2_abs; apply pow_incr; split; [apply Rabs_pos|exact Bx1]).
    assert (K2 : (0.0334166 * Rabs (cos p) + 0.0025908) * Rabs (sin p) <= 0.0334166 * (1 / 2) + 0.0025908) by (rewrite Rmult_plus_distr_r, Rmult_assoc; apply Rplus_le_compat; [apply Rmult_le_compat_l; [decs; lra|exact SC]|rewrite <- (Rmult_1_r 0.0025908) at 2; apply Rmult_le_compat_l; [decs; lra|apply S1]]).
    apply Rle_trans with (0.0334166 * (1 / 2) + 0.0025908 + 0.0360074 ^ 2 / 2); [|decs; lra]. lra. }
  assert (P2 : Rabs (cos (q + x) - cos q) <= 0.0360074) by (apply Rle_trans with (1 := cos_lip _ _); replace (q + x - q) with x by ring; exact Bx1).
  replace (sun_wave T1 - sun_wave T0) with (5.297e-6 * (h * (T1 + T0)) + 0.0334166 * (cos (p + x) - cos p) + 0.0002061 * (T1 * (cos (q + x) - cos q) + h * cos q)).
  - apply Rle_trans with (5.297e-6 * (0.00006 * (10 + 10)) + 0.0334166 * 0.02 + 0.0002061 * (10 * 0.0360074 + 0.00006 * 1)); [|decs; lra].
    apply sum_le; [apply sum_le|]; (apply prod_le; [decs; apply Rabs_le; lra|]); [apply prod_le; [exact Bh1|apply sum_le; assumption]|exact P1|].
    apply sum_le; apply prod_le; try assumption. apply Rabs_le, COS_bound.
  - unfold sun_wave. fold p q. replace (4.669257 + 628.307585 * T1) with (p + x) by (unfold p, x, h; ring). replace (2.67823 + 628.307585 * T1) with (q + x) by (unfold q, x, h; ring). unfold h. ring.
Qed.
