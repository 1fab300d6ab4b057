(** The rate of change of the Sun's longitude against the speed used in the search. *)
From Coq Require Import ZArith Reals Lia Lra Bool List.
From Flocq Require Import Core.
From Verif Require Import F64E PiBound SmTab FormSpec FormProps WaveF WaveR SmSpec SmF SmProps.
Import ListNotations.
Open Scope R_scope.

Lemma minus_pi p q : Rabs (-1 * sin p - sin q) <= Rabs (p - PI - q).
Proof. replace (-1 * sin p) with (sin (p - PI)); [apply sin_lip|]. rewrite sin_minus, cos_PI, sin_PI. ring. Qed.
Lemma plus_pi p q : Rabs (-1 * sin p - sin q) <= Rabs (p + PI - q).
Proof. replace (-1 * sin p) with (sin (p + PI)); [apply sin_lip|]. rewrite sin_plus, cos_PI, sin_PI. ring. Qed.
Lemma same_angle p q : Rabs (1 * sin p - sin q) <= Rabs (p - q).
Proof. rewrite Rmult_1_l. apply sin_lip. Qed.

(** one matched term with a power of t in front *)
Definition item_rho (T : Z) (k : nat) (w : wave) (A c s sup : R) : R :=
  INR k * IZR T ^ (Nat.pred k) * Rabs A +
  IZR T ^ k * (Rabs A * (IZR (sz T w - 100000 * Z.abs (wd w)) / 100000000000000) + Rabs (A * (IZR (wd w) / 1000000000) - s * c) + Rabs c * sup).
Definition item_K (T : Z) (k : nat) (w : wave) (A : R) : R := IZR T ^ k * (Rabs A * (IZR (sz T w) / 100000000000000) ^ 2 / 2).
Lemma pitem T k w t t' A c q s sup : (0 <= T)%Z -> Rabs t <= IZR T -> Rabs t' <= IZR T -> s = 1 \/ s = -1 -> Rabs (s * sin (ph w t) - sin q) <= sup ->
  Rabs (t' ^ k * (A * cos (ph w t')) - t ^ k * (A * cos (ph w t)) + (t' - t) * (t ^ k * (c * sin q))) <= item_rho T k w A c s sup * Rabs (t' - t) + item_K T k w A * (t' - t) ^ 2.
Proof.
  intros T0 B B' Hs Hq. pose proof (item T w t t' c q s sup T0 B B' Hs Hq A) as I.
  replace (t' ^ k * (A * cos (ph w t')) - t ^ k * (A * cos (ph w t)) + (t' - t) * (t ^ k * (c * sin q))) with
    ((t' ^ k - t ^ k) * (A * cos (ph w t')) + t ^ k * (A * (cos (ph w t') - cos (ph w t)) + (t' - t) * (c * sin q))) by ring.
  assert (P1 : Rabs ((t' ^ k - t ^ k) * (A * cos (ph w t'))) <= INR k * IZR T ^ (Nat.pred k) * Rabs (t' - t) * (Rabs A * 1)).
  { apply prod_le; [apply pow1; assumption|]. apply prod_le; [apply Rle_refl|apply Rabs_le, COS_bound]. }
  assert (P2 := prod_le _ _ _ _ (powk t _ k B) I). apply Rle_trans with (1 := sum_le _ _ _ _ P1 P2). unfold item_rho, item_K. right. ring.
Qed.
(** an unmatched group *)
Definition group_rho (T : Z) (k : nat) (l : list wave) : R := INR k * IZR T ^ (Nat.pred k) * IZR (amp l) + IZR T ^ k * (IZR (lip T l) / 100000000000000).

Lemma lin_lip a b t t' : a * (t' - t) + b = a * t' + b - a * t. Proof. ring. Qed.
(** the slow parts *)
Lemma sun_ab_lip t t' : Rabs t <= 100 -> Rabs t' <= 100 -> Rabs (sun_aberration t' - sun_aberration t) <= 0.0016 * Rabs (t' - t).
Proof.
  intros B B'. set (e x := 0.016708634 - 0.000042037 * x - 0.0000001267 * x ^ 2). set (v x := - 0.043126 + 628.301955 * x - 0.000002732 * x ^ 2).
  change (sun_aberration t') with (arcsec (- 20.49552 * (1 + e t' * cos (v t')))). change (sun_aberration t) with (arcsec (- 20.49552 * (1 + e t * cos (v t)))).
  replace (arcsec (- 20.49552 * (1 + e t' * cos (v t'))) - arcsec (- 20.49552 * (1 + e t * cos (v t)))) with (arcsec (- 20.49552 * (e t' * cos (v t') - e t * cos (v t)))) by (unfold arcsec; decs; field).
  assert (X : Rabs (e t' * cos (v t') - e t * cos (v t)) <= (0.00007 + 0.0222 * 628.31) * Rabs (t' - t)).
  { replace (e t' * cos (v t') - e t * cos (v t)) with ((e t' - e t) * cos (v t') + e t * (cos (v t') - cos (v t))) by ring. rewrite Rmult_plus_distr_r. apply sum_le.
    - rewrite <- (Rmult_1_r (_ * Rabs _)). apply prod_le; [|apply Rabs_le, COS_bound].
      replace (e t' - e t) with ((- 0.000042037 - 0.0000001267 * (t' + t)) * (t' - t)) by (unfold e; decs; field). apply prod_le; [|apply Rle_refl].
      apply Rabs_le_inv in B. apply Rabs_le_inv in B'. apply Rabs_le. decs. lra.
    - rewrite Rmult_assoc. apply prod_le.
      + powers t 100 B. apply Rabs_le_inv in B. apply Rabs_le_inv in H. apply Rabs_le. unfold e. decs. lra.
      + apply Rle_trans with (1 := cos_lip _ _). replace (v t' - v t) with ((628.301955 - 0.000002732 * (t' + t)) * (t' - t)) by (unfold v; decs; field). apply prod_le; [|apply Rle_refl].
        apply Rabs_le_inv in B. apply Rabs_le_inv in B'. apply Rabs_le. decs. lra. }
  assert (Y : Rabs (- 20.49552 * (e t' * cos (v t') - e t * cos (v t))) <= 20.49552 * ((0.00007 + 0.0222 * 628.31) * Rabs (t' - t))).
  { apply prod_le; [decs; apply Rabs_le; lra|exact X]. }
  apply Rle_trans with (1 := arcsec_le _ _ Y). pose proof (Rabs_pos (t' - t)). decs. lra.
Qed.
Definition nut_rate (x : R * R * R * R * R) : R := let '(_, q, w, c, _) := x in Rabs c * (Rabs q + 200 * Rabs w).
Lemma nut_sum_lip l t t' : Rabs t <= 100 -> Rabs t' <= 100 ->
  Rabs (sum (map (fun x => snd (fst x) * sin (nut_arg t' x)) l) - sum (map (fun x => snd (fst x) * sin (nut_arg t x)) l)) <= sum (map nut_rate l) * Rabs (t' - t).
Proof.
  intros B B'. induction l as [|[[[[p q] w] c] o] l IH]; cbn [sum map fold_right]. { rewrite Rminus_0_r, Rabs_R0, Rmult_0_l. apply Rle_refl. }
  fold (sum (map (fun x => snd (fst x) * sin (nut_arg t' x)) l)) (sum (map (fun x => snd (fst x) * sin (nut_arg t x)) l)) (sum (map nut_rate l)). cbn [fst snd nut_arg nut_rate].
  match goal with |- Rabs (c * ?a + ?x - (c * ?b + ?y)) <= _ => replace (c * a + x - (c * b + y)) with (c * (a - b) + (x - y)) by ring end.
  rewrite Rmult_plus_distr_r. apply sum_le; [|exact IH]. rewrite Rmult_assoc. apply prod_le; [apply Rle_refl|]. apply Rle_trans with (1 := sin_lip _ _).
  replace (p + q * t' + w * t' ^ 2 - (p + q * t + w * t ^ 2)) with ((q + (t' + t) * w) * (t' - t)) by ring. apply prod_le; [|apply Rle_refl]. apply sum_le; [apply Rle_refl|].
  apply prod_le; [|apply Rle_refl]. replace 200 with (100 + 100) by ring. apply sum_le; assumption.
Qed.
Lemma nut_lip t t' : Rabs t <= 100 -> Rabs t' <= 100 -> Rabs (nut_lon t' - nut_lon t) <= 0.0408 * Rabs (t' - t).
Proof.
  intros B B'. set (g x := 1.742 * x * sin (2.1824 - 33.75705 * x + 36e-6 * x ^ 2)). set (z x := sum (map (fun y => snd (fst y) * sin (nut_arg x y)) nutation_terms)).
  change (nut_lon t') with (arcsec ((z t' - g t') / 100)). change (nut_lon t) with (arcsec ((z t - g t) / 100)).
  replace (arcsec ((z t' - g t') / 100) - arcsec ((z t - g t) / 100)) with (arcsec (((z t' - z t) - (g t' - g t)) / 100)) by (unfold arcsec; decs; field).
  assert (Z : Rabs (z t' - z t) <= 833000 * Rabs (t' - t)).
  { apply Rle_trans with (1 := nut_sum_lip nutation_terms t t' B B'). apply Rmult_le_compat_r; [apply Rabs_pos|]. unfold nutation_terms. cbn [map sum fold_right nut_rate].

    repeat match goal with |- context [Rabs ?x] => first [rewrite (Rabs_pos_eq x) by (decs; lra)|rewrite (Rabs_left1 x) by (decs; lra)] end. decs. lra. }
  assert (G : Rabs (g t' - g t) <= (1.742 + 174.2 * 33.77) * Rabs (t' - t)).
  { set (a x := 2.1824 - 33.75705 * x + 36e-6 * x ^ 2). change (g t') with (1.742 * t' * sin (a t')). change (g t) with (1.742 * t * sin (a t)).
    replace (1.742 * t' * sin (a t') - 1.742 * t * sin (a t)) with (1.742 * (t' - t) * sin (a t') + 1.742 * t * (sin (a t') - sin (a t))) by ring.
    rewrite Rmult_plus_distr_r. apply sum_le.
    - rewrite <- (Rmult_1_r (_ * Rabs _)). apply prod_le; [|apply Rabs_le, SIN_bound]. apply prod_le; [decs; apply Rabs_le; lra|apply Rle_refl].
    - replace (174.2 * 33.77 * Rabs (t' - t)) with (174.2 * (33.77 * Rabs (t' - t))) by ring. apply prod_le; [apply Rabs_le_inv in B; apply Rabs_le; decs; lra|]. apply Rle_trans with (1 := sin_lip _ _).
      replace (a t' - a t) with ((- 33.75705 + 36e-6 * (t' + t)) * (t' - t)) by (unfold a; decs; field). apply prod_le; [|apply Rle_refl]. apply Rabs_le_inv in B. apply Rabs_le_inv in B'. apply Rabs_le. decs. lra. }
  assert (Y : Rabs (((z t' - z t) - (g t' - g t)) / 100) <= (833000 * Rabs (t' - t) + (1.742 + 174.2 * 33.77) * Rabs (t' - t)) / 100).
  { unfold Rdiv. rewrite Rabs_mult, (Rabs_pos_eq (/ 100)) by lra. apply Rmult_le_compat_r; [lra|]. apply diff_le; assumption. }
  apply Rle_trans with (1 := arcsec_le _ _ Y). pose proof (Rabs_pos (t' - t)). decs. lra.
Qed.
Lemma fix_lip s s' : Rabs s <= 10 -> Rabs s' <= 10 -> Rabs (earth_fix s' - earth_fix s) <= 0.00027 * Rabs (s' - s).
Proof.
  intros B B'. unfold earth_fix.
  replace (arcsec (- 0.0728 - 2.7702 * s' - 1.1019 * s' ^ 2 - 0.0996 * s' ^ 3) - arcsec (- 0.0728 - 2.7702 * s - 1.1019 * s ^ 2 - 0.0996 * s ^ 3)) with
    (arcsec ((- 2.7702 - 1.1019 * (s' + s) - 0.0996 * (s' * s' + s' * s + s * s)) * (s' - s))) by (unfold arcsec; decs; field).
  assert (Y : Rabs ((- 2.7702 - 1.1019 * (s' + s) - 0.0996 * (s' * s' + s' * s + s * s)) * (s' - s)) <= 55 * Rabs (s' - s)).
  { apply prod_le; [|apply Rle_refl]. apply Rabs_le_inv in B. apply Rabs_le_inv in B'. assert (- 300 <= s' * s' + s' * s + s * s <= 300) by (split; nra). apply Rabs_le. decs. lra. }
  apply Rle_trans with (1 := arcsec_le _ _ Y). pose proof (Rabs_pos (s' - s)). decs. lra.
Qed.

(** the four terms of the speed and the terms of the series they come from *)
Definition e01 : wave := V 334165646 466925680400 6283075849991.
Definition e02 : wave := V 3489428 462610240000 12566151700000.
Definition e11 : wave := V 20605886 267823456000 6283075849990.
Definition e21 : wave := V 871984 107209700000 6283075850000.
Lemma el0 s : ws EL0 s = 17534704567 + (334165646 * cos (ph e01 s) + (3489428 * cos (ph e02 s) + ws (skipn 3 EL0) s)).
Proof.
  rewrite (ws_split 3 EL0 s). change (firstn 3 EL0) with [V 17534704567 0 0; e01; e02]. cbn [ws fold_right]. change (wa e01) with 334165646%Z. change (wa e02) with 3489428%Z. change (wa (V 17534704567 0 0)) with 17534704567%Z.
  replace (ph (V 17534704567 0 0) s) with 0 by (unfold ph, V; cbn [wb wd we wf wg]; field). rewrite cos_0. ring.
Qed.
Lemma el1 s : ws EL1 s = 62833196674749 + (20605886 * cos (ph e11 s) + ws (skipn 2 EL1) s).
Proof.
  rewrite (ws_split 2 EL1 s). change (firstn 2 EL1) with [V 62833196674749 0 0; e11]. cbn [ws fold_right]. change (wa e11) with 20605886%Z. change (wa (V 62833196674749 0 0)) with 62833196674749%Z.
  replace (ph (V 62833196674749 0 0) s) with 0 by (unfold ph, V; cbn [wb wd we wf wg]; field). rewrite cos_0. ring.
Qed.
Lemma el2 s : ws EL2 s = 871984 * cos (ph e21 s) + ws (V 5291887 0 0 :: skipn 2 EL2) s.
Proof.
  rewrite (ws_split 2 EL2 s). change (firstn 2 EL2) with [V 5291887 0 0; e21]. rewrite (ws_app [V 5291887 0 0] (skipn 2 EL2) s : ws (V 5291887 0 0 :: skipn 2 EL2) s = _). set (g := ws (skipn 2 EL2) s). cbn [ws fold_right]. change (wa e21) with 871984%Z. ring.
Qed.
Section Step.
Variable S : Z.
Hypothesis S0 : (0 <= S <= 10)%Z.
Definition earth_rho : R :=
  (item_rho S 0 e01 334165646 (-2100000000000) (-1) 0.00067 + item_rho S 0 e02 3489428 (-44000000000) (-1) 0.0046 + item_rho S 1 e11 20605886 (-129000000000) (-1) 0.0002 + item_rho S 2 e21 871984 (-5500000000) (-1) 0.0038 +
   (group_rho S 0 (skipn 3 EL0) + group_rho S 1 (skipn 2 EL1) + group_rho S 2 (V 5291887 0 0 :: skipn 2 EL2) + group_rho S 3 EL3 + group_rho S 4 EL4 + group_rho S 5 EL5) + 3325251) / 100000000000 + 0.000027.
Definition earth_K : R := (item_K S 0 e01 334165646 + item_K S 0 e02 3489428 + item_K S 1 e11 20605886 + item_K S 2 e21 871984) / 1000000000000.
Lemma sup1 s : Rabs s <= IZR S -> Rabs (-1 * sin (ph e01 s) - sin (1.527 + 628.307585 * (10 * s))) <= 0.00067.
Proof.
  intros B. apply Rle_trans with (1 := minus_pi _ _). assert (IZR S <= 10) by (apply IZR_le; lia). apply Rabs_le_inv in B. pose proof PI_bounds as P. revert P. unfold ph, e01, V. cbn [wb wd we wf wg]. decs. intros P. apply Rabs_le. lra.
Qed.
Lemma sup2 s : Rabs s <= IZR S -> Rabs (-1 * sin (ph e02 s) - sin (1.48 + 2 * (628.307585 * (10 * s)))) <= 0.0046.
Proof.
  intros B. apply Rle_trans with (1 := minus_pi _ _). assert (IZR S <= 10) by (apply IZR_le; lia). apply Rabs_le_inv in B. pose proof PI_bounds as P. revert P. unfold ph, e02, V. cbn [wb wd we wf wg]. decs. intros P. apply Rabs_le. lra.
Qed.
Lemma sup3 s : Rabs s <= IZR S -> Rabs (-1 * sin (ph e11 s) - sin (5.82 + 628.307585 * (10 * s))) <= 0.0002.
Proof.
  intros B. apply Rle_trans with (1 := plus_pi _ _). assert (IZR S <= 10) by (apply IZR_le; lia). apply Rabs_le_inv in B. pose proof PI_bounds as P. revert P. unfold ph, e11, V. cbn [wb wd we wf wg]. decs. intros P. apply Rabs_le. lra.
Qed.
Lemma sup4 s : Rabs s <= IZR S -> Rabs (-1 * sin (ph e21 s) - sin (4.21 + 628.307585 * (10 * s))) <= 0.0038.
Proof.
  intros B. apply Rle_trans with (1 := plus_pi _ _). assert (IZR S <= 10) by (apply IZR_le; lia). apply Rabs_le_inv in B. pose proof PI_bounds as P. revert P. unfold ph, e21, V. cbn [wb wd we wf wg]. decs. intros P. apply Rabs_le. lra.
Qed.
Lemma earth_full_is t : earth_full t = (ws EL0 (t / 10) + t / 10 * ws EL1 (t / 10) + (t / 10) ^ 2 * ws EL2 (t / 10) + (t / 10) ^ 3 * ws EL3 (t / 10) + (t / 10) ^ 4 * ws EL4 (t / 10) + (t / 10) ^ 5 * ws EL5 (t / 10)) / 10000000000 + earth_fix (t / 10).
Proof. reflexivity. Qed.
Lemma earth_step t t' : Rabs t <= 10 * IZR S -> Rabs t' <= 10 * IZR S ->
  Rabs (earth_full t' - earth_full t - earth_speed t * (t' - t)) <= earth_rho * Rabs (t' - t) + earth_K * (t' - t) ^ 2.
Proof.
  intros B B'. rewrite !earth_full_is. unfold earth_speed. set (s := t / 10). set (s' := t' / 10). assert (Et : t = 10 * s) by (unfold s; field). assert (Et' : t' = 10 * s') by (unfold s'; field).
  assert (Bs : Rabs s <= IZR S) by (apply Rabs_le_inv in B; apply Rabs_le; lra). assert (Bs' : Rabs s' <= IZR S) by (apply Rabs_le_inv in B'; apply Rabs_le; lra).
  clearbody s s'. subst t t'. cbv zeta. assert (S1 : IZR S <= 10) by (apply IZR_le; lia). assert (S2 : (0 <= S)%Z) by lia.
  pose proof (pitem S 0 e01 s s' 334165646 (-2100000000000) _ (-1) _ S2 Bs Bs' (or_intror eq_refl) (sup1 s Bs)) as I1.
  pose proof (pitem S 0 e02 s s' 3489428 (-44000000000) _ (-1) _ S2 Bs Bs' (or_intror eq_refl) (sup2 s Bs)) as I2.
  pose proof (pitem S 1 e11 s s' 20605886 (-129000000000) _ (-1) _ S2 Bs Bs' (or_intror eq_refl) (sup3 s Bs)) as I3.
  pose proof (pitem S 2 e21 s s' 871984 (-5500000000) _ (-1) _ S2 Bs Bs' (or_intror eq_refl) (sup4 s Bs)) as I4.
  pose proof (pows_lip S 0 (skipn 3 EL0) s s' S2 Bs Bs') as G0. pose proof (pows_lip S 1 (skipn 2 EL1) s s' S2 Bs Bs') as G1. pose proof (pows_lip S 2 (V 5291887 0 0 :: skipn 2 EL2) s s' S2 Bs Bs') as G2.
  pose proof (pows_lip S 3 EL3 s s' S2 Bs Bs') as G3. pose proof (pows_lip S 4 EL4 s s' S2 Bs Bs') as G4. pose proof (pows_lip S 5 EL5 s s' S2 Bs Bs') as G5.
  pose proof (fix_lip s s' (Rle_trans _ _ _ Bs S1) (Rle_trans _ _ _ Bs' S1)) as F.
  rewrite !el0, !el1, !el2. unfold earth_rho, earth_K. fold (group_rho S 0 (skipn 3 EL0)) in G0. fold (group_rho S 1 (skipn 2 EL1)) in G1. fold (group_rho S 2 (V 5291887 0 0 :: skipn 2 EL2)) in G2.
  fold (group_rho S 3 EL3) in G3. fold (group_rho S 4 EL4) in G4. fold (group_rho S 5 EL5) in G5.
  replace (10 * s' - 10 * s) with (10 * (s' - s)) by ring. rewrite Rabs_mult, (Rabs_pos_eq 10) by lra.
  rewrite pow_O, !Rmult_1_l in I1, I2, G0. rewrite !pow_1 in I3, G1.
  repeat match goal with |- context [ws ?l ?x] => let g := fresh "g" in remember (ws l x) as g eqn:Hg; clear Hg end.
  repeat match goal with |- context [cos ?x] => let g := fresh "c" in remember (cos x) as g eqn:Hg; clear Hg end.
  repeat match goal with |- context [sin ?x] => let g := fresh "c" in remember (sin x) as g eqn:Hg; clear Hg end.
  repeat match goal with |- context [earth_fix ?x] => let g := fresh "c" in remember (earth_fix x) as g eqn:Hg; clear Hg end.
  assert (L0 : Rabs ((s' - s) * -3325251) <= Rabs (s' - s) * 3325251) by (apply prod_le; [apply Rle_refl|apply Rabs_le; lra]).
  assert (Q := sum_le _ _ _ _ (sum_le _ _ _ _ (sum_le _ _ _ _ (sum_le _ _ _ _ (sum_le _ _ _ _ I1 I2) I3) I4) (sum_le _ _ _ _ (sum_le _ _ _ _ (sum_le _ _ _ _ (sum_le _ _ _ _ (sum_le _ _ _ _ G0 G1) G2) G3) G4) G5)) L0).
  match type of Q with Rabs ?x <= ?y => 
    match goal with |- Rabs ?z <= _ => match type of F with Rabs ?f <= _ => replace z with (x * / 10000000000 + f) end end end.
  2:{ decs. field. }
  apply Rle_trans with (1 := sum_le _ _ _ _ (prod_le _ _ _ _ Q (Rle_refl _)) F). rewrite (Rabs_pos_eq (/ 10000000000)) by lra.
  right. decs. field.
Qed.
End Step.
Ltac numbers :=
  unfold item_rho, item_K, group_rho;
  repeat match goal with |- context [amp ?l] => let v := eval vm_compute in (amp l) in change (amp l) with v end;
  repeat match goal with |- context [lip ?T ?l] => let v := eval vm_compute in (lip T l) in change (lip T l) with v end;
  repeat match goal with |- context [(sz ?T ?w - ?x)%Z] => let v := eval vm_compute in (sz T w - x)%Z in change (sz T w - x)%Z with v end;
  repeat match goal with |- context [sz ?T ?w] => let v := eval vm_compute in (sz T w) in change (sz T w) with v end;
  repeat match goal with |- context [wd ?w] => let v := eval vm_compute in (wd w) in change (wd w) with v end;
  cbn [pow INR Nat.pred]; decs;
  repeat match goal with |- context [Rabs ?x] => first [rewrite (Rabs_pos_eq x) by lra|rewrite (Rabs_left1 x) by lra] end.
Lemma earth_rho3 : earth_rho 3 <= 0.73. Proof. unfold earth_rho. numbers. lra. Qed.
Lemma earth_K3 : earth_K 3 <= 8300. Proof. unfold earth_K. numbers. lra. Qed.
Lemma earth_rho10 : earth_rho 10 <= 4.4. Proof. unfold earth_rho. numbers. lra. Qed.
Lemma earth_K10 : earth_K 10 <= 12700. Proof. unfold earth_K. numbers. lra. Qed.
