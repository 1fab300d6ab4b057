(** The time between successive new moons and between solar terms, from the series. *)
From Coq Require Import ZArith Reals Lia Lra Bool List.
From Flocq Require Import Core.
From Verif Require Import F64R F64E PiBound ErrExpr SmTab FormSpec FormProps WaveF WaveR SmSpec SmLon SmProps SmSun SmNewton SunProps LonProps SmMoon MoonProps QuickR QuickMoonR.
From Verif Require GeoProof.
Import ListNotations.
Open Scope R_scope.

(** ** how far a sum of waves moves in the time H / 10^12: each wave is compared after its nearest number of turns *)
Definition turns (H : Z) (w : wave) : Z := ((H * wd w + 3141592653589790000000) / 6283185307179580000000)%Z.
(** in units of 10^-26 *)
Definition drift (T H : Z) (w : wave) : Z :=
  (100000 * (Z.abs (H * wd w - turns H w * 6283185307179580000000) + 20000000 * Z.abs (turns H w)) + (sz T w - 100000 * Z.abs (wd w)) * Z.abs H)%Z.
Definition gap (T H : Z) (l : list wave) : Z := fold_right (fun w s => (Z.abs (wa w) * Z.min 200000000000000000000000000 (drift T H w) + s)%Z) 0%Z l.
Lemma drift_ok T H w t t' : (0 <= T)%Z -> Rabs t <= IZR T -> Rabs t' <= IZR T -> t' - t = IZR H / 10 ^ 12 ->
  Rabs (ph w t' - ph w t - 2 * PI * IZR (turns H w)) <= IZR (drift T H w) / 10 ^ 26.
Proof.
  intros T0 B B' E. pose proof (ph_lin T w t t' T0 B B') as L. rewrite E in L. set (k := turns H w) in *.
  assert (AH : Rabs (IZR H / 10 ^ 12) = IZR (Z.abs H) / 10 ^ 12) by (unfold Rdiv; rewrite Rabs_mult, <- abs_IZR, (Rabs_pos_eq (/ 10 ^ 12)) by (apply Rlt_le, Rinv_0_lt_compat; lra); reflexivity). rewrite AH in L.
  pose proof PI_bounds as P. revert P. decs. intros P. set (c := 314159265358979 / 100000000000000) in *.
  assert (Q1 : Rabs (2 * (PI - c) * IZR k) <= 2 * (1 / 100000000000000) * IZR (Z.abs k)).
  { rewrite abs_IZR. apply prod_le; [|apply Rle_refl]. unfold c. apply Rabs_le. lra. }
  assert (Q2 : IZR H / 10 ^ 12 * (IZR (wd w) / 1000000000) - 2 * c * IZR k = IZR (H * wd w - k * 6283185307179580000000) / 10 ^ 21).
  { rewrite minus_IZR, !mult_IZR. unfold c. field. }
  assert (Q3 : Rabs (IZR (H * wd w - k * 6283185307179580000000) / 10 ^ 21) = IZR (Z.abs (H * wd w - k * 6283185307179580000000)) / 10 ^ 21).
  { unfold Rdiv. rewrite Rabs_mult, <- abs_IZR, (Rabs_pos_eq (/ 10 ^ 21)) by (apply Rlt_le, Rinv_0_lt_compat; lra). reflexivity. }
  replace (ph w t' - ph w t - 2 * PI * IZR k) with ((ph w t' - ph w t - IZR H / 10 ^ 12 * (IZR (wd w) / 1000000000)) + (IZR H / 10 ^ 12 * (IZR (wd w) / 1000000000) - 2 * c * IZR k) - 2 * (PI - c) * IZR k) by ring.
  rewrite Q2. apply Rle_trans with (1 := diff_le _ _ _ _ (sum_le _ _ _ _ L (Req_le _ _ Q3)) Q1). unfold drift. fold k.
  rewrite plus_IZR, !mult_IZR, plus_IZR, mult_IZR. right. field.
Qed.
Lemma gap_ok T H l t t' : (0 <= T)%Z -> Rabs t <= IZR T -> Rabs t' <= IZR T -> t' - t = IZR H / 10 ^ 12 -> Rabs (ws l t' - ws l t) <= IZR (gap T H l) / 10 ^ 26.
Proof.
  intros T0 B B' E. induction l as [|w l IH]; cbn [ws gap fold_right].
  - unfold Rminus. rewrite Rplus_opp_r, Rabs_R0. unfold Rdiv. rewrite Rmult_0_l. apply Rle_refl.
  - fold (ws l t) (ws l t') (gap T H l). rewrite plus_IZR, mult_IZR.
    replace (IZR (wa w) * cos (ph w t') + ws l t' - (IZR (wa w) * cos (ph w t) + ws l t)) with (IZR (wa w) * (cos (ph w t') - cos (ph w t)) + (ws l t' - ws l t)) by ring.
    unfold Rdiv. rewrite Rmult_plus_distr_r, Rmult_assoc. apply sum_le; [|exact IH]. rewrite abs_IZR. apply prod_le; [apply Rle_refl|].
    destruct (Z.min_spec 200000000000000000000000000 (drift T H w)) as [[_ ->]|[_ ->]].
    + replace (IZR 200000000000000000000000000 * / 10 ^ 26) with (1 + 1) by field. apply diff_le; apply Rabs_le, COS_bound.
    + rewrite <- (GeoProof.cos_Z (ph w t) (turns H w)). apply Rle_trans with (1 := cos_lip _ _).
      replace (ph w t' - (ph w t + 2 * PI * IZR (turns H w))) with (ph w t' - ph w t - 2 * PI * IZR (turns H w)) by ring. apply drift_ok; assumption.
Qed.

(** ** the elongation over one lunation *)
(** everything but the Moon's waves of constant amplitude *)
Lemma el_rest t t' : Rabs t <= 10 -> Rabs t' <= 10 -> Rabs (t' - t) <= 0.001 ->
  Rabs (elongation t' - elongation t - el_v * (t' - t) - kap * (ws ML0 t' - ws ML0 t)) <= 0.0005 + 23.75 * Rabs (t' - t).
Proof.
  intros B B' Bh. assert (b : t <= 10) by (apply Rabs_le_inv in B; lra). assert (b' : t' <= 10) by (apply Rabs_le_inv in B'; lra).
  rewrite !el_is, !moon_full_is, !late_0 by assumption. pose proof (sun_slope 1 t t' ltac:(lia) ltac:(lra) ltac:(lra)) as SS. pose proof (nut_lip t t' ltac:(lra) ltac:(lra)) as N.
  pose proof (mean_step 10 t t' ltac:(lia) B B') as M.
  assert (SL : slope_dev 1 <= 23.7) by (unfold slope_dev; numbers; lra). assert (PR : poly_rho 10 <= 0.001) by (unfold poly_rho; fields; lra).
  pose proof kap_range as KR. assert (KP : Rabs kap <= kap) by (rewrite Rabs_pos_eq; [apply Rle_refl|revert KR; decs; lra]).
  assert (G1 : Rabs (kap * (t' * ws ML1 t' - t * ws ML1 t)) <= kap * (2 * 10 * IZR (amp ML1))).
  { apply prod_le; [exact KP|]. replace (2 * 10 * IZR (amp ML1)) with (10 * IZR (amp ML1) + 10 * IZR (amp ML1)) by ring. apply diff_le; (apply prod_le; [assumption|apply ws_amp]). }
  assert (G2 : Rabs (kap * (t' ^ 2 * ws ML2 t' - t ^ 2 * ws ML2 t)) <= kap * (2 * 10 ^ 2 * IZR (amp ML2))).
  { apply prod_le; [exact KP|]. replace (2 * 10 ^ 2 * IZR (amp ML2)) with (10 ^ 2 * IZR (amp ML2) + 10 ^ 2 * IZR (amp ML2)) by ring. apply diff_le; (apply prod_le; [apply powk; assumption|apply ws_amp]). }
  assert (G3 : Rabs (kap * (t' ^ 3 * ws ML3 t' - t ^ 3 * ws ML3 t)) <= kap * (2 * 10 ^ 3 * IZR (amp ML3))).
  { apply prod_le; [exact KP|]. replace (2 * 10 ^ 3 * IZR (amp ML3)) with (10 ^ 3 * IZR (amp ML3) + 10 ^ 3 * IZR (amp ML3)) by ring. apply diff_le; (apply prod_le; [apply powk; assumption|apply ws_amp]). }
  assert (D : Rabs ((mean_rate - 628.33196674749 - 7771.37714500204) * (t' - t)) <= 0.00001 * Rabs (t' - t)).
  { apply prod_le; [|apply Rle_refl]. unfold mean_rate. pose proof PI_bounds as P. revert P. decs. intros P. apply Rabs_le. lra. }
  assert (Q := sum_le _ _ _ _ (sum_le _ _ _ _ (diff_le _ _ _ _ (sum_le _ _ _ _ (sum_le _ _ _ _ (sum_le _ _ _ _ G1 G2) G3) M) SS) N) D). unfold el_v.
  match type of Q with Rabs ?x <= _ => match goal with |- Rabs ?z <= _ => replace z with x by ring end end. apply Rle_trans with (1 := Q). pose proof (Rabs_pos (t' - t)) as P0. set (a := Rabs (t' - t)) in *. clearbody a.
  assert (X1 : poly_rho 10 * a <= 0.001 * a) by (apply Rmult_le_compat_r; assumption). assert (X2 : slope_dev 1 * a <= 23.7 * a) by (apply Rmult_le_compat_r; assumption).
  assert (X3 : kap * (2 * 10 * IZR (amp ML1)) + kap * (2 * 10 ^ 2 * IZR (amp ML2)) + kap * (2 * 10 ^ 3 * IZR (amp ML3)) <= 0.0005).
  { repeat match goal with |- context [amp ?l] => let v := eval vm_compute in (amp l) in change (amp l) with v end. revert KR. decs. lra. }
  revert X1 X2 X3. decs. lra.
Qed.
Definition lo : Z := 794209446.
Definition hi : Z := 821122518.
Lemma el_dev1 : el_dev (10 * 1) 1 <= 0.206. Proof. change (10 * 1)%Z with 10%Z. unfold el_dev, mean_dev. fields. lra. Qed.
Lemma cos_diff p q : cos p - cos q = - (2 * sin ((p - q) / 2) * sin ((p + q) / 2)).
Proof. rewrite (form2 p q). ring. Qed.
(** near a new moon the two largest waves of the Moon work against each other *)
Lemma pair t t' n : Rabs t <= 10 -> Rabs t' <= 10 -> t' - t = IZR hi / 10 ^ 12 -> elongation t = IZR n * (2 * PI) -> Rabs (mc 0 t' - mc 0 t + (mc 1 t' - mc 1 t)) <= 0.0575.
Proof.
  intros B B' Eh En. unfold mc. pose proof kap_range as KR. set (A := kap * IZR (wa (mw 0))). set (E := kap * IZR (wa (mw 1))).
  assert (BA : 0.10975 <= A <= 0.10977) by (unfold A; change (wa (mw 0)) with 2263958600000%Z; revert KR; decs; lra).
  assert (BE : 0.02223 <= E <= 0.02224) by (unfold E; change (wa (mw 1)) with 458643800000%Z; revert KR; decs; lra).
  pose proof (ph_lin 10 (mw 0) t t' ltac:(lia) B B') as L0. pose proof (ph_lin 10 (mw 1) t t' ltac:(lia) B B') as L1. rewrite Eh in L0, L1.
  pose proof (el_dev_ok (10 * 1) 1 t ltac:(lia) ltac:(lia) ltac:(change (10 * 1)%Z with 10%Z; exact B)) as MD. pose proof el_dev1 as D1. rewrite En in MD.
  set (p0 := ph (mw 0) t) in *. set (p1 := ph (mw 1) t) in *. set (a := ph (mw 0) t' - p0 - 2 * PI). set (c := ph (mw 1) t' - p1 - 2 * PI).
  set (dl := el_mean t - IZR n * (2 * PI)). assert (Bd : Rabs dl <= 0.206) by (unfold dl; lra).
  set (et := p0 + p1 - (2 * el_mean t + PI)).
  assert (Be : Rabs et <= 0.007).
  { unfold et, p0, p1, ph, el_mean. pose proof (powk t 10 2 B) as H2. pose proof (powk t 10 3 B) as H3. pose proof (powk t 10 4 B) as H4. pose proof PI_bounds as P.
    change (wb (mw 0)) with 78475822000%Z. change (wd (mw 0)) with 8328691424623%Z. change (we (mw 0)) with 15229241%Z. change (wf (mw 0)) with 250719%Z. change (wg (mw 0)) with (-123598)%Z.
    change (wb (mw 1)) with 18739740000%Z. change (wd (mw 1)) with 7214062865360%Z. change (we (mw 1)) with (-21847560)%Z. change (wf (mw 1)) with (-188600)%Z. change (wg (mw 1)) with 82800%Z.
    revert P. decs. intros P. set (p := PI) in *. clearbody p.
    match goal with |- Rabs ?z <= _ => replace z with ((78475822000 / 100000000000 + 18739740000 / 100000000000 + 2 * (108472 / 100000) - p) + (8328691424623 / 1000000000 + 7214062865360 / 1000000000 - 2 * (777137714500204 / 100000000000)) * t + (15229241 / 100000000000 - 21847560 / 100000000000) * t ^ 2 + (250719 / 1000000000000 - 188600 / 1000000000000) * t ^ 3 - (123598 / 100000000000000 - 82800 / 100000000000000) * t ^ 4) by field end.
    match goal with |- Rabs (?x + ?y * t + ?z * t ^ 2 + ?v * t ^ 3 - ?w * t ^ 4) <= _ => assert (Rabs x <= 0.00001 /\ Rabs y <= 0.000001 /\ Rabs z <= 0.0000662 /\ Rabs v <= 0.00000007 /\ Rabs w <= 0.000000001) as (Ha & Hb & Hc & Hd & He) by (decs; repeat split; apply Rabs_le; lra) end.
    apply Rle_trans with (1 := diff_le _ _ _ _ (sum_le _ _ _ _ (sum_le _ _ _ _ (sum_le _ _ _ _ Ha (prod_le _ _ _ _ Hb B)) (prod_le _ _ _ _ Hc H2)) (prod_le _ _ _ _ Hd H3)) (prod_le _ _ _ _ He H4)). decs. lra. }
  assert (Ba : 0.5555 <= a <= 0.5558).
  { revert L0. repeat match goal with |- context [(sz ?T ?w - ?x)%Z] => let v := eval vm_compute in (sz T w - x)%Z in change (sz T w - x)%Z with v end. change (wd (mw 0)) with 8328691424623%Z. unfold hi.
    rewrite (Rabs_pos_eq (821122518 / 10 ^ 12)) by lra. pose proof PI_bounds as P. revert P. unfold a. decs. set (q := ph (mw 0) t'). clearbody q p0. intros P L0. apply Rabs_le_inv in L0. lra. }
  assert (Bc : -0.3597 <= c <= -0.3595).
  { revert L1. repeat match goal with |- context [(sz ?T ?w - ?x)%Z] => let v := eval vm_compute in (sz T w - x)%Z in change (sz T w - x)%Z with v end. change (wd (mw 1)) with 7214062865360%Z. unfold hi.
    rewrite (Rabs_pos_eq (821122518 / 10 ^ 12)) by lra. pose proof PI_bounds as P. revert P. unfold c. decs. set (q := ph (mw 1) t'). clearbody q p1. intros P L1. apply Rabs_le_inv in L1. lra. }
  assert (C0 : cos (ph (mw 0) t') = cos (p0 + a)). { replace (ph (mw 0) t') with (p0 + a + 2 * PI * IZR 1) by (unfold a; ring). apply GeoProof.cos_Z. }
  assert (C1 : cos (ph (mw 1) t') = cos (p1 + c)). { replace (ph (mw 1) t') with (p1 + c + 2 * PI * IZR 1) by (unfold c; ring). apply GeoProof.cos_Z. }
  rewrite C0, C1. clear C0 C1 L0 L1 MD.
  set (u := p0 + a / 2). set (f := a / 2 + c / 2 + 2 * dl + et).
  assert (S1 : sin (p1 + c / 2) = sin (u - f)).
  { replace (p1 + c / 2) with (PI - (u - f) + 2 * PI * IZR (2 * n)) by (unfold u, f, et, dl; rewrite mult_IZR; field). rewrite GeoProof.sin_Z. apply sin_PI_x. }
  assert (R0 : cos (p0 + a) - cos p0 = - (2 * sin (a / 2) * sin u)). { rewrite cos_diff. unfold u. do 2 f_equal; [do 2 f_equal; field|f_equal; field]. }
  assert (R1 : cos (p1 + c) - cos p1 = 2 * sin (- c / 2) * sin (u - f)).
  { rewrite cos_diff, <- S1. replace ((p1 + c - p1) / 2) with (- (- c / 2)) by field. rewrite sin_neg. replace ((p1 + c + p1) / 2) with (p1 + c / 2) by field. ring. }
  assert (Bf : Rabs f <= 0.5172). { unfold f. revert Ba Bc Bd Be. decs. intros Ba Bc Bd Be. apply Rabs_le_inv in Bd. apply Rabs_le_inv in Be. apply Rabs_le. lra. }
  assert (X0 : 0 <= sin (a / 2) <= 0.2779).
  { clear - Ba. pose proof PI_bounds as P. revert Ba P. decs. intros Ba P. split; [apply sin_ge_0; lra|]. pose proof (sin_lip (a / 2) 0) as L. rewrite sin_0, !Rminus_0_r in L. rewrite (Rabs_pos_eq (a / 2)) in L by lra. apply Rabs_le_inv in L. lra. }
  assert (X1 : 0.1787 <= sin (- c / 2) <= 0.17985).
  { clear - Bc. pose proof PI_bounds as P. revert Bc P. decs. intros Bc P. set (x := - c / 2). assert (Bx : 1797 / 10000 <= x <= 17985 / 100000) by (unfold x; lra). clearbody x. split.
    - apply Rle_trans with (sin (1797 / 10000)); [|apply sin_incr_1; lra].
      destruct (SIN (1797 / 10000) ltac:(lra) ltac:(lra)) as [L _]. revert L. unfold sin_lb, sin_approx, sum_f_R0, sin_term. simpl. lra.
    - pose proof (sin_lip x 0) as L. rewrite sin_0, !Rminus_0_r in L. rewrite (Rabs_pos_eq x) in L by lra. apply Rabs_le_inv in L. lra. }
  replace (A * cos (p0 + a) - A * cos p0 + (E * cos (p1 + c) - E * cos p1)) with (A * (cos (p0 + a) - cos p0) + E * (cos (p1 + c) - cos p1)) by ring. rewrite R0, R1.
  clearbody A E. set (al := 2 * A * sin (a / 2)). set (be := 2 * E * sin (- c / 2)).
  assert (BAl : 0 <= al <= 0.061011). { unfold al. revert BA X0. decs. intros BA X0. split; [repeat apply Rmult_le_pos; lra|]. apply Rle_trans with (2 * (10977 / 100000) * (2779 / 10000)); [apply Rmult_le_compat; lra|lra]. }
  assert (BBe : 0.007944 <= be <= 0.008). { unfold be. revert BE X1. decs. intros BE X1. split; [apply Rle_trans with (2 * (2223 / 100000) * (1787 / 10000)); [lra|apply Rmult_le_compat; lra]|apply Rle_trans with (2 * (2224 / 100000) * (17985 / 100000)); [apply Rmult_le_compat; lra|lra]]. }
  replace (A * - (2 * sin (a / 2) * sin u) + E * (2 * sin (- c / 2) * sin (u - f))) with (be * (sin (u - f) - sin u) - (al - be) * sin u) by (unfold al, be; ring).
  assert (Q1 : Rabs (be * (sin (u - f) - sin u)) <= 0.008 * 0.5172).
  { apply prod_le; [revert BBe; decs; intros BBe; apply Rabs_le; lra|]. apply Rle_trans with (1 := sin_lip _ _). replace (u - f - u) with (- f) by ring. rewrite Rabs_Ropp. exact Bf. }
  assert (Q2 : Rabs ((al - be) * sin u) <= 0.05307 * 1). { apply prod_le; [|apply Rabs_le, SIN_bound]. revert BAl BBe. decs. intros BAl BBe. apply Rabs_le. lra. }
  apply Rle_trans with (1 := diff_le _ _ _ _ Q1 Q2). decs. lra.
Qed.
Lemma el_mono t t' : Rabs t <= 10 -> Rabs t' <= 10 -> t < t' -> elongation t < elongation t'.
Proof.
  intros B B' L. assert (b : t <= 10) by (apply Rabs_le_inv in B; lra). assert (b' : t' <= 10) by (apply Rabs_le_inv in B'; lra). pose proof el_slope1 as S1. change (10 * 1)%Z with 10%Z in S1.
  pose proof (el_slope0 10 1 t t' ltac:(lia) ltac:(lia) B B' b b') as SL. rewrite (Rabs_pos_eq (t' - t)) in SL by lra.
  assert (X : el_slope_dev 10 1 * (t' - t) <= 1472.9 * (t' - t)) by (apply Rmult_le_compat_r; [lra|exact S1]). apply Rabs_le_inv in SL. revert SL X. decs. lra.
Qed.
Lemma el_hi t n : Rabs t <= 9.995 -> elongation t = IZR n * (2 * PI) -> elongation t + 2 * PI < elongation (t + IZR hi / 10 ^ 12).
Proof.
  intros B En. assert (B1 : Rabs t <= 10) by (revert B; decs; lra). set (t' := t + IZR hi / 10 ^ 12). assert (Eh : t' - t = IZR hi / 10 ^ 12) by (unfold t'; ring).
  assert (B2 : Rabs t' <= 10). { unfold t', hi. revert B. decs. intros B. apply Rabs_le_inv in B. apply Rabs_le. lra. }
  assert (Ah : Rabs (t' - t) = 821122518 / 10 ^ 12) by (rewrite Eh; unfold hi; apply Rabs_pos_eq; lra).
  pose proof (el_rest t t' B1 B2 ltac:(rewrite Ah; decs; lra)) as R. rewrite Ah, Eh in R. pose proof (pair t t' n B1 B2 Eh En) as Pr.
  assert (G := gap_ok 10 hi (skipn 2 ML0) t t' ltac:(lia) B1 B2 Eh). match type of G with context [gap ?T ?H ?l] => let v := eval vm_compute in (gap T H l) in change (gap T H l) with v in G end.
  pose proof kap_range as KR. assert (KP : Rabs kap <= kap) by (rewrite Rabs_pos_eq; [apply Rle_refl|revert KR; decs; lra]). pose proof (prod_le _ _ _ _ KP G) as G2. clear G.
  assert (E0 : forall x, kap * ws ML0 x = mc 0 x + mc 1 x + kap * ws (skipn 2 ML0) x).
  { intros x. rewrite (ws_split 2 ML0 x). change (firstn 2 ML0) with [mw 0; mw 1]. set (g := ws (skipn 2 ML0) x). cbn [ws fold_right]. unfold mc. ring. }
  rewrite Rmult_minus_distr_l, !E0 in R. rewrite Rmult_minus_distr_l in G2. match type of G2 with _ <= ?b => assert (G3 : b <= 0.016522) by (revert KR; decs; lra) end.
  pose proof PI_bounds as P. revert P R Pr G2 G3. unfold el_v, hi. decs. intros P R Pr G2 G3.
  set (x0 := mc 0 t) in *. set (x1 := mc 1 t) in *. set (y0 := mc 0 t') in *. set (y1 := mc 1 t') in *. set (g := kap * ws (skipn 2 ML0) t) in *. set (g' := kap * ws (skipn 2 ML0) t') in *. set (e0 := elongation t) in *. set (e1 := elongation t') in *. clearbody x0 x1 y0 y1 g g' e0 e1.
  apply Rabs_le_inv in R. apply Rabs_le_inv in Pr. assert (G4 := Rle_trans _ _ _ G2 G3). apply Rabs_le_inv in G4. lra.
Qed.
Lemma el_lo t : Rabs t <= 9.995 -> elongation (t + IZR lo / 10 ^ 12) < elongation t + 2 * PI.
Proof.
  intros B. assert (B1 : Rabs t <= 10) by (revert B; decs; lra). set (t' := t + IZR lo / 10 ^ 12). assert (Eh : t' - t = IZR lo / 10 ^ 12) by (unfold t'; ring).
  assert (B2 : Rabs t' <= 10). { unfold t', lo. revert B. decs. intros B. apply Rabs_le_inv in B. apply Rabs_le. lra. }
  assert (Ah : Rabs (t' - t) = 794209446 / 10 ^ 12) by (rewrite Eh; unfold lo; apply Rabs_pos_eq; lra).
  pose proof (el_rest t t' B1 B2 ltac:(rewrite Ah; decs; lra)) as R. rewrite Ah, Eh in R.
  assert (G := gap_ok 10 lo ML0 t t' ltac:(lia) B1 B2 Eh). match type of G with context [gap ?T ?H ?l] => let v := eval vm_compute in (gap T H l) in change (gap T H l) with v in G end.
  pose proof kap_range as KR. assert (KP : Rabs kap <= kap) by (rewrite Rabs_pos_eq; [apply Rle_refl|revert KR; decs; lra]). pose proof (prod_le _ _ _ _ KP G) as G2. clear G.
  match type of G2 with _ <= ?b => assert (G3 : b <= 0.0625) by (revert KR; decs; lra) end.
  pose proof PI_bounds as P. revert P R G2 G3. unfold el_v, lo. decs. intros P R G2 G3.
  set (g := kap * (ws ML0 t' - ws ML0 t)) in *. set (e0 := elongation t) in *. set (e1 := elongation t') in *. clearbody g e0 e1.
  apply Rabs_le_inv in R. assert (G4 := Rle_trans _ _ _ G2 G3). apply Rabs_le_inv in G4. lra.
Qed.
(** successive new moons are 29.0085 to 29.9915 days apart in the thousand years before and after J2000 *)
Lemma lunation r r' n : Rabs r <= 9.995 -> Rabs r' <= 10 -> elongation r = IZR n * (2 * PI) -> elongation r' = IZR (n + 1) * (2 * PI) -> 29.00849 <= 36525 * (r' - r) <= 29.99151.
Proof.
  intros B B' E E'. assert (E2 : elongation r' = elongation r + 2 * PI) by (rewrite E, E', plus_IZR; ring).
  pose proof (el_hi r n B E) as HI. pose proof (el_lo r B) as LO.
  assert (BH : Rabs (r + IZR hi / 10 ^ 12) <= 10) by (unfold hi; revert B; decs; intros B; apply Rabs_le_inv in B; apply Rabs_le; lra).
  assert (BL : Rabs (r + IZR lo / 10 ^ 12) <= 10) by (unfold lo; revert B; decs; intros B; apply Rabs_le_inv in B; apply Rabs_le; lra).
  split.
  - destruct (Rle_or_lt (r + IZR lo / 10 ^ 12) r') as [L|L]; [unfold lo in L; revert L; decs; lra|]. pose proof (el_mono _ _ B' BL L). lra.
  - destruct (Rle_or_lt r' (r + IZR hi / 10 ^ 12)) as [L|L]; [unfold hi in L; revert L; decs; lra|]. pose proof (el_mono _ _ BH B' L). lra.
Qed.

(** ** the Sun *)
Lemma slope1 : slope_dev 1 <= 23.7. Proof. unfold slope_dev. numbers. lra. Qed.
(** major solar terms are 29.3 to 31.7 days apart *)
Lemma sun_month r r' n : Rabs r <= 10 -> Rabs r' <= 10 -> sun_longitude r = IZR n * PI / 12 -> sun_longitude r' = IZR (n + 2) * PI / 12 -> 29.3 <= 36525 * (r' - r) <= 31.7.
Proof.
  intros B B' E E'. pose proof slope1 as S1. pose proof (sun_slope 1 r r' ltac:(lia) ltac:(lra) ltac:(lra)) as S. rewrite E, E', plus_IZR in S. replace ((IZR n + 2) * PI / 12 - IZR n * PI / 12) with (PI / 6) in S by field.
  pose proof PI_bounds as P. set (h := r' - r) in *. pose proof (Rabs_pos h) as H0. assert (X : slope_dev 1 * Rabs h <= 23.7 * Rabs h) by (apply Rmult_le_compat_r; assumption).
  assert (S' := Rle_trans _ _ _ S X). clear S X. revert P S'. decs. intros P S'. apply Rabs_le_inv in S'. unfold Rabs in S'. destruct (Rcase_abs h); lra.
Qed.
Lemma sun_mono t t' : Rabs t <= 10 -> Rabs t' <= 10 -> t < t' -> sun_longitude t < sun_longitude t'.
Proof.
  intros B B' L. pose proof slope1 as S1. pose proof (sun_slope 1 t t' ltac:(lia) ltac:(lra) ltac:(lra)) as S. rewrite (Rabs_pos_eq (t' - t)) in S by lra.
  assert (X : slope_dev 1 * (t' - t) <= 23.7 * (t' - t)) by (apply Rmult_le_compat_r; lra). apply Rabs_le_inv in S. revert S X. decs. lra.
Qed.
(** in 365.9 days the Sun goes more than once around *)
Lemma sun_around t : Rabs t <= 9.98 -> sun_longitude t + 2 * PI < sun_longitude (t + 365.9 / 36525).
Proof.
  intros B. assert (B1 : Rabs t <= 10) by (revert B; decs; lra). set (t' := t + 365.9 / 36525). assert (Eh : t' - t = 365.9 / 36525) by (unfold t'; ring).
  assert (B2 : Rabs t' <= 10). { unfold t'. revert B. decs. intros B. apply Rabs_le_inv in B. apply Rabs_le. lra. }
  pose proof (sun_short_near t B1) as N. pose proof (sun_short_near t' B2) as N'. destruct (nut10 t B1) as [U _]. destruct (nut10 t' B2) as [U' _]. pose proof PI_bounds as P.
  assert (C1 : Rabs (cos (4.669257 + 628.307585 * t') - cos (4.669257 + 628.307585 * t)) <= 0.0115).
  { rewrite <- (GeoProof.cos_Z (4.669257 + 628.307585 * t) 1). apply Rle_trans with (1 := cos_lip _ _). revert P Eh. decs. intros P Eh. apply Rabs_le. lra. }
  assert (C2 : Rabs (cos (2.67823 + 628.307585 * t') * t' - cos (2.67823 + 628.307585 * t) * t) <= 0.0115 * 10 + 1 * 0.011).
  { replace (cos (2.67823 + 628.307585 * t') * t' - cos (2.67823 + 628.307585 * t) * t) with ((cos (2.67823 + 628.307585 * t') - cos (2.67823 + 628.307585 * t)) * t' + cos (2.67823 + 628.307585 * t) * (t' - t)) by ring.
    apply sum_le; apply prod_le; [|exact B2|apply Rabs_le, COS_bound|rewrite Eh; decs; apply Rabs_le; lra].
    rewrite <- (GeoProof.cos_Z (2.67823 + 628.307585 * t) 1). apply Rle_trans with (1 := cos_lip _ _). revert P Eh. decs. intros P Eh. apply Rabs_le. lra. }
  assert (C4 : Rabs (cos (4.6261 + 1256.61517 * t') - cos (4.6261 + 1256.61517 * t)) <= 2) by (replace 2 with (1 + 1) by ring; apply diff_le; apply Rabs_le, COS_bound).
  assert (C5 : Rabs ((t' - t) * (t' + t)) <= 0.011 * 20). { apply prod_le; [rewrite Eh; decs; apply Rabs_le; lra|]. replace 20 with (10 + 10) by ring. apply sum_le; assumption. }
  assert (T2 : t' * t' = t * t + (t' - t) * (t' + t)) by ring.
  unfold sun_short in N, N'. rewrite (Rmult_assoc 5.297e-6 t' t'), T2 in N'. rewrite (Rmult_assoc 5.297e-6 t t) in N.
  set (c1 := cos (4.669257 + 628.307585 * t)) in *. set (c1' := cos (4.669257 + 628.307585 * t')) in *. set (c2 := cos (2.67823 + 628.307585 * t)) in *. set (c2' := cos (2.67823 + 628.307585 * t')) in *.
  set (c4 := cos (4.6261 + 1256.61517 * t)) in *. set (c4' := cos (4.6261 + 1256.61517 * t')) in *. set (s := sun_longitude t) in *. set (s' := sun_longitude t') in *. set (u := nut_lon t) in *. set (u' := nut_lon t') in *. set (ab := arcsec _) in *.
  rewrite (Rmult_assoc 0.0002061 c2' t') in N'. rewrite (Rmult_assoc 0.0002061 c2 t) in N. set (z := c2 * t) in *. set (z' := c2' * t') in *. set (y := (t' - t) * (t' + t)) in *. set (q := t * t) in *.
  clearbody c1 c1' c2 c2' c4 c4' s s' u u' ab z z' y q. clear T2 B B1 B2.
  replace t' with (t + 365.9 / 36525) in N' by lra. clear Eh. clearbody t'.
  revert N N' U U' C1 C2 C4 C5 P. decs. intros N N' U U' C1 C2 C4 C5 P.
  apply Rabs_le_inv in N. apply Rabs_le_inv in N'. apply Rabs_le_inv in U. apply Rabs_le_inv in U'. apply Rabs_le_inv in C1. apply Rabs_le_inv in C2. apply Rabs_le_inv in C4. apply Rabs_le_inv in C5. lra.
Qed.
Lemma sun_year r r' n : Rabs r <= 9.98 -> Rabs r' <= 10 -> sun_longitude r = IZR n * PI / 12 -> sun_longitude r' = IZR (n + 24) * PI / 12 -> 36525 * (r' - r) <= 365.9.
Proof.
  intros B B' E E'. pose proof (sun_around r B) as A. assert (E2 : sun_longitude r' = sun_longitude r + 2 * PI) by (rewrite E, E', plus_IZR; field).
  assert (BH : Rabs (r + 365.9 / 36525) <= 10) by (revert B; decs; intros B; apply Rabs_le_inv in B; apply Rabs_le; lra).
  destruct (Rle_or_lt r' (r + 365.9 / 36525)) as [L|L]; [revert L; decs; lra|]. pose proof (sun_mono _ _ BH B' L). lra.
Qed.
