(** The quick search for the Sun in doubles, its error, and the day of a solar term. *)
From Coq Require Import ZArith Reals Lia Lra Bool List.
From Coq Require Import Floats.SpecFloat.
From Flocq Require Import Core IEEE754.BinarySingleNaN.
From Verif Require Import F64 F64R F64T F64E AngModel PiBound ErrExpr SmTab SerModel SerSpec FormModel FormSpec FormProps WaveF WaveR SmModel SmSpec SmLon SmProps SmSun SmNewton SunProps DtSpec QuickR HighR.
Import ListNotations.
Open Scope R_scope.

Definition sun_v : R := 628.3319653318.

Section Lib.
Variables fsin fcos : f64 -> f64.
Hypothesis Gs : good_lib fsin sin.
Hypothesis Gc : good_lib fcos cos.
Variable XL0 : list (list f64).
Variable rest : list f64.
Hypothesis H0 : nth_error XL0 0 = Some (memory (earth_table rest)).
Hypothesis HR : length rest = 1518%nat.
Variable W : f64.
Hypothesis OW : ok W.

Lemma quick_terms : Rabs (R64 W) <= 18780 -> exists T0 T1 t2, S_aLon_t2 fsin fcos XL0 W = Some t2 /\ ok t2 /\ Rabs T0 <= (Rabs (R64 W) + 5) / 628 /\
  Rabs (R64 W - sun_mean T0) <= 1e-9 /\ Rabs (sun_v * (T1 - T0) + sun_wave T0) <= 1e-8 /\ Rabs (sun_v * (R64 t2 - T1) - (R64 W - sun_quick T1)) <= 1e-8.
Proof.
  intros B. destruct (sun_first_near fsin fcos Gs Gc W OW ltac:(lra)) as [O0 A0]. unfold S_aLon_t2. fold (sun_first W). cbv zeta.
  set (t0 := sun_first W) in *. clearbody t0. set (T0 := R64 t0) in *.
  assert (M0 : Rabs (R64 W - sun_mean T0) <= 1e-9).
  { unfold sun_mean. replace (R64 W - (1.75347 + PI + 628.3319653318 * T0)) with (- 628.3319653318 * (T0 - (R64 W - 1.75347 - PI) / 628.3319653318)) by (decs; field).
    assert (X := prod_le (- 628.3319653318) _ 628.3319653318 _ ltac:(decs; apply Rabs_le; lra) A0). revert X. decs. lra. }
  assert (B0 : Rabs T0 <= (Rabs (R64 W) + 5) / 628).
  { pose proof (Rle_abs (R64 W)) as W1. pose proof (Rle_abs (- R64 W)) as W2. rewrite Rabs_Ropp in W2. revert M0. unfold sun_mean. decs. intros M0. apply Rabs_le_inv in M0. pose proof PI_bounds as P. revert P. decs. intros P. unfold Rabs at 1. destruct (Rcase_abs T0); lra. }
  assert (B30 : Rabs T0 <= 30) by lra.
  pose proof (env1 t0 O0 30 B30) as E.
  match goal with |- context [obind (E_Lon fcos XL0 ?F 8)] =>
    assert (N1 : ok F /\ Rabs (R64 F - (T0 - sun_wave T0 / sun_v)) <= 1e-12) end.
  { lazymatch goal with |- ok ?F /\ Rabs (R64 ?F - ?r) <= _ =>
    let e := reify fsin fcos [t0] F in
    assert (H : ok F /\ Rabs (R64 F - r) <= IZR 1267650600228229401 * U);
    [apply (formula_ok fsin fcos Gs Gc _ _ _ e F r 1267650600228229401 E); [cbn [evF nth]; reflexivity| |vm_compute; reflexivity]; cbn [evR nth]; fold T0; unfold sun_wave, sun_v; decs; share; field
    |destruct H as [H1 H2]; split; [exact H1|]; apply Rle_trans with (1 := H2); unfold U, one; decs; lra]
  end. }
  match type of N1 with ok ?F /\ _ => set (t1 := F) in *; clearbody t1 end. destruct N1 as [O1 D1]. set (T1 := R64 t1) in *.
  assert (V1 : Rabs (sun_v * (T1 - T0) + sun_wave T0) <= 1e-8).
  { replace (sun_v * (T1 - T0) + sun_wave T0) with (sun_v * (T1 - (T0 - sun_wave T0 / sun_v))) by (unfold sun_v; decs; field). apply Rle_trans with (1 := prod_le sun_v _ 629 _ ltac:(unfold sun_v; decs; apply Rabs_le; lra) D1). decs. lra. }
  assert (WV : Rabs (sun_wave T0) <= 1).
  { unfold sun_wave. powers T0 30 B30. apply Rle_trans with (5.297e-6 * 30 ^ 2 + 0.0334166 * 1 + 0.0002061 * 30 * 1); [|decs; lra].
    apply sum_le; [apply sum_le; [apply prod_le; [decs; apply Rabs_le; lra|assumption]|apply prod_le; [decs; apply Rabs_le; lra|apply Rabs_le, COS_bound]]|].
    apply prod_le; [apply prod_le; [decs; apply Rabs_le; lra|assumption]|apply Rabs_le, COS_bound]. }
  assert (B1 : Rabs T1 <= 31).
  { replace T1 with (T0 + (sun_v * (T1 - T0) + sun_wave T0) * / sun_v - sun_wave T0 * / sun_v) by (unfold sun_v; decs; field).
    assert (IV : Rabs (/ sun_v) <= / 600) by (rewrite Rabs_pos_eq; unfold sun_v; decs; lra).
    apply Rle_trans with (1 := diff_le _ _ _ _ (sum_le _ _ _ _ B30 (prod_le _ _ _ _ V1 IV)) (prod_le _ _ _ _ WV IV)). decs. lra. }
  destruct (earth_n_near fsin fcos Gs Gc XL0 rest H0 HR t1 O1 ltac:(fold T1; lra) 8 ltac:(lia)) as (e & Ee & (Oe & De & Me)). rewrite Ee. cbn [obind]. fold T1 in De, Me.
  assert (Be : Rabs (R64 e) <= 63001). { replace (R64 e) with (earth_n 8 T1 + (R64 e - earth_n 8 T1)) by ring. apply Rle_trans with (1 := sum_le _ _ _ _ Me De). decs. lra. }
  assert (E3 : env_ok [t1; W; e] [T1; R64 W; R64 e] [given 31; given 18780; given 63001]) by (constructor; [apply given_ok; assumption|constructor; [apply given_ok; assumption|constructor; [apply given_ok; assumption|constructor]]]).
  match goal with |- context [Some ?F = Some _] =>
    let r := constr:(T1 + (R64 W - R64 e - PI + arcsec (20.5 + 17.2 * sin (2.1824 - 33.75705 * T1))) / sun_v) in
    assert (N2 : ok F /\ Rabs (R64 F - r) <= 5e-12) end. 
  { unfold rad. lazymatch goal with |- ok ?F /\ Rabs (R64 ?F - ?r) <= _ =>
    let e := reify fsin fcos [t1; W; e] F in
    assert (H : ok F /\ Rabs (R64 F - r) <= IZR 6338253001141147000 * U);
    [apply (formula_ok fsin fcos Gs Gc _ _ _ e F r 6338253001141147000 E3); [cbn [evF nth]; reflexivity| |vm_compute; reflexivity]; cbn [evR nth]; unfold sun_v, arcsec; decs; share; pose proof pi_pos; field; try assumption
    |destruct H as [H1 H2]; split; [exact H1|]; apply Rle_trans with (1 := H2); unfold U, one; decs; lra]
  end. }
  match type of N2 with ok ?F /\ _ => set (t2 := F) in *; clearbody t2 end. destruct N2 as [O2 D2].
  exists T0, T1, t2. split; [reflexivity|]. split; [exact O2|]. split; [exact B0|]. split; [exact M0|]. split; [exact V1|].
  unfold sun_quick. set (q := arcsec (20.5 + 17.2 * sin (2.1824 - 33.75705 * T1))) in *. clearbody q.
  match type of D2 with Rabs ?x <= _ => match goal with |- Rabs ?z <= _ => replace z with (sun_v * x - (R64 e - earth_n 8 T1)) by (unfold sun_v; decs; field) end end.
  apply Rle_trans with (1 := diff_le _ _ _ _ (prod_le sun_v _ 629 _ ltac:(unfold sun_v; decs; apply Rabs_le; lra) D2) De). decs. lra.
Qed.
End Lib.

(** ** the error of the quick search *)
Lemma slope1 : slope_dev 1 <= 23.2901. Proof. unfold slope_dev. numbers. lra. Qed.
(** the moment found, given the residual at the next to last one *)
Lemma quick_last S T1 T2 r e q : (0 <= S <= 10)%Z -> Rabs T1 <= 10 * IZR S -> Rabs r <= 10 * IZR S -> 0 <= slope_dev S <= 45 -> Rabs (sun_longitude r - sun_longitude T1) <= e -> 
  Rabs (sun_quick T1 - sun_longitude T1) <= q -> Rabs (sun_v * (T2 - T1) - (sun_longitude r - sun_quick T1)) <= 2e-8 ->
  forall h, e <= (628.33 - slope_dev S) * h -> sun_v * Rabs (T2 - r) <= 2e-8 + q + (slope_dev S + 1.5e-6) * h.
Proof.
  intros HS B1 Br HL He Hq D h Hh. pose proof (sun_slope S T1 r HS B1 Br) as SL. set (sl := slope_dev S) in *. clearbody sl. set (x := r - T1) in *.
  assert (Bx : Rabs x <= h).
  { apply Rmult_le_reg_l with (628.33 - sl); [decs; lra|]. apply Rle_trans with (2 := Hh). apply Rle_trans with (2 := He).
    assert (X : Rabs (628.33196674749 * x) <= Rabs (sun_longitude r - sun_longitude T1) + sl * Rabs x).
    { replace (628.33196674749 * x) with ((sun_longitude r - sun_longitude T1) - (sun_longitude r - sun_longitude T1 - 628.33196674749 * x)) by ring. apply diff_le; [apply Rle_refl|exact SL]. }
    rewrite Rabs_mult, (Rabs_pos_eq 628.33196674749) in X by (decs; lra). pose proof (Rabs_pos x). revert X. decs. lra. }
  assert (V0 : 0 <= sun_v) by (unfold sun_v; decs; lra). rewrite <- (Rabs_pos_eq sun_v V0). rewrite <- Rabs_mult.
  replace (sun_v * (T2 - r)) with ((sun_v * (T2 - T1) - (sun_longitude r - sun_quick T1)) - (sun_quick T1 - sun_longitude T1) + ((sun_longitude r - sun_longitude T1 - 628.33196674749 * x) + (628.33196674749 - sun_v) * x)) by (unfold x; ring).
  assert (SL' : Rabs (sun_longitude r - sun_longitude T1 - 628.33196674749 * x) <= sl * h) by (apply Rle_trans with (1 := SL); apply Rmult_le_compat_l; lra).
  apply Rle_trans with (1 := sum_le _ _ _ _ (diff_le _ _ _ _ D Hq) (sum_le _ _ _ _ SL' (prod_le (628.33196674749 - sun_v) _ 1.5e-6 _ ltac:(unfold sun_v; decs; apply Rabs_le; lra) Bx))). lra.
Qed.
Lemma slope1_pos : 0 <= slope_dev 1. Proof. unfold slope_dev. numbers. lra. Qed.
Lemma slope3_pos : 0 <= slope_dev 3. Proof. unfold slope_dev. numbers. lra. Qed.
(** up to ten centuries from J2000: 1196 seconds *)
Lemma quick_near W r T0 T1 T2 : Rabs W <= 6270 -> Rabs r <= 30 -> sun_longitude r = W -> Rabs T0 <= (Rabs W + 6) / 628 ->
  Rabs (W - sun_mean T0) <= 2e-9 -> Rabs (sun_v * (T1 - T0) + sun_wave T0) <= 1e-8 -> Rabs (sun_v * (T2 - T1) - (W - sun_quick T1)) <= 2e-8 ->
  Rabs (T2 - r) <= 1196 / (36525 * 86400).
Proof.
  intros BW Br Er B0 M0 D1 D2. destruct (wave_shift T0 T1 ltac:(revert B0; decs; lra) D1) as [B1 WS].
  assert (Br' : Rabs r <= 10).
  { pose proof dev3 as D3. pose proof (sun_dev 3 r ltac:(lia) ltac:(lra)) as MD. rewrite Er in MD. revert MD D3. unfold sun_mean. decs. intros MD D3. apply Rabs_le_inv in MD. apply Rabs_le_inv in BW. pose proof PI_bounds as P. revert P. decs. intros P. apply Rabs_le. lra. }
  assert (E1 : Rabs (W - sun_longitude T1) <= 0.0017512).
  { replace (W - sun_longitude T1) with ((W - sun_mean T0) - (sun_v * (T1 - T0) + sun_wave T0) - (sun_wave T1 - sun_wave T0) - (sun_longitude T1 - sun_mean T1 - sun_wave T1)) by (unfold sun_mean, sun_v; ring).
    apply Rle_trans with (1 := diff_le _ _ _ _ (diff_le _ _ _ _ (diff_le _ _ _ _ M0 D1) WS) (sun_rest T1 B1)). decs. lra. }
  pose proof slope1 as L1. pose proof slope1_pos as L0. rewrite <- Er in E1, D2.
  pose proof (quick_last 1 T1 T2 r _ _ ltac:(lia) ltac:(lra) ltac:(lra) ltac:(revert L1; decs; lra) E1 (sun_quick_near T1 B1) D2 (0.0017512 / 605.03)) as Q.
  assert (X : sun_v * Rabs (T2 - r) <= 2e-8 + 0.0001706 + (23.2901 + 1.5e-6) * (0.0017512 / 605.03)).
  { apply Rle_trans with (1 := Q ltac:(revert L1; decs; lra)). revert L1. decs. lra. }
  revert X. unfold sun_v. decs. lra.
Qed.
(** up to thirty centuries: one day *)
Lemma quick_far W r T0 T1 T2 : Rabs W <= 18780 -> Rabs r <= 30 -> sun_longitude r = W -> Rabs T0 <= (Rabs W + 6) / 628 ->
  Rabs (W - sun_mean T0) <= 2e-9 -> Rabs (sun_v * (T1 - T0) + sun_wave T0) <= 1e-8 -> Rabs (sun_v * (T2 - T1) - (W - sun_quick T1)) <= 2e-8 ->
  Rabs (T2 - r) <= / 36525.
Proof.
  intros BW Br Er B0 M0 D1 D2. assert (B0' : Rabs T0 <= 29.92) by (revert B0; decs; lra). assert (B30 : Rabs T0 <= 30) by (revert B0'; decs; lra).
  assert (WV : Rabs (sun_wave T0) <= 0.045).
  { unfold sun_wave. powers T0 30 B30. apply Rle_trans with (5.297e-6 * 30 ^ 2 + 0.0334166 * 1 + 0.0002061 * 30 * 1); [|decs; lra].
    apply sum_le; [apply sum_le; [apply prod_le; [decs; apply Rabs_le; lra|assumption]|apply prod_le; [decs; apply Rabs_le; lra|apply Rabs_le, COS_bound]]|].
    apply prod_le; [apply prod_le; [decs; apply Rabs_le; lra|assumption]|apply Rabs_le, COS_bound]. }
  assert (B1 : Rabs T1 <= 30).
  { replace T1 with (T0 + (sun_v * (T1 - T0) + sun_wave T0) * / sun_v - sun_wave T0 * / sun_v) by (unfold sun_v; decs; field).
    assert (IV : Rabs (/ sun_v) <= / 600) by (rewrite Rabs_pos_eq; unfold sun_v; decs; lra).
    apply Rle_trans with (1 := diff_le _ _ _ _ (sum_le _ _ _ _ B0' (prod_le _ _ _ _ D1 IV)) (prod_le _ _ _ _ WV IV)). decs. lra. }
  pose proof dev3 as D3. pose proof (sun_dev 3 T1 ltac:(lia) ltac:(lra)) as MD.
  assert (E1 : Rabs (W - sun_longitude T1) <= 0.094).
  { replace (W - sun_longitude T1) with ((W - sun_mean T0) - (sun_v * (T1 - T0) + sun_wave T0) + sun_wave T0 + (sun_mean T1 - sun_longitude T1)) by (unfold sun_mean, sun_v; ring).
    apply Rle_trans with (1 := sum_le _ _ _ _ (sum_le _ _ _ _ (diff_le _ _ _ _ M0 D1) WV) MD). revert D3. decs. lra. }
  assert (QN : Rabs (sun_quick T1 - sun_longitude T1) <= 0.002).
  { pose proof (earth_tail 3 8 T1 ltac:(lra)) as ET. let v := eval vm_compute in (etail 3 8) in change (etail 3 8) with v in ET.
    pose proof (nut_small T1 ltac:(lra)) as NU. pose proof (sun_small T1 ltac:(lra)) as AB. unfold sun_quick, sun_longitude. set (sn := sin (2.1824 - 33.75705 * T1)).
    assert (K : Rabs (arcsec (20.5 + 17.2 * sn)) <= 38 / 206264). { apply arcsec_le. pose proof (SIN_bound (2.1824 - 33.75705 * T1)) as SB. fold sn in SB. clearbody sn. decs. apply Rabs_le. lra. }
    match goal with |- Rabs ?z <= _ => replace z with ((earth_n 8 T1 - earth_full T1) - nut_lon T1 - sun_aberration T1 - arcsec (20.5 + 17.2 * sn)) by ring end.
    apply Rle_trans with (1 := diff_le _ _ _ _ (diff_le _ _ _ _ (diff_le _ _ _ _ ET NU) AB) K). decs. lra. }
  pose proof slope3 as L1. pose proof slope3_pos as L0. rewrite <- Er in E1, D2.
  pose proof (quick_last 3 T1 T2 r _ _ ltac:(lia) ltac:(lra) ltac:(lra) ltac:(revert L1; decs; lra) E1 QN D2 (0.094 / 601)) as Q.
  assert (X : sun_v * Rabs (T2 - r) <= 2e-8 + 0.002 + (26.6 + 1.5e-6) * (0.094 / 601)).
  { apply Rle_trans with (1 := Q ltac:(revert L1; decs; lra)). revert L1. decs. lra. }
  revert X. unfold sun_v. decs. lra.
Qed.

(** the day of a solar term: qi_high W gives the moment of the longitude w, W being w up to rounding, and the day is the day of that moment unless it is within 2.3 seconds of midnight *)
Lemma qi_high_day fsin fcos XL0 rest W w : good_lib fsin sin -> good_lib fcos cos -> nth_error XL0 0 = Some (memory (earth_table rest)) -> length rest = 1518%nat -> ok W -> -18779 <= w <= 6269 -> Rabs (R64 W - w) <= 1e-10 ->
  exists v r y, qi_high fsin fcos XL0 W = Some v /\ ok v /\ sun_longitude r = w /\ Rabs r <= 30 /\ (forall r', Rabs r' <= 30 -> sun_longitude r' = w -> r' = r) /\
    Rabs (365.2425 * (y - 2000) - 36525 * r) <= 6 /\ Rabs (R64 v - civil r y) <= 1.1 /\
    forall d, cast_int (ffloor (fadd v (lit 5 10))) = Some d -> IZR d - 2.3 / 86400 < civil r y + 1 / 2 < IZR d + 1 + 2.3 / 86400.
Proof.
  intros Gs Gc H0 HR OW Bw DW. assert (BW1 : Rabs (R64 W) <= Rabs w + 1). { replace (R64 W) with (w + (R64 W - w)) by ring. apply Rle_trans with (1 := sum_le _ _ _ _ (Rle_refl _) DW). decs. lra. }
  assert (Bw' : Rabs w <= 18779) by (apply Rabs_le; lra). assert (BW' : Rabs (R64 W) <= 18780) by lra.
  assert (X : exists a r, S_aLon_t fsin fcos XL0 W = Some a /\ ok a /\ sun_longitude r = w /\ Rabs r <= 30 /\ Rabs (R64 a - r) <= 2.2 / (36525 * 86400) /\ forall r', Rabs r' <= 30 -> sun_longitude r' = w -> r' = r).
  { pose proof earth_rho3 as R3. pose proof earth_K3 as K3. pose proof dev3 as D3. pose proof slope3 as L3.
    destruct (sun_search fsin fcos Gs Gc XL0 rest H0 HR W OW 3 18780 602.5 0.78 8300 0.0001702 0.0481 0.000081 0.00029 0.00000049 4e-7) as (v & E & O & B & D); try (unfold sun_rho; rewrite ?etail3; revert R3 K3 D3; decs; lra || lia).
    assert (D' : Rabs (w - sun_longitude (R64 v)) <= 4.001e-7). { replace (w - sun_longitude (R64 v)) with ((R64 W - sun_longitude (R64 v)) - (R64 W - w)) by ring. apply Rle_trans with (1 := diff_le _ _ _ _ D DW). decs. lra. }
    assert (H22 : 4.001e-7 <= (628.33 - slope_dev 3) * (2.2 / (36525 * 86400)) /\ 2.2 / (36525 * 86400) <= 0.001) by (revert L3; decs; lra). destruct H22 as [H22 H23].
    destruct (sun_root 3 (R64 v) w 4.001e-7 ltac:(lia) B ltac:(revert L3; decs; lra) D' ltac:(decs; lra) (2.2 / (36525 * 86400)) H22 H23) as (r & R1 & R2 & R3').
    exists v, r. replace (10 * 3) with 30 in * by ring. split; [exact E|]. split; [exact O|]. split; [exact R1|]. split; [|split; [exact R2|exact R3']].
    replace r with (R64 v - (R64 v - r)) by ring. apply Rle_trans with (1 := diff_le _ _ _ _ B R2). lra. }
  destruct X as (a & r & Ea & Oa & Er & Br & Da & Uq).
  destruct (quick_terms fsin fcos Gs Gc XL0 rest H0 HR W OW BW') as (T0 & T1 & t2 & E2 & O2 & B0 & M0 & D1 & D2).
  assert (B0' : Rabs T0 <= (Rabs w + 6) / 628) by lra.
  assert (M0' : Rabs (w - sun_mean T0) <= 2e-9). { replace (w - sun_mean T0) with ((R64 W - sun_mean T0) - (R64 W - w)) by ring. apply Rle_trans with (1 := diff_le _ _ _ _ M0 DW). decs. lra. }
  assert (D2' : Rabs (sun_v * (R64 t2 - T1) - (w - sun_quick T1)) <= 2e-8). { replace (sun_v * (R64 t2 - T1) - (w - sun_quick T1)) with ((sun_v * (R64 t2 - T1) - (R64 W - sun_quick T1)) + (R64 W - w)) by ring. apply Rle_trans with (1 := sum_le _ _ _ _ D2 DW). decs. lra. }
  pose proof (quick_far w r T0 T1 (R64 t2) ltac:(lra) Br Er B0' M0' D1 D2') as Far.
  destruct (high_day fsin fcos Gs Gc (S_aLon_t2 fsin fcos XL0 W) (S_aLon_t fsin fcos XL0 W) t2 a 1200 r 1196 2.2 2.3 E2 O2 Ea Oa ltac:(lia) ltac:(apply Rabs_le_inv in Br; lra) Far Da ltac:(decs; lra) ltac:(decs; lra)) as (v & y & Ev & Ov & Y1 & Y2 & Y3).
  - destruct (Rle_or_lt w (-6000)) as [N|N].
    + left. pose proof dev3 as D3. pose proof (sun_dev 3 r ltac:(lia) ltac:(lra)) as MD. rewrite Er in MD. revert MD D3. unfold sun_mean. decs. intros MD D3. apply Rabs_le_inv in MD.
      pose proof PI_bounds as P. revert P. decs. intros P. apply Rabs_le_inv in Far. lra.
    + right. split; [|decs; lra]. apply (quick_near w r T0 T1); try assumption. apply Rabs_le; lra.
  - exists v, r, y. repeat (split; [assumption|]). exact Y3.
Qed.
