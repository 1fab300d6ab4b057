(** C90: the moment at which the Sun reaches a given longitude. *)
From Coq Require Import ZArith Reals Lia Lra Bool List.
From Coq Require Import Floats.SpecFloat.
From Flocq Require Import Core IEEE754.BinarySingleNaN.
From Verif Require Import F64 F64R F64T F64E SsqModel AngModel AngProps PiBound ErrExpr SmTab SerModel SerSpec FormModel FormSpec FormProps WaveF WaveR SmModel SmSpec SmF SmLon SmProps SmSun SmNewton.
Import ListNotations.
Open Scope R_scope.

(** what the first n terms leave out, |t| <= 10 S *)
Definition etail (S n : Z) : Z :=
  (amp (skipn (ke n 0 186) EL0) + S * amp (skipn (ke n 1 114) EL1) + S * S * amp (skipn (ke n 2 60) EL2) + S * S * S * amp (skipn (ke n 3 8) EL3) +
   S * S * S * S * amp (skipn (ke n 4 4) EL4) + S * S * S * S * S * amp (skipn (ke n 5 4) EL5))%Z.
Lemma tail_le s S k n l : Rabs s <= IZR S -> Rabs (s ^ k * ws (firstn n l) s - s ^ k * ws l s) <= IZR S ^ k * IZR (amp (skipn n l)).
Proof.
  intros B. replace (s ^ k * ws (firstn n l) s - s ^ k * ws l s) with (s ^ k * - (ws l s - ws (firstn n l) s)) by ring. apply prod_le; [apply powk, B|]. rewrite Rabs_Ropp. apply ws_tail.
Qed.
Lemma earth_tail S n t : Rabs t <= 10 * IZR S -> Rabs (earth_n n t - earth_full t) <= IZR (etail S n) / 10000000000.
Proof.
  intros B. rewrite earth_full_is. unfold earth_n, earth_lon, earth_terms6, etail. set (s := t / 10). assert (Bs : Rabs s <= IZR S) by (unfold s; apply Rabs_le_inv in B; apply Rabs_le; lra). clearbody s.
  generalize (ke n 0 186) (ke n 1 114) (ke n 2 60) (ke n 3 8) (ke n 4 4) (ke n 5 4). intros k0 k1 k2 k3 k4 k5.
  pose proof (tail_le s S 0 k0 EL0 Bs) as T0. pose proof (tail_le s S 1 k1 EL1 Bs) as T1. pose proof (tail_le s S 2 k2 EL2 Bs) as T2.
  pose proof (tail_le s S 3 k3 EL3 Bs) as T3. pose proof (tail_le s S 4 k4 EL4 Bs) as T4. pose proof (tail_le s S 5 k5 EL5 Bs) as T5.
  assert (Q := sum_le _ _ _ _ (sum_le _ _ _ _ (sum_le _ _ _ _ (sum_le _ _ _ _ (sum_le _ _ _ _ T0 T1) T2) T3) T4) T5). clear T0 T1 T2 T3 T4 T5.
  rewrite !plus_IZR, !mult_IZR.
  match type of Q with Rabs ?x <= ?y => match goal with |- Rabs ?z <= _ => replace z with (x * / 10000000000) by (cbn [pow]; field) end end.
  apply Rle_trans with (1 := prod_le _ _ _ _ Q (Rle_refl _)). rewrite (Rabs_pos_eq (/ 10000000000)) by lra. right. cbn [pow]. field.
Qed.
(** the mean motion, and how far the longitude is from it *)
Definition sun_mean (t : R) : R := 1.75347 + PI + 628.3319653318 * t.
Definition mean_dev (S : Z) : R := (IZR (amp (skipn 1 EL0)) + IZR S * IZR (amp (skipn 1 EL1)) + IZR S ^ 2 * IZR (amp EL2) + IZR S ^ 3 * IZR (amp EL3) + IZR S ^ 4 * IZR (amp EL4) + IZR S ^ 5 * IZR (amp EL5)) / 10000000000 + 0.0000016 * (10 * IZR S) + 0.00175.
Lemma el0' s : ws EL0 s = 17534704567 + ws (skipn 1 EL0) s.
Proof.
  rewrite (ws_split 1 EL0 s). change (firstn 1 EL0) with [V 17534704567 0 0]. set (g := ws (skipn 1 EL0) s). cbn [ws fold_right]. change (wa (V 17534704567 0 0)) with 17534704567%Z.
  replace (ph (V 17534704567 0 0) s) with 0 by (unfold ph, V; cbn [wb wd we wf wg]; field). rewrite cos_0. ring.
Qed.
Lemma el1' s : ws EL1 s = 62833196674749 + ws (skipn 1 EL1) s.
Proof.
  rewrite (ws_split 1 EL1 s). change (firstn 1 EL1) with [V 62833196674749 0 0]. set (g := ws (skipn 1 EL1) s). cbn [ws fold_right]. change (wa (V 62833196674749 0 0)) with 62833196674749%Z.
  replace (ph (V 62833196674749 0 0) s) with 0 by (unfold ph, V; cbn [wb wd we wf wg]; field). rewrite cos_0. ring.
Qed.
Lemma fix_abs s : Rabs s <= 10 -> Rabs (earth_fix s) <= 0.0014.
Proof.
  intros B. unfold earth_fix. powers s 10 B. apply Rle_trans with (239 / 206264); [|decs; lra]. apply arcsec_le. apply Rabs_le_inv in B. apply Rabs_le_inv in H. apply Rabs_le_inv in H0. apply Rabs_le. decs. lra.
Qed.
Lemma sun_dev S t : (0 <= S <= 10)%Z -> Rabs t <= 10 * IZR S -> Rabs (sun_mean t - sun_longitude t) <= mean_dev S.
Proof.
  intros HS B. assert (S1 : 0 <= IZR S <= 10) by (split; apply IZR_le; lia). unfold sun_longitude, sun_mean. rewrite earth_full_is. set (s := t / 10).
  assert (Et : t = 10 * s) by (unfold s; field). assert (Bs : Rabs s <= IZR S) by (unfold s; apply Rabs_le_inv in B; apply Rabs_le; lra). clearbody s. subst t.
  assert (B100 : Rabs (10 * s) <= 100) by lra. assert (B10 : Rabs s <= 10) by lra.
  pose proof (nut_small _ B100) as N. pose proof (sun_small _ B100) as A. pose proof (fix_abs _ B10) as F.
  rewrite el0', el1'. unfold mean_dev.
  pose proof (ws_amp (skipn 1 EL0) s) as T0. pose proof (prod_le _ _ _ _ Bs (ws_amp (skipn 1 EL1) s)) as T1. pose proof (prod_le _ _ _ _ (powk s _ 2 Bs) (ws_amp EL2 s)) as T2.
  pose proof (prod_le _ _ _ _ (powk s _ 3 Bs) (ws_amp EL3 s)) as T3. pose proof (prod_le _ _ _ _ (powk s _ 4 Bs) (ws_amp EL4 s)) as T4. pose proof (prod_le _ _ _ _ (powk s _ 5 Bs) (ws_amp EL5 s)) as T5.
  assert (Q := sum_le _ _ _ _ (sum_le _ _ _ _ (sum_le _ _ _ _ (sum_le _ _ _ _ (sum_le _ _ _ _ T0 T1) T2) T3) T4) T5). clear T0 T1 T2 T3 T4 T5.
  revert Q. generalize (IZR (amp (skipn 1 EL0)) + IZR S * IZR (amp (skipn 1 EL1)) + IZR S ^ 2 * IZR (amp EL2) + IZR S ^ 3 * IZR (amp EL3) + IZR S ^ 4 * IZR (amp EL4) + IZR S ^ 5 * IZR (amp EL5)).
  generalize (ws (skipn 1 EL0) s) (ws (skipn 1 EL1) s) (ws EL2 s) (ws EL3 s) (ws EL4 s) (ws EL5 s). intros g0 g1 g2 g3 g4 g5 M Q.
  assert (Q' : g0 + s * g1 + s ^ 2 * g2 + s ^ 3 * g3 + s ^ 4 * g4 + s ^ 5 * g5 = g0 + s * g1 + s ^ 2 * g2 + s ^ 3 * g3 + s ^ 4 * g4 + s ^ 5 * g5) by reflexivity.
  set (X := g0 + s * g1 + s ^ 2 * g2 + s ^ 3 * g3 + s ^ 4 * g4 + s ^ 5 * g5) in *. clear Q'.
  replace (1.75347 + PI + 628.3319653318 * (10 * s) - ((17534704567 + g0 + s * (62833196674749 + g1) + s ^ 2 * g2 + s ^ 3 * g3 + s ^ 4 * g4 + s ^ 5 * g5) / 10000000000 + earth_fix s + nut_lon (10 * s) + sun_aberration (10 * s) + PI))
    with (1.75347 - 1.7534704567 + (628.3319653318 - 628.33196674749) * (10 * s) - X / 10000000000 - earth_fix s - nut_lon (10 * s) - sun_aberration (10 * s)) by (unfold X; decs; field).
  revert F. decs. intros F. clearbody X. apply Rabs_le_inv in Q. apply Rabs_le_inv in N. apply Rabs_le_inv in A. apply Rabs_le_inv in F. apply Rabs_le_inv in Bs. apply Rabs_le. lra.
Qed.
(** the longitude as a whole moves *)
Definition sun_rho (S : Z) : R := earth_rho S + 0.0424.
Lemma sun_step S t t' : (0 <= S <= 10)%Z -> Rabs t <= 10 * IZR S -> Rabs t' <= 10 * IZR S ->
  Rabs (sun_longitude t' - sun_longitude t - earth_speed t * (t' - t)) <= sun_rho S * Rabs (t' - t) + earth_K S * (t' - t) ^ 2 + 0.
Proof.
  intros HS B B'. assert (S1 : 0 <= IZR S <= 10) by (split; apply IZR_le; lia). pose proof (earth_step S HS t t' B B') as E. unfold sun_longitude.
  pose proof (nut_lip t t' ltac:(lra) ltac:(lra)) as N. pose proof (sun_ab_lip t t' ltac:(lra) ltac:(lra)) as A.
  replace (earth_full t' + nut_lon t' + sun_aberration t' + PI - (earth_full t + nut_lon t + sun_aberration t + PI) - earth_speed t * (t' - t)) with
    ((earth_full t' - earth_full t - earth_speed t * (t' - t)) + ((nut_lon t' - nut_lon t) + (sun_aberration t' - sun_aberration t))) by ring.
  apply Rle_trans with (1 := sum_le _ _ _ _ E (sum_le _ _ _ _ N A)). unfold sun_rho. right. decs. ring.
Qed.
Lemma speed_range S t : (0 <= S <= 10)%Z -> Rabs t <= 10 * IZR S -> 628.332 - (21.44 + 1.29 * IZR S + 0.055 * IZR S ^ 2) <= earth_speed t <= 628.332 + (21.44 + 1.29 * IZR S + 0.055 * IZR S ^ 2).
Proof.
  intros HS B. unfold earth_speed. cbv zeta. set (f := 628.307585 * t).
  assert (X : Rabs (21 * sin (1.527 + f) + 0.44 * sin (1.48 + 2 * f) + 0.129 * t * sin (5.82 + f) + 0.00055 * t ^ 2 * sin (4.21 + f)) <= 21 * 1 + 0.44 * 1 + 0.129 * (10 * IZR S) * 1 + 0.00055 * (10 * IZR S) ^ 2 * 1).
  { repeat apply sum_le; repeat (apply prod_le; [|apply Rabs_le, SIN_bound]); try (decs; apply Rabs_le; lra).
    - apply prod_le; [decs; apply Rabs_le; lra|exact B].
    - apply prod_le; [decs; apply Rabs_le; lra|]. apply powk. exact B. }
  revert X. set (a := 21 * sin (1.527 + f) + 0.44 * sin (1.48 + 2 * f) + 0.129 * t * sin (5.82 + f) + 0.00055 * t ^ 2 * sin (4.21 + f)). intros X.
  replace (628.332 + 21 * sin (1.527 + f) + 0.44 * sin (1.48 + 2 * f) + 0.129 * t * sin (5.82 + f) + 0.00055 * t ^ 2 * sin (4.21 + f)) with (628.332 + a) by (unfold a; ring).
  clearbody a. apply Rabs_le_inv in X. revert X. decs. intros X. cbn [pow] in *. lra.
Qed.

Section Lib.
Variables fsin fcos : f64 -> f64.
Hypothesis Gs : good_lib fsin sin.
Hypothesis Gc : good_lib fcos cos.
Variables (XL0 : list (list f64)) (rest : list f64).
Hypothesis H0 : nth_error XL0 0 = Some (memory (earth_table rest)).
Hypothesis HR : length rest = 1518%nat.
Variable W : f64.
Hypothesis OW : ok W.
Definition sun_first : f64 := fdiv (fsub (fsub W (lit 175347 100000)) dpi) (lit 6283319653318 10000000000).
Lemma sun_first_near : Rabs (R64 W) <= 62800 -> ok sun_first /\ Rabs (R64 sun_first - (R64 W - 1.75347 - PI) / 628.3319653318) <= 1e-12.
Proof.
  intros B. pose proof (env1 W OW 62800 B) as E. unfold sun_first.
  lazymatch goal with |- ok ?F /\ Rabs (R64 ?F - ?r) <= _ =>
    let e := reify fsin fcos [W] F in
    assert (H : ok F /\ Rabs (R64 F - r) <= IZR 1267650600228229401 * U);
    [apply (formula_ok fsin fcos Gs Gc _ _ _ e F r 1267650600228229401 E); [cbn [evF nth]; reflexivity| |vm_compute; reflexivity]; cbn [evR nth]; decs; field
    |destruct H as [H1 H2]; split; [exact H1|]; apply Rle_trans with (1 := H2); unfold U, one; decs; lra]
  end.
Qed.
Lemma sun_search S Wm Vm rho K tau e0 h0 e1 h1 e2 : (0 <= S <= 10)%Z -> Rabs (R64 W) <= Wm -> Wm <= 62800 -> Wm + 5 <= 628 * (10 * IZR S - h0 - h1 - 0.001) -> 0 <= h0 -> 0 <= h1 ->
  500 <= Vm <= 628.332 - (21.44 + 1.29 * IZR S + 0.055 * IZR S ^ 2) -> sun_rho S <= rho -> earth_K S <= K -> IZR (etail S 10) / 10000000000 + 2.1e-9 <= tau ->
  mean_dev S + 1e-9 <= e0 -> e0 + tau <= 1 -> e0 + tau + 3e-9 <= Vm * h0 -> tau + rho * h0 + K * h0 ^ 2 + 3e-9 <= e1 -> e1 <= 0.9 -> e1 + 2.1e-9 + 3e-9 <= Vm * h1 ->
  2.1e-9 + rho * h1 + K * h1 ^ 2 + 3e-9 <= e2 -> 0 <= rho -> 0 <= K ->
  exists v, S_aLon_t fsin fcos XL0 W = Some v /\ ok v /\ Rabs (R64 v) <= 10 * IZR S - 0.001 /\ Rabs (R64 W - sun_longitude (R64 v)) <= e2.
Proof.
  intros HS BW Wm1 Wm2 Ph0 Ph1 HV Hrho HK Ht He0 Hes Hh0 He1 He1' Hh1 He2 R0 K0. assert (S1 : 0 <= IZR S <= 10) by (split; apply IZR_le; lia).
  destruct (sun_first_near ltac:(lra)) as [O0 A0]. unfold S_aLon_t. fold sun_first. cbv zeta.
  set (t0 := sun_first) in *. clearbody t0. set (T0 := R64 t0) in *.
  assert (M0 : Rabs (R64 W - sun_mean T0) <= 1e-9).
  { unfold sun_mean. replace (R64 W - (1.75347 + PI + 628.3319653318 * T0)) with (- 628.3319653318 * (T0 - (R64 W - 1.75347 - PI) / 628.3319653318)) by (decs; field).
    assert (X := prod_le (- 628.3319653318) _ 628.3319653318 _ ltac:(decs; apply Rabs_le; lra) A0). revert X. decs. lra. }
  assert (B0 : 628 * Rabs T0 <= Wm + 5).
  { revert M0. unfold sun_mean. decs. intros M0. apply Rabs_le_inv in M0. apply Rabs_le_inv in BW. pose proof PI_bounds as P. revert P. decs. intros P. unfold Rabs. destruct (Rcase_abs T0); lra. }
  assert (D1 : 0 < 0.001) by (decs; lra). assert (B0' : Rabs T0 <= 10 * IZR S - h0 - h1 - 0.001) by (apply Rmult_le_reg_l with 628; lra). assert (B0S : Rabs T0 <= 10 * IZR S) by lra. assert (B0h : Rabs T0 <= 100) by lra.
  assert (D0 : Rabs (R64 W - sun_longitude T0) <= e0).
  { replace (R64 W - sun_longitude T0) with ((R64 W - sun_mean T0) + (sun_mean T0 - sun_longitude T0)) by ring. apply Rle_trans with (1 := sum_le _ _ _ _ M0 (sun_dev S T0 HS B0S)). lra. }
  (* first step *)
  destruct (slon_near fsin fcos Gs Gc XL0 rest H0 HR t0 O0 B0h 10 ltac:(lia)) as (L0 & EL & (OL & NL & _)). rewrite EL. cbn [obind]. fold T0 in NL.
  destruct (Ev_near fsin fcos Gs Gc t0 O0 B0h) as [Ov Nv]. fold T0 in Nv. pose proof (speed_range S T0 HS B0S) as SR.
  assert (SQ : 0 <= IZR S ^ 2 <= 10 ^ 2) by (split; [apply pow2_ge_0|apply pow_incr; lra]). assert (SB : 0 <= 1.29 * IZR S + 0.055 * IZR S ^ 2 <= 18.5) by (decs; lra).
  assert (V500 : 500 <= earth_speed T0 <= 10000). { revert SR HV SB. decs. intros. lra. }
  assert (TL : Rabs (R64 L0 - sun_longitude T0) <= tau).
  { unfold sun_longitude. pose proof (earth_tail S 10 T0 B0S) as ET. revert Ht. set (q := IZR (etail S 10) / 10000000000) in *. clearbody q. intros Ht.
    replace (R64 L0 - (earth_full T0 + nut_lon T0 + sun_aberration T0 + PI)) with ((R64 L0 - (earth_n 10 T0 + nut_lon T0 + sun_aberration T0 + PI)) + (earth_n 10 T0 - earth_full T0)) by ring.
    apply Rle_trans with (1 := sum_le _ _ _ _ NL ET). lra. }
  assert (WL : Rabs (R64 W - R64 L0) <= e0 + tau).
  { replace (R64 W - R64 L0) with ((R64 W - sun_longitude T0) - (R64 L0 - sun_longitude T0)) by ring. apply diff_le; assumption. }
  destruct (newton t0 W L0 _ (earth_speed T0) O0 OW OL Ov B0h ltac:(lra) ltac:(revert Nv; decs; lra) V500) as [O1 N1]. fold T0 in N1.
  set (t1 := fadd t0 (fdiv (fsub W L0) (E_v fsin t0))) in *. clearbody t1. set (T1 := R64 t1) in *.
  assert (Vh : Vm * h0 <= earth_speed T0 * h0) by (apply Rmult_le_compat_r; lra).
  assert (Ph : Rabs (T1 - T0) <= h0).
  { apply Rmult_le_reg_l with (earth_speed T0); [lra|]. rewrite <- (Rabs_pos_eq (earth_speed T0)) at 1 by lra. rewrite <- Rabs_mult.
    replace (earth_speed T0 * (T1 - T0)) with ((earth_speed T0 * (T1 - T0) - (R64 W - R64 L0)) + (R64 W - R64 L0)) by ring. apply Rle_trans with (1 := sum_le _ _ _ _ N1 WL). lra. }
  assert (B1' : Rabs T1 <= 10 * IZR S - h1 - 0.001). { replace T1 with (T0 + (T1 - T0)) by ring. apply Rle_trans with (1 := sum_le _ _ _ _ B0' Ph). lra. }
  assert (B1S : Rabs T1 <= 10 * IZR S) by lra. assert (B1h : Rabs T1 <= 100) by lra.
  pose proof (sun_step S T0 T1 HS B0S B1S) as ST1.
  assert (ST1' : Rabs (sun_longitude T1 - sun_longitude T0 - earth_speed T0 * (T1 - T0)) <= rho * Rabs (T1 - T0) + K * (T1 - T0) ^ 2 + 0).
  { apply Rle_trans with (1 := ST1). apply Rplus_le_compat_r. apply Rplus_le_compat; apply Rmult_le_compat_r; try assumption; [apply Rabs_pos|apply pow2_ge_0]. }
  destruct (residual sun_longitude T0 T1 (R64 W) (R64 L0) (earth_speed T0) rho K tau 0 ST1' ltac:(lra) R0 K0 N1 TL h0 ltac:(lra)) as [_ D1a].
  assert (D1' : Rabs (R64 W - sun_longitude T1) <= e1) by lra. clear D1a ST1 ST1' Vh SR TL WL N1 Nv Ov NL EL OL V500.
  (* second step *)
  destruct (slon_near fsin fcos Gs Gc XL0 rest H0 HR t1 O1 B1h (-1) ltac:(lia)) as (L1 & EL & (OL & NL & _)). rewrite EL. cbn [obind]. fold T1 in NL. rewrite full_earth_n in NL by lia. fold (sun_longitude T1) in NL.
  destruct (Ev_near fsin fcos Gs Gc t1 O1 B1h) as [Ov Nv]. fold T1 in Nv. pose proof (speed_range S T1 HS B1S) as SR.
  assert (V500 : 500 <= earth_speed T1 <= 10000). { revert SR HV SB. decs. intros. lra. }
  assert (WL : Rabs (R64 W - R64 L1) <= e1 + 2.1e-9).
  { replace (R64 W - R64 L1) with ((R64 W - sun_longitude T1) - (R64 L1 - sun_longitude T1)) by ring. apply diff_le; assumption. }
  destruct (newton t1 W L1 _ (earth_speed T1) O1 OW OL Ov B1h ltac:(revert WL; decs; lra) ltac:(revert Nv; decs; lra) V500) as [O2 N2]. fold T1 in N2.
  set (t2 := fadd t1 (fdiv (fsub W L1) (E_v fsin t1))) in *. clearbody t2. set (T2 := R64 t2) in *.
  assert (Vh : Vm * h1 <= earth_speed T1 * h1) by (apply Rmult_le_compat_r; lra).
  assert (Ph' : Rabs (T2 - T1) <= h1).
  { apply Rmult_le_reg_l with (earth_speed T1); [lra|]. rewrite <- (Rabs_pos_eq (earth_speed T1)) at 1 by lra. rewrite <- Rabs_mult.
    replace (earth_speed T1 * (T2 - T1)) with ((earth_speed T1 * (T2 - T1) - (R64 W - R64 L1)) + (R64 W - R64 L1)) by ring. apply Rle_trans with (1 := sum_le _ _ _ _ N2 WL). lra. }
  assert (B2' : Rabs T2 <= 10 * IZR S - 0.001). { replace T2 with (T1 + (T2 - T1)) by ring. apply Rle_trans with (1 := sum_le _ _ _ _ B1' Ph'). lra. } assert (B2S : Rabs T2 <= 10 * IZR S) by lra.
  pose proof (sun_step S T1 T2 HS B1S B2S) as ST2.
  assert (ST2' : Rabs (sun_longitude T2 - sun_longitude T1 - earth_speed T1 * (T2 - T1)) <= rho * Rabs (T2 - T1) + K * (T2 - T1) ^ 2 + 0).
  { apply Rle_trans with (1 := ST2). apply Rplus_le_compat_r. apply Rplus_le_compat; apply Rmult_le_compat_r; try assumption; [apply Rabs_pos|apply pow2_ge_0]. }
  destruct (residual sun_longitude T1 T2 (R64 W) (R64 L1) (earth_speed T1) rho K 2.1e-9 0 ST2' ltac:(lra) R0 K0 N2 NL h1 ltac:(lra)) as [_ D2].
  exists t2. split; [reflexivity|]. split; [exact O2|]. split; [exact B2'|]. fold T2. lra.
Qed.
End Lib.

(** ** the longitude grows steadily, so the moment is unique *)
Definition slope_dev (S : Z) : R := (group_rho S 0 (skipn 1 EL0) + group_rho S 1 (skipn 1 EL1) + group_rho S 2 EL2 + group_rho S 3 EL3 + group_rho S 4 EL4 + group_rho S 5 EL5) / 100000000000 + 0.0425.
Lemma sun_slope S t t' : (0 <= S <= 10)%Z -> Rabs t <= 10 * IZR S -> Rabs t' <= 10 * IZR S -> Rabs (sun_longitude t' - sun_longitude t - 628.33196674749 * (t' - t)) <= slope_dev S * Rabs (t' - t).
Proof.
  intros HS B B'. assert (S1 : 0 <= IZR S <= 10) by (split; apply IZR_le; lia). unfold sun_longitude. rewrite !earth_full_is.
  pose proof (nut_lip t t' ltac:(lra) ltac:(lra)) as N. pose proof (sun_ab_lip t t' ltac:(lra) ltac:(lra)) as A.
  set (s := t / 10) in *. set (s' := t' / 10) in *. assert (Et : t = 10 * s) by (unfold s; field). assert (Et' : t' = 10 * s') by (unfold s'; field).
  assert (Bs : Rabs s <= IZR S) by (apply Rabs_le_inv in B; apply Rabs_le; lra). assert (Bs' : Rabs s' <= IZR S) by (apply Rabs_le_inv in B'; apply Rabs_le; lra).
  clearbody s s'. subst t t'. assert (S2 : (0 <= S)%Z) by lia.
  pose proof (pows_lip S 0 (skipn 1 EL0) s s' S2 Bs Bs') as G0. pose proof (pows_lip S 1 (skipn 1 EL1) s s' S2 Bs Bs') as G1. pose proof (pows_lip S 2 EL2 s s' S2 Bs Bs') as G2.
  pose proof (pows_lip S 3 EL3 s s' S2 Bs Bs') as G3. pose proof (pows_lip S 4 EL4 s s' S2 Bs Bs') as G4. pose proof (pows_lip S 5 EL5 s s' S2 Bs Bs') as G5.
  pose proof (fix_lip s s' (Rle_trans _ _ _ Bs (proj2 S1)) (Rle_trans _ _ _ Bs' (proj2 S1))) as F.
  rewrite !el0', !el1'. unfold slope_dev. fold (group_rho S 0 (skipn 1 EL0)) in G0. fold (group_rho S 1 (skipn 1 EL1)) in G1. fold (group_rho S 2 EL2) in G2.
  fold (group_rho S 3 EL3) in G3. fold (group_rho S 4 EL4) in G4. fold (group_rho S 5 EL5) in G5.
  replace (10 * s' - 10 * s) with (10 * (s' - s)) in * by ring. rewrite Rabs_mult, (Rabs_pos_eq 10) in * by lra.
  rewrite pow_O, !Rmult_1_l in G0. rewrite !pow_1 in G1.
  assert (Q := sum_le _ _ _ _ (sum_le _ _ _ _ (sum_le _ _ _ _ (sum_le _ _ _ _ (sum_le _ _ _ _ G0 G1) G2) G3) G4) G5). clear G0 G1 G2 G3 G4 G5.
  match type of Q with Rabs ?x <= ?y => match type of F with Rabs ?f <= _ => match type of N with Rabs ?n <= _ => match type of A with Rabs ?a <= _ =>
    match goal with |- Rabs ?z <= _ => replace z with (x * / 10000000000 + f + n + a) by (decs; field) end end end end end.
  apply Rle_trans with (1 := sum_le _ _ _ _ (sum_le _ _ _ _ (sum_le _ _ _ _ (prod_le _ _ _ _ Q (Rle_refl _)) F) N) A). rewrite (Rabs_pos_eq (/ 10000000000)) by lra.
  pose proof (Rabs_pos (s' - s)). decs. lra.
Qed.
Lemma ws_cont l : continuity (ws l).
Proof.
  induction l as [|w l IH].
  - apply (continuity_const (ws [])). intros x y. reflexivity.
  - change (continuity (fun t => IZR (wa w) * cos (ph w t) + ws l t)). apply continuity_plus; [|exact IH]. apply (continuity_scal (fun t => cos (ph w t))).
    apply (continuity_comp (ph w) cos); [|apply continuity_cos]. unfold ph. reg.
Qed.
Lemma scaled_cont l : continuity (fun t => ws l (t / 10)).
Proof. apply (continuity_comp (fun t => t / 10) (ws l)); [reg|apply ws_cont]. Qed.
Lemma sun_cont : continuity sun_longitude.
Proof.
  unfold sun_longitude. apply continuity_plus; [|apply continuity_const; intros ? ?; reflexivity]. apply continuity_plus; [apply continuity_plus|].
  - unfold earth_full, earth_lon, earth_terms6, earth_fix, arcsec.
    assert (C0 := scaled_cont (firstn 186 EL0)). assert (C1 := scaled_cont (firstn 114 EL1)). assert (C2 := scaled_cont (firstn 60 EL2)). assert (C3 := scaled_cont (firstn 8 EL3)). assert (C4 := scaled_cont (firstn 4 EL4)). assert (C5 := scaled_cont (firstn 4 EL5)).
    apply continuity_plus; [|reg].
    apply (continuity_mult (fun t => _ + _) (fun t => / 10000000000)); [|apply continuity_const; intros ? ?; reflexivity].
    do 5 (apply continuity_plus; [|first [apply (continuity_mult (fun t => t / 10)); [reg|assumption]|apply (continuity_mult (fun t => (t / 10) ^ _)); [reg|assumption]]]). exact C0.
  - unfold nut_lon, arcsec, nutation_terms, nut_arg. cbn [map sum fold_right fst snd]. reg.
  - unfold sun_aberration, arcsec. reg.
Qed.
Lemma sun_root S v W e : (0 <= S <= 10)%Z -> Rabs v <= 10 * IZR S - 0.001 -> slope_dev S <= 44.3 -> Rabs (W - sun_longitude v) <= e -> 0 < e <= 0.1 ->
  forall d, e <= (628.33 - slope_dev S) * d -> d <= 0.001 ->
  exists r, sun_longitude r = W /\ Rabs (v - r) <= d /\ forall r', Rabs r' <= 10 * IZR S -> sun_longitude r' = W -> r' = r.
Proof.
  intros HS B L E He d Hd Hd'. assert (D1 : 0 < 0.001) by (decs; lra). assert (P : 0 < 628.33 - slope_dev S) by (revert L; decs; lra).
  assert (d0 : 0 < d) by (apply Rmult_lt_reg_l with (628.33 - slope_dev S); [exact P|lra]). apply Rabs_le_inv in B. apply Rabs_le_inv in E.
  assert (BV : Rabs v <= 10 * IZR S) by (apply Rabs_le; lra). assert (BM : Rabs (v - d) <= 10 * IZR S) by (apply Rabs_le; lra). assert (BP : Rabs (v + d) <= 10 * IZR S) by (apply Rabs_le; lra).
  pose proof (sun_slope S v (v - d) HS BV BM) as SM. pose proof (sun_slope S v (v + d) HS BV BP) as SP.
  replace (v - d - v) with (- d) in SM by ring. replace (v + d - v) with d in SP by ring. rewrite Rabs_Ropp in SM. rewrite (Rabs_pos_eq d) in SM, SP by lra. apply Rabs_le_inv in SM. apply Rabs_le_inv in SP.
  assert (XX : 628.33196674749 * d = 628.33 * d + 0.00196674749 * d) by (decs; field). assert (X1 : 0 < 0.00196674749 * d) by (apply Rmult_lt_0_compat; [decs; lra|exact d0]).
  rewrite Rmult_minus_distr_r in Hd. replace (628.33196674749 * - d) with (- (628.33196674749 * d)) in SM by ring.
  destruct (IVT (fun x => sun_longitude x - W) (v - d) (v + d)) as (r & (R1 & R2) & Er).
  - apply continuity_minus; [apply sun_cont|apply continuity_const; intros ? ?; reflexivity].
  - lra.
  - lra.
  - lra.
  - exists r. split; [lra|]. split; [apply Rabs_le; lra|]. intros r' B' E'. assert (BR : Rabs r <= 10 * IZR S) by (apply Rabs_le; lra).
    pose proof (sun_slope S r r' HS BR B') as SS. rewrite E' in SS. replace (sun_longitude r) with W in SS by lra.
    destruct (Req_dec r' r) as [Q|Q]; [exact Q|exfalso]. assert (NZ : 0 < Rabs (r' - r)) by (apply Rabs_pos_lt; lra).
    replace (W - W - 628.33196674749 * (r' - r)) with (- (628.33196674749 * (r' - r))) in SS by ring. rewrite Rabs_Ropp, Rabs_mult, (Rabs_pos_eq 628.33196674749) in SS by (decs; lra).
    assert (0 < (628.33196674749 - slope_dev S) * Rabs (r' - r)) by (apply Rmult_lt_0_compat; [revert L; decs; lra|exact NZ]). lra.
Qed.
Lemma etail3 : etail 3 10 = 1701532%Z. Proof. vm_compute. reflexivity. Qed.
Lemma etail10 : etail 10 10 = 16908143%Z. Proof. vm_compute. reflexivity. Qed.
Lemma dev3 : mean_dev 3 <= 0.0480499. Proof. unfold mean_dev. numbers. lra. Qed.
Lemma dev10 : mean_dev 10 <= 0.1361999. Proof. unfold mean_dev. numbers. lra. Qed.
Lemma slope3 : slope_dev 3 <= 26.6. Proof. unfold slope_dev. numbers. lra. Qed.
Lemma slope10 : slope_dev 10 <= 44.25. Proof. unfold slope_dev. numbers. lra. Qed.

(** C90: S_aLon_t finds the moment of the longitude W.  Within 30 centuries of J2000 the longitude at the moment returned differs from
    W by at most 4e-7 (0.08 arc seconds), there is exactly one moment at which the series reach W, and the one returned is within 2.2 seconds of it;
    within 100 centuries, 2.66e-5 and 145 seconds. *)
Definition second : R := / (36525 * 86400).
Theorem C90_sun fsin fcos XL0 rest W : good_lib fsin sin -> good_lib fcos cos -> nth_error XL0 0 = Some (memory (earth_table rest)) -> length rest = 1518%nat -> ok W ->
  (Rabs (R64 W) <= 18780 -> exists v r, S_aLon_t fsin fcos XL0 W = Some v /\ ok v /\ Rabs (R64 v) <= 30 /\ Rabs (R64 W - sun_longitude (R64 v)) <= 4e-7 /\
     sun_longitude r = R64 W /\ Rabs r <= 30 /\ Rabs (R64 v - r) <= 2.2 * second /\ forall r', Rabs r' <= 30 -> sun_longitude r' = R64 W -> r' = r) /\
  (Rabs (R64 W) <= 62790 -> exists v r, S_aLon_t fsin fcos XL0 W = Some v /\ ok v /\ Rabs (R64 v) <= 100 /\ Rabs (R64 W - sun_longitude (R64 v)) <= 2.66e-5 /\
     sun_longitude r = R64 W /\ Rabs r <= 100 /\ Rabs (R64 v - r) <= 145 * second /\ forall r', Rabs r' <= 100 -> sun_longitude r' = R64 W -> r' = r).
Proof.
  intros Gs Gc H0 HR OW. split; intros BW.
  - pose proof earth_rho3 as R3. pose proof earth_K3 as K3. pose proof dev3 as D3. pose proof slope3 as L3.
    destruct (sun_search fsin fcos Gs Gc XL0 rest H0 HR W OW 3 18780 602.5 0.78 8300 0.0001702 0.0481 0.000081 0.00029 0.00000049 4e-7) as (v & E & O & B & D); try (unfold sun_rho; rewrite ?etail3; revert R3 K3 D3; decs; lra || lia).
    destruct (sun_root 3 (R64 v) (R64 W) 4e-7 ltac:(lia) B ltac:(revert L3; decs; lra) D ltac:(decs; lra) (2.2 * second)) as (r & R1 & R2 & R3').
    + unfold second. revert L3. decs. lra.
    + unfold second. decs. lra.
    + exists v, r. replace (10 * 3) with 30 in * by ring. assert (0 < 0.001) by (decs; lra). split; [exact E|]. split; [exact O|]. split; [lra|]. split; [exact D|]. split; [exact R1|]. split; [|split; [exact R2|exact R3']]. assert (SS : 145 * second <= 0.001) by (unfold second; decs; lra). assert (S0 : 0 < second) by (unfold second; lra). replace r with (R64 v - (R64 v - r)) by ring. apply Rle_trans with (1 := diff_le _ _ _ _ B R2). revert SS S0. decs. lra.
  - pose proof earth_rho10 as R3. pose proof earth_K10 as K3. pose proof dev10 as D3. pose proof slope10 as L3.
    destruct (sun_search fsin fcos Gs Gc XL0 rest H0 HR W OW 10 62790 588.4 4.45 12700 0.001691 0.1362 0.000236 0.00345 0.00000587 2.66e-5) as (v & E & O & B & D); try (unfold sun_rho; rewrite ?etail10; revert R3 K3 D3; decs; lra || lia).
    destruct (sun_root 10 (R64 v) (R64 W) 2.66e-5 ltac:(lia) B ltac:(revert L3; decs; lra) D ltac:(decs; lra) (145 * second)) as (r & R1 & R2 & R3').
    + unfold second. revert L3. decs. lra.
    + unfold second. decs. lra.
    + exists v, r. replace (10 * 10) with 100 in * by ring. assert (0 < 0.001) by (decs; lra). split; [exact E|]. split; [exact O|]. split; [lra|]. split; [exact D|]. split; [exact R1|]. split; [|split; [exact R2|exact R3']]. assert (SS : 145 * second <= 0.001) by (unfold second; decs; lra). assert (S0 : 0 < second) by (unfold second; lra). replace r with (R64 v - (R64 v - r)) by ring. apply Rle_trans with (1 := diff_le _ _ _ _ B R2). revert SS S0. decs. lra.
Qed.
