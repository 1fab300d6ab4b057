(** The quick search for the new moon in doubles, its error, and the day of a new moon. *)
From Coq Require Import ZArith Reals Lia Lra Bool List.
From Coq Require Import Floats.SpecFloat.
From Flocq Require Import Core IEEE754.BinarySingleNaN.
From Verif Require Import F64 F64R F64T F64E AngModel PiBound ErrExpr SmTab SerModel SerSpec FormModel FormSpec FormProps WaveF WaveR SmModel SmSpec SmLon SmProps SmSun SmNewton SunProps LonProps SmMoon MoonProps DtSpec QuickR HighR QuickMoonR.
Import ListNotations.
Open Scope R_scope.

Section Lib.
Variables fsin fcos : f64 -> f64.
Hypothesis Gs : good_lib fsin sin.
Hypothesis Gc : good_lib fcos cos.
Variable XL1 : list (list (list f64)).
Hypothesis H1 : nth_error XL1 0 = Some moon_lon_tables.
Variable W : f64.
Hypothesis OW : ok W.

Lemma moon_terms : Rabs (R64 W) <= 232900 -> exists T0 T1 t2, MS_aLon_t2 fsin fcos XL1 W = Some t2 /\ ok t2 /\
  Rabs (R64 W - el_mean T0) <= 1e-8 /\ Rabs (el_v * (T1 - T0) + moon_wave T0) <= 1e-8 /\ (Rabs (R64 W - el_quick T1) <= 0.9 -> Rabs (short_speed T1 * (R64 t2 - T1) - (R64 W - el_quick T1)) <= 1e-8).
Proof.
  intros B. destruct (moon_first_near fsin fcos Gs Gc W OW ltac:(lra)) as [O0 A0]. unfold MS_aLon_t2. fold (moon_first W). cbv zeta.
  set (t0 := moon_first W) in *. clearbody t0. set (T0 := R64 t0) in *.
  assert (M0 : Rabs (R64 W - el_mean T0) <= 1e-8).
  { unfold el_mean. replace (R64 W - (- 1.08472 + 7771.37714500204 * T0)) with (- 7771.37714500204 * (T0 - (R64 W + 1.08472) / 7771.37714500204)) by (decs; field).
    assert (X := prod_le (- 7771.37714500204) _ 7771.37714500204 _ ltac:(decs; apply Rabs_le; lra) A0). revert X. decs. lra. }
  assert (B0 : Rabs T0 <= 29.98). { revert M0. unfold el_mean. decs. intros M0. apply Rabs_le_inv in M0. apply Rabs_le_inv in B. apply Rabs_le. lra. }
  assert (B30 : Rabs T0 <= 30) by (revert B0; decs; lra).
  pose proof (env1 t0 O0 30 B30) as E.
  match goal with |- context [obind (M_Lon fcos XL1 ?F 20)] =>
    assert (N1 : ok F /\ Rabs (R64 F - (T0 - moon_wave T0 / el_v)) <= 1e-12) end.
  { unfold ms_first. cbv zeta. lazymatch goal with |- ok ?F /\ Rabs (R64 ?F - ?r) <= _ =>
    let e := reify fsin fcos [t0] F in
    assert (H : ok F /\ Rabs (R64 F - r) <= IZR 1267650600228229401 * U);
    [apply (formula_ok fsin fcos Gs Gc _ _ _ e F r 1267650600228229401 E); [cbn [evF nth]; reflexivity| |vm_compute; reflexivity]; cbn [evR nth]; fold T0; unfold moon_wave, mq, el_v; decs; share; field
    |destruct H as [H1' H2]; split; [exact H1'|]; apply Rle_trans with (1 := H2); unfold U, one; decs; lra]
  end. }
  match type of N1 with ok ?F /\ _ => set (t1 := F) in *; clearbody t1 end. destruct N1 as [O1 D1]. set (T1 := R64 t1) in *.
  assert (V1 : Rabs (el_v * (T1 - T0) + moon_wave T0) <= 1e-8).
  { replace (el_v * (T1 - T0) + moon_wave T0) with (el_v * (T1 - (T0 - moon_wave T0 / el_v))) by (unfold el_v; decs; field). apply Rle_trans with (1 := prod_le el_v _ 7772 _ ltac:(unfold el_v; decs; apply Rabs_le; lra) D1). decs. lra. }
  assert (WV : Rabs (moon_wave T0) <= 0.1953).
  { unfold moon_wave. apply Rle_trans with (3.309e-5 * 30 ^ 2 + 0.10976 * 1 + 0.02224 * 1 + 0.03342 * 1); [|decs; lra].
    apply diff_le; [apply sum_le; [apply sum_le|]|]; (apply prod_le; [decs; apply Rabs_le; lra|]); [apply (powk T0 30 2 B30)|apply Rabs_le, COS_bound|apply Rabs_le, COS_bound|apply Rabs_le, COS_bound]. }
  assert (B1 : Rabs T1 <= 30).
  { replace T1 with (T0 + (el_v * (T1 - T0) + moon_wave T0) * / el_v - moon_wave T0 * / el_v) by (unfold el_v; decs; field).
    assert (IV : Rabs (/ el_v) <= / 7000) by (rewrite Rabs_pos_eq; unfold el_v; decs; lra).
    apply Rle_trans with (1 := diff_le _ _ _ _ (sum_le _ _ _ _ B0 (prod_le _ _ _ _ V1 IV)) (prod_le _ _ _ _ WV IV)). decs. lra. }
  destruct (moon_n_near fsin fcos Gs Gc XL1 H1 t1 O1 ltac:(fold T1; lra) 20 ltac:(lia)) as (m & Em & (Om & Dm & Mm)). rewrite Em. cbn [obind]. fold T1 in Dm, Mm.
  pose proof (env1 t1 O1 30 B1) as E1.
  assert (NS : ok (ms_sun fcos t1) /\ Rabs (R64 (ms_sun fcos t1) - sun_short T1) <= 1e-9).
  { unfold ms_sun, rad. lazymatch goal with |- ok ?F /\ Rabs (R64 ?F - ?r) <= _ =>
    let e := reify fsin fcos [t1] F in
    assert (H : ok F /\ Rabs (R64 F - r) <= IZR 1267650600228229401000 * U);
    [apply (formula_ok fsin fcos Gs Gc _ _ _ e F r 1267650600228229401000 E1); [cbn [evF nth]; reflexivity| |vm_compute; reflexivity]; cbn [evR nth]; fold T1; unfold sun_short, arcsec; decs; share; pose proof pi_pos; field; try assumption
    |destruct H as [H1' H2]; split; [exact H1'|]; apply Rle_trans with (1 := H2); unfold U, one; decs; lra]
  end. }
  assert (NV : ok (ms_speed fsin t1) /\ Rabs (R64 (ms_speed fsin t1) - short_speed T1) <= 1e-6).
  { unfold ms_speed. lazymatch goal with |- ok ?F /\ Rabs (R64 ?F - ?r) <= _ =>
    let e := reify fsin fcos [t1] F in
    assert (H : ok F /\ Rabs (R64 F - r) <= IZR 1267650600228229401496703 * U);
    [apply (formula_ok fsin fcos Gs Gc _ _ _ e F r 1267650600228229401496703 E1); [cbn [evF nth]; reflexivity| |vm_compute; reflexivity]; cbn [evR nth]; fold T1; unfold short_speed, mq; decs; share; field
    |destruct H as [H1' H2]; split; [exact H1'|]; apply Rle_trans with (1 := H2); unfold U, one; decs; lra]
  end. }
  destruct NS as [OS DS]. destruct NV as [OV DV]. set (sf := ms_sun fcos t1) in *. set (vf := ms_speed fsin t1) in *. clearbody sf vf.
  assert (Bs : Rabs (R64 sf) <= 19000).
  { assert (BS : Rabs (sun_short T1) <= 18999).
    { unfold sun_short. apply Rle_trans with (4.8950632 + 628.3319653318 * 30 + 5.297e-6 * 30 * 30 + 0.0334166 * 1 + 0.0002061 * 1 * 30 + 0.000349 * 1 + 20.5 / 206264); [|decs; lra].
      assert (C1 := COS_bound (4.669257 + 628.307585 * T1)). assert (C2 := COS_bound (2.67823 + 628.307585 * T1)). assert (C4 := COS_bound (4.6261 + 1256.61517 * T1)). apply Rabs_le in C1. apply Rabs_le in C2. apply Rabs_le in C4.
      apply diff_le; [|apply arcsec_le; decs; apply Rabs_le; lra]. apply sum_le; [|apply prod_le; [decs; apply Rabs_le; lra|exact C4]]. apply sum_le; [|apply prod_le; [apply prod_le; [decs; apply Rabs_le; lra|exact C2]|exact B1]].
      apply sum_le; [|apply prod_le; [decs; apply Rabs_le; lra|exact C1]]. apply sum_le; [|apply prod_le; [apply prod_le; [decs; apply Rabs_le; lra|exact B1]|exact B1]]. apply sum_le; [decs; apply Rabs_le; lra|]. apply prod_le; [decs; apply Rabs_le; lra|exact B1]. }
    replace (R64 sf) with (sun_short T1 + (R64 sf - sun_short T1)) by ring. apply Rle_trans with (1 := sum_le _ _ _ _ BS DS). decs. lra. }
  assert (Bm : Rabs (R64 m) <= 841001) by (replace (R64 m) with (moon_n 20 T1 + (R64 m - moon_n 20 T1)) by ring; apply Rle_trans with (1 := sum_le _ _ _ _ Mm Dm); decs; lra).
  destruct (fsub_ok m sf Om OS) as [OL EL]. { apply big_ok. apply Rle_trans with (1 := diff_le _ _ _ _ Bm Bs). lra. }
  assert (DL : Rabs (R64 (fsub m sf) - el_quick T1) <= 4e-9).
  { pose proof (rnd_rel (R64 m - R64 sf)) as RR. rewrite <- EL in RR. assert (D : Rabs (R64 m - R64 sf) * u53 + tiny <= 9e-10).
    { assert (Rabs (R64 m - R64 sf) * u53 <= 860001 * 1.0e-15) by (apply Rmult_le_compat; [apply Rabs_pos|unfold u53; lra|apply Rle_trans with (1 := diff_le _ _ _ _ Bm Bs); lra|unfold u53; decs; lra]). unfold tiny. revert H. decs. lra. }
    unfold el_quick. replace (R64 (fsub m sf) - (moon_n 20 T1 - sun_short T1)) with ((R64 (fsub m sf) - (R64 m - R64 sf)) + ((R64 m - moon_n 20 T1) - (R64 sf - sun_short T1))) by ring.
    apply Rle_trans with (1 := sum_le _ _ _ _ RR (diff_le _ _ _ _ Dm DS)). revert D. decs. lra. }
  set (L := fsub m sf) in *. clearbody L.
  (* the last step stays finite whatever the residual *)
  pose proof (short_range T1) as SR.
  assert (BL : Rabs (R64 W - R64 L) <= 1100000).
  { assert (BQ : Rabs (R64 L) <= 860100).
    { replace (R64 L) with ((R64 L - el_quick T1) + (moon_n 20 T1 - (sun_short T1 - R64 sf) - R64 sf)) by (unfold el_quick; ring).
      assert (DS' : Rabs (sun_short T1 - R64 sf) <= 1e-9) by (rewrite <- Rabs_Ropp; replace (- (sun_short T1 - R64 sf)) with (R64 sf - sun_short T1) by ring; exact DS).
      apply Rle_trans with (1 := sum_le _ _ _ _ DL (diff_le _ _ _ _ (diff_le _ _ _ _ Mm DS') Bs)). decs. lra. }
    apply Rle_trans with (1 := diff_le _ _ _ _ B BQ). lra. }
  assert (O2 : ok (fadd t1 (fdiv (fsub W L) vf))).
  { destruct (fsub_ok W L OW OL) as [Od Ed]; [apply big_ok; lra|]. assert (Bd : Rabs (R64 (fsub W L)) <= 1100001).
    { pose proof (rnd_rel (R64 W - R64 L)) as RR. rewrite <- Ed in RR. replace (R64 (fsub W L)) with ((R64 (fsub W L) - (R64 W - R64 L)) + (R64 W - R64 L)) by ring. apply Rle_trans with (1 := sum_le _ _ _ _ RR BL).
      assert (Rabs (R64 W - R64 L) * u53 <= 1100000 * 1.0e-15) by (apply Rmult_le_compat; [apply Rabs_pos|unfold u53; lra|exact BL|unfold u53; decs; lra]). unfold tiny. revert H. decs. lra. }
    assert (Pv : 6000 <= R64 vf) by (revert SR DV; decs; intros SR DV; apply Rabs_le_inv in DV; lra).
    set (d := fsub W L) in *. clearbody d.
    assert (Bq : Rabs (R64 d / R64 vf) <= 200). { unfold Rdiv. rewrite Rabs_mult. apply Rle_trans with (1100001 * / 6000); [|lra]. apply Rmult_le_compat; [apply Rabs_pos|apply Rabs_pos|exact Bd|]. rewrite Rabs_pos_eq; [apply Rinv_le_contravar; lra|]. apply Rlt_le, Rinv_0_lt_compat; lra. }
    destruct (fdiv_ok d vf Od OV) as [Oq Eq]; [lra|apply big_ok; lra|]. assert (Bq' : Rabs (R64 (fdiv d vf)) <= 201).
    { pose proof (rnd_rel (R64 d / R64 vf)) as RR. rewrite <- Eq in RR. replace (R64 (fdiv d vf)) with ((R64 (fdiv d vf) - R64 d / R64 vf) + R64 d / R64 vf) by ring. apply Rle_trans with (1 := sum_le _ _ _ _ RR Bq).
      assert (Rabs (R64 d / R64 vf) * u53 <= 200 * 1.0e-15) by (apply Rmult_le_compat; [apply Rabs_pos|unfold u53; lra|exact Bq|unfold u53; decs; lra]). unfold tiny. revert H. decs. lra. }
    destruct (fadd_ok t1 (fdiv d vf) O1 Oq) as [Of _]; [|exact Of]. apply big_ok. apply Rle_trans with (1 := sum_le _ _ _ _ B1 Bq'). lra. }
  exists T0, T1, (fadd t1 (fdiv (fsub W L) vf)). split; [reflexivity|]. split; [exact O2|]. split; [exact M0|]. split; [exact V1|]. intros RQ.
  assert (RL : Rabs (R64 W - R64 L) <= 1). { replace (R64 W - R64 L) with ((R64 W - el_quick T1) - (R64 L - el_quick T1)) by ring. apply Rle_trans with (1 := diff_le _ _ _ _ RQ DL). decs. lra. }
  destruct (newton t1 W L vf (short_speed T1) O1 OW OL OV ltac:(fold T1; lra) RL DV ltac:(revert SR; decs; lra)) as [_ N]. fold T1 in N.
  match type of N with Rabs (?a - _) <= _ => replace (a - (R64 W - el_quick T1)) with ((a - (R64 W - R64 L)) - (R64 L - el_quick T1)) by ring end.
  apply Rle_trans with (1 := diff_le _ _ _ _ N DL). decs. lra.
Qed.
End Lib.
