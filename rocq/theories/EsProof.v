(** The moment MS_aLon_t2 finds is within six days of the mean one. *)
From Coq Require Import ZArith Reals Lia Lra Bool List.
From Coq Require Import Floats.SpecFloat.
From Flocq Require Import Core IEEE754.BinarySingleNaN.
From Verif Require Import F64 F64R F64T F64E AngModel PiBound ErrExpr SmTab SerModel SerSpec FormModel FormSpec FormProps WaveF WaveR SmModel SmSpec SmLon SmProps SmSun SmNewton SunProps LonProps SmMoon MoonProps DtSpec QuickR HighR QuickMoonR QuickMoon TermDay.
Import ListNotations.
Open Scope R_scope.

Lemma quick_coarse fsin fcos XL1 W : good_lib fsin sin -> good_lib fcos cos -> nth_error XL1 0 = Some moon_lon_tables -> ok W -> Rabs (R64 W) <= 232900 ->
  exists t, MS_aLon_t2 fsin fcos XL1 W = Some t /\ ok t /\ Rabs (R64 t - (R64 W + 1.08472) / 7771.37714500204) <= 0.000109.
Proof.
  intros Gs Gc H1 OW B. destruct (moon_terms fsin fcos Gs Gc XL1 H1 W OW B) as (T0 & T1 & t & E & O & M0 & D1 & D2). exists t. split; [exact E|]. split; [exact O|].
  assert (M0' : Rabs (R64 W - el_mean T0) <= 2e-8) by (apply Rle_trans with (1 := M0); decs; lra).
  destruct (moon_guess (R64 W) T0 T1 ltac:(lra) M0' D1) as [B1 G]. pose proof (el_quick_far T1 B1) as QF.
  assert (RQ : Rabs (R64 W - el_quick T1) <= 0.5392).
  { replace (R64 W - el_quick T1) with ((R64 W - elongation T1) - (el_quick T1 - elongation T1)) by ring. apply Rle_trans with (1 := diff_le _ _ _ _ G QF). decs. lra. }
  assert (RQ9 : Rabs (R64 W - el_quick T1) <= 0.9) by (apply Rle_trans with (1 := RQ); decs; lra). specialize (D2 RQ9).
  pose proof (short_range T1) as SR.
  assert (S2 : Rabs (R64 t - T1) <= 0.0000828).
  { set (v := short_speed T1) in *. assert (P : Rabs (v * (R64 t - T1)) <= 0.53921).
    { replace (v * (R64 t - T1)) with ((v * (R64 t - T1) - (R64 W - el_quick T1)) + (R64 W - el_quick T1)) by ring. apply Rle_trans with (1 := sum_le _ _ _ _ D2 RQ). decs. lra. }
    rewrite Rabs_mult in P. rewrite (Rabs_pos_eq v) in P by (revert SR; decs; lra). pose proof (Rabs_pos (R64 t - T1)). revert SR P. decs. intros SR P. nra. }
  assert (WV : Rabs (moon_wave T0) <= 0.1953).
  { assert (B30 : Rabs T0 <= 30). { revert M0. unfold el_mean. decs. intros M0. apply Rabs_le_inv in M0. apply Rabs_le_inv in B. apply Rabs_le. lra. }
    unfold moon_wave. apply Rle_trans with (3.309e-5 * 30 ^ 2 + 0.10976 * 1 + 0.02224 * 1 + 0.03342 * 1); [|decs; lra].
    apply diff_le; [apply sum_le; [apply sum_le|]|]; (apply prod_le; [decs; apply Rabs_le; lra|]); [apply (powk T0 30 2 B30)|apply Rabs_le, COS_bound|apply Rabs_le, COS_bound|apply Rabs_le, COS_bound]. }
  assert (S1 : Rabs (T1 - T0) <= 0.0000252).
  { assert (P : Rabs (el_v * (T1 - T0)) <= 0.19531). { replace (el_v * (T1 - T0)) with ((el_v * (T1 - T0) + moon_wave T0) - moon_wave T0) by ring. apply Rle_trans with (1 := diff_le _ _ _ _ D1 WV). decs. lra. }
    revert P. unfold el_v. decs. intros P. apply Rabs_le_inv in P. apply Rabs_le. lra. }
  revert S1 S2 M0. unfold el_mean. decs. intros S1 S2 M0. apply Rabs_le_inv in S1, S2, M0. apply Rabs_le. lra.
Qed.
