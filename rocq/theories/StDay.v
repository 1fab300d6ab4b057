(** The noon nearest to a day, and the obliquity and TD - UT that St keeps for the whole day. *)
From Coq Require Import ZArith Reals Lia Lra Bool List.
From Coq Require Import Floats.SpecFloat.
From Flocq Require Import Core IEEE754.BinarySingleNaN.
From Verif Require Import F64 F64R F64T F64E Str AngModel AngProps PiBound ErrExpr FormModel FormSpec FormProps DtModel DtSpec DtProps WaveR HighR SmLon IllProps.
From Verif Require CalProof.
From Verif Require Import StModel StSpec StReal StProof StNoon.
Import ListNotations.
Open Scope R_scope.

Lemma tiny_small : tiny <= 1e-30.
Proof. unfold tiny. decs. lra. Qed.
Lemma div_one x : x / 1 = x.
Proof. field. Qed.
Lemma mod2_ok a : ok a -> Rabs (R64 a) <= 2000000 -> exists k : Z, ok (mod2 a (fZ 1)) /\ Rabs (R64 (mod2 a (fZ 1))) <= 0.5000001 /\ Rabs (R64 (mod2 a (fZ 1)) - (R64 a - IZR k)) <= 1e-14.
Proof.
  intros Oa Ba. unfold mod2. destruct (fZ_ok 1 ltac:(lia)) as [O1 E1]. pose proof (proj1 CalProof.lit_half) as O5.
  assert (V5 : R64 (lit 5 10) = 1 / 2) by exact (proj2 CalProof.lit_half).
  destruct (fdiv_ok a (fZ 1) Oa O1 ltac:(rewrite E1; lra) ltac:(rewrite E1, div_one; apply (small_1000 _ _ Ba); unfold big; lra)) as [Oc Ec].
  rewrite E1, div_one, (rnd_repr _ (repr_R64 _ Oa)) in Ec. set (c := fdiv a (fZ 1)) in *. clearbody c.
  destruct (ffloor_ok c Oc) as [Of Ef]. set (f := ffloor c) in *. clearbody f. rewrite Ec in Ef. set (n := Zfloor (R64 a)) in *.
  pose proof (Zfloor_lb (R64 a)) as L1. pose proof (Zfloor_ub (R64 a)) as L2. fold n in L1, L2.
  assert (B1 : Rabs (R64 c - R64 f) <= 1) by (rewrite Ec, Ef; apply Rabs_le; lra).
  destruct (fsub_ok c f Oc Of (small_1000 _ _ B1 ltac:(unfold big; lra))) as [Od Ed]. pose proof (rnd_close _ _ B1) as D1. rewrite <- Ed in D1. set (d := fsub c f) in *. clearbody d.
  pose proof tiny_small as TS. assert (US : u53 <= 1.2e-16) by (unfold u53; decs; lra).
  assert (D1' : Rabs (R64 d - (R64 a - IZR n)) <= 2e-16). { rewrite Ec, Ef in D1. apply Rle_trans with (1 := D1). revert TS US. decs. lra. }
  apply Rabs_le_inv in D1'. unfold fgtb; rewrite fltb_ok by assumption. rewrite V5.
  assert (E : exists k : Z, ok (if Rlt_bool (1 / 2) (R64 d) then fsub d (fZ 1) else d) /\ Rabs (R64 (if Rlt_bool (1 / 2) (R64 d) then fsub d (fZ 1) else d)) <= 0.50000001 /\ Rabs (R64 (if Rlt_bool (1 / 2) (R64 d) then fsub d (fZ 1) else d) - (R64 a - IZR k)) <= 1e-15).
  { destruct (Rlt_bool_spec (1 / 2) (R64 d)) as [G|G].
    - assert (B2 : Rabs (R64 d - R64 (fZ 1)) <= 1) by (rewrite E1; apply Rabs_le; revert D1'; decs; lra).
      destruct (fsub_ok d (fZ 1) Od O1 (small_1000 _ _ B2 ltac:(unfold big; lra))) as [Og Eg]. pose proof (rnd_close _ _ B2) as D2. rewrite <- Eg, E1 in D2. apply Rabs_le_inv in D2.
      exists (n + 1)%Z. split; [exact Og|]. rewrite plus_IZR. split; apply Rabs_le; revert D1' D2 TS US; decs; lra.
    - exists n. split; [exact Od|]. split; apply Rabs_le; revert D1'; decs; lra. }
  destruct E as (k & Og & Bg & Dg). set (g := if Rlt_bool _ _ then _ else _) in *. clearbody g. exists k.
  destruct (fmul_ok g (fZ 1) Og O1 ltac:(rewrite E1, Rmult_1_r; apply (small_1000 _ _ Bg); unfold big; decs; lra)) as [Oh Eh]. rewrite E1, Rmult_1_r, (rnd_repr _ (repr_R64 _ Og)) in Eh.
  split; [exact Oh|]. rewrite Eh. split; [revert Bg|revert Dg]; decs; lra.
Qed.
Lemma local_noon_ok fsin fcos L jd : good_lib fsin sin -> good_lib fcos cos -> ok L -> ok jd -> Rabs (R64 L) <= 7 -> Rabs (R64 jd) <= 1000000 ->
  exists n : Z, ok (local_noon L jd) /\ Rabs (R64 (local_noon L jd) - R64 jd) <= 0.501 /\ Rabs (R64 (local_noon L jd) + R64 L / (2 * PI) - IZR n) <= 1e-8.
Proof.
  intros Gs Gc OL Oj BL Bj. unfold local_noon. destruct (div_near fsin fcos Gs Gc jd L Oj OL ltac:(lra) BL) as [Oa Da]. set (a := fadd jd (fdiv L pi2)) in *. clearbody a.
  pose proof (per_turn _ _ BL) as PT. apply Rabs_le_inv in Da. apply Rabs_le_inv in PT. assert (Bj' := Bj). apply Rabs_le_inv in Bj'.
  destruct (mod2_ok a Oa ltac:(apply Rabs_le; revert Da PT; decs; lra)) as (k & Om & Bm & Dm). set (m := mod2 a (fZ 1)) in *. clearbody m.
  apply Rabs_le_inv in Dm. assert (Bm' := Bm). apply Rabs_le_inv in Bm'.
  assert (B : Rabs (R64 jd - R64 m) <= 1000001) by (apply Rabs_le; revert Bm'; decs; lra).
  destruct (fsub_ok jd m Oj Om (small_1000 _ _ B ltac:(unfold big; lra))) as [Or Er]. pose proof (rnd_close _ _ B) as D. rewrite <- Er in D. apply Rabs_le_inv in D.
  pose proof tiny_small as TS. assert (US : u53 <= 1.2e-16) by (unfold u53; decs; lra).
  exists k. split; [exact Or|]. split; apply Rabs_le; revert D Dm Bm' Da TS US; decs; lra.
Qed.
Lemma obl_abs t : Rabs t <= 27.4 -> Rabs (obliquity t) <= 0.4158.
Proof.
  intros H. pose proof PI_bounds as PB. unfold obliquity, arcsec.
  assert (P : forall k, Rabs (t ^ k) <= 27.4 ^ k) by (intros k; rewrite <- RPow_abs; apply pow_incr; split; [apply Rabs_pos|exact H]).
  pose proof (P 2%nat) as P2. pose proof (P 3%nat) as P3. pose proof (P 4%nat) as P4. pose proof (P 5%nat) as P5. clear P.
  apply Rabs_le_inv in H. apply Rabs_le_inv in P2. apply Rabs_le_inv in P3. apply Rabs_le_inv in P4. apply Rabs_le_inv in P5.
  set (x := _ - 4.34e-8 * t ^ 5). assert (X : Rabs x <= 85710) by (unfold x; apply Rabs_le; revert H P2 P3 P4 P5; generalize (t ^ 2) (t ^ 3) (t ^ 4) (t ^ 5); intros ? ? ? ?; decs; lra).
  replace (x * PI / 648000) with (x * (PI / 648000)) by (unfold Rdiv; ring). apply Rle_trans with (85710 * 0.0000048482); [|decs; lra].
  apply prod_le; [exact X|]. apply Rabs_le. revert PB. decs. lra.
Qed.
Lemma day_dt jd : ok jd -> Rabs (R64 jd) <= 1000000 -> exists dt, dt_T jd = Some dt /\ ok dt /\ Rabs (R64 dt) <= 0.348.
Proof.
  intros O B. apply Rabs_le_inv in B. destruct (C32_dt_T jd O ltac:(lra)) as (dt & y & E & Od & Y & D). exists dt. split; [exact E|]. split; [exact Od|].
  apply Rabs_le_inv in Y. apply Rabs_le_inv in D. pose proof (delta_T_near y ltac:(lra)) as N. apply Rabs_le_inv in N. apply Rabs_le. revert D N. decs. lra.
Qed.

(** the obliquity of the date serves for the four days around it *)
Lemma day_E fsin fcos jd dt : good_lib fsin sin -> good_lib fcos cos -> ok jd -> Rabs (R64 jd) <= 1000000 -> Rabs dt <= 0.348 ->
  let E := hcjj (fdiv jd (fZ 36525)) in
  ok E /\ Rabs (R64 E) <= 0.416 /\ forall s, Rabs (s - R64 jd) <= 4 -> Rabs (obliquity ((s + dt) / 36525) - R64 E) <= 1e-7.
Proof.
  intros Gs Gc Oj Bj Bd E. destruct (fZ_ok 36525 ltac:(lia)) as [O1 E1].
  assert (B1 : Rabs (R64 jd / 36525) <= 27.379). { apply Rabs_le_inv in Bj. apply Rabs_le. decs. lra. }
  destruct (fdiv_ok jd (fZ 36525) Oj O1 ltac:(rewrite E1; lra) ltac:(rewrite E1; apply (small_1000 _ _ B1); unfold big; decs; lra)) as [Ot Et]. rewrite E1 in Et. pose proof (rnd_close _ _ B1) as D. rewrite <- Et in D.
  unfold E. set (t := fdiv jd (fZ 36525)) in *. clearbody t. pose proof tiny_small as TS. assert (US : u53 <= 1.2e-16) by (unfold u53; decs; lra).
  assert (D' : Rabs (R64 t - R64 jd / 36525) <= 1e-14) by (apply Rle_trans with (1 := D); revert TS US; decs; lra). clear D.
  apply Rabs_le_inv in B1. apply Rabs_le_inv in D'. assert (Bt : Rabs (R64 t) <= 27.4) by (apply Rabs_le; revert B1 D'; decs; lra).
  destruct (C87_formulas fsin fcos Gs Gc) as [F _]. destruct (F t Ot ltac:(revert Bt; decs; lra)) as [[OE DE] _]. split; [exact OE|].
  pose proof (obl_abs _ Bt) as OA. split.
  - replace (R64 (hcjj t)) with ((R64 (hcjj t) - obliquity (R64 t)) + obliquity (R64 t)) by ring. apply Rle_trans with (1 := sum_le _ _ _ _ DE OA). decs. lra.
  - intros s Hs. apply Rabs_le_inv in Hs. apply Rabs_le_inv in Bd.
    assert (G : Rabs ((s + dt) / 36525 - R64 t) <= 0.00012) by (apply Rabs_le; revert B1 D' Hs Bd; decs; lra).
    pose proof (obl_run (R64 t) ((s + dt) / 36525) ltac:(revert Bt; decs; lra) ltac:(apply Rabs_le; apply Rabs_le_inv in G; apply Rabs_le_inv in Bt; revert G Bt; decs; lra)) as Q.
    replace (obliquity ((s + dt) / 36525) - R64 (hcjj t)) with ((obliquity ((s + dt) / 36525) - obliquity (R64 t)) - (R64 (hcjj t) - obliquity (R64 t))) by ring.
    apply Rle_trans with (1 := diff_le _ _ _ _ Q DE). revert G. decs. lra.
Qed.
