(** Date-times: accuracy of toJD and of the round trip. *)
From Coq Require Import ZArith Reals Lia Lra Bool List.
From Coq Require Import Floats.SpecFloat.
From Flocq Require Import Core IEEE754.BinarySingleNaN.
From Verif Require Import F64 F64R F64T CalModel CalSpec CalZ CalZ2 CalProof CalProof2.
Open Scope R_scope.
Ltac Zify.zify_post_hook ::= idtac.

Definition clock_ok (r : Date) : Prop :=
  (0 <= h r < 24)%Z /\ (0 <= m r < 60)%Z /\ ok (s r) /\ 0 <= R64 (s r) < 60.

Lemma day_frac_ok r : clock_ok r ->
  ok (day_frac r) /\ Rabs (R64 (day_frac r) - clock r / 86400) <= bpow radix2 (-52) /\ 0 <= R64 (day_frac r) <= 1.
Proof.
  intros (Bh & Bm & Os & Bs). unfold day_frac, clock.
  destruct (fZ_ok 60) as [O60 E60]; [lia|]. destruct (fZ_ok 24) as [O24 E24]; [lia|].
  destruct (fZ_ok (h r)) as [Oh Eh]; [lia|]. destruct (fZ_ok (m r)) as [Om Em]; [lia|].
  assert (Rh : 0 <= IZR (h r) <= 23) by (split; apply IZR_le; lia).
  assert (Rm : 0 <= IZR (m r) <= 59) by (split; apply IZR_le; lia).
  set (S := R64 (s r)) in *. set (H := IZR (h r)) in *. set (MM := IZR (m r)) in *.
  assert (P0 := repr_0). assert (P1 : repr 1) by (apply (repr_IZR 1); lia).
  assert (P60 : repr 60) by (apply (repr_IZR 60); lia). assert (P24 : repr 24) by (apply (repr_IZR 24); lia).
  assert (BIG : forall x, Rabs x <= 100 -> Rabs x <= bpow radix2 1000).
  { intros x Hx. apply Rabs_small with 100; [easy|small]. }
  (* s/60 *)
  destruct (fdiv_ok (s r) (fZ 60)) as [O1 E1]; try assumption.
  { rewrite E60. lra. } { fold S. rewrite E60. apply BIG. apply Rabs_le. lra. }
  fold S in E1. rewrite E60 in E1. set (x1 := fdiv (s r) (fZ 60)) in *.
  assert (B1 : 0 <= R64 x1 <= 1). { rewrite E1. split; [apply rnd_ge_repr; [easy|lra] | apply rnd_le_repr; [easy|lra]]. }
  assert (D1 : Rabs (R64 x1 - S / 60) <= bpow radix2 (0 - 54)).
  { rewrite E1. apply rnd_err; [lia|]. change (bpow radix2 0) with 1. apply Rabs_le. lra. }
  (* + m *)
  destruct (fadd_ok x1 (fZ (m r))) as [O2 E2]; try assumption. { rewrite Em. fold MM. apply BIG. apply Rabs_le. lra. }
  rewrite Em in E2. fold MM in E2. set (x2 := fadd x1 (fZ (m r))) in *.
  assert (B2 : 0 <= R64 x2 <= 60). { rewrite E2. split; [apply rnd_ge_repr; [easy|lra] | apply rnd_le_repr; [easy|lra]]. }
  assert (D2 : Rabs (R64 x2 - (R64 x1 + MM)) <= bpow radix2 (6 - 54)).
  { rewrite E2. apply rnd_err; [lia|]. change (bpow radix2 6) with 64. apply Rabs_le. lra. }
  (* / 60 *)
  destruct (fdiv_ok x2 (fZ 60)) as [O3 E3]; try assumption.
  { rewrite E60. lra. } { rewrite E60. apply BIG. apply Rabs_le. lra. }
  rewrite E60 in E3. set (x3 := fdiv x2 (fZ 60)) in *.
  assert (B3 : 0 <= R64 x3 <= 1). { rewrite E3. split; [apply rnd_ge_repr; [easy|lra] | apply rnd_le_repr; [easy|lra]]. }
  assert (D3 : Rabs (R64 x3 - R64 x2 / 60) <= bpow radix2 (0 - 54)).
  { rewrite E3. apply rnd_err; [lia|]. change (bpow radix2 0) with 1. apply Rabs_le. lra. }
  (* + h *)
  destruct (fadd_ok x3 (fZ (h r))) as [O4 E4]; try assumption. { rewrite Eh. fold H. apply BIG. apply Rabs_le. lra. }
  rewrite Eh in E4. fold H in E4. set (x4 := fadd x3 (fZ (h r))) in *.
  assert (B4 : 0 <= R64 x4 <= 24). { rewrite E4. split; [apply rnd_ge_repr; [easy|lra] | apply rnd_le_repr; [easy|lra]]. }
  assert (D4 : Rabs (R64 x4 - (R64 x3 + H)) <= bpow radix2 (5 - 54)).
  { rewrite E4. apply rnd_err; [lia|]. change (bpow radix2 5) with 32. apply Rabs_le. lra. }
  (* / 24 *)
  destruct (fdiv_ok x4 (fZ 24)) as [O5 E5]; try assumption.
  { rewrite E24. lra. } { rewrite E24. apply BIG. apply Rabs_le. lra. }
  rewrite E24 in E5. set (x5 := fdiv x4 (fZ 24)) in *.
  assert (B5 : 0 <= R64 x5 <= 1). { rewrite E5. split; [apply rnd_ge_repr; [easy|lra] | apply rnd_le_repr; [easy|lra]]. }
  assert (D5 : Rabs (R64 x5 - R64 x4 / 24) <= bpow radix2 (0 - 54)).
  { rewrite E5. apply rnd_err; [lia|]. change (bpow radix2 0) with 1. apply Rabs_le. lra. }
  split; [exact O5|]. split; [|exact B5].
  change (bpow radix2 (0 - 54)) with (/ 18014398509481984) in *.
  change (bpow radix2 (6 - 54)) with (/ 281474976710656) in *.
  change (bpow radix2 (5 - 54)) with (/ 562949953421312) in *.
  change (bpow radix2 (-52)) with (/ 4503599627370496) in *.
  apply Rabs_le_inv in D1, D2, D3, D4, D5. apply Rabs_le. lra.
Qed.

(** the true instant of a date-time, as a real Julian day *)
Definition instant (n : Z) (r : Date) : R := IZR n - / 2 + clock r / 86400.

Lemma toJD_instant date k : real_date (dateof date) -> date_in_range (dateof date) -> clock_ok date ->
  (12 <= k <= 31)%Z -> (Z.abs (jdn (dateof date)) <= 2 ^ k - 1)%Z ->
  exists x, toJD date = Some x /\ ok x /\ Rabs (R64 x - instant (jdn (dateof date)) date) <= bpow radix2 (k - 53).
Proof.
  intros R RG C Hk BJ. destruct (toJD_core date R RG) as (nn & -> & O1 & E1 & B1).
  destruct (day_frac_ok date C) as (O2 & D2 & B2). destruct lit_1524_5 as [O3 E3].
  set (n := jdn (dateof date)) in *.
  destruct (fsub_ok (day_frac date) (lit 15245 10)) as [O4 E4]; try assumption.
  { rewrite E3. apply Rabs_small with 2000; [apply Rabs_le; lra|small]. }
  rewrite E3 in E4.
  assert (D4 : Rabs (R64 (fsub (day_frac date) (lit 15245 10)) - (R64 (day_frac date) - 3049 / 2)) <= bpow radix2 (11 - 54)).
  { rewrite E4. apply rnd_err; [lia|]. change (bpow radix2 11) with 2048. apply Rabs_le. lra. }
  set (t := fsub (day_frac date) (lit 15245 10)) in *.
  change (bpow radix2 (11 - 54)) with (/ 8796093022208) in D4. change (bpow radix2 (-52)) with (/ 4503599627370496) in D2.
  apply Rabs_le_inv in D2, D4.
  assert (BN : 0 <= IZR (n + 1524) <= 2147483647) by (split; apply IZR_le; lia).
  destruct (fadd_ok nn t) as [O5 E5]; try assumption.
  { rewrite E1. apply Rabs_small with (IZR (2 ^ 33)); [apply Rabs_le; lra|small]. }
  exists (fadd nn t). split; [reflexivity|]. split; [exact O5|].
  assert (BK : - (bpow radix2 k - 1) <= IZR n <= bpow radix2 k - 1).
  { assert (P : bpow radix2 k = IZR (2 ^ k)) by (symmetry; apply (IZR_Zpower radix2 k); lia). rewrite P.
    rewrite <- minus_IZR, <- opp_IZR. split; apply IZR_le; lia. }
  rewrite plus_IZR in *.
  assert (D5 : Rabs (R64 (fadd nn t) - (IZR n + 1524 + R64 t)) <= bpow radix2 (k - 54)).
  { rewrite E5, E1. apply rnd_err; [lia|]. apply Rabs_le. lra. }
  assert (K1 : bpow radix2 (12 - 54) <= bpow radix2 (k - 54)) by (apply bpow_le; lia).
  change (bpow radix2 (12 - 54)) with (/ 4398046511104) in K1.
  assert (K2 : bpow radix2 (k - 53) = 2 * bpow radix2 (k - 54)).
  { replace (k - 53)%Z with (1 + (k - 54))%Z by lia. now rewrite bpow_plus. }
  rewrite K2. apply Rabs_le_inv in D5. unfold instant. apply Rabs_le. lra.
Qed.

(** accuracy of jd + 0.5 *)
Lemma half_up_err jd k : (0 <= k <= 32)%Z -> Rabs (R64 jd + / 2) <= bpow radix2 k ->
  Rabs (half_up jd - (R64 jd + / 2)) <= bpow radix2 (k - 54).
Proof. intros Hk H. apply rnd_err; [lia|easy]. Qed.

Lemma setFromJD_instant jd k : ok jd -> (8 <= k <= 31)%Z ->
  -2147483648 <= R64 jd <= 2147429998 -> Rabs (R64 jd + / 2) <= bpow radix2 k ->
  exists r n, setFromJD jd = Some r /\ dateof r = cal n /\ clock_ok r /\ Rabs (instant n r - R64 jd) <= bpow radix2 (k - 53) /\
    n = Zfloor (half_up jd).
Proof.
  intros O Hk BJ BK. pose proof (half_up_err jd k ltac:(lia) BK) as E.
  assert (KK : bpow radix2 (k - 54) <= bpow radix2 (31 - 54)) by (apply bpow_le; lia).
  change (bpow radix2 (31 - 54)) with (/ 8388608) in KK. apply Rabs_le_inv in E.
  assert (L := Zfloor_lb (half_up jd)). assert (U := Zfloor_ub (half_up jd)).
  set (n := Zfloor (half_up jd)) in *.
  assert (Bn : (-2147483648 <= n <= 2147430000)%Z).
  { split.
    - assert (-2147483649 < n)%Z; [|lia]. apply lt_IZR. lra.
    - apply le_IZR. lra. }
  destruct (setFromJD_ok jd O Bn) as (r & E1 & E2 & B1 & B2 & O3 & B3 & E3).
  { change (bpow radix2 32) with 4294967296. apply Rabs_le. lra. }
  exists r, n. repeat split; try assumption; try lia; try lra; try apply O3.
  fold n in E3. unfold instant.
  assert (K1 : bpow radix2 (8 - 54) <= bpow radix2 (k - 54)) by (apply bpow_le; lia).
  change (bpow radix2 (8 - 54)) with (/ 70368744177664) in K1. change (bpow radix2 (-34)) with (/ 17179869184) in E3.
  assert (K2 : bpow radix2 (k - 53) = 2 * bpow radix2 (k - 54)).
  { replace (k - 53)%Z with (1 + (k - 54))%Z by lia. now rewrite bpow_plus. }
  rewrite K2. apply Rabs_le_inv in E3. apply Rabs_le. lra.
Qed.

Lemma setFromJD_noon n x : ok x -> R64 x = IZR n -> (-2147483648 <= n <= 2147429998)%Z ->
  exists r, setFromJD x = Some r /\ dateof r = cal n /\ h r = 12%Z /\ m r = 0%Z /\ R64 (s r) = 0.
Proof.
  intros O E B.
  assert (HU : half_up x = IZR (2 * n + 1) / 2).
  { unfold half_up. replace (R64 x + / 2) with (IZR (2 * n + 1) / 2) by (rewrite E, plus_IZR, mult_IZR; field).
    apply rnd_repr, repr_half. lia. }
  assert (FL : Zfloor (half_up x) = n).
  { rewrite HU. apply Zfloor_eq. rewrite plus_IZR, mult_IZR. lra. }
  assert (BR : -2147483648 <= IZR n <= 2147429998) by (split; apply IZR_le; lia).
  destruct (setFromJD_ok x O) as (r & E1 & E2 & B1 & B2 & O3 & B3 & E3).
  { rewrite FL. lia. } { rewrite E. change (bpow radix2 32) with 4294967296. apply Rabs_le. lra. }
  exists r. rewrite FL in *. split; [exact E1|]. split; [exact E2|].
  (* the clock fields, exactly *)
  unfold setFromJD in E1. destruct (add_half_ok x O) as [O4 E4].
  { rewrite E. change (bpow radix2 32) with 4294967296. apply Rabs_le. lra. }
  set (y := fadd x (lit 5 10)) in *.
  rewrite int2_ok in E1 by easy. rewrite E4, FL in E1. rewrite mk_int_in in E1 by (unfold int_min, int_max; lia).
  cbn [obind] in E1. destruct (fZ_ok n) as [O5 E5]; [lia|].
  assert (DF : R64 y - R64 (fZ n) = / 2). { rewrite E4, E5, HU, plus_IZR, mult_IZR. field. }
  destruct (fsub_ok y (fZ n)) as [O6 E6]; try assumption. { rewrite DF. apply Rabs_small with 1; [apply Rabs_le; lra|small]. }
  assert (RH : repr (/ 2)). { replace (/ 2) with (IZR 1 / 2) by lra. apply repr_half. lia. }
  rewrite DF, (rnd_repr _ RH) in E6.
  assert (HH : fsub y (fZ n) = lit 5 10).
  { destruct lit_half as [O7 E7].
    destruct (ok_B _ O6) as (b1 & Q1 & F1 & R1). destruct (ok_B _ O7) as (b2 & Q2 & F2 & R2).
    rewrite Q1, Q2. f_equal. apply B2R_Bsign_inj; try assumption.
    - rewrite R1, R2, E6, E7. lra.
    - assert (SG : forall b : binary_float 53 1024, B2R b = / 2 -> Bsign b = false).
      { intros b Hb. destruct b as [s1|s1| |s1 m1 e1 H1]; cbn [B2R] in Hb.
        - lra.
        - lra.
        - lra.
        - destruct s1; [|easy]. exfalso.
          assert (F2R (Float radix2 (Zneg m1) e1) < 0) by (apply F2R_lt_0; simpl; lia). simpl cond_Zopp in Hb. lra. }
      rewrite !SG; [easy| |]; [rewrite R2, E7; lra | now rewrite R1]. }
  rewrite HH in E1.
  assert (HM : sfj_hms (lit 5 10) = Some (12%Z, 0%Z, S754_zero false)) by vm.
  destruct (sfj_greg n) as [g|]; [|discriminate E1]. cbn [obind] in E1.
  destruct (sfj_ymd g) as [[[a b] d]|]; [|discriminate E1]. cbn [obind] in E1. rewrite HM in E1. cbn [obind] in E1.
  injection E1 as <-. repeat split.
Qed.
