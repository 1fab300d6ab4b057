(** Proofs about the four pillars. *)
From Coq Require Import ZArith Lia Bool List Reals Lra Ascii String.
From Flocq Require Import Core.
From Verif Require Import F64 F64R F64T Str DecSpec CalModel FmtModel FmtProof SsqModel SsqSpec SsqProof SsqProof2 SsqProof3 SsqProof5 CalProof ObTab ObSpec ObModel ObProof LunSpec LunProof PageModel PageProof PageProof2 PageProof3 BaziModel.
Import ListNotations.
Ltac Zify.zify_post_hook ::= idtac.
Open Scope Z_scope.
Open Scope opt_scope.

(** ** year from the jie number *)
Lemma year_of_jie k : Z.abs k <= 2000000000 -> int2 (fadd (fdiv (fZ k) (fZ 12)) (fZ 6000000)) = Some (k / 12 + 6000000).
Proof.
  intros Hk. destruct (fZ_ok k ltac:(lia)) as [O1 V1]. destruct (fZ_ok 12 ltac:(lia)) as [O2 V2]. destruct (fZ_ok 6000000 ltac:(lia)) as [O3 V3].
  assert (RK : (-2000000000 <= IZR k <= 2000000000)%R) by (split; apply IZR_le; lia).
  destruct (fdiv_ok _ _ O1 O2) as [O4 V4]; [rewrite V2; lra|rewrite V1, V2; abs_small 200000000%R|]. rewrite V1, V2 in V4.
  pose proof (rnd_near (IZR k / 12) 28 ltac:(lia)) as R1. change (bpow radix2 28) with 268435456%R in R1. specialize (R1 ltac:(lra)).
  change (bpow radix2 (28 - 54)) with (/ 67108864)%R in R1. rewrite <- V4 in R1.
  set (q := fdiv (fZ k) (fZ 12)) in *. clearbody q.
  destruct (fadd_ok _ _ O4 O3) as [O5 V5]; [rewrite V3; abs_small 200000000%R|]. rewrite V3 in V5.
  pose proof (rnd_near (R64 q + 6000000) 28 ltac:(lia)) as R2. change (bpow radix2 28) with 268435456%R in R2. specialize (R2 ltac:(lra)).
  change (bpow radix2 (28 - 54)) with (/ 67108864)%R in R2. rewrite <- V5 in R2.
  rewrite int2_ok by exact O5.
  assert (F : Zfloor (R64 (fadd q (fZ 6000000))) = k / 12 + 6000000).
  { pose proof (Z.div_mod k 12 ltac:(lia)) as DM. pose proof (Z.mod_pos_bound k 12 ltac:(lia)) as MB. set (n := k / 12) in *. set (r := k mod 12) in *. clearbody n r.
    assert (KR : (IZR k = 12 * IZR n + IZR r)%R) by (rewrite DM, plus_IZR, mult_IZR; reflexivity).
    destruct (Z.eq_dec r 0) as [->|NR].
    - assert (EQ : R64 q = IZR n) by (rewrite V4; replace (IZR k / 12)%R with (IZR n) by (rewrite KR; lra); apply rnd_IZR; lia).
      rewrite EQ, <- plus_IZR, rnd_IZR in V5 by lia. rewrite V5. apply Zfloor_IZR.
    - apply Zfloor_eq. rewrite plus_IZR. assert (1 <= IZR r <= 11)%R by (split; apply IZR_le; lia). lra. }
  rewrite F. apply mk_int_in. unfold int_min, int_max. Z.div_mod_to_equations; lia.
Qed.

(** ** day and double hour *)
Lemma c1324_ok : ok (fdiv (fZ 13) (fZ 24)) /\ (R64 (fdiv (fZ 13) (fZ 24)) = 4878899596318037 / 9007199254740992)%R.
Proof. apply (lit_val _ 4878899596318037 9007199254740992); [lia|vm_compute; reflexivity]. Qed.
Lemma mult53 v : repr v -> (/ 2 <= Rabs v)%R -> exists n, (v = IZR n / 9007199254740992)%R.
Proof.
  intros F H. unfold repr, generic_format in F. set (e := cexp radix2 (SpecFloat.fexp 53 1024) v) in *. set (m := Ztrunc (scaled_mantissa radix2 (SpecFloat.fexp 53 1024) v)) in *.
  assert (E : -53 <= e).
  { unfold e, cexp. assert (M : 0 <= mag radix2 v).
    { apply mag_ge_bpow. change (bpow radix2 (0 - 1)) with (/ 2)%R. exact H. }
    unfold SpecFloat.fexp, SpecFloat.emin. lia. }
  exists (m * 2 ^ (e + 53)). rewrite F. unfold F2R. cbn [Fnum Fexp].
  rewrite mult_IZR. replace (IZR (2 ^ (e + 53))) with (bpow radix2 (e + 53)) by (symmetry; apply (IZR_Zpower radix2); lia). rewrite bpow_plus. change (bpow radix2 53) with 9007199254740992%R. field.
Qed.
Lemma day_and_hour_ok x : ok x -> (-7000000 <= R64 x <= 170000000)%R ->
  exists D SC, day_and_hour x = Some (D, SC) /\ 0 <= SC <= 11 /\ -7000001 <= D <= 170000001 /\
    (IZR D + IZR SC / 12 - / 1000000 <= R64 x + 13 / 24 <= IZR D + IZR (SC + 1) / 12 + / 1000000)%R.
Proof.
  intros O Bx. destruct c1324_ok as [Oc Vc]. unfold day_and_hour.
  destruct (fadd_ok _ _ O Oc) as [O1 V1]; [rewrite Vc; abs_small 200000000%R|].
  assert (NEAR : (- / 10000000 <= R64 (fadd x (fdiv (fZ 13) (fZ 24))) - (R64 x + 13 / 24) <= / 10000000)%R).
  { pose proof (rnd_near (R64 x + R64 (fdiv (fZ 13) (fZ 24))) 28 ltac:(lia)) as R2. change (bpow radix2 28) with 268435456%R in R2. rewrite Vc in R2. specialize (R2 ltac:(lra)).
    change (bpow radix2 (28 - 54)) with (/ 67108864)%R in R2. rewrite Vc in V1. rewrite <- V1 in R2. lra. }
  set (y := fadd x (fdiv (fZ 13) (fZ 24))) in *. rewrite Vc in V1.
  destruct (ffloor_ok y O1) as [O2 V2]. set (D := Zfloor (R64 y)) in *.
  pose proof (Zfloor_lb (R64 y)) as LB. pose proof (Zfloor_ub (R64 y)) as UB. fold D in LB, UB.
  assert (BD : -7000001 <= D <= 170000001).
  { assert (-7000001 < D < 170000002); [|lia]. split; apply lt_IZR; lra. }
  rewrite (cast_int_ok _ O2), V2, Ztrunc_IZR. rewrite mk_int_in by (unfold int_min, int_max; lia). cbn [obind].
  assert (SM : (R64 y - IZR D <= 1 - / 9007199254740992)%R).
  { assert (MU : forall n, (R64 y = IZR n / 9007199254740992)%R -> (R64 y - IZR D <= 1 - / 9007199254740992)%R).
    { intros n E. assert (L : n - D * 9007199254740992 < 9007199254740992).
      { apply lt_IZR. rewrite minus_IZR, mult_IZR. lra. }
      assert (L2 : (IZR n - IZR D * 9007199254740992 <= 9007199254740991)%R) by (rewrite <- mult_IZR, <- minus_IZR; apply IZR_le; lia). lra. }
    destruct (Rle_lt_dec (/ 2) (Rabs (R64 y))) as [L|L].
    { destruct (mult53 _ (repr_R64 y O1) L) as (n & E). exact (MU n E). }
    apply Rabs_def2 in L. destruct L as [L1 L2]. destruct (Rle_lt_dec 0 (R64 y)) as [P|P].
    { assert (D = 0) by (apply Zfloor_eq; lra). rewrite H. lra. }
    assert (X1 : (R64 x + 4878899596318037 / 9007199254740992 < 0)%R).
    { destruct (Rle_lt_dec 0 (R64 x + 4878899596318037 / 9007199254740992)) as [Q|Q]; [|exact Q]. apply (rnd_ge_repr 0 _ repr_0) in Q. lra. }
    assert (X2 : (- / 2 <= R64 x + 4878899596318037 / 9007199254740992)%R).
    { destruct (Rle_lt_dec (- / 2) (R64 x + 4878899596318037 / 9007199254740992)) as [Q|Q]; [exact Q|].
      assert (RH : repr (- / 2)) by (replace (- / 2)%R with (IZR (-1) / 2)%R by lra; apply repr_half; lia).
      pose proof (rnd_le_repr _ _ RH (Rlt_le _ _ Q)). lra. }
    destruct (mult53 _ (repr_R64 x O)) as (n & E); [rewrite Rabs_left by lra; lra|].
    apply (MU (n + 4878899596318037)). rewrite V1, E.
    replace (IZR n / 9007199254740992 + 4878899596318037 / 9007199254740992)%R with (IZR (n + 4878899596318037) / 9007199254740992)%R by (rewrite plus_IZR; field).
    apply rnd_repr. change (IZR (n + 4878899596318037) / 9007199254740992)%R with (IZR (n + 4878899596318037) * bpow radix2 (-53))%R. apply repr_scaled; [|lia].
    assert (B1 : (-4503599627370496 <= IZR n + 4878899596318037 <= 0)%R) by lra. rewrite <- plus_IZR in B1. destruct B1 as [B1 B2]. apply le_IZR in B1, B2. lia. }
  destruct (fZ_ok D ltac:(lia)) as [O3 V3].
  destruct (fsub_ok y (fZ D) O1 O3) as [O4 V4]; [rewrite V3; abs_small 2%R|]. rewrite V3 in V4.
  set (z := fsub y (fZ D)) in *.
  pose proof (rnd_near (R64 y - IZR D) 0 ltac:(lia)) as R1. change (bpow radix2 0) with 1%R in R1. specialize (R1 ltac:(lra)). change (bpow radix2 (0 - 54)) with (/ 18014398509481984)%R in R1. rewrite <- V4 in R1.
  assert (Z1 : (R64 z <= 1 - / 9007199254740992)%R).
  { rewrite V4. apply rnd_le_repr; [|exact SM].
    replace (1 - / 9007199254740992)%R with (IZR 9007199254740991 * bpow radix2 (-53))%R by (change (bpow radix2 (-53)) with (/ 9007199254740992)%R; lra). apply repr_scaled; lia. }
  assert (Z0 : (0 <= R64 z)%R) by (rewrite V4; apply (rnd_ge_repr 0 _ repr_0); lra).
  destruct (fZ_ok 12 ltac:(lia)) as [O5 V5].
  destruct (fmul_ok z (fZ 12) O4 O5) as [O6 V6]; [rewrite V5; abs_small 20%R|]. rewrite V5 in V6.
  assert (P0 : (0 <= R64 (fmul z (fZ 12)))%R) by (rewrite V6; apply (rnd_ge_repr 0 _ repr_0); lra).
  pose proof (rnd_near (R64 z * 12) 4 ltac:(lia)) as R2. change (bpow radix2 4) with 16%R in R2. specialize (R2 ltac:(lra)). change (bpow radix2 (4 - 54)) with (/ 1125899906842624)%R in R2. rewrite <- V6 in R2.
  rewrite (int2_ok _ O6). set (p := R64 (fmul z (fZ 12))) in *. set (SC := Zfloor p).
  pose proof (Zfloor_lb p) as LP. pose proof (Zfloor_ub p) as UP. fold SC in LP, UP.
  assert (BS : 0 <= SC <= 11).
  { assert (-1 < SC < 12); [|lia]. split; apply lt_IZR; lra. }
  rewrite mk_int_in by (unfold int_min, int_max; lia). cbn [obind]. exists D, SC. split; [reflexivity|]. split; [exact BS|]. split; [exact BD|].
  rewrite plus_IZR. lra.
Qed.
