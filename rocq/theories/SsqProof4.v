(** Proofs about the month names of the years -721..-104. *)
From Coq Require Import ZArith Reals Lia Lra Bool List Ascii String.
From Coq Require Import Floats.SpecFloat.
From Flocq Require Import Core.
From Verif Require Import F64 F64R F64T CalProof Str StrModel FmtModel FmtProof2 SsqTab SsqModel SsqSpec SsqProof SsqProof2 SsqProof3.
Import ListNotations.
Ltac Zify.zify_post_hook ::= idtac.
Open Scope R_scope.

Lemma rnd_err_big x : Rabs x <= 4194304 -> - / 1000000 <= rnd x - x <= / 1000000.
Proof.
  intros H. apply Rabs_le_inv in H. pose proof (rnd_near x 22 ltac:(lia)) as R1. change (bpow radix2 22) with 4194304 in R1.
  specialize (R1 ltac:(lra)). change (bpow radix2 (22 - 54)) with (/ 4294967296) in R1. lra.
Qed.

Lemma shift_ok jd : ok jd -> Rabs (R64 jd) <= 1000000 ->
  ok (fadd jd (fZ 2451545)) /\ - / 1000000 <= R64 (fadd jd (fZ 2451545)) - (R64 jd + 2451545) <= / 1000000.
Proof.
  intros O B. apply Rabs_le_inv in B. destruct (fZ_ok 2451545) as [O1 E1]; [lia|].
  destruct (fadd_ok jd (fZ 2451545)) as [O2 E2]; try assumption. { rewrite E1. abs_small 4000000. }
  split; [exact O2|]. rewrite E2, E1. apply rnd_err_big. apply Rabs_le. lra.
Qed.

Lemma f1_suo : 1457684 + 231 / 1000 <= R64 (f1_of 0) <= 1457684 + 232 / 1000.
Proof.
  rewrite (R64_mz (f1_of 0) (-32)) by (vm_compute; reflexivity || lia).
  change (bpow radix2 (-32)) with (/ 4294967296).
  assert (M : (1457684231 * 2 ^ 32 <= 1000 * mz (f1_of 0) <= 1457684232 * 2 ^ 32)%Z).
  { split; apply Z.leb_le; vm_compute; reflexivity. }
  destruct M as [M1 M2]. apply IZR_le in M1, M2. rewrite !mult_IZR in M1, M2.
  replace (IZR (2 ^ 32)) with 4294967296 in * by (vm_compute; reflexivity). lra.
Qed.

Lemma suo_b0 : 1457698 + 231 / 1000 <= R64 (fat suoKB 0) <= 1457698 + 232 / 1000.
Proof.
  rewrite (R64_mz (fat suoKB 0) (-32)) by (vm_compute; reflexivity || lia).
  change (bpow radix2 (-32)) with (/ 4294967296).
  assert (M : (1457698231 * 2 ^ 32 <= 1000 * mz (fat suoKB 0) <= 1457698232 * 2 ^ 32)%Z).
  { split; apply Z.leb_le; vm_compute; reflexivity. }
  destruct M as [M1 M2]. apply IZR_le in M1, M2. rewrite !mult_IZR in M1, M2.
  replace (IZR (2 ^ 32)) with 4294967296 in * by (vm_compute; reflexivity). lra.
Qed.
Lemma suo_b_later i : (1 <= i <= 11)%Z -> 1546082 <= R64 (fat suoKB (2 * i)).
Proof.
  intros H.
  assert (T : forallb (fun j => within (fZ 1546082) (fZ 2322148) (fat suoKB (2 * j))) (map Z.of_nat (seq 1 11)) = true) by (vm_compute; reflexivity).
  rewrite forallb_forall in T. apply (withinZ 1546082 2322148); try lia. apply T. apply in_map_iff. exists (Z.to_nat i). split; [lia|]. apply in_seq. lia.
Qed.

(** new moons in the linear era *)
Lemma calc_suo_mean e jd : ok jd -> -993860 <= R64 jd <= -504400 ->
  exists d, calc e jd 0 = Some d /\ R64 jd - 166 / 10 <= IZR d <= R64 jd + 156 / 10 /\ (-993847 <= d)%Z /\
    (d <= -993847 \/ -993818 <= d)%Z.
Proof.
  intros O B. destruct (shift_ok jd O ltac:(apply Rabs_le; lra)) as [OJ BJ]. set (J := fadd jd (fZ 2451545)) in *.
  pose proof f1_suo as F1. destruct (f1_bounds 0) as [O1 _]. pose proof f2_suo as F2. destruct (f2_bounds 0) as [O2 _].
  destruct (fZ_ok 2436935) as [O3 E3]; [lia|].
  destruct (mean_suo J OJ ltac:(lra)) as (i & d & Hi & _ & BX & EC & BD & n & Pn & Bn).
  destruct (table_ok_k suoKB 11 1457698 2322148 29 30 i suo_table) as [_ BK]; try lia.
  destruct (fZ_ok 14) as [O4 E4]; [lia|].
  assert (X : - / 1000000 <= R64 (fadd J (fZ 14)) - (R64 J + 14) <= / 1000000).
  { destruct (fadd_ok J (fZ 14)) as [_ E]; try assumption. { rewrite E4. abs_small 3000000. }
    rewrite E, E4. apply rnd_err_big. apply Rabs_le. lra. }
  exists (if Z.eqb d 1683460 then d + 1 - 2451545 else d - 2451545)%Z.
  assert (D1 : (1457698 <= d)%Z /\ (d <= 1457698 \/ 1457727 <= d)%Z).
  { apply Rabs_le_inv in Bn. assert (N0 : 0 <= IZR n) by (apply IZR_le; lia). pose proof suo_b0 as B0.
    destruct (Z.eq_dec i 0) as [->|Ni].
    - change (2 * 0)%Z with 0%Z in *. assert (0 <= R64 (fat suoKB (0 + 1)) * IZR n) by nra. split.
      + assert (1457697 < d)%Z by (apply lt_IZR; lra). lia.
      + destruct (Z.eq_dec n 0) as [->|Nn].
        * left. assert (d < 1457699)%Z by (apply lt_IZR; lra). lia.
        * right. assert (1 <= IZR n) by (apply IZR_le; lia). assert (29 <= R64 (fat suoKB (0 + 1)) * IZR n) by nra.
          assert (1457726 < d)%Z by (apply lt_IZR; lra). lia.
    - pose proof (suo_b_later i ltac:(lia)) as BL. assert (0 <= R64 (fat suoKB (2 * i + 1)) * IZR n) by nra.
      assert (1546080 < d)%Z by (apply lt_IZR; lra). lia. }
  split; [|split; [|split]].
  - unfold calc. fold J. rewrite calc_f1_is, calc_f2_is. cbn [obind].
    replace (fltb J (f1_of 0)) with false by (symmetry; apply fltb_false; try assumption; lra).
    replace (fgeb J calc_f3) with false by (symmetry; apply fgeb_false; [assumption|exact O3|unfold calc_f3; rewrite E3; lra]).
    replace (fgeb J (f1_of 0)) with true by (symmetry; apply fgeb_true; try assumption; lra).
    replace (fltb J (f2_of 0)) with true by (symmetry; apply fltb_true; try assumption; lra).
    cbn [orb andb]. exact EC.
  - destruct (Z.eqb_spec d 1683460); rewrite ?minus_IZR, ?plus_IZR; lra.
  - destruct (Z.eqb_spec d 1683460); lia.
  - destruct (Z.eqb_spec d 1683460); lia.
Qed.

Lemma syn_bounds : 2953 / 100 <= R64 synodic <= 29531 / 1000.
Proof.
  destruct (lit_near 295306 10000 5) as [_ H]; try lia. fold synodic in H. change (bpow radix2 (5 - 54)) with (/ 562949953421312) in H.
  apply Rabs_le_inv in H. lra.
Qed.
Lemma trop_bounds : 3652421 / 10000 <= R64 tropical <= 3652423 / 10000.
Proof.
  destruct (lit_near 3652422 10000 9) as [_ H]; try lia. fold tropical in H. change (bpow radix2 (9 - 54)) with (/ 35184372088832) in H.
  apply Rabs_le_inv in H. lra.
Qed.

(** a product and a sum of moderate doubles *)
Lemma fmul_near x y M : ok x -> ok y -> Rabs (R64 x * R64 y) <= M -> M <= 4194304 ->
  ok (fmul x y) /\ - / 1000000 <= R64 (fmul x y) - R64 x * R64 y <= / 1000000.
Proof.
  intros Ox Oy H HM. destruct (fmul_ok x y) as [O E]; try assumption.
  { eapply Rabs_small; [exact H|]. apply Rle_trans with 4194304; [exact HM|small]. }
  split; [exact O|]. rewrite E. apply rnd_err_big. lra.
Qed.
Lemma fadd_near x y M : ok x -> ok y -> Rabs (R64 x + R64 y) <= M -> M <= 4194304 ->
  ok (fadd x y) /\ - / 1000000 <= R64 (fadd x y) - (R64 x + R64 y) <= / 1000000.
Proof.
  intros Ox Oy H HM. destruct (fadd_ok x y) as [O E]; try assumption.
  { eapply Rabs_small; [exact H|]. apply Rle_trans with 4194304; [exact HM|small]. }
  split; [exact O|]. rewrite E. apply rnd_err_big. lra.
Qed.
Lemma fsub_near x y M : ok x -> ok y -> Rabs (R64 x - R64 y) <= M -> M <= 4194304 ->
  ok (fsub x y) /\ - / 1000000 <= R64 (fsub x y) - (R64 x - R64 y) <= / 1000000.
Proof.
  intros Ox Oy H HM. destruct (fsub_ok x y) as [O E]; try assumption.
  { eapply Rabs_small; [exact H|]. apply Rle_trans with 4194304; [exact HM|small]. }
  split; [exact O|]. rewrite E. apply rnd_err_big. lra.
Qed.

(** the head of a year *)
Lemma head_day_ok e base c yy off rate : ok c -> ok rate -> 0 <= R64 c <= 1 -> 12368 / 1000 <= R64 rate <= 1237 / 100 ->
  (0 <= yy + off <= 700)%Z -> (-993847 <= base - 2451545)%Z ->
  IZR base - 2451545 + 29531 / 1000 * (1 + 1237 / 100 * IZR (yy + off) + / 1000) <= -504401 ->
  exists d, head_day (calc e) base c yy off rate = Some d /\ (-993847 <= d <= 0)%Z /\ (d <= -993847 \/ -993818 <= d)%Z /\
    IZR d <= IZR base - 2451545 + R64 synodic * (R64 c + IZR (yy + off) * R64 rate + / 1000) + 16.
Proof.
  intros Oc Or Bc Br Hn Hb HB. destruct (fZ_ok (yy + off)) as [O1 E1]; [lia|].
  assert (N : 0 <= IZR (yy + off) <= 700) by (split; apply IZR_le; lia).
  assert (P : 0 <= IZR (yy + off) * R64 rate <= 8659) by (split; nra).
  destruct (fmul_near (fZ (yy + off)) rate 10000 O1 Or) as [O2 E2]; [rewrite E1; apply Rabs_le; lra|lra|]. rewrite E1 in E2.
  destruct (fadd_near c (fmul (fZ (yy + off)) rate) 10000 Oc O2) as [O3 E3]; [apply Rabs_le; lra|lra|].
  set (v := fadd c (fmul (fZ (yy + off)) rate)) in *.
  assert (V : 0 <= R64 v).
  { unfold v. destruct (fadd_ok c (fmul (fZ (yy + off)) rate)) as [_ ->]; try assumption; [abs_small 10000|].
    apply rnd_ge_repr; [apply repr_0|]. assert (0 <= R64 (fmul (fZ (yy + off)) rate)); [|lra].
    destruct (fmul_ok (fZ (yy + off)) rate) as [_ ->]; try assumption; [rewrite E1; abs_small 10000|].
    apply rnd_ge_repr; [apply repr_0|]. rewrite E1. lra. }
  unfold head_day. fold v. destruct (int2_range v 10000 O3) as (k & EK & BK); [lra|lia|]. rewrite EK. cbn [obind].
  assert (BK2 : IZR k <= R64 v).
  { rewrite int2_ok in EK by exact O3. unfold mk_int in EK. destruct (in_int _) in EK; [|discriminate EK]. injection EK as <-. apply Zfloor_lb. }
  assert (BK3 : 0 <= IZR k <= 10000) by (split; apply IZR_le; lia).
  destruct (fZ_ok k) as [O4 E4]; [lia|]. destruct syn_ok as [O5 _]. pose proof syn_bounds as S5.
  destruct (fmul_near (fZ k) synodic 300000 O4 O5) as [O6 E6]; [rewrite E4; apply Rabs_le; split; nra|lra|]. rewrite E4 in E6.
  assert (KS : 0 <= IZR k * R64 synodic <= R64 synodic * (R64 c + IZR (yy + off) * R64 rate + / 2000)) by (split; nra).
  assert (BB : (base - 2451545 <= 0)%Z).
  { apply le_IZR. rewrite minus_IZR. nra. }
  destruct (fZ_ok (base - 2451545)) as [O7 E7]; [lia|].
  assert (B7 : -993847 <= IZR (base - 2451545) <= 0) by (split; apply IZR_le; lia).
  set (p := fmul (fZ k) synodic) in *. clearbody p.
  assert (UB : R64 synodic * (R64 c + IZR (yy + off) * R64 rate + / 2000) <= 29531 / 1000 * (1 + 1237 / 100 * IZR (yy + off) + / 1000)).
  { apply Rmult_le_compat; nra. }
  destruct (fadd_near (fZ (base - 2451545)) p 2000000 O7 O6) as [O8 E8]; [rewrite E7; apply Rabs_le; rewrite minus_IZR in *; split; nra|lra|].
  rewrite E7 in E8. set (t := fadd (fZ (base - 2451545)) p) in *. clearbody t. rewrite minus_IZR in E8, B7.
  destruct (calc_suo_mean e t O8) as (d & ED & BD & L1 & L2); [lra|].
  exists d. split; [exact ED|]. split; [|split; [exact L2|]].
  - split; [exact L1|]. apply le_IZR. lra.
  - lra.
Qed.
