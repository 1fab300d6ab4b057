(** Proofs about SSQ::calc. *)
From Coq Require Import ZArith Reals Lia Lra Bool List Ascii String.
From Coq Require Import Floats.SpecFloat.
From Flocq Require Import Core.
From Verif Require Import F64 F64R F64T CalProof Str StrModel FmtModel FmtProof2 SsqTab SsqModel SsqSpec SsqProof.
Import ListNotations.
Ltac Zify.zify_post_hook ::= idtac.
Open Scope R_scope.

(** decidable bounds of a double *)
Definition okb (x : f64) : bool := SpecFloat.valid_binary 53 1024 x && BinarySingleNaN.is_finite_SF x.
Lemma okb_ok x : okb x = true -> ok x.
Proof. unfold okb. rewrite andb_true_iff. intros [H1 H2]. split; assumption. Qed.
Definition within (lo hi x : f64) : bool := okb lo && okb hi && okb x && fleb lo x && fleb x hi.
Lemma within_ok lo hi x : within lo hi x = true -> ok x /\ R64 lo <= R64 x <= R64 hi.
Proof.
  unfold within. rewrite !andb_true_iff. intros [[[[H1 H2] H3] H4] H5]. apply okb_ok in H1, H2, H3.
  split; [exact H3|]. rewrite fleb_ok in H4, H5 by assumption. split.
  - destruct (Rle_bool_spec (R64 lo) (R64 x)); [assumption|discriminate H4].
  - destruct (Rle_bool_spec (R64 x) (R64 hi)); [assumption|discriminate H5].
Qed.
Lemma withinZ lo hi x : within (fZ lo) (fZ hi) x = true -> (Z.abs lo <= 2 ^ 53)%Z -> (Z.abs hi <= 2 ^ 53)%Z -> ok x /\ IZR lo <= R64 x <= IZR hi.
Proof.
  intros H A1 A2. apply within_ok in H as [O H]. destruct (fZ_ok lo A1) as [_ E1]. destruct (fZ_ok hi A2) as [_ E2].
  rewrite E1, E2 in H. now split.
Qed.

(** comparisons as reals *)
Lemma fltb_true x y : ok x -> ok y -> (fltb x y = true <-> R64 x < R64 y).
Proof. intros. rewrite fltb_ok by assumption. destruct (Rlt_bool_spec (R64 x) (R64 y)); split; easy || lra. Qed.
Lemma fltb_false x y : ok x -> ok y -> (fltb x y = false <-> R64 y <= R64 x).
Proof. intros. rewrite fltb_ok by assumption. destruct (Rlt_bool_spec (R64 x) (R64 y)); split; easy || lra. Qed.
Lemma fgeb_true x y : ok x -> ok y -> (fgeb x y = true <-> R64 y <= R64 x).
Proof. intros. change (fgeb x y) with (fleb y x). rewrite fleb_ok by assumption. destruct (Rle_bool_spec (R64 y) (R64 x)); split; easy || lra. Qed.
Lemma fgeb_false x y : ok x -> ok y -> (fgeb x y = false <-> R64 x < R64 y).
Proof. intros. change (fgeb x y) with (fleb y x). rewrite fleb_ok by assumption. destruct (Rle_bool_spec (R64 y) (R64 x)); split; easy || lra. Qed.

(** a double that is at least 2^(u+52) is a multiple of 2^u *)
Lemma repr_step y u : repr y -> (-1000 <= u <= 900)%Z -> bpow radix2 (u + 52) <= y -> exists k, y = IZR k * bpow radix2 u.
Proof.
  intros H Hu B. assert (P : 0 < bpow radix2 (u + 52)) by apply bpow_gt_0.
  assert (G := H). red in G. unfold generic_format in G.
  set (z := Ztrunc (scaled_mantissa radix2 (SpecFloat.fexp 53 1024) y)) in G.
  assert (C : (u <= cexp radix2 (SpecFloat.fexp 53 1024) y)%Z).
  { unfold cexp. unfold SpecFloat.fexp, SpecFloat.emin.
    assert (M : (u + 53 <= mag radix2 y)%Z).
    { replace (u + 53)%Z with (u + 52 + 1)%Z by lia. apply mag_ge_bpow. rewrite Rabs_right by lra.
      replace (u + 52 + 1 - 1)%Z with (u + 52)%Z by lia. exact B. }
    lia. }
  exists (z * 2 ^ (cexp radix2 (SpecFloat.fexp 53 1024) y - u))%Z. rewrite G at 1. unfold F2R. simpl Fnum; simpl Fexp.
  rewrite mult_IZR. change (2 ^ (cexp radix2 (SpecFloat.fexp 53 1024) y - u))%Z with (radix2 ^ (cexp radix2 (SpecFloat.fexp 53 1024) y - u))%Z.
  rewrite (IZR_Zpower radix2) by lia. rewrite Rmult_assoc, <- bpow_plus. do 2 f_equal. lia.
Qed.
Lemma below_step y k u : repr y -> (-1000 <= u <= 900)%Z -> bpow radix2 (u + 52) <= y -> y < IZR k * bpow radix2 u ->
  y <= IZR (k - 1) * bpow radix2 u.
Proof.
  intros H Hu B L. destruct (repr_step y u H Hu B) as [j E]. rewrite E in *.
  assert (P : 0 < bpow radix2 u) by apply bpow_gt_0. apply Rmult_lt_reg_r in L; [|exact P]. apply lt_IZR in L.
  apply Rmult_le_compat_r; [lra|]. apply IZR_le. lia.
Qed.

(** ** The segment search *)
Definition fat (B : list f64) (i : Z) : f64 := nth (Z.to_nat i) B (fZ 0).
Lemma at_fat B i : (0 <= i < Z.of_nat (List.length B))%Z -> at_ B i = Some (fat B i).
Proof. intros H. unfold at_, fat. destruct (Z.leb_spec 0 i); [|lia]. apply nth_error_nth'. lia. Qed.

Lemma seg_loop_ok (B : list f64) (N : Z) x fuel j :
  Z.of_nat (List.length B) = (2 * N + 1)%Z -> (0 <= j < N)%Z -> (N - j < Z.of_nat fuel)%Z ->
  fltb x (fat B (2 * N)) = true ->
  exists k, seg_loop fuel B (2 * N + 1) x (2 * j) = Some (2 * k)%Z /\ (j <= k < N)%Z /\ fltb x (fat B (2 * k + 2)) = true /\
    (k = j \/ fltb x (fat B (2 * k)) = false).
Proof.
  intros LB. revert j. induction fuel as [|fuel IH]; intros j Hj Hf HN; [lia|]. cbn [seg_loop].
  destruct (Z.ltb_spec (2 * j) (2 * N + 1)); [|lia]. rewrite at_fat by lia. cbn [obind].
  destruct (fltb x (fat B (2 * j + 2))) eqn:E.
  - exists j. split; [reflexivity|]. split; [lia|]. split; [exact E|]. now left.
  - destruct (Z.eq_dec (j + 1) N) as [EN|EN].
    { exfalso. replace (2 * j + 2)%Z with (2 * N)%Z in E by lia. congruence. }
    replace (2 * j + 2)%Z with (2 * (j + 1))%Z in * by lia.
    destruct (IH (j + 1)%Z ltac:(lia) ltac:(lia) HN) as (k & E1 & E2 & E3 & E4). exists k. split; [exact E1|].
    split; [lia|]. split; [exact E3|]. right. destruct E4 as [->|E4]; [exact E|exact E4].
Qed.

(** ** One table *)
Definition table_okb (B : list f64) (N lo hi klo khi : Z) : bool :=
  Z.eqb (Z.of_nat (List.length B)) (2 * N + 1) &&
  forallb (fun j => within (fZ lo) (fZ hi) (fat B (2 * j))) (map Z.of_nat (seq 0 (Z.to_nat N + 1))) &&
  forallb (fun j => within (fZ klo) (fZ khi) (fat B (2 * j + 1))) (map Z.of_nat (seq 0 (Z.to_nat N))).
Lemma table_ok_len B N lo hi klo khi : table_okb B N lo hi klo khi = true -> Z.of_nat (List.length B) = (2 * N + 1)%Z.
Proof. unfold table_okb. rewrite !andb_true_iff. intros [[H _] _]. now apply Z.eqb_eq in H. Qed.
Lemma table_ok_b B N lo hi klo khi j : table_okb B N lo hi klo khi = true -> (Z.abs lo <= 2 ^ 53)%Z -> (Z.abs hi <= 2 ^ 53)%Z -> (0 <= j <= N)%Z ->
  ok (fat B (2 * j)) /\ IZR lo <= R64 (fat B (2 * j)) <= IZR hi.
Proof.
  unfold table_okb. rewrite !andb_true_iff. intros [[_ H] _] A1 A2 Hj. rewrite forallb_forall in H.
  apply withinZ; try assumption. apply H. apply in_map_iff. exists (Z.to_nat j). split; [lia|]. apply in_seq. lia.
Qed.
Lemma table_ok_k B N lo hi klo khi j : table_okb B N lo hi klo khi = true -> (Z.abs klo <= 2 ^ 53)%Z -> (Z.abs khi <= 2 ^ 53)%Z -> (0 <= j < N)%Z ->
  ok (fat B (2 * j + 1)) /\ IZR klo <= R64 (fat B (2 * j + 1)) <= IZR khi.
Proof.
  unfold table_okb. rewrite !andb_true_iff. intros [_ H] A1 A2 Hj. rewrite forallb_forall in H.
  apply withinZ; try assumption. apply H. apply in_map_iff. exists (Z.to_nat j). split; [lia|]. apply in_seq. lia.
Qed.

Ltac abs_small b := apply Rabs_small with b; [apply Rabs_le; lra | small].
Ltac to_ineq H := apply Rabs_le_inv in H.

Lemma rnd_near x k : (-1021 <= k)%Z -> - bpow radix2 k <= x <= bpow radix2 k -> - bpow radix2 (k - 54) <= rnd x - x <= bpow radix2 (k - 54).
Proof. intros Hk H. apply Rabs_le_inv. apply rnd_err; [exact Hk|]. apply Rabs_le. lra. Qed.

(** the linear formula: the nearest multiple of k from b at or below x *)
Lemma mean_formula (b k x : f64) : ok b -> ok k -> ok x -> 1000000 <= R64 b <= R64 x -> R64 x <= 3000000 -> 15 <= R64 k <= 30 ->
  let D := fadd b (fmul k (ffloor (fdiv (fsub x b) k))) in
  ok D /\ R64 x - R64 k - / 1000 <= R64 D <= R64 x + / 1000 /\
  exists n, (0 <= n)%Z /\ R64 b + R64 k * IZR n - / 1000 <= R64 D <= R64 b + R64 k * IZR n + / 1000.
Proof.
  intros Ob Ok Ox Bb Bx Bk.
  destruct (fsub_ok x b) as [O1 E1]; try assumption. { abs_small 3000000. }
  pose proof (rnd_near (R64 x - R64 b) 21 ltac:(lia)) as R1. change (bpow radix2 21) with 2097152 in R1. specialize (R1 ltac:(lra)).
  change (bpow radix2 (21 - 54)) with (/ 8589934592) in R1. rewrite <- E1 in R1.
  assert (P1 : 0 <= R64 (fsub x b)) by (rewrite E1; apply rnd_ge_repr; [apply repr_0|lra]).
  set (t := fsub x b) in *. clearbody t. clear E1.
  assert (Q0 : 0 <= R64 t / R64 k <= 200000).
  { split; [apply Rmult_le_pos; [lra|left; apply Rinv_0_lt_compat; lra]|].
    apply (Rmult_le_reg_r (R64 k)); [lra|]. unfold Rdiv. rewrite Rmult_assoc, Rinv_l by lra. nra. }
  destruct (fdiv_ok t k) as [O2 E2]; try assumption; [lra| |]. { abs_small 200000. }
  pose proof (rnd_near (R64 t / R64 k) 18 ltac:(lia)) as R2. change (bpow radix2 18) with 262144 in R2. specialize (R2 ltac:(lra)).
  change (bpow radix2 (18 - 54)) with (/ 68719476736) in R2. rewrite <- E2 in R2.
  assert (PF : 0 <= R64 (fdiv t k)) by (rewrite E2; apply rnd_ge_repr; [apply repr_0|lra]).
  assert (TK : R64 t = (R64 t / R64 k) * R64 k) by (unfold Rdiv; rewrite Rmult_assoc, Rinv_l by lra; ring).
  set (q := R64 t / R64 k) in *. clearbody q. set (f := fdiv t k) in *. clearbody f. clear E2.
  destruct (ffloor_ok f O2) as [O3 E3]. pose proof (Zfloor_lb (R64 f)) as L3. pose proof (Zfloor_ub (R64 f)) as U3.
  rewrite <- E3 in L3, U3. set (n := ffloor f) in *.
  assert (Bn : -2 <= R64 n <= 200001) by lra.
  assert (KN : - 60 <= R64 k * R64 n <= 7000000) by (split; nra).
  destruct (fmul_ok k n) as [O4 E4]; try assumption. { abs_small 7000000. }
  pose proof (rnd_near (R64 k * R64 n) 23 ltac:(lia)) as R4. change (bpow radix2 23) with 8388608 in R4. specialize (R4 ltac:(lra)).
  change (bpow radix2 (23 - 54)) with (/ 2147483648) in R4. rewrite <- E4 in R4.
  assert (KN2 : R64 t - R64 k - / 1000000 <= R64 k * R64 n <= R64 t + / 1000000) by (split; nra).
  set (p := fmul k n) in *. clearbody p. clear E4.
  destruct (fadd_ok b p) as [O5 E5]; try assumption. { abs_small 20000000. }
  pose proof (rnd_near (R64 b + R64 p) 24 ltac:(lia)) as R5. change (bpow radix2 24) with 16777216 in R5. specialize (R5 ltac:(lra)).
  change (bpow radix2 (24 - 54)) with (/ 1073741824) in R5. rewrite <- E5 in R5.
  split; [exact O5|]. split; [lra|]. exists (Zfloor (R64 f)). split; [|rewrite <- E3; lra].
  apply Zfloor_lub. exact PF.
Qed.

(** rounding to the nearest day, the repair of 1683460 and the change of origin *)
Lemma day_of (D : f64) : ok D -> 500000 <= R64 D <= 4000000 ->
  let D1 := ffloor (fadd D (lit 5 10)) in
  let D2 := if feqb D1 (fZ 1683460) then fadd D1 (fZ 1) else D1 in
  exists d, cast_int (fsub D2 (fZ 2451545)) = Some (if Z.eqb d 1683460 then d + 1 - 2451545 else d - 2451545)%Z /\
    R64 D - / 2 - / 1000 <= IZR d <= R64 D + / 2 + / 1000.
Proof.
  intros O Bd D1 D2. destruct lit_half as [O1 E1].
  destruct (fadd_ok D (lit 5 10)) as [O2 E2]; try assumption. { rewrite E1. abs_small 5000000. }
  rewrite E1 in E2. pose proof (rnd_near (R64 D + 1 / 2) 23 ltac:(lia)) as R2. change (bpow radix2 23) with 8388608 in R2. specialize (R2 ltac:(lra)).
  change (bpow radix2 (23 - 54)) with (/ 2147483648) in R2. rewrite <- E2 in R2.
  destruct (ffloor_ok _ O2) as [O3 E3]. fold D1 in O3, E3.
  pose proof (Zfloor_lb (R64 (fadd D (lit 5 10)))) as L. pose proof (Zfloor_ub (R64 (fadd D (lit 5 10)))) as U.
  set (d := Zfloor (R64 (fadd D (lit 5 10)))) in *. clearbody d.
  assert (Bd' : (0 <= d <= 5000000)%Z) by (split; apply le_IZR; lra).
  exists d. split; [|lra].
  destruct (fZ_ok 1683460) as [O4 E4]; [lia|]. destruct (fZ_ok 1) as [O5 E5]; [lia|]. destruct (fZ_ok 2451545) as [O6 E6]; [lia|].
  assert (EQ : feqb D1 (fZ 1683460) = Z.eqb d 1683460).
  { rewrite feqb_ok by assumption. rewrite E3, E4. destruct (Z.eqb_spec d 1683460) as [->|N].
    - apply Req_bool_true. reflexivity.
    - apply Req_bool_false. intros H. apply eq_IZR in H. easy. }
  assert (G : forall (v : f64) z, ok v -> R64 v = IZR z -> (0 <= z <= 6000000)%Z -> cast_int (fsub v (fZ 2451545)) = Some (z - 2451545)%Z).
  { intros v z Ov Ev Bz. destruct (fsub_ok v (fZ 2451545)) as [O7 E7]; try assumption.
    { rewrite Ev, E6. rewrite <- minus_IZR. apply Rabs_small with (IZR 10000000); [rewrite <- abs_IZR; apply IZR_le; lia|small]. }
    rewrite Ev, E6, <- minus_IZR, rnd_IZR in E7 by lia. rewrite cast_int_ok by assumption. rewrite E7, Ztrunc_IZR.
    apply mk_int_in. unfold int_min, int_max. lia. }
  unfold D2. rewrite EQ. destruct (Z.eqb_spec d 1683460) as [Ed|Nd].
  - destruct (fadd_ok D1 (fZ 1)) as [O8 E8]; try assumption.
    { rewrite E3, E5, Ed. abs_small 2000000. }
    rewrite E3, E5, <- plus_IZR, rnd_IZR in E8 by lia. apply G; [exact O8|exact E8|lia].
  - apply G; [exact O3|exact E3|lia].
Qed.

(** ** The linear era *)
Lemma R64_fin m e : R64 (S754_finite false m e) = IZR (Zpos m) * bpow radix2 e.
Proof. reflexivity. Qed.

Lemma mul_unit a p M : 0 <= a <= M -> 0 < p <= 1 -> 0 <= a * p <= M.
Proof. intros. split; nra. Qed.

Lemma upper_lt (jd pc f2 bl : f64) (u kf kp : Z) :
  ok jd -> ok pc -> (-1000 <= u <= 0)%Z ->
  R64 f2 = IZR kf * bpow radix2 u -> R64 pc = IZR kp * bpow radix2 u -> R64 bl = IZR (kf + kp) * bpow radix2 u ->
  (0 <= kp)%Z -> (2 ^ 52 < kf)%Z -> (kf + kp <= 2 ^ 53)%Z -> 0 <= R64 jd < R64 f2 ->
  ok (fadd jd pc) /\ R64 (fadd jd pc) = rnd (R64 jd + R64 pc) /\ R64 (fadd jd pc) < R64 bl.
Proof.
  intros Oj Op Hu Ef Ep Eb Hp Hf Hb Bj. assert (P : 0 < bpow radix2 u) by apply bpow_gt_0.
  assert (U1 : bpow radix2 u <= 1) by (change 1 with (bpow radix2 0); apply bpow_le; lia).
  assert (KP : 0 <= IZR kp <= 9007199254740992) by (split; apply IZR_le; lia).
  assert (KF : 0 <= IZR kf <= 9007199254740992) by (split; apply IZR_le; lia).
  destruct (fadd_ok jd pc) as [O E]; try assumption.
  { assert (X1 : 0 <= IZR kp * bpow radix2 u <= 9007199254740992) by (apply mul_unit; [exact KP|lra]).
    assert (X2 : 0 <= IZR kf * bpow radix2 u <= 9007199254740992) by (apply mul_unit; [exact KF|lra]).
    rewrite Ef in Bj. rewrite Ep. abs_small 20000000000000000. }
  split; [exact O|]. split; [exact E|]. rewrite E, Eb.
  assert (S1 : R64 jd + R64 pc <= IZR (kf + kp - 1) * bpow radix2 u).
  { rewrite Ep. destruct (Rle_lt_dec (bpow radix2 (u + 52)) (R64 jd)) as [C|C].
    - rewrite Ef in Bj. pose proof (below_step (R64 jd) kf u (repr_R64 _ Oj) ltac:(lia) C (proj2 Bj)) as S.
      replace (kf + kp - 1)%Z with (kf - 1 + kp)%Z by lia. rewrite (plus_IZR (kf - 1)). lra.
    - rewrite bpow_plus in C. change (bpow radix2 52) with (IZR (2 ^ 52)) in C.
      assert (IZR (2 ^ 52) <= IZR (kf - 1)) by (apply IZR_le; lia).
      replace (kf + kp - 1)%Z with (kf - 1 + kp)%Z by lia. rewrite (plus_IZR (kf - 1)). nra. }
  apply Rle_lt_trans with (IZR (kf + kp - 1) * bpow radix2 u).
  - apply rnd_le_repr; [|exact S1]. apply repr_scaled; lia.
  - apply Rmult_lt_compat_r; [exact P|]. apply IZR_lt. lia.
Qed.

Lemma calc_mean_ok (B : list f64) (N klo khi u kf kp : Z) (jd pc f1 f2 : f64) :
  (1 <= N)%Z -> table_okb B N 1457698 2322148 klo khi = true -> (15 <= klo <= 30)%Z -> (15 <= khi <= 30)%Z ->
  ok pc -> ok f1 -> ok f2 -> ok jd ->
  fadd f1 pc = fat B 0 -> 0 <= R64 f1 -> Rabs (R64 f1 + R64 pc) <= bpow radix2 1000 -> (-1000 <= u <= 0)%Z ->
  R64 f2 = IZR kf * bpow radix2 u -> R64 pc = IZR kp * bpow radix2 u -> R64 (fat B (2 * N)) = IZR (kf + kp) * bpow radix2 u ->
  (0 <= kp)%Z -> (2 ^ 52 < kf)%Z -> (kf + kp <= 2 ^ 53)%Z ->
  R64 f1 <= R64 jd < R64 f2 ->
  let x := fadd jd pc in
  exists i d, (0 <= i < N)%Z /\ seg_loop (S (List.length B)) B (Z.of_nat (List.length B)) x 0 = Some (2 * i)%Z /\
    R64 (fat B (2 * i)) <= R64 x < R64 (fat B (2 * i + 2)) /\
    calc_mean B pc jd = Some (if Z.eqb d 1683460 then d + 1 - 2451545 else d - 2451545)%Z /\
    R64 x - R64 (fat B (2 * i + 1)) - / 2 - / 100 <= IZR d <= R64 x + / 2 + / 100 /\
    exists n, (0 <= n)%Z /\ Rabs (IZR d - (R64 (fat B (2 * i)) + R64 (fat B (2 * i + 1)) * IZR n)) <= / 2 + / 100.
Proof.
  intros HN TB K1 K2 Op O1 O2 Oj EF1 PF1 SF1 Hu Ef Ep Eb Hp Hf Hb Bj x.
  destruct (upper_lt jd pc f2 (fat B (2 * N)) u kf kp Oj Op Hu Ef Ep Eb Hp Hf Hb ltac:(lra)) as (Ox & Ex & Lx). fold x in Ox, Ex, Lx.
  assert (LEN := table_ok_len _ _ _ _ _ _ TB).
  assert (TBb : forall j, (0 <= j <= N)%Z -> ok (fat B (2 * j)) /\ 1457698 <= R64 (fat B (2 * j)) <= 2322148).
  { intros j Hj. apply (table_ok_b B N 1457698 2322148 klo khi j TB); lia. }
  assert (X0 : R64 (fat B 0) <= R64 x).
  { rewrite <- EF1, Ex. destruct (fadd_ok f1 pc O1 Op SF1) as [_ ->]. apply rnd_le. lra. }
  destruct (TBb N ltac:(lia)) as [ON BN].
  destruct (seg_loop_ok B N x (S (List.length B)) 0 LEN) as (i & E1 & E2 & E3 & E4); [lia|lia| |].
  { apply fltb_true; assumption. }
  change (2 * 0)%Z with 0%Z in E1. rewrite <- LEN in E1.
  destruct (TBb i ltac:(lia)) as [Oi Bi]. destruct (TBb (i + 1)%Z ltac:(lia)) as [Oi2 Bi2].
  replace (2 * (i + 1))%Z with (2 * i + 2)%Z in Oi2, Bi2 by lia.
  destruct (table_ok_k B N 1457698 2322148 klo khi i TB) as [Ok Bk]; [lia|lia|lia|].
  assert (XI : R64 (fat B (2 * i)) <= R64 x).
  { destruct E4 as [->|E4]; [exact X0|]. apply fltb_false in E4; assumption. }
  assert (XU : R64 x < R64 (fat B (2 * i + 2))) by (apply fltb_true; assumption).
  assert (KB : 15 <= R64 (fat B (2 * i + 1)) <= 30).
  { assert (15 <= IZR klo) by (apply IZR_le; lia). assert (IZR khi <= 30) by (apply IZR_le; lia). lra. }
  destruct (mean_formula (fat B (2 * i)) (fat B (2 * i + 1)) x Oi Ok Ox ltac:(lra) ltac:(lra) KB) as (OD & BD & n & PN & BN2).
  destruct (day_of _ OD ltac:(lra)) as (d & E5 & E6).
  exists i, d. split; [lia|]. split; [exact E1|]. split; [lra|]. split.
  - unfold calc_mean. fold x. rewrite E1. cbn [obind]. rewrite at_fat by lia. cbn [obind]. rewrite at_fat by lia. cbn [obind]. exact E5.
  - split; [lra|]. exists n. split; [exact PN|]. apply Rabs_le. lra.
Qed.

(** ** The two shipped tables *)
Lemma suo_table : table_okb suoKB 11 1457698 2322148 29 30 = true.
Proof. vm_compute. reflexivity. Qed.
Lemma qi_table : table_okb qiKB 35 1457698 2322148 15 16 = true.
Proof. vm_compute. reflexivity. Qed.

Definition f1_of (qs : Z) : f64 := if Z.eqb qs 0 then fsub (fat suoKB 0) (fZ 14) else fsub (fat qiKB 0) (fZ 7).
Definition f2_of (qs : Z) : f64 := if Z.eqb qs 0 then fsub (fat suoKB 22) (fZ 14) else fsub (fat qiKB 70) (fZ 7).
Lemma calc_f1_is qs : calc_f1 qs = Some (f1_of qs).
Proof. unfold calc_f1, calc_B, calc_pc, f1_of. destruct (Z.eqb qs 0); reflexivity. Qed.
Lemma calc_f2_is qs : calc_f2 qs = Some (f2_of qs).
Proof. unfold calc_f2, calc_B, calc_pc, f2_of. destruct (Z.eqb qs 0); reflexivity. Qed.
Lemma f1_bounds qs : ok (f1_of qs) /\ 1457684 <= R64 (f1_of qs) <= 1640644.
Proof. unfold f1_of. destruct (Z.eqb qs 0); apply withinZ; try lia; vm_compute; reflexivity. Qed.
Lemma f2_bounds qs : ok (f2_of qs) /\ 1947154 <= R64 (f2_of qs) <= 2322141.
Proof. unfold f2_of. destruct (Z.eqb qs 0); apply withinZ; try lia; vm_compute; reflexivity. Qed.
Lemma f2_suo : R64 (f2_of 0) = 1947154.
Proof.
  assert (H : within (fZ 1947154) (fZ 1947154) (f2_of 0) = true) by (vm_compute; reflexivity).
  apply withinZ in H as [_ H]; lra || lia.
Qed.
Lemma f2_qi : 2322140 <= R64 (f2_of 1).
Proof.
  assert (H : within (fZ 2322140) (fZ 2322141) (f2_of 1) = true) by (vm_compute; reflexivity).
  apply withinZ in H as [_ H]; lra || lia.
Qed.
