(** The double computations of toJD / setFromJD equal the integer closed forms. *)
From Coq Require Import ZArith Reals Lia Lra Bool List.
From Coq Require Import Floats.SpecFloat.
From Flocq Require Import Core IEEE754.BinarySingleNaN.
From Verif Require Import F64 F64R F64T CalModel CalSpec CalZ CalZ2.
Open Scope R_scope.
Ltac Zify.zify_post_hook ::= idtac.

Definition Zrange (lo : Z) (n : nat) : list Z := List.map (fun k => (lo + Z.of_nat k)%Z) (List.seq 0 n).
Lemma in_Zrange lo n z : (lo <= z < lo + Z.of_nat n)%Z -> In z (Zrange lo n).
Proof.
  intros H. unfold Zrange. apply in_map_iff. exists (Z.to_nat (z - lo)). split; [lia|]. apply in_seq. lia.
Qed.

Ltac small := rewrite bpow100; first [lra | lia].
Ltac vm := vm_compute; reflexivity.

Lemma lit_365_25 : ok (lit 36525 100) /\ R64 (lit 36525 100) = IZR 1461 / IZR 4.
Proof. apply lit_val; [lia|vm]. Qed.
Lemma lit_36524_25 : ok (lit 3652425 100) /\ R64 (lit 3652425 100) = IZR 146097 / IZR 4.
Proof. apply lit_val; [lia|vm]. Qed.
Lemma lit_1867216_25 : ok (lit 186721625 100) /\ R64 (lit 186721625 100) = IZR 7468865 / IZR 4.
Proof. apply lit_val; [lia|vm]. Qed.
Lemma lit_1524_5 : ok (lit 15245 10) /\ R64 (lit 15245 10) = IZR 3049 / IZR 2.
Proof. apply lit_val; [lia|vm]. Qed.
Lemma lit_half : ok (lit 5 10) /\ R64 (lit 5 10) = IZR 1 / IZR 2.
Proof. apply lit_val; [lia|vm]. Qed.

(** A bound on |IZR n| usable by lra. *)
Lemma IZR_abs n k : (Z.abs n <= k)%Z -> - IZR k <= IZR n <= IZR k.
Proof. intros H. split; [rewrite <- opp_IZR|]; apply IZR_le; lia. Qed.

(** ** setFromJD *)

Lemma mk_int_in' z : in_int z = true -> mk_int z = Some z.
Proof. unfold mk_int. now intros ->. Qed.

Lemma sfj_greg_ok d : in_int d = true -> sfj_greg d = mk_int (cal_greg d).
Proof.
  intros I. assert (B : (-2147483648 <= d <= 2147483647)%Z) by (unfold in_int, int_min, int_max in I; lia).
  unfold sfj_greg, cal_greg. destruct (Z.leb_spec 2299161 d) as [G|G]; [|now rewrite mk_int_in'].
  destruct lit_1867216_25 as [O1 E1]. destruct lit_36524_25 as [O2 E2].
  destruct (fZ_ok d) as [O3 E3]; [lia|].
  assert (S : R64 (fZ d) - R64 (lit 186721625 100) = IZR (4 * d - 7468865) / 4).
  { rewrite E1, E3, minus_IZR, mult_IZR. field. }
  assert (SB : - IZR (2 ^ 33) <= IZR (4 * d - 7468865) <= IZR (2 ^ 33)) by (apply IZR_abs; lia).
  destruct (fsub_ok (fZ d) (lit 186721625 100)) as [O4 E4]; try assumption.
  { rewrite S. apply Rabs_small with (IZR (2 ^ 33)); [apply Rabs_le; lra | small]. }
  rewrite S, rnd_quarter in E4 by lia.
  assert (Q : R64 (fsub (fZ d) (lit 186721625 100)) / R64 (lit 3652425 100) = IZR (4 * d - 7468865) / IZR 146097).
  { rewrite E4, E2. field. }
  destruct (fdiv_ok (fsub (fZ d) (lit 186721625 100)) (lit 3652425 100)) as [O5 E5]; try assumption.
  { rewrite E2. lra. }
  { rewrite Q. apply Rabs_small with (IZR (2 ^ 33)); [apply Rabs_le; lra | small]. }
  rewrite int2_ok by easy. rewrite E5, Q, floor_rnd_div by lia.
  set (c := ((4 * d - 7468865) / 146097)%Z).
  assert (Bc : (0 <= c <= 100000)%Z) by (unfold c; split; [apply Z.div_pos; lia | apply Z.div_le_upper_bound; lia]).
  rewrite mk_int_in by (unfold int_min, int_max; lia). cbn [obind].
  destruct (fZ_ok c) as [O6 E6]; [lia|]. destruct (fZ_ok 4) as [O7 E7]; [lia|].
  rewrite (int2_div_Z _ _ c 4 O6 O7 E6 E7) by lia.
  assert (Bq : (0 <= c / 4 <= 100000)%Z) by (split; [apply Z.div_pos; lia | apply Z.div_le_upper_bound; lia]).
  cbv zeta. fold c.
  rewrite (mk_int_in (c / 4)) by (unfold int_min, int_max; lia). cbn [obind].
  rewrite (mk_int_in (1 + c)) by (unfold int_min, int_max; lia). cbn [obind].
  rewrite (mk_int_in (1 + c - c / 4)) by (unfold int_min, int_max; lia). cbn [obind].
  reflexivity.
Qed.

Lemma mul365_ok x k : ok x -> R64 x = IZR k -> (Z.abs k <= 2 ^ 33)%Z ->
  ok (fmul (lit 36525 100) x) /\ R64 (fmul (lit 36525 100) x) = IZR (1461 * k) / 4.
Proof.
  intros O E B. destruct lit_365_25 as [O2 E2].
  assert (P : R64 (lit 36525 100) * R64 x = IZR (1461 * k) / 4) by (rewrite E2, E, mult_IZR; field).
  assert (KB : - IZR (2 ^ 45) <= IZR (1461 * k) <= IZR (2 ^ 45)) by (apply IZR_abs; lia).
  destruct (fmul_ok (lit 36525 100) x) as [O3 E3]; try assumption.
  { rewrite P. apply Rabs_small with (IZR (2 ^ 45)); [apply Rabs_le; lra | small]. }
  split; [easy|]. rewrite E3, P. apply rnd_quarter. lia.
Qed.

Lemma sfj_year_ok d : (-2147483648 <= d <= 2147483647)%Z ->
  int2 (fdiv (fsub (fZ d) (lit 1221 10)) (lit 36525 100)) = Some ((20 * d - 2442) / 7305)%Z.
Proof.
  intros B. destruct (lit_near 1221 10 7) as [O1 E1]; try lia. destruct lit_365_25 as [O2 E2].
  destruct (fZ_ok d) as [O3 E3]; [lia|].
  set (l := R64 (lit 1221 10)) in *.
  assert (DB : - IZR 2147483648 <= IZR d <= IZR 2147483648) by (apply IZR_abs; lia).
  assert (K1 : bpow radix2 (7 - 54) = / IZR (2 ^ 47)) by reflexivity.
  rewrite K1 in E1. apply Rabs_le_inv in E1.
  assert (B32 : bpow radix2 32 = 4294967296) by reflexivity.
  destruct (fsub_ok (fZ d) (lit 1221 10)) as [O4 E4]; try assumption.
  { rewrite E3. fold l. apply Rabs_small with (IZR (2 ^ 33)); [apply Rabs_le; lra | small]. }
  rewrite E3 in E4. fold l in E4.
  assert (R1 : Rabs (rnd (IZR d - l) - (IZR d - l)) <= bpow radix2 (32 - 54)).
  { apply rnd_err; [lia|]. rewrite B32. apply Rabs_le. lra. }
  assert (K2 : bpow radix2 (32 - 54) = / IZR (2 ^ 22)) by reflexivity.
  rewrite K2 in R1. apply Rabs_le_inv in R1.
  set (x := rnd (IZR d - l)) in *.
  set (t := fsub (fZ d) (lit 1221 10)) in *.
  assert (P : R64 t / R64 (lit 36525 100) = x * (4 / 1461)) by (rewrite E4, E2; field).
  destruct (fdiv_ok t (lit 36525 100)) as [O5 E5]; try assumption.
  { rewrite E2. lra. }
  { rewrite P. apply Rabs_small with (IZR (2 ^ 33)); [apply Rabs_le; lra | small]. }
  rewrite P in E5.
  assert (R2 : Rabs (rnd (x * (4 / 1461)) - x * (4 / 1461)) <= bpow radix2 (32 - 54)).
  { apply rnd_err; [lia|]. rewrite B32. apply Rabs_le. lra. }
  rewrite K2 in R2. apply Rabs_le_inv in R2.
  rewrite int2_ok by easy. rewrite E5.
  rewrite (floor_near (20 * d - 2442) 7305); try lia.
  - apply mk_int_in. unfold int_min, int_max.
    split; [apply Z.div_le_lower_bound; lia | apply Z.div_le_upper_bound; lia].
  - intros M. apply Z.mod_divide in M; [|lia]. destruct M as [q M]. lia.
  - replace (IZR (20 * d - 2442) / 7305) with ((IZR d - 1221 / 10) * (4 / 1461)) by (rewrite minus_IZR, mult_IZR; field).
    apply Rabs_def1; lra.
Qed.

Lemma sfj_month_ok d : (1 <= d <= 500)%Z ->
  int2 (fdiv (fZ d) (lit 30601 1000)) = Some (1000 * d / 30601)%Z.
Proof.
  intros B.
  assert (T : forallb (fun d => match int2 (fdiv (fZ d) (lit 30601 1000)) with Some v => Z.eqb v (1000 * d / 30601) | None => false end)
              (Zrange 1 500) = true) by vm.
  rewrite forallb_forall in T. specialize (T d (in_Zrange 1 500 d ltac:(lia))).
  destruct (int2 _); [|easy]. f_equal. now apply Z.eqb_eq.
Qed.

Lemma sfj_mdays_ok q : (0 <= q <= 20)%Z ->
  int2 (fmul (lit 30601 1000) (fZ q)) = Some (30601 * q / 1000)%Z.
Proof.
  intros B.
  assert (T : forallb (fun q => match int2 (fmul (lit 30601 1000) (fZ q)) with Some v => Z.eqb v (30601 * q / 1000) | None => false end)
              (Zrange 0 21) = true) by vm.
  rewrite forallb_forall in T. specialize (T q (in_Zrange 0 21 q ltac:(lia))).
  destruct (int2 _); [|easy]. f_equal. now apply Z.eqb_eq.
Qed.

Definition ymd (c : cdate) : Z * Z * Z := (cy c, cm c, cd c).

Lemma sfj_ymd_ok d : in_int d = true ->
  sfj_ymd d = if in_int (d + 1524) then Some (ymd (cal_ymd d)) else None.
Proof.
  intros I0. unfold sfj_ymd. unfold mk_int at 1. destruct (in_int (d + 1524)) eqn:I; [|easy].
  cbn [obind]. set (e := (d + 1524)%Z) in *.
  assert (B : (-2147483648 <= e <= 2147483647)%Z) by (unfold in_int, int_min, int_max in I; lia).
  assert (B2 : (-2147482124 <= e)%Z) by (unfold in_int, int_min, int_max in I0; lia).
  rewrite sfj_year_ok by easy. cbn [obind]. set (y := ((20 * e - 2442) / 7305)%Z).
  assert (By : (7305 * y <= 20 * e - 2442 < 7305 * y + 7305)%Z).
  { unfold y. pose proof (Z.div_mod (20 * e - 2442) 7305). pose proof (Z.mod_pos_bound (20 * e - 2442) 7305). lia. }
  destruct (fZ_ok y) as [O1 E1]; [lia|].
  destruct (mul365_ok (fZ y) y O1 E1 ltac:(lia)) as [O2 E2].
  rewrite int2_ok by easy. rewrite E2. change 4 with (IZR 4). rewrite Zfloor_div by lia.
  set (f := (1461 * y / 4)%Z).
  assert (Bf : (4 * f <= 1461 * y < 4 * f + 4)%Z).
  { unfold f. pose proof (Z.div_mod (1461 * y) 4). pose proof (Z.mod_pos_bound (1461 * y) 4). lia. }
  rewrite mk_int_in by (unfold int_min, int_max; lia). cbn [obind].
  assert (Br : (122 <= e - f <= 490)%Z) by lia.
  rewrite mk_int_in by (unfold int_min, int_max; lia). cbn [obind].
  rewrite sfj_month_ok by lia. cbn [obind]. set (q := (1000 * (e - f) / 30601)%Z).
  assert (Bq : (3 <= q <= 16)%Z).
  { unfold q. split; [apply Z.div_le_lower_bound; lia|]. assert (1000 * (e - f) / 30601 < 17)%Z by (apply Z.div_lt_upper_bound; lia). lia. }
  rewrite sfj_mdays_ok by lia. cbn [obind].
  assert (Bg : (0 <= 30601 * q / 1000 <= 500)%Z).
  { split; [apply Z.div_pos; lia|]. apply Z.div_le_upper_bound; lia. }
  rewrite mk_int_in by (unfold int_min, int_max; lia). cbn [obind].
  unfold cal_ymd. fold e. cbv zeta. fold y. fold f. fold q.
  destruct (13 <? q)%Z; repeat (rewrite mk_int_in by (unfold int_min, int_max; lia); cbn [obind]); reflexivity.
Qed.

(** ** The rounded sum jd + 0.5 and its day number *)

Definition half_up (jd : f64) : R := rnd (R64 jd + / 2).

Lemma add_half_ok jd : ok jd -> Rabs (R64 jd) <= bpow radix2 32 ->
  ok (fadd jd (lit 5 10)) /\ R64 (fadd jd (lit 5 10)) = half_up jd.
Proof.
  intros O B. destruct lit_half as [O1 E1]. destruct (fadd_ok jd (lit 5 10)) as [O2 E2]; try assumption.
  - rewrite E1. apply Rabs_small with (IZR (2 ^ 33)); [|small].
    apply Rabs_le_inv in B. change (bpow radix2 32) with 4294967296 in B. apply Rabs_le. lra.
  - split; [assumption|]. rewrite E2, E1. unfold half_up. do 2 f_equal. lra.
Qed.

(** ** x - floor x is exact except for tiny negative x *)
Lemma repr_form x : repr x -> exists k e, x = IZR k * bpow radix2 e /\ (Z.abs k <= 2 ^ 53)%Z /\ (-1074 <= e)%Z.
Proof.
  intros H. apply (FLT_format_generic radix2 (-1074) 53) in H. destruct H as [[k e] E1 E2 E3].
  exists k, e. simpl in *. repeat split; try easy. change (Z.pow_pos 2 53) with (2 ^ 53)%Z in E2. lia.
Qed.

Lemma frac_form k e : (e < 0)%Z ->
  IZR k * bpow radix2 e - IZR (Zfloor (IZR k * bpow radix2 e)) = IZR (k mod 2 ^ (- e)) * bpow radix2 e.
Proof.
  intros He. assert (D : (0 < 2 ^ (- e))%Z) by (apply Z.pow_pos_nonneg; lia).
  assert (DR : 0 < IZR (2 ^ (- e))) by now apply IZR_lt.
  assert (E : forall k, IZR k * bpow radix2 e = IZR k / IZR (2 ^ (- e))).
  { intros j. change (IZR j * bpow radix2 e) with (F2R (Float radix2 j e)). now apply F2R_neg. }
  rewrite !E, Zfloor_div by easy. rewrite Z.mod_eq by lia. rewrite minus_IZR, mult_IZR. field. lra.
Qed.

Lemma frac_int k e : (0 <= e)%Z ->
  IZR k * bpow radix2 e - IZR (Zfloor (IZR k * bpow radix2 e)) = 0.
Proof.
  intros He. assert (E : IZR k * bpow radix2 e = IZR (k * 2 ^ e)).
  { change (IZR k * bpow radix2 e) with (F2R (Float radix2 k e)). now apply F2R_pos. }
  rewrite !E, Zfloor_IZR. lra.
Qed.

Lemma repr_0 : repr 0.
Proof. apply repr_IZR. lia. Qed.

Lemma frac_repr_nonneg x : repr x -> 0 <= x -> repr (x - IZR (Zfloor x)).
Proof.
  intros H P. destruct (repr_form x H) as (k & e & E & Bk & Be).
  destruct (Z_lt_le_dec e 0) as [N|N].
  - rewrite E, frac_form by easy. apply repr_scaled; [|easy].
    assert (0 <= k)%Z.
    { apply le_IZR. apply Rmult_le_reg_r with (bpow radix2 e); [apply bpow_gt_0|]. rewrite <- E. lra. }
    assert (D : (0 < 2 ^ (- e))%Z) by (apply Z.pow_pos_nonneg; lia).
    pose proof (Z.mod_pos_bound k _ D). pose proof (Z.mod_le k _ H0 D). lia.
  - rewrite E, frac_int by easy. apply repr_0.
Qed.

Lemma frac_repr_multiple k e : (-53 <= e)%Z -> repr (IZR k * bpow radix2 e - IZR (Zfloor (IZR k * bpow radix2 e))).
Proof.
  intros B. destruct (Z_lt_le_dec e 0) as [N|N].
  - rewrite frac_form by easy. apply repr_scaled; [|lia].
    assert (D : (0 < 2 ^ (- e))%Z) by (apply Z.pow_pos_nonneg; lia).
    pose proof (Z.mod_pos_bound k _ D). assert (2 ^ (- e) <= 2 ^ 53)%Z by (apply Z.pow_le_mono_r; lia). lia.
  - rewrite frac_int by easy. apply repr_0.
Qed.

(** a representable number that is large enough is a multiple of 2^-53 *)
Lemma repr_multiple x : repr x -> / 2 <= Rabs x -> exists k, x = IZR k * bpow radix2 (-53).
Proof.
  intros H B. assert (G := H). red in G. unfold generic_format in G.
  set (z := Ztrunc (scaled_mantissa radix2 (fexp 53 1024) x)) in G.
  assert (C : (-53 <= cexp radix2 (fexp 53 1024) x)%Z).
  { unfold cexp, fexp, emin. assert (0 <= mag radix2 x)%Z.
    { assert (L : (0 < mag radix2 x)%Z \/ (mag radix2 x <= 0)%Z) by lia. destruct L as [?|L]; [lia|].
      apply mag_ge_bpow. change (bpow radix2 (0 - 1)) with (/ 2). easy. }
    lia. }
  set (c := cexp radix2 (fexp 53 1024) x) in *. exists (z * 2 ^ (c + 53))%Z.
  rewrite G at 1. unfold F2R; simpl Fnum; simpl Fexp. rewrite mult_IZR.
  change (2 ^ (c + 53))%Z with (radix2 ^ (c + 53))%Z. rewrite (IZR_Zpower radix2 (c + 53)) by lia.
  rewrite Rmult_assoc, <- bpow_plus. do 2 f_equal. lia.
Qed.

Lemma half_up_frac jd : ok jd -> repr (half_up jd - IZR (Zfloor (half_up jd))).
Proof.
  intros O. unfold half_up. pose proof (repr_R64 _ O) as H. set (x := R64 jd) in *.
  destruct (Rle_lt_dec (- / 2) x) as [P|N].
  - apply frac_repr_nonneg; [apply rnd_is_repr|]. apply rnd_ge_repr; [apply repr_0|lra].
  - destruct (repr_multiple x H) as (k & E). { rewrite Rabs_left; lra. }
    assert (E2 : x + / 2 = IZR (k + 2 ^ 52) * bpow radix2 (-53)).
    { rewrite E, plus_IZR, Rmult_plus_distr_r. f_equal. change (bpow radix2 (-53)) with (/ IZR (2 * 2 ^ 52)).
      rewrite mult_IZR. field. apply Rgt_not_eq, IZR_lt. lia. }
    assert (M : exists j, rnd (x + / 2) = IZR j * bpow radix2 (-53)).
    { destruct (Z_le_gt_dec (Z.abs (k + 2 ^ 52)) (2 ^ 53)) as [L|G].
      - exists (k + 2 ^ 52)%Z. rewrite E2. apply rnd_repr, repr_scaled; lia.
      - apply repr_multiple; [apply rnd_is_repr|].
        assert (x + / 2 <= - 1).
        { rewrite E2. replace (-1) with (IZR (- 2 ^ 53) * bpow radix2 (-53)).
          - apply Rmult_le_compat_r; [apply bpow_ge_0|]. apply IZR_le.
            assert (k + 2 ^ 52 < 0)%Z; [|lia]. apply lt_IZR. apply Rmult_lt_reg_r with (bpow radix2 (-53)); [apply bpow_gt_0|].
            rewrite <- E2, Rmult_0_l. lra.
          - change (bpow radix2 (-53)) with (/ IZR (2 ^ 53)). rewrite opp_IZR. field. apply Rgt_not_eq, IZR_lt. lia. }
        assert (rnd (x + / 2) <= -1) by (apply rnd_le_repr; [apply (repr_IZR (-1)); lia | easy]).
        rewrite Rabs_left; lra. }
    destruct M as (j & ->). apply frac_repr_multiple. lia.
Qed.

Lemma repr_lt_1 f : repr f -> f < 1 -> f <= 1 - bpow radix2 (-53).
Proof.
  intros H L. destruct (Rle_lt_dec f (/ 2)) as [S|S].
  - change (bpow radix2 (-53)) with (/ 9007199254740992). lra.
  - destruct (repr_multiple f H) as (k & E). { rewrite Rabs_right; lra. }
    assert (E1 : 1 = IZR (2 ^ 53) * bpow radix2 (-53)).
    { change (bpow radix2 (-53)) with (/ IZR (2 ^ 53)). rewrite Rinv_r; [easy|]. apply Rgt_not_eq, IZR_lt. lia. }
    assert (k <= 2 ^ 53 - 1)%Z.
    { assert (k < 2 ^ 53)%Z; [|lia]. apply lt_IZR. apply Rmult_lt_reg_r with (bpow radix2 (-53)); [apply bpow_gt_0|].
      rewrite <- E, <- E1. easy. }
    rewrite E, E1. replace (IZR (2 ^ 53) * bpow radix2 (-53) - bpow radix2 (-53)) with (IZR (2 ^ 53 - 1) * bpow radix2 (-53)).
    + apply Rmult_le_compat_r; [apply bpow_ge_0|]. now apply IZR_le.
    + rewrite minus_IZR. ring.
Qed.

(** the largest double below one, times 24 and times 60 *)
Definition below1 : f64 := S754_finite false 9007199254740991 (-53).
Lemma below1_ok : ok below1 /\ R64 below1 = 1 - bpow radix2 (-53).
Proof.
  split; [now split|]. unfold R64, below1. simpl SF2R. rewrite F2R_neg by lia.
  change (bpow radix2 (-53)) with (/ 9007199254740992). change (2 ^ - (-53))%Z with 9007199254740992%Z. simpl cond_Zopp. lra.
Qed.

Lemma scale_lt f q : ok f -> 0 <= R64 f < 1 -> q = 24%Z \/ q = 60%Z ->
  ok (fmul f (fZ q)) /\ 0 <= R64 (fmul f (fZ q)) < IZR q /\ R64 (fmul f (fZ q)) = rnd (R64 f * IZR q).
Proof.
  intros O B Q. destruct (fZ_ok q) as [O1 E1]; [lia|].
  assert (Q1 : 0 < IZR q <= 60) by (destruct Q; subst q; lra).
  destruct (fmul_ok f (fZ q)) as [O2 E2]; try assumption.
  { rewrite E1. apply Rabs_small with 60; [|small]. rewrite Rabs_right by nra. nra. }
  split; [assumption|]. rewrite E2, E1. split; [|reflexivity]. split.
  - apply rnd_ge_repr; [apply repr_0|nra].
  - pose proof (repr_lt_1 _ (repr_R64 _ O) ltac:(lra)) as L. destruct below1_ok as [O3 E3].
    apply Rle_lt_trans with (R64 (fmul below1 (fZ q))).
    + destruct (fmul_ok below1 (fZ q)) as [O4 E4]; try assumption.
      { rewrite E1, E3. change (bpow radix2 (-53)) with (/ 9007199254740992). apply Rabs_small with 60; [|small]. rewrite Rabs_right by nra. nra. }
      rewrite E4, E1, E3. apply rnd_le. nra.
    + destruct Q; subst q.
      * assert (K : fmul below1 (fZ 24) = S754_finite false 6755399441055743 (-48)) by (vm_compute; reflexivity).
        rewrite K. unfold R64. simpl SF2R. rewrite F2R_neg by lia. change (2 ^ - (-48))%Z with 281474976710656%Z. simpl cond_Zopp. lra.
      * assert (K : fmul below1 (fZ 60) = S754_finite false 8444249301319679 (-47)) by (vm_compute; reflexivity).
        rewrite K. unfold R64. simpl SF2R. rewrite F2R_neg by lia. change (2 ^ - (-47))%Z with 140737488355328%Z. simpl cond_Zopp. lra.
Qed.

Lemma frac_step x : ok x -> 0 <= R64 x < 100 ->
  let k := Zfloor (R64 x) in
  int2 x = Some k /\ (0 <= k < 100)%Z /\ ok (fsub x (fZ k)) /\ R64 (fsub x (fZ k)) = R64 x - IZR k /\ 0 <= R64 x - IZR k < 1.
Proof.
  intros O B k.
  assert (L : IZR k <= R64 x) by apply Zfloor_lb. assert (U : R64 x < IZR k + 1) by apply Zfloor_ub.
  assert (Bk : (0 <= k < 100)%Z).
  { split; [|apply lt_IZR; lra]. assert (-1 < k)%Z; [|lia]. apply lt_IZR. lra. }
  destruct (fZ_ok k) as [O1 E1]; [lia|].
  destruct (fsub_ok x (fZ k)) as [O2 E2]; try assumption.
  { rewrite E1. apply Rabs_small with 1; [apply Rabs_le; lra | small]. }
  repeat split; try lia; try lra; try apply O2.
  - rewrite int2_ok by easy. apply mk_int_in. fold k. unfold int_min, int_max. lia.
  - rewrite E2, E1. apply rnd_repr. apply frac_repr_nonneg; [now apply repr_R64|lra].
Qed.

Lemma sfj_hms_ok F : ok F -> 0 <= R64 F < 1 ->
  exists hh mi ss, sfj_hms F = Some (hh, mi, ss) /\ (0 <= hh < 24)%Z /\ (0 <= mi < 60)%Z /\ ok ss /\ 0 <= R64 ss < 60 /\
    Rabs (IZR hh * 3600 + IZR mi * 60 + R64 ss - R64 F * 86400) <= bpow radix2 (-34).
Proof.
  intros O B. unfold sfj_hms.
  destruct (scale_lt F 24 O B ltac:(auto)) as (O1 & B1 & E1).
  destruct (frac_step _ O1 ltac:(lra)) as (I2 & B2 & O2 & E2 & C2).
  set (x1 := fmul F (fZ 24)) in *. set (hh := Zfloor (R64 x1)) in *. rewrite I2. cbn [obind].
  destruct (scale_lt _ 60 O2 ltac:(rewrite E2; lra) ltac:(auto)) as (O3 & B3 & E3).
  destruct (frac_step _ O3 ltac:(lra)) as (I4 & B4 & O4 & E4 & C4).
  set (x2 := fsub x1 (fZ hh)) in *. set (x3 := fmul x2 (fZ 60)) in *. set (mi := Zfloor (R64 x3)) in *. rewrite I4. cbn [obind].
  destruct (scale_lt _ 60 O4 ltac:(rewrite E4; lra) ltac:(auto)) as (O5 & B5 & E5).
  set (x4 := fsub x3 (fZ mi)) in *. set (x5 := fmul x4 (fZ 60)) in *.
  exists hh, mi, x5. repeat split; try lia; try lra; try apply O5.
  - apply lt_IZR. assert (IZR hh <= R64 x1) by apply Zfloor_lb. lra.
  - apply lt_IZR. assert (IZR mi <= R64 x3) by apply Zfloor_lb. lra.
  - assert (K : forall x, 0 <= x < 60 -> Rabs (rnd x - x) <= bpow radix2 (6 - 54)).
    { intros x Bx. apply rnd_err; [lia|]. change (bpow radix2 6) with 64. apply Rabs_le. lra. }
    assert (K1 := K (R64 F * 24) ltac:(lra)). assert (K3 := K (R64 x2 * 60) ltac:(lra)). assert (K5 := K (R64 x4 * 60) ltac:(lra)).
    rewrite <- E1 in K1. rewrite <- E3 in K3. rewrite <- E5 in K5. change (bpow radix2 (6 - 54)) with (/ 281474976710656) in *.
    change (bpow radix2 (-34)) with (/ 17179869184). apply Rabs_le_inv in K1, K3, K5. apply Rabs_le. lra.
Qed.
