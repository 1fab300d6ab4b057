(** Real-number meaning of the double operations of [F64], obtained from Flocq. *)
From Coq Require Import ZArith Reals Lia Lra Bool.
From Coq Require Import Floats.SpecFloat.
From Flocq Require Import Core IEEE754.BinarySingleNaN.
From Verif Require Import F64.
Open Scope R_scope.

Definition R64 (x : f64) : R := SF2R radix2 x.
Definition ok (x : f64) : Prop := valid_binary 53 1024 x = true /\ is_finite_SF x = true.
Definition rnd (x : R) : R := round radix2 (SpecFloat.fexp 53 1024) ZnearestE x.

Global Instance Hprec53 : FLX.Prec_gt_0 53 := eq_refl _.
Global Instance Hmax1024 : Prec_lt_emax 53 1024 := eq_refl _.
Global Instance fexp_valid : Valid_exp (SpecFloat.fexp 53 1024).
Proof. apply (FLT_exp_valid (-1074) 53). Qed.

Lemma rne_equiv s m l : round_nearest_even m l = choice_mode mode_NE s m l.
Proof.
  case l; [reflexivity|intro c]. case c; [ | reflexivity..].
  now simpl; unfold Round.cond_incr; case Z.even.
Qed.

Lemma bra_equiv sx mx ex lx :
  SpecFloat.binary_round_aux 53 1024 sx mx ex lx = BinarySingleNaN.binary_round_aux 53 1024 mode_NE sx mx ex lx.
Proof.
  unfold SpecFloat.binary_round_aux, BinarySingleNaN.binary_round_aux.
  set (mrse' := shr_fexp _ _ _ _ _). case mrse'; intros mrs' e'; simpl.
  now rewrite (rne_equiv sx).
Qed.

Lemma br_equiv s m e : SpecFloat.binary_round 53 1024 s m e = BinarySingleNaN.binary_round 53 1024 mode_NE s m e.
Proof.
  unfold SpecFloat.binary_round, BinarySingleNaN.binary_round, shl_align_fexp.
  set (mez := shl_align _ _ _); case mez as [mz ez]. apply bra_equiv.
Qed.

Lemma bn_equiv m e szero :
  SpecFloat.binary_normalize 53 1024 m e szero
  = B2SF (BinarySingleNaN.binary_normalize 53 1024 Hprec53 Hmax1024 mode_NE m e szero).
Proof. case m as [ | p | p]; [easy | |]; simpl; rewrite B2SF_SF2B; apply br_equiv. Qed.

Notation bf := (binary_float 53 1024).

Lemma fmul_equiv (x y : bf) : fmul (B2SF x) (B2SF y) = B2SF (Bmult mode_NE x y).
Proof.
  unfold fmul. destruct x as [sx|sx| |sx mx ex Bx]; destruct y as [sy|sy| |sy my ey By]; [now trivial..|].
  simpl. rewrite B2SF_SF2B. apply bra_equiv.
Qed.

Lemma fadd_equiv (x y : bf) : fadd (B2SF x) (B2SF y) = B2SF (Bplus mode_NE x y).
Proof.
  unfold fadd. destruct x as [sx|sx| |sx mx ex Bx]; destruct y as [sy|sy| |sy my ey By];
  [now (trivial || simpl; case Bool.eqb).. | ].
  apply bn_equiv.
Qed.

Lemma fsub_equiv (x y : bf) : fsub (B2SF x) (B2SF y) = B2SF (Bminus mode_NE x y).
Proof.
  unfold fsub. destruct x as [sx|sx| |sx mx ex Bx]; destruct y as [sy|sy| |sy my ey By];
  [now (trivial || simpl; case Bool.eqb).. | ].
  simpl. unfold Zminus. rewrite <- cond_Zopp_negb. apply bn_equiv.
Qed.

Lemma fdiv_equiv (x y : bf) : fdiv (B2SF x) (B2SF y) = B2SF (Bdiv mode_NE x y).
Proof.
  unfold fdiv. destruct x as [sx|sx| |sx mx ex Bx]; destruct y as [sy|sy| |sy my ey By];
  [now (trivial || simpl; case Bool.eqb).. | ].
  simpl. rewrite B2SF_SF2B.
  set (melz := SFdiv_core_binary _ _ _ _ _ _). case melz as [[mz ez] lz]. apply bra_equiv.
Qed.

Lemma ok_B x : ok x -> exists b : bf, x = B2SF b /\ is_finite b = true /\ B2R b = R64 x.
Proof.
  intros [V Fi]. exists (SF2B x V). rewrite B2SF_SF2B, is_finite_SF2B, B2R_SF2B. now repeat split.
Qed.

Lemma ok_of_B (b : bf) : is_finite b = true -> ok (B2SF b).
Proof. intros H; split; [apply valid_binary_B2SF | now rewrite is_finite_SF_B2SF]. Qed.

Lemma R64_B (b : bf) : R64 (B2SF b) = B2R b.
Proof. apply SF2R_B2SF. Qed.

Lemma rnd_eq x : round radix2 (fexp 53 1024) (round_mode mode_NE) x = rnd x.
Proof. reflexivity. Qed.

Lemma fadd_ok0 x y : ok x -> ok y -> Rabs (rnd (R64 x + R64 y)) < bpow radix2 1024 ->
  ok (fadd x y) /\ R64 (fadd x y) = rnd (R64 x + R64 y).
Proof.
  intros Hx Hy H. destruct (ok_B _ Hx) as (bx & -> & Fx & Rx). destruct (ok_B _ Hy) as (by0 & -> & Fy & Ry).
  rewrite fadd_equiv. generalize (Bplus_correct 53 1024 _ _ mode_NE bx by0 Fx Fy).
  rewrite Rx, Ry, rnd_eq, Rlt_bool_true by easy. intros (E & Fi & _).
  split; [now apply ok_of_B | now rewrite R64_B].
Qed.

Lemma fsub_ok0 x y : ok x -> ok y -> Rabs (rnd (R64 x - R64 y)) < bpow radix2 1024 ->
  ok (fsub x y) /\ R64 (fsub x y) = rnd (R64 x - R64 y).
Proof.
  intros Hx Hy H. destruct (ok_B _ Hx) as (bx & -> & Fx & Rx). destruct (ok_B _ Hy) as (by0 & -> & Fy & Ry).
  rewrite fsub_equiv. generalize (Bminus_correct 53 1024 _ _ mode_NE bx by0 Fx Fy).
  rewrite Rx, Ry, rnd_eq, Rlt_bool_true by easy. intros (E & Fi & _).
  split; [now apply ok_of_B | now rewrite R64_B].
Qed.

Lemma fmul_ok0 x y : ok x -> ok y -> Rabs (rnd (R64 x * R64 y)) < bpow radix2 1024 ->
  ok (fmul x y) /\ R64 (fmul x y) = rnd (R64 x * R64 y).
Proof.
  intros Hx Hy H. destruct (ok_B _ Hx) as (bx & -> & Fx & Rx). destruct (ok_B _ Hy) as (by0 & -> & Fy & Ry).
  rewrite fmul_equiv. generalize (Bmult_correct 53 1024 _ _ mode_NE bx by0).
  rewrite Rx, Ry, rnd_eq, Rlt_bool_true by easy. intros (E & Fi & _).
  rewrite Fx, Fy in Fi.
  split; [now apply ok_of_B | now rewrite R64_B].
Qed.

Lemma fdiv_ok0 x y : ok x -> ok y -> R64 y <> 0 -> Rabs (rnd (R64 x / R64 y)) < bpow radix2 1024 ->
  ok (fdiv x y) /\ R64 (fdiv x y) = rnd (R64 x / R64 y).
Proof.
  intros Hx Hy N H. destruct (ok_B _ Hx) as (bx & -> & Fx & Rx). destruct (ok_B _ Hy) as (by0 & -> & Fy & Ry).
  rewrite fdiv_equiv. rewrite <- Ry in N. generalize (Bdiv_correct 53 1024 _ _ mode_NE bx by0 N).
  rewrite Rx, Ry, rnd_eq, Rlt_bool_true by easy. intros (E & Fi & _).
  rewrite Fx in Fi.
  split; [now apply ok_of_B | now rewrite R64_B].
Qed.

(** ** Properties of rounding *)

Lemma rnd_le x y : x <= y -> rnd x <= rnd y.
Proof. apply round_le; [apply fexp_valid | apply valid_rnd_N]. Qed.

Definition repr (x : R) : Prop := generic_format radix2 (SpecFloat.fexp 53 1024) x.

Lemma rnd_repr x : repr x -> rnd x = x.
Proof. apply round_generic; apply valid_rnd_N. Qed.

Lemma rnd_is_repr x : repr (rnd x).
Proof. apply generic_format_round; [apply fexp_valid | apply valid_rnd_N]. Qed.

Lemma repr_R64 x : ok x -> repr (R64 x).
Proof.
  intros H. destruct (ok_B _ H) as (b & -> & _ & E). rewrite <- E.
  apply generic_format_B2R.
Qed.

(** m * 2^e with |m| <= 2^53 and e not too small is representable. *)
Lemma repr_scaled m e : (Z.abs m <= 2 ^ 53)%Z -> (-1074 <= e)%Z -> repr (IZR m * bpow radix2 e).
Proof.
  intros Hm He. unfold repr.
  destruct (Z.eq_dec (Z.abs m) (2 ^ 53)) as [Em | Nm].
  - assert (exists s, m = (s * 2 ^ 52 * 2)%Z /\ (Z.abs s = 1)%Z) as (s & -> & Hs).
    { exists (Z.sgn m). destruct (Z.abs_spec m) as [[? ?]|[? ?]];
      [rewrite (Z.sgn_pos m) | rewrite (Z.sgn_neg m)]; try lia. }
    replace (IZR (s * 2 ^ 52 * 2) * bpow radix2 e) with (F2R (Float radix2 (s * 2 ^ 52) (e + 1))).
    + apply (generic_format_FLT radix2 (-1074) 53).
      refine (FLT_spec _ _ _ _ (Float radix2 (s * 2 ^ 52) (e + 1)) _ _ _); [reflexivity | | simpl Fexp; lia].
      simpl Fnum. change (radix2 ^ 53)%Z with (2 ^ 53)%Z. lia.
    + unfold F2R; simpl Fnum; simpl Fexp. rewrite bpow_plus, !(mult_IZR _ 2).
      change (bpow radix2 1) with 2. change (Z.pow_pos 2 52) with (2 ^ 52)%Z. ring.
  - replace (IZR m * bpow radix2 e) with (F2R (Float radix2 m e)) by reflexivity.
    apply (generic_format_FLT radix2 (-1074) 53).
    refine (FLT_spec _ _ _ _ (Float radix2 m e) _ _ _); [reflexivity | | simpl Fexp; lia].
    simpl Fnum. change (radix2 ^ 53)%Z with (2 ^ 53)%Z. lia.
Qed.

Lemma repr_IZR n : (Z.abs n <= 2 ^ 53)%Z -> repr (IZR n).
Proof. intros H. rewrite <- (Rmult_1_r (IZR n)). now apply (repr_scaled n 0). Qed.

Lemma rnd_IZR n : (Z.abs n <= 2 ^ 53)%Z -> rnd (IZR n) = IZR n.
Proof. intros H; now apply rnd_repr, repr_IZR. Qed.

Lemma rnd_ge_repr x y : repr x -> x <= y -> x <= rnd y.
Proof. intros H L. rewrite <- (rnd_repr x H). now apply rnd_le. Qed.
Lemma rnd_le_repr x y : repr y -> x <= y -> rnd x <= y.
Proof. intros H L. rewrite <- (rnd_repr y H). now apply rnd_le. Qed.

Lemma rnd_opp x : rnd (- x) = - rnd x.
Proof. apply round_NE_opp. Qed.

Lemma rnd_bound x n : (0 <= n <= 1023)%Z -> Rabs x <= bpow radix2 n -> Rabs (rnd x) < bpow radix2 1024.
Proof.
  intros Hn H. apply Rle_lt_trans with (bpow radix2 n).
  - assert (R1 : repr (bpow radix2 n)).
    { rewrite <- (Rmult_1_l (bpow _ _)). apply (repr_scaled 1); lia. }
    apply Rabs_le_inv in H. apply Rabs_le. split.
    + apply rnd_ge_repr; [|lra]. rewrite <- (Ropp_involutive (bpow radix2 n)) in R1.
      unfold repr in *. apply generic_format_opp. now rewrite Ropp_involutive in R1.
    + apply rnd_le_repr; [easy|lra].
  - apply bpow_lt; lia.
Qed.

(** absolute rounding error: half a unit in the last place of 2^k *)
Lemma rnd_err x k : (-1021 <= k)%Z -> Rabs x <= bpow radix2 k -> Rabs (rnd x - x) <= bpow radix2 (k - 54).
Proof.
  intros Hk H.
  assert (C : rnd x = x \/ Rabs x < bpow radix2 k).
  { destruct (Rle_lt_or_eq_dec _ _ H) as [L|E]; [now right|left].
    apply rnd_repr. apply Rabs_eq_Rabs in E || idtac.
    destruct (Rcase_abs x) as [N|P].
    - rewrite Rabs_left in E by easy. replace x with (- bpow radix2 k) by lra.
      apply generic_format_opp. rewrite <- (Rmult_1_l (bpow _ _)). apply (repr_scaled 1); lia.
    - rewrite Rabs_right in E by easy. rewrite E. rewrite <- (Rmult_1_l (bpow _ _)). apply (repr_scaled 1); lia. }
  destruct C as [E|L].
  - rewrite E, Rminus_diag_eq, Rabs_R0 by easy. apply bpow_ge_0.
  - eapply Rle_trans; [apply (error_le_half_ulp radix2 (SpecFloat.fexp 53 1024))|].
    assert (U : ulp radix2 (fexp 53 1024) x <= bpow radix2 (k - 53)).
    { destruct (Req_dec x 0) as [->|N].
      - change (fexp 53 1024) with (FLT_exp (-1074) 53). rewrite ulp_FLT_0 by easy. apply bpow_le; lia.
      - rewrite ulp_neq_0 by easy. apply bpow_le. unfold cexp, fexp, emin.
        assert (mag radix2 x <= k)%Z by (apply mag_le_bpow; easy). lia. }
    replace (k - 54)%Z with (-1 + (k - 53))%Z by lia. rewrite bpow_plus.
    change (bpow radix2 (-1)) with (/ 2). lra.
Qed.

(** ** Operations with simple no-overflow side conditions *)

Lemma fadd_ok x y : ok x -> ok y -> Rabs (R64 x + R64 y) <= bpow radix2 1000 ->
  ok (fadd x y) /\ R64 (fadd x y) = rnd (R64 x + R64 y).
Proof. intros Hx Hy H. apply fadd_ok0; try easy. eapply rnd_bound; [|exact H]; lia. Qed.

Lemma fsub_ok x y : ok x -> ok y -> Rabs (R64 x - R64 y) <= bpow radix2 1000 ->
  ok (fsub x y) /\ R64 (fsub x y) = rnd (R64 x - R64 y).
Proof. intros Hx Hy H. apply fsub_ok0; try easy. eapply rnd_bound; [|exact H]; lia. Qed.

Lemma fmul_ok x y : ok x -> ok y -> Rabs (R64 x * R64 y) <= bpow radix2 1000 ->
  ok (fmul x y) /\ R64 (fmul x y) = rnd (R64 x * R64 y).
Proof. intros Hx Hy H. apply fmul_ok0; try easy. eapply rnd_bound; [|exact H]; lia. Qed.

Lemma fdiv_ok x y : ok x -> ok y -> R64 y <> 0 -> Rabs (R64 x / R64 y) <= bpow radix2 1000 ->
  ok (fdiv x y) /\ R64 (fdiv x y) = rnd (R64 x / R64 y).
Proof. intros Hx Hy N H. apply fdiv_ok0; try easy. eapply rnd_bound; [|exact H]; lia. Qed.

Lemma fopp_ok x : ok x -> ok (fopp x) /\ R64 (fopp x) = - R64 x.
Proof.
  intros [V Fi]. split.
  - split; destruct x; simpl in *; easy.
  - unfold R64, fopp. destruct x as [s|s| |s m e]; simpl; try ring.
    unfold F2R; simpl Fnum; simpl Fexp. rewrite Ropp_mult_distr_l, <- opp_IZR. now destruct s.
Qed.

Lemma fZ_ok n : (Z.abs n <= 2 ^ 53)%Z -> ok (fZ n) /\ R64 (fZ n) = IZR n.
Proof.
  intros H. unfold fZ. rewrite bn_equiv.
  generalize (binary_normalize_correct 53 1024 Hprec53 Hmax1024 mode_NE n 0 false). cbv zeta.
  assert (E : F2R (Float radix2 n 0) = IZR n) by (unfold F2R; simpl; ring).
  rewrite E, rnd_eq, rnd_IZR by easy.
  rewrite Rlt_bool_true.
  - intros (R1 & F1 & _). split; [now apply ok_of_B | now rewrite R64_B].
  - apply Rle_lt_trans with (bpow radix2 53); [|apply bpow_lt; lia].
    rewrite <- abs_IZR. change (bpow radix2 53) with (IZR (2 ^ 53)). now apply IZR_le.
Qed.

Lemma Zfloor_div m d : (0 < d)%Z -> Zfloor (IZR m / IZR d) = (m / d)%Z.
Proof. intros H. apply Zfloor_div. lia. Qed.

Lemma F2R_neg m e : (e < 0)%Z -> F2R (Float radix2 m e) = IZR m / IZR (2 ^ (- e)).
Proof.
  intros H. unfold F2R, Rdiv. simpl Fnum; simpl Fexp. f_equal.
  change (2 ^ (- e))%Z with (radix2 ^ (- e))%Z. rewrite (IZR_Zpower radix2 (- e)) by lia. rewrite <- bpow_opp. now rewrite Z.opp_involutive.
Qed.

Lemma F2R_pos m e : (0 <= e)%Z -> F2R (Float radix2 m e) = IZR (m * 2 ^ e).
Proof.
  intros H. unfold F2R. simpl Fnum; simpl Fexp. rewrite mult_IZR. f_equal.
  change (2 ^ e)%Z with (radix2 ^ e)%Z. now rewrite (IZR_Zpower radix2 e).
Qed.

Lemma ffloorZ_ok x : ok x -> ffloorZ x = Some (Zfloor (R64 x)).
Proof.
  intros [V Fi]. destruct x as [s|s| |s m e]; try easy.
  - unfold R64; simpl. now rewrite Zfloor_IZR.
  - unfold R64, ffloorZ. simpl SF2R. f_equal.
    destruct (Zle_bool_spec 0 e) as [P|N].
    + now rewrite F2R_pos, Zfloor_IZR.
    + rewrite F2R_neg by easy. rewrite Zfloor_div; [easy|]. apply Z.pow_pos_nonneg; lia.
Qed.

Lemma ftruncZ_ok x : ok x -> ftruncZ x = Some (Ztrunc (R64 x)).
Proof.
  intros [V Fi]. destruct x as [s|s| |s m e]; try easy.
  - unfold R64; simpl. now rewrite Ztrunc_IZR.
  - unfold R64, ftruncZ. simpl SF2R. f_equal.
    destruct (Zle_bool_spec 0 e) as [P|N].
    + now rewrite F2R_pos, Ztrunc_IZR.
    + rewrite F2R_neg by easy.
      assert (D : (0 < 2 ^ (- e))%Z) by (apply Z.pow_pos_nonneg; lia).
      revert D. generalize (2 ^ (- e))%Z. intros d D.
      assert (DR : 0 < IZR d) by now apply IZR_lt.
      destruct s; simpl cond_Zopp.
      * rewrite Ztrunc_ceil.
        2:{ apply Rmult_le_reg_r with (IZR d); [easy|]. unfold Rdiv. rewrite Rmult_assoc, Rinv_l, Rmult_1_r, Rmult_0_l by lra.
            apply IZR_le; lia. }
        unfold Zceil.
        assert (EQ : - (IZR (Z.neg m) / IZR d) = IZR (Z.pos m) / IZR d).
        { change (Z.neg m) with (- Z.pos m)%Z. rewrite opp_IZR. field. lra. }
        simpl Z.opp. rewrite EQ. change (Z.neg m) with (- Z.pos m)%Z.
        rewrite Zfloor_div by easy. rewrite Z.quot_opp_l by lia. f_equal. now rewrite Z.quot_div_nonneg by lia.
      * rewrite Ztrunc_floor.
        2:{ apply Rmult_le_pos; [now apply IZR_le | apply Rlt_le, Rinv_0_lt_compat; easy]. }
        rewrite Zfloor_div by easy. now rewrite Z.quot_div_nonneg by lia.
Qed.

Lemma fcompare_ok x y : ok x -> ok y -> SFcompare x y = Some (Rcompare (R64 x) (R64 y)).
Proof.
  intros Hx Hy. destruct (ok_B _ Hx) as (bx & -> & Fx & Rx). destruct (ok_B _ Hy) as (by0 & -> & Fy & Ry).
  rewrite <- Rx, <- Ry. now apply (Bcompare_correct 53 1024).
Qed.

Lemma fltb_ok x y : ok x -> ok y -> fltb x y = Rlt_bool (R64 x) (R64 y).
Proof. intros Hx Hy. unfold fltb, SFltb. rewrite fcompare_ok by easy. unfold Rlt_bool. now destruct Rcompare. Qed.
Lemma fleb_ok x y : ok x -> ok y -> fleb x y = Rle_bool (R64 x) (R64 y).
Proof. intros Hx Hy. unfold fleb, SFleb. rewrite fcompare_ok by easy. unfold Rle_bool. now destruct Rcompare. Qed.
Lemma feqb_ok x y : ok x -> ok y -> feqb x y = Req_bool (R64 x) (R64 y).
Proof. intros Hx Hy. unfold feqb, SFeqb. rewrite fcompare_ok by easy. unfold Req_bool. now destruct Rcompare. Qed.

(** a valid mantissa has at most 53 bits *)
Lemma bounded_mantissa m e : SpecFloat.bounded 53 1024 m e = true -> (Z.pos m < 2 ^ 53)%Z.
Proof.
  intros H. unfold SpecFloat.bounded in H. apply andb_prop in H. destruct H as [H _].
  unfold SpecFloat.canonical_mantissa in H. apply Zeq_bool_eq in H.
  assert (D : (Z.pos (digits2_pos m) <= 53)%Z) by (unfold fexp, emin in H; lia).
  rewrite Digits.Zpos_digits2_pos in D.
  generalize (Digits.Zpower_gt_Zdigits radix2 53 (Z.pos m) D). now rewrite Z.abs_eq by lia.
Qed.

Lemma ffloor_ok x : ok x -> ok (ffloor x) /\ R64 (ffloor x) = IZR (Zfloor (R64 x)).
Proof.
  intros H. pose proof (ffloorZ_ok _ H) as E. destruct H as [V Fi].
  destruct x as [s|s| |s m e]; try easy.
  - simpl in *. unfold R64. simpl. rewrite Zfloor_IZR. split; [split|]; easy.
  - unfold ffloor. unfold ffloorZ in E. destruct (Zle_bool_spec 0 e) as [P|N].
    + split; [split; easy|]. apply (f_equal (fun o => match o with Some z => z | None => 0%Z end)) in E.
      cbv beta iota in E. rewrite <- E.
      unfold R64. simpl SF2R. rewrite F2R_pos by easy. easy.
    + apply (f_equal (fun o => match o with Some z => z | None => 0%Z end)) in E.
      cbv beta iota in E. rewrite <- E.
      assert (D : (1 < 2 ^ (- e))%Z) by (apply Z.pow_gt_1; lia).
      assert (M := bounded_mantissa _ _ V).
      set (q := (cond_Zopp s (Z.pos m) / 2 ^ (- e))%Z) in *.
      assert (Q : (Z.abs q <= 2 ^ 53)%Z).
      { unfold q. revert D M. generalize (2 ^ (- e))%Z. generalize (2 ^ 53)%Z. intros b d D M.
        set (z := cond_Zopp s (Z.pos m)). assert (Hz : (- Z.pos m <= z <= Z.pos m)%Z) by (destruct s; simpl in z; lia).
        assert (z / d * d <= z < z / d * d + d)%Z.
        { pose proof (Z.div_mod z d). pose proof (Z.mod_pos_bound z d). lia. }
        nia. }
      rewrite bn_equiv.
      generalize (binary_normalize_correct 53 1024 Hprec53 Hmax1024 mode_NE q 0 s). cbv zeta.
      assert (E2 : F2R (Float radix2 q 0) = IZR q) by (unfold F2R; simpl; ring).
      rewrite E2, rnd_eq, rnd_IZR by easy.
      rewrite Rlt_bool_true.
      * intros (R1 & F1 & _). split; [now apply ok_of_B | now rewrite R64_B].
      * apply Rle_lt_trans with (bpow radix2 53); [|apply bpow_lt; lia].
        rewrite <- abs_IZR. change (bpow radix2 53) with (IZR (2 ^ 53)). now apply IZR_le.
Qed.

Lemma int2_ok x : ok x -> int2 x = mk_int (Zfloor (R64 x)).
Proof. intros H. unfold int2. now rewrite ffloorZ_ok. Qed.
Lemma cast_int_ok x : ok x -> cast_int x = mk_int (Ztrunc (R64 x)).
Proof. intros H. unfold cast_int. now rewrite ftruncZ_ok. Qed.

Lemma mk_int_in z : (int_min <= z <= int_max)%Z -> mk_int z = Some z.
Proof. intros H. unfold mk_int, in_int. destruct (Z.leb_spec int_min z), (Z.leb_spec z int_max); simpl; try easy; lia. Qed.
Lemma mk_int_Some z n : mk_int z = Some n -> n = z /\ (int_min <= z <= int_max)%Z.
Proof.
  unfold mk_int, in_int. destruct (Z.leb_spec int_min z), (Z.leb_spec z int_max); simpl; try easy.
  intros [= <-]. lia.
Qed.

Lemma Zfloor_eq n x : IZR n <= x < IZR n + 1 -> Zfloor x = n.
Proof. intros H. apply Zfloor_imp. rewrite plus_IZR. lra. Qed.

(** Decimal literals: the rounded quotient. *)
Lemma lit_ok n d : (Z.abs n <= 2 ^ 53)%Z -> (0 < d <= 2 ^ 53)%Z ->
  ok (lit n d) /\ R64 (lit n d) = rnd (IZR n / IZR d).
Proof.
  intros Hn Hd. unfold lit.
  destruct (fZ_ok n Hn) as [O1 E1]. destruct (fZ_ok d) as [O2 E2]; [lia|].
  assert (P : 0 < IZR d) by (apply IZR_lt; lia).
  rewrite <- E1, <- E2. apply fdiv_ok; try easy.
  - rewrite E2; lra.
  - rewrite E1, E2. unfold Rdiv. rewrite Rabs_mult, (Rabs_right (/ IZR d)).
    2:{ apply Rle_ge, Rlt_le, Rinv_0_lt_compat; easy. }
    apply Rle_trans with (Rabs (IZR n) * 1).
    + apply Rmult_le_compat_l; [apply Rabs_pos|]. rewrite <- Rinv_1. apply Rinv_le; [lra|]. apply IZR_le; lia.
    + rewrite Rmult_1_r. apply Rle_trans with (bpow radix2 53); [|apply bpow_le; lia].
      rewrite <- abs_IZR. change (bpow radix2 53) with (IZR (2 ^ 53)). now apply IZR_le.
Qed.
