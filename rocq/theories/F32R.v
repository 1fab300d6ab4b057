(** Real-number meaning of the operations on float (single precision), obtained from Flocq. *)
From Coq Require Import ZArith Reals Lia Lra Bool.
From Coq Require Import Floats.SpecFloat.
From Flocq Require Import Core IEEE754.BinarySingleNaN.
From Verif Require Import F64 HtModel.
Open Scope R_scope.

Definition R32 (x : f32) : R := SF2R radix2 x.
Definition ok (x : f32) : Prop := valid_binary 24 128 x = true /\ is_finite_SF x = true.
Definition rnd (x : R) : R := round radix2 (SpecFloat.fexp 24 128) ZnearestE x.

Global Instance Hprec24 : FLX.Prec_gt_0 24 := eq_refl _.
Global Instance Hmax128 : Prec_lt_emax 24 128 := eq_refl _.
Global Instance fexp_valid : Valid_exp (SpecFloat.fexp 24 128).
Proof. apply (FLT_exp_valid (-149) 24). Qed.

Lemma rne_equiv s m l : round_nearest_even m l = choice_mode mode_NE s m l.
Proof.
  case l; [reflexivity|intro c]. case c; [ | reflexivity..].
  now simpl; unfold Round.cond_incr; case Z.even.
Qed.

Lemma bra_equiv sx mx ex lx :
  SpecFloat.binary_round_aux 24 128 sx mx ex lx = BinarySingleNaN.binary_round_aux 24 128 mode_NE sx mx ex lx.
Proof.
  unfold SpecFloat.binary_round_aux, BinarySingleNaN.binary_round_aux.
  set (mrse' := shr_fexp _ _ _ _ _). case mrse'; intros mrs' e'; simpl.
  now rewrite (rne_equiv sx).
Qed.

Lemma br_equiv s m e : SpecFloat.binary_round 24 128 s m e = BinarySingleNaN.binary_round 24 128 mode_NE s m e.
Proof.
  unfold SpecFloat.binary_round, BinarySingleNaN.binary_round, shl_align_fexp.
  set (mez := shl_align _ _ _); case mez as [mz ez]. apply bra_equiv.
Qed.

Lemma bn_equiv m e szero :
  SpecFloat.binary_normalize 24 128 m e szero
  = B2SF (BinarySingleNaN.binary_normalize 24 128 Hprec24 Hmax128 mode_NE m e szero).
Proof. case m as [ | p | p]; [easy | |]; simpl; rewrite B2SF_SF2B; apply br_equiv. Qed.

Notation bf := (binary_float 24 128).

Lemma fmul_equiv (x y : bf) : SFmul 24 128 (B2SF x) (B2SF y) = B2SF (Bmult mode_NE x y).
Proof.
  unfold SFmul. destruct x as [sx|sx| |sx mx ex Bx]; destruct y as [sy|sy| |sy my ey By]; [now trivial..|].
  simpl. rewrite B2SF_SF2B. apply bra_equiv.
Qed.

Lemma fadd_equiv (x y : bf) : SFadd 24 128 (B2SF x) (B2SF y) = B2SF (Bplus mode_NE x y).
Proof.
  unfold SFadd. destruct x as [sx|sx| |sx mx ex Bx]; destruct y as [sy|sy| |sy my ey By];
  [now (trivial || simpl; case Bool.eqb).. | ].
  apply bn_equiv.
Qed.

Lemma fsub_equiv (x y : bf) : SFsub 24 128 (B2SF x) (B2SF y) = B2SF (Bminus mode_NE x y).
Proof.
  unfold SFsub. destruct x as [sx|sx| |sx mx ex Bx]; destruct y as [sy|sy| |sy my ey By];
  [now (trivial || simpl; case Bool.eqb).. | ].
  simpl. unfold Zminus. rewrite <- cond_Zopp_negb. apply bn_equiv.
Qed.

Lemma fdiv_equiv (x y : bf) : SFdiv 24 128 (B2SF x) (B2SF y) = B2SF (Bdiv mode_NE x y).
Proof.
  unfold SFdiv. destruct x as [sx|sx| |sx mx ex Bx]; destruct y as [sy|sy| |sy my ey By];
  [now (trivial || simpl; case Bool.eqb).. | ].
  simpl. rewrite B2SF_SF2B.
  set (melz := SFdiv_core_binary _ _ _ _ _ _). case melz as [[mz ez] lz]. apply bra_equiv.
Qed.

Lemma ok_B x : ok x -> exists b : bf, x = B2SF b /\ is_finite b = true /\ B2R b = R32 x.
Proof.
  intros [V Fi]. exists (SF2B x V). rewrite B2SF_SF2B, is_finite_SF2B, B2R_SF2B. now repeat split.
Qed.

Lemma ok_of_B (b : bf) : is_finite b = true -> ok (B2SF b).
Proof. intros H; split; [apply valid_binary_B2SF | now rewrite is_finite_SF_B2SF]. Qed.

Lemma R32_B (b : bf) : R32 (B2SF b) = B2R b.
Proof. apply SF2R_B2SF. Qed.

Lemma rnd_eq x : round radix2 (fexp 24 128) (round_mode mode_NE) x = rnd x.
Proof. reflexivity. Qed.

Lemma fadd_ok0 x y : ok x -> ok y -> Rabs (rnd (R32 x + R32 y)) < bpow radix2 128 ->
  ok (SFadd 24 128 x y) /\ R32 (SFadd 24 128 x y) = rnd (R32 x + R32 y).
Proof.
  intros Hx Hy H. destruct (ok_B _ Hx) as (bx & -> & Fx & Rx). destruct (ok_B _ Hy) as (by0 & -> & Fy & Ry).
  rewrite fadd_equiv. generalize (Bplus_correct 24 128 _ _ mode_NE bx by0 Fx Fy).
  rewrite Rx, Ry, rnd_eq, Rlt_bool_true by easy. intros (E & Fi & _).
  split; [now apply ok_of_B | now rewrite R32_B].
Qed.

Lemma fsub_ok0 x y : ok x -> ok y -> Rabs (rnd (R32 x - R32 y)) < bpow radix2 128 ->
  ok (SFsub 24 128 x y) /\ R32 (SFsub 24 128 x y) = rnd (R32 x - R32 y).
Proof.
  intros Hx Hy H. destruct (ok_B _ Hx) as (bx & -> & Fx & Rx). destruct (ok_B _ Hy) as (by0 & -> & Fy & Ry).
  rewrite fsub_equiv. generalize (Bminus_correct 24 128 _ _ mode_NE bx by0 Fx Fy).
  rewrite Rx, Ry, rnd_eq, Rlt_bool_true by easy. intros (E & Fi & _).
  split; [now apply ok_of_B | now rewrite R32_B].
Qed.

Lemma fmul_ok0 x y : ok x -> ok y -> Rabs (rnd (R32 x * R32 y)) < bpow radix2 128 ->
  ok (SFmul 24 128 x y) /\ R32 (SFmul 24 128 x y) = rnd (R32 x * R32 y).
Proof.
  intros Hx Hy H. destruct (ok_B _ Hx) as (bx & -> & Fx & Rx). destruct (ok_B _ Hy) as (by0 & -> & Fy & Ry).
  rewrite fmul_equiv. generalize (Bmult_correct 24 128 _ _ mode_NE bx by0).
  rewrite Rx, Ry, rnd_eq, Rlt_bool_true by easy. intros (E & Fi & _).
  rewrite Fx, Fy in Fi.
  split; [now apply ok_of_B | now rewrite R32_B].
Qed.

Lemma fdiv_ok0 x y : ok x -> ok y -> R32 y <> 0 -> Rabs (rnd (R32 x / R32 y)) < bpow radix2 128 ->
  ok (SFdiv 24 128 x y) /\ R32 (SFdiv 24 128 x y) = rnd (R32 x / R32 y).
Proof.
  intros Hx Hy N H. destruct (ok_B _ Hx) as (bx & -> & Fx & Rx). destruct (ok_B _ Hy) as (by0 & -> & Fy & Ry).
  rewrite fdiv_equiv. rewrite <- Ry in N. generalize (Bdiv_correct 24 128 _ _ mode_NE bx by0 N).
  rewrite Rx, Ry, rnd_eq, Rlt_bool_true by easy. intros (E & Fi & _).
  rewrite Fx in Fi.
  split; [now apply ok_of_B | now rewrite R32_B].
Qed.

(** ** Properties of rounding *)

Lemma rnd_le x y : x <= y -> rnd x <= rnd y.
Proof. apply round_le; [apply fexp_valid | apply valid_rnd_N]. Qed.

Definition repr (x : R) : Prop := generic_format radix2 (SpecFloat.fexp 24 128) x.

Lemma rnd_repr x : repr x -> rnd x = x.
Proof. apply round_generic; apply valid_rnd_N. Qed.

Lemma rnd_is_repr x : repr (rnd x).
Proof. apply generic_format_round; [apply fexp_valid | apply valid_rnd_N]. Qed.

Lemma repr_R32 x : ok x -> repr (R32 x).
Proof.
  intros H. destruct (ok_B _ H) as (b & -> & _ & E). rewrite <- E.
  apply generic_format_B2R.
Qed.

(** m * 2^e with |m| <= 2^24 and e not too small is representable. *)
Lemma repr_scaled m e : (Z.abs m <= 2 ^ 24)%Z -> (-149 <= e)%Z -> repr (IZR m * bpow radix2 e).
Proof.
  intros Hm He. unfold repr.
  destruct (Z.eq_dec (Z.abs m) (2 ^ 24)) as [Em | Nm].
  - assert (exists s, m = (s * 2 ^ 23 * 2)%Z /\ (Z.abs s = 1)%Z) as (s & -> & Hs).
    { exists (Z.sgn m). destruct (Z.abs_spec m) as [[? ?]|[? ?]];
      [rewrite (Z.sgn_pos m) | rewrite (Z.sgn_neg m)]; try lia. }
    replace (IZR (s * 2 ^ 23 * 2) * bpow radix2 e) with (F2R (Float radix2 (s * 2 ^ 23) (e + 1))).
    + apply (generic_format_FLT radix2 (-149) 24).
      refine (FLT_spec _ _ _ _ (Float radix2 (s * 2 ^ 23) (e + 1)) _ _ _); [reflexivity | | simpl Fexp; lia].
      simpl Fnum. change (radix2 ^ 24)%Z with (2 ^ 24)%Z. lia.
    + unfold F2R; simpl Fnum; simpl Fexp. rewrite bpow_plus, !(mult_IZR _ 2).
      change (bpow radix2 1) with 2. change (Z.pow_pos 2 23) with (2 ^ 23)%Z. ring.
  - replace (IZR m * bpow radix2 e) with (F2R (Float radix2 m e)) by reflexivity.
    apply (generic_format_FLT radix2 (-149) 24).
    refine (FLT_spec _ _ _ _ (Float radix2 m e) _ _ _); [reflexivity | | simpl Fexp; lia].
    simpl Fnum. change (radix2 ^ 24)%Z with (2 ^ 24)%Z. lia.
Qed.

Lemma repr_IZR n : (Z.abs n <= 2 ^ 24)%Z -> repr (IZR n).
Proof. intros H. rewrite <- (Rmult_1_r (IZR n)). now apply (repr_scaled n 0). Qed.

Lemma rnd_IZR n : (Z.abs n <= 2 ^ 24)%Z -> rnd (IZR n) = IZR n.
Proof. intros H; now apply rnd_repr, repr_IZR. Qed.

Lemma rnd_ge_repr x y : repr x -> x <= y -> x <= rnd y.
Proof. intros H L. rewrite <- (rnd_repr x H). now apply rnd_le. Qed.
Lemma rnd_le_repr x y : repr y -> x <= y -> rnd x <= y.
Proof. intros H L. rewrite <- (rnd_repr y H). now apply rnd_le. Qed.

Lemma rnd_opp x : rnd (- x) = - rnd x.
Proof. apply round_NE_opp. Qed.

Lemma rnd_bound x n : (0 <= n <= 127)%Z -> Rabs x <= bpow radix2 n -> Rabs (rnd x) < bpow radix2 128.
Proof.
  intros Hn H. apply Rle_lt_trans with (bpow radix2 n).
  - assert (R1 : repr (bpow radix2 n)).
    { rewrite <- (Rmult_1_l (bpow _ _)). apply (repr_scaled 1); lia. }
    apply Rabs_le_inv in H. apply Rabs_le. split.
    + apply rnd_ge_repr; [|lra]. rewrite <- (Ropp_involutive (bpow radix2 n)) in R1.
      unfold repr in *. apply generic_format_opp. now rewrite Ropp_involutive in R1.
    + apply rnd_le_repr; [easy|lra].
  - apply bpow_lt; lia.
Qed.


Lemma Zfloor_div m d : (0 < d)%Z -> Zfloor (IZR m / IZR d) = (m / d)%Z.
Proof. intros H. apply Zfloor_div. lia. Qed.

Lemma F2R_neg m e : (e < 0)%Z -> F2R (Float radix2 m e) = IZR m / IZR (2 ^ (- e)).
Proof.
  intros H. unfold F2R, Rdiv. simpl Fnum; simpl Fexp. f_equal.
  change (2 ^ (- e))%Z with (radix2 ^ (- e))%Z. rewrite (IZR_Zpower radix2 (- e)) by lia. rewrite <- bpow_opp. now rewrite Z.opp_involutive.
Qed.

Lemma F2R_pos m e : (0 <= e)%Z -> F2R (Float radix2 m e) = IZR (m * 2 ^ e).
Proof.
  intros H. unfold F2R. simpl Fnum; simpl Fexp. rewrite mult_IZR. f_equal.
  change (2 ^ e)%Z with (radix2 ^ e)%Z. now rewrite (IZR_Zpower radix2 e).
Qed.

Lemma ffloorZ_ok x : ok x -> ffloorZ x = Some (Zfloor (R32 x)).
Proof.
  intros [V Fi]. destruct x as [s|s| |s m e]; try easy.
  - unfold R32; simpl. now rewrite Zfloor_IZR.
  - unfold R32, ffloorZ. simpl SF2R. f_equal.
    destruct (Zle_bool_spec 0 e) as [P|N].
    + now rewrite F2R_pos, Zfloor_IZR.
    + rewrite F2R_neg by easy. rewrite Zfloor_div; [easy|]. apply Z.pow_pos_nonneg; lia.
Qed.

Lemma ftruncZ_ok x : ok x -> ftruncZ x = Some (Ztrunc (R32 x)).
Proof.
  intros [V Fi]. destruct x as [s|s| |s m e]; try easy.
  - unfold R32; simpl. now rewrite Ztrunc_IZR.
  - unfold R32, ftruncZ. simpl SF2R. f_equal.
    destruct (Zle_bool_spec 0 e) as [P|N].
    + now rewrite F2R_pos, Ztrunc_IZR.
    + rewrite F2R_neg by easy.
      assert (D : (0 < 2 ^ (- e))%Z) by (apply Z.pow_pos_nonneg; lia).
      revert D. generalize (2 ^ (- e))%Z. intros d D.
      assert (DR : 0 < IZR d) by now apply IZR_lt.
      destruct s; simpl cond_Zopp.
      * rewrite Ztrunc_ceil.
        2:{ apply Rmult_le_reg_r with (IZR d); [easy|]. unfold Rdiv. rewrite Rmult_assoc, Rinv_l, Rmult_1_r, Rmult_0_l by lra.
            apply IZR_le; lia. }
        unfold Zceil.
        assert (EQ : - (IZR (Z.neg m) / IZR d) = IZR (Z.pos m) / IZR d).
        { change (Z.neg m) with (- Z.pos m)%Z. rewrite opp_IZR. field. lra. }
        simpl Z.opp. rewrite EQ. change (Z.neg m) with (- Z.pos m)%Z.
        rewrite Zfloor_div by easy. rewrite Z.quot_opp_l by lia. f_equal. now rewrite Z.quot_div_nonneg by lia.
      * rewrite Ztrunc_floor.
        2:{ apply Rmult_le_pos; [now apply IZR_le | apply Rlt_le, Rinv_0_lt_compat; easy]. }
        rewrite Zfloor_div by easy. now rewrite Z.quot_div_nonneg by lia.
Qed.

Lemma fcompare_ok x y : ok x -> ok y -> SFcompare x y = Some (Rcompare (R32 x) (R32 y)).
Proof.
  intros Hx Hy. destruct (ok_B _ Hx) as (bx & -> & Fx & Rx). destruct (ok_B _ Hy) as (by0 & -> & Fy & Ry).
  rewrite <- Rx, <- Ry. now apply (Bcompare_correct 24 128).
Qed.

Lemma f32ltb_ok x y : ok x -> ok y -> SFltb x y = Rlt_bool (R32 x) (R32 y).
Proof. intros Hx Hy. unfold SFltb. rewrite fcompare_ok by easy. unfold Rlt_bool. now destruct Rcompare. Qed.
Lemma f32leb_ok x y : ok x -> ok y -> SFleb x y = Rle_bool (R32 x) (R32 y).
Proof. intros Hx Hy. unfold SFleb. rewrite fcompare_ok by easy. unfold Rle_bool. now destruct Rcompare. Qed.
Lemma f32eqb_ok x y : ok x -> ok y -> SFeqb x y = Req_bool (R32 x) (R32 y).
Proof. intros Hx Hy. unfold SFeqb. rewrite fcompare_ok by easy. unfold Req_bool. now destruct Rcompare. Qed.
Lemma f32Z_ok n : (Z.abs n <= 2 ^ 64)%Z -> ok (f32Z n) /\ R32 (f32Z n) = rnd (IZR n).
Proof.
  intros H. unfold f32Z. rewrite bn_equiv.
  generalize (binary_normalize_correct 24 128 Hprec24 Hmax128 mode_NE n 0 false). cbv zeta.
  assert (E : F2R (Float radix2 n 0) = IZR n) by (unfold F2R; simpl; ring).
  rewrite E, rnd_eq. rewrite Rlt_bool_true.
  - intros (R1 & F1 & _). split; [now apply ok_of_B | now rewrite R32_B].
  - apply (rnd_bound _ 64); [lia|]. rewrite <- abs_IZR. change (bpow radix2 64) with (IZR (2 ^ 64)). now apply IZR_le.
Qed.
