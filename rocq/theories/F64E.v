(** Error bounds: [near x r e m] says that x is a finite double within e of the real r, |r| <= m. *)
From Coq Require Import ZArith Reals Lia Lra Bool.
From Coq Require Import Floats.SpecFloat.
From Flocq Require Import Core IEEE754.BinarySingleNaN Relative.
From Verif Require Import F64 F64R.
Open Scope R_scope.

Definition u53 : R := / 9007199254740992.
Definition tiny : R := / 1606938044258990275541962092341162602522202993782792835301376.
Definition near (x : f64) (r e m : R) : Prop := ok x /\ Rabs (R64 x - r) <= e /\ Rabs r <= m.

Lemma rnd_rel z : Rabs (rnd z - z) <= Rabs z * u53 + tiny.
Proof.
  destruct (error_N_FLT radix2 (-1074) 53 ltac:(lia) (fun n => negb (Z.even n)) z) as [eps [eta [A [B [_ E]]]]].
  change (rnd z) with (round radix2 (FLT_exp (-1074) 53) ZnearestE z). rewrite E. replace (z * (1 + eps) + eta - z) with (z * eps + eta) by ring.
  apply (Rle_trans _ _ _ (Rabs_triang _ _)). rewrite Rabs_mult. apply Rplus_le_compat.
  - apply Rmult_le_compat_l; [apply Rabs_pos|]. apply (Rle_trans _ _ _ A). unfold u53. change (IZR 9007199254740992) with (bpow radix2 53). rewrite <- bpow_opp.
    change (/ 2) with (bpow radix2 (-1)). rewrite <- bpow_plus. apply bpow_le. lia.
  - apply (Rle_trans _ _ _ B). unfold tiny. change (IZR 1606938044258990275541962092341162602522202993782792835301376) with (bpow radix2 200). rewrite <- bpow_opp.
    change (/ 2) with (bpow radix2 (-1)). rewrite <- bpow_plus. apply bpow_le. lia.
Qed.
Definition big : R := 1606938044258990275541962092341162602522202993782792835301376.
Lemma big_1000 : big <= bpow radix2 1000.
Proof. change big with (bpow radix2 200). apply bpow_le. lia. Qed.

(** one rounding on top of an exact result z that is within e of r *)
Lemma near_rnd x z r e m e' : ok x -> R64 x = rnd z -> Rabs (z - r) <= e -> Rabs r <= m -> e + (m + e) * u53 + tiny <= e' -> near x r e' m.
Proof.
  intros O E Z M L. split; [exact O|split; [|exact M]]. rewrite E. replace (rnd z - r) with ((rnd z - z) + (z - r)) by ring.
  apply (Rle_trans _ _ _ (Rabs_triang _ _)). pose proof (rnd_rel z) as Q.
  assert (Rabs z <= m + e). { replace z with (r + (z - r)) by ring. apply (Rle_trans _ _ _ (Rabs_triang _ _)). lra. }
  assert (0 < u53) by (apply Rinv_0_lt_compat, IZR_lt; reflexivity).
  assert (Rabs z * u53 <= (m + e) * u53) by (apply Rmult_le_compat_r; lra). lra.
Qed.
Lemma near_abs x r e m : near x r e m -> Rabs (R64 x) <= m + e.
Proof. intros (_ & A & B). replace (R64 x) with (r + (R64 x - r)) by ring. apply (Rle_trans _ _ _ (Rabs_triang _ _)). lra. Qed.
Lemma near_weak x r e m e' m' : near x r e m -> e <= e' -> m <= m' -> near x r e' m'.
Proof. intros (A & B & C) E M. split; [exact A|split; lra]. Qed.
Lemma near_add x y r s e f m n e' m' : near x r e m -> near y s f n -> m + n <= m' -> e + f + (m' + (e + f)) * u53 + tiny <= e' -> m' + e + f <= big -> near (fadd x y) (r + s) e' m'.
Proof.
  intros X Y M E B. pose proof (near_abs _ _ _ _ X) as AX. pose proof (near_abs _ _ _ _ Y) as AY. destruct X as (OX & X1 & X2), Y as (OY & Y1 & Y2).
  destruct (fadd_ok x y OX OY) as [O Q]. { apply (Rle_trans _ _ _ (Rabs_triang _ _)). pose proof big_1000. lra. }
  apply (near_rnd _ _ _ (e + f) m' _ O Q).
  - replace (R64 x + R64 y - (r + s)) with ((R64 x - r) + (R64 y - s)) by ring. apply (Rle_trans _ _ _ (Rabs_triang _ _)). lra.
  - apply (Rle_trans _ _ _ (Rabs_triang _ _)). lra.
  - exact E.
Qed.
Lemma near_sub x y r s e f m n e' m' : near x r e m -> near y s f n -> m + n <= m' -> e + f + (m' + (e + f)) * u53 + tiny <= e' -> m' + e + f <= big -> near (fsub x y) (r - s) e' m'.
Proof.
  intros X Y M E B. pose proof (near_abs _ _ _ _ X) as AX. pose proof (near_abs _ _ _ _ Y) as AY. destruct X as (OX & X1 & X2), Y as (OY & Y1 & Y2).
  destruct (fsub_ok x y OX OY) as [O Q]. { unfold Rminus. apply (Rle_trans _ _ _ (Rabs_triang _ _)). rewrite Rabs_Ropp. pose proof big_1000. lra. }
  apply (near_rnd _ _ _ (e + f) m' _ O Q).
  - replace (R64 x - R64 y - (r - s)) with ((R64 x - r) + - (R64 y - s)) by ring. apply (Rle_trans _ _ _ (Rabs_triang _ _)). rewrite Rabs_Ropp. lra.
  - unfold Rminus. apply (Rle_trans _ _ _ (Rabs_triang _ _)). rewrite Rabs_Ropp. lra.
  - exact E.
Qed.
Lemma near_mul x y r s e f m n e' m' : near x r e m -> near y s f n -> m * n <= m' -> (m * f + n * e + e * f) + (m' + (m * f + n * e + e * f)) * u53 + tiny <= e' -> (m + e) * (n + f) <= big -> near (fmul x y) (r * s) e' m'.
Proof.
  intros X Y M E B. pose proof (near_abs _ _ _ _ X) as AX. pose proof (near_abs _ _ _ _ Y) as AY. destruct X as (OX & X1 & X2), Y as (OY & Y1 & Y2).
  destruct (fmul_ok x y OX OY) as [O Q].
  { rewrite Rabs_mult. apply Rle_trans with ((m + e) * (n + f)); [|pose proof big_1000; lra]. apply Rmult_le_compat; auto using Rabs_pos. }
  assert (P : Rabs r * Rabs s <= m * n) by (apply Rmult_le_compat; auto using Rabs_pos).
  apply (near_rnd _ _ _ (m * f + n * e + e * f) m' _ O Q).
  - replace (R64 x * R64 y - r * s) with (r * (R64 y - s) + (s * (R64 x - r) + (R64 x - r) * (R64 y - s))) by ring.
    apply (Rle_trans _ _ _ (Rabs_triang _ _)). apply Rle_trans with (m * f + (n * e + e * f)); [|lra]. apply Rplus_le_compat.
    + rewrite Rabs_mult. apply Rmult_le_compat; auto using Rabs_pos.
    + apply (Rle_trans _ _ _ (Rabs_triang _ _)). apply Rplus_le_compat; rewrite Rabs_mult; apply Rmult_le_compat; auto using Rabs_pos.
  - rewrite Rabs_mult. lra.
  - exact E.
Qed.
Lemma near_divZ x r e m c e' m' : near x r e m -> (1 <= c <= 2 ^ 53)%Z -> m / IZR c <= m' -> e / IZR c + (m' + e / IZR c) * u53 + tiny <= e' -> m + e <= big -> near (fdiv x (fZ c)) (r / IZR c) e' m'.
Proof.
  intros X C M E B. pose proof (near_abs _ _ _ _ X) as AX. destruct X as (OX & X1 & X2). destruct (fZ_ok c ltac:(lia)) as [OC RC].
  assert (C1 : 1 <= IZR c) by (apply IZR_le; lia). assert (I : 0 < / IZR c) by (apply Rinv_0_lt_compat; lra).
  assert (I1 : / IZR c <= 1) by (rewrite <- Rinv_1; apply Rinv_le; lra).
  destruct (fdiv_ok x (fZ c) OX OC) as [O Q]; [rewrite RC; lra| |].
  { rewrite RC. unfold Rdiv. rewrite Rabs_mult, (Rabs_pos_eq (/ IZR c)) by lra. apply Rle_trans with (Rabs (R64 x) * 1); [apply Rmult_le_compat_l; [apply Rabs_pos|exact I1]|]. pose proof big_1000. lra. }
  rewrite RC in Q. apply (near_rnd _ _ _ (e / IZR c) m' _ O Q).
  - replace (R64 x / IZR c - r / IZR c) with ((R64 x - r) * / IZR c) by (unfold Rdiv; ring). rewrite Rabs_mult, (Rabs_pos_eq (/ IZR c)) by lra. apply Rmult_le_compat_r; lra.
  - unfold Rdiv. rewrite Rabs_mult, (Rabs_pos_eq (/ IZR c)) by lra. apply Rle_trans with (m * / IZR c); [apply Rmult_le_compat_r; lra|exact M].
  - exact E.
Qed.
Lemma near_opp x r e m : near x r e m -> near (fopp x) (- r) e m.
Proof.
  intros (A & B & C). destruct (fopp_ok x A) as [O E]. split; [exact O|split]; [|rewrite Rabs_Ropp; exact C].
  rewrite E. replace (- R64 x - - r) with (- (R64 x - r)) by ring. rewrite Rabs_Ropp. exact B.
Qed.
Lemma near_Z n m : (Z.abs n <= 2 ^ 53)%Z -> (Z.abs n <= m)%Z -> near (fZ n) (IZR n) 0 (IZR m).
Proof.
  intros N M. destruct (fZ_ok n N) as [O E]. split; [exact O|split].
  - rewrite E. unfold Rminus. rewrite Rplus_opp_r, Rabs_R0. apply Rle_refl.
  - rewrite <- abs_IZR. apply IZR_le, M.
Qed.
Lemma near_lit n d m e' : (Z.abs n <= 2 ^ 53)%Z -> (0 < d <= 2 ^ 53)%Z -> (Z.abs n <= m * d)%Z -> IZR m * u53 + tiny <= e' -> near (lit n d) (IZR n / IZR d) e' (IZR m).
Proof.
  intros N D M E. destruct (lit_ok n d N D) as [O Q]. assert (P : 0 < IZR d) by (apply IZR_lt; lia).
  apply (near_rnd _ _ _ 0 (IZR m) _ O Q).
  - unfold Rminus. rewrite Rplus_opp_r, Rabs_R0. apply Rle_refl.
  - unfold Rdiv. rewrite Rabs_mult, (Rabs_pos_eq (/ IZR d)) by (apply Rlt_le, Rinv_0_lt_compat, P). rewrite <- abs_IZR.
    apply Rmult_le_reg_r with (IZR d); [exact P|]. rewrite Rmult_assoc, Rinv_l, Rmult_1_r by lra. rewrite <- mult_IZR. apply IZR_le, M.
  - lra.
Qed.
Lemma sin_lip a b : Rabs (sin a - sin b) <= Rabs (a - b).
Proof.
  destruct (Rtotal_order a b) as [L|[->|L]].
  - destruct (MVT_cor2 sin cos a b L (fun c _ => derivable_pt_lim_sin c)) as [c [E _]]. rewrite (Rabs_minus_sym (sin a)), (Rabs_minus_sym a), E, Rabs_mult.
    pose proof (COS_bound c). rewrite <- (Rmult_1_l (Rabs (b - a))) at 2. apply Rmult_le_compat_r; [apply Rabs_pos|apply Rabs_le; lra].
  - unfold Rminus. rewrite !Rplus_opp_r. apply Rle_refl.
  - destruct (MVT_cor2 sin cos b a L (fun c _ => derivable_pt_lim_sin c)) as [c [E _]]. rewrite E, Rabs_mult.
    pose proof (COS_bound c). rewrite <- (Rmult_1_l (Rabs (a - b))) at 2. apply Rmult_le_compat_r; [apply Rabs_pos|apply Rabs_le; lra].
Qed.
Lemma cos_lip a b : Rabs (cos a - cos b) <= Rabs (a - b).
Proof. rewrite <- !sin_shift. rewrite (Rabs_minus_sym a). replace (b - a) with ((PI / 2 - a) - (PI / 2 - b)) by ring. apply sin_lip. Qed.

(** what is asked of the C library's sin and cos: finite argument, finite result in [-1,1] within 2^-52 *)
Definition good_lib (f : f64 -> f64) (g : R -> R) : Prop :=
  forall x, ok x -> ok (f x) /\ Rabs (R64 (f x)) <= 1 /\ Rabs (R64 (f x) - g (R64 x)) <= 2 * u53.
Lemma near_sin f x r e m : good_lib f sin -> near x r e m -> near (f x) (sin r) (e + 2 * u53) 1.
Proof.
  intros G (O & A & _). destruct (G x O) as (P & _ & Q). split; [exact P|split].
  - replace (R64 (f x) - sin r) with ((R64 (f x) - sin (R64 x)) + (sin (R64 x) - sin r)) by ring. apply (Rle_trans _ _ _ (Rabs_triang _ _)).
    pose proof (sin_lip (R64 x) r). lra.
  - apply Rabs_le. apply SIN_bound.
Qed.
Lemma near_cos f x r e m : good_lib f cos -> near x r e m -> near (f x) (cos r) (e + 2 * u53) 1.
Proof.
  intros G (O & A & _). destruct (G x O) as (P & _ & Q). split; [exact P|split].
  - replace (R64 (f x) - cos r) with ((R64 (f x) - cos (R64 x)) + (cos (R64 x) - cos r)) by ring. apply (Rle_trans _ _ _ (Rabs_triang _ _)).
    pose proof (cos_lip (R64 x) r). lra.
  - apply Rabs_le. apply COS_bound.
Qed.
