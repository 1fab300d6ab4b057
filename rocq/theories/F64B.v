(** Magnitudes: [bd k x] says that x is finite and at most 2^k in size. *)
From Coq Require Import ZArith Reals Lia Lra Bool.
From Coq Require Import Floats.SpecFloat.
From Flocq Require Import Core IEEE754.BinarySingleNaN.
From Verif Require Import F64 F64R.
Open Scope R_scope.

Definition bd (k : Z) (x : f64) : Prop := ok x /\ Rabs (R64 x) <= bpow radix2 k.

Lemma repr_bpow k : (-1074 <= k)%Z -> repr (bpow radix2 k).
Proof. intros K. rewrite <- (Rmult_1_l (bpow _ _)). apply (repr_scaled 1); lia. Qed.
Lemma rnd_small x k : (-1074 <= k)%Z -> Rabs x <= bpow radix2 k -> Rabs (rnd x) <= bpow radix2 k.
Proof.
  intros K H. apply Rabs_le_inv in H. apply Rabs_le. split.
  - apply rnd_ge_repr; [|lra]. apply generic_format_opp, repr_bpow, K.
  - apply rnd_le_repr; [apply repr_bpow, K|lra].
Qed.
Lemma bd_weak j k x : (j <= k)%Z -> bd j x -> bd k x.
Proof. intros J [O B]. split; [exact O|]. apply (Rle_trans _ _ _ B), bpow_le, J. Qed.
Lemma bd_add0 (x y : f64) (a b : Z) n : (a <= n - 1)%Z -> (b <= n - 1)%Z -> (-1074 <= n <= 1000)%Z -> bd a x -> bd b y -> Rabs (R64 x + R64 y) <= bpow radix2 n /\ Rabs (R64 x - R64 y) <= bpow radix2 n.
Proof.
  intros A B N [_ X] [_ Y]. assert (X' : Rabs (R64 x) <= bpow radix2 (n - 1)) by (apply (Rle_trans _ _ _ X), bpow_le, A).
  assert (Y' : Rabs (R64 y) <= bpow radix2 (n - 1)) by (apply (Rle_trans _ _ _ Y), bpow_le, B).
  replace (bpow radix2 n) with (2 * bpow radix2 (n - 1)). 2:{ replace n with (1 + (n - 1))%Z at 2 by lia. rewrite bpow_plus. reflexivity. }
  apply Rabs_le_inv in X', Y'. split; apply Rabs_le; lra.
Qed.
Lemma bd_add n a b x y : (a <= n - 1)%Z -> (b <= n - 1)%Z -> (-1074 <= n <= 1000)%Z -> bd a x -> bd b y -> bd n (fadd x y).
Proof.
  intros A B N X Y. destruct (bd_add0 x y a b n A B N X Y) as [H _]. destruct X as [OX _], Y as [OY _].
  destruct (fadd_ok x y OX OY) as [O E]; [apply (Rle_trans _ _ _ H), bpow_le; lia|]. split; [exact O|]. rewrite E. apply rnd_small; [lia|exact H].
Qed.
Lemma bd_sub n a b x y : (a <= n - 1)%Z -> (b <= n - 1)%Z -> (-1074 <= n <= 1000)%Z -> bd a x -> bd b y -> bd n (fsub x y).
Proof.
  intros A B N X Y. destruct (bd_add0 x y a b n A B N X Y) as [_ H]. destruct X as [OX _], Y as [OY _].
  destruct (fsub_ok x y OX OY) as [O E]; [apply (Rle_trans _ _ _ H), bpow_le; lia|]. split; [exact O|]. rewrite E. apply rnd_small; [lia|exact H].
Qed.
Lemma bd_mul n a b x y : (a + b <= n)%Z -> (-1074 <= n <= 1000)%Z -> bd a x -> bd b y -> bd n (fmul x y).
Proof.
  intros AB N [OX X] [OY Y].
  assert (H : Rabs (R64 x * R64 y) <= bpow radix2 n).
  { rewrite Rabs_mult. apply Rle_trans with (bpow radix2 a * bpow radix2 b); [apply Rmult_le_compat; auto using Rabs_pos|]. rewrite <- bpow_plus. apply bpow_le, AB. }
  destruct (fmul_ok x y OX OY) as [O E]; [apply (Rle_trans _ _ _ H), bpow_le; lia|]. split; [exact O|]. rewrite E. apply rnd_small; [lia|exact H].
Qed.
Lemma bd_divZ n a x c : (a <= n)%Z -> (-1074 <= n <= 1000)%Z -> (1 <= c <= 2 ^ 53)%Z -> bd a x -> bd n (fdiv x (fZ c)).
Proof.
  intros A N C [OX X]. destruct (fZ_ok c ltac:(lia)) as [OC RC]. assert (C1 : 1 <= IZR c) by (apply IZR_le; lia).
  assert (H : Rabs (R64 x / R64 (fZ c)) <= bpow radix2 n).
  { rewrite RC. unfold Rdiv. rewrite Rabs_mult, (Rabs_pos_eq (/ IZR c)) by (apply Rlt_le, Rinv_0_lt_compat; lra).
    apply Rle_trans with (bpow radix2 a * 1); [|rewrite Rmult_1_r; apply bpow_le, A]. apply Rmult_le_compat; auto using Rabs_pos; [apply Rlt_le, Rinv_0_lt_compat; lra|].
    rewrite <- Rinv_1. apply Rinv_le; lra. }
  destruct (fdiv_ok x (fZ c) OX OC) as [O E]; [rewrite RC; lra|apply (Rle_trans _ _ _ H), bpow_le; lia|]. split; [exact O|]. rewrite E. apply rnd_small; [lia|exact H].
Qed.
Lemma bd_opp k x : bd k x -> bd k (fopp x).
Proof. intros [O B]. destruct (fopp_ok x O) as [O' E]. split; [exact O'|]. rewrite E, Rabs_Ropp. exact B. Qed.
Lemma bd_Z k n : (Z.abs n <= 2 ^ k)%Z -> (0 <= k <= 53)%Z -> bd k (fZ n).
Proof.
  intros N K. assert (2 ^ k <= 2 ^ 53)%Z by (apply Z.pow_le_mono_r; lia). destruct (fZ_ok n ltac:(lia)) as [O E]. split; [exact O|]. rewrite E, <- abs_IZR, <- IZR_Zpower by lia.
  apply IZR_le. exact N.
Qed.
Lemma bd_lit k n d : (Z.abs n <= 2 ^ k * d)%Z -> (0 <= k <= 53)%Z -> (Z.abs n <= 2 ^ 53)%Z -> (0 < d <= 2 ^ 53)%Z -> bd k (lit n d).
Proof.
  intros N K N53 D. destruct (lit_ok n d N53 D) as [O E]. split; [exact O|]. rewrite E. apply rnd_small; [lia|].
  assert (P : 0 < IZR d) by (apply IZR_lt; lia). unfold Rdiv. rewrite Rabs_mult, (Rabs_pos_eq (/ IZR d)) by (apply Rlt_le, Rinv_0_lt_compat, P).
  rewrite <- abs_IZR. apply Rmult_le_reg_r with (IZR d); [exact P|]. rewrite Rmult_assoc, Rinv_l, Rmult_1_r by lra.
  rewrite <- IZR_Zpower by lia. rewrite <- mult_IZR. apply IZR_le. exact N.
Qed.
