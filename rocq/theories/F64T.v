(** Toolkit: floors of rounded quotients, exactness lemmas. *)
From Coq Require Import ZArith Reals Lia Lra Bool.
From Coq Require Import Floats.SpecFloat.
From Flocq Require Import Core IEEE754.BinarySingleNaN.
From Verif Require Import F64 F64R.
Open Scope R_scope.

Lemma div_bounds a b : (0 < b)%Z ->
  IZR (a / b) <= IZR a / IZR b /\ IZR a / IZR b <= IZR (a / b) + 1 - / IZR b.
Proof.
  intros Hb. assert (P : 0 < IZR b) by now apply IZR_lt.
  pose proof (Z.div_mod a b ltac:(lia)) as E. pose proof (Z.mod_pos_bound a b Hb) as B.
  assert (Q : IZR a / IZR b = IZR (a / b) + IZR (a mod b) / IZR b).
  { rewrite E at 1. rewrite plus_IZR, mult_IZR. field. lra. }
  rewrite Q. split.
  - assert (0 <= IZR (a mod b) / IZR b); [|lra].
    apply Rmult_le_pos; [apply IZR_le; lia | apply Rlt_le, Rinv_0_lt_compat; easy].
  - assert (IZR (a mod b) / IZR b <= 1 - / IZR b); [|lra].
    replace (1 - / IZR b) with ((IZR b - 1) / IZR b) by (field; lra).
    apply Rmult_le_compat_r; [apply Rlt_le, Rinv_0_lt_compat; easy|].
    rewrite <- minus_IZR. apply IZR_le. lia.
Qed.

Lemma div_bounds_strict a b : (0 < b)%Z -> (a mod b <> 0)%Z ->
  IZR (a / b) + / IZR b <= IZR a / IZR b.
Proof.
  intros Hb N. assert (P : 0 < IZR b) by now apply IZR_lt.
  pose proof (Z.div_mod a b ltac:(lia)) as E. pose proof (Z.mod_pos_bound a b Hb) as B.
  assert (Q : IZR a / IZR b = IZR (a / b) + IZR (a mod b) / IZR b).
  { rewrite E at 1. rewrite plus_IZR, mult_IZR. field. lra. }
  rewrite Q. apply Rplus_le_compat_l. rewrite <- (Rmult_1_l (/ IZR b)).
  apply Rmult_le_compat_r; [apply Rlt_le, Rinv_0_lt_compat; easy|]. apply IZR_le. lia.
Qed.

(** Floor of a quotient computed with one rounding. *)
Lemma floor_rnd_div a b : (Z.abs a <= 2 ^ 33)%Z -> (0 < b <= 2 ^ 20)%Z ->
  Zfloor (rnd (IZR a / IZR b)) = (a / b)%Z.
Proof.
  intros Ha Hb. assert (P : 1 <= IZR b) by (apply IZR_le; lia).
  destruct (div_bounds a b ltac:(lia)) as [L U].
  assert (Bq : (Z.abs (a / b) <= 2 ^ 33)%Z).
  { pose proof (Z.div_mod a b ltac:(lia)). pose proof (Z.mod_pos_bound a b ltac:(lia)). nia. }
  apply Zfloor_eq. split.
  - apply rnd_ge_repr; [|easy]. apply repr_IZR. lia.
  - assert (E : Rabs (rnd (IZR a / IZR b) - IZR a / IZR b) <= bpow radix2 (33 - 54)).
    { apply rnd_err; [lia|]. unfold Rdiv. rewrite Rabs_mult, (Rabs_right (/ IZR b)) by (apply Rle_ge, Rlt_le, Rinv_0_lt_compat; lra).
      apply Rle_trans with (Rabs (IZR a) * 1).
      - apply Rmult_le_compat_l; [apply Rabs_pos|]. rewrite <- Rinv_1. apply Rinv_le; lra.
      - rewrite Rmult_1_r, <- abs_IZR. change (bpow radix2 33) with (IZR (2 ^ 33)). now apply IZR_le. }
    assert (I : bpow radix2 (-20) <= / IZR b).
    { change (bpow radix2 (-20)) with (/ IZR (2 ^ 20)). apply Rinv_le; [lra|]. apply IZR_le. lia. }
    assert (K : bpow radix2 (33 - 54) < bpow radix2 (-20)) by (apply bpow_lt; lia).
    apply Rabs_le_inv in E. lra.
Qed.

(** Floor of anything close enough to a quotient that is not an integer. *)
Lemma floor_near a b x : (0 < b)%Z -> (a mod b <> 0)%Z -> Rabs (x - IZR a / IZR b) < / IZR b ->
  Zfloor x = (a / b)%Z.
Proof.
  intros Hb N H. destruct (div_bounds a b Hb) as [_ U]. pose proof (div_bounds_strict a b Hb N) as L.
  apply Rabs_def2 in H. apply Zfloor_eq. lra.
Qed.

(** Quotient by an int-valued double: floor and truncation. *)
Lemma int2_div_Z x y a b : ok x -> ok y -> R64 x = IZR a -> R64 y = IZR b ->
  (Z.abs a <= 2 ^ 33)%Z -> (0 < b <= 2 ^ 20)%Z -> int2 (fdiv x y) = mk_int (a / b).
Proof.
  intros Ox Oy Ex Ey Ha Hb. assert (P : 1 <= IZR b) by (apply IZR_le; lia).
  destruct (fdiv_ok x y) as [O E]; try easy.
  - rewrite Ey; lra.
  - rewrite Ex, Ey. unfold Rdiv. rewrite Rabs_mult, (Rabs_right (/ IZR b)) by (apply Rle_ge, Rlt_le, Rinv_0_lt_compat; lra).
    apply Rle_trans with (Rabs (IZR a) * 1).
    + apply Rmult_le_compat_l; [apply Rabs_pos|]. rewrite <- Rinv_1. apply Rinv_le; lra.
    + rewrite Rmult_1_r, <- abs_IZR. apply Rle_trans with (bpow radix2 33); [|apply bpow_le; lia].
      change (bpow radix2 33) with (IZR (2 ^ 33)). now apply IZR_le.
  - rewrite int2_ok by easy. now rewrite E, Ex, Ey, floor_rnd_div.
Qed.

Lemma Ztrunc_eq n x : (0 <= n)%Z -> Zfloor x = n -> Ztrunc x = n.
Proof.
  intros H E. rewrite Ztrunc_floor; [easy|].
  apply Rle_trans with (IZR (Zfloor x)); [rewrite E; now apply IZR_le | apply Zfloor_lb].
Qed.

(** quarters: exact values m/4 *)
Lemma repr_quarter n : (Z.abs n <= 2 ^ 53)%Z -> repr (IZR n / 4).
Proof. intros H. change (IZR n / 4) with (IZR n * bpow radix2 (-2)). apply repr_scaled; lia. Qed.
Lemma rnd_quarter n : (Z.abs n <= 2 ^ 53)%Z -> rnd (IZR n / 4) = IZR n / 4.
Proof. intros H; now apply rnd_repr, repr_quarter. Qed.
Lemma repr_half n : (Z.abs n <= 2 ^ 53)%Z -> repr (IZR n / 2).
Proof. intros H. change (IZR n / 2) with (IZR n * bpow radix2 (-1)). apply repr_scaled; lia. Qed.

(** bounding an absolute value by a power of two *)
Lemma Rabs_IZR_bpow n k : (0 <= k)%Z -> (Z.abs n <= 2 ^ k)%Z -> Rabs (IZR n) <= bpow radix2 k.
Proof.
  intros Hk H. rewrite <- abs_IZR. rewrite <- (IZR_Zpower radix2 k) by easy. apply IZR_le. exact H.
Qed.

Lemma Rabs_small x y : Rabs x <= y -> y <= bpow radix2 100 -> Rabs x <= bpow radix2 1000.
Proof. intros H1 H2. eapply Rle_trans; [exact H1|]. eapply Rle_trans; [exact H2|]. apply bpow_le; lia. Qed.

Lemma bpow100 : bpow radix2 100 = 1267650600228229401496703205376.
Proof. reflexivity. Qed.

(** a literal from its exact computed value *)
Lemma lit_val (l : f64) (n d : Z) : (0 < d)%Z ->
  (match l with S754_finite s m e => Z.eqb (if Z.leb 0 e then SpecFloat.cond_Zopp s (Zpos m) * 2 ^ e * d else SpecFloat.cond_Zopp s (Zpos m) * d)
                                       (if Z.leb 0 e then n else n * 2 ^ (- e)) && SpecFloat.bounded 53 1024 m e | _ => false end = true) ->
  ok l /\ R64 l = IZR n / IZR d.
Proof.
  intros Hd H. assert (P : 0 < IZR d) by now apply IZR_lt. destruct l as [s|s| |s m e]; try easy.
  apply andb_prop in H. destruct H as [H B]. split; [split; easy|]. unfold R64. simpl SF2R.
  apply Rmult_eq_reg_r with (IZR d); [|lra]. unfold Rdiv. rewrite Rmult_assoc, Rinv_l, Rmult_1_r by lra.
  destruct (Zle_bool_spec 0 e) as [L|L].
  - apply Z.eqb_eq in H. rewrite F2R_pos by easy. rewrite <- mult_IZR. now f_equal.
  - apply Z.eqb_eq in H. rewrite F2R_neg by easy.
    assert (Q : (0 < 2 ^ (- e))%Z) by (apply Z.pow_pos_nonneg; lia).
    assert (QR : 0 < IZR (2 ^ (- e))) by now apply IZR_lt.
    apply Rmult_eq_reg_r with (IZR (2 ^ (- e))); [|lra].
    rewrite <- (mult_IZR n), <- H, mult_IZR. field. lra.
Qed.

(** closeness of a literal to its decimal value, by computation *)
Lemma lit_near n d k : (Z.abs n <= 2 ^ 53)%Z -> (0 < d <= 2 ^ 53)%Z -> (0 <= k)%Z -> (Z.abs n <= d * 2 ^ k)%Z ->
  ok (lit n d) /\ Rabs (R64 (lit n d) - IZR n / IZR d) <= bpow radix2 (k - 54).
Proof.
  intros Hn Hd Hk H. destruct (lit_ok n d Hn Hd) as [O E]. split; [easy|]. rewrite E. apply rnd_err; [lia|].
  assert (P : 0 < IZR d) by (apply IZR_lt; lia).
  unfold Rdiv. rewrite Rabs_mult, (Rabs_right (/ IZR d)) by (apply Rle_ge, Rlt_le, Rinv_0_lt_compat; lra).
  apply Rmult_le_reg_r with (IZR d); [easy|]. rewrite Rmult_assoc, Rinv_l, Rmult_1_r by lra.
  rewrite <- abs_IZR. rewrite <- (IZR_Zpower radix2 k) by easy. rewrite <- mult_IZR. apply IZR_le.
  rewrite Z.mul_comm. exact H.
Qed.
