(** Sums of cosines as real functions: size, Lipschitz constants, linearisation. *)
From Coq Require Import ZArith Reals Lia Lra Bool List.
From Flocq Require Import Core.
From Verif Require Import F64E SmTab WaveF.
Import ListNotations.
Open Scope R_scope.

Definition sz (T : Z) (w : wave) : Z := (100000 * Z.abs (wd w) + 2000 * T * Z.abs (we w) + 300 * T * T * Z.abs (wf w) + 4 * T * T * T * Z.abs (wg w))%Z.
Definition lip (T : Z) (l : list wave) : Z := fold_right (fun w s => (Z.abs (wa w) * sz T w + s)%Z) 0%Z l.

Lemma abs3 a b c : Rabs (a * b * c) = Rabs a * Rabs b * Rabs c.
Proof. rewrite !Rabs_mult. reflexivity. Qed.
Lemma prod_le a b x y : Rabs a <= x -> Rabs b <= y -> Rabs (a * b) <= x * y.
Proof. intros. rewrite Rabs_mult. apply Rmult_le_compat; auto using Rabs_pos. Qed.
Lemma sum_le a b x y : Rabs a <= x -> Rabs b <= y -> Rabs (a + b) <= x + y.
Proof. intros. apply (Rle_trans _ _ _ (Rabs_triang _ _)). lra. Qed.
Lemma diff_le a b x y : Rabs a <= x -> Rabs b <= y -> Rabs (a - b) <= x + y.
Proof. intros. unfold Rminus. apply sum_le; [assumption|]. rewrite Rabs_Ropp. assumption. Qed.
Lemma abs_le2 a b : Rabs a <= b -> Rabs a <= Rabs b.
Proof. intros H. apply (Rle_trans _ _ _ H), RRle_abs. Qed.

(** the phase moves by d h, up to the slow terms *)
Lemma ph_lin T w t t' : (0 <= T)%Z -> Rabs t <= IZR T -> Rabs t' <= IZR T ->
  Rabs (ph w t' - ph w t - (t' - t) * (IZR (wd w) / 1000000000)) <= IZR (sz T w - 100000 * Z.abs (wd w)) / 100000000000000 * Rabs (t' - t).
Proof.
  intros T0 B B'. set (h := t' - t).
  assert (TR : 0 <= IZR T) by (apply IZR_le; exact T0).
  replace (ph w t' - ph w t - h * (IZR (wd w) / 1000000000)) with
    (((t' + t) * (IZR (we w) / 100000000000) + ((t' * t' + t' * t + t * t) * (IZR (wf w) / 1000000000000) + (t' * t' * t' + t' * t' * t + t' * t * t + t * t * t) * (IZR (wg w) / 100000000000000))) * h)
    by (unfold ph, h; field).
  rewrite Rabs_mult. apply Rmult_le_compat_r; [apply Rabs_pos|].
  replace (sz T w - 100000 * Z.abs (wd w))%Z with (2000 * T * Z.abs (we w) + 300 * T * T * Z.abs (wf w) + 4 * T * T * T * Z.abs (wg w))%Z by (unfold sz; lia).
  rewrite !plus_IZR, !mult_IZR.
  assert (p2 : forall a b, Rabs a <= IZR T -> Rabs b <= IZR T -> Rabs (a * b) <= IZR T * IZR T) by (intros; apply prod_le; assumption).
  assert (p3 : forall a b c, Rabs a <= IZR T -> Rabs b <= IZR T -> Rabs c <= IZR T -> Rabs (a * b * c) <= IZR T * IZR T * IZR T) by (intros; apply prod_le; [apply p2|]; assumption).
  assert (Q : forall (n : Z) x k M, 0 < k -> Rabs x <= M -> Rabs (x * (IZR n / k)) <= M * (IZR (Z.abs n) / k)).
  { intros n x k M K X. apply prod_le; [exact X|]. unfold Rdiv. rewrite Rabs_mult, (Rabs_pos_eq (/ k)) by (apply Rlt_le, Rinv_0_lt_compat, K). rewrite abs_IZR. apply Rle_refl. }
  apply Rle_trans with (2 * IZR T * (IZR (Z.abs (we w)) / 100000000000) + (3 * (IZR T * IZR T) * (IZR (Z.abs (wf w)) / 1000000000000) + 4 * (IZR T * IZR T * IZR T) * (IZR (Z.abs (wg w)) / 100000000000000))).
  - apply sum_le; [|apply sum_le]; apply Q; try lra.
    + replace (2 * IZR T) with (IZR T + IZR T) by ring. apply sum_le; assumption.
    + replace (3 * (IZR T * IZR T)) with (IZR T * IZR T + IZR T * IZR T + IZR T * IZR T) by ring. repeat apply sum_le; apply p2; assumption.
    + replace (4 * (IZR T * IZR T * IZR T)) with (IZR T * IZR T * IZR T + IZR T * IZR T * IZR T + IZR T * IZR T * IZR T + IZR T * IZR T * IZR T) by ring. repeat apply sum_le; apply p3; assumption.
  - right. field.
Qed.
Lemma sz_pos T w : (0 <= T)%Z -> (0 <= sz T w - 100000 * Z.abs (wd w))%Z.
Proof. intros H. unfold sz. nia. Qed.
Lemma ph_lip T w t t' : (0 <= T)%Z -> Rabs t <= IZR T -> Rabs t' <= IZR T -> Rabs (ph w t' - ph w t) <= IZR (sz T w) / 100000000000000 * Rabs (t' - t).
Proof.
  intros T0 B B'. replace (ph w t' - ph w t) with ((ph w t' - ph w t - (t' - t) * (IZR (wd w) / 1000000000)) + (t' - t) * (IZR (wd w) / 1000000000)) by ring.
  apply Rle_trans with (1 := sum_le _ _ _ _ (ph_lin T w t t' T0 B B') (Rle_refl _)). rewrite minus_IZR, mult_IZR, Rabs_mult, abs_quot by lia. right. field.
Qed.
Lemma ws_amp l t : Rabs (ws l t) <= IZR (amp l).
Proof.
  induction l as [|w l IH]; cbn [ws amp fold_right]; [rewrite Rabs_R0; apply Rle_refl|]. fold (ws l t) (amp l). rewrite plus_IZR. apply sum_le; [|exact IH].
  rewrite abs_IZR, <- (Rmult_1_r (Rabs (IZR (wa w)))). apply prod_le; [apply Rle_refl|apply Rabs_le, COS_bound].
Qed.
Lemma lip_pos T l : (0 <= T)%Z -> (0 <= lip T l)%Z.
Proof. intros H. induction l as [|w l IH]; cbn [lip fold_right]; [lia|]. fold (lip T l). pose proof (sz_pos T w H). nia. Qed.
Lemma ws_lip T l t t' : (0 <= T)%Z -> Rabs t <= IZR T -> Rabs t' <= IZR T -> Rabs (ws l t' - ws l t) <= IZR (lip T l) / 100000000000000 * Rabs (t' - t).
Proof.
  intros T0 B B'. induction l as [|w l IH]; cbn [ws lip fold_right].
  - unfold Rminus. rewrite Rplus_opp_r, Rabs_R0. unfold Rdiv. rewrite !Rmult_0_l. apply Rle_refl.
  - fold (ws l t) (ws l t') (lip T l). rewrite plus_IZR, mult_IZR.
    replace (IZR (wa w) * cos (ph w t') + ws l t' - (IZR (wa w) * cos (ph w t) + ws l t)) with (IZR (wa w) * (cos (ph w t') - cos (ph w t)) + (ws l t' - ws l t)) by ring.
    replace ((IZR (Z.abs (wa w)) * IZR (sz T w) + IZR (lip T l)) / 100000000000000 * Rabs (t' - t)) with (IZR (Z.abs (wa w)) * (IZR (sz T w) / 100000000000000 * Rabs (t' - t)) + IZR (lip T l) / 100000000000000 * Rabs (t' - t)) by field.
    apply sum_le; [|exact IH]. rewrite abs_IZR. apply prod_le; [apply Rle_refl|]. apply Rle_trans with (1 := cos_lip _ _). apply ph_lip; assumption.
Qed.
Lemma ws_app l1 l2 t : ws (l1 ++ l2) t = ws l1 t + ws l2 t.
Proof. induction l1 as [|w l IH]; cbn [app]; [change (ws [] t) with 0; ring|]. cbn [ws fold_right]. fold (ws (l ++ l2) t) (ws l t). rewrite IH. ring. Qed.
Lemma ws_split n l t : ws l t = ws (firstn n l) t + ws (skipn n l) t.
Proof. rewrite <- ws_app, firstn_skipn. reflexivity. Qed.
Lemma ws_tail n l t : Rabs (ws l t - ws (firstn n l) t) <= IZR (amp (skipn n l)).
Proof. rewrite (ws_split n l t). replace (ws (firstn n l) t + ws (skipn n l) t - ws (firstn n l) t) with (ws (skipn n l) t) by ring. apply ws_amp. Qed.

(** a sum multiplied with a power of t *)
Lemma pow1 T k t t' : Rabs t <= T -> Rabs t' <= T -> Rabs (t' ^ k - t ^ k) <= INR k * T ^ (Nat.pred k) * Rabs (t' - t).
Proof.
  intros B B'. assert (0 <= T) by (apply Rle_trans with (2 := B), Rabs_pos). induction k as [|k IH].
  - cbn [pow INR Nat.pred]. unfold Rminus at 1. rewrite Rplus_opp_r, Rabs_R0. lra.
  - replace (t' ^ S k - t ^ S k) with ((t' - t) * t' ^ k + t * (t' ^ k - t ^ k)) by (cbn [pow]; ring).
    apply Rle_trans with (Rabs (t' - t) * T ^ k + T * (INR k * T ^ (Nat.pred k) * Rabs (t' - t))).
    + apply sum_le; apply prod_le; [apply Rle_refl| |exact B|exact IH]. rewrite <- RPow_abs. apply pow_incr. split; [apply Rabs_pos|exact B'].
    + rewrite S_INR. cbn [Nat.pred]. destruct k; [cbn [Nat.pred pow INR]; right; ring|]. cbn [Nat.pred pow]. right. ring.
Qed.
Lemma pows_lip T k l t t' : (0 <= T)%Z -> Rabs t <= IZR T -> Rabs t' <= IZR T ->
  Rabs (t' ^ k * ws l t' - t ^ k * ws l t) <= (INR k * IZR T ^ (Nat.pred k) * IZR (amp l) + IZR T ^ k * (IZR (lip T l) / 100000000000000)) * Rabs (t' - t).
Proof.
  intros T0 B B'. assert (TR : 0 <= IZR T) by (apply IZR_le; exact T0).
  replace (t' ^ k * ws l t' - t ^ k * ws l t) with ((t' ^ k - t ^ k) * ws l t' + t ^ k * (ws l t' - ws l t)) by ring.
  rewrite Rmult_plus_distr_r. apply sum_le.
  - replace (INR k * IZR T ^ (Nat.pred k) * IZR (amp l) * Rabs (t' - t)) with (INR k * IZR T ^ (Nat.pred k) * Rabs (t' - t) * IZR (amp l)) by ring. apply prod_le; [apply pow1; assumption|apply ws_amp].
  - rewrite Rmult_assoc. apply prod_le; [|apply ws_lip; assumption]. rewrite <- RPow_abs. apply pow_incr. split; [apply Rabs_pos|exact B].
Qed.

(** second order *)
Lemma cos2 x d : Rabs (cos (x + d) - cos x + d * sin x) <= d * d / 2.
Proof.
  assert (P : forall x d, 0 <= d -> Rabs (cos (x + d) - cos x + d * sin x) <= d * d / 2).
  { clear. intros x d D. destruct (Rle_lt_or_eq_dec 0 d D) as [L|<-].
    2:{ rewrite Rplus_0_r, Rmult_0_l. replace (cos x - cos x + 0) with 0 by ring. rewrite Rabs_R0. lra. }
    assert (DG : forall s c, derivable_pt_lim (fun d => d * d / 2 + s * (cos (x + d) - cos x + d * sin x)) c (c + s * (- sin (x + c) + sin x))).
    { intros s c.
      assert (D1 : derivable_pt_lim (fun d => d * d / 2) c c).
      { replace c with ((1 * c + c * 1) * / 2) at 2 by field. apply (derivable_pt_lim_scal_right (fun d => d * d)). apply derivable_pt_lim_mult; apply derivable_pt_lim_id. }
      apply derivable_pt_lim_plus; [exact D1|]. apply derivable_pt_lim_scal.
      apply derivable_pt_lim_plus.
      - replace (- sin (x + c)) with (- sin (x + c) * (0 + 1) - 0) by ring. apply derivable_pt_lim_minus; [|apply derivable_pt_lim_const].
        apply (derivable_pt_lim_comp (fun d => x + d) cos); [|apply derivable_pt_lim_cos]. apply derivable_pt_lim_plus; [apply derivable_pt_lim_const|apply derivable_pt_lim_id].
      - pose proof (derivable_pt_lim_scal_right id c 1 (sin x) (derivable_pt_lim_id c)) as D3. rewrite Rmult_1_l in D3. exact D3. }
    assert (H : forall s, s = 1 \/ s = -1 -> 0 <= d * d / 2 + s * (cos (x + d) - cos x + d * sin x)).
    { intros s Hs. destruct (MVT_cor2 (fun d => d * d / 2 + s * (cos (x + d) - cos x + d * sin x)) _ 0 d L (fun c _ => DG s c)) as (c & E & I).
      cbv beta in E. rewrite Rplus_0_r in E. assert (N : 0 <= (c + s * (- sin (x + c) + sin x)) * (d - 0)).
      { apply Rmult_le_pos; [|lra]. pose proof (sin_lip (x + c) x) as LP. replace (x + c - x) with c in LP by ring. rewrite (Rabs_pos_eq c) in LP by lra. apply Rabs_le_inv in LP. destruct Hs as [-> | ->]; lra. }
      lra. }
    pose proof (H 1 (or_introl eq_refl)). pose proof (H (-1) (or_intror eq_refl)). apply Rabs_le. lra. }
  destruct (Rle_or_lt 0 d) as [D|D]; [apply P; exact D|].
  replace (cos (x + d) - cos x + d * sin x) with (cos (- x + - d) - cos (- x) + - d * sin (- x)).
  - replace (d * d / 2) with (- d * - d / 2) by field. apply P. lra.
  - replace (- x + - d) with (- (x + d)) by ring. rewrite !cos_neg, sin_neg. ring.
Qed.
(** a large term against a term c sin(q) of an approximate rate of change: q is near the phase, or near half a turn from it *)
Lemma item T w t t' c q s sup : (0 <= T)%Z -> Rabs t <= IZR T -> Rabs t' <= IZR T -> s = 1 \/ s = -1 -> Rabs (s * sin (ph w t) - sin q) <= sup ->
  forall A, Rabs (A * (cos (ph w t') - cos (ph w t)) + (t' - t) * (c * sin q)) <=
  (Rabs A * (IZR (sz T w - 100000 * Z.abs (wd w)) / 100000000000000) + Rabs (A * (IZR (wd w) / 1000000000) - s * c) + Rabs c * sup) * Rabs (t' - t) +
  Rabs A * (IZR (sz T w) / 100000000000000) ^ 2 / 2 * (t' - t) ^ 2.
Proof.
  intros T0 B B' Hs Hq A. pose proof (ph_lin T w t t' T0 B B') as PL. pose proof (ph_lip T w t t' T0 B B') as PS.
  set (h := t' - t) in *. set (d := ph w t' - ph w t) in *. set (D := IZR (wd w) / 1000000000) in *. set (x := ph w t) in *.
  replace (ph w t') with (x + d) by (unfold d, x; ring). pose proof (cos2 x d) as C.
  replace (A * (cos (x + d) - cos x) + h * (c * sin q)) with (A * (cos (x + d) - cos x + d * sin x) + (- (A * (d - h * D) * sin x) + (- (h * (A * D - s * c) * sin x) + h * c * - (s * sin x - sin q)))) by ring.
  assert (S1 : Rabs (sin x) <= 1) by (apply Rabs_le, SIN_bound).
  assert (K1 : Rabs (A * (cos (x + d) - cos x + d * sin x)) <= Rabs A * (IZR (sz T w) / 100000000000000) ^ 2 / 2 * h ^ 2).
  { replace (Rabs A * (IZR (sz T w) / 100000000000000) ^ 2 / 2 * h ^ 2) with (Rabs A * ((IZR (sz T w) / 100000000000000 * Rabs h) ^ 2 / 2)) by (rewrite <- (pow2_abs h); field).
    apply prod_le; [apply Rle_refl|]. apply Rle_trans with (1 := C). replace (d * d) with (Rabs d ^ 2) by (rewrite pow2_abs; ring).
    apply Rmult_le_compat_r; [lra|]. apply pow_incr. split; [apply Rabs_pos|exact PS]. }
  assert (K2 : Rabs (- (A * (d - h * D) * sin x)) <= Rabs A * (IZR (sz T w - 100000 * Z.abs (wd w)) / 100000000000000 * Rabs h)).
  { rewrite Rabs_Ropp, <- (Rmult_1_r (Rabs A * _)). apply prod_le; [|exact S1]. apply prod_le; [apply Rle_refl|exact PL]. }
  assert (K3 : Rabs (- (h * (A * D - s * c) * sin x)) <= Rabs h * Rabs (A * D - s * c)).
  { rewrite Rabs_Ropp, <- (Rmult_1_r (Rabs h * _)). apply prod_le; [|exact S1]. apply prod_le; apply Rle_refl. }
  assert (K4 : Rabs (h * c * - (s * sin x - sin q)) <= Rabs h * Rabs c * sup).
  { apply prod_le; [apply prod_le; apply Rle_refl|]. rewrite Rabs_Ropp. exact Hq. }
  apply Rle_trans with (1 := sum_le _ _ _ _ K1 (sum_le _ _ _ _ K2 (sum_le _ _ _ _ K3 K4))). right. ring.
Qed.
