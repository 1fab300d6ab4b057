(** The new moon of ecFast in real numbers: never far from the mean one. *)
From Coq Require Import ZArith Reals Lia Lra List.
From Flocq Require Import Core.
From Verif Require Import PiBound FormSpec EcSpec.
Import ListNotations.
Open Scope R_scope.
Ltac decs := unfold Q2R; cbn [QArith_base.Qnum QArith_base.Qden]; repeat match goal with |- context [Z.pow_pos 10 ?p] => let v := eval vm_compute in (Z.pow_pos 10 p) in change (Z.pow_pos 10 p) with v end.

Lemma wave_le a x : Rabs (a * cos x) <= Rabs a.
Proof. rewrite Rabs_mult. pose proof (COS_bound x). assert (Rabs (cos x) <= 1) by (apply Rabs_le; lra). pose proof (Rabs_pos a). nra. Qed.
Lemma waves4_le t t2 l : Rabs (sum (map (wave4 cos t t2) l)) <= sum (map (fun x => Rabs (fst (fst (fst x)))) l).
Proof.
  induction l as [|[[[a p] q] q2] l IH]; unfold sum in *; cbn [map fold_right fst]; [rewrite Rabs_R0; lra|].
  apply (Rle_trans _ _ _ (Rabs_triang _ _)). apply Rplus_le_compat; [apply wave_le|exact IH].
Qed.
Lemma cos_abs x : - 1 <= cos x <= 1. Proof. exact (COS_bound x). Qed.
Lemma sin_abs x : - 1 <= sin x <= 1. Proof. exact (SIN_bound x). Qed.
Lemma mean_range k : Rabs k <= 100000 -> Rabs (mean_new k) <= 80.86.
Proof. intros B. apply Rabs_le_inv in B. unfold mean_new. pose proof PI_bounds as P. revert P. decs. intros P. apply Rabs_le. split; nra. Qed.
Lemma first_range t : Rabs t <= 80.86 -> Rabs (first_new t - t) <= 0.00005.
Proof.
  intros B. apply Rabs_le_inv in B. unfold first_new. pose proof (cos_abs (0.785 + 8328.6914 * t)) as C. revert B C. generalize (cos (0.785 + 8328.6914 * t)). decs. intros c B C. apply Rabs_le.
  assert (0 <= t * t <= 6540) by (split; [nra|nra]). replace (t ^ 2) with (t * t) by ring. split; lra.
Qed.
Lemma speed_pos t : 6518 <= elongation_speed t.
Proof.
  unfold elongation_speed. pose proof (sin_abs (0.7848 + 8328.691425 * t + 0.0001523 * t ^ 2)) as A. pose proof (sin_abs (2.543 + 15542.7543 * t)) as B. pose proof (sin_abs (0.1874 + 7214.0629 * t)) as C.
  revert A B C. generalize (sin (0.7848 + 8328.691425 * t + 0.0001523 * t ^ 2)) (sin (2.543 + 15542.7543 * t)) (sin (0.1874 + 7214.0629 * t)). decs. intros. lra.
Qed.
(** what is left of the elongation after the first correction *)
Lemma rest_range k : Rabs k <= 100000 -> Rabs (2 * PI * k - elongation (first_new (mean_new k))) <= 0.35.
Proof.
  intros B. pose proof (mean_range k B) as M. pose proof (first_range _ M) as F. apply Rabs_le_inv in B. pose proof PI_bounds as P. 
  assert (K : 2 * PI * k = 7771.37714500204 * mean_new k - 1.08472) by (unfold mean_new; decs; field).
  rewrite K. clear K. assert (D : first_new (mean_new k) = mean_new k + 0.0000331 * mean_new k ^ 2 / 7771 - 0.10976 / 7771 * cos (0.785 + 8328.6914 * mean_new k)) by reflexivity.
  pose proof (cos_abs (0.785 + 8328.6914 * mean_new k)) as C. revert D C. generalize (cos (0.785 + 8328.6914 * mean_new k)). intros c D C.
  set (t0 := mean_new k) in *. set (t := first_new t0) in *. clearbody t0 t. unfold elongation.
  pose proof (waves4_le t (t ^ 2) elongation_terms) as S. set (s := sum (map (wave4 cos t (t ^ 2)) elongation_terms)) in *. clearbody s.
  assert (S' : Rabs s <= 39777).
  { apply Rle_trans with (1 := S). unfold sum, elongation_terms. cbn [map fold_right fst]. rewrite !Rabs_pos_eq, !Rabs_left by lra. lra. }
  clear S. apply Rabs_le_inv in S', M, F. pose proof (cos_abs (2.67823 + 628.31 * t)) as C2. revert C2. generalize (cos (2.67823 + 628.31 * t)). intros c2 C2. unfold arcsec.
  assert (T : -81 <= t <= 81) by (revert F M; decs; intros; lra).
  assert (X : -44000 <= s - 43 * t * c2 + 21 <= 44000) by (assert (-81 <= t * c2 <= 81) by nra; lra). revert X. generalize (s - 43 * t * c2 + 21). intros x X.
  assert (Y : -0.2134 <= x * PI / 648000 <= 0.2134). { revert P. decs. intros P. split; nra. }
  revert Y. generalize (x * PI / 648000). intros y Y.
  assert (Q : -0.01 <= 0.0000331 * t ^ 2 - 0.0000331 * t0 ^ 2 <= 0.01).
  { assert (E : t ^ 2 - t0 ^ 2 = (t - t0) * (t + t0)) by ring. assert (- 0.01 <= (t - t0) * (t + t0) <= 0.01); [|revert H; rewrite <- E; decs; intros; lra]. revert F M T. decs. intros. split; nra. }
  clear X S' P B. revert D Q Y C F M T. decs. intros D Q Y C F M T. apply Rabs_le. lra.
Qed.
Lemma new_range k : Rabs k <= 100000 -> Rabs (true_new k - mean_new k) <= 0.000104.
Proof.
  intros B. pose proof (rest_range k B) as R. pose proof (first_range _ (mean_range k B)) as F. unfold true_new. cbv zeta.
  pose proof (speed_pos (first_new (mean_new k))) as S. set (v := elongation_speed _) in *. set (x := 2 * PI * k - elongation (first_new (mean_new k))) in *.
  assert (Q : Rabs (x / v) <= 0.000054).
  { unfold Rdiv. rewrite Rabs_mult, (Rabs_pos_eq (/ v)) by (apply Rlt_le, Rinv_0_lt_compat; lra). assert (/ v <= / 6518) by (apply Rinv_le; lra).
    apply Rle_trans with (0.35 * / 6518); [apply Rmult_le_compat; [apply Rabs_pos|apply Rlt_le, Rinv_0_lt_compat; lra|exact R|exact H]|]. decs. lra. }
  apply Rabs_le_inv in F, Q. apply Rabs_le. revert F Q. decs. intros. lra.
Qed.
Lemma new_bound k : Rabs k <= 100000 -> Rabs (true_new k) <= 82.
Proof. intros B. pose proof (mean_range k B) as M. pose proof (new_range k B) as N. apply Rabs_le_inv in M, N. apply Rabs_le. revert M N. decs. intros. lra. Qed.
