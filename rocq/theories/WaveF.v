(** Sums of cosines with tabulated coefficients: the value in doubles is near the real one. *)
From Coq Require Import ZArith Reals Lia Lra Bool List.
From Coq Require Import Floats.SpecFloat.
From Flocq Require Import Core IEEE754.BinarySingleNaN.
From Verif Require Import F64 F64R F64E SmTab.
Import ListNotations.
Open Scope R_scope.

(** the phase at t, and a sum in units of the amplitudes *)
Definition ph (w : wave) (t : R) : R :=
  IZR (wb w) / 100000000000 + t * (IZR (wd w) / 1000000000) + t * t / 10000 * (IZR (we w) / 10000000) +
  t * t * t / 100000000 * (IZR (wf w) / 10000) + t * t * t * t / 100000000 * (IZR (wg w) / 1000000).
Definition ws (l : list wave) (t : R) : R := fold_right (fun w s => IZR (wa w) * cos (ph w t) + s) 0 l.

Definition fits (w : wave) : bool :=
  ((1 <=? Z.abs (wa w)) && (Z.abs (wa w) <=? 1000000000000000) && (Z.abs (wb w) <=? 700000000000) && (Z.abs (wd w) <=? 1000000000000000) &&
   (Z.abs (we w) <=? 100000000) && (Z.abs (wf w) <=? 1300000) && (Z.abs (wg w) <=? 1000000))%Z.
Definition amp (l : list wave) : Z := fold_right (fun w s => (Z.abs (wa w) + s)%Z) 0%Z l.
Definition cost (k c : Z) (l : list wave) : Z := fold_right (fun w s => (Z.abs (wa w) * (k * Z.abs (wd w) + c * 1000000000) + s)%Z) 0%Z l.

Lemma u53_pos : 0 < u53. Proof. apply Rinv_0_lt_compat, IZR_lt. reflexivity. Qed.
Lemma near_lit_rel n d : (Z.abs n <= 2 ^ 53)%Z -> (0 < d <= 2 ^ 53)%Z -> near (lit n d) (IZR n / IZR d) (Rabs (IZR n / IZR d) * u53 + tiny) (Rabs (IZR n / IZR d)).
Proof.
  intros N D. destruct (lit_ok n d N D) as [O Q]. split; [exact O|]. split; [|apply Rle_refl]. rewrite Q. apply rnd_rel.
Qed.
Lemma abs_quot n d : (0 < d)%Z -> Rabs (IZR n / IZR d) = IZR (Z.abs n) / IZR d.
Proof.
  intros D. assert (0 < IZR d) by (apply IZR_lt; exact D). unfold Rdiv. rewrite Rabs_mult, (Rabs_pos_eq (/ IZR d)) by (apply Rlt_le, Rinv_0_lt_compat; assumption).
  rewrite <- abs_IZR. reflexivity.
Qed.
Lemma near_lit_abs n d B : (0 < d <= 2 ^ 53)%Z -> (Z.abs n <= 2 ^ 53)%Z -> IZR (Z.abs n) / IZR d <= B -> near (lit n d) (IZR n / IZR d) (B * u53 + tiny) B.
Proof.
  intros D N H. pose proof u53_pos. refine (near_weak _ _ _ _ _ _ (near_lit_rel n d N D) _ _); rewrite abs_quot by lia; [|exact H].
  apply Rplus_le_compat_r, Rmult_le_compat_r; [lra|exact H].
Qed.
Ltac eps := unfold u53, tiny, big in *; lra.

Section Terms.
Variable fcos : f64 -> f64.
Hypothesis Gc : good_lib fcos cos.

Section Moon.
Variable t : f64.
Hypothesis Ot : ok t.
Hypothesis Bt : Rabs (R64 t) <= 100.
Let r := R64 t.
Let t2 := fmul t t. Let t3 := fmul t2 t. Let t4 := fmul t3 t.
Let s2 := fdiv t2 (fZ 10000). Let s3 := fdiv t3 (fZ 100000000). Let s4 := fdiv t4 (fZ 100000000).
Lemma near_t : near t r 0 100.
Proof. split; [exact Ot|]. split; [unfold r, Rminus; rewrite Rplus_opp_r, Rabs_R0; apply Rle_refl|exact Bt]. Qed.
Lemma near_t2 : near t2 (r * r) (10001 * u53) 10000.
Proof. apply (near_mul _ _ _ _ _ _ _ _ _ _ near_t near_t); eps. Qed.
Lemma near_t3 : near t3 (r * r * r) (2000200 * u53) 1000000.
Proof. apply (near_mul _ _ _ _ _ _ _ _ _ _ near_t2 near_t); eps. Qed.
Lemma near_t4 : near t4 (r * r * r * r) (300100000 * u53) 100000000.
Proof. apply (near_mul _ _ _ _ _ _ _ _ _ _ near_t3 near_t); eps. Qed.
Lemma near_s2 : near s2 (r * r / 10000) (2.01 * u53) 1.
Proof. apply (near_divZ _ _ _ _ _ _ _ near_t2); [lia|lra|eps|eps]. Qed.
Lemma near_s3 : near s3 (r * r * r / 100000000) (0.031 * u53) 0.01.
Proof. apply (near_divZ _ _ _ _ _ _ _ near_t3); [lia|lra|eps|eps]. Qed.
Lemma near_s4 : near s4 (r * r * r * r / 100000000) (4.01 * u53) 1.
Proof. apply (near_divZ _ _ _ _ _ _ _ near_t4); [lia|lra|eps|eps]. Qed.

Definition term6 (w : wave) : f64 :=
  fmul (lit (wa w) 100000000) (fcos (fadd (fadd (fadd (fadd (lit (wb w) 100000000000) (fmul t (lit (wd w) 1000000000))) (fmul s2 (lit (we w) 10000000))) (fmul s3 (lit (wf w) 10000))) (fmul s4 (lit (wg w) 1000000)))).
Lemma term6_near w : fits w = true -> let A := IZR (Z.abs (wa w)) / 100000000 in let D := IZR (Z.abs (wd w)) / 1000000000 in
  near (term6 w) (IZR (wa w) / 100000000 * cos (ph w r)) (A * (606 * D + 140) * u53) A.
Proof.
  intros F A D. unfold fits in F. apply andb_prop in F as [F Fg]. apply andb_prop in F as [F Ff]. apply andb_prop in F as [F Fe]. apply andb_prop in F as [F Fd]. apply andb_prop in F as [F Fb]. apply andb_prop in F as [F1 F2].
  rewrite Z.leb_le in *.
  assert (PD : 0 <= D <= 1000000). { unfold D. pose proof (IZR_le 0 (Z.abs (wd w)) (Z.abs_nonneg _)). pose proof (IZR_le _ _ Fd). lra. }
  assert (PA : 1 / 100000000 <= A <= 10000000). { unfold A. pose proof (IZR_le _ _ F1). pose proof (IZR_le _ _ F2). lra. }
  assert (NA : near (lit (wa w) 100000000) (IZR (wa w) / 100000000) (A * u53 + tiny) A) by (apply near_lit_abs; [lia|lia|apply Rle_refl]).
  assert (ND : near (lit (wd w) 1000000000) (IZR (wd w) / 1000000000) (D * u53 + tiny) D) by (apply near_lit_abs; [lia|lia|apply Rle_refl]).
  assert (NB : near (lit (wb w) 100000000000) (IZR (wb w) / 100000000000) (7 * u53 + tiny) 7) by (apply near_lit_abs; [lia|lia|pose proof (IZR_le _ _ Fb); lra]).
  assert (NE : near (lit (we w) 10000000) (IZR (we w) / 10000000) (10 * u53 + tiny) 10) by (apply near_lit_abs; [lia|lia|pose proof (IZR_le _ _ Fe); lra]).
  assert (NF : near (lit (wf w) 10000) (IZR (wf w) / 10000) (130 * u53 + tiny) 130) by (apply near_lit_abs; [lia|lia|pose proof (IZR_le _ _ Ff); lra]).
  assert (NG : near (lit (wg w) 1000000) (IZR (wg w) / 1000000) (1 * u53 + tiny) 1) by (apply near_lit_abs; [lia|lia|pose proof (IZR_le _ _ Fg); lra]).
  clearbody A D.
  assert (M1 : near (fmul t (lit (wd w) 1000000000)) (r * (IZR (wd w) / 1000000000)) ((201 * D + 1) * u53) (100 * D)) by (apply (near_mul _ _ _ _ _ _ _ _ _ _ near_t ND); eps).
  assert (S1 := near_add _ _ _ _ _ _ _ _ ((302 * D + 17) * u53) (100 * D + 7) NB M1 ltac:(eps) ltac:(eps) ltac:(eps)).
  assert (M2 : near (fmul s2 (lit (we w) 10000000)) (r * r / 10000 * (IZR (we w) / 10000000)) (42 * u53) 10) by (apply (near_mul _ _ _ _ _ _ _ _ _ _ near_s2 NE); eps).
  assert (S2 := near_add _ _ _ _ _ _ _ _ ((403 * D + 78) * u53) (100 * D + 17) S1 M2 ltac:(eps) ltac:(eps) ltac:(eps)).
  assert (M3 : near (fmul s3 (lit (wf w) 10000)) (r * r * r / 100000000 * (IZR (wf w) / 10000)) (8 * u53) 1.3) by (apply (near_mul _ _ _ _ _ _ _ _ _ _ near_s3 NF); eps).
  assert (S3 := near_add _ _ _ _ _ _ _ _ ((504 * D + 105) * u53) (100 * D + 18.3) S2 M3 ltac:(eps) ltac:(eps) ltac:(eps)).
  assert (M4 : near (fmul s4 (lit (wg w) 1000000)) (r * r * r * r / 100000000 * (IZR (wg w) / 1000000)) (7 * u53) 1) by (apply (near_mul _ _ _ _ _ _ _ _ _ _ near_s4 NG); eps).
  assert (S4 := near_add _ _ _ _ _ _ _ _ ((605 * D + 132) * u53) (100 * D + 19.3) S3 M4 ltac:(eps) ltac:(eps) ltac:(eps)).
  pose proof (near_cos fcos _ _ _ _ Gc S4) as C.
  unfold term6, ph. apply (near_mul _ _ _ _ _ _ _ _ _ _ NA C); [lra| |].
  - clear -PA PD. assert (0 <= A * D <= A * 1000000) by (split; [apply Rmult_le_pos; lra|apply Rmult_le_compat_l; lra]). eps.
  - clear -PA PD. apply Rle_trans with (10000001 * 3); [apply Rmult_le_compat; eps|eps].
Qed.
End Moon.

Section Planet.
Variable t : f64.
Variable r : R.
Hypothesis Nt : near t r (11 * u53) 10.
Definition term3 (w : wave) : f64 := fmul (fZ (wa w)) (fcos (fadd (lit (wb w) 100000000000) (fmul t (lit (wd w) 1000000000)))).
Definition flat (w : wave) : bool := ((we w =? 0) && (wf w =? 0) && (wg w =? 0))%Z.
Lemma term3_near w : fits w = true -> flat w = true -> let A := IZR (Z.abs (wa w)) in let D := IZR (Z.abs (wd w)) / 1000000000 in
  near (term3 w) (IZR (wa w) * cos (ph w r)) (A * (44 * D + 21) * u53) A.
Proof.
  intros F G A D. unfold fits in F. unfold flat in G. apply andb_prop in F as [F _]. apply andb_prop in F as [F _]. apply andb_prop in F as [F _]. apply andb_prop in F as [F Fd]. apply andb_prop in F as [F Fb]. apply andb_prop in F as [F1 F2].
  apply andb_prop in G as [G Gg]. apply andb_prop in G as [Ge Gf].
  rewrite Z.leb_le in *. rewrite Z.eqb_eq in *.
  assert (PD : 0 <= D <= 1000000). { unfold D. pose proof (IZR_le 0 (Z.abs (wd w)) (Z.abs_nonneg _)). pose proof (IZR_le _ _ Fd). lra. }
  assert (PA : 1 <= A <= 1000000000000000). { unfold A. pose proof (IZR_le _ _ F1). pose proof (IZR_le _ _ F2). lra. }
  assert (NA : near (fZ (wa w)) (IZR (wa w)) 0 A) by (apply near_Z; lia).
  assert (ND : near (lit (wd w) 1000000000) (IZR (wd w) / 1000000000) (D * u53 + tiny) D) by (apply near_lit_abs; [lia|lia|apply Rle_refl]).
  assert (NB : near (lit (wb w) 100000000000) (IZR (wb w) / 100000000000) (7 * u53 + tiny) 7) by (apply near_lit_abs; [lia|lia|pose proof (IZR_le _ _ Fb); lra]).
  clearbody A D.
  assert (M1 : near (fmul t (lit (wd w) 1000000000)) (r * (IZR (wd w) / 1000000000)) ((32 * D + 1) * u53) (10 * D)) by (apply (near_mul _ _ _ _ _ _ _ _ _ _ Nt ND); eps).
  assert (S1 := near_add _ _ _ _ _ _ _ _ ((43 * D + 17) * u53) (10 * D + 7) NB M1 ltac:(eps) ltac:(eps) ltac:(eps)).
  pose proof (near_cos fcos _ _ _ _ Gc S1) as C.
  unfold term3, ph. rewrite Ge, Gf, Gg. replace (IZR (wb w) / 100000000000 + r * (IZR (wd w) / 1000000000) + r * r / 10000 * (0 / 10000000) + r * r * r / 100000000 * (0 / 10000) + r * r * r * r / 100000000 * (0 / 1000000))
    with (IZR (wb w) / 100000000000 + r * (IZR (wd w) / 1000000000)) by (unfold Rdiv; ring).
  apply (near_mul _ _ _ _ _ _ _ _ _ _ NA C); [lra| |].
  - clear -PA PD. assert (0 <= A * D <= A * 1000000) by (split; [apply Rmult_le_pos; lra|apply Rmult_le_compat_l; lra]). eps.
  - clear -PA PD. apply Rle_trans with (10000000000000001 * 3); [apply Rmult_le_compat; eps|eps].
Qed.
End Planet.
End Terms.

Lemma cost_pos k c : (0 <= k)%Z -> (0 <= c)%Z -> forall l, (0 <= cost k c l)%Z.
Proof. intros K C l. induction l as [|w l IH]; cbn [cost fold_right]; [lia|]. fold (cost k c l). nia. Qed.
Lemma amp_pos l : (0 <= amp l)%Z.
Proof. induction l as [|w l IH]; cbn [amp fold_right]; [lia|]. fold (amp l). lia. Qed.
(** the sum, term by term from the left *)
Section Sum.
Variables (f : wave -> f64) (g : wave -> R) (u k c : Z) (Mx : R).
Hypothesis Pu : (0 < u)%Z.
Hypothesis Pk : (0 <= k)%Z.
Hypothesis Pc : (0 <= c)%Z.
Hypothesis PM : 0 <= Mx <= 10000000000000000.
Lemma sum_near l : (forall w, In w l -> near (f w) (g w) (IZR (Z.abs (wa w)) / IZR u * (IZR k * (IZR (Z.abs (wd w)) / 1000000000) + IZR c) * u53) (IZR (Z.abs (wa w)) / IZR u)) ->
  forall x r e m, near x r e m -> 0 <= m -> m + IZR (amp l) / IZR u <= Mx ->
  e + IZR (cost k c l) / IZR u / 1000000000 * u53 + IZR (Z.of_nat (length l)) * (Mx + 2) * u53 <= 1 ->
  near (fold_left (fun s w => fadd s (f w)) l x) (r + fold_right (fun w s => g w + s) 0 l)
    (e + IZR (cost k c l) / IZR u / 1000000000 * u53 + IZR (Z.of_nat (length l)) * (Mx + 2) * u53) (m + IZR (amp l) / IZR u).
Proof.
  assert (U0 : 0 < IZR u) by (apply IZR_lt; exact Pu). pose proof u53_pos as UP.
  induction l as [|w l IH]; intros N x r e m X M1 M2 E.
  - cbn [fold_left fold_right cost amp length] in *. change (Z.of_nat 0) with 0%Z in *.
    refine (near_weak _ _ _ _ _ _ _ _ _); [rewrite Rplus_0_r; exact X| |]; unfold Rdiv; lra.
  - cbn [fold_left fold_right length] in E |- *. rewrite Nat2Z.inj_succ, succ_IZR in E |- *. cbn [cost amp fold_right] in E, M2 |- *. fold (cost k c l) in E |- *. fold (amp l) in M2 |- *.
    rewrite plus_IZR in E, M2 |- *. rewrite mult_IZR, plus_IZR, !mult_IZR in E |- *.
    pose proof (IZR_le 0 _ (cost_pos k c Pk Pc l)) as C0. pose proof (IZR_le 0 _ (amp_pos l)) as A0. assert (L0 : 0 <= IZR (Z.of_nat (length l))) by (apply IZR_le; lia).
    set (A := IZR (Z.abs (wa w))) in *. set (D := IZR (Z.abs (wd w))) in *. set (C := IZR (cost k c l)) in *. set (P := IZR (amp l)) in *. set (L := IZR (Z.of_nat (length l))) in *.
    assert (PA : 0 <= A) by (apply IZR_le, Z.abs_nonneg). assert (PD : 0 <= D) by (apply IZR_le, Z.abs_nonneg).
    assert (K0 : 0 <= IZR k) by (apply IZR_le; exact Pk). assert (c0 : 0 <= IZR c) by (apply IZR_le; exact Pc).
    replace ((A * (IZR k * D + IZR c * 1000000000) + C) / IZR u / 1000000000 * u53) with (A / IZR u * (IZR k * (D / 1000000000) + IZR c) * u53 + C / IZR u / 1000000000 * u53) in E |- * by (field; lra).
    replace ((A + P) / IZR u) with (A / IZR u + P / IZR u) in M2 |- * by (field; lra).
    specialize (N w (or_introl eq_refl)) as NW. fold A D in NW.
    assert (q1 : 0 <= A / IZR u) by (apply Rmult_le_pos; [exact PA|apply Rlt_le, Rinv_0_lt_compat, U0]).
    assert (q2 : 0 <= P / IZR u) by (apply Rmult_le_pos; [exact A0|apply Rlt_le, Rinv_0_lt_compat, U0]).
    assert (q3 : 0 <= C / IZR u / 1000000000 * u53). { apply Rmult_le_pos; [|lra]. apply Rmult_le_pos; [|lra]. apply Rmult_le_pos; [exact C0|apply Rlt_le, Rinv_0_lt_compat, U0]. }
    assert (q4 : 0 <= L * (Mx + 2) * u53) by (apply Rmult_le_pos; [apply Rmult_le_pos; lra|lra]).
    set (q := A / IZR u * (IZR k * (D / 1000000000) + IZR c) * u53) in *.
    assert (q0 : 0 <= q). { unfold q. apply Rmult_le_pos; [|lra]. apply Rmult_le_pos; [exact q1|]. apply Rplus_le_le_0_compat; [|exact c0]. apply Rmult_le_pos; [exact K0|lra]. }
    assert (e0 : 0 <= e) by (destruct X as (_ & X & _); apply Rle_trans with (2 := X); apply Rabs_pos).
    assert (q5 : 0 <= (Mx + 2) * u53) by (apply Rmult_le_pos; lra).
    replace ((L + 1) * (Mx + 2) * u53) with (L * (Mx + 2) * u53 + (Mx + 2) * u53) in E |- * by ring.
    assert (S : near (fadd x (f w)) (r + g w) (e + q + (Mx + 2) * u53) (m + A / IZR u)).
    { apply (near_add _ _ _ _ _ _ _ _ _ _ X NW); [apply Rle_refl| |].
      - assert ((m + A / IZR u + (e + q)) * u53 <= (Mx + 1) * u53) by (apply Rmult_le_compat_r; lra). assert (tiny <= 1 * u53) by eps. lra.
      - eps. }
    fold C P L in IH. assert (H := IH (fun w' I => N w' (or_intror I)) _ _ _ _ S ltac:(lra) ltac:(lra) ltac:(lra)).
    replace (r + (g w + fold_right (fun w s => g w + s) 0 l)) with (r + g w + fold_right (fun w s => g w + s) 0 l) by ring.
    fold C P L in H. refine (near_weak _ _ _ _ _ _ H _ _); [lra|]. rewrite plus_IZR. fold A P. unfold Rdiv. lra.
Qed.
End Sum.
