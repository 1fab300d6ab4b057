(** ecFast: the shadow and the kind of the eclipse. *)
From Coq Require Import String ZArith Reals Lia Lra Bool List.
From Coq Require Import Floats.SpecFloat.
From Flocq Require Import Core IEEE754.BinarySingleNaN.
From Verif Require Import F64 F64R F64S F64T F64E AngModel AngProps PiBound ErrExpr FormModel FormSpec FormProps EcModel EcSpec EcReal EcProof.
Import ListNotations.
Open Scope R_scope.

(** a nearB with numbers *)
Lemma nearB_nums x r b : nearB x r b -> forall l h e, (match b with mkB l' h' e' => (l * one <=? 1000000000000 * l') && (1000000000000 * h' <=? h * one) && (1000000000000 * e' <=? e * one) end = true)%Z ->
  ok x /\ IZR l / 1000000000000 <= r <= IZR h / 1000000000000 /\ Rabs (R64 x - r) <= IZR e / 1000000000000.
Proof.
  intros (O & B & D) l h e H. destruct b as [l' h' e']. cbn [lo hi er] in *. rewrite !andb_true_iff, !Z.leb_le in H. destruct H as [[H1 H2] H3]. pose proof U_pos as P. pose proof oneU as OU.
  apply IZR_le in H1, H2, H3. rewrite !mult_IZR in H1, H2, H3.
  assert (G : forall a b c, a * IZR one <= b * c -> a <= b * (c * U)). { intros a b c A. apply (Rmult_le_compat_r U) in A; [|lra]. rewrite Rmult_assoc, OU in A. lra. }
  assert (G' : forall a b c, b * c <= a * IZR one -> b * (c * U) <= a). { intros a b c A. apply (Rmult_le_compat_r U) in A; [|lra]. rewrite (Rmult_assoc a), OU in A. lra. }
  apply G in H1. apply G' in H2, H3. split; [exact O|]. split; [split|]; lra.
Qed.
Lemma near_iv x r b l h : nearB x r b -> IZR l * U <= r <= IZR h * U -> nearB x r (mkB l h (er b)).
Proof. intros (O & _ & D) B. split; [exact O|]. split; [exact B|exact D]. Qed.
Lemma near_abs x r b : nearB x r b -> nearB (ffabs x) (Rabs r) (mkB 0 (mag b) (er b)).
Proof.
  intros (O & B & D). destruct (fabs_ok x O) as [O' V]. split; [exact O'|]. cbn [lo hi er]. rewrite V. split; [split; [pose proof (Rabs_pos r); lra|exact (in_mag _ _ _ B)]|].
  apply Rle_trans with (2 := D). exact (Rabs_triang_inv2 (R64 x) r).
Qed.
Lemma sqrt_gap y z : 0 <= y -> Rabs (sqrt y - sqrt z) <= sqrt (Rabs (y - z)).
Proof.
  intros Y. destruct (Rle_lt_dec 0 z) as [Z|Z].
  - assert (G : forall a b, 0 <= b -> b <= a -> sqrt a - sqrt b <= sqrt (a - b)).
    { intros a b B A. pose proof (sqrt_pos b). pose proof (sqrt_pos (a - b)). assert (sqrt a <= sqrt b + sqrt (a - b)); [|lra].
      rewrite <- (sqrt_square (sqrt b + sqrt (a - b))) by lra. apply sqrt_le_1_alt. pose proof (sqrt_sqrt b B). pose proof (sqrt_sqrt (a - b) ltac:(lra)). nra. }
    destruct (Rle_lt_dec z y) as [L|L].
    + rewrite (Rabs_pos_eq (y - z)) by lra. rewrite Rabs_pos_eq by (pose proof (sqrt_le_1_alt z y L); lra). now apply G.
    + rewrite (Rabs_minus_sym y z), (Rabs_pos_eq (z - y)) by lra. rewrite Rabs_minus_sym, Rabs_pos_eq by (pose proof (sqrt_le_1_alt y z ltac:(lra)); lra). apply G; lra.
  - rewrite (sqrt_neg_0 z) by lra. rewrite Rminus_0_r, Rabs_pos_eq by apply sqrt_pos. apply sqrt_le_1_alt. rewrite Rabs_pos_eq by lra. lra.
Qed.

Section Lib.
Variables fsin fcos : f64 -> f64.
Hypothesis Gs : good_lib fsin sin.
Hypothesis Gc : good_lib fcos cos.

Lemma half_one : IZR (- one / 2) * U = - (1 / 2) /\ IZR (one / 2) * U = 1 / 2.
Proof.
  change (- one / 2)%Z with (- 633825300114114700748351602688)%Z. change (one / 2)%Z with 633825300114114700748351602688%Z. unfold U, one. split; lra.
Qed.
Lemma quot_near t r L l D d : nearB t r b1 -> nearB L l bX -> nearB D d bD -> nearB (fadd t (fdiv L D)) (r + l / d) b2w.
Proof.
  intros N1 X ND. assert (E : env_ok [t; L; D] [r; l; d] [b1; bX; bD]) by (constructor; [exact N1|constructor; [exact X|constructor; [exact ND|constructor]]]).
  stage fsin fcos Gs Gc [t; L; D] E. reflexivity.
Qed.
Lemma new_near W k : Rabs k <= 100000 -> nearB W (2 * PI * k) bW -> nearB (ec_mean W) (mean_new k) b0 -> nearB (ec_new fsin fcos (ec_step fcos (ec_mean W)) W) (true_new k) b2.
Proof.
  intros B NW N0. pose proof (step_near fsin fcos Gs Gc _ _ N0) as N1. pose proof (lon_near fsin fcos Gs Gc _ _ N1) as NL. pose proof (den_near fsin fcos Gs Gc _ _ N1) as ND.
  assert (X : nearB (fsub W (ec_lon fcos (ec_step fcos (ec_mean W)))) (2 * PI * k - elongation (first_new (mean_new k))) bX).
  { pose proof (rest_range k B) as RR. apply Rabs_le_inv in RR. assert (Y : nearB (fsub W (ec_lon fcos (ec_step fcos (ec_mean W)))) (2 * PI * k - elongation (first_new (mean_new k))) bXw).
    { revert NL. generalize (ec_lon fcos (ec_step fcos (ec_mean W))) (elongation (first_new (mean_new k))). intros L l NL.
      assert (E : env_ok [W; L] [2 * PI * k; l] [bW; bL]) by (constructor; [exact NW|constructor; [exact NL|constructor]]). stage fsin fcos Gs Gc [W; L] E. reflexivity. }
    apply (near_iv _ _ _ (- one / 2) (one / 2) Y). destruct half_one as [-> ->]. revert RR. decs. intros. lra. }
  assert (Z : nearB (ec_new fsin fcos (ec_step fcos (ec_mean W)) W) (true_new k) b2w).
  { exact (quot_near _ _ _ _ _ _ N1 X ND). }
  refine (near_iv _ _ _ (lo b2) (hi b2) Z _). pose proof (new_bound k B) as NB. apply Rabs_le_inv in NB.
  change (lo b2) with (-82 * one)%Z. change (hi b2) with (82 * one)%Z. rewrite !mult_IZR, !Rmult_assoc, oneU. lra.
Qed.
Lemma gm_near mR mB vL vB T : nearB mR (distance T) bmR -> nearB mB (latitude T) bmB -> nearB vL (lon_speed T) bvL -> nearB vB (lat_speed T) bvB -> nearB (ec_gm fsin mR mB vL vB) (gamma T) bgm.
Proof.
  intros NR NB NL Nb.
  assert (S : nearB (fsin mB) (sin (latitude T)) bsB).
  { assert (Y : nearB (fsin mB) (sin (latitude T)) bsBw).
    { assert (E : env_ok [mB] [latitude T] [bmB]) by (constructor; [exact NB|constructor]). stage fsin fcos Gs Gc [mB] E. reflexivity. }
    refine (near_iv _ _ _ (lo bsB) (hi bsB) Y _). destruct NB as (_ & B & _). pose proof (in_mag _ _ _ B) as A.
    pose proof (sin_lip (latitude T) 0) as SL. rewrite sin_0, !Rminus_0_r in SL. apply Rle_trans with (2 := A) in SL. apply Rabs_le_inv in SL. fold (mag bmB) in SL.
    change (lo bsB) with (- mag bmB)%Z. change (hi bsB) with (mag bmB). rewrite opp_IZR. lra. }
  unfold gamma, ec_gm. revert S. generalize (fsin mB) (sin (latitude T)). intros sB sb S.
  assert (E : env_ok [mR; sB; vL; vB] [distance T; sb; lon_speed T; lat_speed T] [bmR; bsB; bvL; bvB]) by (constructor; [exact NR|constructor; [exact S|constructor; [exact NL|constructor; [exact Nb|constructor]]]]).
  stage fsin fcos Gs Gc [mR; sB; vL; vB] E. replace (lat_speed T ^ 2 + lon_speed T ^ 2) with (lat_speed T * lat_speed T + lon_speed T * lon_speed T) by ring. unfold Rdiv. ring.
Qed.
Ltac env2 A B := (constructor; [exact A|constructor; [exact B|constructor]]).
Lemma smR_pos mR sR T : nearB mR (distance T) bmR -> nearB sR (sun_distance T) bsR -> sun_distance T - distance T <> 0.
Proof.
  intros NR NS. destruct (nearB_nums _ _ _ NR 0 100000000000000 1000000000000) as (_ & A & _); [vm_compute; reflexivity|].
  destruct (nearB_nums _ _ _ NS 20000000000000000 30000000000000000 1000000000000) as (_ & B & _); [vm_compute; reflexivity|]. lra.
Qed.
Lemma r1_near mR sR T : nearB mR (distance T) bmR -> nearB sR (sun_distance T) bsR -> nearB (ec_r1 mR sR) (penumbra T) br1.
Proof.
  intros NR NS. pose proof (smR_pos _ _ _ NR NS). assert (E : env_ok [mR; sR] [distance T; sun_distance T] [bmR; bsR]) by env2 NR NS.
  stage fsin fcos Gs Gc [mR; sR] E. unfold penumbra, moon_k, sun_k. decs. field. assumption.
Qed.
Lemma r2_near mR sR T : nearB mR (distance T) bmR -> nearB sR (sun_distance T) bsR -> nearB (ec_r2 mR sR) (umbra T) br2.
Proof.
  intros NR NS. pose proof (smR_pos _ _ _ NR NS). assert (E : env_ok [mR; sR] [distance T; sun_distance T] [bmR; bsR]) by env2 NR NS.
  stage fsin fcos Gs Gc [mR; sR] E. unfold umbra, moon_k, sun_k. decs. field. assumption.
Qed.
Lemma fh_near mR sR T : nearB mR (distance T) bmR -> nearB sR (sun_distance T) bsR -> nearB (ec_fh2 mR sR) (vertex T) bfh.
Proof.
  intros NR NS. pose proof (smR_pos _ _ _ NR NS). assert (E : env_ok [mR; sR] [distance T; sun_distance T] [bmR; bsR]) by env2 NR NS.
  stage fsin fcos Gs Gc [mR; sR] E. unfold vertex, moon_k, sun_k. decs. field. assumption.
Qed.
Lemma one_1000 : 1 <= bpow radix2 1000.
Proof. change 1 with (bpow radix2 0). apply bpow_le. lia. Qed.
Lemma rnd01 x : 0 <= x <= 1 -> 0 <= rnd x <= 1.
Proof. intros H. pose proof (rnd_le 0 x (proj1 H)) as A. pose proof (rnd_le x 1 (proj2 H)) as B. rewrite (rnd_IZR 0) in A by lia. rewrite (rnd_IZR 1) in B by lia. lra. Qed.
Lemma sqrt_small z : 0 <= z -> z <= 150 / 1000000000 -> sqrt z <= 39 / 100000.
Proof. intros Z H. rewrite <- (sqrt_square (39 / 100000)) by lra. apply sqrt_le_1_alt. lra. Qed.
Lemma h_near gm T : nearB gm (gamma T) bgm -> nearB (ec_h gm) (surface T) bh.
Proof.
  intros N. destruct (nearB_nums _ _ _ N (-10000000000000) 10000000000000 53000) as (O & B & D); [vm_compute; reflexivity|].
  destruct (fabs_ok gm O) as [Oa Va]. destruct (fZ_ok 1) as [O1 V1]; [lia|]. pose proof U_pos as P. pose proof oneU as OU. apply Rabs_le_inv in D.
  unfold nearB. change (er bh) with 507060240091291760598681282%Z. change (lo bh) with 0%Z. change (hi bh) with one. rewrite OU, Rmult_0_l.
  assert (EU : 399 / 1000000 <= 507060240091291760598681282 * U <= 401 / 1000000) by (unfold U, one; lra).
  assert (SI : 0 <= surface T <= 1).
  { split; [apply sqrt_pos|]. unfold surface. rewrite <- sqrt_1 at 2. apply sqrt_le_1_alt. pose proof (pow2_ge_0 (gamma T)). lra. }
  set (g := R64 gm) in *. set (c := gamma T) in *. unfold ec_h. rewrite (fltb_ok _ _ Oa O1), Va, V1. fold g. unfold surface. fold c.
  destruct (Rlt_bool_spec (Rabs g) 1) as [L|L].
  - apply Rabs_lt_inv in L. assert (G2 : 0 <= g * g <= 1) by nra. pose proof one_1000 as BP.
    destruct (fmul_ok gm gm O O) as [Om Em]; [fold g; rewrite Rabs_pos_eq; lra|]. fold g in Em.
    assert (Q : 0 <= rnd (g * g) <= 1) by (apply rnd01; lra).
    destruct (fsub_ok (fZ 1) (fmul gm gm) O1 Om) as [Os Es]; [rewrite V1, Em, Rabs_pos_eq; lra|]. rewrite V1, Em in Es.
    assert (Y : 0 <= rnd (1 - rnd (g * g)) <= 1) by (apply rnd01; lra).
    pose proof (rnd_rel (g * g)) as R1. pose proof (rnd_rel (1 - rnd (g * g))) as R2. rewrite (Rabs_pos_eq (g * g)) in R1 by lra. rewrite (Rabs_pos_eq (1 - rnd (g * g))) in R2 by lra.
    set (y := rnd (1 - rnd (g * g))) in *. destruct (fsqrt_ok _ Os) as [Oh Eh]; [rewrite Es; lra|]. rewrite Es in Eh.
    split; [exact Oh|]. split; [exact SI|]. rewrite Eh.
    assert (TU : 0 < u53 < 1 / 1000000000000 /\ 0 < tiny < 1 / 1000000000000). { split; [unfold u53; lra|]. unfold tiny. split; [apply Rinv_0_lt_compat, IZR_lt; reflexivity|]. apply Rle_lt_trans with (/ 2 ^ 100); [apply Rinv_le; [lra|]|lra]. rewrite pow_IZR. apply IZR_le. vm_compute. discriminate. }
    assert (DY : Rabs (y - (1 - c ^ 2)) <= 150 / 1000000000).
    { apply Rabs_le_inv in R1, R2. assert (E : c ^ 2 = g * g + (c - g) * (c + g)) by ring. rewrite E. assert (Z : - (53 / 1000000000 * 21 / 10) <= (c - g) * (c + g) <= 53 / 1000000000 * 21 / 10) by (split; nra).
      assert (U1 : g * g * u53 <= u53) by nra. assert (U2 : (1 - rnd (g * g)) * u53 <= u53) by nra. apply Rabs_le. lra. }
    pose proof (sqrt_gap y (1 - c ^ 2) (proj1 Y)) as SG. pose proof (Rle_trans _ _ _ SG (sqrt_small _ (Rabs_pos _) DY)) as SG'.
    assert (S1 : 0 <= sqrt y <= 1). { split; [apply sqrt_pos|]. rewrite <- sqrt_1. apply sqrt_le_1_alt. lra. }
    pose proof (rnd_rel (sqrt y)) as R3. rewrite (Rabs_pos_eq (sqrt y)) in R3 by lra.
    replace (rnd (sqrt y) - sqrt (1 - c ^ 2)) with ((rnd (sqrt y) - sqrt y) + (sqrt y - sqrt (1 - c ^ 2))) by ring. apply (Rle_trans _ _ _ (Rabs_triang _ _)). nra.
  - destruct (fZ_ok 0) as [O0 V0]; [lia|]. split; [exact O0|]. split; [exact SI|]. rewrite V0. rewrite Rabs_minus_sym, Rminus_0_r, Rabs_pos_eq by apply sqrt_pos.
    destruct (Rle_lt_dec 0 (1 - c ^ 2)) as [Z|Z]; [|rewrite sqrt_neg_0 by lra; lra]. apply Rle_trans with (39 / 100000); [|lra]. apply sqrt_small; [exact Z|].
    assert (1 <= g * g). { apply Rsqr_le_abs_1 in L as L2 || idtac. destruct (Rcase_abs g) as [G|G]; [rewrite Rabs_left in L by lra|rewrite Rabs_right in L by lra]; nra. }
    assert (E : c ^ 2 = g * g + (c - g) * (c + g)) by ring.
    assert (GB : -1 - 1/10 <= g <= 1 + 1/10) by (assert (c ^ 2 <= 1) by lra; assert (-1 <= c <= 1) by nra; lra). rewrite E. assert (-1.2 <= c <= 1.2) by nra. nra.
Qed.
Lemma dr_near vR h vL mR T : nearB vR (dist_speed T) bvR -> nearB h (surface T) bh -> nearB vL (lon_speed T) bvL -> nearB mR (distance T) bmR -> nearB (ec_dr vR h vL mR) (change T) bdr.
Proof.
  intros NV NH NL NR. assert (E : env_ok [vR; h; vL; mR] [dist_speed T; surface T; lon_speed T; distance T] [bvR; bh; bvL; bmR]) by (constructor; [exact NV|constructor; [exact NH|constructor; [exact NL|constructor; [exact NR|constructor]]]]).
  stage fsin fcos Gs Gc [vR; h; vL; mR] E. reflexivity.
Qed.
Lemma H1_near mR sR dr T : nearB mR (distance T) bmR -> nearB sR (sun_distance T) bsR -> nearB dr (change T) bdr -> nearB (ec_H1 mR sR dr) (vertex T - change T) bH1.
Proof.
  intros NR NS ND. pose proof (smR_pos _ _ _ NR NS). assert (E : env_ok [mR; sR; dr] [distance T; sun_distance T; change T] [bmR; bsR; bdr]) by (constructor; [exact NR|constructor; [exact NS|constructor; [exact ND|constructor]]]).
  stage fsin fcos Gs Gc [mR; sR; dr] E. unfold vertex, moon_k, sun_k. decs. field. assumption.
Qed.
Lemma H2_near mR sR dr T : nearB mR (distance T) bmR -> nearB sR (sun_distance T) bsR -> nearB dr (change T) bdr -> nearB (ec_H2 mR sR dr) (vertex T + change T) bH2.
Proof.
  intros NR NS ND. pose proof (smR_pos _ _ _ NR NS). assert (E : env_ok [mR; sR; dr] [distance T; sun_distance T; change T] [bmR; bsR; bdr]) by (constructor; [exact NR|constructor; [exact NS|constructor; [exact ND|constructor]]]).
  stage fsin fcos Gs Gc [mR; sR; dr] E. unfold vertex, moon_k, sun_k. decs. field. assumption.
Qed.
(** the vertex moves little *)
Lemma change_small vR vL mR T : nearB vR (dist_speed T) bvR -> nearB vL (lon_speed T) bvL -> nearB mR (distance T) bmR -> Rabs (change T) <= 11 / 100 * surface T.
Proof.
  intros NV NL NR. destruct (nearB_nums _ _ _ NV (-1060000000000) 1060000000000 100000000) as (_ & A & _); [vm_compute; reflexivity|].
  destruct (nearB_nums _ _ _ NL 178000000000 250000000000 100000000) as (_ & B & _); [vm_compute; reflexivity|].
  destruct (nearB_nums _ _ _ NR 55700000000000 65000000000000 100000000) as (_ & C & _); [vm_compute; reflexivity|].
  unfold change. pose proof (sqrt_pos (1 - gamma T ^ 2)) as S. fold (surface T) in S. revert A B C S. generalize (dist_speed T) (lon_speed T) (distance T) (surface T). intros v l d s A B C S.
  replace (v * s / l / d) with (v / (l * d) * s) by (field; lra). rewrite Rabs_mult, (Rabs_pos_eq s S). apply Rmult_le_compat_r; [exact S|].
  assert (LD : 99 / 10 <= l * d) by nra. unfold Rdiv at 1. rewrite Rabs_mult, (Rabs_pos_eq (/ (l * d))) by (apply Rlt_le, Rinv_0_lt_compat; lra).
  apply Rle_trans with (106 / 100 * / (99 / 10)); [|lra]. apply Rmult_le_compat; [apply Rabs_pos|apply Rlt_le, Rinv_0_lt_compat; lra|apply Rabs_le; lra|apply Rinv_le; lra].
Qed.
End Lib.

(** the comparisons of ec_kind, with how far the numbers compared are from the real ones *)
Lemma sub_close x y a b e1 e2 : ok x -> ok y -> Rabs (R64 x - a) <= e1 -> Rabs (R64 y - b) <= e2 -> Rabs a <= 100 -> Rabs b <= 100 -> e1 <= 1 / 100 -> e2 <= 1 / 100 ->
  ok (fsub x y) /\ Rabs (R64 (fsub x y) - (a - b)) <= e1 + e2 + 1 / 1000000000000.
Proof.
  intros Ox Oy X Y A B E1 E2. pose proof (Rabs_pos (R64 x - a)). pose proof (Rabs_pos (R64 y - b)). apply Rabs_le_inv in X, Y, A, B.
  assert (G : Rabs (R64 x - R64 y) <= 201) by (apply Rabs_le; lra).
  destruct (fsub_ok x y Ox Oy) as [O E]. { apply Rle_trans with (1 := G). apply Rle_trans with (bpow radix2 8); [change (bpow radix2 8) with 256; lra|apply bpow_le; lia]. }
  split; [exact O|]. pose proof (rnd_err (R64 x - R64 y) 8 ltac:(lia)) as R. rewrite E. specialize (R ltac:(change (bpow radix2 8) with 256; lra)).
  change (bpow radix2 (8 - 54)) with (/ 70368744177664) in R. apply Rabs_le_inv in R. apply Rabs_le. lra.
Qed.
Lemma add_close x y a b e1 e2 : ok x -> ok y -> Rabs (R64 x - a) <= e1 -> Rabs (R64 y - b) <= e2 -> Rabs a <= 100 -> Rabs b <= 100 -> e1 <= 1 / 100 -> e2 <= 1 / 100 ->
  ok (fadd x y) /\ Rabs (R64 (fadd x y) - (a + b)) <= e1 + e2 + 1 / 1000000000000.
Proof.
  intros Ox Oy X Y A B E1 E2. pose proof (Rabs_pos (R64 x - a)). pose proof (Rabs_pos (R64 y - b)). apply Rabs_le_inv in X, Y, A, B.
  assert (G : Rabs (R64 x + R64 y) <= 201) by (apply Rabs_le; lra).
  destruct (fadd_ok x y Ox Oy) as [O E]. { apply Rle_trans with (1 := G). apply Rle_trans with (bpow radix2 8); [change (bpow radix2 8) with 256; lra|apply bpow_le; lia]. }
  split; [exact O|]. pose proof (rnd_err (R64 x + R64 y) 8 ltac:(lia)) as R. rewrite E. specialize (R ltac:(change (bpow radix2 8) with 256; lra)).
  change (bpow radix2 (8 - 54)) with (/ 70368744177664) in R. apply Rabs_le_inv in R. apply Rabs_le. lra.
Qed.
Lemma abs_close x a e : ok x -> Rabs (R64 x - a) <= e -> ok (ffabs x) /\ Rabs (R64 (ffabs x) - Rabs a) <= e.
Proof. intros O H. destruct (fabs_ok x O) as [O' V]. split; [exact O'|]. rewrite V. apply Rle_trans with (2 := H). apply Rabs_triang_inv2. Qed.
(** the tests of a certain result *)
Lemma lit16 : ok (lit 16 1000) /\ 1599999 / 100000000 <= R64 (lit 16 1000) <= 1600001 / 100000000.
Proof. destruct (lit_near 16 1000 0) as [O N]; [lia|lia|lia|lia|]. split; [exact O|]. change (bpow radix2 (0 - 54)) with (/ 18014398509481984) in N. apply Rabs_le_inv in N. lra. Qed.
Lemma lit19 : ok (lit 19 1000) /\ 1899999 / 100000000 <= R64 (lit 19 1000) <= 1900001 / 100000000.
Proof. destruct (lit_near 19 1000 0) as [O N]; [lia|lia|lia|lia|]. split; [exact O|]. change (bpow radix2 (0 - 54)) with (/ 18014398509481984) in N. apply Rabs_le_inv in N. lra. Qed.
Lemma bb_near : ok bb /\ Rabs (R64 bb - earth_b) <= 1 / 1000000000000.
Proof. destruct (lit_near 9972 10000 0) as [O N]; [lia|lia|lia|lia|]. split; [exact O|]. fold bb in N. change (bpow radix2 (0 - 54)) with (/ 18014398509481984) in N. apply Rle_trans with (/ 18014398509481984); [|lra]. unfold earth_b. decs. exact N. Qed.
(** a number that passes the test of certainty has the sign of the real number *)
Lemma sure x a c m e : ok x -> ok c -> m <= R64 c -> Rabs (R64 x - a) <= e -> e < m -> fltb (ffabs x) c = false ->
  (fgtb x (fZ 0) = true /\ 0 < a) \/ (fgtb x (fZ 0) = false /\ a < 0).
Proof.
  intros O Oc M D E H. destruct (fabs_ok x O) as [Oa Va]. destruct (fZ_ok 0) as [O0 V0]; [lia|]. rewrite (fltb_ok _ _ Oa Oc), Va in H. unfold fgtb. change (SFltb (fZ 0) x) with (fltb (fZ 0) x).
  rewrite (fltb_ok _ _ O0 O), V0. apply Rabs_le_inv in D. destruct (Rlt_bool_spec (Rabs (R64 x)) (R64 c)) as [|G]; [discriminate|].
  destruct (Rlt_bool_spec 0 (R64 x)) as [L|L]; [left|right]; (split; [reflexivity|]); [rewrite Rabs_pos_eq in G by lra|rewrite Rabs_left1 in G by lra]; lra.
Qed.
