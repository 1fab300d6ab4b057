(** C89: the longitudes of the Sun and the Moon as computed against the series of the tables. *)
From Coq Require Import ZArith Reals Lia Lra Bool List.
From Coq Require Import Floats.SpecFloat.
From Flocq Require Import Core IEEE754.BinarySingleNaN.
From Verif Require Import F64 F64R F64T F64E SsqModel AngModel AngProps PiBound ErrExpr SmTab SerModel SerSpec FormModel FormSpec FormProps WaveF WaveR SmModel SmSpec SmF SmLon.
Import ListNotations.
Open Scope R_scope.

Lemma powk t M k : Rabs t <= M -> Rabs (t ^ k) <= M ^ k.
Proof. intros H. rewrite <- RPow_abs. apply pow_incr. split; [apply Rabs_pos|exact H]. Qed.
Ltac powers t M H := pose proof (powk t M 2 H); pose proof (powk t M 3 H); pose proof (powk t M 4 H); pose proof (powk t M 5 H).
Lemma arcsec_abs x : Rabs (arcsec x) <= Rabs x / 206264.
Proof.
  unfold arcsec. destruct PI_bounds as [P1 P2]. unfold Q2R in P1, P2. cbn in P1, P2. replace (x * PI / 648000) with (x * (PI / 648000)) by field. rewrite Rabs_mult, (Rabs_pos_eq (PI / 648000)) by lra.
  unfold Rdiv at 2. apply Rmult_le_compat_l; [apply Rabs_pos|]. lra.
Qed.
Lemma arcsec_le x m : Rabs x <= m -> Rabs (arcsec x) <= m / 206264.
Proof. intros H. apply Rle_trans with (1 := arcsec_abs x). apply Rmult_le_compat_r; [lra|exact H]. Qed.
Lemma term_le t k l M A : (amp l <= A)%Z -> Rabs t <= M -> forall n, Rabs (t ^ k * ws (firstn n l) t) <= M ^ k * IZR A.
Proof.
  intros HA HM n. apply prod_le; [apply powk, HM|]. apply Rle_trans with (1 := ws_amp _ _). apply IZR_le. pose proof (amp_firstn n l). lia.
Qed.
Lemma earth_abs k0 k1 k2 k3 k4 k5 t : Rabs t <= 100 -> Rabs (earth_lon k0 k1 k2 k3 k4 k5 t) <= 63000.
Proof.
  intros B. set (s := t / 10). assert (BS : Rabs s <= 10) by (unfold s; apply Rabs_le_inv in B; apply Rabs_le; lra).
  unfold earth_lon. fold s. unfold earth_terms6, earth_fix.
  pose proof (term_le s 0 EL0 10 17900000000 ltac:(vm_compute; discriminate) BS k0) as T0. pose proof (term_le s 1 EL1 10 62833217868200 ltac:(vm_compute; discriminate) BS k1) as T1.
  pose proof (term_le s 2 EL2 10 6300000 ltac:(vm_compute; discriminate) BS k2) as T2. pose proof (term_le s 3 EL3 10 35000 ltac:(vm_compute; discriminate) BS k3) as T3.
  pose proof (term_le s 4 EL4 10 12300 ltac:(vm_compute; discriminate) BS k4) as T4. pose proof (term_le s 5 EL5 10 120 ltac:(vm_compute; discriminate) BS k5) as T5.
  rewrite pow_O, Rmult_1_l in T0. rewrite pow_1 in T1. cbn [pow] in T1.
  powers s 10 BS.
  assert (F : Rabs (arcsec (- 0.0728 - 2.7702 * s - 1.1019 * s ^ 2 - 0.0996 * s ^ 3)) <= 1000 / 206264).
  { apply arcsec_le. apply Rabs_le_inv in BS. apply Rabs_le_inv in H. apply Rabs_le_inv in H0. apply Rabs_le. decs. lra. }
  apply Rle_trans with (1 := Rabs_triang _ _). unfold Rdiv at 1. rewrite Rabs_mult, (Rabs_pos_eq (/ 10000000000)) by lra.
  assert (Rabs (ws (firstn k0 EL0) s + s * ws (firstn k1 EL1) s + s ^ 2 * ws (firstn k2 EL2) s + s ^ 3 * ws (firstn k3 EL3) s + s ^ 4 * ws (firstn k4 EL4) s + s ^ 5 * ws (firstn k5 EL5) s) <= 629000000000000).
  { apply Rle_trans with (1 := sum_le _ _ _ _ (sum_le _ _ _ _ (sum_le _ _ _ _ (sum_le _ _ _ _ (sum_le _ _ _ _ T0 T1) T2) T3) T4) T5). lra. }
  lra.
Qed.
Lemma moon_abs k0 k1 k2 k3 t : Rabs t <= 100 -> Rabs (moon_lon k0 k1 k2 k3 t) <= 841000.
Proof.
  intros B. powers t 100 B. unfold moon_lon, moon_mean, moon_terms4.
  assert (A1 : Rabs (3.81034409 + 8399.684730072 * t - 3.319e-5 * t ^ 2 + 3.11e-8 * t ^ 3 - 2.033e-10 * t ^ 4) <= 839980).
  { apply Rabs_le_inv in B. apply Rabs_le_inv in H. apply Rabs_le_inv in H0. apply Rabs_le_inv in H1. apply Rabs_le. decs. lra. }
  assert (A2 : Rabs (arcsec (5028.792262 * t + 1.1124406 * t ^ 2 + 0.00007699 * t ^ 3 - 0.000023479 * t ^ 4 - 0.0000000178 * t ^ 5)) <= 520000 / 206264).
  { apply arcsec_le. apply Rabs_le_inv in B. apply Rabs_le_inv in H. apply Rabs_le_inv in H0. apply Rabs_le_inv in H1. apply Rabs_le_inv in H2. apply Rabs_le. decs. lra. }
  assert (A3 : Rabs (late t) <= 1000 / 206264).
  { unfold late. destruct (Rlt_dec 10 t); [|rewrite Rabs_R0; lra]. apply arcsec_le. apply Rabs_le_inv in B. assert (0 <= (t - 10) ^ 2 <= 8100) by (cbn [pow]; nra). apply Rabs_le. decs. lra. }
  pose proof (term_le t 0 ML0 100 3318000000000 ltac:(vm_compute; discriminate) B k0) as T0. pose proof (term_le t 1 ML1 100 500000000 ltac:(vm_compute; discriminate) B k1) as T1.
  pose proof (term_le t 2 ML2 100 100000000 ltac:(vm_compute; discriminate) B k2) as T2. pose proof (term_le t 3 ML3 100 100000000 ltac:(vm_compute; discriminate) B k3) as T3.
  rewrite pow_O, Rmult_1_l in T0. rewrite pow_1 in T1. cbn [pow] in T1.
  assert (A4 : Rabs (arcsec ((ws (firstn k0 ML0) t + t * ws (firstn k1 ML1) t + t ^ 2 * ws (firstn k2 ML2) t + t ^ 3 * ws (firstn k3 ML3) t) / 100000000)) <= 1050000 / 206264).
  { apply arcsec_le. unfold Rdiv at 1. rewrite Rabs_mult, (Rabs_pos_eq (/ 100000000)) by lra.
    assert (Q := sum_le _ _ _ _ (sum_le _ _ _ _ (sum_le _ _ _ _ T0 T1) T2) T3). lra. }
  assert (Q := sum_le _ _ _ _ (sum_le _ _ _ _ (sum_le _ _ _ _ A1 A2) A3) A4). lra.
Qed.
Lemma sun_small t : Rabs t <= 100 -> Rabs (sun_aberration t) <= 42 / 206264.
Proof.
  intros B. unfold sun_aberration. powers t 100 B. replace 42 with (21 * 2) by ring. apply arcsec_le. apply prod_le; [decs; apply Rabs_le; lra|].
  replace 2 with (1 + 1 * 1) by ring. apply sum_le; [rewrite Rabs_R1; lra|]. apply prod_le; [|apply Rabs_le, COS_bound].
  apply Rabs_le_inv in B. apply Rabs_le_inv in H. apply Rabs_le. decs. lra.
Qed.
Lemma sun_abs t : Rabs t <= 100 -> Rabs (sun_aberration t) <= 1.
Proof. intros B. pose proof (sun_small t B). lra. Qed.
Lemma nut_sum_abs l t : Rabs (sum (map (fun x => snd (fst x) * sin (nut_arg t x)) l)) <= sum (map (fun x => Rabs (snd (fst x))) l).
Proof.
  induction l as [|x l IH]; cbn [sum map fold_right]; [rewrite Rabs_R0; lra|]. apply sum_le; [|exact IH]. rewrite <- (Rmult_1_r (Rabs (snd (fst x)))). apply prod_le; [apply Rle_refl|apply Rabs_le, SIN_bound].
Qed.
Lemma nut_size : sum (map (fun x => Rabs (snd (fst x))) nutation_terms) <= 1931.
Proof. unfold nutation_terms. cbn [map sum fold_right fst snd]. rewrite <- !abs_IZR. cbn [Z.abs]. lra. Qed.
Lemma nut_small t : Rabs t <= 100 -> Rabs (nut_lon t) <= 22 / 206264.
Proof.
  intros B. unfold nut_lon. apply Rle_trans with ((1931 + 200) / 100 / 206264); [|lra]. apply arcsec_le. unfold Rdiv at 1 2. rewrite Rabs_mult, (Rabs_pos_eq (/ 100)) by lra.
  apply Rmult_le_compat_r; [lra|]. apply diff_le; [apply Rle_trans with (1 := nut_sum_abs _ _); exact nut_size|]. replace 200 with (2 * 100 * 1) by ring.
  apply prod_le; [|apply Rabs_le, SIN_bound]. apply prod_le; [decs; apply Rabs_le; lra|exact B].
Qed.
Lemma nut_abs t : Rabs t <= 100 -> Rabs (nut_lon t) <= 1.
Proof. intros B. pose proof (nut_small t B). lra. Qed.
Lemma dpi_near : near dpi PI 1.4e-16 4.
Proof.
  destruct dpi_ok as [O E]. split; [exact O|]. rewrite E. change (bpow radix2 (-51)) with (/ IZR (2 ^ 51)). change (2 ^ 51)%Z with 2251799813685248%Z. destruct PI_bounds as [P1 P2].
  unfold Q2R in P1, P2. cbn in P1, P2. split; [|rewrite Rabs_pos_eq; lra]. apply Rabs_le. decs. lra.
Qed.

Section Lib.
Variables fsin fcos : f64 -> f64.
Hypothesis Gs : good_lib fsin sin.
Hypothesis Gc : good_lib fcos cos.
Variables (XL1 : list (list (list f64))) (XL0 : list (list f64)) (rest : list f64).
Hypothesis H1 : nth_error XL1 0 = Some moon_lon_tables.
Hypothesis H0 : nth_error XL0 0 = Some (memory (earth_table rest)).
Hypothesis HR : length rest = 1518%nat.
Variable t : f64.
Hypothesis Ot : ok t.
Hypothesis Bt : Rabs (R64 t) <= 100.
Definition km (n i m : Z) : nat := Z.to_nat (wanted6 n 442 i m).
Definition ke (n i m : Z) : nat := Z.to_nat (wanted n 186 i m).
Definition moon_n (n : Z) : R -> R := moon_lon (km n 0 442) (km n 1 149) (km n 2 34) (km n 3 2).
Definition earth_n (n : Z) : R -> R := earth_lon (ke n 0 186) (ke n 1 114) (ke n 2 60) (ke n 3 8) (ke n 4 4) (ke n 5 4).
Ltac nn := unfold u53, tiny, big; decs; lra.
Lemma earth_n_near n : (n <= 672000)%Z -> exists v, E_Lon fcos XL0 t n = Some v /\ near v (earth_n n (R64 t)) 2e-9 63000.
Proof. intros Hn. destruct (earth_near fsin fcos Gs Gc t Ot Bt XL0 rest n H0 HR Hn) as (v & E & O & A). exists v. split; [exact E|]. split; [exact O|]. split; [exact A|]. apply earth_abs, Bt. Qed.
Lemma moon_n_near n : (-357913941 <= n <= 134960)%Z -> exists v, M_Lon fcos XL1 t n = Some v /\ near v (moon_n n (R64 t)) 2e-9 841000.
Proof. intros Hn. destruct (moon_near fsin fcos Gs Gc t Ot Bt XL1 n H1 Hn) as (v & E & O & A). exists v. split; [exact E|]. split; [exact O|]. split; [exact A|]. apply moon_abs, Bt. Qed.
Lemma aberr_near : near (gxc_sunLon fcos t) (sun_aberration (R64 t)) 7e-17 1.
Proof. destruct (sun_near fsin fcos Gs Gc t Ot Bt) as [O A]. split; [exact O|]. split; [exact A|apply sun_abs, Bt]. Qed.
Lemma slon_near n : (n <= 672000)%Z -> exists v, S_aLon fsin fcos XL0 t n = Some v /\ near v (earth_n n (R64 t) + nut_lon (R64 t) + sun_aberration (R64 t) + PI) 2.1e-9 63006.
Proof.
  intros Hn. destruct (earth_n_near n Hn) as (e & E & N). unfold S_aLon. rewrite E. cbn [obind]. eexists. split; [reflexivity|].
  destruct (nutlon_near fsin fcos Gs Gc t Ot Bt) as [O A]. rewrite <- nutlon2_same in O, A.
  assert (NN : near (nutationLon2 fsin fcos t) (nut_lon (R64 t)) 2e-15 1) by (split; [exact O|split; [exact A|apply nut_abs, Bt]]).
  refine (near_add _ _ _ _ _ _ _ _ _ _ (near_add _ _ _ _ _ _ _ _ _ 63002 (near_add _ _ _ _ _ _ _ _ _ 63001 N NN _ (Rle_refl _) _) aberr_near _ (Rle_refl _) _) dpi_near _ _ _); nn.
Qed.
Lemma mslon_near m n : (-357913941 <= m <= 134960)%Z -> (n <= 672000)%Z -> exists v, MS_aLon fcos XL1 XL0 t m n = Some v /\
  near v (moon_n m (R64 t) - 3.4e-6 - (earth_n n (R64 t) + sun_aberration (R64 t) + PI)) 4.5e-9 904010.
Proof.
  intros Hm Hn. destruct (moon_n_near m Hm) as (a & EA & NA). destruct (earth_n_near n Hn) as (e & EE & NE). unfold MS_aLon. rewrite EA, EE. cbn [obind]. eexists. split; [reflexivity|].
  assert (NG : near (gxc_moonLon t) (Ropp 3.4e-6) (1 * u53 + tiny) 1).
  { unfold gxc_moonLon. replace (Ropp 3.4e-6) with (IZR (-34) / IZR 10000000) by (decs; lra). apply near_lit_abs; [lia|vm_compute; discriminate|]. cbn [Z.abs]. lra. }
  unfold Rminus at 2.
  refine (near_sub _ _ _ _ _ _ _ _ _ _ (near_add _ _ _ _ _ _ _ _ _ 841001 NA NG _ (Rle_refl _) _) (near_add _ _ _ _ _ _ _ _ _ 63005 (near_add _ _ _ _ _ _ _ _ _ 63001 NE aberr_near _ (Rle_refl _) _) dpi_near _ (Rle_refl _) _) _ _ _); nn.
Qed.
End Lib.
Lemma full_moon_n n : (n < 0)%Z -> moon_n n = moon_full.
Proof. intros H. unfold moon_n, km, wanted6. rewrite (proj2 (Z.ltb_lt n 0) H). reflexivity. Qed.
Lemma full_earth_n n : (n < 0)%Z -> earth_n n = earth_full.
Proof. intros H. unfold earth_n, ke, wanted. rewrite (proj2 (Z.ltb_lt n 0) H). reflexivity. Qed.
