(** C143: the equation of time of high precision and its yearly table. *)
From Coq Require Import ZArith Reals Lia Lra Bool List.
From Coq Require Import Floats.SpecFloat.
From Flocq Require Import Core IEEE754.BinarySingleNaN.
From Verif Require Import F64 F64R F64T F64E Str AngModel AngProps PiBound ErrExpr SmTab SerModel SerSpec FormModel FormSpec FormProps WaveF WaveR SmModel SmSpec SmLon SmProps SmSun SunProps IllProps DtModel DtSpec DtProps HighR.
From Verif Require GeoModel GeoProof F64B CalZ2 CalProps.
From Verif Require Import CalModel CalSpec.
From Verif Require Import StModel StSpec StReal StProof StNoon StDay StProps PtModel PtProps EtModel.
Import ListNotations.
Open Scope list_scope.
Open Scope R_scope.

(** ** What is to be computed, as real functions of the time (t centuries of TD from J2000) *)
(** the longitude of the mean Sun of VSOP87 less the constant of aberration *)
Definition mean_sun5 (t : R) : R := 1.753470142 + 628.3319653318 * t + 5.29674e-6 * t ^ 2 + 4.32e-10 * t ^ 3 - 1.124e-10 * t ^ 4 - 9e-14 * t ^ 5 + PI - arcsec 20.5.
(** the main terms of nutation *)
Definition main_nut (t : R) : R := arcsec (- 17.2 * sin (2.1824 - 33.75705 * t)).
Definition main_nut_obl (t : R) : R := arcsec (9.2 * cos (2.1824 - 33.75705 * t)).
(** the Sun's latitude *)
Definition sun_lat (t : R) : R := - (2796 * cos (3.1987 + 8433.46616 * t) + 1016 * cos (5.4225 + 550.75532 * t) + 804 * cos (3.88 + 522.3694 * t)) / 1000000000.
(** the parts of the direction of a body at longitude l and latitude b towards the west and towards the meridian, when the
    obliquity is e and the sidereal time th *)
Definition westward (l b e th : R) : R := cos b * cos l * sin th - (cos b * sin l * cos e - sin b * sin e) * cos th.
Definition southward (l b e th : R) : R := cos b * cos l * cos th + (cos b * sin l * cos e - sin b * sin e) * sin th.
(** the apparent Sun, referred to the true equinox *)
Definition apparent {A : Type} (f : R -> R -> R -> A) (t : R) : A := f (sun_of_date t + main_nut t) (sun_lat t) (obliquity t + main_nut_obl t).
(** nutation in right ascension *)
Definition equinoxes (t : R) : R := main_nut t * cos (obliquity t + main_nut_obl t).

(** ** Lemmas *)
Lemma west_flat l e th : westward l 0 e th = to_west l e th.
Proof. unfold westward, to_west. rewrite cos_0, sin_0. ring. Qed.
Lemma cos_minus_1 b : Rabs (cos b - 1) <= Rabs b.
Proof. rewrite <- cos_0. apply Rle_trans with (1 := cos_lip _ _). rewrite Rminus_0_r. lra. Qed.
Lemma lip_l f l l' b e th : f = westward \/ f = southward -> Rabs (f l b e th - f l' b e th) <= Rabs (l - l').
Proof.
  intros F. set (p := (1 + cos e) / 2). set (q := (1 - cos e) / 2). pose proof (COS_bound e) as CE.
  assert (P : 0 <= p) by (unfold p; lra). assert (Q : 0 <= q) by (unfold q; lra). assert (PQ : p + q = 1) by (unfold p, q; field).
  destruct F as [-> | ->].
  - replace (westward l b e th - westward l' b e th) with (cos b * (p * (sin (th - l) - sin (th - l')) + q * (sin (th + l) - sin (th + l')))) by (unfold westward, p, q; rewrite !sin_minus, !sin_plus; field).
    rewrite <- (Rmult_1_l (Rabs (l - l'))). apply prod_le; [apply one_cos|]. apply Rle_trans with (p * Rabs (l - l') + q * Rabs (l - l')); [|rewrite <- Rmult_plus_distr_r, PQ; lra].
    apply sum_le; apply prod_le; try (rewrite Rabs_pos_eq; lra); apply Rle_trans with (1 := sin_lip _ _).
    + replace (th - l - (th - l')) with (- (l - l')) by ring. rewrite Rabs_Ropp. lra.
    + replace (th + l - (th + l')) with (l - l') by ring. lra.
  - replace (southward l b e th - southward l' b e th) with (cos b * (p * (cos (th - l) - cos (th - l')) + q * (cos (th + l) - cos (th + l')))) by (unfold southward, p, q; rewrite !cos_minus, !cos_plus; field).
    rewrite <- (Rmult_1_l (Rabs (l - l'))). apply prod_le; [apply one_cos|]. apply Rle_trans with (p * Rabs (l - l') + q * Rabs (l - l')); [|rewrite <- Rmult_plus_distr_r, PQ; lra].
    apply sum_le; apply prod_le; try (rewrite Rabs_pos_eq; lra); apply Rle_trans with (1 := cos_lip _ _).
    + replace (th - l - (th - l')) with (- (l - l')) by ring. rewrite Rabs_Ropp. lra.
    + replace (th + l - (th + l')) with (l - l') by ring. lra.
Qed.
Lemma lip_b f l b b' e th : f = westward \/ f = southward -> Rabs (f l b e th - f l b' e th) <= 3 * Rabs (b - b').
Proof.
  intros F. pose proof (cos_lip b b') as C. pose proof (sin_lip b b') as S.
  assert (K : forall u v w z, Rabs u <= 1 -> Rabs v <= 1 -> Rabs w <= 1 -> Rabs z <= 1 -> Rabs ((cos b - cos b') * (u + v * w) + (sin b - sin b') * z) <= 3 * Rabs (b - b')).
  { intros u v w z Hu Hv Hw Hz. apply Rle_trans with (Rabs (b - b') * (1 + 1 * 1) + Rabs (b - b') * 1); [|lra]. apply sum_le; apply prod_le; try assumption. apply sum_le; [assumption|]. now apply prod_le. }
  assert (M : forall u v, Rabs u <= 1 -> Rabs v <= 1 -> Rabs (u * v) <= 1) by (intros u v Hu Hv; rewrite <- (Rmult_1_l 1); now apply prod_le).
  destruct F as [-> | ->].
  - replace (westward l b e th - westward l b' e th) with ((cos b - cos b') * (cos l * sin th + (- sin l * cos e) * cos th) + (sin b - sin b') * (sin e * cos th)) by (unfold westward; ring).
    apply K; try apply M; try apply M; rewrite ?Rabs_Ropp; try apply one_cos; try apply one_sin.
  - replace (southward l b e th - southward l b' e th) with ((cos b - cos b') * (cos l * cos th + (sin l * cos e) * sin th) + (sin b - sin b') * (- sin e * sin th)) by (unfold southward; ring).
    apply K; try apply M; try apply M; rewrite ?Rabs_Ropp; try apply one_cos; try apply one_sin.
Qed.
Lemma lip_e f l b e e' th : f = westward \/ f = southward -> Rabs (f l b e th - f l b e' th) <= 2 * Rabs (e - e').
Proof.
  intros F. pose proof (cos_lip e e') as C. pose proof (sin_lip e e') as S.
  assert (K : forall u v, Rabs u <= 1 -> Rabs v <= 1 -> Rabs ((cos e - cos e') * u + (sin e - sin e') * v) <= 2 * Rabs (e - e')).
  { intros u v Hu Hv. apply Rle_trans with (Rabs (e - e') * 1 + Rabs (e - e') * 1); [|lra]. apply sum_le; now apply prod_le. }
  assert (M : forall u v, Rabs u <= 1 -> Rabs v <= 1 -> Rabs (u * v) <= 1) by (intros u v Hu Hv; rewrite <- (Rmult_1_l 1); now apply prod_le).
  destruct F as [-> | ->].
  - replace (westward l b e th - westward l b e' th) with ((cos e - cos e') * (- cos b * sin l * cos th) + (sin e - sin e') * (sin b * cos th)) by (unfold westward; ring).
    apply K; try apply M; try apply M; rewrite ?Rabs_Ropp; try apply one_cos; try apply one_sin.
  - replace (southward l b e th - southward l b e' th) with ((cos e - cos e') * (cos b * sin l * sin th) + (sin e - sin e') * (- sin b * sin th)) by (unfold southward; ring).
    apply K; try apply M; try apply M; rewrite ?Rabs_Ropp; try apply one_cos; try apply one_sin.
Qed.
Lemma lip3 f l l' b b' e e' th : f = westward \/ f = southward -> Rabs (f l b e th - f l' b' e' th) <= Rabs (l - l') + 3 * Rabs (b - b') + 2 * Rabs (e - e').
Proof.
  intros F. replace (f l b e th - f l' b' e' th) with ((f l b e th - f l' b e th) + (f l' b e th - f l' b' e th) + (f l' b' e th - f l' b' e' th)) by ring.
  apply sum_le; [apply sum_le|]; [now apply lip_l|now apply lip_b|now apply lip_e].
Qed.
(** turning the sky by x *)
Lemma circle u v th th' : u * u + v * v <= 1 -> Rabs ((u * sin th' - v * cos th') - (u * sin th - v * cos th)) <= Rabs (th' - th) /\ Rabs ((u * cos th' + v * sin th') - (u * cos th + v * sin th)) <= Rabs (th' - th).
Proof.
  intros H. destruct (GeoProof.polar v u) as [P Q]. cbv zeta in P, Q. set (r := sqrt (u * u + v * v)) in *. set (f := GeoModel.atan2 v u) in *. clearbody f.
  assert (R1 : Rabs r <= 1). { rewrite Rabs_pos_eq by apply sqrt_pos. rewrite <- sqrt_1. now apply sqrt_le_1_alt. } clearbody r. subst u v.
  rewrite <- (Rmult_1_l (Rabs (th' - th))). split.
  - replace (r * cos f * sin th' - r * sin f * cos th' - (r * cos f * sin th - r * sin f * cos th)) with (r * (sin (th' - f) - sin (th - f))) by (rewrite !sin_minus; ring).
    apply prod_le; [exact R1|]. apply Rle_trans with (1 := sin_lip _ _). replace (th' - f - (th - f)) with (th' - th) by ring. apply Rle_refl.
  - replace (r * cos f * cos th' + r * sin f * sin th' - (r * cos f * cos th + r * sin f * sin th)) with (r * (cos (th' - f) - cos (th - f))) by (rewrite !cos_minus; ring).
    apply prod_le; [exact R1|]. apply Rle_trans with (1 := cos_lip _ _). replace (th' - f - (th - f)) with (th' - th) by ring. apply Rle_refl.
Qed.
Lemma lip_th l b e th th' : Rabs (westward l b e th' - westward l b e th) <= Rabs (th' - th) /\ Rabs (southward l b e th' - southward l b e th) <= Rabs (th' - th).
Proof.
  apply circle. pose proof (sin2_cos2 l) as A. pose proof (sin2_cos2 b) as B. pose proof (sin2_cos2 e) as C. unfold Rsqr in A, B, C.
  pose proof (Rle_0_sqr (cos b * sin l * sin e + sin b * cos e)) as P. unfold Rsqr in P.
  assert (I : cos b * cos l * (cos b * cos l) + (cos b * sin l * cos e - sin b * sin e) * (cos b * sin l * cos e - sin b * sin e) + (cos b * sin l * sin e + sin b * cos e) * (cos b * sin l * sin e + sin b * cos e) = 1).
  { transitivity (cos b * cos b * (cos l * cos l) + (cos b * cos b * (sin l * sin l) + sin b * sin b) * (sin e * sin e + cos e * cos e)); [ring|]. rewrite C. transitivity (cos b * cos b * (sin l * sin l + cos l * cos l) + sin b * sin b); [ring|]. rewrite A. lra. }
  lra.
Qed.
Lemma turn_w l b e th x : westward l b e (th + x) = westward l b e th * cos x + southward l b e th * sin x.
Proof. unfold westward, southward. rewrite sin_plus, cos_plus. ring. Qed.
Lemma turn_s l b e th x : southward l b e (th + x) = southward l b e th * cos x - westward l b e th * sin x.
Proof. unfold westward, southward. rewrite sin_plus, cos_plus. ring. Qed.
Lemma main_nut_le t : Rabs (main_nut t) <= 8.4e-5.
Proof.
  pose proof PI_bounds as PB. unfold main_nut, arcsec. set (s := sin _). assert (S : Rabs s <= 1) by apply one_sin. clearbody s.
  replace (-17.2 * s * PI / 648000) with (s * (-17.2 * PI / 648000)) by field. apply Rle_trans with (1 * 8.4e-5); [|lra]. apply prod_le; [exact S|]. apply Rabs_le. revert PB. decs. lra.
Qed.
Lemma main_nut_obl_le t : Rabs (main_nut_obl t) <= 4.5e-5.
Proof.
  pose proof PI_bounds as PB. unfold main_nut_obl, arcsec. set (s := cos _). assert (S : Rabs s <= 1) by apply one_cos. clearbody s.
  replace (9.2 * s * PI / 648000) with (s * (9.2 * PI / 648000)) by field. apply Rle_trans with (1 * 4.5e-5); [|lra]. apply prod_le; [exact S|]. apply Rabs_le. revert PB. decs. lra.
Qed.
Lemma sun_lat_le t : Rabs (sun_lat t) <= 4.7e-6.
Proof.
  unfold sun_lat. unfold Rdiv. apply Rle_trans with ((2796 * 1 + 1016 * 1 + 804 * 1) * / 1000000000); [|decs; lra]. apply prod_le; [|rewrite Rabs_pos_eq; lra]. rewrite Rabs_Ropp.
  apply sum_le; [apply sum_le|]; apply prod_le; try apply one_cos; rewrite Rabs_pos_eq; lra.
Qed.
Lemma tan_le w : Rabs w <= 1e-5 -> Rabs (tan w) <= 2e-5.
Proof.
  intros H. unfold tan, Rdiv. pose proof (cos_lb w) as C. pose proof (prod_le _ _ _ _ H H) as Q. apply Rabs_le_inv in Q. pose proof (sin_abs w) as S.
  assert (C2 : 1 / 2 <= cos w) by (revert C Q; decs; lra). apply Rle_trans with (1e-5 * 2); [|decs; lra]. apply prod_le; [lra|]. rewrite Rabs_pos_eq by (left; apply Rinv_0_lt_compat; lra).
  replace 2 with (/ (1 / 2)) by field. apply Rinv_le_contravar; lra.
Qed.

Lemma turn_div x : 2 * PI * x / (2 * PI) = x.
Proof. pose proof PI_neq0. field. assumption. Qed.

Lemma nth_error_seq_lt i a n : (i < n)%nat -> nth_error (seq a n) i = Some (a + i)%nat.
Proof. intros H. rewrite (nth_error_nth' _ 0%nat) by (now rewrite seq_length). now rewrite seq_nth. Qed.
Section Lib.
Variables fsin fcos ftan fasin : f64 -> f64.
Variable fatan2 : f64 -> f64 -> f64.
Hypothesis Gs : good_lib fsin sin.
Hypothesis Gc : good_lib fcos cos.
Hypothesis Gt : close_on ftan tan.
Hypothesis G2 : close_atan2 fatan2.
Variables (XL0 : list (list f64)) (rest : list f64).
Hypothesis H0 : nth_error XL0 0 = Some (memory (earth_table rest)).
Hypothesis HR : List.length rest = 1518%nat.

Ltac nn := unfold u53, tiny, big; decs; lra.
Ltac formula xs E :=
  lazymatch goal with |- ok ?F /\ Rabs (R64 ?F - ?r) <= IZR ?n * U =>
    let e := reify fsin fcos xs F in apply (formula_ok fsin fcos Gs Gc _ _ _ e F r n E); [cbn [evF nth]; reflexivity| |vm_compute; reflexivity]; cbn [evR nth]; decs; try field end.
Ltac done_with H := let O := fresh in let D := fresh in destruct H as [O D]; split; [exact O|]; apply Rle_trans with (1 := D); unfold U, one; decs; lra.
Lemma eL_near t : ok t -> Rabs (R64 t) <= 28 -> ok (et_L t) /\ Rabs (R64 (et_L t) - mean_sun5 (R64 t)) <= 1e-10.
Proof.
  intros Ot Bt. assert (E : env_ok [t] [R64 t] [given 28]) by (repeat (constructor; [apply given_ok; assumption|]); constructor).
  assert (H : ok (et_L t) /\ Rabs (R64 (et_L t) - mean_sun5 (R64 t)) <= IZR 126765060022822940149 * U) by (unfold et_L, mean_sun5, rad, arcsec; cbv zeta; formula [t] E; pose proof PI_bounds as PB; revert PB; decs; lra).
  done_with H.
Qed.
Lemma edL_near t : ok t -> Rabs (R64 t) <= 28 -> ok (et_dL fsin t) /\ Rabs (R64 (et_dL fsin t) - main_nut (R64 t)) <= 1e-15.
Proof.
  intros Ot Bt. assert (E : env_ok [t] [R64 t] [given 28]) by (repeat (constructor; [apply given_ok; assumption|]); constructor).
  assert (H : ok (et_dL fsin t) /\ Rabs (R64 (et_dL fsin t) - main_nut (R64 t)) <= IZR 1267650600228229 * U).
  { unfold et_dL, main_nut, rad, arcsec. formula [t] E. unfold Rdiv. field. pose proof PI_bounds as PB; revert PB; decs; lra. }
  done_with H.
Qed.
Lemma edE_near t : ok t -> Rabs (R64 t) <= 28 -> ok (et_dE fcos t) /\ Rabs (R64 (et_dE fcos t) - main_nut_obl (R64 t)) <= 1e-15.
Proof.
  intros Ot Bt. assert (E : env_ok [t] [R64 t] [given 28]) by (repeat (constructor; [apply given_ok; assumption|]); constructor).
  assert (H : ok (et_dE fcos t) /\ Rabs (R64 (et_dE fcos t) - main_nut_obl (R64 t)) <= IZR 1267650600228229 * U).
  { unfold et_dE, main_nut_obl, rad, arcsec. formula [t] E. unfold Rdiv. field. pose proof PI_bounds as PB; revert PB; decs; lra. }
  done_with H.
Qed.
Lemma eW_near t : ok t -> Rabs (R64 t) <= 28 -> ok (et_W fcos t) /\ Rabs (R64 (et_W fcos t) - sun_lat (R64 t)) <= 1e-15.
Proof.
  intros Ot Bt. assert (E : env_ok [t] [R64 t] [given 28]) by (repeat (constructor; [apply given_ok; assumption|]); constructor).
  assert (H : ok (et_W fcos t) /\ Rabs (R64 (et_W fcos t) - sun_lat (R64 t)) <= IZR 1267650600228229 * U).
  { unfold et_W, sun_lat. formula [t] E. unfold Rdiv. field. }
  done_with H.
Qed.
Lemma eE_near t : ok t -> Rabs (R64 t) <= 28 -> ok (et_E fcos t) /\ Rabs (R64 (et_E fcos t) - (obliquity (R64 t) + main_nut_obl (R64 t))) <= 1e-14 /\ Rabs (R64 (et_E fcos t)) <= 0.416.
Proof.
  intros Ot Bt. destruct (edE_near t Ot Bt) as [Od Dd]. destruct (C87_formulas fsin fcos Gs Gc) as (CG & _). destruct (CG t Ot ltac:(lra)) as ((Oh & Dh) & _). clear CG. unfold et_E.
  pose proof (main_nut_obl_le (R64 t)) as MN. pose proof PI_bounds as PB.
  assert (BO : Rabs (obliquity (R64 t)) <= 0.4158).
  { unfold obliquity, arcsec. set (r := R64 t) in *. assert (P : forall k, Rabs (r ^ k) <= 28 ^ k) by (intros k; rewrite <- RPow_abs; apply pow_incr; split; [apply Rabs_pos|exact Bt]).
    pose proof (P 2%nat) as P2. pose proof (P 3%nat) as P3. pose proof (P 4%nat) as P4. pose proof (P 5%nat) as P5. apply Rabs_le_inv in P2. apply Rabs_le_inv in P3. apply Rabs_le_inv in P4. apply Rabs_le_inv in P5. assert (Bt' := Bt). apply Rabs_le_inv in Bt'.
    replace (28 ^ 2) with 784 in P2 by ring. replace (28 ^ 3) with 21952 in P3 by ring. replace (28 ^ 4) with 614656 in P4 by ring. replace (28 ^ 5) with 17210368 in P5 by ring.
    match goal with |- Rabs (?a * PI / 648000) <= _ => replace (a * PI / 648000) with (a * (PI / 648000)) by (unfold Rdiv; ring) end.
    apply Rle_trans with (85760 * 4.8482e-6); [|decs; lra]. apply prod_le; [apply Rabs_le; revert P2 P3 P4 P5 Bt'; decs; lra|rewrite Rabs_pos_eq; revert PB; decs; lra]. }
  assert (E : env_ok [hcjj t; et_dE fcos t] [R64 (hcjj t); R64 (et_dE fcos t)] [given 1; given 1]).
  { apply Rabs_le_inv in Dh. apply Rabs_le_inv in Dd. apply Rabs_le_inv in BO. apply Rabs_le_inv in MN. constructor; [apply given_ok; [assumption|apply Rabs_le; revert Dh Dd BO MN; decs; lra]|]. constructor; [apply given_ok; [assumption|apply Rabs_le; revert Dh Dd BO MN; decs; lra]|constructor]. }
  set (h := hcjj t) in *. set (d := et_dE fcos t) in *. clearbody h d.
  assert (H : ok (fadd h d) /\ Rabs (R64 (fadd h d) - (R64 h + R64 d)) <= IZR 1267650600228229 * U) by (formula [h; d] E).
  destruct H as [O D]. assert (D' : Rabs (R64 (fadd h d) - (R64 h + R64 d)) <= 1.0001e-15) by (apply Rle_trans with (1 := D); unfold U, one; decs; lra). clear D.
  assert (K : Rabs (R64 (fadd h d) - (obliquity (R64 t) + main_nut_obl (R64 t))) <= 1e-14).
  { replace (R64 (fadd h d) - (obliquity (R64 t) + main_nut_obl (R64 t))) with ((R64 (fadd h d) - (R64 h + R64 d)) + (R64 h - obliquity (R64 t)) + (R64 d - main_nut_obl (R64 t))) by ring.
    apply Rle_trans with (1 := sum_le _ _ _ _ (sum_le _ _ _ _ D' Dh) Dd). decs. lra. }
  split; [exact O|]. split; [exact K|]. replace (R64 (fadd h d)) with ((R64 (fadd h d) - (obliquity (R64 t) + main_nut_obl (R64 t))) + (obliquity (R64 t) + main_nut_obl (R64 t))) by ring.
  apply Rle_trans with (1 := sum_le _ _ _ _ K (sum_le _ _ _ _ BO MN)). decs. lra.
Qed.
Lemma four_sum e g d : ok e -> ok g -> ok d -> Rabs (R64 e) <= 64000 -> Rabs (R64 g) <= 1 -> Rabs (R64 d) <= 1 ->
  let J := fadd (fadd (fadd e dpi) g) d in ok J /\ Rabs (R64 J - (R64 e + PI + R64 g + R64 d)) <= 1e-10.
Proof.
  intros Oe Og Od Be Bg Bd J. assert (E : env_ok [e; g; d] [R64 e; R64 g; R64 d] [given 64000; given 1; given 1]) by (repeat (constructor; [apply given_ok; assumption|]); constructor).
  assert (H : ok J /\ Rabs (R64 J - (R64 e + PI + R64 g + R64 d)) <= IZR 126765060022822940149 * U) by (unfold J; formula [e; g; d] E).
  done_with H.
Qed.
Lemma less_ra g ra d e : ok g -> ok ra -> ok d -> ok e -> Rabs (R64 g) <= 18000 -> Rabs (R64 ra) <= 8 -> Rabs (R64 d) <= 1 -> Rabs (R64 e) <= 1 ->
  let v := fsub g (fsub ra (fmul d (fcos e))) in ok v /\ Rabs (R64 v - (R64 g - R64 ra + R64 d * cos (R64 e))) <= 1e-10.
Proof.
  intros Og Or Od Oe Bg Br Bd Be v. assert (E : env_ok [g; ra; d; e] [R64 g; R64 ra; R64 d; R64 e] [given 18000; given 8; given 1; given 1]) by (repeat (constructor; [apply given_ok; assumption|]); constructor).
  assert (H : ok v /\ Rabs (R64 v - (R64 g - R64 ra + R64 d * cos (R64 e))) <= IZR 126765060022822940149 * U) by (unfold v; formula [g; ra; d; e] E).
  done_with H.
Qed.
(** the right ascension that llrConv finds *)
Lemma ra_near J W E : ok J -> ok W -> ok E -> Rabs (R64 W) <= 1e-5 -> Rabs (R64 E) <= 0.416 ->
  let ra := fst (llr_conv fsin fcos ftan fasin fatan2 J W E) in
  ok ra /\ 0 <= R64 ra <= 8 /\ exists r, 0.9 <= r <= 1.01 /\ Rabs (r * cos (R64 ra) - cos (R64 J)) <= 1e-14 /\
    Rabs (r * sin (R64 ra) - (sin (R64 J) * cos (R64 E) - tan (R64 W) * sin (R64 E))) <= 1e-14.
Proof.
  intros OJ OW OE BW BE ra. unfold ra, llr_conv. cbn [fst]. clear ra.
  pose proof (tan_le _ BW) as TW. destruct (Gt W OW ltac:(revert BW; decs; lra)) as [OT DT].
  assert (NT : near (ftan W) (tan (R64 W)) (4 * u53) 1) by (split; [exact OT|split; [exact DT|revert TW; decs; lra]]).
  pose proof (near_mul _ _ _ _ _ _ _ _ (6 * u53) 1 (sin_of fsin Gs J OJ) (cos_of fcos Gc E OE) ltac:(lra) ltac:(nn) ltac:(nn)) as A.
  pose proof (near_mul _ _ _ _ _ _ _ _ (8 * u53) 1 NT (sin_of fsin Gs E OE) ltac:(lra) ltac:(nn) ltac:(nn)) as C.
  pose proof (near_sub _ _ _ _ _ _ _ _ (20 * u53) 2 A C ltac:(lra) ltac:(nn) ltac:(nn)) as D. clear A C.
  destruct (cos_of fcos Gc J OJ) as (Ox & Dx & _). destruct D as (Oy & Dy & _).
  set (y := fsub (fmul (fsin J) (fcos E)) (fmul (ftan W) (fsin E))) in *. set (x := fcos J) in *. clearbody y x.
  set (e := R64 E) in *. set (j := R64 J) in *. set (tw := tan (R64 W)) in *. clearbody e j tw.
  set (r := sqrt (R64 x * R64 x + R64 y * R64 y)). assert (R0 : 0 <= r) by apply sqrt_pos.
  assert (RR : r * r = R64 x * R64 x + R64 y * R64 y). { apply sqrt_sqrt. pose proof (Rle_0_sqr (R64 x)) as X. pose proof (Rle_0_sqr (R64 y)) as Y. unfold Rsqr in X, Y. lra. }
  assert (SQ : forall a b k, Rabs (a - b) <= k -> Rabs b <= 1 -> k <= 0.01 -> Rabs (a * a - b * b) <= 2.01 * k).
  { intros a b k H1 H2 H3. replace (a * a - b * b) with ((a - b) * ((a - b) + 2 * b)) by ring. rewrite (Rmult_comm 2.01). apply prod_le; [exact H1|]. apply Rle_trans with (k + 2 * 1); [apply sum_le; [exact H1|]|revert H3; decs; lra]. rewrite Rabs_mult, (Rabs_pos_eq 2) by lra. lra. }
  assert (Q1 : Rabs (R64 x * R64 x - cos j * cos j) <= 2.01 * (2 * u53)) by (apply SQ; [exact Dx|apply one_cos|nn]).
  assert (Dy' : Rabs (R64 y - sin j * cos e) <= 2.1e-5).
  { replace (R64 y - sin j * cos e) with ((R64 y - (sin j * cos e - tw * sin e)) - tw * sin e) by ring. apply Rle_trans with (20 * u53 + 2e-5 * 1); [|nn]. apply diff_le; [exact Dy|]. apply prod_le; [exact TW|apply one_sin]. }
  assert (Q2 : Rabs (R64 y * R64 y - (sin j * cos e) * (sin j * cos e)) <= 2.01 * 2.1e-5).
  { apply SQ; [exact Dy'| |decs; lra]. rewrite <- (Rmult_1_l 1). apply prod_le; [apply one_sin|apply one_cos]. }
  assert (CE : 0.9134 <= cos e). { pose proof (cos_lb e) as X. pose proof (prod_le _ _ _ _ BE BE) as Y. apply Rabs_le_inv in Y. revert X Y. decs. lra. }
  pose proof (COS_bound e) as CB. 
  assert (ID : cos j * cos j + (sin j * cos e) * (sin j * cos e) = 1 - sin j * sin j * (1 - cos e * cos e)).
  { pose proof (sin2_cos2 j) as X. unfold Rsqr in X. transitivity ((sin j * sin j + cos j * cos j) - sin j * sin j * (1 - cos e * cos e)); [ring|]. rewrite X. ring. }
  assert (C2 : 0.9134 * 0.9134 <= cos e * cos e) by (apply Rmult_le_compat; revert CE; decs; lra).
  assert (C3 : cos e * cos e <= 1 * 1) by (apply Rmult_le_compat; revert CE; decs; lra).
  assert (SJ : 0 <= sin j * sin j <= 1). { pose proof (sin2_cos2 j) as X. pose proof (Rle_0_sqr (cos j)) as Y. pose proof (Rle_0_sqr (sin j)) as Z. unfold Rsqr in *. lra. }
  assert (PR : 0 <= sin j * sin j * (1 - cos e * cos e) <= 1 * (1 - 0.9134 * 0.9134)).
  { split; [apply Rmult_le_pos; lra|apply Rmult_le_compat; lra]. }
  apply Rabs_le_inv in Q1. apply Rabs_le_inv in Q2.
  assert (RB : 0.81 <= r * r <= 1.02). { rewrite RR. revert Q1 Q2 ID PR. unfold u53. decs. lra. }
  assert (RL : 0.9 <= r <= 1.01). { revert RB. decs. intros RB. split; nra. }
  assert (NZ : R64 y <> 0 \/ R64 x <> 0).
  { destruct (Req_dec (R64 x) 0) as [X|X]; [|now right]. left. intros Y. rewrite X, Y in RR. revert RB. decs. lra. }
  destruct (G2 y x Oy Ox NZ) as (Oa & Ba & k & Da). set (a := fatan2 y x) in *. clearbody a.
  destruct (GeoProof.polar (R64 y) (R64 x)) as [P1 P2]. fold r in P1, P2. set (th := GeoModel.atan2 (R64 y) (R64 x)) in *. clearbody th.
  destruct (C31_mrad_double a Oa) as (Or & Br & (m & Dm) & _). set (ra := rad2mrad_d a) in *. clearbody ra. pose proof dpi_range as DP.
  assert (Dm' : Rabs (R64 ra - (R64 a + IZR m * (2 * R64 dpi))) <= 1e-15) by (apply Rle_trans with (1 := Dm); rewrite bpow_m51; decs; lra).
  assert (KM : Rabs (IZR m) <= 3). { apply Rle_trans with ((9 + Rabs (R64 a)) / 6); [apply abs_cases|lra]. revert Dm'. decs. intros Q. apply Rabs_le_inv in Q. apply Rabs_le. lra. }
  pose proof (turns m (R64 a) (R64 ra) 3 KM Dm') as T.
  assert (T' : Rabs (R64 ra - (th + IZR (k + m) * (2 * PI))) <= 4e-15).
  { rewrite plus_IZR. replace (R64 ra - (th + (IZR k + IZR m) * (2 * PI))) with ((R64 ra - (R64 a + IZR m * (2 * PI))) + (R64 a - (th + IZR k * (2 * PI)))) by ring.
    apply Rle_trans with (1 := sum_le _ _ _ _ T Da). nn. }
  split; [exact Or|]. split; [lra|]. exists r. split; [exact RL|]. assert (RA : Rabs r <= 1.01) by (rewrite Rabs_pos_eq; lra). split.
  - replace (r * cos (R64 ra) - cos j) with (r * (cos (R64 ra) - cos th) + (R64 x - cos j)) by (rewrite <- P1; ring).
    apply Rle_trans with (1.01 * 4e-15 + 2 * u53); [|nn]. apply sum_le; [|exact Dx]. apply prod_le; [exact RA|].
    rewrite <- (turn_cos th (k + m)). apply Rle_trans with (1 := cos_lip _ _). exact T'.
  - replace (r * sin (R64 ra) - (sin j * cos e - tw * sin e)) with (r * (sin (R64 ra) - sin th) + (R64 y - (sin j * cos e - tw * sin e))) by (rewrite <- P2; ring).
    apply Rle_trans with (1.01 * 4e-15 + 20 * u53); [|nn]. apply sum_le; [|exact Dy]. apply prod_le; [exact RA|].
    rewrite <- (turn_sin th (k + m)). apply Rle_trans with (1 := sin_lip _ _). exact T'.
Qed.
Lemma more_terms B t : 0 <= B -> Rabs t <= B -> Rabs (mean_sun5 t - (mean_sun t - arcsec 20.5)) <= 4.32e-10 * B ^ 3 + 1.124e-10 * B ^ 4 + 9e-14 * B ^ 5.
Proof.
  intros B0 Ht. unfold mean_sun5, mean_sun.
  match goal with |- Rabs ?z <= _ => replace z with (4.32e-10 * t ^ 3 - 1.124e-10 * t ^ 4 - 9e-14 * t ^ 5) by ring end.
  assert (P : forall k, Rabs (t ^ k) <= B ^ k) by (intros k; rewrite <- RPow_abs; apply pow_incr; split; [apply Rabs_pos|exact Ht]).
  apply diff_le; [apply diff_le|]; apply prod_le; try apply P; rewrite Rabs_pos_eq; decs; lra.
Qed.
Lemma mean_apart t l Q tail : Rabs t <= 28 -> Rabs (l - (sun_of_date t + main_nut t)) <= tail + 2.2e-9 -> tail <= 2.6e-5 -> Rabs Q <= 8.4e-5 * 1 -> Rabs (mean_sun5 t + Q - l) <= 0.0535.
Proof.
  intros Bt' LL TL2 BQ. pose proof PI_bounds as PB. pose proof (main_nut_le t) as MN. assert (K20 : Rabs (arcsec 20.5) <= 1e-4) by (unfold arcsec; rewrite Rabs_pos_eq; revert PB; decs; lra).
  pose proof (sun_dev 3 t ltac:(lia) ltac:(lra)) as SD. pose proof dev3 as D3. pose proof (nut_small t ltac:(lra)) as N.
    assert (SD' : Rabs (sun_mean t - sun_longitude t) <= 0.0480499) by lra.
    assert (P2 : Rabs (5.29674e-6 * t ^ 2) <= 5.29674e-6 * 784). { apply prod_le; [rewrite Rabs_pos_eq; decs; lra|]. apply Rle_trans with (28 ^ 2); [rewrite <- RPow_abs; apply pow_incr; split; [apply Rabs_pos|exact Bt']|lra]. }
    assert (K1 : Rabs 1.42e-7 <= 1.42e-7) by (rewrite Rabs_pos_eq; decs; lra). pose proof (more_terms 28 t ltac:(lra) Bt') as MT.
    set (M := mean_sun5 t) in *. replace (M + Q - l) with ((sun_mean t - sun_longitude t) + nut_lon t + 1.42e-7 + 5.29674e-6 * t ^ 2 - arcsec 20.5 - (l - (sun_of_date t + main_nut t)) + (M - (mean_sun t - arcsec 20.5)) + Q - main_nut t) by (unfold mean_sun, sun_mean, sun_longitude, sun_of_date; decs; field).
    apply Rle_trans with (1 := diff_le _ _ _ _ (sum_le _ _ _ _ (sum_le _ _ _ _ (diff_le _ _ _ _ (diff_le _ _ _ _ (sum_le _ _ _ _ (sum_le _ _ _ _ (sum_le _ _ _ _ SD' N) K1) P2) K20) LL) MT) BQ) MN). revert TL2. cbn [pow]. decs. lra.
Qed.
Lemma tail50 t S tail : Rabs t <= 10 * IZR S -> IZR (etail S 50) / 10000000000 <= tail -> Rabs (earth_n 50 t - earth_full t) <= tail.
Proof. intros BS TL. apply Rle_trans with (2 := TL). exact (earth_tail S 50 t BS). Qed.
Lemma sum_near e en ef sa tail : Rabs (e - en) <= 2e-9 -> Rabs (en - ef) <= tail -> Rabs (e + PI + sa - (ef + PI + sa)) <= tail + 2e-9.
Proof. intros D T. replace (e + PI + sa - (ef + PI + sa)) with ((en - ef) + (e - en)) by ring. now apply sum_le. Qed.
Lemma size_near e en : Rabs (e - en) <= 2e-9 -> Rabs en <= 63000 -> Rabs e <= 64000.
Proof. intros D M. replace e with (en + (e - en)) by ring. apply Rle_trans with (1 := sum_le _ _ _ _ M D). decs. lra. Qed.
Lemma earth50 t S tail : ok t -> Rabs (R64 t) <= 30 -> Rabs (R64 t) <= 10 * IZR S -> IZR (etail S 50) / 10000000000 <= tail ->
  exists e, E_Lon fcos XL0 t 50 = Some e /\ ok e /\ Rabs (R64 e + PI + sun_aberration (R64 t) - sun_of_date (R64 t)) <= tail + 2e-9 /\ Rabs (R64 e) <= 64000.
Proof.
  intros Ot Bt BS TL. pose proof (tail50 _ _ _ BS TL) as T. clear TL BS. destruct (earth_n_near fsin fcos Gs Gc XL0 rest H0 HR t Ot ltac:(lra) 50 ltac:(lia)) as (e & Ee & Oe & De & Me).
  exists e. split; [exact Ee|]. split; [exact Oe|]. split; [exact (sum_near _ _ _ _ _ De T)|exact (size_near _ _ De Me)].
Qed.
Lemma mean_size t : Rabs t <= 28 -> Rabs (mean_sun5 t) <= 17700.
Proof.
  intros Bt'. pose proof PI_bounds as PB. assert (K20 : Rabs (arcsec 20.5) <= 1e-4) by (unfold arcsec; rewrite Rabs_pos_eq; revert PB; decs; lra).
  unfold mean_sun5. assert (P : forall k, Rabs (t ^ k) <= 28 ^ k) by (intros k; rewrite <- RPow_abs; apply pow_incr; split; [apply Rabs_pos|exact Bt']).
    pose proof (P 2%nat) as P2. pose proof (P 3%nat) as P3. pose proof (P 4%nat) as P4. pose proof (P 5%nat) as P5. apply Rabs_le_inv in P2. apply Rabs_le_inv in P3. apply Rabs_le_inv in P4. apply Rabs_le_inv in P5. assert (Bt2 := Bt'). apply Rabs_le_inv in Bt2.
    replace (28 ^ 2) with 784 in P2 by ring. replace (28 ^ 3) with 21952 in P3 by ring. replace (28 ^ 4) with 614656 in P4 by ring. replace (28 ^ 5) with 17210368 in P5 by ring. apply Rabs_le_inv in K20. apply Rabs_le. revert PB P2 P3 P4 P5 Bt2 K20. decs. lra.
Qed.
(** the last lines of pty_zty, with what has been computed before *)
Lemma et_turn gg ra d E M Q l b r : ok gg -> ok ra -> ok d -> ok E -> Rabs (R64 gg) <= 18000 -> 0 <= R64 ra <= 8 -> Rabs (R64 d) <= 1e-4 -> Rabs (R64 E) <= 0.416 -> Rabs b <= 1e-5 ->
  Rabs (R64 gg - M) <= 1e-10 -> Rabs (R64 d * cos (R64 E) - Q) <= 1e-13 -> 0.9 <= r <= 1.01 -> Rabs (r * cos (R64 ra) - cos l) <= 1e-14 -> Rabs (r * sin (R64 ra) - (sin l * cos (R64 E) - tan b * sin (R64 E))) <= 1e-14 ->
  let x := fdiv (rad2rrad_d (fsub gg (fsub ra (fmul d (fcos E))))) pi2 in
  ok x /\ Rabs (2 * PI * R64 x) <= 3.15 /\ Rabs (westward l b (R64 E) (M + Q - 2 * PI * R64 x)) <= 1e-9 /\ 0.899 <= southward l b (R64 E) (M + Q - 2 * PI * R64 x).
Proof.
  intros OL Ora Od OE Bgg Bra Bd4 BE BW DL ME Rr C1 C2. cbv zeta. pose proof PI_bounds as PB. assert (Bd : Rabs (R64 d) <= 1) by (revert Bd4; decs; lra).
  destruct (less_ra gg ra d E OL Ora Od OE Bgg ltac:(apply Rabs_le; lra) Bd ltac:(revert BE; decs; lra)) as [Ov Dv]. set (v := fsub gg (fsub ra (fmul d (fcos E)))) in *. clearbody v.
  destruct (C31_rrad_double v Ov) as (OH & BH & k & EH). set (H := rad2rrad_d v) in *. clearbody H. pose proof dpi_range as DR.
  assert (BH' : Rabs (R64 H) <= 4) by (apply Rabs_le; lra).
  destruct (over_pi2 fsin fcos Gs Gc H OH BH') as [Ox Dx]. set (x := fdiv H pi2) in *. clearbody x.
  assert (KM : Rabs (IZR k) <= 3100).
  { apply Rle_trans with ((4 + Rabs (R64 v)) / 6).
    - apply abs_cases. rewrite <- EH. exact BH'.
    - assert (Rabs (R64 v) <= 18100); [|lra]. revert Dv. decs. intros Dv. apply Rabs_le_inv in Dv. apply Rabs_le_inv in Bgg. assert (BQ : Rabs (R64 d * cos (R64 E)) <= 1e-4 * 1) by (apply prod_le; [exact Bd4|apply one_cos]). apply Rabs_le_inv in BQ. apply Rabs_le. revert BQ. decs. lra. }
  assert (TV : Rabs (R64 H - (R64 v + IZR k * (2 * PI))) <= 1e-15 + 3100 * 4e-16).
  { apply turns; [exact KM|]. rewrite EH, Rminus_diag_eq, Rabs_R0 by reflexivity. decs. lra. }
  set (X := 2 * PI * R64 x). assert (DX : Rabs (X - R64 H) <= 6.3 * 1e-14) by (apply two_pi; exact Dx).
  assert (HA : Rabs (X - (M + Q - R64 ra + IZR k * (2 * PI))) <= 2.1e-10).
  { replace (X - (M + Q - R64 ra + IZR k * (2 * PI))) with ((X - R64 H) + (R64 H - (R64 v + IZR k * (2 * PI))) + (R64 v - (R64 gg - R64 ra + R64 d * cos (R64 E))) + (R64 gg - M) + (R64 d * cos (R64 E) - Q)) by ring.
    apply Rle_trans with (1 := sum_le _ _ _ _ (sum_le _ _ _ _ (sum_le _ _ _ _ (sum_le _ _ _ _ DX TV) Dv) DL) ME). decs. lra. }
  set (eo := R64 E) in *.
  assert (CB : 0.9999 <= cos b <= 1). { split; [|apply COS_bound]. pose proof (cos_lb b) as CL. pose proof (prod_le _ _ _ _ BW BW) as Y. apply Rabs_le_inv in Y. revert CL Y. decs. lra. }
  assert (TB : tan b * cos b = sin b) by (unfold tan; field; revert CB; decs; lra).
  (* turned by the angle X, the point is on the meridian *)
  set (th := M + Q - X).
  assert (ON : Rabs (westward l b eo th) <= 1e-9 /\ 0.899 <= southward l b eo th).
  { set (dd := th + IZR k * (2 * PI) - R64 ra). assert (BD : Rabs dd <= 2.1e-10). { replace dd with (- (X - (M + Q - R64 ra + IZR k * (2 * PI)))) by (unfold dd, th; ring). rewrite Rabs_Ropp. exact HA. }
    assert (TS : sin (th - R64 ra) = sin dd). { unfold dd. replace (th + IZR k * (2 * PI) - R64 ra) with (th - R64 ra + IZR k * (2 * PI)) by ring. now rewrite turn_sin. }
    assert (TC : cos (th - R64 ra) = cos dd). { unfold dd. replace (th + IZR k * (2 * PI) - R64 ra) with (th - R64 ra + IZR k * (2 * PI)) by ring. now rewrite turn_cos. }
    rewrite sin_minus in TS. rewrite cos_minus in TC. set (yy := sin l * cos eo - tan b * sin eo) in *.
    assert (AR : Rabs r <= 1.01) by (rewrite Rabs_pos_eq; lra). assert (AB : Rabs (cos b) <= 1) by apply one_cos. split.
    - replace (westward l b eo th) with (cos b * (r * sin dd - sin th * (r * cos (R64 ra) - cos l) + cos th * (r * sin (R64 ra) - yy))) by (rewrite <- TS; unfold westward, yy; rewrite <- TB; ring).
      apply Rle_trans with (1 * (1.01 * 2.1e-10 + 1 * 1e-14 + 1 * 1e-14)); [|decs; lra]. apply prod_le; [exact AB|]. apply sum_le; [apply diff_le|]; apply prod_le; try assumption; try apply one_cos; try apply one_sin. apply Rle_trans with (1 := sin_abs dd). exact BD.
    - replace (southward l b eo th) with (cos b * (r * cos dd - (cos th * (r * cos (R64 ra) - cos l) + sin th * (r * sin (R64 ra) - yy)))) by (rewrite <- TC; unfold southward, yy; rewrite <- TB; ring).
      assert (Z : Rabs (cos th * (r * cos (R64 ra) - cos l) + sin th * (r * sin (R64 ra) - yy)) <= 1 * 1e-14 + 1 * 1e-14) by (apply sum_le; apply prod_le; try assumption; try apply one_cos; try apply one_sin).
      pose proof (cos_lb dd) as CD. pose proof (prod_le _ _ _ _ BD BD) as DD. apply Rabs_le_inv in DD. apply Rabs_le_inv in Z.
      assert (Y : 0.9 * 0.9999 <= r * cos dd) by (apply Rmult_le_compat; revert Rr CD DD; decs; lra).
      apply Rle_trans with (0.9999 * 0.8999); [decs; lra|]. apply Rmult_le_compat; revert CB Y Z; decs; lra. }
  split; [exact Ox|]. split; [|exact ON]. replace X with ((X - R64 H) + R64 H) by ring. apply Rle_trans with (6.3 * 1e-14 + 3.1416); [|decs; lra]. apply sum_le; [exact DX|]. pose proof dpi_pi as DP. apply Rabs_le_inv in DP. apply Rabs_le. revert DP PB. decs. lra.
Qed.
(** the turn is small when the point is near the mean Sun *)
Lemma small_turn l b eo A X : Rabs b <= 1e-5 -> Rabs eo <= 0.416 -> Rabs (A - l) <= 0.0535 -> Rabs X <= 3.15 -> Rabs (westward l b eo (A - X)) <= 1e-9 -> 0.899 <= southward l b eo (A - X) -> Rabs (X / (2 * PI)) <= 0.0175.
Proof.
  intros BW BE ML XB ON1 ON2. pose proof PI_bounds as PB.
  destruct (near_meridian l eo A BE ML) as [NW NM].
  assert (NW' : Rabs (westward l b eo A) <= 0.0969). { rewrite <- west_flat in NW. pose proof (lip_b westward l b 0 eo A ltac:(now left)) as LB. rewrite Rminus_0_r in LB.
    replace (westward l b eo A) with ((westward l b eo A - westward l 0 eo A) + westward l 0 eo A) by ring. apply Rle_trans with (1 := sum_le _ _ _ _ LB NW). revert BW. decs. lra. }
  assert (NM' : 0.8999 <= southward l b eo A). { replace (to_meridian l eo A) with (southward l 0 eo A) in NM by (unfold southward, to_meridian; rewrite cos_0, sin_0; ring). pose proof (lip_b southward l b 0 eo A ltac:(now right)) as LB. rewrite Rminus_0_r in LB.
    assert (LB' : Rabs (southward l b eo A - southward l 0 eo A) <= 3e-5) by (revert LB BW; decs; lra). apply Rabs_le_inv in LB'. revert NM LB'. decs. lra. }
  set (th := A - X) in *. pose proof (turn_w l b eo th X) as TW. pose proof (turn_s l b eo th X) as TM. replace (th + X) with A in TW, TM by (unfold th; ring).
  set (w := westward l b eo th) in *. set (m := southward l b eo th) in *. clearbody w m.
  assert (BX : Rabs X <= 0.1095).
  { apply (angle_small X 0.1095 0.1078).
    - revert XB. decs. lra.
    - assert (ZW : Rabs (w * sin X) <= 1e-9 * 1) by (apply prod_le; [exact ON1|apply one_sin]). apply Rabs_le_inv in ZW. assert (0 < m * cos X) by (revert TM NM' ZW; decs; lra).
      revert ON2. decs. intros ON2. destruct (Rle_dec (cos X) 0) as [Q0|Q0]; [nra|lra].
    - assert (ZW : Rabs (w * cos X) <= 1e-9 * 1) by (apply prod_le; [exact ON1|apply one_cos]). assert (Q0 : Rabs (m * sin X) <= 0.0969 + 1e-9 * 1). { replace (m * sin X) with (westward l b eo A - w * cos X) by (rewrite TW; ring). now apply diff_le. }
      rewrite Rabs_mult, (Rabs_pos_eq m) in Q0 by (revert ON2; decs; lra). pose proof (Rabs_pos (sin X)) as Y. assert (Z : 0.899 * Rabs (sin X) <= m * Rabs (sin X)) by (now apply Rmult_le_compat_r). revert Q0 Z. decs. lra.
    - decs. lra.
    - decs. lra. }
  apply Rle_trans with (1 := per_turn _ _ BX). decs. lra.
Qed.
Lemma moved l b e l0 b0 e0 th tail : Rabs (l - l0) <= tail + 2.2e-9 -> Rabs (b - b0) <= 1e-15 -> Rabs (e - e0) <= 1e-14 -> tail <= 2.6e-5 -> Rabs (westward l b e th) <= 1e-9 -> 0.899 <= southward l b e th ->
  Rabs (westward l0 b0 e0 th) <= tail + 4e-9 /\ 0.89 <= southward l0 b0 e0 th.
Proof.
  intros LL DW DE TL2 ON1 ON2. pose proof (lip3 westward l l0 b b0 e e0 th ltac:(now left)) as LW. pose proof (lip3 southward l l0 b b0 e e0 th ltac:(now right)) as LS.
  set (K := Rabs (l - l0) + 3 * Rabs (b - b0) + 2 * Rabs (e - e0)) in *. assert (KK : K <= tail + 2.3e-9) by (unfold K; revert LL DW DE; decs; lra). split.
  - replace (westward l0 b0 e0 th) with (westward l b e th - (westward l b e th - westward l0 b0 e0 th)) by ring. apply Rle_trans with (1 := diff_le _ _ _ _ ON1 LW). revert KK. decs. lra.
  - apply Rabs_le_inv in LS. revert KK TL2 LS ON2. decs. lra.
Qed.
Lemma within x a k m : Rabs (x - a) <= k -> Rabs a <= m -> Rabs x <= k + m.
Proof. intros A B. replace x with ((x - a) + a) by ring. now apply sum_le. Qed.
Lemma lon_sum l e g d so mn sa tail : Rabs (l - (e + PI + g + d)) <= 1e-10 -> Rabs (e + PI + sa - so) <= tail + 2e-9 -> Rabs (g - sa) <= 7e-17 -> Rabs (d - mn) <= 1e-15 -> Rabs (l - (so + mn)) <= tail + 2.2e-9.
Proof.
  intros A B C D. replace (l - (so + mn)) with ((l - (e + PI + g + d)) + (e + PI + sa - so) + (g - sa) + (d - mn)) by ring.
  apply Rle_trans with (1e-10 + (tail + 2e-9) + 7e-17 + 1e-15); [|decs; lra]. apply sum_le; [apply sum_le; [apply sum_le|]|]; assumption.
Qed.
Lemma eq_near d mn c c0 : Rabs (d - mn) <= 1e-15 -> Rabs mn <= 8.4e-5 -> Rabs (c - c0) <= 1e-14 -> Rabs (d * cos c - mn * cos c0) <= 1e-13.
Proof.
  intros A B C. replace (d * cos c - mn * cos c0) with ((d - mn) * cos c + mn * (cos c - cos c0)) by ring.
  apply Rle_trans with (1e-15 * 1 + 8.4e-5 * 1e-14); [|decs; lra]. apply sum_le; apply prod_le; try assumption; [apply one_cos|]. apply Rle_trans with (1 := cos_lip _ _). exact C.
Qed.
Lemma aberr_le t : Rabs t <= 28 -> Rabs (sun_aberration t) <= 0.001.
Proof.
  intros H. pose proof PI_bounds as PB. assert (K20 : Rabs (arcsec 20.5) <= 1e-4) by (unfold arcsec; rewrite Rabs_pos_eq; revert PB; decs; lra). assert (AC : Rabs (sun_aberration t + arcsec 20.5) <= 1.9e-6) by (apply aberr_const; lra).
  replace (sun_aberration t) with ((sun_aberration t + arcsec 20.5) - arcsec 20.5) by ring. apply Rle_trans with (1 := diff_le _ _ _ _ AC K20). decs. lra.
Qed.
Lemma c87 t : ok t -> Rabs (R64 t) <= 28 -> ok (gxc_sunLon fcos t) /\ Rabs (R64 (gxc_sunLon fcos t) - sun_aberration (R64 t)) <= 7e-17.
Proof. intros O B. destruct (C87_formulas fsin fcos Gs Gc) as (CG & _). destruct (CG t O ltac:(lra)) as (_ & H & _). exact H. Qed.
(** what pty_zty returns: the hour angle, in turns, that the apparent Sun has when the sidereal time is the longitude of the
    mean Sun with the nutation in right ascension; S bounds the time in thousands of years *)
Lemma et_ok t S tail : ok t -> Rabs (R64 t) <= 27.5 -> Rabs (R64 t) <= 10 * IZR S -> IZR (etail S 50) / 10000000000 <= tail -> tail <= 2.6e-5 ->
  exists x, pty_zty fsin fcos ftan fasin fatan2 XL0 t = Some x /\ ok x /\ Rabs (R64 x) <= 0.0175 /\
    let th := mean_sun5 (R64 t) + equinoxes (R64 t) - 2 * PI * R64 x in
    Rabs (apparent westward (R64 t) th) <= tail + 4e-9 /\ 0.89 <= apparent southward (R64 t) th.
Proof.
  intros Ot Bt BS TL TL2. assert (Bt' : Rabs (R64 t) <= 28) by (clear TL BS; revert Bt; decs; lra). assert (BT30 : Rabs (R64 t) <= 30) by (clear TL BS; lra). unfold pty_zty. cbv zeta.
  destruct (earth50 t S tail Ot BT30 BS TL) as (e & Ee & Oe & De & Be). clear TL BS Bt BT30. rewrite Ee. clear Ee. cbn [obind].
  destruct (c87 t Ot Bt') as [Og Dg]. pose proof (aberr_le _ Bt') as AB. pose proof (mean_size _ Bt') as BM.
  destruct (edL_near t Ot Bt') as [Od Dd]. pose proof (main_nut_le (R64 t)) as MN.
  destruct (eE_near t Ot Bt') as (OE & DE & BE). destruct (eW_near t Ot Bt') as [OW DW]. pose proof (sun_lat_le (R64 t)) as SL. destruct (eL_near t Ot Bt') as [OL DL].
  pose proof (fun l Q => mean_apart (R64 t) l Q tail Bt') as MA. unfold apparent. unfold equinoxes.
  set (M := mean_sun5 (R64 t)) in *. set (mn := main_nut (R64 t)) in *. set (so := sun_of_date (R64 t)) in *. set (sa := sun_aberration (R64 t)) in *. set (b0 := sun_lat (R64 t)) in *. set (e0 := obliquity (R64 t) + main_nut_obl (R64 t)) in *.
  set (gg := et_L t) in *. set (d := et_dL fsin t) in *. set (g := gxc_sunLon fcos t) in *. set (E := et_E fcos t) in *. set (W := et_W fcos t) in *.
  clearbody M mn so sa b0 e0 gg d g E W. clear Ot Bt' t.
  assert (Bg : Rabs (R64 g) <= 1) by (apply Rle_trans with (1 := within _ _ _ _ Dg AB); decs; lra).
  assert (Bd4 : Rabs (R64 d) <= 1e-4) by (apply Rle_trans with (1 := within _ _ _ _ Dd MN); decs; lra).
  assert (BW : Rabs (R64 W) <= 1e-5) by (apply Rle_trans with (1 := within _ _ _ _ DW SL); decs; lra).
  assert (Bgg : Rabs (R64 gg) <= 18000) by (apply Rle_trans with (1 := within _ _ _ _ DL BM); decs; lra).
  assert (Bd : Rabs (R64 d) <= 1) by (apply Rle_trans with (1 := Bd4); decs; lra).
  destruct (four_sum e g d Oe Og Od Be Bg Bd) as [OJ DJ]. set (J := fadd (fadd (fadd e dpi) g) d) in *. clearbody J.
  destruct (ra_near J W E OJ OW OE BW BE) as (Ora & Bra & r & Rr & C1 & C2). destruct (llr_conv fsin fcos ftan fasin fatan2 J W E) as [ra de]. cbn [fst] in Ora, Bra, C1, C2. clear de.
  pose proof (eq_near _ _ _ _ Dd MN DE) as ME. set (Q := mn * cos e0) in *. assert (BQ : Rabs Q <= 8.4e-5 * 1) by (unfold Q; apply prod_le; [exact MN|apply one_cos]). clearbody Q.
  destruct (et_turn gg ra d E M Q (R64 J) (R64 W) r OL Ora Od OE Bgg Bra Bd4 BE BW DL ME Rr C1 C2) as (Ox & XB & ON1 & ON2).
  set (x := fdiv (rad2rrad_d _) pi2) in *. clearbody x. pose proof (lon_sum _ _ _ _ _ _ _ _ DJ De Dg Dd) as LL. clear C1 C2 ME DL De DJ Dg Dd.
  exists x. split; [reflexivity|]. split; [exact Ox|]. split; [|exact (moved _ _ _ _ _ _ _ _ LL DW DE TL2 ON1 ON2)].
  pose proof (small_turn _ _ _ _ _ BW BE (MA _ _ LL TL2 BQ) XB ON1 ON2) as ST. rewrite turn_div in ST. exact ST.
Qed.
(** the row of the table *)
Lemma moment_near jd i n : ok jd -> R64 jd = IZR n -> (0 <= i <= 400)%Z -> (Z.abs (n - 2451545) <= 999000)%Z ->
  ok (row_moment jd i) /\ Rabs (R64 (row_moment jd i) - (IZR (n - 2451545 + i) - / 3)) <= 2e-9.
Proof.
  intros O V Hi Hn. destruct (fZ_ok i ltac:(lia)) as [Oi Vi].
  assert (I1 : -999000 <= IZR n - 2451545 <= 999000) by (rewrite <- minus_IZR; split; apply IZR_le; lia). assert (I2 : 0 <= IZR i <= 400) by (split; apply IZR_le; lia).
  assert (E : env_ok [jd; fZ i] [R64 jd; R64 (fZ i)] [given 4000000; given 400]).
  { constructor; [apply given_ok; [assumption|rewrite V; apply Rabs_le; lra]|]. constructor; [apply given_ok; [assumption|rewrite Vi; apply Rabs_le; lra]|constructor]. }
  rewrite plus_IZR, minus_IZR, <- V, <- Vi. clear I1 I2. revert E. unfold row_moment. generalize (fZ i). intros f E.
  assert (H : ok (fsub (fsub (fadd jd f) (fdiv (fZ 8) (fZ 24))) (fZ 2451545)) /\ Rabs (R64 (fsub (fsub (fadd jd f) (fdiv (fZ 8) (fZ 24))) (fZ 2451545)) - (R64 jd - 2451545 + R64 f - / 3)) <= IZR 2535301200456458000000 * U) by (formula [jd; f] E).
  done_with H.
Qed.
Lemma row_ok jd i n B S tail kap : ok jd -> R64 jd = IZR n -> (0 <= i <= 400)%Z -> (Z.abs (n - 2451545) <= 999000)%Z -> 0 <= B <= 27.39 -> Rabs (IZR (n - 2451545)) <= 36525 * B - 500 -> B <= 10 * IZR S - 0.01 ->
  IZR (etail S 50) / 10000000000 <= tail -> tail <= 2.6e-5 ->
  2.2e-6 + 4.1e-6 * B + 1.4746e-6 * B ^ 2 + 4.8482e-6 * (0.00009344 * B ^ 3 + 0.00001882 * B ^ 4) + (4.32e-10 * B ^ 3 + 1.124e-10 * B ^ 4 + 9e-14 * B ^ 5) <= kap -> kap <= 0.002 ->
  exists dt x s, row_value fsin fcos ftan fasin fatan2 XL0 jd i = Some x /\ ok x /\ Rabs (R64 x) <= 0.0175 /\ dt_T (row_moment jd i) = Some dt /\ s = 36525 * R64 (fdiv (fadd (row_moment jd i) dt) (fZ 36525)) - R64 dt /\ Rabs (s - (IZR (n - 2451545 + i) - / 3)) <= 3e-9 /\
    let T := (s + R64 dt) / 36525 in let th := sidereal_time s (R64 dt) + equinoxes T - 2 * PI * (s + R64 x) in
    Rabs (apparent westward T th) <= tail + kap + 0.0172022 * Rabs (R64 dt) + 4e-9 /\ 0.88 <= apparent southward T th.
Proof.
  intros O V Hi Hn B0 Bn BS TL TL2 KK K2. destruct (moment_near jd i n O V Hi Hn) as [Om Dm]. unfold row_value. set (D := row_moment jd i) in *. clearbody D. clear O V.
  assert (I2 : 0 <= IZR i <= 400) by (split; apply IZR_le; lia). rewrite plus_IZR in *. set (N := IZR (n - 2451545)) in *.
  assert (BN : Rabs N <= 999000) by (unfold N; rewrite <- abs_IZR; apply IZR_le; exact Hn). clearbody N.
  assert (BD : Rabs (R64 D) <= 1000000). { revert Dm. decs. intros Dm. apply Rabs_le_inv in Dm. apply Rabs_le_inv in BN. apply Rabs_le. lra. }
  assert (BDB : Rabs (R64 D) <= 36525 * B - 99). { revert Dm. decs. intros Dm. apply Rabs_le_inv in Dm. apply Rabs_le_inv in Bn. apply Rabs_le. lra. }
  destruct (day_dt D Om BD) as (dt & Ed & Od & Bd). rewrite Ed. cbn [obind].
  destruct (centuries fsin fcos Gs Gc D dt Om Od ltac:(lra) ltac:(revert Bd; decs; lra)) as [Ot Dt]. set (t := fdiv (fadd D dt) (fZ 36525)) in *. assert (Et : t = fdiv (fadd D dt) (fZ 36525)) by reflexivity. clearbody t.
  assert (Bt : Rabs (R64 t) <= B). { revert Dt Bd. decs. intros Dt Bd. apply Rabs_le_inv in Dt. apply Rabs_le_inv in Bd. apply Rabs_le_inv in BDB. apply Rabs_le. lra. }
  assert (Bt27 : Rabs (R64 t) <= 27.5) by (revert B0; decs; lra). assert (BtS : Rabs (R64 t) <= 10 * IZR S) by (revert BS; decs; lra).
  destruct (et_ok t S tail Ot Bt27 BtS TL TL2) as (x & Ex & Ox & Bx & W & M). exists dt, x, (36525 * R64 t - R64 dt). split; [exact Ex|]. split; [exact Ox|]. split; [exact Bx|]. split; [reflexivity|]. split; [now rewrite Et|]. split.
  { replace (36525 * R64 t - R64 dt - (N + IZR i - / 3)) with (36525 * (R64 t - (R64 D + R64 dt) / 36525) + (R64 D - (N + IZR i - / 3))) by field.
    apply Rle_trans with (36525 * 2e-14 + 2e-9); [|decs; lra]. apply sum_le; [|exact Dm]. apply prod_le; [rewrite Rabs_pos_eq; lra|exact Dt]. }
  cbv zeta. replace ((36525 * R64 t - R64 dt + R64 dt) / 36525) with (R64 t) by field. clear TL.
  pose proof (drift_le B (R64 t) (R64 dt) ltac:(lra) Bt) as DL. pose proof (more_terms B (R64 t) ltac:(lra) Bt) as MT.
  set (th0 := mean_sun5 (R64 t) + equinoxes (R64 t) - 2 * PI * R64 x) in *. set (th := sidereal_time _ _ + _ - _).
  assert (DT : Rabs (th - th0) <= kap + 0.0172022 * Rabs (R64 dt)).
  { replace (th - th0) with (drift (R64 t) (R64 dt) - (mean_sun5 (R64 t) - (mean_sun (R64 t) - arcsec 20.5))) by (unfold th, th0, drift; ring). apply Rle_trans with (1 := diff_le _ _ _ _ DL MT). lra. }
  unfold apparent in *. destruct (lip_th (sun_of_date (R64 t) + main_nut (R64 t)) (sun_lat (R64 t)) (obliquity (R64 t) + main_nut_obl (R64 t)) th0 th) as [LW LS].
  set (w := westward _ _ _ th) in *. set (w0 := westward _ _ _ th0) in *. set (m := southward _ _ _ th) in *. set (m0 := southward _ _ _ th0) in *. clearbody w w0 m m0. clearbody th th0. clear DL MT. split.
  - replace w with ((w - w0) + w0) by ring. apply Rle_trans with (1 := sum_le _ _ _ _ LW W). lra.
  - assert (X : Rabs (m - m0) <= 0.008) by (revert LS DT K2 Bd; decs; lra). apply Rabs_le_inv in X. revert X M. decs. lra.
Qed.

(** ** C143 *)
(** pty_zty is the hour angle, in turns, that the apparent Sun has when the sidereal time is the longitude of the mean Sun with
    the nutation in right ascension added: at that sidereal time less the angle the Sun is on the meridian *)
Theorem C143_equation_of_time t : ok t -> Rabs (R64 t) <= 27.5 ->
  exists x, pty_zty fsin fcos ftan fasin fatan2 XL0 t = Some x /\ ok x /\ Rabs (R64 x) <= 0.0175 /\
    let th := mean_sun5 (R64 t) + equinoxes (R64 t) - 2 * PI * R64 x in
    0.89 <= apparent southward (R64 t) th /\ Rabs (apparent westward (R64 t) th) <= 2.5e-5 /\
    (Rabs (R64 t) <= 10 -> Rabs (apparent westward (R64 t) th) <= 1.64e-5).
Proof.
  intros Ot Bt. destruct (et_ok t 3 2.49945e-5 Ot Bt) as (x & E & O & Bx & W & M).
  - revert Bt. decs. lra.
  - vm_compute (etail 3 50). decs. lra.
  - decs. lra.
  - exists x. split; [exact E|]. split; [exact O|]. split; [exact Bx|]. split; [exact M|]. split; [revert W; decs; lra|]. intros B10.
    destruct (et_ok t 1 1.63655e-5 Ot Bt) as (x' & E' & _ & _ & W' & _); [lra|vm_compute (etail 1 50); decs; lra|decs; lra|].
    rewrite E in E'. injection E' as <-. revert W'. decs. lra.
Qed.
(** the table of the year y: row i is for 12h Beijing time (4h UT) of the day i days after 1 January; the clock reading plus the
    number of the row is the hour angle of the Sun from the zero meridian *)
Theorem C143_table y n : day_number n (mkc y 1 1) -> (-4716 < y <= 5000)%Z -> (Z.abs (n - 2451545) <= 999000)%Z ->
  exists l, shengjiang3 fsin fcos ftan fasin fatan2 XL0 y = Some l /\ List.length l = 368%nat /\
  forall i, (i < 368)%nat -> exists dt x s, nth_error l i = Some (Some x) /\ ok x /\ Rabs (R64 x) <= 0.0175 /\ Rabs (s - (IZR (n - 2451545 + Z.of_nat i) - 8 / 24)) <= 3e-9 /\
    (exists m, ok m /\ Rabs (R64 m - s) <= 5e-9 /\ dt_T m = Some dt) /\
    let T := (s + R64 dt) / 36525 in let th := sidereal_time s (R64 dt) + equinoxes T - 2 * PI * (s + R64 x) in
    0.88 <= apparent southward T th /\ Rabs (apparent westward T th) <= 0.0015 + 0.01721 * Rabs (R64 dt) /\
    (Rabs (IZR (n - 2451545)) <= 36525 -> Rabs (apparent westward T th) <= 2.44e-5 + 0.01721 * Rabs (R64 dt)).
Proof.
  intros DN Y1 Hn. destruct (CalProps.C01_toJD_counts_days n (mkc y 1 1) DN) as (jd & Ej & Oj & Vj); cbn [cy cm cd] in *; [lia|lia|].
  unfold shengjiang3. rewrite Ej. cbn [obind]. eexists. split; [reflexivity|]. split; [rewrite map_length, seq_length; reflexivity|].
  intros i Hi. assert (HiZ : (0 <= Z.of_nat i <= 400)%Z) by lia. rewrite nth_error_map, nth_error_seq_lt by exact Hi. cbn [option_map Nat.add].
  assert (BN : Rabs (IZR (n - 2451545)) <= 999000) by (rewrite <- abs_IZR; apply IZR_le; exact Hn).
  destruct (row_ok jd (Z.of_nat i) n 27.39 3 2.49945e-5 1.46e-3 Oj Vj HiZ Hn) as (dt & x & s & E & Ox & Bx & Ed & Es & Ds & W & M); try (cbn [pow]; revert BN; decs; lra).
  { vm_compute (etail 3 50). decs. lra. }
  exists dt, x, s. rewrite E. split; [reflexivity|]. split; [exact Ox|]. split; [exact Bx|]. replace (8 / 24) with (/ 3) by field. split; [exact Ds|]. split.
  { exists (row_moment jd (Z.of_nat i)). destruct (moment_near jd (Z.of_nat i) n Oj Vj HiZ Hn) as [Om Dm]. split; [exact Om|]. split; [|exact Ed].
    set (c := IZR _ - / 3) in *. clearbody c. replace (R64 (row_moment jd (Z.of_nat i)) - s) with ((R64 (row_moment jd (Z.of_nat i)) - c) - (s - c)) by ring. apply Rle_trans with (1 := diff_le _ _ _ _ Dm Ds). decs. lra. }
  cbv zeta. pose proof (Rabs_pos (R64 dt)) as P. split; [exact M|]. split; [revert W; decs; lra|]. intros B1.
  destruct (row_ok jd (Z.of_nat i) n 1.02 1 1.63655e-5 7.95e-6 Oj Vj HiZ Hn) as (dt' & x' & s' & E' & _ & _ & Ed' & Es' & _ & W' & _); try (cbn [pow]; revert B1; decs; lra).
  { vm_compute (etail 1 50). decs. lra. }
  rewrite E in E'. injection E' as <-. rewrite Ed in Ed'. injection Ed' as <-. rewrite <- Es in Es'. subst s'. revert W'. decs. lra.
Qed.
End Lib.

(** the hypotheses can be met: those of the library and the tables by C101_example, with the year 2000 *)
Example C143_example : exists fsin fcos ftan fasin fatan2 XL0 rest, good_lib fsin sin /\ good_lib fcos cos /\ close_on ftan tan /\ close_atan2 fatan2 /\
  nth_error XL0 0 = Some (memory (earth_table rest)) /\ List.length rest = 1518%nat /\ day_number 2451545 (mkc 2000 1 1) /\
  (exists l, shengjiang3 fsin fcos ftan fasin fatan2 XL0 2000 = Some l /\ List.length l = 368%nat) /\
  exists x, pty_zty fsin fcos ftan fasin fatan2 XL0 (fZ 1) = Some x /\ ok x.
Proof.
  destruct C101_example as (fsin & fcos & ftan & fasin & facos & fatan2 & XL0 & rest & L & fa & jd & A1 & A2 & A3 & A4 & _ & A6 & A7 & A8 & _).
  assert (DN : day_number 2451545 (mkc 2000 1 1)) by (apply CalZ2.day_number_iff; split; [repeat split; try (cbn; lia); vm_compute; congruence|vm_compute; reflexivity]).
  exists fsin, fcos, ftan, fasin, fatan2, XL0, rest. repeat (split; [assumption|]). split.
  - destruct (C143_table fsin fcos ftan fasin fatan2 A1 A2 A3 A6 XL0 rest A7 A8 2000 2451545 DN ltac:(lia) ltac:(lia)) as (l & E & H & _). exists l. tauto.
  - destruct (fZ_ok 1 ltac:(lia)) as [O V]. destruct (C143_equation_of_time fsin fcos ftan fasin fatan2 A1 A2 A3 A6 XL0 rest A7 A8 (fZ 1) O) as (x & E & H & _); [rewrite V, Rabs_pos_eq; decs; lra|]. exists x. tauto.
Qed.
Print Assumptions C143_equation_of_time.
Print Assumptions C143_table.
