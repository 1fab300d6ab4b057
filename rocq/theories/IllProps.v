(** C44: moonIll. *)
From Coq Require Import ZArith Reals Lia Lra Bool.
From Coq Require Import Floats.SpecFloat.
From Flocq Require Import Core IEEE754.BinarySingleNaN.
From Verif Require Import F64 F64R F64B F64E AngModel AngProps PiBound IllModel IllSpec.
Open Scope R_scope.

Lemma dpi_bd : bd 2 dpi.
Proof. split; [apply dpi_ok|]. pose proof dpi_range. change (bpow radix2 2) with 4. apply Rabs_le. lra. Qed.
Lemma dm_bd : bd 2 dm.
Proof. apply (bd_divZ 2 2); try lia. exact dpi_bd. Qed.

Ltac lits := match goal with
  | |- bd ?k (lit _ _) => apply bd_lit; lia
  | |- bd ?k (fZ _) => apply bd_Z; lia
  end.

Section Lib.
Variables fsin fcos : f64 -> f64.
(** sin and cos of a finite number are finite and between -1 and 1 *)
Hypothesis Hsin : forall x, ok x -> ok (fsin x) /\ Rabs (R64 (fsin x)) <= 1.
Hypothesis Hcos : forall x, ok x -> ok (fcos x) /\ Rabs (R64 (fcos x)) <= 1.

Lemma sin_bd k x : bd k x -> bd 0 (fsin x).
Proof. intros [O _]. exact (Hsin x O). Qed.

Lemma ill_D_bd t t2 t3 t4 : bd 200 t -> bd 400 t2 -> bd 600 t3 -> bd 800 t4 -> bd 807 (ill_D t t2 t3 t4).
Proof.
  intros A B C D. unfold ill_D. apply (bd_mul 807 805 2); try lia; [|exact dm_bd].
  apply (bd_sub 805 804 800); try lia; [|apply (bd_divZ 800 800); [lia|lia|lia|exact D]].
  apply (bd_add 804 700 600); try lia; [|apply (bd_divZ 600 600); [lia|lia|lia|exact C]].
  apply (bd_sub 700 300 400); try lia; [|apply (bd_mul 400 0 400); try lia; [lits|exact B]].
  apply (bd_add 300 9 250); try lia; [lits|]. apply (bd_mul 250 19 200); try lia; [lits|exact A].
Qed.
Lemma ill_m_bd t t2 t3 t4 : bd 200 t -> bd 400 t2 -> bd 600 t3 -> bd 800 t4 -> bd 807 (ill_m t t2 t3 t4).
Proof.
  intros A B C D. unfold ill_m. apply (bd_mul 807 805 2); try lia; [|exact dm_bd].
  apply (bd_sub 805 804 800); try lia; [|apply (bd_divZ 800 800); [lia|lia|lia|exact D]].
  apply (bd_add 804 700 600); try lia; [|apply (bd_divZ 600 600); [lia|lia|lia|exact C]].
  apply (bd_add 700 300 400); try lia; [|apply (bd_mul 400 0 400); try lia; [lits|exact B]].
  apply (bd_add 300 9 250); try lia; [lits|]. apply (bd_mul 250 19 200); try lia; [lits|exact A].
Qed.
Lemma ill_M_bd t t2 t3 : bd 200 t -> bd 400 t2 -> bd 600 t3 -> bd 807 (ill_M t t2 t3).
Proof.
  intros A B C. unfold ill_M. apply (bd_mul 807 804 2); try lia; [|exact dm_bd].
  apply (bd_add 804 700 600); try lia; [|apply (bd_divZ 600 600); [lia|lia|lia|exact C]].
  apply (bd_sub 700 300 400); try lia; [|apply (bd_mul 400 0 400); try lia; [lits|exact B]].
  apply (bd_add 300 9 250); try lia; [lits|]. apply (bd_mul 250 19 200); try lia; [lits|exact A].
Qed.
Lemma ill_a_bd D M m : bd 807 D -> bd 807 M -> bd 807 m -> bd 900 (ill_a fsin D M m).
Proof.
  intros A B C. unfold ill_a.
  assert (D2 : bd 808 (fmul D (fZ 2))) by (apply (bd_mul 808 807 1); try lia; [exact A|lits]).
  assert (M2 : bd 808 (fmul m (fZ 2))) by (apply (bd_mul 808 807 1); try lia; [exact C|lits]).
  assert (DM : bd 810 (fsub (fmul D (fZ 2)) m)) by (apply (bd_sub 810 808 807); try lia; assumption).
  apply (bd_add 900 808 30); try lia; [apply (bd_sub 808 2 807); try lia; [exact dpi_bd|exact A]|].
  apply (bd_mul 30 20 2); try lia; [|exact dm_bd].
  apply (bd_sub 20 19 3); try lia; [|apply (bd_mul 3 3 0); try lia; [lits|exact (sin_bd _ _ A)]].
  apply (bd_sub 19 18 3); try lia; [|apply (bd_mul 3 3 0); try lia; [lits|exact (sin_bd _ _ M2)]].
  apply (bd_sub 18 17 3); try lia; [|apply (bd_mul 3 3 0); try lia; [lits|exact (sin_bd _ _ D2)]].
  apply (bd_sub 17 16 3); try lia; [|apply (bd_mul 3 3 0); try lia; [lits|exact (sin_bd _ _ DM)]].
  apply (bd_add 16 3 3); try lia; (apply (bd_mul 3 3 0); try lia).
  - apply bd_opp. lits.
  - exact (sin_bd _ _ C).
  - lits.
  - exact (sin_bd _ _ B).
Qed.

Lemma half_cos a : ok a -> ok (fdiv (fadd (fZ 1) (fcos a)) (fZ 2)) /\ 0 <= R64 (fdiv (fadd (fZ 1) (fcos a)) (fZ 2)) <= 1.
Proof.
  intros A. destruct (Hcos a A) as [OC C]. apply Rabs_le_inv in C. destruct (fZ_ok 1 ltac:(lia)) as [O1 R1]. destruct (fZ_ok 2 ltac:(lia)) as [O2 R2].
  assert (P : 4 <= bpow radix2 1000) by (change 4 with (bpow radix2 2); apply bpow_le; lia).
  destruct (fadd_ok _ _ O1 OC) as [OS ES]; [rewrite R1; apply Rabs_le; lra|].
  assert (BS : 0 <= R64 (fadd (fZ 1) (fcos a)) <= 2).
  { rewrite ES, R1. split; [apply rnd_ge_repr; [apply (repr_IZR 0); lia|lra]|apply rnd_le_repr; [apply (repr_IZR 2); lia|lra]]. }
  destruct (fdiv_ok _ _ OS O2) as [OD ED]; [rewrite R2; lra|rewrite R2; apply Rabs_le; lra|].
  split; [exact OD|]. rewrite ED, R2. split; [apply rnd_ge_repr; [apply (repr_IZR 0); lia|lra]|apply rnd_le_repr; [apply (repr_IZR 1); lia|lra]].
Qed.

(** C44: for every time up to 2^200 centuries either way the answer is a number from 0 to 1.
    The full claim (all times) is false, see C44_far_times_refuted. *)
Theorem C44_between_0_and_1_partial t : ok t -> Rabs (R64 t) <= bpow radix2 200 ->
  ok (moonIll fsin fcos t) /\ 0 <= R64 (moonIll fsin fcos t) <= 1.
Proof.
  intros O B. assert (T : bd 200 t) by (split; assumption). unfold moonIll.
  assert (T2 : bd 400 (fmul t t)) by (apply (bd_mul 400 200 200); try lia; assumption).
  assert (T3 : bd 600 (fmul (fmul t t) t)) by (apply (bd_mul 600 400 200); try lia; assumption).
  assert (T4 : bd 800 (fmul (fmul (fmul t t) t) t)) by (apply (bd_mul 800 600 200); try lia; assumption).
  apply half_cos. apply (ill_a_bd _ _ _ (ill_D_bd _ _ _ _ T T2 T3 T4) (ill_M_bd _ _ _ T T2 T3) (ill_m_bd _ _ _ _ T T2 T3 T4)).
Qed.
End Lib.

(** the bound is there for a reason: with t = 2^300 the fourth power overflows and the answer is not a number,
    whatever sin and cos do, so long as sin(-infinity) and cos(nan) are nan *)
Theorem C44_far_times_refuted : exists t, ok t /\ forall fsin fcos,
  fsin (S754_infinity true) = S754_nan -> fcos S754_nan = S754_nan -> moonIll fsin fcos t = S754_nan.
Proof.
  exists (S754_finite false (2 ^ 52) 248). split; [split; reflexivity|]. intros fsin fcos S C. unfold moonIll.
  set (t := S754_finite false (2 ^ 52) 248).
  assert (E : ill_D t (fmul t t) (fmul (fmul t t) t) (fmul (fmul (fmul t t) t) t) = S754_infinity true) by (vm_compute; reflexivity).
  rewrite E. unfold ill_a. rewrite S.
  assert (N1 : forall x, fsub x (fmul (lit 110 1000) S754_nan) = S754_nan) by (intros [ | | |]; reflexivity).
  rewrite N1. assert (N2 : forall x, fadd x (fmul S754_nan dm) = S754_nan) by (intros [ | | |]; reflexivity).
  rewrite N2, C. reflexivity.
Qed.

(** ** distance from the published formula *)
Lemma near_eq x r r' e m : near x r e m -> r = r' -> near x r' e m.
Proof. intros H ->. exact H. Qed.
Lemma dpi_near : near dpi PI (2e-16) 3.2.
Proof.
  pose proof PI_bounds as P. destruct dpi_ok as [O E]. split; [exact O|].
  rewrite E. change (-51)%Z with (- (51))%Z. rewrite bpow_opp. change (bpow radix2 51) with 2251799813685248.
  split; apply Rabs_le; lra.
Qed.
Ltac num := unfold u53, tiny, big; lra.
Lemma dm_near : near dm (PI / 180) 4e-18 0.018.
Proof. apply (near_divZ _ _ _ _ 180 _ _ dpi_near); [lia|num..]. Qed.

Section Times.
Variable t : f64.
Hypothesis T : near t (R64 t) 0 100.
Let r := R64 t.
Lemma t2_near : near (fmul t t) (r ^ 2) 2e-12 10000.
Proof. apply near_eq with (r * r); [|ring]. apply (near_mul _ _ _ _ _ _ _ _ _ _ T T); num. Qed.
Lemma t3_near : near (fmul (fmul t t) t) (r ^ 3) 4e-10 1000000.
Proof. apply near_eq with (r ^ 2 * r); [|ring]. apply (near_mul _ _ _ _ _ _ _ _ _ _ t2_near T); num. Qed.
Lemma t4_near : near (fmul (fmul (fmul t t) t) t) (r ^ 4) 6e-8 100000000.
Proof. apply near_eq with (r ^ 3 * r); [|ring]. apply (near_mul _ _ _ _ _ _ _ _ _ _ t3_near T); num. Qed.

Lemma D_near : near (ill_D t (fmul t t) (fmul (fmul t t) t) (fmul (fmul (fmul t t) t) t)) (elongation r) 1e-9 802000.
Proof.
  unfold ill_D, elongation, deg. refine (near_mul _ _ _ _ 3.5e-8 4e-18 44537101 0.018 _ _ _ dm_near _ _ _); [|num..].
  refine (near_sub _ _ _ _ 2.9e-8 2e-15 44537100 1 _ _ _ _ _ _ _); [| |num..].
  2:{ apply (near_divZ _ _ _ _ 113065000 _ _ t4_near); [lia|num..]. }
  refine (near_add _ _ _ _ 2.3e-8 2e-15 44537098 2 _ _ _ _ _ _ _); [| |num..].
  2:{ apply (near_divZ _ _ _ _ 545868 _ _ t3_near); [lia|num..]. }
  refine (near_sub _ _ _ _ 1.7e-8 6e-12 44527098 10000 _ _ _ _ _ _ _); [| |num..].
  2:{ refine (near_mul _ _ _ _ 2e-16 2e-12 1 10000 _ _ _ t2_near _ _ _); [|num..]. eapply near_eq; [apply (near_lit 16300 10000000 1); [lia..|num]|lra]. }
  refine (near_add _ _ _ _ 4e-14 1.1e-8 298 44526800 _ _ _ _ _ _ _); [| |num..].
  - eapply near_eq; [apply (near_lit 2978502042 10000000 298); [lia..|num]|lra].
  - refine (near_mul _ _ _ _ 5e-11 0 445268 100 _ _ _ T _ _ _); [|num..]. eapply near_eq; [apply (near_lit 4452671115168 10000000 445268); [lia..|num]|lra].
Qed.
Lemma m_near : near (ill_m t (fmul t t) (fmul (fmul t t) t) (fmul (fmul (fmul t t) t) t)) (moon_anomaly r) 1.1e-9 860000.
Proof.
  unfold ill_m, moon_anomaly, deg. refine (near_mul _ _ _ _ 3.9e-8 4e-18 47740000 0.018 _ _ _ dm_near _ _ _); [|num..].
  refine (near_sub _ _ _ _ 3.3e-8 2e-14 47732000 7 _ _ _ _ _ _ _); [| |num..].
  2:{ apply (near_divZ _ _ _ _ 14712000 _ _ t4_near); [lia|num..]. }
  refine (near_add _ _ _ _ 2.7e-8 2e-14 47731000 15 _ _ _ _ _ _ _); [| |num..].
  2:{ apply (near_divZ _ _ _ _ 69699 _ _ t3_near); [lia|num..]. }
  refine (near_add _ _ _ _ 2.1e-8 6e-12 47720100 10000 _ _ _ _ _ _ _); [| |num..].
  2:{ refine (near_mul _ _ _ _ 2e-16 2e-12 1 10000 _ _ _ t2_near _ _ _); [|num..]. eapply near_eq; [apply (near_lit 89970 10000000 1); [lia..|num]|lra]. }
  refine (near_add _ _ _ _ 4e-14 1.5e-8 135 47719900 _ _ _ _ _ _ _); [| |num..].
  - eapply near_eq; [apply (near_lit 1349634114 10000000 135); [lia..|num]|lra].
  - refine (near_mul _ _ _ _ 6e-11 0 477199 100 _ _ _ T _ _ _); [|num..]. eapply near_eq; [apply (near_lit 4771988676313 10000000 477199); [lia..|num]|lra].
Qed.
Lemma M_near : near (ill_M t (fmul t t) (fmul (fmul t t) t)) (sun_anomaly r) 1e-10 70000.
Proof.
  unfold ill_M, sun_anomaly, deg. refine (near_mul _ _ _ _ 4e-9 4e-18 3610500 0.018 _ _ _ dm_near _ _ _); [|num..].
  refine (near_add _ _ _ _ 3e-9 2e-14 3610400 1 _ _ _ _ _ _ _); [| |num..].
  2:{ apply (near_divZ _ _ _ _ 24490000 _ _ t3_near); [lia|num..]. }
  refine (near_sub _ _ _ _ 2e-9 6e-12 3600400 10000 _ _ _ _ _ _ _); [| |num..].
  2:{ refine (near_mul _ _ _ _ 2e-16 2e-12 1 10000 _ _ _ t2_near _ _ _); [|num..]. eapply near_eq; [apply (near_lit 1536 10000000 1); [lia..|num]|lra]. }
  refine (near_add _ _ _ _ 4e-14 1e-9 358 3600000 _ _ _ _ _ _ _); [| |num..].
  - eapply near_eq; [apply (near_lit 3575291092 10000000 358); [lia..|num]|lra].
  - refine (near_mul _ _ _ _ 5e-12 0 36000 100 _ _ _ T _ _ _); [|num..]. eapply near_eq; [apply (near_lit 359990502909 10000000 36000); [lia..|num]|lra].
Qed.

Variable fsin fcos : f64 -> f64.
Hypothesis Gs : good_lib fsin sin.
Hypothesis Gc : good_lib fcos cos.

Lemma term n d c e x s k : (Z.abs n <= 2 ^ 53)%Z -> (0 < d <= 2 ^ 53)%Z -> (Z.abs n <= c * d)%Z -> (1 <= c <= 10)%Z -> near x s e k -> 0 <= e <= 1 ->
  near (fmul (lit n d) (fsin x)) (IZR n / IZR d * sin s) (IZR c * e + 1e-13) (IZR c).
Proof.
  intros N D C C10 X E. assert (IZR c <= 10) by (apply IZR_le; lia). assert (1 <= IZR c) by (apply IZR_le; lia).
  refine (near_mul _ _ _ _ 2e-15 (e + 2 * u53) (IZR c) 1 _ _ _ (near_sin _ _ _ _ _ Gs X) _ _ _).
  - apply (near_lit n d c); [lia..|]. num.
  - lra.
  - assert (IZR c * e <= 10) by nra. unfold u53, tiny. nra.
  - unfold u53, big. nra.
Qed.

Lemma a_near : near (ill_a fsin (ill_D t (fmul t t) (fmul (fmul t t) t) (fmul (fmul (fmul t t) t) t)) (ill_M t (fmul t t) (fmul (fmul t t) t))
                       (ill_m t (fmul t t) (fmul (fmul t t) t) (fmul (fmul (fmul t t) t) t))) (phase_angle r) 1.8e-9 900000.
Proof.
  pose proof D_near as HD. pose proof M_near as HM. pose proof m_near as Hm. unfold ill_a, phase_angle.
  set (fD := ill_D _ _ _ _) in *. set (fM := ill_M _ _ _) in *. set (fm := ill_m _ _ _ _) in *.
  set (D := elongation r) in *. set (M := sun_anomaly r) in *. set (m' := moon_anomaly r) in *. clearbody fD fM fm D M m'. cbv zeta.
  pose proof (near_Z 2 2 ltac:(lia) ltac:(lia)) as H2.
  assert (HD2 : near (fmul fD (fZ 2)) (2 * D) 2.2e-9 1604000).
  { apply near_eq with (D * 2); [|ring]. apply (near_mul _ _ _ _ _ _ _ _ _ _ HD H2); num. }
  assert (Hm2 : near (fmul fm (fZ 2)) (2 * m') 2.5e-9 1720000).
  { apply near_eq with (m' * 2); [|ring]. apply (near_mul _ _ _ _ _ _ _ _ _ _ Hm H2); num. }
  assert (HDm : near (fsub (fmul fD (fZ 2)) fm) (2 * D - m') 3.6e-9 2464000) by (apply (near_sub _ _ _ _ _ _ _ _ _ _ HD2 Hm); num).
  unfold deg. match goal with |- near _ (?p - ?q - ?s * ?d) _ _ => apply near_eq with ((p - q) + (- s) * d); [|ring] end.
  refine (near_add _ _ _ _ 1.15e-9 4.2e-10 802010 10 _ _ _ _ _ _ _); [| |num..].
  { apply (near_sub _ _ _ _ _ _ _ _ _ _ dpi_near HD); num. }
  refine (near_mul _ _ _ _ 2.25e-8 4e-18 15 0.018 _ _ _ dm_near _ _ _); [|num..].
  pose proof (term 6289 1000 7 _ _ _ _ ltac:(lia) ltac:(lia) ltac:(lia) ltac:(lia) Hm ltac:(lra)) as K1.
  pose proof (term 2100 1000 3 _ _ _ _ ltac:(lia) ltac:(lia) ltac:(lia) ltac:(lia) HM ltac:(lra)) as K2.
  pose proof (term 1274 1000 2 _ _ _ _ ltac:(lia) ltac:(lia) ltac:(lia) ltac:(lia) HDm ltac:(lra)) as K3.
  pose proof (term 658 1000 1 _ _ _ _ ltac:(lia) ltac:(lia) ltac:(lia) ltac:(lia) HD2 ltac:(lra)) as K4.
  pose proof (term 214 1000 1 _ _ _ _ ltac:(lia) ltac:(lia) ltac:(lia) ltac:(lia) Hm2 ltac:(lra)) as K5.
  pose proof (term 110 1000 1 _ _ _ _ ltac:(lia) ltac:(lia) ltac:(lia) ltac:(lia) HD ltac:(lra)) as K6.
  assert (K1' : near (fmul (fopp (lit 6289 1000)) (fsin fm)) (- (IZR 6289 / IZR 1000 * sin m')) (7 * 1.1e-9 + 1e-13) 7).
  { apply near_eq with (- (IZR 6289 / IZR 1000) * sin m'); [|ring].
    refine (near_mul _ _ _ _ 2e-15 (1.1e-9 + 2 * u53) 7 1 _ _ _ (near_sin _ _ _ _ _ Gs Hm) _ _ _); [|num..].
    apply near_opp, (near_lit 6289 1000 7); [lia..|num]. }
  eapply near_eq.
  - refine (near_sub _ _ _ _ 2.1e-8 _ 14 _ _ _ _ K6 _ _ _); [|num..].
    refine (near_sub _ _ _ _ 1.8e-8 _ 13 _ _ _ _ K5 _ _ _); [|num..].
    refine (near_sub _ _ _ _ 1.55e-8 _ 12 _ _ _ _ K4 _ _ _); [|num..].
    refine (near_sub _ _ _ _ 8.2e-9 _ 10 _ _ _ _ K3 _ _ _); [|num..].
    refine (near_add _ _ _ _ _ _ _ _ _ _ K1' K2 _ _ _); num.
  - lra.
Qed.
Lemma ill_near : near (moonIll fsin fcos t) (illuminated r) 1e-9 1.
Proof.
  unfold moonIll, illuminated. apply (near_divZ _ _ 1.9e-9 2 2); [|lia|num..].
  refine (near_add _ _ _ _ _ _ _ _ _ _ (near_Z 1 1 ltac:(lia) ltac:(lia)) (near_cos _ _ _ _ _ Gc a_near) _ _ _); num.
Qed.
End Times.

(** C44: within ten thousand years of J2000 the answer is the published illuminated fraction to within 1e-9 *)
Theorem C44_published_fraction fsin fcos t : good_lib fsin sin -> good_lib fcos cos -> ok t -> Rabs (R64 t) <= 100 ->
  ok (moonIll fsin fcos t) /\ Rabs (R64 (moonIll fsin fcos t) - illuminated (R64 t)) <= 1e-9.
Proof.
  intros S C O B. assert (T : near t (R64 t) 0 100). { split; [exact O|split; [|exact B]]. unfold Rminus. rewrite Rplus_opp_r, Rabs_R0. lra. }
  destruct (ill_near t T fsin fcos S C) as (A1 & A2 & _). split; assumption.
Qed.
(** the hypotheses on the library can be met: round the real sine and cosine *)
Definition round64 (x : R) : f64 :=
  B2SF (BinarySingleNaN.binary_normalize 53 1024 Hprec53 Hmax1024 mode_NE (Ztrunc (scaled_mantissa radix2 (SpecFloat.fexp 53 1024) (rnd x))) (cexp radix2 (SpecFloat.fexp 53 1024) (rnd x)) false).
Lemma round64_ok x : Rabs x <= 1 -> ok (round64 x) /\ R64 (round64 x) = rnd x.
Proof.
  intros B. unfold round64.
  set (m := Ztrunc _). set (e := cexp _ _ _).
  assert (F : F2R (Float radix2 m e) = rnd x).
  { symmetry. exact (rnd_is_repr x). }
  pose proof (binary_normalize_correct 53 1024 Hprec53 Hmax1024 mode_NE m e false) as H. cbv zeta in H. rewrite F, !rnd_eq in H.
  rewrite (rnd_repr _ (rnd_is_repr x)) in H. rewrite Rlt_bool_true in H.
  - destruct H as (A & C & _). split; [apply ok_of_B, C|]. rewrite R64_B. exact A.
  - apply (rnd_bound x 0); [lia|exact B].
Qed.
Lemma round64_good g : (forall x, Rabs (g x) <= 1) -> good_lib (fun x => round64 (g (R64 x))) g.
Proof.
  intros G x _. destruct (round64_ok _ (G (R64 x))) as [O E]. split; [exact O|]. rewrite E. split.
  - apply (rnd_small _ 0); [lia|apply G].
  - pose proof (rnd_rel (g (R64 x))) as Q. pose proof (G (R64 x)) as G'. unfold u53, tiny in *. lra.
Qed.
Example good_lib_exists : exists fsin fcos t, good_lib fsin sin /\ good_lib fcos cos /\ ok t /\ Rabs (R64 t) <= 100 /\ R64 t <> 0.
Proof.
  exists (fun x => round64 (sin (R64 x))), (fun x => round64 (cos (R64 x))), (fZ 1).
  split; [apply round64_good; intros x; apply Rabs_le, SIN_bound|]. split; [apply round64_good; intros x; apply Rabs_le, COS_bound|].
  destruct (fZ_ok 1 ltac:(lia)) as [O E]. rewrite E. split; [exact O|]. split; [rewrite Rabs_pos_eq; lra|lra].
Qed.
Print Assumptions C44_between_0_and_1_partial.
Print Assumptions C44_far_times_refuted.
Print Assumptions C44_published_fraction.
