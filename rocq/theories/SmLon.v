(** The longitudes in doubles: the formula around the sums. *)
From Coq Require Import ZArith Reals Lia Lra Bool List.
From Coq Require Import Floats.SpecFloat.
From Flocq Require Import Core IEEE754.BinarySingleNaN Plus_error.
From Verif Require Import F64 F64R F64T F64E SsqModel AngModel AngProps PiBound ErrExpr SmTab SerModel SerSpec FormModel FormSpec FormProps WaveF SmModel SmSpec SmF.
Import ListNotations.
Open Scope R_scope.

Lemma near_B x r e m N M : near x r e m -> e <= IZR N * U -> m <= IZR M * U -> nearB x r (mkB (- M) M N).
Proof.
  intros (O & A & B) HE HM. split; [exact O|]. cbn [lo hi er]. split; [|lra]. rewrite opp_IZR. apply Rabs_le_inv in B. lra.
Qed.
Lemma B_near x r b e m : nearB x r b -> IZR (er b) * U <= e -> Rabs r <= m -> near x r e m.
Proof. intros (O & _ & E) HE HM. split; [exact O|]. split; [lra|exact HM]. Qed.

Lemma late_test t : ok t -> Rabs (R64 t) <= 100 -> fgtb (fsub t (fZ 10)) (fZ 0) = if Rlt_dec 10 (R64 t) then true else false.
Proof.
  intros O B. destruct (fZ_ok 10 ltac:(lia)) as [O1 E1]. destruct (fZ_ok 0 ltac:(lia)) as [O0 E0]. apply Rabs_le_inv in B.
  destruct (fsub_ok t (fZ 10) O O1) as [OS ES]. { rewrite E1. apply Rabs_small with 1000; [apply Rabs_le; lra|rewrite bpow100; lra]. }
  change (fgtb (fsub t (fZ 10)) (fZ 0)) with (fltb (fZ 0) (fsub t (fZ 10))). rewrite fltb_ok by assumption. rewrite E0, ES, E1.
  destruct (Rlt_dec 10 (R64 t)) as [L|L].
  - apply Rlt_bool_true. assert (0 <= rnd (R64 t - 10)) by (rewrite <- (rnd_IZR 0 ltac:(lia)); apply rnd_le; lra).
    assert (rnd (R64 t - 10) <> 0); [|lra]. rewrite <- E1. unfold rnd, Rminus. change (SpecFloat.fexp 53 1024) with (FLT_exp (-1074) 53).
    assert (VE : Valid_exp (FLT_exp (-1074) 53)) by (apply FLT_exp_valid; unfold Prec_gt_0; lia). apply round_plus_neq_0; [typeclasses eauto|typeclasses eauto|typeclasses eauto|apply (repr_R64 t O)|apply generic_format_opp, (repr_R64 _ O1)|lra].
  - apply Rlt_bool_false. rewrite <- (rnd_IZR 0 ltac:(lia)). apply rnd_le. lra.
Qed.

Section Lib.
Variables fsin fcos : f64 -> f64.
Hypothesis Gs : good_lib fsin sin.
Hypothesis Gc : good_lib fcos cos.
Variable t : f64.
Hypothesis Ot : ok t.
Hypothesis Bt : Rabs (R64 t) <= 100.

Ltac unit := unfold U, one, u53; lra.
Definition moon_bnds : list bnd := [given 100; mkB (- (33180 * one)) (33180 * one) (181070000000 * 140737488355328); mkB (- (5 * one)) (5 * one) (13970000 * 140737488355328);
  mkB (- (1 * one)) (1 * one) (40000 * 140737488355328); mkB (- (1 * one)) (1 * one) (100 * 140737488355328)].
Lemma moon_env k0 k1 k2 k3 :
  let t2 := fmul t t in let t3 := fmul t2 t in let t4 := fmul t3 t in
  let S l := sum_sixes fcos t (fdiv t2 (fZ 10000)) (fdiv t3 (fZ 100000000)) (fdiv t4 (fZ 100000000)) (map six_of l) in
  let r l := ws l (R64 t) / 100000000 in
  env_ok [t; S (firstn k0 ML0); S (firstn k1 ML1); S (firstn k2 ML2); S (firstn k3 ML3)] [R64 t; r (firstn k0 ML0); r (firstn k1 ML1); r (firstn k2 ML2); r (firstn k3 ML3)] moon_bnds.
Proof.
  intros t2 t3 t4 S r. pose proof fits_ML as F. rewrite forallb_forall in F.
  assert (F' : forall l, In l [ML0; ML1; ML2; ML3] -> forall w, In w l -> fits w = true) by (intros l I; apply forallb_forall, (F l I)).
  constructor; [apply given_ok; assumption|].
  constructor; [refine (near_B _ _ _ _ _ _ (table_near fcos Gc t Ot Bt ML0 k0 33180 181070000000 (F' ML0 ltac:(cbn; tauto)) _ _ _ _) _ _); [vm_compute; discriminate|lia|vm_compute; discriminate|lia|rewrite mult_IZR; unit|rewrite mult_IZR; unit]|].
  constructor; [refine (near_B _ _ _ _ _ _ (table_near fcos Gc t Ot Bt ML1 k1 5 13970000 (F' ML1 ltac:(cbn; tauto)) _ _ _ _) _ _); [vm_compute; discriminate|lia|vm_compute; discriminate|lia|rewrite mult_IZR; unit|rewrite mult_IZR; unit]|].
  constructor; [refine (near_B _ _ _ _ _ _ (table_near fcos Gc t Ot Bt ML2 k2 1 40000 (F' ML2 ltac:(cbn; tauto)) _ _ _ _) _ _); [vm_compute; discriminate|lia|vm_compute; discriminate|lia|rewrite mult_IZR; unit|rewrite mult_IZR; unit]|].
  constructor; [refine (near_B _ _ _ _ _ _ (table_near fcos Gc t Ot Bt ML3 k3 1 100 (F' ML3 ltac:(cbn; tauto)) _ _ _ _) _ _); [vm_compute; discriminate|lia|vm_compute; discriminate|lia|rewrite mult_IZR; unit|rewrite mult_IZR; unit]|].
  constructor.
Qed.
Definition moon_sum (t S0 S1 S2 S3 : f64) : f64 :=
  fdiv (fadd (fadd (fadd (fadd (xl1_mean 0 t) (fmul S0 (fZ 1))) (fmul S1 (fmul (fZ 1) t))) (fmul S2 (fmul (fmul (fZ 1) t) t))) (fmul S3 (fmul (fmul (fmul (fZ 1) t) t) t))) SerModel.rad.
Ltac formx E eps :=
  lazymatch goal with |- ok ?F /\ Rabs (R64 ?F - ?r) <= _ =>
    let F'' := eval cbv beta zeta iota in F in
    let xs := lazymatch type of E with env_ok ?xs _ _ => xs end in
    let e := reify fsin fcos xs F'' in
    let H := fresh in
    assert (H : ok F /\ Rabs (R64 F - r) <= IZR eps * U);
    [apply (formula_ok fsin fcos Gs Gc _ _ _ e F r eps E); [cbn [evF nth]; reflexivity| |vm_compute; reflexivity]; cbn [evR nth]
    |destruct H as [H1 H2]; split; [exact H1|]; apply Rle_trans with (1 := H2); unfold U, one; lra]
  end.
Lemma moon_near XL1 n : nth_error XL1 0 = Some moon_lon_tables -> (-357913941 <= n <= 134960)%Z ->
  let k i m := Z.to_nat (wanted6 n 442 i m) in
  exists v, M_Lon fcos XL1 t n = Some v /\ ok v /\ Rabs (R64 v - moon_lon (k 0 442)%Z (k 1 149)%Z (k 2 34)%Z (k 3 2)%Z (R64 t)) <= 2e-9.
Proof.
  intros H Hn k. eexists. split; [apply (moon_is fcos XL1 t n H Hn)|]. cbv zeta. unfold k. clear k.
  generalize (Z.to_nat (wanted6 n 442 0 442)) (Z.to_nat (wanted6 n 442 1 149)) (Z.to_nat (wanted6 n 442 2 34)) (Z.to_nat (wanted6 n 442 3 2)). intros k0 k1 k2 k3.
  pose proof (moon_env k0 k1 k2 k3) as E. cbv zeta beta in E. cbv beta.
  unfold moon_lon, moon_terms4.
  set (S0 := sum_sixes fcos _ _ _ _ (map six_of (firstn k0 ML0))) in *. set (S1 := sum_sixes fcos _ _ _ _ (map six_of (firstn k1 ML1))) in *.
  set (S2 := sum_sixes fcos _ _ _ _ (map six_of (firstn k2 ML2))) in *. set (S3 := sum_sixes fcos _ _ _ _ (map six_of (firstn k3 ML3))) in *.
  set (r0 := ws (firstn k0 ML0) (R64 t)) in *. set (r1 := ws (firstn k1 ML1) (R64 t)) in *. set (r2 := ws (firstn k2 ML2) (R64 t)) in *. set (r3 := ws (firstn k3 ML3) (R64 t)) in *.
  clearbody S0 S1 S2 S3 r0 r1 r2 r3. unfold xl1_mean, late. change (0 =? 0)%Z with true. cbv iota zeta. rewrite (late_test t Ot Bt).
  change SerModel.rad with (fdiv (fZ 648000) dpi). pose proof pi_pos. destruct (Rlt_dec 10 (R64 t)) as [L|L].
  - formx E 2535301200456458802993%Z. unfold moon_mean, arcsec. decs. field. assumption.
  - formx E 2535301200456458802993%Z. unfold moon_mean, arcsec. decs. field. assumption.
Qed.

(** the Earth *)
Lemma tau_near : near (fdiv t (fZ 10)) (R64 t / 10) (11 * u53) 10.
Proof. apply (near_divZ _ _ _ _ _ _ _ (near_t t Ot Bt)); [lia|lra|eps|eps]. Qed.
Definition earth_bnds : list bnd := [given 100; mkB (- (17900000000 * one)) (17900000000 * one) (100000000000000 * 140737488355328); mkB (- (62833217868200 * one)) (62833217868200 * one) (8500000000000000 * 140737488355328);
  mkB (- (6300000 * one)) (6300000 * one) (265000000000 * 140737488355328); mkB (- (35000 * one)) (35000 * one) (9000000000 * 140737488355328); mkB (- (12300 * one)) (12300 * one) (257000000 * 140737488355328);
  mkB (- (120 * one)) (120 * one) (6400000 * 140737488355328)].
Lemma earth_env k0 k1 k2 k3 k4 k5 :
  let S l := sum_terms fcos (fdiv t (fZ 10)) (map three_of l) in
  let r l := ws l (R64 t / 10) in
  env_ok [t; S (firstn k0 EL0); S (firstn k1 EL1); S (firstn k2 EL2); S (firstn k3 EL3); S (firstn k4 EL4); S (firstn k5 EL5)]
    [R64 t; r (firstn k0 EL0); r (firstn k1 EL1); r (firstn k2 EL2); r (firstn k3 EL3); r (firstn k4 EL4); r (firstn k5 EL5)] earth_bnds.
Proof.
  intros S r. pose proof fits_EL as F. rewrite forallb_forall in F.
  assert (F' : forall l, In l [EL0; EL1; EL2; EL3; EL4; EL5] -> forall w, In w l -> fits w = true /\ flat w = true).
  { intros l I w J. apply andb_prop. exact (proj1 (forallb_forall _ _) (F l I) w J). }
  constructor; [apply given_ok; assumption|].
  constructor; [refine (near_B _ _ _ _ _ _ (group_near fcos Gc _ _ tau_near EL0 k0 17900000000 100000000000000 (F' EL0 ltac:(cbn; tauto)) _ _ _ _) _ _); [vm_compute; discriminate|lia|vm_compute; discriminate|lia|rewrite mult_IZR; unit|rewrite mult_IZR; unit]|].
  constructor; [refine (near_B _ _ _ _ _ _ (group_near fcos Gc _ _ tau_near EL1 k1 62833217868200 8500000000000000 (F' EL1 ltac:(cbn; tauto)) _ _ _ _) _ _); [vm_compute; discriminate|lia|vm_compute; discriminate|lia|rewrite mult_IZR; unit|rewrite mult_IZR; unit]|].
  constructor; [refine (near_B _ _ _ _ _ _ (group_near fcos Gc _ _ tau_near EL2 k2 6300000 265000000000 (F' EL2 ltac:(cbn; tauto)) _ _ _ _) _ _); [vm_compute; discriminate|lia|vm_compute; discriminate|lia|rewrite mult_IZR; unit|rewrite mult_IZR; unit]|].
  constructor; [refine (near_B _ _ _ _ _ _ (group_near fcos Gc _ _ tau_near EL3 k3 35000 9000000000 (F' EL3 ltac:(cbn; tauto)) _ _ _ _) _ _); [vm_compute; discriminate|lia|vm_compute; discriminate|lia|rewrite mult_IZR; unit|rewrite mult_IZR; unit]|].
  constructor; [refine (near_B _ _ _ _ _ _ (group_near fcos Gc _ _ tau_near EL4 k4 12300 257000000 (F' EL4 ltac:(cbn; tauto)) _ _ _ _) _ _); [vm_compute; discriminate|lia|vm_compute; discriminate|lia|rewrite mult_IZR; unit|rewrite mult_IZR; unit]|].
  constructor; [refine (near_B _ _ _ _ _ _ (group_near fcos Gc _ _ tau_near EL5 k5 120 6400000 (F' EL5 ltac:(cbn; tauto)) _ _ _ _) _ _); [vm_compute; discriminate|lia|vm_compute; discriminate|lia|rewrite mult_IZR; unit|rewrite mult_IZR; unit]|].
  constructor.
Qed.
Lemma earth_near XL0 rest n : nth_error XL0 0 = Some (memory (earth_table rest)) -> length rest = 1518%nat -> (n <= 672000)%Z ->
  let k i m := Z.to_nat (wanted n 186 i m) in
  exists v, E_Lon fcos XL0 t n = Some v /\ ok v /\ Rabs (R64 v - earth_lon (k 0 186)%Z (k 1 114)%Z (k 2 60)%Z (k 3 8)%Z (k 4 4)%Z (k 5 4)%Z (R64 t)) <= 2e-9.
Proof.
  intros H HR Hn k. eexists. split; [apply (earth_is fcos XL0 rest t n H HR Hn)|]. cbv zeta. unfold k. clear k.
  generalize (Z.to_nat (wanted n 186 0 186)) (Z.to_nat (wanted n 186 1 114)) (Z.to_nat (wanted n 186 2 60)) (Z.to_nat (wanted n 186 3 8)) (Z.to_nat (wanted n 186 4 4)) (Z.to_nat (wanted n 186 5 4)).
  intros k0 k1 k2 k3 k4 k5.
  pose proof (earth_env k0 k1 k2 k3 k4 k5) as E. cbv zeta beta in E. cbv beta.
  unfold earth_lon, earth_terms6.
  set (S0 := sum_terms fcos _ (map three_of (firstn k0 EL0))) in *. set (S1 := sum_terms fcos _ (map three_of (firstn k1 EL1))) in *. set (S2 := sum_terms fcos _ (map three_of (firstn k2 EL2))) in *.
  set (S3 := sum_terms fcos _ (map three_of (firstn k3 EL3))) in *. set (S4 := sum_terms fcos _ (map three_of (firstn k4 EL4))) in *. set (S5 := sum_terms fcos _ (map three_of (firstn k5 EL5))) in *.
  set (r0 := ws (firstn k0 EL0) _) in *. set (r1 := ws (firstn k1 EL1) _) in *. set (r2 := ws (firstn k2 EL2) _) in *. set (r3 := ws (firstn k3 EL3) _) in *.
  set (r4 := ws (firstn k4 EL4) _) in *. set (r5 := ws (firstn k5 EL5) _) in *.
  clearbody S0 S1 S2 S3 S4 S5 r0 r1 r2 r3 r4 r5. unfold earth_sum. cbv zeta. change SerModel.rad with (fdiv (fZ 648000) dpi). pose proof pi_pos.
  formx E 2535301200456458802993%Z. unfold earth_fix, arcsec. decs. field. assumption.
Qed.
End Lib.
