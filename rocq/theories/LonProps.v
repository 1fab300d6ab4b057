(** C89: the statement about the longitudes. *)
From Coq Require Import ZArith Reals Lia Lra Bool List.
From Coq Require Import Floats.SpecFloat.
From Flocq Require Import Core IEEE754.BinarySingleNaN.
From Verif Require Import F64 F64R F64E SsqModel AngModel SmTab SerModel SerSpec FormSpec FormProps WaveF WaveR SmModel SmSpec SmF SmLon SmProps SmSun SunProps IllProps.
Import ListNotations.
Open Scope R_scope.

(** what the first n terms of the Moon leave out, |t| <= T, in 1e-8 arc seconds *)
Definition mtail (T n : Z) : Z :=
  (amp (skipn (km n 0 442) ML0) + T * amp (skipn (km n 1 149) ML1) + T * T * amp (skipn (km n 2 34) ML2) + T * T * T * amp (skipn (km n 3 2) ML3))%Z.
Lemma moon_tail T n t : Rabs t <= IZR T -> Rabs (moon_n n t - moon_full t) <= IZR (mtail T n) / 100000000 / 206264.
Proof.
  intros B. unfold moon_full. change (moon_lon 442 149 34 2 t) with (moon_mean t + late t + arcsec ((ws ML0 t + t * ws ML1 t + t ^ 2 * ws ML2 t + t ^ 3 * ws ML3 t) / 100000000)).
  unfold moon_n, moon_lon, moon_terms4, mtail.
  generalize (km n 0 442) (km n 1 149) (km n 2 34) (km n 3 2). intros k0 k1 k2 k3.
  pose proof (tail_le t T 0 k0 ML0 B) as T0. pose proof (tail_le t T 1 k1 ML1 B) as T1. pose proof (tail_le t T 2 k2 ML2 B) as T2. pose proof (tail_le t T 3 k3 ML3 B) as T3.
  assert (Q := sum_le _ _ _ _ (sum_le _ _ _ _ (sum_le _ _ _ _ T0 T1) T2) T3). clear T0 T1 T2 T3. rewrite !plus_IZR, !mult_IZR.
  assert (Q' := arcsec_le _ _ (prod_le _ _ _ _ Q (Rle_refl (Rabs (/ 100000000))))). rewrite (Rabs_pos_eq (/ 100000000)) in Q' by lra.
  match type of Q' with Rabs ?x <= _ => match goal with |- Rabs ?z <= _ => replace z with x by (unfold arcsec; cbn [pow]; field) end end.
  apply Rle_trans with (1 := Q'). right. cbn [pow]. field.
Qed.

(** C89.  The Sun's longitude with n terms of the Earth's table, the Moon's elongation with m terms of the Moon's and n of the Earth's
    (a negative number: all).  With all terms the values are the series to within 5e-9 radians, 0.001 arc seconds; with fewer, to within
    the terms left out as well. *)
Theorem C89_longitudes fsin fcos XL1 XL0 rest : good_lib fsin sin -> good_lib fcos cos ->
  nth_error XL1 0 = Some moon_lon_tables -> nth_error XL0 0 = Some (memory (earth_table rest)) -> length rest = 1518%nat ->
  forall t, ok t -> forall C : Z, (0 <= C <= 10)%Z -> Rabs (R64 t) <= 10 * IZR C ->
  (forall n, (n <= 672000)%Z -> exists v, S_aLon fsin fcos XL0 t n = Some v /\ ok v /\
     Rabs (R64 v - sun_longitude (R64 t)) <= IZR (etail C n) / 10000000000 + 2.1e-9 /\ ((n < 0)%Z -> Rabs (R64 v - sun_longitude (R64 t)) <= 2.1e-9)) /\
  (forall m n, (-357913941 <= m <= 134960)%Z -> (n <= 672000)%Z -> exists v, MS_aLon fcos XL1 XL0 t m n = Some v /\ ok v /\
     Rabs (R64 v - elongation (R64 t)) <= IZR (mtail (10 * C) m) / 100000000 / 206264 + IZR (etail C n) / 10000000000 + 4.5e-9 /\
     ((m < 0)%Z -> (n < 0)%Z -> Rabs (R64 v - elongation (R64 t)) <= 4.5e-9)).
Proof.
  intros Gs Gc H1 H0 HR t Ot C HC BC. assert (BT : Rabs (R64 t) <= 100) by (assert (IZR C <= 10) by (apply IZR_le; lia); lra). split.
  - intros n Hn. destruct (slon_near fsin fcos Gs Gc XL0 rest H0 HR t Ot BT n Hn) as (v & E & O & A & _). exists v. split; [exact E|]. split; [exact O|].
    pose proof (earth_tail C n (R64 t) BC) as ET. unfold sun_longitude. split.
    + replace (R64 v - (earth_full (R64 t) + nut_lon (R64 t) + sun_aberration (R64 t) + PI)) with
        ((R64 v - (earth_n n (R64 t) + nut_lon (R64 t) + sun_aberration (R64 t) + PI)) + (earth_n n (R64 t) - earth_full (R64 t))) by ring.
      apply Rle_trans with (1 := sum_le _ _ _ _ A ET). lra.
    + intros N. rewrite full_earth_n in A by exact N. exact A.
  - intros m n Hm Hn. destruct (mslon_near fsin fcos Gs Gc XL1 XL0 rest H1 H0 HR t Ot BT m n Hm Hn) as (v & E & O & A & _). exists v. split; [exact E|]. split; [exact O|].
    pose proof (earth_tail C n (R64 t) BC) as ET. rewrite <- mult_IZR in BC. pose proof (moon_tail (10 * C) m (R64 t) BC) as MT. unfold elongation. split.
    + match type of A with Rabs ?a <= _ => match type of MT with Rabs ?b <= _ => match type of ET with Rabs ?c <= _ => match goal with |- Rabs ?z <= _ => replace z with (a + (b - c)) by ring end end end end.
      apply Rle_trans with (1 := sum_le _ _ _ _ A (diff_le _ _ _ _ MT ET)). lra.
    + intros M N. rewrite full_moon_n, full_earth_n in A by assumption. exact A.
Qed.
(** the tables can be given, and what is left out is small: for twenty centuries either way 20 terms of the Moon and 10 of the Earth are good to 0.0017 *)
Example C89_example : exists fsin fcos XL1 XL0 rest, good_lib fsin sin /\ good_lib fcos cos /\ nth_error XL1 0 = Some moon_lon_tables /\
  nth_error XL0 0 = Some (memory (earth_table rest)) /\ length rest = 1518%nat /\ ok (fZ 7) /\ Rabs (R64 (fZ 7)) <= 10 * IZR 2 /\
  IZR (mtail (10 * 2) 20) / 100000000 / 206264 + IZR (etail 2 10) / 10000000000 <= 0.0017.
Proof.
  destruct good_lib_exists as (fsin & fcos & _ & Gs & Gc & _). exists fsin, fcos, [moon_lon_tables], [memory (earth_table (repeat (fZ 0) 1518))], (repeat (fZ 0) 1518).
  split; [exact Gs|]. split; [exact Gc|]. split; [reflexivity|]. split; [reflexivity|]. split; [apply repeat_length|]. destruct (fZ_ok 7 ltac:(lia)) as [O E]. split; [exact O|].
  split; [rewrite E, Rabs_pos_eq; lra|]. let a := eval vm_compute in (mtail (10 * 2) 20) in change (mtail (10 * 2) 20) with a. let a := eval vm_compute in (etail 2 10) in change (etail 2 10) with a. decs. lra.
Qed.
Print Assumptions C89_longitudes.
(** C90: a case; the spring equinox of 2000, W = 0, and the equinox of year 1, W = -1999 turns or so *)
Example C90_example : exists fsin fcos XL0 rest, good_lib fsin sin /\ good_lib fcos cos /\ nth_error XL0 0 = Some (memory (earth_table rest)) /\ length rest = 1518%nat /\
  ok (fZ (-12560)) /\ Rabs (R64 (fZ (-12560))) <= 18780.
Proof.
  destruct good_lib_exists as (fsin & fcos & _ & Gs & Gc & _). exists fsin, fcos, [memory (earth_table (repeat (fZ 0) 1518))], (repeat (fZ 0) 1518).
  split; [exact Gs|]. split; [exact Gc|]. split; [reflexivity|]. split; [apply repeat_length|]. destruct (fZ_ok (-12560) ltac:(lia)) as [O E]. split; [exact O|].
  rewrite E, <- abs_IZR. cbn [Z.abs]. lra.
Qed.
Print Assumptions C90_sun.
