(** The longitudes in doubles are near the real series. *)
From Coq Require Import ZArith Reals Lia Lra Bool List.
From Coq Require Import Floats.SpecFloat.
From Flocq Require Import Core IEEE754.BinarySingleNaN Plus_error.
From Verif Require Import F64 F64R F64T F64E SsqModel AngModel AngProps PiBound ErrExpr SmTab SerModel SerSpec SerProof2 SerProps2 SerProps3 FormModel FormSpec FormProps WaveF SmModel SmSpec.
Import ListNotations.
Open Scope R_scope.

(** prefixes of the tables *)
Lemma fits_ML : forallb (fun l => forallb fits l) [ML0; ML1; ML2; ML3] = true. Proof. vm_compute. reflexivity. Qed.
Lemma fits_EL : forallb (fun l => forallb (fun w => fits w && flat w) l) [EL0; EL1; EL2; EL3; EL4; EL5] = true. Proof. vm_compute. reflexivity. Qed.
Lemma firstn_In {A} (x : A) : forall n l, In x (firstn n l) -> In x l.
Proof. induction n as [|n IH]; intros [|y l] H; cbn in *; [easy|easy|easy|]. destruct H; [left; assumption|right; apply IH; assumption]. Qed.
Lemma amp_firstn : forall n l, (amp (firstn n l) <= amp l)%Z.
Proof.
  induction n as [|n IH]; intros l; [apply (amp_pos l)|]. destruct l as [|w l]; [apply Z.le_refl|].
  cbn [firstn amp fold_right]. fold (amp l) (amp (firstn n l)). specialize (IH l). lia.
Qed.
Lemma cost_firstn k c : (0 <= k)%Z -> (0 <= c)%Z -> forall n l, (cost k c (firstn n l) <= cost k c l)%Z.
Proof.
  intros K C. induction n as [|n IH]; intros l; [apply (cost_pos k c K C l)|]. destruct l as [|w l]; [apply Z.le_refl|].
  cbn [firstn cost fold_right]. fold (cost k c l) (cost k c (firstn n l)). specialize (IH l). lia.
Qed.
Lemma length_firstn_le {A} : forall n (l : list A), (Z.of_nat (length (firstn n l)) <= Z.of_nat (length l))%Z.
Proof. intros n l. rewrite firstn_length. lia. Qed.

Section Lib.
Variable fcos : f64 -> f64.
Hypothesis Gc : good_lib fcos cos.

(** ** the Moon's tables *)
Definition six_of (w : wave) : six := (lit (wa w) 100000000, lit (wb w) 100000000000, lit (wd w) 1000000000, lit (we w) 10000000, lit (wf w) 10000, lit (wg w) 1000000).
Lemma sixes_flat l : sixes (flat6 l) = map six_of l.
Proof. induction l as [|w l IH]; [reflexivity|]. unfold flat6. cbn [flat_map app sixes map]. fold (flat6 l). rewrite IH. reflexivity. Qed.
Lemma flat6_length l : length (flat6 l) = (6 * length l)%nat.
Proof. induction l as [|w l IH]; [reflexivity|]. unfold flat6. cbn [flat_map app length]. fold (flat6 l). rewrite IH. lia. Qed.
Lemma sum_sixes_terms t s2 s3 s4 l : sum_sixes fcos t s2 s3 s4 (map six_of l) =
  fold_left (fun s w => fadd s (fmul (lit (wa w) 100000000) (fcos (fadd (fadd (fadd (fadd (lit (wb w) 100000000000) (fmul t (lit (wd w) 1000000000))) (fmul s2 (lit (we w) 10000000))) (fmul s3 (lit (wf w) 10000))) (fmul s4 (lit (wg w) 1000000)))))) l (fZ 0).
Proof. unfold sum_sixes. generalize (fZ 0). induction l as [|w l IH]; intros x; [reflexivity|]. cbn [map fold_left]. rewrite <- IH. reflexivity. Qed.

Section Moon.
Variable t : f64.
Hypothesis Ot : ok t.
Hypothesis Bt : Rabs (R64 t) <= 100.
Lemma fold_scale (g : wave -> R) (l : list wave) k : fold_right (fun w s => g w / k + s) 0 l = fold_right (fun w s => g w + s) 0 l / k.
Proof. induction l as [|w l IH]; cbn [fold_right]; [unfold Rdiv; ring|]. rewrite IH. unfold Rdiv. ring. Qed.
Lemma fold_ext (g h : wave -> R) (l : list wave) : (forall w, g w = h w) -> fold_right (fun w s => g w + s) 0 l = fold_right (fun w s => h w + s) 0 l.
Proof. intros E. induction l as [|w l IH]; cbn [fold_right]; [reflexivity|]. rewrite IH, E. reflexivity. Qed.
Lemma table_near l n A E : (forall w, In w l -> fits w = true) -> (amp l <= A * 100000000)%Z -> (0 <= A <= 1000000)%Z ->
  (cost 606 140 l + Z.of_nat (length l) * (A + 2) * 100000000000000000 <= E * 100000000000000000)%Z -> (E <= 1000000000000)%Z ->
  let t2 := fmul t t in let t3 := fmul t2 t in let t4 := fmul t3 t in
  near (sum_sixes fcos t (fdiv t2 (fZ 10000)) (fdiv t3 (fZ 100000000)) (fdiv t4 (fZ 100000000)) (map six_of (firstn n l))) (ws (firstn n l) (R64 t) / 100000000) (IZR E * u53) (IZR A).
Proof.
  intros F HA A0 HE E0 t2 t3 t4. rewrite sum_sixes_terms.
  assert (Z0 : near (fZ 0) 0 0 0) by (apply near_Z; lia).
  pose proof (amp_firstn n l) as A1. pose proof (cost_firstn 606 140 ltac:(lia) ltac:(lia) n l) as C1. pose proof (length_firstn_le n l) as L1.
  assert (N : forall w, In w (firstn n l) -> near (term6 fcos t w) (IZR (wa w) * cos (ph w (R64 t)) / 100000000) (IZR (Z.abs (wa w)) / 100000000 * (606 * (IZR (Z.abs (wd w)) / 1000000000) + 140) * u53) (IZR (Z.abs (wa w)) / 100000000)).
  { intros w I. replace (IZR (wa w) * cos (ph w (R64 t)) / 100000000) with (IZR (wa w) / 100000000 * cos (ph w (R64 t))) by (unfold Rdiv; ring).
    apply term6_near; [exact Gc|exact Ot|exact Bt|apply F, (firstn_In w n l I)]. }
  pose proof u53_pos as UP.
  assert (AR : IZR (amp (firstn n l)) / 100000000 <= IZR A).
  { apply Rmult_le_reg_r with 100000000; [lra|]. unfold Rdiv. rewrite Rmult_assoc, Rinv_l, Rmult_1_r by lra. rewrite <- mult_IZR. apply IZR_le. lia. }
  assert (ER : IZR (cost 606 140 (firstn n l)) / 100000000 / 1000000000 * u53 + IZR (Z.of_nat (length (firstn n l))) * (IZR A + 2) * u53 <= IZR E * u53).
  { replace (IZR (cost 606 140 (firstn n l)) / 100000000 / 1000000000 * u53 + IZR (Z.of_nat (length (firstn n l))) * (IZR A + 2) * u53)
      with ((IZR (cost 606 140 (firstn n l)) + IZR (Z.of_nat (length (firstn n l))) * (IZR A + 2) * 100000000000000000) / 100000000000000000 * u53) by (field; lra).
    apply Rmult_le_compat_r; [lra|]. apply Rmult_le_reg_r with 100000000000000000; [lra|]. unfold Rdiv. rewrite Rmult_assoc, Rinv_l, Rmult_1_r by lra.
    change 2 with (IZR 2). rewrite <- plus_IZR, <- !mult_IZR, <- plus_IZR. apply IZR_le. nia. }
  assert (EB : IZR E * u53 <= 1) by (apply Rle_trans with (1000000000000 * u53); [apply Rmult_le_compat_r; [lra|apply IZR_le; exact E0]|eps]).
  assert (AB : 0 <= IZR A <= 1000000) by (split; apply IZR_le; lia).
  pose proof (sum_near (term6 fcos t) (fun w => IZR (wa w) * cos (ph w (R64 t)) / 100000000) 100000000 606 140 (IZR A) ltac:(lia) ltac:(lia) ltac:(lia) ltac:(lra) (firstn n l) N
    (fZ 0) 0 0 0 Z0 ltac:(lra) ltac:(lra) ltac:(lra)) as H.
  cbv beta in H. rewrite (fold_scale (fun w => IZR (wa w) * cos (ph w (R64 t))) (firstn n l) 100000000), Rplus_0_l in H. refine (near_weak _ _ _ _ _ _ H _ _); lra.
Qed.
End Moon.

(** ** the Earth's tables *)
Definition three_of (w : wave) : f64 * f64 * f64 := (fZ (wa w), lit (wb w) 100000000000, lit (wd w) 1000000000).
Lemma triples_flat l : triples (flat3 l) = map three_of l.
Proof. induction l as [|w l IH]; [reflexivity|]. unfold flat3. cbn [flat_map app triples map]. fold (flat3 l). rewrite IH. reflexivity. Qed.
Lemma flat3_length l : length (flat3 l) = (3 * length l)%nat.
Proof. induction l as [|w l IH]; [reflexivity|]. unfold flat3. cbn [flat_map app length]. fold (flat3 l). rewrite IH. lia. Qed.
Lemma sum_terms_terms t l : sum_terms fcos t (map three_of l) = fold_left (fun s w => fadd s (term3 fcos t w)) l (fZ 0).
Proof. unfold sum_terms. generalize (fZ 0). induction l as [|w l IH]; intros x; [reflexivity|]. cbn [map fold_left]. rewrite <- IH. reflexivity. Qed.
Section Planet.
Variable t : f64.
Variable r : R.
Hypothesis Nt : near t r (11 * u53) 10.
Lemma group_near l n A E : (forall w, In w l -> fits w = true /\ flat w = true) -> (amp l <= A)%Z -> (0 <= A <= 10000000000000000)%Z ->
  (cost 44 21 l + Z.of_nat (length l) * (A + 2) * 1000000000 <= E * 1000000000)%Z -> (E <= 9007199254740992)%Z ->
  near (sum_terms fcos t (map three_of (firstn n l))) (ws (firstn n l) r) (IZR E * u53) (IZR A).
Proof.
  intros F HA A0 HE E0. rewrite sum_terms_terms.
  assert (Z0 : near (fZ 0) 0 0 0) by (apply near_Z; lia).
  pose proof (amp_firstn n l) as A1. pose proof (cost_firstn 44 21 ltac:(lia) ltac:(lia) n l) as C1. pose proof (length_firstn_le n l) as L1.
  assert (N : forall w, In w (firstn n l) -> near (term3 fcos t w) (IZR (wa w) * cos (ph w r)) (IZR (Z.abs (wa w)) / 1 * (44 * (IZR (Z.abs (wd w)) / 1000000000) + 21) * u53) (IZR (Z.abs (wa w)) / 1)).
  { intros w I. replace (IZR (Z.abs (wa w)) / 1) with (IZR (Z.abs (wa w))) by field. destruct (F w (firstn_In w n l I)) as [F1 F2].
    apply term3_near; [exact Gc|exact Nt|exact F1|exact F2]. }
  pose proof u53_pos as UP.
  assert (AR : IZR (amp (firstn n l)) / 1 <= IZR A) by (unfold Rdiv; rewrite Rinv_1, Rmult_1_r; apply IZR_le; lia).
  assert (ER : IZR (cost 44 21 (firstn n l)) / 1 / 1000000000 * u53 + IZR (Z.of_nat (length (firstn n l))) * (IZR A + 2) * u53 <= IZR E * u53).
  { replace (IZR (cost 44 21 (firstn n l)) / 1 / 1000000000 * u53 + IZR (Z.of_nat (length (firstn n l))) * (IZR A + 2) * u53)
      with ((IZR (cost 44 21 (firstn n l)) + IZR (Z.of_nat (length (firstn n l))) * (IZR A + 2) * 1000000000) / 1000000000 * u53) by (field; lra).
    apply Rmult_le_compat_r; [lra|]. apply Rmult_le_reg_r with 1000000000; [lra|]. unfold Rdiv. rewrite Rmult_assoc, Rinv_l, Rmult_1_r by lra.
    change 2 with (IZR 2). rewrite <- plus_IZR, <- !mult_IZR, <- plus_IZR. apply IZR_le. nia. }
  assert (EB : IZR E * u53 <= 1) by (apply Rle_trans with (9007199254740992 * u53); [apply Rmult_le_compat_r; [lra|apply IZR_le; exact E0]|unfold u53; lra]).
  assert (AB : 0 <= IZR A <= 10000000000000000) by (split; apply IZR_le; lia).
  pose proof (sum_near (term3 fcos t) (fun w => IZR (wa w) * cos (ph w r)) 1 44 21 (IZR A) ltac:(lia) ltac:(lia) ltac:(lia) ltac:(lra) (firstn n l) N
    (fZ 0) 0 0 0 Z0 ltac:(lra) ltac:(lra) ltac:(lra)) as H.
  rewrite Rplus_0_l in H. refine (near_weak _ _ _ _ _ _ H _ _); lra.
Qed.
End Planet.
(** what the program adds up: the Moon *)
Lemma moon_is XL1 t n : nth_error XL1 0 = Some moon_lon_tables -> (-357913941 <= n <= 134960)%Z ->
  let k i m := Z.to_nat (wanted6 n 442 i m) in
  let t2 := fmul t t in let t3 := fmul t2 t in let t4 := fmul t3 t in
  let S l := sum_sixes fcos t (fdiv t2 (fZ 10000)) (fdiv t3 (fZ 100000000)) (fdiv t4 (fZ 100000000)) (map six_of l) in
  M_Lon fcos XL1 t n = Some (fdiv (fadd (fadd (fadd (fadd (xl1_mean 0 t) (fmul (S (firstn (k 0%Z 442%Z) ML0)) (fZ 1))) (fmul (S (firstn (k 1%Z 149%Z) ML1)) (fmul (fZ 1) t)))
     (fmul (S (firstn (k 2%Z 34%Z) ML2)) (fmul (fmul (fZ 1) t) t))) (fmul (S (firstn (k 3%Z 2%Z) ML3)) (fmul (fmul (fmul (fZ 1) t) t) t))) SerModel.rad).
Proof.
  intros H Hn k t2 t3 t4 S. unfold M_Lon.
  assert (MT : moon_tables 0 moon_lon_tables). { unfold moon_tables, moon_lon_tables. cbn [map]. rewrite !flat6_length. reflexivity. }
  rewrite (C35_value fcos XL1 0 t n moon_lon_tables ltac:(lia) Hn H MT). cbv zeta. change (0 =? 2)%Z with false. cbv iota. f_equal. f_equal.
  unfold moon_lon_tables. cbn [map]. rewrite !sixes_flat. change (nth 0 (moon_terms 0) 0%Z) with 442%Z. cbn [sum_tables]. rewrite !map_length, !firstn_map.
  change (0 + 1)%Z with 1%Z. change (1 + 1)%Z with 2%Z. change (2 + 1)%Z with 3%Z.
  change (Z.of_nat (length ML0)) with 442%Z. change (Z.of_nat (length ML1)) with 149%Z. change (Z.of_nat (length ML2)) with 34%Z. change (Z.of_nat (length ML3)) with 2%Z.
  reflexivity.
Qed.
(** the Earth *)
Lemma slice_mid {A} (pre mid post : list A) lo hi : Z.of_nat (length pre) = lo -> Z.of_nat (length mid) = (hi - lo)%Z -> slice (pre ++ mid ++ post) lo hi = mid.
Proof.
  intros P M. unfold slice. rewrite skipn_app, skipn_all2 by lia. replace (Z.to_nat lo - length pre)%nat with 0%nat by lia. cbn [skipn app].
  rewrite firstn_app. replace (Z.to_nat (hi - lo) - length mid)%nat with 0%nat by lia. cbn [firstn]. rewrite app_nil_r, firstn_all2 by lia. reflexivity.
Qed.
Definition els : list (list wave) := [EL0; EL1; EL2; EL3; EL4; EL5].
Lemma earth_groups rest i : (0 <= i < 6)%Z -> group (earth_table rest) 0 i = map three_of (nth (Z.to_nat i) els []).
Proof.
  intros Hi. unfold group. rewrite <- triples_flat. f_equal. unfold memory, earth_table, divisor, offsets, coefs, offset.
  set (H := map fZ _).
  assert (L0 : length (flat3 EL0) = 558%nat) by (rewrite flat3_length; reflexivity). assert (L1 : length (flat3 EL1) = 342%nat) by (rewrite flat3_length; reflexivity).
  assert (L2 : length (flat3 EL2) = 180%nat) by (rewrite flat3_length; reflexivity). assert (L3 : length (flat3 EL3) = 24%nat) by (rewrite flat3_length; reflexivity).
  assert (L4 : length (flat3 EL4) = 12%nat) by (rewrite flat3_length; reflexivity). assert (L5 : length (flat3 EL5) = 12%nat) by (rewrite flat3_length; reflexivity).
  assert (LH : length (fZ 10000000000 :: H) = 20%nat) by reflexivity.
  change (fZ 10000000000 :: H ++ flat3 EL0 ++ flat3 EL1 ++ flat3 EL2 ++ flat3 EL3 ++ flat3 EL4 ++ flat3 EL5 ++ rest) with
    ((fZ 10000000000 :: H) ++ flat3 EL0 ++ flat3 EL1 ++ flat3 EL2 ++ flat3 EL3 ++ flat3 EL4 ++ flat3 EL5 ++ rest).
  set (P := fZ 10000000000 :: H) in *. clearbody P.
  assert (i = 0 \/ i = 1 \/ i = 2 \/ i = 3 \/ i = 4 \/ i = 5)%Z as [->|[->|[->|[->|[->| ->]]]]] by lia.
  - apply slice_mid; rewrite ?app_length, ?LH, ?L0; reflexivity.
  - rewrite app_assoc. apply slice_mid; rewrite ?app_length, ?LH, ?L0, ?L1; reflexivity.
  - rewrite 2!app_assoc. apply slice_mid; rewrite ?app_length, ?LH, ?L0, ?L1, ?L2; reflexivity.
  - rewrite 3!app_assoc. apply slice_mid; rewrite ?app_length, ?LH, ?L0, ?L1, ?L2, ?L3; reflexivity.
  - rewrite 4!app_assoc. apply slice_mid; rewrite ?app_length, ?LH, ?L0, ?L1, ?L2, ?L3, ?L4; reflexivity.
  - rewrite 5!app_assoc. apply slice_mid; rewrite ?app_length, ?LH, ?L0, ?L1, ?L2, ?L3, ?L4, ?L5; reflexivity.
Qed.
Lemma earth_header rest : length rest = 1518%nat -> has_header (earth_table rest) (2666, 10000000000, [20; 578; 920; 1100; 1124; 1136; 1148; 1217; 1226; 1229; 1229; 1229; 1229; 1937; 2363; 2618; 2633; 2660; 2666])%Z.
Proof.
  intros L. unfold has_header, memory, earth_table, divisor, offsets, coefs. rewrite ?app_length, ?map_length. cbn [length]. rewrite ?app_length, ?map_length, ?flat3_length, L.
  repeat split; reflexivity.
Qed.
Lemma groups_step n m0 i t g gs tn v : g <> [] -> sum_groups fcos n m0 i t (g :: gs) tn v =
  sum_groups fcos n m0 (i + 1) t gs (fmul tn t) (fadd v (fmul (sum_terms fcos t (firstn (Z.to_nat (wanted n m0 i (Z.of_nat (length g)))) g)) tn)).
Proof. destruct g; [easy|reflexivity]. Qed.
Lemma three_ne l : l <> [] -> map three_of l <> [].
Proof. destruct l; easy. Qed.
(** the sum of six groups with their powers, and the correction *)
Definition earth_sum (t S0 S1 S2 S3 S4 S5 : f64) : f64 :=
  let t2 := fmul t t in let t3 := fmul t2 t in
  fadd (fdiv (fadd (fadd (fadd (fadd (fadd (fadd (fZ 0) (fmul S0 (fZ 1))) (fmul S1 (fmul (fZ 1) t))) (fmul S2 (fmul (fmul (fZ 1) t) t))) (fmul S3 (fmul (fmul (fmul (fZ 1) t) t) t)))
     (fmul S4 (fmul (fmul (fmul (fmul (fZ 1) t) t) t) t))) (fmul S5 (fmul (fmul (fmul (fmul (fmul (fZ 1) t) t) t) t) t))) (fZ 10000000000))
   (fdiv (fadd (fadd (fadd (lit (-728) 10000) (fmul (lit (-27702) 10000) t)) (fmul (lit (-11019) 10000) t2)) (fmul (lit (-996) 10000) t3)) SerModel.rad).
Lemma earth_is XL0 rest t n : nth_error XL0 0 = Some (memory (earth_table rest)) -> length rest = 1518%nat -> (n <= 672000)%Z ->
  let k i m := Z.to_nat (wanted n 186 i m) in
  let S l := sum_terms fcos (fdiv t (fZ 10)) (map three_of l) in
  E_Lon fcos XL0 t n = Some (earth_sum (fdiv t (fZ 10)) (S (firstn (k 0%Z 186%Z) EL0)) (S (firstn (k 1%Z 114%Z) EL1)) (S (firstn (k 2%Z 60%Z) EL2)) (S (firstn (k 3%Z 8%Z) EL3)) (S (firstn (k 4%Z 4%Z) EL4)) (S (firstn (k 5%Z 4%Z) EL5))).
Proof.
  intros H HR Hn k S. unfold E_Lon, XL0_calc. pose proof (earth_header rest HR) as HH.
  assert (at_ XL0 0 = Some (memory (earth_table rest))) as -> by exact H. cbn [obind].
  assert (I : In (2666, 10000000000, [20; 578; 920; 1100; 1124; 1136; 1148; 1217; 1226; 1229; 1229; 1229; 1229; 1937; 2363; 2618; 2633; 2660; 2666])%Z headers) by (left; reflexivity).
  rewrite (C34_sum fcos (earth_table rest) 0 (fdiv t (fZ 10)) n (C34_shipped_headers _ _ I HH) ltac:(lia) (shipped_fits _ _ 0 n I HH ltac:(lia) Hn)). cbn [obind]. cbv zeta.
  change (0 =? 0)%Z with true. change (0 =? 1)%Z with false. change (0 =? 2)%Z with false. cbv iota. f_equal. unfold earth_sum. cbv zeta. f_equal. unfold coordinate. cbv zeta.
  change (divisor (earth_table rest)) with (fZ 10000000000). f_equal. cbn [map]. rewrite !earth_groups by lia.
  change (nth (Z.to_nat 0) els []) with EL0. change (nth (Z.to_nat 1) els []) with EL1. change (nth (Z.to_nat 2) els []) with EL2.
  change (nth (Z.to_nat 3) els []) with EL3. change (nth (Z.to_nat 4) els []) with EL4. change (nth (Z.to_nat 5) els []) with EL5.
  rewrite !groups_step by (apply three_ne; discriminate). cbn [sum_groups]. rewrite !map_length, !firstn_map.
  change (0 + 1)%Z with 1%Z. change (1 + 1)%Z with 2%Z. change (2 + 1)%Z with 3%Z. change (3 + 1)%Z with 4%Z. change (4 + 1)%Z with 5%Z.
  change (Z.of_nat (length EL0)) with 186%Z. change (Z.of_nat (length EL1)) with 114%Z. change (Z.of_nat (length EL2)) with 60%Z. change (Z.of_nat (length EL3)) with 8%Z.
  change (Z.of_nat (length EL4)) with 4%Z. change (Z.of_nat (length EL5)) with 4%Z. reflexivity.
Qed.
End Lib.
