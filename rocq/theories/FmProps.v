(** C121: minutes and seconds shown by m2fm. *)
From Coq Require Import ZArith List Ascii String Bool Lia Reals Lra.
From Coq Require Import Floats.SpecFloat.
From Flocq Require Import Core IEEE754.BinarySingleNaN.
From Verif Require Import F64 F64R Str DecSpec ItoaModel ItoaProof DtoaModel DtoaSpec DtoaFix DtoaFix2 DtoaFix3 DtoaFix4 DtoaGen DtoaTab DtoaGrisu DtoaProps FmtModel FmModel.
Import ListNotations.
Open Scope opt_scope.
Open Scope R_scope.

(** ** the rounded quotient never crosses an integer *)
Notation fe := (FLT_exp (-1074) 53).
Lemma rnd_div60 v k : repr v -> (1 <= k <= 2 ^ 40)%Z -> 0 <= v -> v < 60 * IZR k -> rnd (v / 60) < IZR k.
Proof.
  intros RV HK V0 V.
  assert (K1 : 1 <= IZR k) by (apply IZR_le; lia).
  assert (RK : repr (IZR k)) by (apply repr_IZR; lia).
  assert (R60 : repr (60 * IZR k)). { rewrite <- mult_IZR. apply repr_IZR. lia. }
  unfold repr in *. change (SpecFloat.fexp 53 1024) with fe in *.
  pose (u := pred radix2 fe (IZR k)).
  assert (FU : generic_format radix2 fe u) by (apply generic_format_pred; [typeclasses eauto|exact RK]).
  assert (U : u < IZR k) by (apply pred_lt_id; lra).
  assert (SU : succ radix2 fe u = IZR k) by (apply succ_pred; [typeclasses eauto|exact RK]).
  assert (VP : v <= pred radix2 fe (60 * IZR k)). { apply pred_ge_gt; [typeclasses eauto|exact RV|exact R60|exact V]. }
  assert (PE : forall x, generic_format radix2 fe x -> 0 < x -> x = pred radix2 fe x + ulp radix2 fe (pred radix2 fe x)).
  { intros x FX X0. symmetry. apply pred_plus_ulp; [typeclasses eauto|exact X0|exact FX]. }
  set (w := pred radix2 fe (60 * IZR k)) in *.
  assert (EW : 60 * IZR k = w + ulp radix2 fe w) by (apply PE; [exact R60|lra]).
  assert (EU : IZR k = u + ulp radix2 fe u) by (apply PE; [exact RK|lra]).
  (* mag *)
  assert (HALF : / 2 <= u). { apply pred_ge_gt; [typeclasses eauto| |exact RK|lra]. replace (/ 2) with (IZR 1 * bpow radix2 (-1)) by (change (bpow radix2 (-1)) with (/ 2); lra). apply repr_scaled; lia. }
  destruct (mag radix2 u) as (e & He). specialize (He ltac:(lra)). rewrite Rabs_pos_eq in He by lra.
  assert (ULU : ulp radix2 fe u = bpow radix2 (e - 53)).
  { rewrite ulp_neq_0 by lra. unfold cexp. f_equal. assert (ME : mag_val radix2 u (mag radix2 u) = e). { apply mag_unique. rewrite Rabs_pos_eq by lra. exact He. } rewrite ME. unfold FLT_exp. assert (-1 < e)%Z. { apply (lt_bpow radix2). change (bpow radix2 (-1)) with (/ 2). lra. } lia. }
  assert (EP : (0 <= e)%Z). { assert (-1 < e)%Z; [|lia]. apply (lt_bpow radix2). change (bpow radix2 (-1)) with (/ 2). lra. }
  assert (E44 : (e <= 42)%Z). { assert (e - 1 < 41)%Z; [|lia]. apply (lt_bpow radix2). eapply Rle_lt_trans; [apply He|]. eapply Rlt_le_trans; [exact U|]. assert (IZR k <= IZR (2 ^ 40)) by (apply IZR_le; lia). change (bpow radix2 41) with (2 * IZR (2 ^ 40)). lra. }
  assert (W5 : bpow radix2 (e + 4) <= w).
  { apply pred_ge_gt; [typeclasses eauto| |exact R60|].
    - apply generic_format_bpow. unfold FLT_exp. lia.
    - replace (e + 4)%Z with (5 + (e - 1))%Z by lia. rewrite bpow_plus. change (bpow radix2 5) with 32. pose proof (bpow_gt_0 radix2 (e - 1)). lra. }
  assert (ULW : bpow radix2 (e - 48) <= ulp radix2 fe w).
  { pose proof (bpow_gt_0 radix2 (e + 4)). rewrite ulp_neq_0 by lra. unfold cexp. apply bpow_le. assert (e + 5 <= mag radix2 w)%Z. { apply mag_ge_bpow. replace (e + 5 - 1)%Z with (e + 4)%Z by lia. rewrite Rabs_pos_eq by lra. exact W5. } unfold FLT_exp. lia. }
  replace (e - 48)%Z with (5 + (e - 53))%Z in ULW by lia. rewrite bpow_plus in ULW. change (bpow radix2 5) with 32 in ULW. rewrite <- ULU in ULW.
  assert (UP : 0 < ulp radix2 fe u) by (rewrite ULU; apply bpow_gt_0).
  apply Rle_lt_trans with u; [|exact U]. unfold rnd. change (SpecFloat.fexp 53 1024) with fe. apply round_N_le_midp; [typeclasses eauto|exact FU|]. rewrite SU. lra.
Qed.
Lemma floor_div60 v : repr v -> 0 <= v -> v < 60 * IZR (2 ^ 40) -> Zfloor (rnd (v / 60)) = Zfloor (v / 60).
Proof.
  intros RV V0 V. set (n := Zfloor (v / 60)). pose proof (Zfloor_lb (v / 60)) as L. pose proof (Zfloor_ub (v / 60)) as Ub. fold n in L, Ub.
  assert (N0 : (0 <= n)%Z). { apply Zfloor_lub. change (IZR 0) with 0. lra. }
  assert (N1 : (n < 2 ^ 40)%Z). { apply lt_IZR. lra. }
  apply Zfloor_eq. split.
  - apply rnd_ge_repr; [apply repr_IZR; lia|exact L].
  - rewrite <- plus_IZR. apply rnd_div60; [exact RV|lia|exact V0|]. rewrite plus_IZR. lra.
Qed.
(** the seconds are exact *)
Lemma repr_sub60 v n : repr v -> (0 <= n <= 2 ^ 40)%Z -> 60 * IZR n <= v < 60 * IZR n + 60 -> repr (v - 60 * IZR n).
Proof.
  intros RV HN HV. assert (N0 : 0 <= IZR n) by (apply IZR_le; lia).
  destruct (FLT_format_generic radix2 (-1074) 53 v RV) as [[m e] EV HM HE]. cbn [Fnum Fexp] in HM, HE. unfold F2R in EV. cbn [Fnum Fexp] in EV.
  destruct (Z.le_gt_cases 0 e) as [Q|Q].
  - assert (EI : v - 60 * IZR n = IZR (m * 2 ^ e - 60 * n)). { rewrite minus_IZR, !mult_IZR, EV. rewrite <- (IZR_Zpower radix2 e Q). reflexivity. }
    assert (H : 0 <= IZR (m * 2 ^ e - 60 * n) < 60) by lra. rewrite EI. apply repr_IZR. destruct H as [H1 H2]. apply le_IZR in H1. apply lt_IZR in H2. lia.
  - assert (EI : v - 60 * IZR n = IZR (m - 60 * n * 2 ^ (- e)) * bpow radix2 e).
    { rewrite minus_IZR, !mult_IZR, EV. change (2 ^ (- e))%Z with (radix2 ^ (- e))%Z. rewrite (IZR_Zpower radix2 (- e)) by lia. rewrite Rmult_minus_distr_r, !Rmult_assoc, <- bpow_plus. replace (- e + e)%Z with 0%Z by lia. cbn [bpow]. ring. }
    rewrite EI. apply repr_scaled; [|exact HE].
    assert (P := bpow_gt_0 radix2 e). assert (H : 0 <= IZR (m - 60 * n * 2 ^ (- e)) * bpow radix2 e) by lra.
    assert (H1 : (0 <= m - 60 * n * 2 ^ (- e))%Z). { apply le_IZR. apply Rmult_le_reg_r with (bpow radix2 e); [exact P|]. rewrite Rmult_0_l. exact H. }
    assert (0 <= 60 * n * 2 ^ (- e))%Z by (apply Z.mul_nonneg_nonneg; [lia|apply Z.pow_nonneg; lia]). change (radix2 ^ 53)%Z with (2 ^ 53)%Z in HM. lia.
Qed.

(** ** the split *)
Lemma split_ok v : ok v -> Rabs (R64 v) < 2147483700 -> exists f m,
  m2fm_split v = Some (if Rlt_bool (R64 v) 0 then B "-" else [], f, m) /\ ok m /\ (0 <= f <= 35791394)%Z /\ 0 <= R64 m < 60 /\ Rabs (R64 v) = 60 * IZR f + R64 m.
Proof.
  intros V HV. unfold m2fm_split. destruct (fZ_ok 0 ltac:(lia)) as [O0 E0]. rewrite (fltb_ok v (fZ 0) V O0), E0.
  assert (CORE : forall w, ok w -> R64 w = Rabs (R64 v) -> exists f m, (let* f := floor_int (fdiv w (fZ 60)) in let* f60 := mk_int (f * 60) in Some (if Rlt_bool (R64 v) 0 then B "-" else [], f, fsub w (fZ f60))) = Some (if Rlt_bool (R64 v) 0 then B "-" else [], f, m) /\ ok m /\ (0 <= f <= 35791394)%Z /\ 0 <= R64 m < 60 /\ Rabs (R64 v) = 60 * IZR f + R64 m).
  { intros w W EW. pose proof (Rabs_pos (R64 v)) as P. destruct (fZ_ok 60 ltac:(lia)) as [O60 E60].
    assert (B1000 : forall x, 0 <= x < 2147483700 -> Rabs x <= bpow radix2 1000). { intros x Hx. rewrite Rabs_pos_eq by lra. apply Rle_trans with (bpow radix2 40); [|apply bpow_le; lia]. change (bpow radix2 40) with 1099511627776. lra. }
    destruct (fdiv_ok w (fZ 60) W O60) as [DO DE]; [rewrite E60; lra|rewrite E60, EW; apply B1000; lra|]. rewrite E60 in DE.
    assert (FL : Zfloor (R64 (fdiv w (fZ 60))) = Zfloor (Rabs (R64 v) / 60)). { rewrite DE, EW. apply floor_div60; [rewrite <- EW; now apply repr_R64|exact P|]. change (IZR (2 ^ 40)) with 1099511627776. lra. }
    set (f := Zfloor (Rabs (R64 v) / 60)) in *. pose proof (Zfloor_lb (Rabs (R64 v) / 60)) as L. pose proof (Zfloor_ub (Rabs (R64 v) / 60)) as Ub. fold f in L, Ub.
    assert (F0 : (0 <= f)%Z). { apply Zfloor_lub. lra. }
    assert (F1 : (f < 35791395)%Z). { apply lt_IZR. lra. }
    destruct (ffloor_ok _ DO) as [FO FE]. rewrite FL in FE.
    unfold floor_int. rewrite (cast_int_ok _ FO), FE, Ztrunc_IZR. rewrite (mk_int_in f) by (unfold int_min, int_max; lia). cbn [obind]. rewrite (mk_int_in (f * 60)) by (unfold int_min, int_max; lia). cbn [obind].
    destruct (fZ_ok (f * 60) ltac:(lia)) as [GO GE]. rewrite mult_IZR in GE.
    assert (ES : R64 w - R64 (fZ (f * 60)) = Rabs (R64 v) - 60 * IZR f) by (rewrite EW, GE; ring).
    destruct (fsub_ok w (fZ (f * 60)) W GO) as [SO SE]; [rewrite ES; apply B1000; assert (0 <= IZR f) by (apply IZR_le; lia); lra|].
    rewrite ES in SE. rewrite rnd_repr in SE. 2: { apply repr_sub60; [rewrite <- EW; now apply repr_R64|lia|lra]. }
    exists f, (fsub w (fZ (f * 60))). split; [reflexivity|]. split; [exact SO|]. split; [lia|]. rewrite SE. split; [lra|ring]. }
  destruct (Rlt_bool_spec (R64 v) 0) as [C|C].
  - destruct (fopp_ok v V) as [NO NE]. apply CORE; [exact NO|]. rewrite NE, Rabs_left by exact C. reflexivity.
  - apply CORE; [exact V|]. now rewrite Rabs_pos_eq.
Qed.

(** ** C121 *)
(** the units *)
Definition units_text (fs : Z) (u1 u2 : bytes) : Prop := fs = 0%Z /\ u1 = list_ascii_of_string "'" /\ u2 = [ascii_of_nat 34] \/ fs = 1%Z /\ u1 = list_ascii_of_string "分" /\ u2 = list_ascii_of_string "秒" \/ fs = 2%Z /\ u1 = list_ascii_of_string "m" /\ u2 = list_ascii_of_string "s".
(** below 2147483700 s the text is a sign, the whole minutes, and the text of the exact remainder of less than 60 s *)
Theorem C121_minutes_seconds beyond v fx fs u1 u2 : (forall i, (10 <= i <= 16)%Z -> beyond i <> None) -> ok v -> Rabs (R64 v) < 2147483700 -> (0 <= fx <= 8)%Z -> units_text fs u1 u2 ->
  exists f m tf tm, ok m /\ 0 <= R64 m < 60 /\ Rabs (R64 v) = 60 * IZR f + R64 m /\ int_text f tf /\ to_str_double beyond m fx 0 false = Some tm /\
  m2fm beyond v fx fs = Some ((if Rlt_dec (R64 v) 0 then ["-"%char] else []) ++ tf ++ u1 ++ tm ++ u2).
Proof.
  intros HB V HV HF HU. destruct (split_ok v V HV) as (f & m & E & M & F & RM & EV).
  destruct (to_str_int_ok 32 f ltac:(now left)) as (tf & TE & TT & _); [change (2 ^ 32)%Z with 4294967296%Z; change (2 ^ (32 - 1))%Z with 2147483648%Z; lia|].
  destruct (to_str_double beyond m fx 0 false) as [tm|] eqn:TM; [|exfalso; exact (C46_safe beyond m fx HB (or_introl M) HF TM)].
  exists f, m, tf, tm. split; [exact M|]. split; [exact RM|]. split; [exact EV|]. split; [exact TT|]. split; [exact TM|].
  assert (SG : (if Rlt_bool (R64 v) 0 then B "-" else []) = (if Rlt_dec (R64 v) 0 then ["-"%char] else [])). { destruct (Rlt_bool_spec (R64 v) 0), (Rlt_dec (R64 v) 0); try reflexivity; lra. }
  unfold m2fm. rewrite E. cbn [obind]. rewrite SG.
  assert (MU : m2fm_units fs = Some (u1, u2)) by (destruct HU as [(-> & -> & ->)|[(-> & -> & ->)|(-> & -> & ->)]]; reflexivity).
  rewrite MU. unfold to_str. rewrite TE. cbn [obind]. rewrite TM. reflexivity.
Qed.
(** seconds of at most 9 are shown to within half a unit of the last place (and half a spacing of the doubles) *)
Theorem C121_accuracy beyond v fx fs u1 u2 f r : (forall i, (10 <= i <= 16)%Z -> beyond i <> None) -> ok v -> Rabs (R64 v) < 2147483700 -> (1 <= fx <= 8)%Z -> units_text fs u1 u2 ->
  Rabs (R64 v) = 60 * IZR f + r -> bpow radix2 (-16) <= r <= 9 ->
  exists N tf tm, int_text f tf /\ fixed_text N fx tm /\ Rabs (60 * IZR f + IZR N * bpow r10 (- fx) - Rabs (R64 v)) <= / 2 * bpow r10 (- fx) + bpow radix2 (-49) /\
  m2fm beyond v fx fs = Some ((if Rlt_dec (R64 v) 0 then ["-"%char] else []) ++ tf ++ u1 ++ tm ++ u2).
Proof.
  intros HB V HV HF HU HR R9. destruct (C121_minutes_seconds beyond v fx fs u1 u2 HB V HV ltac:(lia) HU) as (f' & m & tf & tm & M & RM & EV & TT & TM & E).
  change (bpow radix2 (-16)) with (/ 65536) in R9.
  assert (EF : f' = f). { assert (A : IZR f' < IZR f + 1) by lra. assert (A2 : IZR f < IZR f' + 1) by lra. rewrite <- plus_IZR in A, A2. apply lt_IZR in A, A2. lia. }
  subst f'. assert (ER : R64 m = r) by lra.
  assert (RP : R64 m <> 0) by lra. destruct m as [s|s| |s mm e]; [now elim RP|now elim RP|now elim RP|]. clear RP.
  assert (s = false). { destruct s; [|reflexivity]. exfalso. assert (R64 (S754_finite true mm e) < 0); [|lra]. unfold R64, SF2R, cond_Zopp. apply F2R_lt_0. reflexivity. } subst s.
  assert (BD : SpecFloat.bounded 53 1024 mm e = true) by exact (proj1 M).
  destruct (C45_accuracy beyond false mm e fx HB BD HF) as (N & t & TE & FT & ACC). { rewrite ER. exact R9. }
  rewrite TM in TE. apply (f_equal (fun o => match o with Some x => x | None => [] end)) in TE. cbn [sgn app] in TE. subst t.
  exists N, tf, tm. split; [exact TT|]. split; [exact FT|]. split; [|exact E].
  rewrite HR, <- ER. replace (60 * IZR f + IZR N * bpow r10 (- fx) - (60 * IZR f + R64 (S754_finite false mm e))) with (IZR N * bpow r10 (- fx) - R64 (S754_finite false mm e)) by ring.
  eapply Rle_trans; [exact ACC|]. apply Rplus_le_compat_l.
  assert (EX : (e <= -49)%Z).
  { destruct (finite_range mm e BD) as (F53 & He & HN & _). destruct HN as [HN| ->]; [|lia]. destruct (Z_le_gt_dec e (-49)) as [Q|Q]; [exact Q|exfalso].
    assert (R64 (S754_finite false mm e) = IZR (Zpos mm) * bpow radix2 e) by reflexivity. assert (bpow radix2 (-48) <= bpow radix2 e) by (apply bpow_le; lia). change (bpow radix2 (-48)) with (/ 281474976710656) in *. apply IZR_le in HN. change (IZR (2 ^ 52)) with 4503599627370496 in HN.
    assert (4503599627370496 * / 281474976710656 <= IZR (Z.pos mm) * bpow radix2 e) by (apply Rmult_le_compat; lra). lra. }
  assert (bpow radix2 e <= bpow radix2 (-49)) by (apply bpow_le; exact EX). pose proof (bpow_gt_0 radix2 e). lra.
Qed.
(** any other third argument gives the text "error" *)
Theorem C121_other_units beyond v fx fs : ok v -> Rabs (R64 v) < 2147483700 -> (fs < 0 \/ 2 < fs)%Z -> m2fm beyond v fx fs = Some (list_ascii_of_string "error").
Proof.
  intros V HV HS. destruct (split_ok v V HV) as (f & m & E & _). unfold m2fm. rewrite E. cbn [obind]. unfold m2fm_units. destruct (Z.eqb_spec fs 0), (Z.eqb_spec fs 1), (Z.eqb_spec fs 2); try lia. reflexivity.
Qed.
(** from 35791395 minutes on the product of minutes and 60 overflows int *)
Theorem C121_range_refuted : exists v, ok v /\ R64 v = 2147483700 /\ forall beyond fx fs, m2fm beyond v fx fs = None.
Proof. exists (fZ 2147483700). destruct (fZ_ok 2147483700 ltac:(lia)) as [H1 H2]. split; [exact H1|]. split; [exact H2|]. intros. unfold m2fm. assert (E : m2fm_split (fZ 2147483700) = None) by (vm_compute; reflexivity). now rewrite E. Qed.

Definition seen (v : f64) (fx fs : Z) (t : bytes) : bool := match m2fm zero_beyond v fx fs with Some s => if list_eq_dec ascii_dec s t then true else false | None => false end.
(** 125.25 s, -7.5 s, 3723.04 s *)
Example C121_ex : seen (lit 12525 100) 2 0 (list_ascii_of_string "2'5.25" ++ [ascii_of_nat 34]) = true /\ seen (lit (-75) 10) 1 2 (list_ascii_of_string "-0m7.5s") = true /\ seen (lit 372304 100) 2 1 (list_ascii_of_string "62分3.04秒") = true.
Proof. vm_compute. exact (conj eq_refl (conj eq_refl eq_refl)). Qed.
Definition ex1 : f64 := S754_finite false 8813685208252416 (-46).
Example C121_accuracy_ex : ok ex1 /\ Rabs (R64 ex1) < 2147483700 /\ Rabs (R64 ex1) = 60 * 2 + 5.25 /\ bpow radix2 (-16) <= 5.25 <= 9 /\ units_text 2 (list_ascii_of_string "m") (list_ascii_of_string "s").
Proof.
  change (R64 ex1) with (8813685208252416 * / 70368744177664). rewrite Rabs_pos_eq by lra. change (bpow radix2 (-16)) with (/ 65536). split; [split; vm_compute; reflexivity|]. split; [lra|]. split; [lra|]. split; [lra|]. right. right. auto.
Qed.

(** ** what is wrong *)
(** 59.999 s (4 digits of an eclipse's radius in arc seconds, say) with two decimals is shown as 0 minutes 150.00 seconds; the seconds shown are neither below 60 nor near
    the value: the wrong carry of to_str (C45) meets the lack of a carry into the minutes *)
Theorem C121_seconds_refuted : exists v f m tf tm N, ok v /\ Rabs (R64 v) = 60 * IZR f + R64 m /\ 0 <= R64 m < 60 /\ int_text f tf /\ fixed_text N 2 tm /\
  m2fm zero_beyond v 2 2 = Some (tf ++ list_ascii_of_string "m" ++ tm ++ list_ascii_of_string "s") /\ 90 < IZR N * bpow r10 (-2) - R64 m.
Proof.
  exists (S754_finite false 8444108563831325 (-47)), 0%Z, (S754_finite false 8444108563831325 (-47)), (list_ascii_of_string "0"), (list_ascii_of_string "150.00"), 15000%Z.
  change (R64 (S754_finite false 8444108563831325 (-47))) with (8444108563831325 * / 140737488355328). rewrite Rabs_pos_eq by lra. change (bpow r10 (-2)) with (/ 100).
  split; [split; vm_compute; reflexivity|]. split; [lra|]. split; [lra|]. split; [|split; [|split; [vm_compute; reflexivity|lra]]].
  - split; [|reflexivity]. split; [discriminate|]. split; [repeat constructor; vm_compute; discriminate|]. intros t E. injection E as <-. reflexivity.
  - exists (list_ascii_of_string "150"), (list_ascii_of_string "00"). split; [reflexivity|]. split; [|split; [|split; reflexivity]].
    + split; [discriminate|]. split; [repeat constructor; vm_compute; discriminate|]. intros t E. discriminate E.
    + repeat constructor; vm_compute; discriminate.
Qed.
(** without decimals, the form used for the length of totality, the seconds are cut: 59.75 s is shown as 59 s *)
Theorem C121_cut_refuted : exists v tm N, ok v /\ int_text N tm /\ m2fm zero_beyond v 0 2 = Some (list_ascii_of_string "0m" ++ tm ++ list_ascii_of_string "s") /\ IZR N + / 2 < R64 v.
Proof.
  exists (S754_finite false 8409064929230848 (-47)), (list_ascii_of_string "59"), 59%Z. change (R64 (S754_finite false 8409064929230848 (-47))) with (8409064929230848 * / 140737488355328).
  split; [split; vm_compute; reflexivity|]. split; [|split; [vm_compute; reflexivity|lra]].
  split; [|reflexivity]. split; [discriminate|]. split; [repeat constructor; vm_compute; discriminate|]. intros t E. discriminate E.
Qed.
(** minus zero is shown with the sign between minutes and seconds *)
Theorem C121_minus_zero_refuted : m2fm zero_beyond (S754_zero true) 2 2 = Some (list_ascii_of_string "0m-0.00s").
Proof. vm_compute. reflexivity. Qed.

Print Assumptions C121_minutes_seconds. Print Assumptions C121_accuracy. Print Assumptions C121_other_units. Print Assumptions C121_range_refuted. Print Assumptions C121_seconds_refuted.
