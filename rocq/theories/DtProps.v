(** Property C32: Delta T. *)
From Coq Require Import ZArith Reals Lia Lra Bool List.
From Coq Require Import Floats.SpecFloat.
From Flocq Require Import Core.
From Verif Require Import F64 F64R F64T SsqModel DtModel DtSpec DtProof.
Import ListNotations.
Open Scope R_scope.

Lemma y0_is : at_ dt_at (112 - 2) = Some (fZ 2028).
Proof. vm_compute. reflexivity. Qed.
Lemma t0_is : at_ dt_at (112 - 1) = Some (lit 726 10).
Proof. vm_compute. reflexivity. Qed.

(** No read outside the table, for every number that is not NaN (infinities included). *)
Theorem C32_reads_inside y : valid_binary 53 1024 y = true -> y <> S754_nan -> exists v, dt_calc y = Some v.
Proof.
  intros V N. unfold dt_calc. rewrite y0_is, t0_is. cbn [obind]. destruct (fgeb y (fZ 2028)) eqn:G; [destruct (fgtb _ _); eauto|].
  assert (exists k, (0 <= k < 22)%Z /\ dt_search 24 y 0 = Some (5 * k)%Z) as (k & Hk & ->).
  { destruct y as [s|s| |s m e].
    - exists 2%Z. split; [lia|]. destruct s; vm_compute; reflexivity.
    - destruct s; [|discriminate G]. exists 0%Z. split; [lia|]. vm_compute. reflexivity.
    - contradiction N; reflexivity.
    - assert (O : ok (S754_finite s m e)) by (split; [exact V|reflexivity]). destruct (fZ_ok 2028 ltac:(lia)) as [O2 E2].
      assert (L : R64 (S754_finite s m e) < 2028).
      { change (fgeb (S754_finite s m e) (fZ 2028)) with (fleb (fZ 2028) (S754_finite s m e)) in G. rewrite fleb_ok, E2 in G by assumption. destruct (Rle_bool_spec 2028 (R64 (S754_finite s m e))); [discriminate G|assumption]. }
      destruct (search_ok _ O L 24 0 ltac:(lia) ltac:(lia) ltac:(now left)) as (k & Hk & E & _). exists k. split; [exact Hk|exact E]. }
  cbn [obind]. assert (A : forall i, (0 <= i < 112)%Z -> exists x, at_ dt_at i = Some x).
  { intros i Hi. unfold at_. destruct (Z.leb_spec 0 i); [|lia]. destruct (nth_error dt_at (Z.to_nat i)) eqn:E; [eauto|]. apply nth_error_None in E. change (List.length dt_at) with 112%nat in E. lia. }
  destruct (A (5 * k)%Z ltac:(lia)) as (a & ->). destruct (A (5 * k + 5)%Z ltac:(lia)) as (b & ->). destruct (A (5 * k + 1)%Z ltac:(lia)) as (c1 & ->).
  destruct (A (5 * k + 2)%Z ltac:(lia)) as (c2 & ->). destruct (A (5 * k + 3)%Z ltac:(lia)) as (c3 & ->). destruct (A (5 * k + 4)%Z ltac:(lia)) as (c4 & ->). cbn [obind]. eauto.
Qed.
(** With NaN the search runs past the end of the table. *)
Theorem C32_nan_refuted : exists y, dt_calc y = None.
Proof. exists S754_nan. vm_compute. reflexivity. Qed.
(** From -10000 to 100000 the result is that of the table, the blend or the parabola, to a microsecond. *)
Theorem C32_value y : ok y -> -10000 <= R64 y <= 100000 ->
  exists v, dt_calc y = Some v /\ ok v /\ Rabs (R64 v - delta_T (R64 y)) <= / 1000000.
Proof.
  intros Oy Hy. unfold dt_calc. rewrite y0_is, t0_is. cbn [obind].
  destruct (fZ_ok 2028 ltac:(lia)) as [O20 E20]. destruct (fZ_ok 100 ltac:(lia)) as [O100 E100].
  change (fgeb y (fZ 2028)) with (fleb (fZ 2028) y). rewrite fleb_ok, E20 by assumption. unfold delta_T.
  destruct (Rle_bool_spec 2028 (R64 y)) as [C|C].
  - destruct (Rlt_dec (R64 y) 2028); [lra|].
    destruct (fadd_ok (fZ 2028) (fZ 100) O20 O100) as [Oz Ez]; [apply big; rewrite E20, E100; apply Rabs_le; lra|].
    rewrite E20, E100, <- plus_IZR, rnd_IZR in Ez by lia. change (IZR (2028 + 100)) with 2128 in Ez.
    change (fgtb y (fadd (fZ 2028) (fZ 100))) with (fltb (fadd (fZ 2028) (fZ 100)) y). rewrite fltb_ok, Ez by assumption.
    destruct (Rlt_bool_spec 2128 (R64 y)) as [D|D].
    + destruct (Rle_dec (R64 y) 2128); [lra|]. eexists. split; [reflexivity|].
      destruct (ext_ok y 1000 Oy ltac:(lra)) as (O1 & E1 & _); [apply Rabs_le; lra|]. split; [exact O1|]. lra.
    + destruct (Rle_dec (R64 y) 2128); [|lra]. eexists. split; [reflexivity|].
      destruct (blend_ok y Oy ltac:(lra)) as [O1 E1]. cbv zeta in O1, E1. split; [exact O1|]. lra.
  - destruct (Rlt_dec (R64 y) 2028); [|lra].
    destruct (table_ok y Oy ltac:(lra)) as (k & i & a & b & c1 & c2 & c3 & c4 & _ & -> & _ & _ & _ & Ea & Eb & E1 & E2 & E3 & E4 & OV & EV & _).
    cbn [obind]. rewrite Ea, Eb, E1, E2, E3, E4. cbn [obind]. eexists. split; [reflexivity|]. split; [exact OV|]. lra.
Qed.
(** The specification is continuous at both ends of the blend. *)
Theorem C32_continuous y : (Rabs (y - 2028) <= 10 -> Rabs (delta_T y - delta_T 2028) <= 2 * Rabs (y - 2028)) /\
  (Rabs (y - 2128) <= 10 -> Rabs (delta_T y - delta_T 2128) <= 3 * Rabs (y - 2128)).
Proof.
  assert (E28 : delta_T 2028 = 726 / 10).
  { unfold delta_T. destruct (Rlt_dec 2028 2028); [lra|]. destruct (Rle_dec 2028 2128); [|lra]. field. }
  assert (E21 : delta_T 2128 = parabola 2128).
  { unfold delta_T. destruct (Rlt_dec 2128 2028); [lra|]. destruct (Rle_dec 2128 2128); [|lra]. field. }
  split; intros H; apply Rabs_le_inv in H.
  - rewrite E28. unfold delta_T. destruct (Rlt_dec y 2028) as [L|L].
    + rewrite (in_table_row y rows 21 (2018, 690000, 3600, 0, 0)%Z).
      * change (IZR (next_first (skipn 22 rows))) with 2028. cbn [first_year cubic]. rewrite (Rabs_left (y - 2028)) by lra.
        replace ((690000 + 3600 * (10 * (y - 2018) / (2028 - 2018)) + 0 * (10 * (y - 2018) / (2028 - 2018)) ^ 2 + 0 * (10 * (y - 2018) / (2028 - 2018)) ^ 3) / 10000 - 726 / 10) with (36 / 100 * (y - 2028)) by field.
        apply Rabs_le. lra.
      * reflexivity.
      * intros j Hj. replace j with (Z.to_nat (Z.of_nat j)) by lia. rewrite next_year by lia. apply Rle_trans with 2018; [|lra]. change 2018 with (IZR (year 21)). apply IZR_le.
        pose proof (year_mono (Z.of_nat j + 1) (Z.to_nat (20 - Z.of_nat j)) ltac:(lia) ltac:(lia)) as M. replace (Z.of_nat j + 1 + Z.of_nat (Z.to_nat (20 - Z.of_nat j)))%Z with 21%Z in M by lia. exact M.
      * exact L.
    + destruct (Rle_dec y 2128); [|lra]. unfold parabola. rewrite (Rabs_pos_eq (y - 2028)) by lra. apply Rabs_le. split; nra.
  - rewrite E21. unfold delta_T. destruct (Rlt_dec y 2028); [lra|]. unfold parabola. destruct (Rle_dec y 2128).
    + rewrite (Rabs_left1 (y - 2128)) by lra. apply Rabs_le. split; nra.
    + rewrite (Rabs_pos_eq (y - 2128)) by lra. apply Rabs_le. split; nra.
Qed.
(** Between the rows the table jumps, by at most 4.4 seconds. *)
Theorem C32_jumps k c c' : nth_error rows k = Some c -> nth_error rows (Datatypes.S k) = Some c' ->
  (first_year c < first_year c')%Z /\ Rabs (cubic c 10 - cubic c' 0) <= 44 / 10.
Proof.
  intros E1 E2.
  assert (C : forallb (fun k => match nth_error rows k, nth_error rows (Datatypes.S k) with
     | Some (b, c0, c1, c2, c3), Some (b', c0', c1', c2', c3') => (b <? b')%Z && (Z.abs (c0 + 10 * c1 + 100 * c2 + 1000 * c3 - c0') <=? 44000)%Z
     | _, None => true | None, _ => false end) (seq 0 22) = true) by (vm_compute; reflexivity).
  rewrite forallb_forall in C. assert (k < List.length rows)%nat by (apply nth_error_Some; congruence). change (List.length rows) with 22%nat in H.
  specialize (C k ltac:(apply in_seq; lia)). rewrite E1, E2 in C. destruct c as [[[[b c0] c1] c2] c3], c' as [[[[b' d0] d1] d2] d3].
  rewrite andb_true_iff, Z.ltb_lt, Z.leb_le in C. destruct C as [C1 C2]. split; [exact C1|]. unfold cubic.
  assert (R1 : -44000 <= IZR (c0 + 10 * c1 + 100 * c2 + 1000 * c3 - d0) <= 44000) by (split; apply IZR_le; lia).
  rewrite minus_IZR, !plus_IZR, !mult_IZR in R1. apply Rabs_le. lra.
Qed.
(** [dt_T]: t days from J2000; the year is computed to a billionth, the result to a nanoday. *)
Theorem C32_dt_T t : ok t -> -4300000 <= R64 t <= 35000000 ->
  exists v y, dt_T t = Some v /\ ok v /\ Rabs (y - (2000 + R64 t / (3652425 / 10000))) <= / 1000000000 /\ Rabs (R64 v - delta_T y / 86400) <= / 10000000000.
Proof.
  intros Ot Ht. unfold dt_T. destruct (lit_ok 3652425 10000 ltac:(lia) ltac:(lia)) as [O1 E1]. destruct (fZ_ok 2000 ltac:(lia)) as [O2 E2].
  assert (N1 : Rabs (R64 (lit 3652425 10000) - 3652425 / 10000) <= / 35184372088832) by (rewrite E1; apply (rn 9 512); [lia|reflexivity|reflexivity|apply Rabs_le; lra]).
  apply Rabs_le_inv in N1. set (w := R64 (lit 3652425 10000)) in *.
  assert (I : 0 < / w <= / 365) by (split; [apply Rinv_0_lt_compat; lra|apply Rinv_le; lra]).
  assert (QB : Rabs (R64 t / w) <= 131072).
  { unfold Rdiv. rewrite Rabs_mult, (Rabs_pos_eq (/ w)) by lra. apply Rle_trans with (35000000 * / 365); [|lra]. apply Rmult_le_compat; try apply Rabs_pos; try lra. apply Rabs_le; lra. }
  destruct (fdiv_ok t (lit 3652425 10000) Ot O1) as [Oq Eq]; [fold w; lra|apply big; fold w; lra|]. fold w in Eq.
  assert (Nq : Rabs (R64 (fdiv t (lit 3652425 10000)) - R64 t / w) <= / 137438953472) by (rewrite Eq; apply (rn 17 131072); [lia|reflexivity|reflexivity|exact QB]).
  assert (Nw : Rabs (R64 t / w - R64 t / (3652425 / 10000)) <= / 100000000000).
  { replace (R64 t / w - R64 t / (3652425 / 10000)) with ((3652425 / 10000 - w) * R64 t * (/ w * (10000 / 3652425))) by (field; lra).
    rewrite !Rabs_mult. rewrite (Rabs_pos_eq (/ w)), (Rabs_pos_eq (10000 / 3652425)) by lra.
    assert (Rabs (3652425 / 10000 - w) <= / 35184372088832) by (apply Rabs_le; lra). assert (Rabs (R64 t) <= 35000000) by (apply Rabs_le; lra).
    apply Rle_trans with (/ 35184372088832 * 35000000 * (/ 365 * (10000 / 3652425))); [|lra].
    apply Rmult_le_compat; [apply Rmult_le_pos; apply Rabs_pos|apply Rmult_le_pos; lra|apply Rmult_le_compat; try apply Rabs_pos; lra|apply Rmult_le_compat; lra]. }
  pose proof (near_tri _ _ _ _ _ Nq Nw) as N3. set (q := fdiv t (lit 3652425 10000)) in *. clearbody q. set (Q := R64 t / (3652425 / 10000)) in *.
  assert (QR : -11780 <= Q <= 95830) by (unfold Q; lra). clearbody Q. apply Rabs_le_inv in N3.
  destruct (fadd_ok q (fZ 2000) Oq O2) as [Oy Ey]; [apply big; rewrite E2; apply Rabs_le; lra|]. rewrite E2 in Ey.
  assert (Ny : Rabs (R64 (fadd q (fZ 2000)) - (R64 q + 2000)) <= / 137438953472) by (rewrite Ey; apply (rn 17 131072); [lia|reflexivity|reflexivity|apply Rabs_le; lra]).
  apply Rabs_le_inv in Ny. destruct (C32_value (fadd q (fZ 2000)) Oy ltac:(lra)) as (v & -> & Ov & Nv). cbn [obind].
  assert (DB : Rabs (delta_T (R64 (fadd q (fZ 2000)))) <= 100000000).
  { set (y := R64 (fadd q (fZ 2000))) in *. assert (Y : -10000 <= y <= 100000) by lra. 
    unfold delta_T. destruct (Rlt_dec y 2028).
    - destruct (table_ok (fadd q (fZ 2000)) Oy ltac:(fold y; lra)) as (k & i & a & b & c1 & c2 & c3 & c4 & T). do 13 (destruct T as [_ T]). fold y in T. lra.
    - clearbody y. unfold parabola. destruct (Rle_dec y 2128); apply Rabs_le; split; nra. }
  assert (W : lit 864000 10 = fZ 86400) by (vm_compute; reflexivity). rewrite W. destruct (fZ_ok 86400 ltac:(lia)) as [O3 E3].
  destruct (fdiv_near v (fZ 86400) _ 86400 _ 1200 11 2048 8796093022208 Ov O3 Nv E3) as [Oz Ez]; [lra|lra|lia|reflexivity|reflexivity|lra|].
  eexists _, (R64 (fadd q (fZ 2000))). split; [reflexivity|]. split; [exact Oz|]. split; [apply Rabs_le; lra|]. apply (weaken _ _ _ Ez). lra.
Qed.
Example C32_witness : map (fun y => match dt_calc (fZ y) with Some v => int2 (fmul v (fZ 10)) | None => None end) [-10000; -720; 2000; 2030; 3000]%Z = [Some 4470597; Some 206251; Some 638; Some 760; Some 42964]%Z.
Proof. vm_compute. reflexivity. Qed.
Print Assumptions C32_reads_inside.
Print Assumptions C32_nan_refuted.
Print Assumptions C32_value.
Print Assumptions C32_continuous.
Print Assumptions C32_jumps.
Print Assumptions C32_dt_T.
