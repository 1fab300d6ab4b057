(** C41: interpolation in the table of Besselian elements.  C42: coherence of the table. *)
From Coq Require Import ZArith Reals Lia Lra Bool List.
From Coq Require Import Floats.SpecFloat.
From Flocq Require Import Core.
From Verif Require Import F64 F64R F64T SsqModel AngModel AngProps DtProof SerProof2 RsgsModel CalProof.
Import ListNotations.
Ltac Zify.zify_post_hook ::= idtac.
Open Scope Z_scope.
Open Scope opt_scope.

Lemma centre_range c N : 3 <= N -> 1 <= centre c N <= N - 2.
Proof. intros H. unfold centre. cbv zeta. destruct (Z.leb_spec c 0); [destruct (Z.ltb_spec (N - 2) 1)|destruct (Z.ltb_spec (N - 2) c)]; lia. Qed.
Lemma sizes N size : 2 <= N -> size = 9 * N -> size / 9 = N /\ (N =? 0) = false /\ size / N = 9.
Proof. intros H ->. split; [rewrite Z.mul_comm; apply Z.div_mul; lia|]. split; [apply Z.eqb_neq; lia|]. apply Z.div_mul. lia. Qed.

Lemma rnd_box lo hi x : Z.abs lo <= 2 ^ 53 -> Z.abs hi <= 2 ^ 53 -> (IZR lo <= x <= IZR hi)%R -> (IZR lo <= rnd x <= IZR hi)%R.
Proof. intros H1 H2 H. split; [apply rnd_ge_repr; [now apply repr_IZR|lra]|apply rnd_le_repr; [now apply repr_IZR|lra]]. Qed.
(** ** C41: reads.  For a table of N >= 2 rows, any doubles as contents and as times: whenever the position of the time in the
    table can be converted to int (which is not even needed for two rows), all reads are inside the table. *)
Theorem C41_reads_inside Zs Zjd Zdt jd xt N : Z.of_nat (List.length Zs) = 9 * N -> 2 <= N -> 0 <= xt <= 2 ->
  (N = 2 \/ exists c, int2 (fadd (node_pos fadd fsub fdiv fZ (lit 5 10) Zjd Zdt jd N) (lit 5 10)) = Some c) ->
  exists z, chazhi_d Zs Zjd Zdt jd xt = Some z.
Proof.
  intros L HN Hx HC. unfold chazhi_d, chazhi. destruct (sizes N _ HN L) as (-> & E0 & ->). rewrite E0. cbv zeta.
  destruct (Z.eqb_spec N 2) as [E2|E2].
  - unfold linear. repeat match goal with |- context [at_ Zs ?i] => let x := fresh "x" in destruct (at_in Zs i ltac:(lia)) as (x & -> & _); cbn [obind] end. eauto.
  - destruct HC as [HC|(c & HC)]; [lia|]. rewrite HC. cbn [obind]. pose proof (centre_range c N ltac:(lia)) as R.
    set (k := centre c N) in *. clearbody k. unfold parabolic.
    repeat match goal with |- context [at_ Zs ?i] => let x := fresh "x" in destruct (at_in Zs i ltac:(nia)) as (x & -> & _); cbn [obind] end. eauto.
Qed.
(** With the spacing of the code the conversion is defined for all times within 10^6 days of the table (and up to 10^6 rows). *)
Theorem C41_times Zs Zjd jd xt N : Z.of_nat (List.length Zs) = 9 * N -> 2 <= N <= 1000000 -> 0 <= xt <= 2 -> ok Zjd -> ok jd -> (Rabs (R64 jd - R64 Zjd) <= 1000000)%R ->
  exists z, chazhi_d Zs Zjd Zdt jd xt = Some z.
Proof.
  intros L HN Hx Oz Oj B. apply (C41_reads_inside _ _ _ _ _ N L ltac:(lia) Hx). right. unfold node_pos.
  destruct (fsub_ok jd Zjd Oj Oz) as [O1 E1]; [apply big; lra|].
  assert (B1 : (Rabs (R64 (fsub jd Zjd)) <= 1000000)%R).
  { rewrite E1. apply Rabs_le_inv in B. apply Rabs_le. apply (rnd_box (-1000000) 1000000); [lia|lia|lra]. }
  destruct (lit_ok 4 100 ltac:(lia) ltac:(lia)) as [Od Ed]. fold Zdt in Od, Ed.
  assert (D : (/ 32 <= R64 Zdt <= / 16)%R).
  { rewrite Ed. split; [replace (/ 32)%R with (1 * bpow radix2 (-5))%R by (change (bpow radix2 (-5)) with (/ 32)%R; lra); apply rnd_ge_repr; [apply (repr_scaled 1); lia|change (bpow radix2 (-5)) with (/ 32)%R; lra]|
      replace (/ 16)%R with (1 * bpow radix2 (-4))%R by (change (bpow radix2 (-4)) with (/ 16)%R; lra); apply rnd_le_repr; [apply (repr_scaled 1); lia|change (bpow radix2 (-4)) with (/ 16)%R; lra]]. }
  assert (Q : (Rabs (R64 (fsub jd Zjd) / R64 Zdt) <= 32000000)%R).
  { unfold Rdiv. rewrite Rabs_mult. rewrite (Rabs_pos_eq (/ R64 Zdt)) by (apply Rlt_le, Rinv_0_lt_compat; lra).
    assert (/ R64 Zdt <= 32)%R by (rewrite <- (Rinv_inv 32); apply Rinv_le; lra). pose proof (Rabs_pos (R64 (fsub jd Zjd))). assert (0 < / R64 Zdt)%R by (apply Rinv_0_lt_compat; lra). nra. }
  destruct (fdiv_ok _ _ O1 Od) as [O2 E2]; [lra|apply big; lra|].
  assert (B2 : (Rabs (R64 (fdiv (fsub jd Zjd) Zdt)) <= 32000000)%R).
  { rewrite E2. apply Rabs_le_inv in Q. apply Rabs_le. apply (rnd_box (-32000000) 32000000); [lia|lia|lra]. }
  destruct (fZ_ok N ltac:(lia)) as [On En]. destruct (fZ_ok 2 ltac:(lia)) as [Ot Et].
  assert (IN : (2 <= IZR N <= 1000000)%R) by (split; apply IZR_le; lia).
  destruct (fdiv_ok _ _ On Ot) as [O3 E3]; [rewrite Et; lra|rewrite En, Et; apply big, Rabs_le; lra|].
  assert (B3 : (0 <= R64 (fdiv (fZ N) (fZ 2)) <= 500000)%R).
  { rewrite E3, En, Et. apply (rnd_box 0 500000); [lia|lia|lra]. }
  destruct (fadd_ok _ _ O2 O3) as [O4 E4]; [apply big; apply Rabs_le_inv in B2; apply Rabs_le; lra|].
  assert (B4 : (-32000000 <= R64 (fadd (fdiv (fsub jd Zjd) Zdt) (fdiv (fZ N) (fZ 2))) <= 32500000)%R).
  { rewrite E4. apply Rabs_le_inv in B2. apply (rnd_box (-32000000) 32500000); [lia|lia|lra]. }
  destruct lit_half as [Oh Eh]. assert (Eh' : (R64 (lit 5 10) = / 2)%R) by (rewrite Eh; lra).
  destruct (fsub_ok _ _ O4 Oh) as [O5 E5]; [apply big; rewrite Eh'; apply Rabs_le; lra|].
  assert (B5 : (-32000001 <= R64 (fsub (fadd (fdiv (fsub jd Zjd) Zdt) (fdiv (fZ N) (fZ 2))) (lit 5 10)) <= 32500000)%R).
  { rewrite E5, Eh'. apply (rnd_box (-32000001) 32500000); [lia|lia|lra]. }
  destruct (fadd_ok _ _ O5 Oh) as [O6 E6]; [apply big; rewrite Eh'; apply Rabs_le; lra|].
  assert (B6 : (-32000001 <= R64 (fadd (fsub (fadd (fdiv (fsub jd Zjd) Zdt) (fdiv (fZ N) (fZ 2))) (lit 5 10)) (lit 5 10)) <= 32500001)%R).
  { rewrite E6, Eh'. apply (rnd_box (-32000001) 32500001); [lia|lia|lra]. }
  eexists. rewrite int2_ok by exact O6. apply mk_int_in. unfold int_min, int_max.
  split; [apply Z.le_trans with (-32000001); [lia|apply Zfloor_lub; lra]|apply Z.le_trans with 32500001; [|lia]]. apply le_IZR. eapply Rle_trans; [apply Zfloor_lb|lra].
Qed.
(** One row is not enough: the centre becomes -1 and the reads are before the table. *)
Theorem C41_one_row_refuted : exists Zs, List.length Zs = 9%nat /\ forall jd xt, 0 <= xt <= 2 -> chazhi_d Zs (fZ 0) Zdt jd xt = None.
Proof.
  exists (repeat (fZ 1) 9). split; [reflexivity|]. intros jd xt Hx. unfold chazhi_d, chazhi. cbv zeta. change (Z.of_nat (List.length (repeat (fZ 1) 9)) / 9) with 1. change (1 =? 0) with false. change (1 =? 2) with false. cbv iota.
  change (Z.of_nat (List.length (repeat (fZ 1) 9)) / 1) with 9. destruct (int2 _) as [c|]; [|reflexivity]. cbn [obind].
  assert (centre c 1 = -1) as ->. { unfold centre. cbv zeta. destruct (Z.leb_spec c 0); [reflexivity|]. destruct (Z.ltb_spec (1 - 2) c); [reflexivity|lia]. }
  unfold parabolic. assert (at_ (repeat (fZ 1) 9) (xt * 3 + -1 * 9) = None) as -> by (unfold at_; destruct (Z.leb_spec 0 (xt * 3 + -1 * 9)); [lia|reflexivity]). reflexivity.
Qed.
(** ** C41: values, in exact arithmetic *)
Open Scope R_scope.
Lemma node_pos_R (Zjd Zdt jd : R) N : Zdt <> 0 -> node_pos Rplus Rminus Rdiv IZR (/ 2) Zjd Zdt jd N = (jd - Zjd) / Zdt + IZR N / 2 - / 2.
Proof. reflexivity. Qed.
(** column xt, component k, row i *)
Definition entry (Zs : list R) (i xt k : Z) : R := nth (Z.to_nat (9 * i + 3 * xt + k)) Zs 0.
Lemma at_entry (Zs : list R) N i xt k : Z.of_nat (List.length Zs) = (9 * N)%Z -> (0 <= i < N)%Z -> (0 <= xt <= 2)%Z -> (0 <= k <= 2)%Z -> forall p, p = (9 * i + 3 * xt + k)%Z -> at_ Zs p = Some (entry Zs i xt k).
Proof. intros L Hi Hx Hk p ->. destruct (at_in Zs (9 * i + 3 * xt + k) ltac:(lia)) as (x & A & B). rewrite A. unfold entry. f_equal. symmetry. now apply nth_error_nth. Qed.
(** the interpolation polynomial through rows c-1, c, c+1 *)
Definition quad (y : Z -> R) (c : Z) (s : R) : R := let t := s - IZR c in y c + (y (c + 1)%Z - y (c - 1)%Z + (y (c + 1)%Z + y (c - 1)%Z - y c * 2) * t) * t / 2.
Lemma chazhi_value (Zs : list R) Zjd Zdt jd xt N : Z.of_nat (List.length Zs) = (9 * N)%Z -> (3 <= N)%Z -> (0 <= xt <= 2)%Z -> 
  let s := (jd - Zjd) / Zdt + IZR N / 2 - / 2 in let c := centre (Zfloor (s + / 2)) N in let y k i := entry Zs i xt k in
  chazhi_R Zs Zjd Zdt jd xt = Some (quad (y 0%Z) c s, quad (y 1%Z) c s, quad (y 2%Z) c s).
Proof.
  intros L HN Hx s c y. unfold chazhi_R, chazhi. destruct (sizes N _ ltac:(lia) L) as (-> & E0 & ->). rewrite E0. cbv zeta.
  destruct (Z.eqb_spec N 2) as [E2|E2]; [lia|]. cbn [obind]. change (node_pos Rplus Rminus Rdiv IZR (/ 2) Zjd Zdt jd N) with s. fold c.
  pose proof (centre_range (Zfloor (s + / 2)) N HN) as R. fold c in R. unfold parabolic, quad, y. clearbody c.
  rewrite (at_entry Zs N c xt 0 L ltac:(lia) Hx ltac:(lia)) by lia. cbn [obind]. rewrite (at_entry Zs N (c + 1) xt 0 L ltac:(lia) Hx ltac:(lia)) by lia. cbn [obind]. rewrite (at_entry Zs N (c - 1) xt 0 L ltac:(lia) Hx ltac:(lia)) by lia. cbn [obind].
  rewrite (at_entry Zs N c xt 1 L ltac:(lia) Hx ltac:(lia)) by lia. cbn [obind]. rewrite (at_entry Zs N (c + 1) xt 1 L ltac:(lia) Hx ltac:(lia)) by lia. cbn [obind]. rewrite (at_entry Zs N (c - 1) xt 1 L ltac:(lia) Hx ltac:(lia)) by lia. cbn [obind].
  rewrite (at_entry Zs N c xt 2 L ltac:(lia) Hx ltac:(lia)) by lia. cbn [obind]. rewrite (at_entry Zs N (c + 1) xt 2 L ltac:(lia) Hx ltac:(lia)) by lia. cbn [obind]. rewrite (at_entry Zs N (c - 1) xt 2 L ltac:(lia) Hx ltac:(lia)) by lia. cbn [obind]. reflexivity.
Qed.
Lemma chazhi_value2 (Zs : list R) Zjd Zdt jd xt : Z.of_nat (List.length Zs) = 18%Z -> (0 <= xt <= 2)%Z ->
  let s := (jd - Zjd) / Zdt + 2 / 2 - / 2 in let lin k := entry Zs 0 xt k + (entry Zs 1 xt k - entry Zs 0 xt k) * s in
  chazhi_R Zs Zjd Zdt jd xt = Some (lin 0%Z, lin 1%Z, lin 2%Z).
Proof.
  intros L Hx s lin. unfold chazhi_R, chazhi. destruct (sizes 2 _ ltac:(lia) L) as (-> & E0 & ->). rewrite E0. cbv zeta. change (2 =? 2)%Z with true. cbv iota. change (node_pos Rplus Rminus Rdiv IZR (/ 2) Zjd Zdt jd 2) with s. unfold linear, lin.
  rewrite (at_entry Zs 2 0 xt 0 L ltac:(lia) Hx ltac:(lia)) by lia. cbn [obind]. rewrite (at_entry Zs 2 1 xt 0 L ltac:(lia) Hx ltac:(lia)) by lia. cbn [obind].
  rewrite (at_entry Zs 2 0 xt 1 L ltac:(lia) Hx ltac:(lia)) by lia. cbn [obind]. rewrite (at_entry Zs 2 1 xt 1 L ltac:(lia) Hx ltac:(lia)) by lia. cbn [obind].
  rewrite (at_entry Zs 2 0 xt 2 L ltac:(lia) Hx ltac:(lia)) by lia. cbn [obind]. rewrite (at_entry Zs 2 1 xt 2 L ltac:(lia) Hx ltac:(lia)) by lia. cbn [obind]. reflexivity.
Qed.
Lemma pos_of_row Zjd Zdt N i : Zdt <> 0 -> (row_time_R Zjd Zdt N i - Zjd) / Zdt + IZR N / 2 - / 2 = IZR i.
Proof. intros H. unfold row_time_R, row_time. field. exact H. Qed.
Lemma quad_node y c i : (c - 1 <= i <= c + 1)%Z -> quad y c (IZR i) = y i.
Proof.
  intros H. unfold quad. assert (i = (c - 1)%Z \/ i = c \/ i = (c + 1)%Z) as [->|[->| ->]] by lia.
  - rewrite minus_IZR. set (a := y c). set (b := y (c + 1)%Z). set (d := y (c - 1)%Z). field.
  - replace (IZR c - IZR c) with 0 by ring. set (a := y c). set (b := y (c + 1)%Z). set (d := y (c - 1)%Z). field.
  - rewrite plus_IZR. set (a := y c). set (b := y (c + 1)%Z). set (d := y (c - 1)%Z). field.
Qed.
(** At the time of every row, including the first and last, the interpolation returns that row. *)
Theorem C41_rows (Zs : list R) Zjd Zdt xt N i : Z.of_nat (List.length Zs) = (9 * N)%Z -> (2 <= N)%Z -> Zdt <> 0 -> (0 <= xt <= 2)%Z -> (0 <= i < N)%Z ->
  chazhi_R Zs Zjd Zdt (row_time_R Zjd Zdt N i) xt = Some (entry Zs i xt 0, entry Zs i xt 1, entry Zs i xt 2).
Proof.
  intros L HN HD Hx Hi. destruct (Z.eq_dec N 2) as [->|N2].
  - rewrite (chazhi_value2 Zs Zjd Zdt _ xt L Hx). cbv zeta. rewrite (pos_of_row Zjd Zdt 2 i HD). assert (i = 0%Z \/ i = 1%Z) as [->| ->] by lia; f_equal; f_equal; [f_equal|..|f_equal|]; ring.
  - rewrite (chazhi_value Zs Zjd Zdt _ xt N L ltac:(lia) Hx). cbv zeta. rewrite (pos_of_row Zjd Zdt N i HD).
    assert (Zfloor (IZR i + / 2) = i) as -> by (apply Zfloor_eq; lra).
    assert (centre i N - 1 <= i <= centre i N + 1)%Z by (unfold centre; cbv zeta; destruct (Z.leb_spec i 0); [destruct (Z.ltb_spec (N - 2) 1)|destruct (Z.ltb_spec (N - 2) i)]; lia).
    now rewrite !quad_node by assumption.
Qed.
(** Quantities that are quadratic in time are reproduced exactly at every time, inside the table or outside. *)
Theorem C41_quadratic (Zs : list R) Zjd Zdt jd xt N (a b d : Z -> R) : Z.of_nat (List.length Zs) = (9 * N)%Z -> (3 <= N)%Z -> Zdt <> 0 -> (0 <= xt <= 2)%Z ->
  let q k T := a k + b k * T + d k * T ^ 2 in
  (forall i k, (0 <= i < N)%Z -> (0 <= k <= 2)%Z -> entry Zs i xt k = q k (row_time_R Zjd Zdt N i)) ->
  chazhi_R Zs Zjd Zdt jd xt = Some (q 0%Z jd, q 1%Z jd, q 2%Z jd).
Proof.
  intros L HN HD Hx q HQ. rewrite (chazhi_value Zs Zjd Zdt jd xt N L HN Hx). cbv zeta. set (s := (jd - Zjd) / Zdt + IZR N / 2 - / 2).
  pose proof (centre_range (Zfloor (s + / 2)) N HN) as R. set (c := centre (Zfloor (s + / 2)) N) in *. clearbody c.
  assert (Ejd : jd = Zjd + (s - IZR N / 2 + / 2) * Zdt) by (unfold s; field; exact HD). clearbody s.
  assert (G : forall k, (0 <= k <= 2)%Z -> quad (fun i => entry Zs i xt k) c s = q k jd).
  { intros k Hk. unfold quad. rewrite !HQ by lia. unfold q, row_time_R, row_time. rewrite Ejd, minus_IZR, plus_IZR. field. }
  now rewrite !G by lia.
Qed.
(** With two rows: exact for quantities linear in time. *)
Theorem C41_linear (Zs : list R) Zjd Zdt jd xt (a b : Z -> R) : Z.of_nat (List.length Zs) = 18%Z -> Zdt <> 0 -> (0 <= xt <= 2)%Z ->
  let q k T := a k + b k * T in
  (forall i k, (0 <= i < 2)%Z -> (0 <= k <= 2)%Z -> entry Zs i xt k = q k (row_time_R Zjd Zdt 2 i)) ->
  chazhi_R Zs Zjd Zdt jd xt = Some (q 0%Z jd, q 1%Z jd, q 2%Z jd).
Proof.
  intros L HD Hx q HQ. rewrite (chazhi_value2 Zs Zjd Zdt jd xt L Hx). cbv zeta. rewrite !HQ by lia. unfold q, row_time_R, row_time. f_equal. f_equal; [f_equal|]; field; exact HD.
Qed.
Example C41_example : chazhi_R (map IZR [0;0;0;0;0;0;0;0;0; 1;0;0;0;0;0;0;0;0; 4;0;0;0;0;0;0;0;0]%Z) 0 1 (1 / 2) 0 = Some (9 / 4, 0, 0).
Proof.
  rewrite (C41_quadratic _ 0 1 (1 / 2) 0 3 (fun k => if (k =? 0)%Z then 1 else 0) (fun k => if (k =? 0)%Z then 2 else 0) (fun k => if (k =? 0)%Z then 1 else 0)); [|reflexivity|lia|lra|lia|].
  - cbn. f_equal. f_equal; [f_equal|]; field.
  - intros i k Hi Hk. assert (i = 0 \/ i = 1 \/ i = 2)%Z as [->|[->| ->]] by lia; assert (k = 0 \/ k = 1 \/ k = 2)%Z as [->|[->| ->]] by lia; unfold entry, row_time_R, row_time;
      match goal with |- context [Z.to_nat ?z] => let m := eval vm_compute in (Z.to_nat z) in change (Z.to_nat z) with m end; cbn [nth map Z.eqb Pos.eqb]; field.
Qed.

(** ** unwrapping of the angles, exact arithmetic *)
(** the test of eph/eph_rsgs.cpp:42-43, 54 over the reals *)
Definition unwrap_R (a0 x : R) : R := if Rlt_dec x a0 then x + 2 * PI else x.
(** If the motion th runs forward by less than a turn and the angles are given modulo a turn in [lo, lo + 2 pi), the stored angles
    differ by the true motion. *)
Theorem C63_unwrap lo th0 th a0 x : 0 <= th - th0 < 2 * PI -> lo <= a0 < lo + 2 * PI -> lo <= x < lo + 2 * PI ->
  (exists k, a0 = th0 + 2 * PI * IZR k) -> (exists k, x = th + 2 * PI * IZR k) -> unwrap_R a0 x - a0 = th - th0.
Proof.
  intros HT HA HX (k0 & K0) (k & K). pose proof PI_RGT_0 as P. unfold unwrap_R.
  assert (D : x - a0 = th - th0 + 2 * PI * IZR (k - k0)) by (rewrite minus_IZR, K, K0; ring).
  assert (B : (-2 < k - k0 < 1)%Z).
  { split; apply lt_IZR; apply (Rmult_lt_reg_l (2 * PI)); try lra. }
  assert (k - k0 = 0 \/ k - k0 = -1)%Z as [E|E] by lia; rewrite E in D; destruct (Rlt_dec x a0); lra.
Qed.
(** Backward motion is not handled: just before the first angle means almost a turn after it. *)
Theorem C63_backward_refuted : exists lo th0 th a0 x, th0 - / 10 <= th < th0 /\ lo <= a0 < lo + 2 * PI /\ lo <= x < lo + 2 * PI /\ a0 = th0 /\ x = th /\ unwrap_R a0 x - a0 = th - th0 + 2 * PI.
Proof.
  exists 0, 1, (1 - / 20), 1, (1 - / 20). pose proof PI_RGT_0. pose proof PI2_3_2. unfold PI2 in *. repeat split; try lra. unfold unwrap_R. destruct (Rlt_dec (1 - / 20) 1); lra.
Qed.

(** ** C42 *)
Open Scope Z_scope.
Section C42.
Variables (MS_aLon_t2 dt_T hcjj gxc_sunLon gxc_sunLat gxc_moonLon gxc_moonLat sind cosd tand atand : f64 -> f64)
          (nutation2 : f64 -> f64 * f64) (e_coord m_coord : f64 -> Z -> Z -> Z -> f3)
          (llrConv : f3 -> f64 -> f3) (llr2xyz xyz2llr : f3 -> f3) (pGST : f64 -> f64 -> f64).
Let table := init_table MS_aLon_t2 dt_T hcjj gxc_sunLon gxc_sunLat gxc_moonLon gxc_moonLat sind cosd tand atand nutation2 e_coord m_coord llrConv llr2xyz xyz2llr pGST.
Let run := init_all MS_aLon_t2 dt_T hcjj gxc_sunLon gxc_sunLat gxc_moonLon gxc_moonLat sind cosd tand atand nutation2 e_coord m_coord llrConv llr2xyz xyz2llr pGST.
Let rows := init_rows gxc_sunLon gxc_sunLat gxc_moonLon gxc_moonLat cosd e_coord m_coord llrConv llr2xyz xyz2llr pGST.
Let one := init_row gxc_sunLon gxc_sunLat gxc_moonLon gxc_moonLat cosd e_coord m_coord llrConv llr2xyz xyz2llr pGST.
(** the low-precision new moon of lunation k *)
Definition new_moon (k : Z) : f64 := fmul (MS_aLon_t2 (fmul (fmul (fZ k) dpi) (fZ 2))) (fZ 36525).
(** a call that makes sense: jd has a lunation number, and the new moon of that lunation has the same number *)
Definition proper (call : f64 * Z) : Prop :=
  (exists k, suoN (fst call) = Some k /\ suoN (new_moon k) = Some k) /\ 1 <= snd call <= 1000000.
Lemma row_length zjd dT zd E n i first SM : List.length (fst (one zjd dT zd E n i first SM)) = 9%nat.
Proof.
  unfold one, init_row. cbv zeta. destruct (if n =? 2 then _ else _) as [[[S0 S1] S2] [[M0 M1] M2]].
  repeat (destruct (llrConv _ _) as [[? ?] ?]). repeat (destruct (llr2xyz _) as [[? ?] ?]). destruct (xyz2llr _) as [[? ?] ?]. reflexivity.
Qed.
Lemma rows_length : forall k zjd dT zd E n i first SM, List.length (rows k zjd dT zd E n i first SM) = (9 * k)%nat.
Proof.
  unfold rows. induction k as [|k IH]; intros; [reflexivity|]. cbn [init_rows]. fold one. pose proof (row_length zjd dT zd E n i first SM) as L.
  destruct (one zjd dT zd E n i first SM) as [r SM']. cbn [fst] in L. rewrite app_length, L, IH. lia.
Qed.
(** the table has n rows of nine elements and belongs to the lunation asked for *)
Theorem C42_rows k n : 0 <= n -> Z.of_nat (List.length (Zs (table k n))) = 9 * n /\ Zjd (table k n) = new_moon k.
Proof. intros H. split; [|reflexivity]. unfold table, init_table. cbn [Zs]. fold rows. rewrite rows_length. lia. Qed.
Definition inv (st : rsgs) : Prop := st = rsgs0 \/ exists k n, 1 <= n /\ st = table k n /\ suoN (new_moon k) = Some k.
Lemma step_ok st jd n k : inv st -> suoN jd = Some k -> suoN (new_moon k) = Some k -> 1 <= n <= 1000000 ->
  init MS_aLon_t2 dt_T hcjj gxc_sunLon gxc_sunLat gxc_moonLon gxc_moonLat sind cosd tand atand nutation2 e_coord m_coord llrConv llr2xyz xyz2llr pGST st jd n = Some (table k n).
Proof.
  intros I HK HM Hn. unfold init. rewrite HK. cbn [obind].
  assert (G : exists k0, suoN (Zjd st) = Some k0 /\ (k0 = k -> Z.of_nat (List.length (Zs st)) = n * 9 -> st = table k n)).
  { destruct I as [->|(k0 & n0 & H0 & -> & HM0)].
    - exists 0. split; [reflexivity|]. intros _ L. cbn in L. lia.
    - exists k0. destruct (C42_rows k0 n0 ltac:(lia)) as [L E]. split; [rewrite E; exact HM0|]. intros -> L2. rewrite L in L2. assert (n0 = n) as -> by lia. reflexivity. }
  destruct G as (k0 & E0 & G). rewrite E0. cbn [obind]. rewrite mk_int_in by (unfold int_min, int_max; lia). cbn [obind].
  destruct (Z.eqb_spec k k0) as [->|]; cbn [andb]; [|reflexivity]. destruct (Z.eqb_spec (Z.of_nat (List.length (Zs st))) (n * 9)) as [L|]; [|reflexivity]. now rewrite (G eq_refl L).
Qed.
Lemma inv_run : forall calls st, inv st -> Forall proper calls -> exists st', run st calls = Some st' /\ inv st'.
Proof.
  unfold run. induction calls as [|[jd n] calls IH]; intros st I F; [exists st; split; [reflexivity|exact I]|]. inversion F as [|? ? [(k & K1 & K2) Hn] F']. subst. cbn [fst snd] in *. cbn [init_all].
  rewrite (step_ok st jd n k I K1 K2 Hn). cbn [obind]. apply IH; [|exact F']. right. exists k, n. split; [lia|]. split; [reflexivity|exact K2].
Qed.
(** Whatever calls were made before, after init(jd, n) all static members -- table, time, and the quantities derived from them -- are
    those that the same call leaves in a fresh program. *)
Theorem C42_history_free calls jd n k : Forall proper calls -> suoN jd = Some k -> suoN (new_moon k) = Some k -> 1 <= n <= 1000000 ->
  run rsgs0 (calls ++ [(jd, n)]) = Some (table k n) /\ run rsgs0 [(jd, n)] = Some (table k n).
Proof.
  intros F HK HM Hn. assert (R : forall st, inv st -> run st [(jd, n)] = Some (table k n)) by (intros st I; unfold run; cbn [init_all]; rewrite (step_ok st jd n k I HK HM Hn); reflexivity).
  split; [|apply R; now left]. destruct (inv_run calls rsgs0 (or_introl eq_refl) F) as (st & E & I).
  assert (A : forall cs st0, run st0 (cs ++ [(jd, n)]) = obind (run st0 cs) (fun s => run s [(jd, n)])).
  { unfold run. induction cs as [|[j m] cs IH]; intros st0; [reflexivity|]. cbn [app init_all]. destruct (init _ _ _ _ _ _ _ _ _ _ _ _ _ _ _ _ _ _ st0 j m); [apply IH|reflexivity]. }
  rewrite A, E. cbn [obind]. now apply R.
Qed.
End C42.
(** the hypotheses are met by the mean new moon, here for two calls in the same lunation with different numbers of rows *)
Example C42_example : let MS W := fdiv (fadd W (lit 108472 100000)) (lit 777137714500204 100000000000) in
  Forall (proper MS) [(fZ 5, 7); (fZ 36, 3)] /\ suoN (fZ 6) = Some 0 /\ suoN (new_moon MS 0) = Some 0.
Proof.
  cbv zeta. split; [|split; vm_compute; reflexivity]. constructor; [|constructor; [|constructor]].
  - split; [exists 0; split; vm_compute; reflexivity|cbn [snd]; lia].
  - split; [exists 1; split; vm_compute; reflexivity|cbn [snd]; lia].
Qed.
(** The condition on the new moon is needed: if it had the number of another lunation, a later call for that lunation would
    find a table that is not its own. *)
Theorem C42_needs_proper_new_moon : exists MS : f64 -> f64, forall dt_T hcjj g1 g2 g3 g4 sind cosd tand atand nutation2 e_coord m_coord llrConv llr2xyz xyz2llr pGST,
  let run := init_all MS dt_T hcjj g1 g2 g3 g4 sind cosd tand atand nutation2 e_coord m_coord llrConv llr2xyz xyz2llr pGST in
  exists a b, suoN (fZ 36) = Some 1 /\ run rsgs0 [(fZ 5, 2); (fZ 36, 2)] = Some a /\ run rsgs0 [(fZ 36, 2)] = Some b /\ feqb (Zjd a) (Zjd b) = false.
Proof.
  exists (fun W => if fltb W (fZ 1) then lit 36 36525 else lit 37 36525). intros. unfold run.
  set (T := init_table (fun W => if fltb W (fZ 1) then lit 36 36525 else lit 37 36525) dt_T hcjj g1 g2 g3 g4 sind cosd tand atand nutation2 e_coord m_coord llrConv llr2xyz xyz2llr pGST).
  exists (T 0 2), (T 1 2). split; [vm_compute; reflexivity|].
  assert (S0 : suoN (fZ 5) = Some 0) by (vm_compute; reflexivity). assert (S1 : suoN (fZ 36) = Some 1) by (vm_compute; reflexivity).
  assert (Z0 : suoN (fZ 0) = Some 0) by (vm_compute; reflexivity). assert (Z1 : suoN (Zjd (T 0 2)) = Some 1) by (vm_compute; reflexivity).
  assert (L : Z.of_nat (List.length (Zs (T 0 2))) = 18) by (unfold T; rewrite (proj1 (C42_rows _ _ _ _ _ _ _ _ _ _ _ _ _ _ _ _ _ _ 0 2 ltac:(lia))); reflexivity).
  cbn [init_all]. unfold init. fold T. change (Zjd rsgs0) with (fZ 0). rewrite S0, S1, Z0. cbn [obind]. change (mk_int (2 * 9)) with (Some 18). cbn [obind]. change (Z.of_nat (List.length (Zs rsgs0)) =? 18) with false. cbn [andb obind Z.eqb].
  rewrite Z1. cbn [obind]. rewrite L. split; [reflexivity|]. split; [reflexivity|]. vm_compute. reflexivity.
Qed.

(** ** the stored angles of doubles *)
Open Scope R_scope.
Theorem C63_unwrap_double a0 x : ok a0 -> ok x -> 0 <= R64 a0 <= 2 * R64 d2pi -> 0 <= R64 x -> R64 a0 <= R64 x + R64 d2pi -> R64 x <= 2 * R64 d2pi -> 
  ok (unwrap (Some a0) x) /\ R64 a0 <= R64 (unwrap (Some a0) x).
Proof.
  intros Oa Ox HA HX HL HX2. unfold unwrap. destruct (fltb x a0) eqn:E.
  - destruct d2pi_ok as [Op Ep]. pose proof dpi_range. destruct (fadd_ok x d2pi Ox Op) as [O R]; [apply big; rewrite Ep in *; apply Rabs_le; lra|]. split; [exact O|]. rewrite R. apply rnd_ge_repr; [now apply repr_R64|lra].
  - rewrite fltb_ok in E by assumption. destruct (Rlt_bool_spec (R64 x) (R64 a0)); [discriminate E|]. split; [exact Ox|lra].
Qed.
(** ** the stored table *)
(** llrConv and xyz2llr give longitudes in [0, 2 pi] (rad2mrad) *)
Definition is_turn (x : f64) : Prop := ok x /\ 0 <= R64 x <= R64 d2pi.
Lemma unwrap_above a0 x : ok a0 -> ok x -> 0 <= R64 x <= 10 -> R64 a0 <= rnd (R64 x + R64 d2pi) ->
  ok (unwrap (Some a0) x) /\ R64 a0 <= R64 (unwrap (Some a0) x).
Proof.
  intros Oa Ox HX HL. unfold unwrap. destruct (fltb x a0) eqn:E.
  - destruct d2pi_ok as [Op Ep]. pose proof dpi_range. destruct (fadd_ok x d2pi Ox Op) as [O R]; [apply big; rewrite Ep in *; apply Rabs_le; lra|].
    split; [exact O|]. now rewrite R.
  - rewrite fltb_ok in E by assumption. destruct (Rlt_bool_spec (R64 x) (R64 a0)); [discriminate E|]. split; [exact Ox|lra].
Qed.
Lemma rnd_mono x y : x <= y -> rnd x <= rnd y.
Proof. intros H. apply round_le; [apply (FLT_exp_valid (3 - 1024 - 53) 53)|apply valid_rnd_N|exact H]. Qed.
Lemma rnd_self x : ok x -> rnd (R64 x) = R64 x.
Proof. intros O. apply round_generic; [apply valid_rnd_N|now apply repr_R64]. Qed.
Section C63.
Variables (gxc_sunLon gxc_sunLat gxc_moonLon gxc_moonLat cosd : f64 -> f64) (e_coord m_coord : f64 -> Z -> Z -> Z -> f3)
          (llrConv : f3 -> f64 -> f3) (llr2xyz xyz2llr : f3 -> f3) (pGST : f64 -> f64 -> f64).
Hypothesis conv_turn : forall z E, is_turn (fst (fst (llrConv z E))).
Hypothesis llr_turn : forall z, is_turn (fst (fst (xyz2llr z))).
Let rows := init_rows gxc_sunLon gxc_sunLat gxc_moonLon gxc_moonLat cosd e_coord m_coord llrConv llr2xyz xyz2llr pGST.
Let one := init_row gxc_sunLon gxc_sunLat gxc_moonLon gxc_moonLat cosd e_coord m_coord llrConv llr2xyz xyz2llr pGST.
Let el j (r : list f64) := nth j r (fZ 0).
(** an angle a0 of the first row, and an angle x as computed for a later row *)
Definition later (a0 x : f64) : Prop := ok a0 /\ ok x /\ 0 <= R64 x <= 10 /\ R64 a0 <= rnd (R64 x + R64 d2pi).
Definition first_ok (f : option (f64 * f64 * f64)) : Prop :=
  match f with None => True | Some (a, b, c) => is_turn a /\ is_turn b /\ exists y, is_turn y /\ c = fadd (fdiv dpi (fZ 2)) y end.
Lemma half_pi : ok (fdiv dpi (fZ 2)) /\ R64 (fdiv dpi (fZ 2)) = R64 dpi / 2.
Proof.
  destruct dpi_ok as [Op Ep]. destruct (fZ_ok 2 ltac:(lia)) as [O2 E2]. pose proof dpi_range.
  destruct (fdiv_ok dpi (fZ 2) Op O2) as [O R]; [rewrite E2; lra|rewrite E2; apply big; apply Rabs_le; lra|]. split; [exact O|].
  rewrite R, E2, Ep. apply round_generic; [apply valid_rnd_N|].
  replace (IZR 7074237752028440 * bpow radix2 (-51) / 2) with (IZR 7074237752028440 * bpow radix2 (-52)).
  - apply repr_scaled; lia.
  - change (-52)%Z with (-51 + -1)%Z. rewrite bpow_plus. change (bpow radix2 (-1)) with (/ 2). lra.
Qed.
Lemma shifted y : is_turn y -> ok (fadd (fdiv dpi (fZ 2)) y) /\ R64 (fadd (fdiv dpi (fZ 2)) y) = rnd (R64 dpi / 2 + R64 y) /\
  R64 dpi / 2 <= R64 (fadd (fdiv dpi (fZ 2)) y) <= 10.
Proof.
  intros [Oy Y]. destruct half_pi as [Oh Eh]. destruct d2pi_ok as [_ E2]. destruct dpi_ok as [_ Ed]. pose proof dpi_range as D.
  assert (D' : R64 dpi < 3.15). { rewrite Ed. change (bpow radix2 (-51)) with (/ IZR (2 ^ 51)). simpl (2 ^ 51)%Z. lra. }
  destruct (fadd_ok _ y Oh Oy) as [O R]; [apply big; rewrite Eh, E2 in *; apply Rabs_le; lra|]. rewrite Eh in R.
  split; [exact O|]. split; [exact R|]. rewrite R. split.
  - rewrite <- Eh. rewrite <- (rnd_self (fdiv dpi (fZ 2)) Oh) at 1. apply rnd_mono. lra.
  - replace 10 with (IZR 10) by reflexivity. apply rnd_le_repr; [apply repr_IZR; lia|]. rewrite E2 in Y. lra.
Qed.
Lemma later_turn a x : is_turn a -> is_turn x -> later a x.
Proof.
  intros [Oa A] [Ox X]. destruct d2pi_ok as [Od E2]. pose proof dpi_range. split; [exact Oa|]. split; [exact Ox|]. split; [rewrite E2 in X; lra|].
  apply Rle_trans with (R64 d2pi); [apply A|]. rewrite <- (rnd_self d2pi Od) at 1. apply rnd_mono. lra.
Qed.
Lemma later_shift y z : is_turn y -> is_turn z -> later (fadd (fdiv dpi (fZ 2)) y) (fadd (fdiv dpi (fZ 2)) z).
Proof.
  intros Y Z. destruct (shifted y Y) as (O1 & R1 & B1). destruct (shifted z Z) as (O2 & R2 & B2). pose proof dpi_range.
  split; [exact O1|]. split; [exact O2|]. split; [lra|]. rewrite R1. apply rnd_mono. destruct Y as [_ Y]. lra.
Qed.
Lemma row_shape zjd dT zd E n i first SM : exists x y z, is_turn x /\ is_turn y /\ is_turn z /\
  el 0 (fst (one zjd dT zd E n i first SM)) = unwrap (option_map (fun f => fst (fst f)) first) x /\
  el 3 (fst (one zjd dT zd E n i first SM)) = unwrap (option_map (fun f => snd (fst f)) first) y /\
  el 6 (fst (one zjd dT zd E n i first SM)) = unwrap (option_map snd first) (fadd (fdiv dpi (fZ 2)) z).
Proof.
  unfold one, init_row, el. cbv zeta. destruct (if (n =? 2)%Z then _ else _) as [[[S0 S1] S2] [[M0 M1] M2]].
  match goal with |- context [llrConv ?a ?b] => pose proof (conv_turn a b) as T1; destruct (llrConv a b) as [[x0 x1] x2] end.
  match goal with |- context [llrConv ?a ?b] => pose proof (conv_turn a b) as T2; destruct (llrConv a b) as [[y0 y1] y2] end.
  repeat (destruct (llr2xyz _) as [[? ?] ?]).
  match goal with |- context [xyz2llr ?a] => pose proof (llr_turn a) as T3; destruct (xyz2llr a) as [[z0 z1] z2] end.
  exists x0, y0, z0. cbn [fst nth] in *.
  split; [exact T1|]. split; [exact T2|]. split; [exact T3|]. split; [reflexivity|]. split; reflexivity.
Qed.
Lemma rows_above : forall k zjd dT zd E n i f SM m, first_ok (Some f) -> (m < k)%nat ->
  forall j a, In (j, a) [(0%nat, fst (fst f)); (3%nat, snd (fst f)); (6%nat, snd f)] ->
  ok (el (9 * m + j) (rows k zjd dT zd E n i (Some f) SM)) /\ R64 a <= R64 (el (9 * m + j) (rows k zjd dT zd E n i (Some f) SM)).
Proof.
  induction k as [|k IH]; intros zjd dT zd E n i f SM m F Hm j a I; [lia|]. unfold rows in *. cbn [init_rows]. fold one.
  destruct (row_shape zjd dT zd E n i (Some f) SM) as (x & y & z & Tx & Ty & Tz & E0 & E3 & E6).
  pose proof (row_length gxc_sunLon gxc_sunLat gxc_moonLon gxc_moonLat cosd e_coord m_coord llrConv llr2xyz xyz2llr pGST zjd dT zd E n i (Some f) SM) as L. fold one in L.
  destruct (one zjd dT zd E n i (Some f) SM) as [r SM']. cbn [fst] in *. destruct m as [|m].
  - unfold el in *. destruct f as [[a0 a3] a6]. destruct F as (F0 & F3 & w & Tw & ->). cbn [fst snd option_map] in *. simpl (9 * 0 + j)%nat.
    destruct I as [I|[I|[I|[]]]]; injection I as <- <-; rewrite app_nth1 by (rewrite L; lia); rewrite ?E0, ?E3, ?E6.
    + destruct (later_turn _ _ F0 Tx) as (? & ? & ? & ?). now apply unwrap_above.
    + destruct (later_turn _ _ F3 Ty) as (? & ? & ? & ?). now apply unwrap_above.
    + destruct (later_shift _ _ Tw Tz) as (? & ? & ? & ?). now apply unwrap_above.
  - unfold el. rewrite app_nth2 by (rewrite L; lia). rewrite L. replace (9 * S m + j - 9)%nat with (9 * m + j)%nat by lia.
    exact (IH zjd dT zd E n (i + 1)%Z f SM' m F ltac:(lia) j a I).
Qed.
(** In the table that init stores, the right ascensions of Sun and Moon and of the crossing point (elements 0, 3 and 6 of each row)
    are never below those of the first row. *)
Theorem C63_table k zjd dT zd E n SM m j : (m < k)%nat -> In j [0; 3; 6]%nat ->
  ok (el (9 * m + j) (rows k zjd dT zd E n 0 None SM)) /\ R64 (el j (rows k zjd dT zd E n 0 None SM)) <= R64 (el (9 * m + j) (rows k zjd dT zd E n 0 None SM)).
Proof.
  intros Hm I. destruct k as [|k]; [lia|]. unfold rows. cbn [init_rows]. fold one.
  destruct (row_shape zjd dT zd E n 0 None SM) as (x & y & z & Tx & Ty & Tz & E0 & E3 & E6).
  pose proof (row_length gxc_sunLon gxc_sunLat gxc_moonLon gxc_moonLat cosd e_coord m_coord llrConv llr2xyz xyz2llr pGST zjd dT zd E n 0 None SM) as L. fold one in L.
  destruct (one zjd dT zd E n 0 None SM) as [r SM']. cbn [fst option_map unwrap] in *. unfold el in E0, E3, E6. rewrite E0, E3, E6.
  assert (Rj : forall t, el j (r ++ t) = nth j r (fZ 0)) by (intros t; unfold el; apply app_nth1; rewrite L; destruct I as [<-|[<-|[<-|[]]]]; lia).
  rewrite Rj. destruct m as [|m].
  - simpl (9 * 0 + j)%nat. rewrite Rj. split; [|lra]. destruct I as [<-|[<-|[<-|[]]]]; rewrite ?E0, ?E3, ?E6; [apply Tx|apply Ty|]. now destruct (shifted z Tz).
  - assert (Es : el (9 * S m + j) (r ++ init_rows gxc_sunLon gxc_sunLat gxc_moonLon gxc_moonLat cosd e_coord m_coord llrConv llr2xyz xyz2llr pGST k zjd dT zd E n (0 + 1) (Some (x, y, fadd (fdiv dpi (fZ 2)) z)) SM') =
      el (9 * m + j) (rows k zjd dT zd E n (0 + 1)%Z (Some (x, y, fadd (fdiv dpi (fZ 2)) z)) SM')).
    { unfold el at 1. rewrite app_nth2 by (rewrite L; lia). rewrite L. now replace (9 * S m + j - 9)%nat with (9 * m + j)%nat by lia. }
    rewrite Es. apply rows_above; [|lia|].
    + split; [exact Tx|]. split; [exact Ty|]. exists z. auto.
    + cbn [fst snd]. destruct I as [<-|[<-|[<-|[]]]]; rewrite ?E0, ?E3, ?E6; simpl; auto.
Qed.
End C63.
Example C63_table_example : let conv (z : f3) (E : f64) := (fZ 6, fZ 0, fZ 1) in is_turn (fst (fst (conv (fZ 0, fZ 0, fZ 0) (fZ 0)))).
Proof. cbv zeta. destruct (fZ_ok 6 ltac:(lia)) as [O E]. split; [exact O|]. cbn [fst]. rewrite E. destruct d2pi_ok as [_ ->]. pose proof dpi_range. lra. Qed.
Print Assumptions C41_times.
Print Assumptions C41_quadratic.
Print Assumptions C42_history_free.
Print Assumptions C63_unwrap.
Print Assumptions C63_table.
