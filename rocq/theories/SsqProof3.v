(** Proofs about the eras of SSQ::calc and its correction lookups. *)
From Coq Require Import ZArith Reals Lia Lra Bool List Ascii String.
From Coq Require Import Floats.SpecFloat.
From Flocq Require Import Core.
From Verif Require Import F64 F64R F64T CalProof Str StrModel FmtModel FmtProof2 SsqTab SsqModel SsqSpec SsqProof SsqProof2.
Import ListNotations.
Ltac Zify.zify_post_hook ::= idtac.
Open Scope R_scope.

Definition mz (x : f64) : Z := match x with S754_finite false m _ => Zpos m | _ => 0 end.
Definition ez (x : f64) : Z := match x with S754_finite false _ e => e | _ => 1 end.
Lemma R64_mz x e : ez x = e -> e <> 1%Z -> R64 x = IZR (mz x) * bpow radix2 e.
Proof. intros <-. destruct x as [| | |[|] m k]; cbn [ez]; try (intros H; now destruct H). intros _. reflexivity. Qed.

Lemma mean_suo jd : ok jd -> R64 (f1_of 0) <= R64 jd < R64 (f2_of 0) ->
  let x := fadd jd (fZ 14) in
  exists i d, (0 <= i < 11)%Z /\ seg_loop 24 suoKB 23 x 0 = Some (2 * i)%Z /\
    R64 (fat suoKB (2 * i)) <= R64 x < R64 (fat suoKB (2 * i + 2)) /\
    calc_mean suoKB (fZ 14) jd = Some (if Z.eqb d 1683460 then d + 1 - 2451545 else d - 2451545)%Z /\
    R64 x - R64 (fat suoKB (2 * i + 1)) - / 2 - / 100 <= IZR d <= R64 x + / 2 + / 100 /\
    exists n, (0 <= n)%Z /\ Rabs (IZR d - (R64 (fat suoKB (2 * i)) + R64 (fat suoKB (2 * i + 1)) * IZR n)) <= / 2 + / 100.
Proof.
  intros O Bj. destruct (f1_bounds 0) as [O1 B1]. destruct (f2_bounds 0) as [O2 B2]. destruct (fZ_ok 14) as [O3 E3]; [lia|].
  apply (calc_mean_ok suoKB 11 29 30 (-32) (mz (f2_of 0)) 60129542144 jd (fZ 14) (f1_of 0) (f2_of 0)); try assumption; try lia.
  - exact suo_table.
  - vm_compute. reflexivity.
  - lra.
  - rewrite E3. abs_small 2000000.
  - apply R64_mz; [vm_compute; reflexivity|lia].
  - rewrite E3. change (bpow radix2 (-32)) with (/ 4294967296). lra.
  - rewrite (R64_mz (fat suoKB (2 * 11)) (-32)); [|vm_compute; reflexivity|lia]. f_equal. 
  - apply Z.ltb_lt. vm_compute. reflexivity.
  - apply Z.leb_le. vm_compute. reflexivity.
Qed.
Lemma mean_qi jd : ok jd -> R64 (f1_of 1) <= R64 jd < R64 (f2_of 1) ->
  let x := fadd jd (fZ 7) in
  exists i d, (0 <= i < 35)%Z /\ seg_loop 72 qiKB 71 x 0 = Some (2 * i)%Z /\
    R64 (fat qiKB (2 * i)) <= R64 x < R64 (fat qiKB (2 * i + 2)) /\
    calc_mean qiKB (fZ 7) jd = Some (if Z.eqb d 1683460 then d + 1 - 2451545 else d - 2451545)%Z /\
    R64 x - R64 (fat qiKB (2 * i + 1)) - / 2 - / 100 <= IZR d <= R64 x + / 2 + / 100 /\
    exists n, (0 <= n)%Z /\ Rabs (IZR d - (R64 (fat qiKB (2 * i)) + R64 (fat qiKB (2 * i + 1)) * IZR n)) <= / 2 + / 100.
Proof.
  intros O Bj. destruct (f1_bounds 1) as [O1 B1]. destruct (f2_bounds 1) as [O2 B2]. destruct (fZ_ok 7) as [O3 E3]; [lia|].
  apply (calc_mean_ok qiKB 35 15 16 (-31) (mz (f2_of 1)) 15032385536 jd (fZ 7) (f1_of 1) (f2_of 1)); try assumption; try lia.
  - exact qi_table.
  - vm_compute. reflexivity.
  - lra.
  - rewrite E3. abs_small 2000000.
  - apply R64_mz; [vm_compute; reflexivity|lia].
  - rewrite E3. change (bpow radix2 (-31)) with (/ 2147483648). lra.
  - rewrite (R64_mz (fat qiKB (2 * 35)) (-31)); [|vm_compute; reflexivity|lia]. f_equal.
  - apply Z.ltb_lt. vm_compute. reflexivity.
  - apply Z.leb_le. vm_compute. reflexivity.
Qed.

(** ** The correction index *)
Lemma trop_ok : ok tropical /\ 365 <= R64 tropical <= 366.
Proof. apply withinZ; try lia. vm_compute. reflexivity. Qed.
Lemma syn_ok : ok synodic /\ 29 <= R64 synodic <= 30.
Proof. apply withinZ; try lia. vm_compute. reflexivity. Qed.
Lemma syn_near : 2953 / 100 <= R64 synodic.
Proof.
  destruct (lit_near 295306 10000 5) as [_ H]; try lia. fold synodic in H. change (bpow radix2 (5 - 54)) with (/ 562949953421312) in H.
  apply Rabs_le_inv in H. lra.
Qed.

(** a quotient of bounded positive doubles *)
Lemma quo_bounds (t k : f64) (M : R) : ok t -> ok k -> 1 <= R64 k <= 1000 -> 0 <= R64 t <= 1000000 -> R64 t <= M * R64 k -> 0 <= M <= 1000000 ->
  ok (fdiv t k) /\ 0 <= R64 (fdiv t k) <= M + / 1000000.
Proof.
  intros Ot Ok Bk Bt H HM.
  assert (Q0 : 0 <= R64 t / R64 k <= M).
  { split; [apply Rmult_le_pos; [lra|left; apply Rinv_0_lt_compat; lra]|].
    apply (Rmult_le_reg_r (R64 k)); [lra|]. unfold Rdiv. rewrite Rmult_assoc, Rinv_l by lra. lra. }
  destruct (fdiv_ok t k) as [O2 E2]; try assumption; [lra| |]. { abs_small 1000000. }
  split; [exact O2|]. rewrite E2. split; [apply rnd_ge_repr; [apply repr_0|lra]|].
  pose proof (rnd_near (R64 t / R64 k) 20 ltac:(lia)) as R2. change (bpow radix2 20) with 1048576 in R2. specialize (R2 ltac:(lra)).
  change (bpow radix2 (20 - 54)) with (/ 17179869184) in R2. lra.
Qed.

Lemma diff_bounds qs jd : ok jd -> R64 (f2_of qs) <= R64 jd < 2436935 ->
  ok (fsub jd (f2_of qs)) /\ 0 <= R64 (fsub jd (f2_of qs)) <= 2436935 - R64 (f2_of qs) + / 1000.
Proof.
  intros O Bj. destruct (f2_bounds qs) as [O2 B2].
  destruct (fsub_ok jd (f2_of qs)) as [O3 E3]; try assumption. { abs_small 3000000. }
  split; [exact O3|]. rewrite E3. split; [apply rnd_ge_repr; [apply repr_0|lra]|].
  pose proof (rnd_near (R64 jd - R64 (f2_of qs)) 21 ltac:(lia)) as R1. change (bpow radix2 21) with 2097152 in R1. specialize (R1 ltac:(lra)).
  change (bpow radix2 (21 - 54)) with (/ 8589934592) in R1. lra.
Qed.

Lemma int2_range (x : f64) (n : Z) : ok x -> 0 <= R64 x < IZR n -> (n <= 1000000)%Z -> exists i, int2 x = Some i /\ (0 <= i < n)%Z.
Proof.
  intros O B Hn. pose proof (Zfloor_lb (R64 x)) as L. pose proof (Zfloor_ub (R64 x)) as U.
  exists (Zfloor (R64 x)). rewrite int2_ok by exact O. set (f := Zfloor (R64 x)) in *. clearbody f.
  assert (0 <= f < n)%Z.
  { split; [|apply lt_IZR; lra]. assert (-1 < f)%Z by (apply lt_IZR; lra). lia. }
  split; [|assumption]. apply mk_int_in. unfold int_min, int_max. lia.
Qed.

Lemma corr_index_suo jd : ok jd -> R64 (f2_of 0) <= R64 jd < 2436935 -> exists i, corr_index 0 jd (f2_of 0) = Some i /\ (0 <= i < 16598)%Z.
Proof.
  intros O Bj. destruct (diff_bounds 0 jd O Bj) as [O1 B1]. rewrite f2_suo in B1. destruct syn_ok as [O2 B2]. pose proof syn_near as N.
  set (t := fsub jd (f2_of 0)) in *.
  destruct (quo_bounds t synodic 16590 O1 O2) as [O3 B3]; try lra.
  unfold corr_index. cbn [Z.eqb]. fold t. set (q := fdiv t synodic) in *. clearbody q. apply int2_range; [exact O3|lra|lia].
Qed.
Lemma corr_index_qi jd : ok jd -> R64 (f2_of 1) <= R64 jd < 2436935 -> exists i, corr_index 1 jd (f2_of 1) = Some i /\ (0 <= i < 7567)%Z.
Proof.
  intros O Bj. destruct (diff_bounds 1 jd O Bj) as [O1 B1]. pose proof f2_qi as F. destruct trop_ok as [O2 B2].
  set (t := fsub jd (f2_of 1)) in *.
  destruct (quo_bounds t tropical 315 O1 O2) as [O3 B3]; try lra.
  unfold corr_index. cbn [Z.eqb]. fold t. set (q := fdiv t tropical) in *. clearbody q.
  destruct (fZ_ok 24) as [O4 E4]; [lia|]. destruct (fmul_ok q (fZ 24)) as [O5 E5]; try assumption. { rewrite E4. abs_small 10000. }
  apply int2_range; [exact O5| |lia]. rewrite E5, E4. split; [apply rnd_ge_repr; [apply repr_0|lra]|].
  apply Rle_lt_trans with (IZR 7561); [|lra]. apply rnd_le_repr; [apply repr_IZR; lia|lra].
Qed.

(** ** The corrected era *)
Definition digit_shift (n : ascii) : Z := if Ascii.eqb n "1" then 1 else if Ascii.eqb n "2" then -1 else 0.
Definition low_day (e : ssq_env) (qs : Z) (jd : f64) : f64 :=
  if Z.eqb qs 0 then so_low e (so_angle jd (fZ 14)) else qi_low e (qi_angle jd (fZ 7)).

Lemma near_day (D : f64) : ok D -> Rabs (R64 D) <= 1000000000 ->
  exists d, ok (ffloor (fadd D (lit 5 10))) /\ R64 (ffloor (fadd D (lit 5 10))) = IZR d /\ Rabs (IZR d - R64 D) <= / 2 + / 1000 /\ (Z.abs d <= 1000000001)%Z.
Proof.
  intros O Bd. apply Rabs_le_inv in Bd. destruct lit_half as [O1 E1].
  destruct (fadd_ok D (lit 5 10)) as [O2 E2]; try assumption. { rewrite E1. abs_small 2000000000. }
  rewrite E1 in E2. pose proof (rnd_near (R64 D + 1 / 2) 30 ltac:(lia)) as R2. change (bpow radix2 30) with 1073741824 in R2. specialize (R2 ltac:(lra)).
  change (bpow radix2 (30 - 54)) with (/ 16777216) in R2. rewrite <- E2 in R2.
  destruct (ffloor_ok _ O2) as [O3 E3].
  pose proof (Zfloor_lb (R64 (fadd D (lit 5 10)))) as L. pose proof (Zfloor_ub (R64 (fadd D (lit 5 10)))) as U.
  set (d := Zfloor (R64 (fadd D (lit 5 10)))) in *. clearbody d. exists d.
  split; [exact O3|]. split; [exact E3|]. split; [apply Rabs_le; lra|].
  assert (-1000000002 < d < 1000000002)%Z by (split; apply lt_IZR; lra). lia.
Qed.

Lemma cast_shift (v : f64) d : ok v -> R64 v = IZR d -> (Z.abs d <= 1000000001)%Z ->
  cast_int (fadd v (fZ 1)) = Some (d + 1)%Z /\ cast_int (fsub v (fZ 1)) = Some (d - 1)%Z /\ cast_int v = Some d.
Proof.
  intros O E B. destruct (fZ_ok 1) as [O1 E1]; [lia|].
  assert (Bd : IZR (-1000000001) <= IZR d <= IZR 1000000001) by (split; apply IZR_le; lia).
  destruct (fadd_ok v (fZ 1)) as [O2 E2]; try assumption. { rewrite E, E1. abs_small 2000000000. }
  destruct (fsub_ok v (fZ 1)) as [O3 E3]; try assumption. { rewrite E, E1. abs_small 2000000000. }
  rewrite E, E1, <- plus_IZR, rnd_IZR in E2 by lia. rewrite E, E1, <- minus_IZR, rnd_IZR in E3 by lia.
  rewrite !cast_int_ok by assumption. rewrite E, E2, E3, !Ztrunc_IZR.
  split; [|split]; apply mk_int_in; unfold int_min, int_max; lia.
Qed.

Lemma calc_corr_ok e qs jd : qs = 0%Z \/ qs = 1%Z -> str_so e = expanded 1 -> str_qi e = expanded 0 ->
  ok jd -> R64 (f2_of qs) <= R64 jd < 2436935 -> ok (low_day e qs jd) -> Rabs (R64 (low_day e qs jd)) <= 1000000000 ->
  exists i c d, corr_index qs jd (f2_of qs) = Some i /\ (0 <= i < Z.of_nat (List.length (if Z.eqb qs 0 then str_so e else str_qi e)))%Z /\
    at_ (if Z.eqb qs 0 then str_so e else str_qi e) i = Some c /\
    Rabs (IZR d - R64 (low_day e qs jd)) <= / 2 + / 1000 /\
    calc_corr e qs (calc_pc qs) (f2_of qs) jd = Some (d + digit_shift c)%Z.
Proof.
  intros Hq Es Eq O Bj OD BD.
  assert (I : exists i, corr_index qs jd (f2_of qs) = Some i /\ (0 <= i < Z.of_nat (List.length (if Z.eqb qs 0 then str_so e else str_qi e)))%Z).
  { destruct Hq as [->| ->]; cbn [Z.eqb]; [rewrite Es|rewrite Eq].
    - replace (Z.of_nat (List.length (expanded 1))) with 16598%Z by (vm_compute; reflexivity). now apply corr_index_suo.
    - replace (Z.of_nat (List.length (expanded 0))) with 7567%Z by (vm_compute; reflexivity). now apply corr_index_qi. }
  destruct I as (i & EI & BI). destruct (at_some _ i BI) as [c Ec]. destruct (near_day _ OD BD) as (d & O1 & E1 & N1 & B1).
  exists i, c, d. split; [exact EI|]. split; [exact BI|]. split; [exact Ec|]. split; [exact N1|].
  unfold calc_corr. rewrite EI. cbn [obind]. rewrite Ec. cbn [obind].
  assert (ED : (if (qs =? 0)%Z then ffloor (fadd (so_low e (so_angle jd (calc_pc qs))) (lit 5 10))
            else ffloor (fadd (qi_low e (qi_angle jd (calc_pc qs))) (lit 5 10))) = ffloor (fadd (low_day e qs jd) (lit 5 10))).
  { destruct Hq as [->| ->]; reflexivity. }
  rewrite ED. destruct (cast_shift _ d O1 E1 B1) as (C1 & C2 & C3). unfold digit_shift.
  destruct (Ascii.eqb c "1"); [exact C1|]. destruct (Ascii.eqb c "2"); [exact C2|]. rewrite C3. f_equal. lia.
Qed.
