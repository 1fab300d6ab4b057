(** Proofs about the lunar part of the month page: estimate-and-correct searches. *)
From Coq Require Import ZArith Lia Bool List Reals Lra.
From Flocq Require Import Core.
From Verif Require Import F64 F64R F64T Str DecSpec SsqModel SsqSpec SsqProof SsqProof2 SsqProof3 SsqProof5 CalProof ObTab ObSpec ObModel ObProof LunProof PageSpec PageModel PageProof.
Import ListNotations.
Ltac Zify.zify_post_hook ::= idtac.
Open Scope Z_scope.
Open Scope opt_scope.

(** ** divisions of small numbers of days *)
Definition ozeq (a : option Z) (b : Z) : bool := match a with Some x => x =? b | None => false end.
Lemma ozeq_eq a b : ozeq a b = true -> a = Some b.
Proof. destruct a; [|discriminate]. cbn. rewrite Z.eqb_eq. congruence. Qed.
Lemma div_term t : -30 <= t < 400 -> int2 (fdiv (fZ t) (lit 152184 10000)) = Some (10000 * t / 152184).
Proof.
  intros H. apply ozeq_eq. apply (sweep (fun t => ozeq (int2 (fdiv (fZ t) (lit 152184 10000))) (10000 * t / 152184)) (-30) (Z.to_nat 430)); [vm_compute; reflexivity|]. lia.
Qed.
Lemma div_month t : -30 <= t < 400 -> int2 (fdiv (fZ t) (lit 3043685 100000)) = Some (100000 * t / 3043685).
Proof.
  intros H. apply ozeq_eq. apply (sweep (fun t => ozeq (int2 (fdiv (fZ t) (lit 3043685 100000))) (100000 * t / 3043685)) (-30) (Z.to_nat 430)); [vm_compute; reflexivity|]. lia.
Qed.
Lemma div_30 t : 0 <= t < 1000 -> int2 (fdiv (fZ t) (fZ 30)) = Some (t / 30).
Proof.
  intros H. destruct (fZ_ok t ltac:(lia)) as [O1 V1]. destruct (fZ_ok 30 ltac:(lia)) as [O2 V2].
  rewrite (int2_div_Z _ _ t 30 O1 O2 V1 V2) by lia. apply mk_int_in. unfold int_min, int_max. Z.div_mod_to_equations; lia.
Qed.

(** ** period that contains a day *)
Lemma period_ex (S : Z -> Z) n d : 0 <= n -> S 0 <= d < S n -> exists i, 0 <= i < n /\ in_period S i d.
Proof.
  intros Hn. revert n Hn d. apply (natlike_ind (fun n => forall d, S 0 <= d < S n -> exists i, 0 <= i < n /\ in_period S i d)); [lia|].
  intros k Hk IH d H. destruct (Z_lt_le_dec d (S k)) as [L|L].
  - destruct (IH d ltac:(lia)) as (i & Hi & P). exists i. split; [lia|exact P].
  - exists k. split; [lia|]. unfold in_period. replace (k + 1) with (Z.succ k) by lia. lia.
Qed.
(** the correction step: the estimate is the period or the one before it *)
Lemma correct_step (S : Z -> Z) (d e i : Z) : (e = i \/ e = i - 1) -> in_period S i d -> (if S (e + 1) <=? d then e + 1 else e) = i.
Proof.
  intros [-> | ->] [L U].
  - destruct (Z.leb_spec (S (i + 1)) d); lia.
  - replace (i - 1 + 1) with i by lia. destruct (Z.leb_spec (S i) d); lia.
Qed.

(** ** months *)
Lemma natural_B (A B : Z -> Z) i : natural A B -> 0 <= i <= 14 -> 29 * i <= B i - B 0 <= 30 * i.
Proof.
  intros (N & _) [H H2]. revert i H H2.
  apply (natlike_ind (fun i => i <= 14 -> 29 * i <= B i - B 0 <= 30 * i)); [lia|].
  intros k Hk IH H. specialize (N k ltac:(lia)). replace (Z.succ k) with (k + 1) in * by lia. specialize (IH ltac:(lia)). lia.
Qed.
Lemma natural_cover (A B : Z -> Z) d : natural A B -> A 0 <= d < A 24 -> B 0 <= d < B 14.
Proof.
  intros N H. pose proof (natural_B A B 14 N ltac:(lia)) as H14. pose proof (natural_B A B 1 N ltac:(lia)) as H1.
  destruct N as (_ & _ & Y & M). unfold in_month in M. replace (0 + 1) with 1 in M by lia. lia.
Qed.
Lemma month_index_ok (A : Z -> Z) (HS : list Z) d i : List.length HS = 15%nat -> natural A (tab HS) -> int_min <= d - tab HS 0 <= int_max ->
  0 <= i < 14 -> in_period (tab HS) i d -> month_index HS d = Some i.
Proof.
  intros L N I Hi P. set (B := tab HS) in *. pose proof P as [P1 P2].
  pose proof (natural_B A B i N ltac:(lia)) as Q1. pose proof (natural_B A B (i + 1) N ltac:(lia)) as Q2.
  unfold month_index. rewrite (at_tab HS 0) by (rewrite L; lia). cbn [obind]. fold B. rewrite mk_int_in by exact I. cbn [obind].
  rewrite div_30 by lia. cbn [obind]. set (e := (d - B 0) / 30).
  assert (E : e = i \/ e = i - 1) by (unfold e; Z.div_mod_to_equations; lia).
  assert (E0 : 0 <= e) by (unfold e; Z.div_mod_to_equations; lia). clearbody e.
  destruct (Z.ltb_spec e 13) as [L13|L13].
  - rewrite (at_tab HS (e + 1)) by (rewrite L; lia). cbn [obind]. fold B. f_equal. now apply correct_step.
  - f_equal. lia.
Qed.

(** ** terms *)
Lemma term_index_ok (ZQ : list Z) d i : List.length ZQ = 25%nat -> even_terms (tab ZQ) ->
  int_min <= d - tab ZQ 0 <= int_max ->
  0 <= i < 24 -> in_period (tab ZQ) i d -> term_index ZQ d = Some i.
Proof.
  intros L N I Hi P. set (A := tab ZQ) in *. pose proof P as [P1 P2].
  pose proof (N i ltac:(lia)) as Q1. pose proof (N (i + 1) ltac:(lia)) as Q2. pose proof (N 0 ltac:(lia)) as Q0.
  assert (B1 : 0 <= d - A 0 < 380).
  { destruct (Z.eq_dec i 0) as [->|]; lia. }
  unfold term_index. rewrite (at_tab ZQ 0) by (rewrite L; lia). cbn [obind]. fold A.
  rewrite mk_int_in by exact I. cbn [obind]. rewrite mk_int_in by (unfold int_min, int_max; lia). cbn [obind].
  rewrite div_term by lia. cbn [obind]. set (e := 10000 * (d - A 0 - 7) / 152184).
  assert (E : e = i \/ e = i - 1) by (unfold e; Z.div_mod_to_equations; lia). clearbody e.
  destruct (Z.ltb_spec e 23) as [L23|L23].
  - rewrite (at_tab ZQ (e + 1)) by (rewrite L; lia). cbn [obind]. fold A. f_equal. now apply correct_step.
  - f_equal. lia.
Qed.
Lemma even_span A i j : even_terms A -> 0 <= i <= 24 -> 0 <= j <= 24 -> -140000 <= 10000 * (A j - A i) - 152184 * (j - i) <= 140000.
Proof. intros N Hi Hj. pose proof (N i Hi). pose proof (N j Hj). lia. Qed.

(** ** month pillar and zodiac *)
(** the number of odd terms (jie) up to a day *)
Lemma jie_index_ok (ZQ : list Z) d k : List.length ZQ = 25%nat -> even_terms (tab ZQ) -> tab ZQ 0 <= d < tab ZQ 24 ->
  int_min <= d - tab ZQ 0 <= int_max -> 0 <= k <= 12 ->
  (0 < k -> tab ZQ (2 * k - 1) <= d) -> (k < 12 -> d < tab ZQ (2 * k + 1)) ->
  (let* z0 := at_ ZQ 0 in let* t := mk_int (d - z0) in let* mk := int2 (fdiv (fZ t) (lit 3043685 100000)) in
   if mk <? 12 then let* z := at_ ZQ (2 * mk + 1) in Some (if z <=? d then mk + 1 else mk) else Some mk) = Some k.
Proof.
  intros L N R I Hk K1 K2. set (A := tab ZQ) in *.
  rewrite (at_tab ZQ 0) by (rewrite L; lia). cbn [obind]. fold A. rewrite mk_int_in by exact I. cbn [obind].
  assert (B1 : 0 <= d - A 0 < 380) by (pose proof (N 24 ltac:(lia)); lia).
  rewrite div_month by lia. cbn [obind]. set (e := 100000 * (d - A 0) / 3043685).
  assert (E : e = k \/ e = k - 1).
  { destruct (Z.eq_dec k 0) as [->|]; [|destruct (Z.eq_dec k 12) as [->|]].
    - pose proof (N 1 ltac:(lia)). specialize (K2 ltac:(lia)). replace (2 * 0 + 1) with 1 in K2 by lia. left. unfold e. Z.div_mod_to_equations; lia.
    - pose proof (N 23 ltac:(lia)). specialize (K1 ltac:(lia)). replace (2 * 12 - 1) with 23 in K1 by lia. unfold e. Z.div_mod_to_equations; lia.
    - pose proof (N (2 * k - 1) ltac:(lia)). pose proof (N (2 * k + 1) ltac:(lia)). specialize (K1 ltac:(lia)). specialize (K2 ltac:(lia)).
      unfold e. Z.div_mod_to_equations; lia. }
  assert (E0 : 0 <= e) by (unfold e; Z.div_mod_to_equations; lia). clearbody e.
  destruct (Z.ltb_spec e 12) as [L12|L12].
  - rewrite (at_tab ZQ (2 * e + 1)) by (rewrite L; lia). cbn [obind]. fold A. f_equal.
    destruct E as [->| ->].
    + destruct (Z.leb_spec (A (2 * k + 1)) d); lia.
    + replace (2 * (k - 1) + 1) with (2 * k - 1) by lia. destruct (Z.leb_spec (A (2 * k - 1)) d); lia.
  - f_equal. lia.
Qed.
(** the period of the major terms *)
Lemma zhongqi_index_ok (ZQ : list Z) d k : List.length ZQ = 25%nat -> even_terms (tab ZQ) ->
  int_min <= d - tab ZQ 0 <= int_max -> 0 <= k < 12 -> tab ZQ (2 * k) <= d < tab ZQ (2 * k + 2) ->
  zodiac ZQ d = at_ str_xz k.
Proof.
  intros L N I Hk K. set (A := tab ZQ) in *. unfold zodiac.
  rewrite (at_tab ZQ 0) by (rewrite L; lia). cbn [obind]. fold A. rewrite mk_int_in by exact I. cbn [obind].
  pose proof (N (2 * k) ltac:(lia)) as N1. pose proof (N (2 * k + 2) ltac:(lia)) as N2.
  assert (B0 : 0 <= d - A 0) by (destruct (Z.eq_dec k 0) as [->|]; [change (2 * 0) with 0 in K; lia|lia]).
  rewrite mk_int_in by (unfold int_min, int_max in *; lia). cbn [obind].
  rewrite div_month by lia. cbn [obind]. set (e := 100000 * (d - A 0 - 15) / 3043685).
  assert (E : e = k \/ e = k - 1) by (unfold e; Z.div_mod_to_equations; lia). clearbody e.
  assert (X : (if e <? 11 then let* z := at_ ZQ (2 * e + 2) in Some (if z <=? d then e + 1 else e) else Some e) = Some k).
  { destruct (Z.ltb_spec e 11) as [L12|L12].
    - rewrite (at_tab ZQ (2 * e + 2)) by (rewrite L; lia). cbn [obind]. fold A. f_equal.
      destruct E as [->| ->].
      + destruct (Z.leb_spec (A (2 * k + 2)) d); lia.
      + replace (2 * (k - 1) + 2) with (2 * k) by lia. destruct (Z.leb_spec (A (2 * k)) d); lia.
    - f_equal. lia. }
  rewrite X. cbn [obind]. f_equal. rewrite Z.rem_mod_nonneg by lia. replace (k + 12) with (k + 1 * 12) by lia. rewrite Z.mod_add, Z.mod_small by lia. reflexivity.
Qed.

(** ** rounding to years *)
Lemma trop_quot v : Z.abs v <= 2000000000 -> ok (fdiv (fZ v) (lit 3652422 10000)) /\
  (- / 100000 <= R64 (fdiv (fZ v) (lit 3652422 10000)) - IZR (10000 * v) / 3652422 <= / 100000)%R.
Proof.
  intros Hv. destruct (fZ_ok v) as [O1 E1]; [lia|]. pose proof trop_ok as TO. fold tropical. destruct TO as [O2 B2].
  destruct (lit_near 3652422 10000 9) as [_ L]; try lia. fold tropical in L. change (bpow radix2 (9 - 54)) with (/ 35184372088832)%R in L.
  apply Rabs_le_inv in L.
  assert (RV : (-2000000000 <= IZR v <= 2000000000)%R) by (split; apply IZR_le; lia).
  set (tr := R64 tropical) in *.
  assert (I : (/ tr - / (3652422 / 10000) = (3652422 / 10000 - tr) * (/ tr * / (3652422 / 10000)))%R) by (field; lra).
  assert (I1 : (0 < / tr <= / 300)%R) by (split; [apply Rinv_0_lt_compat; lra|apply Rinv_le; lra]).
  assert (I2 : (0 < / (3652422 / 10000) <= / 300)%R) by lra.
  assert (I3 : (0 < / tr * / (3652422 / 10000) <= / 90000)%R) by (split; nra).
  assert (I4 : (- / 3000000000000000000 <= / tr - / (3652422 / 10000) <= / 3000000000000000000)%R) by (rewrite I; split; nra).
  assert (Q : (- / 1000000 <= IZR v / tr - IZR v / (3652422 / 10000) <= / 1000000)%R).
  { replace (IZR v / tr - IZR v / (3652422 / 10000))%R with (IZR v * (/ tr - / (3652422 / 10000)))%R by (field; lra).
    split; nra. }
  assert (Q2 : (- 6000000 <= IZR v / (3652422 / 10000) <= 6000000)%R) by lra.
  destruct (fdiv_ok (fZ v) tropical) as [O3 E3]; try assumption; [fold tr; lra|fold tr; rewrite E1; abs_small 7000000%R|]. fold tr in E3. rewrite E1 in E3.
  pose proof (rnd_near (IZR v / tr) 23 ltac:(lia)) as R1. change (bpow radix2 23) with 8388608%R in R1. specialize (R1 ltac:(lra)).
  change (bpow radix2 (23 - 54)) with (/ 2147483648)%R in R1. rewrite <- E3 in R1. split; [exact O3|].
  rewrite mult_IZR. lra.
Qed.
Lemma year_round_near D k : Z.abs D <= 2000000000 -> -1700000 <= 10000 * D - 3652422 * k <= 1700000 -> year_round D = Some k.
Proof.
  intros HD HK. unfold year_round. destruct (trop_quot D HD) as [O1 Q]. set (q := fdiv (fZ D) (lit 3652422 10000)) in *. clearbody q.
  assert (HK2 : (-1700000 <= IZR (10000 * D) - 3652422 * IZR k <= 1700000)%R).
  { rewrite <- mult_IZR, <- minus_IZR. split; apply IZR_le; lia. }
  assert (KB : (-6000000 <= IZR k <= 6000000)%R) by (split; apply IZR_le; lia).
  destruct lit_half as [O2 V2].
  destruct (fadd_ok q (lit 5 10) O1 O2) as [O3 E3]; [rewrite V2; abs_small 7000000%R|]. rewrite V2 in E3.
  pose proof (rnd_near (R64 q + 1 / 2) 23 ltac:(lia)) as R1. change (bpow radix2 23) with 8388608%R in R1. specialize (R1 ltac:(lra)).
  change (bpow radix2 (23 - 54)) with (/ 2147483648)%R in R1. rewrite <- E3 in R1.
  destruct (ffloor_ok _ O3) as [O4 E4]. rewrite (Zfloor_eq k) in E4 by lra. rewrite cast_int_ok, E4, Ztrunc_IZR by exact O4.
  apply mk_int_in. unfold int_min, int_max. split; apply le_IZR; lra.
Qed.
Lemma tropical_near v k : Z.abs v <= 2000000000 -> 1000 <= 10000 * v - 3652422 * k <= 3651000 -> int2 (fdiv (fZ v) (lit 3652422 10000)) = Some k.
Proof.
  intros HD HK. destruct (trop_quot v HD) as [O1 Q]. set (q := fdiv (fZ v) (lit 3652422 10000)) in *. clearbody q.
  assert (HK2 : (1000 <= IZR (10000 * v) - 3652422 * IZR k <= 3651000)%R).
  { rewrite <- mult_IZR, <- minus_IZR. split; apply IZR_le; lia. }
  rewrite int2_ok by exact O1. rewrite (Zfloor_eq k) by lra. apply mk_int_in. unfold int_min, int_max. lia.
Qed.
