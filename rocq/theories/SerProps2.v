(** C34: the planet series. *)
From Coq Require Import ZArith Reals Lia Lra Bool List Ascii String.
From Coq Require Import Floats.SpecFloat.
From Flocq Require Import Core.
From Verif Require Import F64 F64R F64T Str StrModel SsqModel AngModel AngProps DtProof SerModel SerSpec SerProof SerProof2.
Import ListNotations.
Ltac Zify.zify_post_hook ::= idtac.
Open Scope Z_scope.
Open Scope opt_scope.

(** For every well-formed table, coordinate, time (any double) and number of terms the sum is that of the wanted terms of
    each group: no other element of the table is used and none outside it is read.  [fits]: the product 3 * n * (group size)
    computed in int does not overflow. *)
Theorem C34_sum cosd T zn t n : well_formed T -> 0 <= zn <= 2 -> fits T zn n -> xl0_sum cosd (memory T) zn t n = Some (coordinate cosd T zn t n).
Proof. apply sum_ok. Qed.
(** exactly n terms of the first group, or all of them *)
Theorem C34_first_group n m0 : 0 < m0 -> wanted n m0 0 m0 = if n <? 0 then m0 else Z.min m0 n.
Proof.
  intros H. unfold wanted. destruct (Z.ltb_spec n 0); [reflexivity|]. change (0 =? 0) with true. cbv iota. replace (3 * n * m0 + 2 * m0) with (2 * m0 + n * (3 * m0)) by ring. rewrite Z.div_add by lia. rewrite Z.div_small by lia. f_equal. lia.
Qed.
(** asking for more terms never uses fewer of any group *)
Theorem C34_monotone n n' m0 i m : 0 < m0 -> 0 <= m -> 0 <= n <= n' -> wanted n m0 i m <= wanted n' m0 i m.
Proof.
  intros H Hm Hn. unfold wanted. destruct (Z.ltb_spec n 0); [lia|]. destruct (Z.ltb_spec n' 0); [lia|].
  assert ((3 * n * m + 2 * m0) / (3 * m0) <= (3 * n' * m + 2 * m0) / (3 * m0)) by (apply Z.div_le_mono; nia). lia.
Qed.
(** ** the shipped tables *)
Definition has_header (T : table) (h : Z * Z * list Z) : Prop :=
  let '(l, d, os) := h in divisor T = fZ d /\ offsets T = os /\ Z.of_nat (List.length (memory T)) = l.
Definition off (os : list Z) (k : Z) : Z := nth (Z.to_nat k) os 0.
Definition header_okb (h : Z * Z * list Z) : bool :=
  let '(l, d, os) := h in
  (Nat.eqb (List.length os) 19 && (20 <=? off os 0) && (off os 18 <=? l) && (l <=? 1000000)
   && forallb (fun k => (off os k <=? off os (k + 1)) && ((off os (k + 1) - off os k) mod 3 =? 0) && (off os (k + 1) - off os k <=? 1065)) (upto 18)
   && forallb (fun zn => off os (6 * zn) <? off os (6 * zn + 1)) (upto 3))%bool.
Lemma headers_ok : forallb header_okb headers = true.
Proof. vm_compute. reflexivity. Qed.
Lemma header_facts T h : header_okb h = true -> has_header T h -> well_formed T /\ forall k, 0 <= k < 18 -> offset T (k + 1) - offset T k <= 1065.
Proof.
  intros H HT. destruct h as [[l d] os]. destruct HT as (_ & HO & HL). cbn [header_okb] in H.
  rewrite !andb_true_iff in H. destruct H as (((((H1 & H2) & H3) & H4) & H5) & H6). apply Nat.eqb_eq in H1. apply Z.leb_le in H2, H3, H4.
  assert (F : forall k, 0 <= k < 18 -> off os k <= off os (k + 1) /\ (off os (k + 1) - off os k) mod 3 = 0 /\ off os (k + 1) - off os k <= 1065).
  { intros k Hk. pose proof (proj1 (forallb_forall _ _) H5 k (upto_in 18 k ltac:(lia))) as E. rewrite !andb_true_iff, !Z.leb_le, Z.eqb_eq in E. tauto. }
  split.
  - unfold well_formed, offset. rewrite HO, HL. fold (off os 0) (off os 18). repeat split; try assumption.
    + intros k Hk. destruct (F k Hk) as (A & B & C). exists ((off os (k + 1) - off os k) / 3). fold (off os (k + 1)) (off os k). Z.div_mod_to_equations. lia.
    + intros zn Hz. pose proof (proj1 (forallb_forall _ _) H6 zn (upto_in 3 zn ltac:(lia))) as E. apply Z.ltb_lt in E. exact E.
  - intros k Hk. unfold offset. rewrite HO. apply (F k Hk).
Qed.
Theorem C34_shipped_headers T h : In h headers -> has_header T h -> well_formed T.
Proof. intros H1 H2. exact (proj1 (header_facts T h (proj1 (forallb_forall _ _) headers_ok h H1) H2)). Qed.
Lemma shipped_fits T h zn n : In h headers -> has_header T h -> 0 <= zn <= 2 -> n <= 672000 -> fits T zn n.
Proof.
  intros H1 H2 Hz Hn. destruct (header_facts T h (proj1 (forallb_forall _ _) headers_ok h H1) H2) as [W D]. destruct (Z.lt_ge_cases n 0); [now left|right]. intros i Hi.
  pose proof (group_length T zn i W Hz Hi) as GL. specialize (D (6 * zn + i) ltac:(lia)). unfold int_max. nia.
Qed.
(** With the shipped tables: every planet, coordinate, time and number of terms up to 672000 (negative: all) gives a value,
    and the value before the final corrections is the quotient of the wanted sum. *)
Theorem C34_shipped cosd tabs xt zn t n : List.length tabs = 8%nat -> (forall k T, nth_error tabs k = Some T -> exists h, nth_error headers k = Some h /\ has_header T h) ->
  0 <= xt < 8 -> 0 <= zn <= 2 -> n <= 672000 ->
  exists T v, nth_error tabs (Z.to_nat xt) = Some T /\ xl0_sum cosd (memory T) zn (fdiv t (fZ 10)) n = Some (coordinate cosd T zn (fdiv t (fZ 10)) n) /\
  XL0_calc cosd (map memory tabs) xt zn t n = Some v.
Proof.
  intros L HT Hx Hz Hn. destruct (at_in tabs xt ltac:(lia)) as (T & A1 & A2). destruct (HT _ _ A2) as (h & Hh & HH). pose proof (nth_error_In _ _ Hh) as Hin.
  assert (S1 : xl0_sum cosd (memory T) zn (fdiv t (fZ 10)) n = Some (coordinate cosd T zn (fdiv t (fZ 10)) n)).
  { apply sum_ok; [exact (C34_shipped_headers T h Hin HH)|exact Hz|exact (shipped_fits T h zn n Hin HH Hz Hn)]. }
  exists T. unfold XL0_calc. assert (at_ (map memory tabs) xt = Some (memory T)) as ->.
  { rewrite at_map, A1. reflexivity. }
  cbn [obind]. cbv zeta. rewrite S1. cbn [obind]. destruct (Z.eqb_spec xt 0); [eexists; split; [exact A2|split; [reflexivity|reflexivity]]|].
  destruct (at_in XL0_xzb ((xt - 1) * 3 + zn)) as (dv & D & _); [change (Z.of_nat (List.length XL0_xzb)) with 21; lia|]. rewrite D. cbn [obind].
  eexists. split; [exact A2|split; [reflexivity|reflexivity]].
Qed.
(** The number of terms has a limit: with more than about 672100 terms of Saturn's distance [3 * n * n0] overflows. *)
Theorem C34_overflow_refuted : exists h n, In h headers /\ 0 <= n <= int_max /\ forall cosd T t, has_header T h -> xl0_sum cosd (memory T) 2 t n = None.
Proof.
  exists (6536, 100000000, [20; 806; 1406; 1946; 2177; 2282; 2333; 2537; 2726; 2867; 2963; 3008; 3026; 4091; 5063; 5789; 6260; 6452; 6536]), 700000.
  split; [do 5 right; left; reflexivity|]. split; [unfold int_max; lia|]. intros cosd T t H.
  assert (W : well_formed T) by (apply (C34_shipped_headers T _ ltac:(do 5 right; left; reflexivity) H)). destruct H as (_ & HO & _).
  assert (O12 : offset T 12 = 3026) by (unfold offset; rewrite HO; reflexivity). assert (O13 : offset T 13 = 4091) by (unfold offset; rewrite HO; reflexivity). clear HO.
  pose proof (at_offset T 12 W ltac:(lia)) as A12. pose proof (at_offset T 13 W ltac:(lia)) as A13. rewrite O12 in A12. rewrite O13 in A13. change (12 + 1) with 13 in A12. change (13 + 1) with 14 in A13.
  unfold xl0_sum. change (2 * 6 + 1) with 13. change (13 + 1) with 14. cbv zeta. rewrite A13, A12. cbn [obind].
  rewrite cast_diff by lia. cbn [obind xl0_loop]. change (13 + 0) with 13. change (13 + 1 + 0) with 14. rewrite A13, A12. cbn [obind].
  rewrite !cast_fZ by lia. cbn [obind]. reflexivity.
Qed.
(** a table that meets the hypotheses *)
Definition toy : table := {| divisor := fZ 10; offsets := [20; 26; 29; 29; 29; 29; 29; 32; 32; 32; 32; 32; 32; 35; 35; 35; 35; 35; 35]; coefs := map fZ [1; 2; 3; 4; 5; 6; 7; 8; 9; 10; 11; 12; 13; 14; 15] |}.
Lemma toy_ok : well_formed toy.
Proof. refine (proj1 (header_facts toy (35, 10, offsets toy) _ _)); [vm_compute; reflexivity|]. split; [|split]; reflexivity. Qed.
(** 1 cos(2 + 3t) + 4 cos(5 + 6t) + (7 cos(8 + 9t)) t; with one term wanted the second term is left out and, the
    groups after the first getting one more, the third is kept *)
Example C34_example cosd t : let term a b d := fmul (fZ a) (cosd (fadd (fZ b) (fmul t (fZ d)))) in
  xl0_sum cosd (memory toy) 0 t 1 =
  Some (fdiv (fadd (fadd (fZ 0) (fmul (fadd (fZ 0) (term 1 2 3)) (fZ 1))) (fmul (fadd (fZ 0) (term 7 8 9)) (fmul (fZ 1) t))) (fZ 10)).
Proof.
  intros term. rewrite C34_sum; [|exact toy_ok|lia|].
  - unfold coordinate. reflexivity.
  - right. intros i Hi. pose proof (group_length toy 0 i toy_ok ltac:(lia) Hi) as G. pose proof (offset_range toy (6 * 0 + i) toy_ok ltac:(lia)). pose proof (offset_range toy (6 * 0 + i + 1) toy_ok ltac:(lia)). unfold int_max. lia.
Qed.
Print Assumptions C34_shipped.
Print Assumptions C34_overflow_refuted.
