(** Lemmas for C34: the planet series. *)
From Coq Require Import ZArith Reals Lia Lra Bool List Ascii String.
From Coq Require Import Floats.SpecFloat.
From Flocq Require Import Core.
From Verif Require Import F64 F64R F64T Str StrModel SsqModel AngModel AngProps DtProof SerModel SerSpec SerProof PageProof.
Import ListNotations.
Ltac Zify.zify_post_hook ::= idtac.
Open Scope Z_scope.
Open Scope opt_scope.

Lemma at_in {A} (l : list A) j : 0 <= j < Z.of_nat (List.length l) -> exists x, at_ l j = Some x /\ nth_error l (Z.to_nat j) = Some x.
Proof. intros H. unfold at_. destruct (Z.leb_spec 0 j); [|lia]. destruct (nth_error l (Z.to_nat j)) eqn:E; [eauto|]. apply nth_error_None in E. lia. Qed.
Lemma skipn_cons {A} (l : list A) n x : nth_error l n = Some x -> skipn n l = x :: skipn (S n) l.
Proof. revert l. induction n as [|n IH]; intros [|y l] H; cbn in *; try discriminate H; [now injection H as ->|now apply IH]. Qed.

Section S.
Variable cosd : f64 -> f64.
Definition acc (t : f64) (c : f64) (x : f64 * f64 * f64) : f64 := let '(a, b, d) := x in fadd c (fmul a (cosd (fadd b (fmul t d)))).
Lemma terms_ok F t : Z.of_nat (List.length F) <= 1000000 -> forall fuel j N c, 0 <= j -> Z.max 0 (N - j) < Z.of_nat fuel -> (0 < N - j -> j + 3 * ((N - j + 2) / 3) <= Z.of_nat (List.length F)) ->
  xl0_terms cosd fuel F t j N c = Some (fold_left (acc t) (firstn (Z.to_nat ((N - j + 2) / 3)) (triples (skipn (Z.to_nat j) F))) c).
Proof.
  intros HF. induction fuel as [|fuel IH]; intros j N c Hj Hf Hb; [lia|]. cbn [xl0_terms].
  destruct (Z.ltb_spec j N) as [L|L].
  - specialize (Hb ltac:(lia)). assert (K : (N - j + 2) / 3 = (N - (j + 3) + 2) / 3 + 1) by (Z.div_mod_to_equations; lia).
    assert (0 <= (N - (j + 3) + 2) / 3) by (Z.div_mod_to_equations; lia).
    destruct (at_in F j ltac:(lia)) as (a & A1 & A2). destruct (at_in F (j + 1) ltac:(lia)) as (b & B1 & B2). destruct (at_in F (j + 2) ltac:(lia)) as (d & D1 & D2).
    rewrite A1. cbn [obind]. rewrite B1. cbn [obind]. rewrite D1. cbn [obind]. rewrite mk_int_in by (unfold int_min, int_max; lia). cbn [obind].
    rewrite IH; [|lia|lia|intros; lia]. f_equal.
    rewrite (skipn_cons _ _ _ A2). replace (Datatypes.S (Z.to_nat j)) with (Z.to_nat (j + 1)) by lia. rewrite (skipn_cons _ _ _ B2). replace (Datatypes.S (Z.to_nat (j + 1))) with (Z.to_nat (j + 2)) by lia.
    rewrite (skipn_cons _ _ _ D2). replace (Datatypes.S (Z.to_nat (j + 2))) with (Z.to_nat (j + 3)) by lia. rewrite K. replace (Z.to_nat ((N - (j + 3) + 2) / 3 + 1)) with (Datatypes.S (Z.to_nat ((N - (j + 3) + 2) / 3))) by lia. reflexivity.
  - replace (Z.to_nat ((N - j + 2) / 3)) with 0%nat by (Z.div_mod_to_equations; lia). reflexivity.
Qed.
Lemma triples_firstn : forall k m (L : list f64), (k <= m)%nat -> (3 * m <= List.length L)%nat -> firstn k (triples (firstn (3 * m) L)) = firstn k (triples L).
Proof.
  induction k as [|k IH]; intros m L Hk HL; [reflexivity|]. destruct m as [|m]; [lia|]. destruct L as [|a [|b [|d L]]]; cbn [List.length] in HL; try lia.
  replace (3 * Datatypes.S m)%nat with (3 + 3 * m)%nat by lia. cbn [firstn Nat.add triples]. f_equal. apply IH; lia.
Qed.
Lemma triples_length : forall m (L : list f64), List.length L = (3 * m)%nat -> List.length (triples L) = m.
Proof. induction m as [|m IH]; intros L HL; [now destruct L|]. destruct L as [|a [|b [|d L]]]; cbn [List.length] in HL; try lia. cbn. f_equal. apply IH. lia. Qed.
(** the number of doubles read of a group *)
Lemma half_int a : 0 <= a <= int_max -> int2 (fadd (fZ a) (lit 1 2)) = Some a.
Proof.
  unfold int_max. intros H. destruct (fZ_ok a ltac:(lia)) as [O1 E1]. destruct (lit_ok 1 2 ltac:(lia) ltac:(lia)) as [O2 E2].
  assert (BH : bpow radix2 (-1) = (/ 2)%R) by reflexivity.
  assert (E2' : R64 (lit 1 2) = (/ 2)%R). { rewrite E2. replace (1 / 2)%R with (1 * bpow radix2 (-1))%R by (rewrite BH; lra). rewrite rnd_repr by (apply (repr_scaled 1); lia). rewrite BH; lra. }
  pose proof (IZR_le _ _ (proj1 H)) as P1. pose proof (IZR_le _ _ (proj2 H)) as P2.
  destruct (fadd_ok _ _ O1 O2) as [O E].
  { rewrite E1, E2'. apply Rle_trans with (bpow radix2 32); [|apply bpow_le; lia]. change (bpow radix2 32) with 4294967296%R. apply Rabs_le. lra. }
  rewrite int2_ok by exact O. rewrite E, E1, E2'.
  replace (IZR a + / 2)%R with (IZR (2 * a + 1) * bpow radix2 (-1))%R by (rewrite BH, plus_IZR, mult_IZR; lra).
  rewrite rnd_repr by (apply repr_scaled; lia). rewrite (Zfloor_eq a); [apply mk_int_in; unfold int_min, int_max; lia|]. rewrite BH, plus_IZR, mult_IZR. lra.
Qed.
Lemma end_ok n m m0 lo i : 0 < m0 <= 400000 -> 0 < m <= 400000 -> 0 <= lo <= 1000000 -> (n < 0 \/ 9 * n * m <= int_max) ->
  exists N, xl0_end n (3 * m) (3 * m0) lo (lo + 3 * m) i = Some N /\ lo <= N <= lo + 3 * m /\ (N - lo + 2) / 3 = wanted n m0 i m.
Proof.
  intros H0 Hm Hlo Hn. unfold xl0_end, wanted. destruct (Z.ltb_spec n 0) as [L|L].
  - exists (lo + 3 * m). split; [reflexivity|]. split; [lia|]. replace (lo + 3 * m - lo + 2) with (2 + m * 3) by lia. rewrite Z.div_add by lia. reflexivity.
  - destruct Hn as [Hn|Hn]; [lia|]. unfold int_max in Hn. assert (n <= 238609294) by nia.
    rewrite mk_int_in by (unfold int_min, int_max; lia). cbn [obind]. rewrite mk_int_in by (unfold int_min, int_max; nia). cbn [obind].
    destruct (Z.eqb_spec (3 * m0) 0); [lia|]. rewrite Z.quot_div_nonneg by nia.
    replace (3 * n * (3 * m)) with ((3 * n * m) * 3) by ring. replace (3 * m0) with (m0 * 3) by ring. rewrite Z.div_mul_cancel_r by lia.
    set (q := 3 * n * m / m0). assert (Q : 0 <= q <= 715827882). { unfold q. split; [apply Z.div_pos; nia|]. apply Z.div_le_upper_bound; nia. }
    rewrite mk_int_in by (unfold int_min, int_max; lia). cbn [obind]. rewrite half_int by (unfold int_max; lia). cbn [obind].
    rewrite mk_int_in by (unfold int_min, int_max; lia). cbn [obind].
    assert (E : (3 * n * m + 2 * m0) / (m0 * 3) = (q + 2) / 3). { rewrite <- Z.div_div by lia. rewrite Z.div_add by lia. reflexivity. }
    rewrite E. clearbody q. destruct (Z.eqb_spec i 0) as [->|Hi].
    + cbn [obind]. destruct (Z.ltb_spec (lo + 3 * m) (q + lo)); eexists; (split; [reflexivity|]); (split; [lia|]); Z.div_mod_to_equations; lia.
    + rewrite mk_int_in by (unfold int_min, int_max; lia). cbn [obind]. destruct (Z.ltb_spec (lo + 3 * m) (q + lo + 3)); eexists; (split; [reflexivity|]); (split; [lia|]); Z.div_mod_to_equations; lia.
Qed.
Lemma cast_fZ o : 0 <= o <= 1000000 -> cast_int (fZ o) = Some o.
Proof. intros H. destruct (fZ_ok o ltac:(lia)) as [O E]. rewrite cast_int_ok, E, Ztrunc_IZR by exact O. apply mk_int_in. unfold int_min, int_max. lia. Qed.
Lemma cast_diff a b : 0 <= a <= 1000000 -> 0 <= b <= 1000000 -> cast_int (fsub (fZ a) (fZ b)) = Some (a - b).
Proof.
  intros Ha Hb. destruct (fZ_ok a ltac:(lia)) as [Oa Ea]. destruct (fZ_ok b ltac:(lia)) as [Ob Eb].
  destruct (fsub_ok _ _ Oa Ob) as [O E]; [rewrite Ea, Eb, <- minus_IZR; apply big; rewrite <- abs_IZR; apply IZR_le; lia|].
  rewrite cast_int_ok by exact O. rewrite E, Ea, Eb, <- minus_IZR, rnd_IZR, Ztrunc_IZR by lia. apply mk_int_in. unfold int_min, int_max. lia.
Qed.
(** the header *)
Lemma at_offset T k : well_formed T -> 0 <= k < 19 -> at_ (memory T) (k + 1) = Some (fZ (offset T k)).
Proof.
  intros (L & _) Hk. unfold memory, at_. destruct (Z.leb_spec 0 (k + 1)); [|lia]. replace (Z.to_nat (k + 1)) with (Datatypes.S (Z.to_nat k)) by lia. cbn [nth_error].
  rewrite nth_error_app1 by (rewrite map_length; lia). unfold offset. apply map_nth_error. apply nth_error_nth'. lia.
Qed.
Lemma offset_mono T : well_formed T -> forall a b, 0 <= a -> a <= b <= 18 -> offset T a <= offset T b.
Proof.
  intros (_ & _ & _ & S3 & _) a b Ha Hb. replace b with (a + Z.of_nat (Z.to_nat (b - a))) by lia. assert (G : (Z.to_nat (b - a) <= Z.to_nat (18 - a))%nat) by lia. revert G.
  induction (Z.to_nat (b - a)) as [|k IH]; intros G; [rewrite Z.add_0_r; lia|]. destruct (S3 (a + Z.of_nat k) ltac:(lia)) as (m & Hm & E). replace (a + Z.of_nat (Datatypes.S k)) with (a + Z.of_nat k + 1) by lia. specialize (IH ltac:(lia)). lia.
Qed.
Lemma offset_range T k : well_formed T -> 0 <= k <= 18 -> 20 <= offset T k <= Z.of_nat (List.length (memory T)) /\ Z.of_nat (List.length (memory T)) <= 1000000.
Proof. intros W Hk. pose proof (offset_mono T W 0 k ltac:(lia) ltac:(lia)). pose proof (offset_mono T W k 18 ltac:(lia) ltac:(lia)). destruct W as (_ & A & B & _). lia. Qed.
Lemma group_length T zn i : well_formed T -> 0 <= zn <= 2 -> 0 <= i < 6 -> offset T (6 * zn + i + 1) = offset T (6 * zn + i) + 3 * Z.of_nat (List.length (group T zn i)).
Proof.
  intros W Hz Hi. pose proof (offset_range T (6 * zn + i) W ltac:(lia)) as R1. pose proof (offset_range T (6 * zn + i + 1) W ltac:(lia)) as R2.
  destruct W as (_ & _ & _ & S3 & _). destruct (S3 (6 * zn + i) ltac:(lia)) as (m & Hm & E). unfold group, slice. rewrite (triples_length (Z.to_nat m)); [lia|].
  rewrite firstn_length, skipn_length. lia.
Qed.
Lemma round_ok T zn i t n N : well_formed T -> 0 <= zn <= 2 -> 0 <= i < 6 -> let lo := offset T (6 * zn + i) in let m := Z.of_nat (List.length (group T zn i)) in
  lo <= N <= lo + 3 * m -> (N - lo + 2) / 3 = n -> xl0_terms cosd (Datatypes.S (Z.to_nat (N - lo))) (memory T) t lo N (fZ 0) = Some (sum_terms cosd t (firstn (Z.to_nat n) (group T zn i))).
Proof.
  intros W Hz Hi lo m HN HK. pose proof (group_length T zn i W Hz Hi) as GL. fold lo in GL. fold m in GL. pose proof (offset_range T (6 * zn + i) W ltac:(lia)) as R1. pose proof (offset_range T (6 * zn + i + 1) W ltac:(lia)) as R2. fold lo in R1.
  rewrite terms_ok; [|lia|lia|lia|intros _; Z.div_mod_to_equations; lia]. rewrite HK. unfold sum_terms, acc. f_equal. f_equal.
  unfold group, slice. fold lo. rewrite GL. replace (Z.to_nat (lo + 3 * m - lo)) with (3 * Z.to_nat m)%nat by lia. symmetry. apply triples_firstn; [Z.div_mod_to_equations; lia|]. rewrite skipn_length. lia.
Qed.
Definition fits (T : table) (zn n : Z) : Prop := n < 0 \/ forall i, 0 <= i < 6 -> 9 * n * Z.of_nat (List.length (group T zn i)) <= int_max.
Lemma loop_ok T zn t n : well_formed T -> 0 <= zn <= 2 -> fits T zn n -> let m0 := Z.of_nat (List.length (group T zn 0)) in
  forall k i tn v, 0 <= i -> i + Z.of_nat k = 6 ->
  xl0_loop cosd k (memory T) (zn * 6 + 1) n (3 * m0) t i tn v = Some (sum_groups cosd n m0 i t (map (group T zn) (map (fun j => i + Z.of_nat j) (seq 0 k))) tn v).
Proof.
  intros W Hz HF m0. assert (M0 : 0 < m0 <= 400000).
  { pose proof (group_length T zn 0 W Hz ltac:(lia)) as GL. fold m0 in GL. rewrite Z.add_0_r in GL. pose proof (offset_range T (6 * zn + 1) W ltac:(lia)). pose proof (offset_range T (6 * zn) W ltac:(lia)).
    destruct W as (_ & _ & _ & _ & W5). specialize (W5 zn Hz). lia. }
  induction k as [|k IH]; intros i tn v Hi Hk; [reflexivity|]. cbn [xl0_loop].
  replace (zn * 6 + 1 + i) with (6 * zn + i + 1) by lia. rewrite at_offset by (auto; lia). cbn [obind].
  pose proof (offset_range T (6 * zn + i) W ltac:(lia)) as R1. pose proof (offset_range T (6 * zn + i + 1) W ltac:(lia)) as R2.
  rewrite cast_fZ by lia. cbn [obind]. replace (zn * 6 + 1 + 1 + i) with (6 * zn + i + 1 + 1) by lia. rewrite at_offset by (auto; lia). cbn [obind]. rewrite cast_fZ by lia. cbn [obind].
  pose proof (group_length T zn i W Hz ltac:(lia)) as GL. set (m := Z.of_nat (List.length (group T zn i))) in *. set (lo := offset T (6 * zn + i)) in *.
  rewrite GL. replace (lo + 3 * m - lo) with (3 * m) by lia. rewrite mk_int_in by (unfold int_min, int_max; lia). cbn [obind].
  cbn [seq map]. rewrite Z.add_0_r.
  assert (ES : map (group T zn) (map (fun j => i + Z.of_nat j) (seq 1 k)) = map (group T zn) (map (fun j => i + 1 + Z.of_nat j) (seq 0 k))).
  { rewrite <- seq_shift, (map_map Datatypes.S). f_equal. apply map_ext. intros a. lia. }
  rewrite ES. destruct (Z.eqb_spec (3 * m) 0) as [Z0|Z0].
  - destruct (group T zn i) as [|g gs] eqn:G; [|exfalso; unfold m in Z0; cbn [List.length] in Z0; lia]. cbn [sum_groups]. apply IH; lia.
  - assert (fits1 : n < 0 \/ 9 * n * m <= int_max) by (destruct HF as [HF|HF]; [now left|right; unfold m; apply HF; lia]).
    destruct (end_ok n m m0 lo i M0 ltac:(lia) ltac:(lia) fits1) as (N & E1 & E2 & E3). rewrite E1. cbn [obind].
    pose proof (round_ok T zn i t (wanted n m0 i m) N W Hz ltac:(lia) E2 E3) as RO. fold lo in RO. rewrite RO. cbn [obind]. rewrite IH by lia.
    destruct (group T zn i) as [|g gs] eqn:G; [exfalso; unfold m in Z0; cbn [List.length] in Z0; lia|]. cbn [sum_groups]. reflexivity.
Qed.
Lemma sum_ok T zn t n : well_formed T -> 0 <= zn <= 2 -> fits T zn n -> xl0_sum cosd (memory T) zn t n = Some (coordinate cosd T zn t n).
Proof.
  intros W Hz HF. unfold xl0_sum. pose proof (offset_range T (6 * zn) W ltac:(lia)) as R1. pose proof (offset_range T (6 * zn + 1) W ltac:(lia)) as R2.
  pose proof (group_length T zn 0 W Hz ltac:(lia)) as GL. rewrite Z.add_0_r in GL.
  cbv zeta. replace (zn * 6 + 1 + 1) with (6 * zn + 1 + 1) by lia. rewrite at_offset by (auto; lia). cbn [obind]. replace (at_ (memory T) (zn * 6 + 1)) with (at_ (memory T) (6 * zn + 1)) by (f_equal; lia). rewrite at_offset by (auto; lia). cbn [obind].
  rewrite cast_diff by lia. cbn [obind]. replace (offset T (6 * zn + 1) - offset T (6 * zn)) with (3 * Z.of_nat (List.length (group T zn 0))) by lia.
  rewrite loop_ok by (auto; lia). cbn [obind]. reflexivity.
Qed.
End S.
