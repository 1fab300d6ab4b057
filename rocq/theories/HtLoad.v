(** The hash table: with the maximum load factor 1 there are never more elements than buckets. *)
From Coq Require Import ZArith Reals Lia Lra List Bool Permutation.
From Coq Require Import Floats.SpecFloat.
From Flocq Require Import Core.
From Verif Require Import F64 HtModel F32R HtSpec HtProof HtLook HtIns HtRehash HtGrow.
Import ListNotations.
Open Scope Z_scope.

Lemma one32_ok : ok one32 /\ R32 one32 = 1%R.
Proof. destruct (f32Z_ok 1 ltac:(lia)) as [H1 H2]. split; [exact H1|]. unfold one32. rewrite H2. apply (rnd_IZR 1). lia. Qed.
Lemma abs_rnd_lt n : Z.abs n <= 2 ^ 64 -> (Rabs (rnd (IZR n)) < bpow radix2 128)%R.
Proof. intros H. apply (rnd_bound _ 64); [lia|]. rewrite <- abs_IZR. change (bpow radix2 64) with (IZR (2 ^ 64)). now apply IZR_le. Qed.
(** the test before an insertion is exact up to 2^24 elements *)
Theorem crowded_one t n : mlf t = one32 -> 0 <= bsz t <= 2 ^ 64 -> 0 <= cnt t + n <= 2 ^ 24 -> crowded t n = (bsz t <? cnt t + n).
Proof.
  intros Hm Hb Hc. unfold crowded. rewrite Hm. destruct one32_ok as [O1 O2]. destruct (f32Z_ok (bsz t) ltac:(lia)) as [B1 B2]. destruct (f32Z_ok (cnt t + n) ltac:(lia)) as [C1 C2].
  assert (E : rnd (R32 (f32Z (bsz t)) * R32 one32) = rnd (IZR (bsz t))).
  { rewrite O2, Rmult_1_r, B2. apply rnd_repr, rnd_is_repr. }
  destruct (fmul_ok0 (f32Z (bsz t)) one32 B1 O1) as [M1 M2]; [rewrite E; apply abs_rnd_lt; lia|]. rewrite f32ltb_ok by assumption. rewrite M2, E, C2, (rnd_IZR (cnt t + n)) by lia.
  destruct (Z.ltb_spec (bsz t) (cnt t + n)) as [L|G].
  - apply Rlt_bool_true. rewrite rnd_IZR by lia. now apply IZR_lt.
  - apply Rlt_bool_false. apply rnd_ge_repr; [apply repr_IZR; lia|]. now apply IZR_le.
Qed.

Section HtLoad.
Context {K T : Type} (key : T -> K) (hashf : K -> Z) (eqb : K -> K -> bool).
Hypothesis KO : key_ok hashf eqb.
Notation memory := (@memory T).
Notation rep := (rep key hashf eqb).
Notation len := HtSpec.len.
Implicit Types (m : memory) (t : tab) (v : T) (L : list (list (Z * T))).

Lemma perm_cnt m t L m' t' L' (X : list T) : rep m t L -> rep m' t' L' -> Permutation (vals L') (X ++ vals L) -> cnt t' = cnt t + len X.
Proof.
  intros R R' P. apply Permutation_length in P. rewrite app_length in P. unfold vals in P. rewrite !map_length in P. rewrite (r_cnt _ _ _ _ _ _ R), (r_cnt _ _ _ _ _ _ R'). unfold HtSpec.len. lia.
Qed.
Lemma need_load m t L n : rep m t L -> mlf t = one32 -> bsz t <= 2 ^ 64 -> 0 <= n -> cnt t + n <= 2 ^ 24 -> exists m' t' L', rehash_if_need key hashf eqb m t n = Some (m', t') /\
  grown key hashf eqb m t L m' t' L' /\ cnt t + n <= bsz t' /\ bsz t' <= 2 ^ 64.
Proof.
  intros R Hm Hb Hn Hc. pose proof (r_pos _ _ _ _ _ _ R) as P. pose proof (r_cnt _ _ _ _ _ _ R) as Ec. unfold HtSpec.len in Ec. unfold rehash_if_need. rewrite crowded_one by (auto; lia).
  destruct (Z.ltb_spec (bsz t) (cnt t + n)) as [L0|G].
  - destruct (rehash_ok key hashf eqb KO m t L (cnt t + n) R) as (m' & t' & L' & E & Gr & H & Hb'). exists m', t', L'. split; [exact E|]. split; [exact Gr|].
    assert (max_prime = 18446744073709551557) by reflexivity. split; [apply H; lia|]. destruct Hb' as [->|I]; [lia|]. apply primes_max in I. lia.
  - exists m, t, L. split; [reflexivity|]. split; [now apply grown_refl|]. lia.
Qed.
Theorem insert_multi_load m t L v : rep m t L -> mlf t = one32 -> bsz t <= 2 ^ 64 -> cnt t < 2 ^ 24 ->
  exists m' t' p, insert_multi key hashf eqb m t v = Some (m', t', p) /\ cnt t' = cnt t + 1 /\ cnt t' <= bsz t' <= 2 ^ 64 /\ mlf t' = one32.
Proof.
  intros R Hm Hb Hc. unfold insert_multi. destruct (need_load m t L 1 R Hm Hb ltac:(lia) ltac:(lia)) as (m1 & t1 & L1 & E & (R1 & P1 & M1 & _) & H1 & H2). rewrite E. cbn [obind].
  destruct (insert_multi_noresize_ok key hashf eqb KO m1 t1 L1 v R1) as (m' & t' & L' & E' & R' & P' & _ & _ & S' & M'). exists m', t', (brk m1). split; [exact E'|].
  assert (C : cnt t' = cnt t + 1). { change 1 with (len [v]). apply (perm_cnt m t L m' t' L' [v] R R'). rewrite (perm_vals _ _ _ _ P'). cbn [app]. now constructor. }
  rewrite S', C. split; [reflexivity|]. split; [lia|]. congruence.
Qed.
Theorem insert_unique_load m t L v : rep m t L -> mlf t = one32 -> bsz t <= 2 ^ 64 -> cnt t < 2 ^ 24 ->
  exists m' t' r, insert_unique key hashf eqb m t v = Some (m', t', r) /\ cnt t' <= cnt t + 1 /\ cnt t' <= bsz t' <= 2 ^ 64 /\ mlf t' = one32.
Proof.
  intros R Hm Hb Hc. unfold insert_unique. destruct (need_load m t L 1 R Hm Hb ltac:(lia) ltac:(lia)) as (m1 & t1 & L1 & E & (R1 & P1 & M1 & _) & H1 & H2). rewrite E. cbn [obind].
  destruct (insert_unique_noresize_ok key hashf eqb KO m1 t1 L1 v R1) as (m' & t' & L' & p & b & E' & R' & _ & S' & M' & Q). exists m', t', (p, b). split; [exact E'|].
  assert (C : cnt t' <= cnt t + 1).
  { destruct b.
    - destruct Q as (_ & _ & P'). assert (cnt t' = cnt t + len [v]); [|unfold HtSpec.len in *; cbn in *; lia]. apply (perm_cnt m t L m' t' L' [v] R R'). rewrite (perm_vals _ _ _ _ P'). cbn [app]. now constructor.
    - destruct Q as (_ & -> & -> & _). assert (cnt t1 = cnt t + len (@nil T)); [|unfold HtSpec.len in *; cbn in *; lia]. apply (perm_cnt m t L m1 t1 L1 [] R R1). exact P1. }
  rewrite S'. split; [exact C|]. split; [lia|]. congruence.
Qed.
Theorem range_multi_load m t L vs : rep m t L -> mlf t = one32 -> bsz t <= 2 ^ 64 -> cnt t + len vs <= 2 ^ 24 ->
  exists m' t', insert_range_multi key hashf eqb m t vs = Some (m', t') /\ cnt t' = cnt t + len vs /\ cnt t' <= bsz t' <= 2 ^ 64 /\ mlf t' = one32.
Proof.
  intros R Hm Hb Hc. unfold insert_range_multi. destruct (need_load m t L (len vs) R Hm Hb ltac:(unfold HtSpec.len; lia) Hc) as (m1 & t1 & L1 & E & (R1 & P1 & M1 & _) & H1 & H2).
  unfold HtSpec.len in E at 1. rewrite E. cbn [obind]. destruct (multi_loop_ok key hashf eqb KO vs m1 t1 L1 R1) as (m' & t' & L' & X & E' & (R' & P' & _ & _ & S' & M' & _) & EX). exists m', t'. split; [exact E'|].
  assert (C : cnt t' = cnt t + len vs). { apply (perm_cnt m t L m' t' L' vs R R'). rewrite (vals_more _ _ _ P'), EX, P1. now rewrite <- Permutation_rev. }
  rewrite S', C. split; [reflexivity|]. split; [lia|]. congruence.
Qed.
(** reserve(n) with the maximum load factor 1: at least n buckets *)
Theorem reserve_one m t L n : rep m t L -> mlf t = one32 -> 0 <= n < 2 ^ 24 -> exists m' t' L', reserve key hashf eqb m t n = Some (m', t') /\ grown key hashf eqb m t L m' t' L' /\ n <= bsz t'.
Proof.
  intros R Hm Hn. destruct one32_ok as [O1 O2]. destruct (f32Z_ok n ltac:(lia)) as [N1 N2]. rewrite rnd_IZR in N2 by lia.
  assert (EH : ok half32 /\ R32 half32 = (/ 2)%R).
  { destruct (f32Z_ok 1 ltac:(lia)) as [A1 A2]. destruct (f32Z_ok 2 ltac:(lia)) as [B1 B2]. rewrite rnd_IZR in A2, B2 by lia. unfold half32.
    assert (Eq : rnd (R32 (f32Z 1) / R32 (f32Z 2)) = (/ 2)%R).
    { rewrite A2, B2. replace (1 / 2)%R with (IZR 1 * bpow radix2 (-1))%R by (cbn; lra). rewrite rnd_repr; [cbn; lra|]. apply repr_scaled; lia. }
    destruct (fdiv_ok0 (f32Z 1) (f32Z 2) A1 B1) as [D1 D2]; [rewrite B2; apply IZR_neq; lia| |].
    - rewrite Eq. rewrite Rabs_pos_eq by lra. apply Rlt_trans with (bpow radix2 0); [cbn; lra|apply bpow_lt; lia].
    - split; [exact D1|]. now rewrite D2, Eq. }
  destruct EH as [H1 H2].
  assert (ED : rnd (R32 (f32Z n) / R32 one32) = IZR n) by (rewrite O2, N2; unfold Rdiv; rewrite Rinv_1, Rmult_1_r; apply rnd_IZR; lia).
  destruct (fdiv_ok0 (f32Z n) one32 N1 O1) as [D1 D2]; [rewrite O2; lra|rewrite ED, <- (rnd_IZR n) by lia; apply abs_rnd_lt; lia|]. rewrite ED in D2.
  assert (EB : (IZR n <= rnd (IZR n + / 2) <= IZR (n + 1))%R).
  { split; [apply rnd_ge_repr; [apply repr_IZR; lia|lra]|]. apply rnd_le_repr; [apply repr_IZR; lia|rewrite plus_IZR; lra]. }
  destruct (fadd_ok0 (SFdiv 24 128 (f32Z n) one32) half32 D1 H1) as [A1 A2].
  { rewrite D2, H2. assert (P0 : (0 <= IZR n)%R) by (apply IZR_le; lia). rewrite Rabs_pos_eq by lra. apply Rle_lt_trans with (1 := proj2 EB). apply Rlt_trans with (IZR (2 ^ 25)); [apply IZR_lt; lia|].
    change (IZR (2 ^ 25)) with (bpow radix2 25). apply bpow_lt. lia. }
  unfold reserve. rewrite Hm, (ftruncZ_ok _ A1), A2, D2, H2. cbn [obind].
  assert (TB : n <= Ztrunc (rnd (IZR n + / 2)) <= n + 1).
  { split; [rewrite <- (Ztrunc_IZR n) at 1|rewrite <- (Ztrunc_IZR (n + 1))]; apply Ztrunc_le; apply EB. }
  destruct (Z.leb_spec 0 (Ztrunc (rnd (IZR n + / 2)))) as [_|C]; [|lia]. destruct (Z.ltb_spec (Ztrunc (rnd (IZR n + / 2))) (2 ^ 64)) as [_|C]; [|lia]. cbn [andb].
  destruct (rehash_ok key hashf eqb KO m t L (Ztrunc (rnd (IZR n + / 2))) R) as (m' & t' & L' & E & G & H & _). exists m', t', L'. split; [exact E|]. split; [exact G|].
  assert (max_prime = 18446744073709551557) by reflexivity. specialize (H ltac:(lia)). lia.
Qed.
End HtLoad.
