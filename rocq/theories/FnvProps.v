(** Properties C151 and C152: hash functions and comparisons of pairs. *)
From Coq Require Import ZArith Reals Lia Lra List Bool.
From Coq Require Import Floats.SpecFloat.
From Flocq Require Import Core IEEE754.BinarySingleNaN.
From Verif Require Import F64 F64R DtoaGrisu FnvModel.
Import ListNotations.
Open Scope Z_scope.

(** ** C151: specification *)
(** the number that a word stands for by IEEE 754 binary64: sign, exponent field, fraction field *)
Definition ieee_value (w : Z) : R :=
  let s := w / 2 ^ 63 in let e := w / 2 ^ 52 mod 2 ^ 11 in let f := w mod 2 ^ 52 in
  ((if s =? 0 then 1 else -1) * (if e =? 0 then IZR f * bpow radix2 (-1074) else IZR (2 ^ 52 + f) * bpow radix2 (e - 1075)))%R.
Definition byte (b : Z) : Prop := 0 <= b < 256.
(** two rows of bytes that differ in exactly one place *)
Definition differ_in_one (xs ys : list Z) : Prop := exists pre post b b', xs = pre ++ b :: post /\ ys = pre ++ b' :: post /\ b <> b'.

(** ** Proofs *)
Definition word64 (h : Z) : Prop := 0 <= h < 2 ^ 64.
Lemma lxor_word h b : word64 h -> byte b -> word64 (Z.lxor h b).
Proof.
  intros [H1 H2] [B1 B2]. assert (N : 0 <= Z.lxor h b) by (apply Z.lxor_nonneg; lia). split; [exact N|].
  destruct (Z.eq_dec (Z.lxor h b) 0) as [->|NZ]; [lia|]. apply Z.log2_lt_pow2; [lia|]. eapply Z.le_lt_trans; [apply Z.log2_lxor; lia|].
  apply Z.max_lub_lt.
  - destruct (Z.eq_dec h 0) as [->|]; [reflexivity|apply Z.log2_lt_pow2; lia].
  - destruct (Z.eq_dec b 0) as [->|]; [reflexivity|apply Z.log2_lt_pow2; lia].
Qed.
Lemma prime_inj a b : word64 a -> word64 b -> (a * fnv_prime) mod 2 ^ 64 = (b * fnv_prime) mod 2 ^ 64 -> a = b.
Proof.
  intros A B E. assert (X : forall z, word64 z -> ((z * fnv_prime) mod 2 ^ 64 * 14886173955864302971) mod 2 ^ 64 = z).
  { intros z Hz. rewrite Z.mul_mod_idemp_l by lia. replace (z * fnv_prime * 14886173955864302971) with (z + z * ((fnv_prime * 14886173955864302971 - 1) / 2 ^ 64) * 2 ^ 64) by (replace ((fnv_prime * 14886173955864302971 - 1) / 2 ^ 64) with 887285111055 by (vm_compute; reflexivity); unfold fnv_prime; lia).
    rewrite Z.mod_add by lia. apply Z.mod_small. exact Hz. }
  rewrite <- (X a A), <- (X b B), E. reflexivity.
Qed.
Definition fstep (h b : Z) : Z := (Z.lxor h b * fnv_prime) mod 2 ^ 64.
Lemma fstep_word h b : word64 (fstep h b).
Proof. apply Z.mod_pos_bound. lia. Qed.
Lemma lxor_cancel_l a b c : Z.lxor a b = Z.lxor a c -> b = c.
Proof. intros E. apply (f_equal (Z.lxor a)) in E. rewrite <- !Z.lxor_assoc, Z.lxor_nilpotent, !Z.lxor_0_l in E. exact E. Qed.
Lemma fold_word l : forall h, word64 h -> word64 (fold_left fstep l h).
Proof. induction l as [|b l IH]; intros h H; [exact H|]. apply IH, fstep_word. Qed.
Lemma fold_inj l : Forall byte l -> forall h h', word64 h -> word64 h' -> fold_left fstep l h = fold_left fstep l h' -> h = h'.
Proof.
  induction 1 as [|b l B F IH]; intros h h' H H' E; [exact E|]. cbn [fold_left] in E. apply IH in E; try apply fstep_word.
  apply prime_inj in E; try (apply lxor_word; assumption). rewrite !(Z.lxor_comm _ b) in E. now apply lxor_cancel_l in E.
Qed.
Lemma offset_word : word64 fnv_offset. Proof. unfold word64, fnv_offset. lia. Qed.

(** the hash is a size_t *)
Theorem C151_range xs : 0 <= bitwise_hash xs < 2 ^ 64.
Proof. apply (fold_word xs), offset_word. Qed.
(** two keys whose representations differ in a single byte have different hashes *)
Theorem C151_one_byte xs ys : Forall byte xs -> Forall byte ys -> differ_in_one xs ys -> bitwise_hash xs <> bitwise_hash ys.
Proof.
  intros FX FY (pre & post & b & b' & -> & -> & N) E. apply Forall_app in FX as [_ FX], FY as [_ FY]. inversion FX as [|? ? B FP]; subst. inversion FY as [|? ? B' _]; subst.
  unfold bitwise_hash in E. rewrite !fold_left_app in E. cbn [fold_left] in E. fold fstep in E.
  pose proof (fold_word pre fnv_offset offset_word) as W. change (fun result b0 : Z => (Z.lxor result b0 * fnv_prime) mod 2 ^ 64) with fstep in E. set (h := fold_left fstep pre fnv_offset) in *.
  apply fold_inj in E; try assumption; try apply fstep_word. apply prime_inj in E; try (apply lxor_word; assumption). apply lxor_cancel_l in E. contradiction.
Qed.
(** the published values of FNV-1a for the texts "", "a" and "foobar" *)
Example C151_published : bitwise_hash [] = 0xcbf29ce484222325 /\ bitwise_hash [97] = 0xaf63dc4c8601ec8c /\ bitwise_hash [102; 111; 111; 98; 97; 114] = 0x85944171f73967e8.
Proof. repeat split; vm_compute; reflexivity. Qed.
Example C151_one_byte_example : Forall byte [1; 2; 3] /\ Forall byte [1; 5; 3] /\ differ_in_one [1; 2; 3] [1; 5; 3].
Proof. unfold byte. split; [repeat constructor; lia|]. split; [repeat constructor; lia|]. exists [1], [3], 2, 5. repeat split. lia. Qed.
(** doubles that compare equal have the same hash, the two zeros included *)
Theorem C151_equal nan x y : feqb x y = true -> hash_double nan x = hash_double nan y.
Proof.
  unfold feqb, SFeqb, hash_double. change (fZ 0) with (S754_zero false). intros E.
  destruct x as [s|s| |s m e], y as [s'|s'| |s' m' e']; cbn in E; try discriminate E; try reflexivity; try (destruct s; discriminate E); try (destruct s'; discriminate E).
  - destruct s, s'; try discriminate E; reflexivity.
  - assert (X : s = s' /\ m = m' /\ e = e').
    { destruct s, s'; try discriminate E; destruct (e ?= e') eqn:C; try discriminate E; apply Z.compare_eq in C; subst e'.
      all: try (destruct (Pos.compare_cont Eq m m') eqn:D; try discriminate E; apply Pos.compare_eq in D; subst; now repeat split). }
    destruct X as (-> & -> & ->). reflexivity.
Qed.
Example C151_equal_example : feqb (S754_zero true) (S754_zero false) = true /\ feqb (fZ 3) (fZ 3) = true.
Proof. split; vm_compute; reflexivity. Qed.
(** the word that is hashed is the one of the number, and its bytes are its digits to base 256 *)
Theorem C151_word nan x : ok x -> 0 <= double_word nan x < 2 ^ 64 /\ ieee_value (double_word nan x) = R64 x.
Proof.
  intros [V F]. destruct x as [s|s| |s m e]; try discriminate F.
  - split; [destruct s; cbn; lia|]. unfold ieee_value, double_word, R64, SF2R. destruct s; cbn [Z.eqb].
    + change (2 ^ 63 / 2 ^ 63 =? 0) with false. change (2 ^ 63 / 2 ^ 52 mod 2 ^ 11 =? 0) with true. change (2 ^ 63 mod 2 ^ 52) with 0. cbn iota. ring.
    + change (0 / 2 ^ 63 =? 0) with true. change (0 / 2 ^ 52 mod 2 ^ 11 =? 0) with true. change (0 mod 2 ^ 52) with 0. cbn iota. ring.
  - cbn in V. destruct (finite_range m e V) as (M & E & C & _). unfold double_word.
    set (b := if s then 2 ^ 63 else 0). assert (B : exists c, b = c * 2 ^ 63 /\ (c =? 0) = negb s /\ 0 <= c <= 1) by (exists (if s then 1 else 0); unfold b; destruct s; repeat split; lia). destruct B as (c & EB & CS & BC). clearbody b. subst b.
    destruct (Z.ltb_spec (Zpos m) (2 ^ 52)) as [L|G].
    + assert (E' : e = -1074) by lia. split; [lia|]. unfold ieee_value.
      replace ((c * 2 ^ 63 + Z.pos m) / 2 ^ 63) with c by (Z.div_mod_to_equations; lia).
      replace ((c * 2 ^ 63 + Z.pos m) / 2 ^ 52) with (c * 2 ^ 11) by (Z.div_mod_to_equations; lia). rewrite Z.mod_mul by lia.
      replace ((c * 2 ^ 63 + Z.pos m) mod 2 ^ 52) with (Z.pos m) by (Z.div_mod_to_equations; lia). cbn [Z.eqb]. rewrite CS.
      unfold R64, SF2R, F2R. cbn [Fnum Fexp]. rewrite E'. destruct s; cbn [negb cond_Zopp]; [change (- Z.pos m) with (Z.opp (Z.pos m)); rewrite ?opp_IZR; ring|ring].
    + split; [lia|]. unfold ieee_value.
      replace ((c * 2 ^ 63 + ((e + 1075) * 2 ^ 52 + (Z.pos m - 2 ^ 52))) / 2 ^ 63) with c by (Z.div_mod_to_equations; lia).
      replace ((c * 2 ^ 63 + ((e + 1075) * 2 ^ 52 + (Z.pos m - 2 ^ 52))) / 2 ^ 52) with (e + 1075 + c * 2 ^ 11) by (Z.div_mod_to_equations; lia). rewrite Z.mod_add by lia. rewrite (Z.mod_small (e + 1075)) by lia.
      replace ((c * 2 ^ 63 + ((e + 1075) * 2 ^ 52 + (Z.pos m - 2 ^ 52))) mod 2 ^ 52) with (Z.pos m - 2 ^ 52) by (Z.div_mod_to_equations; lia).
      replace (e + 1075 =? 0) with false by (symmetry; apply Z.eqb_neq; lia). rewrite CS. replace (2 ^ 52 + (Z.pos m - 2 ^ 52)) with (Z.pos m) by lia. replace (e + 1075 - 1075) with e by lia.
      unfold R64, SF2R, F2R. cbn [Fnum Fexp]. destruct s; cbn [negb cond_Zopp]; [change (- Z.pos m) with (Z.opp (Z.pos m)); rewrite ?opp_IZR; ring|ring].
Qed.
Fixpoint from_bytes (l : list Z) : Z := match l with [] => 0 | b :: l => b + 256 * from_bytes l end.
Theorem C151_bytes n : forall w, 0 <= w < 256 ^ Z.of_nat n -> List.length (le_bytes n w) = n /\ Forall byte (le_bytes n w) /\ from_bytes (le_bytes n w) = w.
Proof.
  induction n as [|n IH]; intros w H; [cbn in *; repeat split; try constructor; lia|]. rewrite Nat2Z.inj_succ, Z.pow_succ_r in H by lia. cbn [le_bytes].
  destruct (IH (w / 256)) as (L & F & E). { split; [apply Z.div_pos; lia|apply Z.div_lt_upper_bound; lia]. }
  split; [cbn; now rewrite L|]. split; [constructor; [unfold byte; apply Z.mod_pos_bound; lia|exact F]|]. cbn [from_bytes]. rewrite E. pose proof (Z.div_mod w 256). lia.
Qed.
(** the hash of a double other than zero is the FNV-1a hash of eight bytes, which make up the word of the number *)
Theorem C151_double nan x : ok x -> R64 x <> 0%R -> exists l, hash_double nan x = bitwise_hash l /\ List.length l = 8%nat /\ Forall byte l /\ ieee_value (from_bytes l) = R64 x.
Proof.
  intros O NZ. destruct (C151_word nan x O) as [W V]. destruct (C151_bytes 8 (double_word nan x)) as (L & F & E); [exact W|].
  exists (le_bytes 8 (double_word nan x)). split; [|split; [exact L|split; [exact F|now rewrite E]]]. unfold hash_double. destruct (feqb x (fZ 0)) eqn:Q; [|reflexivity]. exfalso. apply NZ.
  change (fZ 0) with (S754_zero false) in Q. destruct x as [s|s| |s m e]; [reflexivity| | |]; destruct O as [_ O]; try discriminate O. destruct s; discriminate Q.
Qed.
Example C151_double_example : hash_double 0 (fZ 1) = bitwise_hash [0; 0; 0; 0; 0; 0; 240; 63] /\ hash_double 0 (fZ (-2)) = bitwise_hash [0; 0; 0; 0; 0; 0; 0; 192].
Proof. split; vm_compute; reflexivity. Qed.
(** integers of one type have different hashes when they differ *)
Theorem C151_int lo hi x y : hi - lo < 2 ^ 64 -> lo <= x <= hi -> lo <= y <= hi -> hash_int x = hash_int y -> x = y.
Proof. unfold hash_int. intros W X Y E. Z.div_mod_to_equations. nia. Qed.
Example C151_int_example : 2 ^ 63 - 1 - - 2 ^ 63 < 2 ^ 64 /\ hash_int (-1) = 2 ^ 64 - 1.
Proof. split; [lia|reflexivity]. Qed.
(** false for long double: the padding is hashed too, so every number but zero has representations of equal value and different hash *)
Theorem C151_padding_refuted value : Forall byte value -> exists p p', Forall byte p /\ Forall byte p' /\ List.length p = 6%nat /\ List.length p' = 6%nat /\ hash_ldouble false value p <> hash_ldouble false value p'.
Proof.
  intros F. exists [0; 0; 0; 0; 0; 0], [1; 0; 0; 0; 0; 0]. assert (B0 : Forall byte [0; 0; 0; 0; 0; 0]) by (unfold byte; repeat constructor; lia). assert (B1 : Forall byte [1; 0; 0; 0; 0; 0]) by (unfold byte; repeat constructor; lia).
  split; [exact B0|]. split; [exact B1|]. split; [reflexivity|]. split; [reflexivity|]. apply C151_one_byte; [apply Forall_app; now split|apply Forall_app; now split|].
  exists value, [0; 0; 0; 0; 0], 0, 1. repeat split. lia.
Qed.

(** ** C152: comparisons of pairs *)
(** a strict total order, with the equality that belongs to it *)
Definition total_order {A} (eq lt : A -> A -> bool) : Prop :=
  (forall x y, eq x y = true <-> x = y) /\ (forall x, lt x x = false) /\ (forall x y z, lt x y = true -> lt y z = true -> lt x z = true) /\ (forall x y, lt x y = true \/ x = y \/ lt y x = true).
(** a strict weak order, as sorting and the ordered containers ask for it: incomparability is transitive *)
Definition weak_order {A} (lt : A -> A -> bool) : Prop :=
  (forall x, lt x x = false) /\ (forall x y z, lt x y = true -> lt y z = true -> lt x z = true) /\
  (forall x y z, lt x y = false -> lt y x = false -> lt y z = false -> lt z y = false -> lt x z = false /\ lt z x = false).
Section Pairs.
Context {A B : Type} (eqA ltA : A -> A -> bool) (eqB ltB : B -> B -> bool).
Hypothesis TA : total_order eqA ltA.
Hypothesis TB : total_order eqB ltB.
(** pairs are ordered by their first members, and by the second ones when those are equal *)
Theorem C152_lexicographic l r : pair_lt eqA ltA ltB l r = true <-> ltA (fst l) (fst r) = true \/ (fst l = fst r /\ ltB (snd l) (snd r) = true).
Proof. destruct TA as (E & _). unfold pair_lt. rewrite orb_true_iff, andb_true_iff, E. reflexivity. Qed.
Theorem C152_order : total_order (pair_eq eqA eqB) (pair_lt eqA ltA ltB).
Proof.
  pose proof TA as (EA & IA & TrA & CA). pose proof TB as (EB & IB & TrB & CB). split; [|split; [|split]].
  - intros [a b] [c d]. unfold pair_eq. cbn [fst snd]. rewrite andb_true_iff, EA, EB. split; [intros [-> ->]; reflexivity|intros H; injection H; auto].
  - intros [a b]. unfold pair_lt. cbn [fst snd]. now rewrite IA, IB, andb_false_r.
  - intros x y z. rewrite !C152_lexicographic. intros [P|[P P']] [Q|[Q Q']].
    + left. eapply TrA; eassumption.
    + left. now rewrite <- Q.
    + left. now rewrite P.
    + right. split; [congruence|eapply TrB; eassumption].
  - intros [a b] [c d]. rewrite !C152_lexicographic. cbn [fst snd]. destruct (CA a c) as [H|[<-|H]]; [tauto| |tauto]. destruct (CB b d) as [H|[<-|H]]; tauto.
Qed.
(** the other operators say what they should *)
Theorem C152_others l r : (pair_ne eqA eqB l r = true <-> l <> r) /\ (pair_gt eqA ltA ltB l r = true <-> pair_lt eqA ltA ltB r l = true) /\
  (pair_le eqA ltA ltB l r = true <-> pair_lt eqA ltA ltB l r = true \/ l = r) /\ (pair_ge eqA ltA ltB l r = true <-> pair_lt eqA ltA ltB r l = true \/ l = r).
Proof.
  destruct C152_order as (E & I & T & C). unfold pair_ne, pair_gt, pair_le, pair_ge. rewrite !negb_true_iff.
  assert (AS : forall x y, pair_lt eqA ltA ltB x y = true -> pair_lt eqA ltA ltB y x = false) by (intros x y H; apply not_true_is_false; intros H'; pose proof (T _ _ _ H H') as X; rewrite I in X; discriminate X).
  split; [rewrite <- not_true_iff_false, E; reflexivity|]. split; [reflexivity|]. split; (split; [intros H; destruct (C l r) as [X|[X|X]]; auto; congruence|]).
  - intros [H| ->]; [now apply AS|apply I].
  - intros [H| ->]; [now apply AS|apply I].
Qed.
End Pairs.
Example C152_example : total_order Z.eqb Z.ltb /\ pair_lt Z.eqb Z.ltb Z.ltb (1, 5) (2, 0) = true /\ pair_lt Z.eqb Z.ltb Z.ltb (1, 5) (1, 6) = true /\ pair_lt Z.eqb Z.ltb Z.ltb (2, 0) (1, 5) = false.
Proof.
  split; [|repeat split]. split; [exact Z.eqb_eq|]. split; [exact Z.ltb_irrefl|]. split; [intros x y z; rewrite !Z.ltb_lt; lia|]. intros x y. rewrite !Z.ltb_lt. lia.
Qed.
(** false for members with a weak order only (here: compared by the tens): the operator asks for == where it should ask that neither is less, and the order of the pairs is not a weak one *)
Theorem C152_weak_refuted : exists ltA : Z -> Z -> bool, weak_order ltA /\ ~ weak_order (pair_lt Z.eqb ltA Z.ltb).
Proof.
  exists (fun x y => x / 10 <? y / 10). split.
  - split; [intros x; apply Z.ltb_irrefl|]. split; [intros x y z; rewrite !Z.ltb_lt; lia|]. intros x y z. rewrite !Z.ltb_ge. lia.
  - intros (_ & _ & W). destruct (W (1, 1) (2, 1) (1, 2)) as [X _]; try reflexivity. discriminate X.
Qed.
Print Assumptions C151_one_byte.
Print Assumptions C151_equal.
Print Assumptions C151_double.
Print Assumptions C151_int.
Print Assumptions C151_padding_refuted.
Print Assumptions C152_order.
Print Assumptions C152_others.
Print Assumptions C152_weak_refuted.
