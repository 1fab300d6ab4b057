(** Proofs for the digit generation of dtoa.h (DigitGen, GrisuRound). *)
From Coq Require Import ZArith List Ascii String Bool Lia.
From Verif Require Import F64 F64R Str DecSpec SsqModel ItoaModel ItoaProof DtoaModel DtoaFix DtoaFix2 DtoaFix3 DtoaFix4.
Import ListNotations.
Open Scope Z_scope.
Open Scope opt_scope.

Lemma u64_id x : 0 <= x < 2 ^ 64 -> u64w x = x.
Proof. intros. unfold u64w. now apply Z.mod_small. Qed.
Lemma chr_pred d : 1 <= d <= 9 -> chr (ord (digit d) - 1) = digit (d - 1).
Proof. intros H. change (ord (digit d)) with (code (digit d)). rewrite digit_code by lia. replace (48 + d - 1) with (48 + (d - 1)) by lia. apply chr_digit. lia. Qed.
Lemma round_ok fuel : forall a tail d base len0 delta rest ten wp, 0 <= d <= 9 -> 0 <= rest <= delta -> delta < 2 ^ 64 -> 0 < ten -> delta < rest + (d + 1) * ten ->
  d < Z.of_nat fuel -> base + len0 - 1 = len a ->
  exists j, 0 <= j <= d /\ rest + j * ten <= delta /\ grisu_round fuel (a ++ digit d :: tail) base len0 delta rest ten wp = Some (a ++ digit (d - j) :: tail).
Proof.
  induction fuel as [|fuel IH]; intros a tail d base len0 delta rest ten wp Hd Hr HD HT HB HF HL; [lia|]. cbn [grisu_round].
  destruct ((rest <? wp) && (ten <=? u64w (delta - rest)) && ((u64w (rest + ten) <? wp) || (u64w (rest + ten - wp) <? u64w (wp - rest)))) eqn:C.
  - apply andb_prop in C as [C _]. apply andb_prop in C as [_ C]. apply Z.leb_le in C. rewrite u64_id in C by lia.
    assert (1 <= d) by nia. rewrite getb_at by assumption. cbn [obind]. rewrite setb_at by assumption. cbn [obind]. rewrite chr_pred by lia. rewrite u64_id by lia.
    destruct (IH a tail (d - 1) base len0 delta (rest + ten) ten wp) as (j & Hj & Q & E); try lia. exists (j + 1). split; [lia|]. split; [lia|]. rewrite E. do 4 f_equal. lia.
  - exists 0. split; [lia|]. split; [lia|]. rewrite Z.sub_0_r. reflexivity.
Qed.
(** what the generated digits [ds] and exponent [kappa] are worth, in units of the last place of M *)
Definition inside (M delta sh : Z) (ds : bytes) (kappa : Z) : Prop :=
  (M - delta) * 10 ^ Z.max 0 (- kappa) <= dec_val ds * 10 ^ Z.max 0 kappa * 2 ^ sh <= M * 10 ^ Z.max 0 (- kappa).
Definition number (ds : bytes) : Prop := Forall is_digit ds /\ ds <> [] /\ hd NUL ds <> "0"%char.
Lemma number_low ds : number ds -> 10 ^ (len ds - 1) <= dec_val ds.
Proof.
  intros (D & N & H). destruct ds as [|d g]; [now elim N|]. cbn [hd] in H. inversion D as [|? ? Dd Dg]; subst. rewrite dec_val_cons. replace (len (d :: g) - 1) with (Z.of_nat (List.length g)) by (unfold len; cbn [List.length]; lia).
  pose proof (dec_bound g Dg). pose proof (pow10_pos (List.length g)). assert (dval d <> 0).
  { intros Q. apply H. unfold dval, is_digit in *. assert (code d = 48) by lia. transitivity (ascii_of_N (N_of_ascii d)); [symmetry; apply ascii_N_embedding|]. unfold code in *. replace (N_of_ascii d) with 48%N by lia. reflexivity. }
  unfold is_digit, dval in *. nia.
Qed.
Lemma number_snoc ds d : number ds -> 0 <= d <= 9 -> number (ds ++ [digit d]).
Proof.
  intros (D & N & H) Hd. split; [apply Forall_app; split; [exact D|constructor; [now apply digit_is|constructor]]|]. split; [destruct ds; discriminate|]. destruct ds; [now elim N|exact H].
Qed.
Lemma dec_snoc ds d : 0 <= d <= 9 -> dec_val (ds ++ [digit d]) = 10 * dec_val ds + d.
Proof. intros H. rewrite dec_val_app, dec_val_cons. cbn [List.length]. change (10 ^ Z.of_nat 1) with 10. change (10 ^ Z.of_nat 0) with 1. change (dec_val []) with 0. unfold dval. rewrite digit_code by lia. lia. Qed.
Lemma number_one d : 1 <= d <= 9 -> number [digit d].
Proof. intros H. split; [constructor; [apply digit_is; lia|constructor]|]. split; [discriminate|]. cbn [hd]. intros E. apply (digit_inj d 0) in E; lia. Qed.
(** as long as generation goes on there are at most 16 digits *)
Lemma few ds M delta : number ds -> 0 < delta -> M <= delta * 10 ^ 16 -> dec_val ds * delta < M -> len ds <= 16.
Proof.
  intros N HD HM H. pose proof (number_low ds N) as L. destruct (Z.le_gt_cases (len ds) 16) as [|G]; [assumption|exfalso].
  assert (10 ^ 16 <= 10 ^ (len ds - 1)) by (apply Z.pow_le_mono_r; lia). nia.
Qed.
Lemma pow10_at_ok beyond i : 0 <= i <= 9 -> pow10_at beyond i = Some (10 ^ i).
Proof. intros H. unfold pow10_at. assert (i = 0 \/ i = 1 \/ i = 2 \/ i = 3 \/ i = 4 \/ i = 5 \/ i = 6 \/ i = 7 \/ i = 8 \/ i = 9) as K by lia. repeat destruct K as [->|K]; try reflexivity. now subst. Qed.
Lemma push_ok pre ds m d len0 : len0 = len ds -> ds <> [] \/ d <> 0 -> 0 <= d <= 9 ->
  push (pre ++ ds ++ repeat NUL (S m)) (len pre) len0 d = Some (pre ++ (ds ++ [digit d]) ++ repeat NUL m, len0 + 1).
Proof.
  intros -> H Hd. unfold push. assert (C : negb (d =? 0) || negb (len ds =? 0) = true).
  { destruct H as [H|H]; [|replace (d =? 0) with false by (symmetry; now apply Z.eqb_neq); reflexivity]. destruct ds as [|x ds]; [now elim H|]. replace (len (x :: ds) =? 0) with false; [apply orb_true_r|]. symmetry. apply Z.eqb_neq. rewrite len_cons. pose proof (len_pos ds). lia. }
  rewrite C. cbn [repeat]. replace (pre ++ ds ++ NUL :: repeat NUL m) with ((pre ++ ds) ++ NUL :: repeat NUL m) by apps. rewrite setb_at by (lens; lia). cbn [obind]. rewrite chr_digit by lia. pr; [apps|reflexivity].
Qed.

Section G.
Variables (beyond : Z -> option Z) (pre : bytes) (M delta sh wp : Z).
Hypothesis HB : forall i, 10 <= i <= 16 -> beyond i <> None.
Hypothesis Hdelta : 0 < delta < M.
Hypothesis HM : M < 2 ^ 64.
Hypothesis HM16 : M <= delta * 10 ^ 16.
Hypothesis Hsh : 32 <= sh <= 60.
Definition outcome (m : nat) (o : option (bytes * Z * Z)) : Prop :=
  exists ds kappa, o = Some (pre ++ ds ++ repeat NUL (m - List.length ds), len ds, kappa) /\ number ds /\ len ds <= 17 /\ inside M delta sh ds kappa /\ -17 <= kappa <= 9.
Lemma sh_pow : 0 < 2 ^ sh <= 2 ^ 60.
Proof. split; [apply Z.pow_pos_nonneg; lia|apply Z.pow_le_mono_r; lia]. Qed.
Lemma frac_ok m : (17 <= m)%nat -> forall fuel ds j p2 delta', number ds -> 0 <= j -> j + 1 <= len ds -> M * 10 ^ j = dec_val ds * 2 ^ sh + p2 -> 0 <= p2 < 2 ^ sh -> delta' = delta * 10 ^ j -> delta' <= p2 -> 
  17 - len ds <= Z.of_nat fuel -> outcome m (gen_frac beyond fuel (pre ++ ds ++ repeat NUL (m - List.length ds)) (len pre) (len ds) (- j) p2 delta' sh wp).
Proof.
  intros Hm. induction fuel as [|fuel IH]; intros ds j p2 delta' N Hj Hn EQ Hp ED HD HF.
  - exfalso. pose proof sh_pow as SP. assert (0 < 10 ^ j) by (apply Z.pow_pos_nonneg; lia). pose proof (number_low ds N). assert (0 < 10 ^ (len ds - 1)) by (apply Z.pow_pos_nonneg; lia).
    assert (len ds <= 16) by (apply (few ds M delta N ltac:(lia) HM16); nia). lia.
  - pose proof sh_pow as SP. assert (PJ : 0 < 10 ^ j) by (apply Z.pow_pos_nonneg; lia). pose proof (number_low ds N) as NL. assert (0 < 10 ^ (len ds - 1)) by (apply Z.pow_pos_nonneg; lia).
    assert (L16 : len ds <= 16) by (apply (few ds M delta N ltac:(lia) HM16); nia).
    cbn [gen_frac]. change (2 ^ 60) with 1152921504606846976 in SP. assert (W64 : 2 ^ 64 = 18446744073709551616) by reflexivity.
    assert (0 < delta') by (subst delta'; nia). rewrite !u64_id by lia.
    assert (Hd : 0 <= p2 * 10 / 2 ^ sh <= 9). { split; [apply Z.div_pos; lia|]. assert (p2 * 10 / 2 ^ sh < 10) by (apply Z.div_lt_upper_bound; lia). lia. }
    set (d := p2 * 10 / 2 ^ sh) in *. assert (DM : p2 * 10 = 2 ^ sh * d + (p2 * 10) mod 2 ^ sh) by (apply Z.div_mod; lia). pose proof (Z.mod_pos_bound (p2 * 10) (2 ^ sh) ltac:(lia)) as MB. set (r := (p2 * 10) mod 2 ^ sh) in *. clearbody d r.
    destruct (m - List.length ds)%nat as [|m'] eqn:Em; [unfold len in L16; lia|]. rewrite push_ok by ((left; apply N) || reflexivity || lia). cbn [obind].
    assert (Em' : m' = (m - List.length (ds ++ [digit d]))%nat) by (rewrite app_length; cbn [List.length]; lia).
    replace (- j - 1) with (- (j + 1)) by lia. rewrite Z.opp_involutive.
    destruct (Z.ltb_spec r (delta' * 10)) as [C|C].
    + assert (exists t, pow10_at beyond (j + 1) = Some t) as (t & Et).
      { destruct (Z.le_gt_cases (j + 1) 9); [rewrite pow10_at_ok by lia; eauto|]. unfold pow10_at. destruct (at_ kPow10 (j + 1)); [eauto|]. specialize (HB (j + 1) ltac:(lia)). destruct (beyond (j + 1)); [eauto|contradiction]. }
      rewrite Et. cbn [obind]. replace (pre ++ (ds ++ [digit d]) ++ repeat NUL m') with ((pre ++ ds) ++ digit d :: repeat NUL m') by apps.
      destruct (round_ok 64 (pre ++ ds) (repeat NUL m') d (len pre) (len ds + 1) (delta' * 10) r (2 ^ sh) (u64w (wp * t))) as (j' & Hj' & Q & E); [lia|lia|lia|lia|nia|lia|lens; lia|]. rewrite E. cbn [obind].
      exists (ds ++ [digit (d - j')]), (- (j + 1)). split; [|split; [|split; [|split]]].
      * apply (f_equal Some), f_equal2; [apply f_equal2|reflexivity]; [|lens; lia]. replace (m - List.length (ds ++ [digit (d - j')]))%nat with m' by (rewrite app_length in *; cbn [List.length] in *; lia). apps.
      * apply number_snoc; [exact N|lia].
      * lens. lia.
      * unfold inside. rewrite Z.opp_involutive. replace (Z.max 0 (j + 1)) with (j + 1) by lia. replace (Z.max 0 (- (j + 1))) with 0 by lia. rewrite dec_snoc by lia. rewrite Z.pow_add_r by lia. change (10 ^ 1) with 10. change (10 ^ 0) with 1. nia.
      * lia.
    + rewrite Em'. replace (len ds + 1) with (len (ds ++ [digit d])) by (lens; lia). apply IH.
      * apply number_snoc; [exact N|lia].
      * lia.
      * lens. lia.
      * rewrite dec_snoc by lia. rewrite Z.pow_add_r by lia. change (10 ^ 1) with 10. nia.
      * lia.
      * rewrite Z.pow_add_r by lia. change (10 ^ 1) with 10. lia.
      * lia.
      * lens. lia.
Qed.
Lemma int_ok m : (17 <= m)%nat -> forall k ds p1 p2, (k <= 10)%nat -> (ds = [] /\ (1 <= k)%nat /\ 10 ^ (Z.of_nat k - 1) <= p1) \/ number ds ->
  M = dec_val ds * 10 ^ Z.of_nat k * 2 ^ sh + p1 * 2 ^ sh + p2 -> 0 <= p1 < 10 ^ Z.of_nat k -> 0 <= p2 < 2 ^ sh -> delta < p1 * 2 ^ sh + p2 ->
  outcome m (gen_int beyond k (pre ++ ds ++ repeat NUL (m - List.length ds)) (len pre) (len ds) p1 p2 delta sh wp).
Proof.
  intros Hm. induction k as [|k IH]; intros ds p1 p2 Hk HN EQ Hp1 Hp2 HD.
  - destruct HN as [(_ & H & _)|N]; [lia|]. cbn [gen_int]. change (10 ^ Z.of_nat 0) with 1 in *. assert (p1 = 0) as -> by lia.
    assert (1 <= len ds) by (destruct ds as [|x ds]; [now elim (proj1 (proj2 N))|rewrite len_cons; pose proof (len_pos ds); lia]).
    apply (frac_ok m Hm 64 ds 0 p2 delta); try lia; try exact N; change (10 ^ 0) with 1; try lia.
  - pose proof sh_pow as SP. assert (PK : 0 < 10 ^ Z.of_nat k) by apply pow10_pos. rewrite pow10_S in *. cbn [gen_int].
    set (P := 10 ^ Z.of_nat k) in *. pose proof (Z.mod_pos_bound p1 P ltac:(lia)) as MB. assert (DM : p1 = P * (p1 / P) + p1 mod P) by (apply Z.div_mod; lia).
    assert (Hd : 0 <= p1 / P <= 9). { split; [apply Z.div_pos; lia|]. assert (p1 / P < 10) by (apply Z.div_lt_upper_bound; lia). lia. }
    set (d := p1 / P) in *. set (r := p1 mod P) in *.
    assert (NZ : ds = [] -> d <> 0).
    { intros ->. destruct HN as [(_ & _ & H)|N]; [|now elim (proj1 (proj2 N))]. replace (Z.of_nat (S k) - 1) with (Z.of_nat k) in H by lia. fold P in H. intros Q. rewrite Q in DM. lia. }
    clearbody d r.
    assert (V0 : 0 <= dec_val ds) by (destruct HN as [(-> & _)|N]; [cbn; lia|pose proof (dec_bound ds (proj1 N)); lia]).
    assert (L16 : len ds <= 16).
    { destruct HN as [(-> & _)|N]; [rewrite len_nil; lia|]. apply (few ds M delta N ltac:(lia) HM16). pose proof (number_low ds N). assert (0 < 10 ^ (len ds - 1)) by (apply Z.pow_pos_nonneg; [lia|destruct ds as [|x ds]; [now elim (proj1 (proj2 N))|rewrite len_cons; pose proof (len_pos ds); lia]]). assert (delta < 10 * P * 2 ^ sh) by nia. nia. }
    destruct (m - List.length ds)%nat as [|m'] eqn:Em; [unfold len in L16; lia|]. rewrite push_ok; [|reflexivity|destruct ds; [right; now apply NZ|left; discriminate]|lia]. cbn [obind].
    assert (Em' : m' = (m - List.length (ds ++ [digit d]))%nat) by (rewrite app_length; cbn [List.length]; lia).
    assert (ND : number (ds ++ [digit d])) by (destruct HN as [(-> & _)|N]; [apply number_one; specialize (NZ eq_refl); lia|now apply number_snoc; [|lia]]).
    pose proof (number_low _ ND) as NL'. assert (1 <= dec_val (ds ++ [digit d])).
    { assert (0 < 10 ^ (len (ds ++ [digit d]) - 1)) by (apply Z.pow_pos_nonneg; lens; pose proof (len_pos ds); lia). lia. }
    rewrite dec_snoc in * by lia.
    assert (W64 : 2 ^ 64 = 18446744073709551616) by reflexivity.
    unfold shl64 at 1. replace ((0 <=? sh) && (sh <? 64)) with true by (symmetry; apply andb_true_intro; split; [apply Z.leb_le|apply Z.ltb_lt]; lia). cbn [obind].
    assert (EQ' : M = (10 * dec_val ds + d) * P * 2 ^ sh + r * 2 ^ sh + p2) by (rewrite EQ, DM; ring).
    assert (0 <= (10 * dec_val ds + d) * P * 2 ^ sh) by (apply Z.mul_nonneg_nonneg; [apply Z.mul_nonneg_nonneg|]; lia). assert (0 <= r * 2 ^ sh) by (apply Z.mul_nonneg_nonneg; lia).
    rewrite (u64_id (r * 2 ^ sh)) by lia. rewrite u64_id by lia.
    destruct (Z.leb_spec (r * 2 ^ sh + p2) delta) as [C|C].
    + rewrite pow10_at_ok by lia. fold P. cbn [obind]. unfold shl64. replace ((0 <=? sh) && (sh <? 64)) with true by (symmetry; apply andb_true_intro; split; [apply Z.leb_le|apply Z.ltb_lt]; lia). cbn [obind].
      assert (PT : P * 2 ^ sh <= (10 * dec_val ds + d) * P * 2 ^ sh) by (rewrite <- Z.mul_assoc; assert (0 < P * 2 ^ sh) by (apply Z.mul_pos_pos; lia); nia).
      assert (0 < P * 2 ^ sh) by (apply Z.mul_pos_pos; lia).
      rewrite (u64_id (P * 2 ^ sh)) by lia. replace (pre ++ (ds ++ [digit d]) ++ repeat NUL m') with ((pre ++ ds) ++ digit d :: repeat NUL m') by apps.
      destruct (round_ok 64 (pre ++ ds) (repeat NUL m') d (len pre) (len ds + 1) delta (r * 2 ^ sh + p2) (P * 2 ^ sh) wp) as (j' & Hj' & Q & E); [lia|lia|lia|lia| |lia|lens; lia|].
      { rewrite DM in HD. replace ((P * d + r) * 2 ^ sh) with (d * (P * 2 ^ sh) + r * 2 ^ sh) in HD by ring. lia. }
      rewrite E. cbn [obind]. 
      assert (NJ : number (ds ++ [digit (d - j')])).
      { destruct HN as [(-> & _)|N]; [|apply number_snoc; [exact N|lia]]. apply number_one. split; [|lia]. rewrite DM in HD. replace ((P * d + r) * 2 ^ sh) with (d * (P * 2 ^ sh) + r * 2 ^ sh) in HD by ring.
        assert (LT : j' * (P * 2 ^ sh) < d * (P * 2 ^ sh)) by lia. apply Z.mul_lt_mono_pos_r in LT; lia. }
      exists (ds ++ [digit (d - j')]), (Z.of_nat k). split; [|split; [|split; [|split]]].
      * apply (f_equal Some), f_equal2; [apply f_equal2|reflexivity]; [|lens; lia]. replace (m - List.length (ds ++ [digit (d - j')]))%nat with m' by (rewrite app_length in *; cbn [List.length] in *; lia). apps.
      * exact NJ.
      * lens. lia.
      * unfold inside. replace (Z.max 0 (- Z.of_nat k)) with 0 by lia. replace (Z.max 0 (Z.of_nat k)) with (Z.of_nat k) by lia. fold P. rewrite dec_snoc by lia. change (10 ^ 0) with 1.
        replace ((10 * dec_val ds + (d - j')) * P * 2 ^ sh) with ((10 * dec_val ds + d) * P * 2 ^ sh - j' * (P * 2 ^ sh)) by ring. assert (0 <= j' * (P * 2 ^ sh)) by (apply Z.mul_nonneg_nonneg; lia). lia.
      * lia.
    + rewrite Em'. replace (len ds + 1) with (len (ds ++ [digit d])) by (lens; lia). apply IH.
      * lia.
      * right. exact ND.
      * rewrite dec_snoc by lia. exact EQ'.
      * fold P. lia.
      * lia.
      * lia.
Qed.
End G.
Lemma count_ok n : 1 <= n < 2 ^ 32 -> 1 <= count_digits n <= 10 /\ 10 ^ (count_digits n - 1) <= n < 10 ^ count_digits n.
Proof.
  intros H. change (2 ^ 32) with 4294967296 in H. unfold count_digits.
  repeat match goal with |- context [if ?a <? ?b then _ else _] => destruct (Z.ltb_spec a b); [cbn; lia|] end. cbn. lia.
Qed.
Lemma digit_gen_ok beyond pre m W Mp delta : (forall i, 10 <= i <= 16 -> beyond i <> None) -> (17 <= m)%nat -> 32 <= - de Mp <= 60 -> 2 ^ (- de Mp) <= df Mp < 2 ^ 64 -> 0 < delta < df Mp -> df Mp <= delta * 10 ^ 16 ->
  outcome pre (df Mp) delta (- de Mp) m (digit_gen beyond W Mp delta (pre ++ repeat NUL m) (len pre)).
Proof.
  intros HB Hm Hsh HM Hd H16. unfold digit_gen. set (sh := - de Mp) in *. set (M := df Mp) in *. unfold shl64 at 1, shr64. replace ((0 <=? sh) && (sh <? 64)) with true by (symmetry; apply andb_true_intro; split; [apply Z.leb_le|apply Z.ltb_lt]; lia). cbn [obind].
  assert (SP : 2 ^ 32 <= 2 ^ sh) by (apply Z.pow_le_mono_r; lia). change (2 ^ 32) with 4294967296 in SP.
  assert (P1 : 1 <= M / 2 ^ sh < 2 ^ 32). { change (2 ^ 32) with 4294967296. change (2 ^ 64) with 18446744073709551616 in HM. split; [apply Z.div_le_lower_bound; lia|apply Z.div_lt_upper_bound; nia]. }
  unfold u32w. rewrite Z.mod_small by lia. destruct (count_ok _ P1) as [C1 C2]. pose proof (Z.mod_pos_bound M (2 ^ sh) ltac:(lia)) as MB. assert (DM : M = 2 ^ sh * (M / 2 ^ sh) + M mod 2 ^ sh) by (apply Z.div_mod; lia).
  replace (pre ++ repeat NUL m) with (pre ++ [] ++ repeat NUL (m - @List.length ascii [])) by (cbn [List.length app]; now rewrite Nat.sub_0_r).
  change 0 with (len []) at 1.
  apply int_ok; try assumption; try lia.
  - left. split; [reflexivity|]. split; [lia|]. rewrite Z2Nat.id by lia. apply C2.
  - change (dec_val []) with 0. lia.
  - rewrite Z2Nat.id by lia. lia.
Qed.
