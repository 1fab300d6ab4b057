(** Grisu2: the generated digits lie strictly between the midpoints to the neighbouring doubles. *)
From Coq Require Import ZArith List Ascii String Bool Lia Reals Lra.
From Coq Require Import Floats.SpecFloat.
From Flocq Require Import Core.
From Verif Require Import F64 F64R Str DecSpec SsqModel ItoaModel ItoaProof DtoaModel DtoaFix DtoaFix2 DtoaFix3 DtoaFix4 DtoaGen DtoaTab.
Import ListNotations.
Open Scope Z_scope.
Open Scope opt_scope.

(** ** the 64-bit significands *)
Lemma top_bit l : 0 <= l < 2 ^ 64 -> Z.testbit l 63 = (2 ^ 63 <=? l).
Proof.
  intros H. rewrite Z.testbit_eqb by lia. destruct (Z.leb_spec (2 ^ 63) l).
  - replace (l / 2 ^ 63) with 1; [reflexivity|]. apply (Z.div_unique_pos l (2 ^ 63) 1 (l - 2 ^ 63)); lia.
  - rewrite Z.div_small by lia. reflexivity.
Qed.
Lemma mul_ok x y : 0 <= df x < 2 ^ 64 -> 0 <= df y < 2 ^ 64 -> de (diy_mul x y) = de x + de y + 64 /\ 0 <= df (diy_mul x y) < 2 ^ 64 /\
  2 * df x * df y - 2 ^ 64 <= 2 * 2 ^ 64 * df (diy_mul x y) <= 2 * df x * df y + 2 ^ 64.
Proof.
  intros Hx Hy. split; [reflexivity|]. unfold diy_mul. cbv zeta. cbn [df]. set (p := df x * df y). assert (HP : 0 <= p <= (2 ^ 64 - 1) * (2 ^ 64 - 1)) by (unfold p; split; [apply Z.mul_nonneg_nonneg; lia|apply Z.mul_le_mono_nonneg; lia]).
  replace (2 * df x * df y) with (2 * p) by (unfold p; ring). clearbody p. change (u64w p) with (p mod 2 ^ 64). change (2 ^ 64) with 18446744073709551616 in *. pose proof (Z.div_mod p 18446744073709551616 ltac:(lia)) as DM. pose proof (Z.mod_pos_bound p 18446744073709551616 ltac:(lia)) as MB.
  rewrite top_bit by (change (2 ^ 64) with 18446744073709551616; lia). change (2 ^ 63) with 9223372036854775808. set (h := p / 18446744073709551616) in *. set (l := p mod 18446744073709551616) in *. clearbody h l.
  destruct (Z.leb_spec 9223372036854775808 l).
  - rewrite u64_id by (change (2 ^ 64) with 18446744073709551616; lia). lia.
  - lia.
Qed.
Lemma norm_loop_ok k : forall g e fuel, (k <= fuel)%nat -> (k <= 53)%nat -> 2 ^ (53 - Z.of_nat k) <= g < 2 ^ (54 - Z.of_nat k) -> norm_loop fuel g e = Some (mkDiy (g * 2 ^ Z.of_nat k) (e - Z.of_nat k)).
Proof.
  induction k as [|k IH]; intros g e fuel HF HK Hg.
  - change (53 - Z.of_nat 0) with 53 in Hg. change (54 - Z.of_nat 0) with 54 in Hg.
    assert (T : Z.testbit g 53 = true). { replace 53 with (Z.log2 g); [apply Z.bit_log2; lia|]. apply Z.log2_unique; [lia|]. change (Z.succ 53) with 54. lia. }
    destruct fuel; cbn [norm_loop]; rewrite T; do 2 f_equal; cbn; lia.
  - assert (T : Z.testbit g 53 = false). { assert (0 < 2 ^ (53 - Z.of_nat (S k))) by (apply Z.pow_pos_nonneg; lia). assert (2 ^ (54 - Z.of_nat (S k)) <= 2 ^ 53) by (apply Z.pow_le_mono_r; lia). apply Z.bits_above_log2; [lia|]. apply Z.log2_lt_pow2; lia. }
    destruct fuel as [|fuel]; [lia|]. cbn [norm_loop]. rewrite T.
    assert (E1 : 2 ^ (53 - Z.of_nat k) = 2 * 2 ^ (53 - Z.of_nat (S k))) by (rewrite <- Z.pow_succ_r by lia; f_equal; lia). assert (E2 : 2 ^ (54 - Z.of_nat k) = 2 * 2 ^ (54 - Z.of_nat (S k))) by (rewrite <- Z.pow_succ_r by lia; f_equal; lia).
    assert (0 < 2 ^ (53 - Z.of_nat (S k))) by (apply Z.pow_pos_nonneg; lia).
    assert (2 ^ (54 - Z.of_nat (S k)) <= 2 ^ 53) by (apply Z.pow_le_mono_r; lia).
    rewrite u64_id by (change (2 ^ 64) with (2 ^ 53 * 2048); lia). rewrite (IH (g * 2) (e - 1) fuel) by lia. do 2 f_equal; [|lia]. rewrite Nat2Z.inj_succ, Z.pow_succ_r by lia. ring.
Qed.
Definition lower (f : Z) (u : Z) : Z := if f =? 2 ^ 52 then (4 * f - 1) * 2 ^ 9 else (2 * f - 1) * u.
(** b bits, u = 2^(63-b), E = e - 64 + b *)
Lemma significands f e : 0 < f < 2 ^ 53 -> let b := Z.log2 f + 1 in let u := 2 ^ (63 - b) in let E := e - 64 + b in
  1 <= b <= 53 /\ normalize (mkDiy f e) = Some (mkDiy (2 * f * u) E) /\ boundaries (mkDiy f e) = Some (mkDiy (lower f u) E, mkDiy ((2 * f + 1) * u) E) /\
  2 ^ 10 <= u /\ 2 ^ 63 <= 2 * f * u /\ (2 * f + 1) * u < 2 ^ 64 /\ 0 < lower f u < 2 * f * u.
Proof.
  intros Hf b u E. destruct (Z.log2_spec f ltac:(lia)) as [LA LB]. assert (L0 : 0 <= Z.log2 f) by apply Z.log2_nonneg. assert (L52 : Z.log2 f <= 52) by (assert (Z.log2 f < 53) by (apply Z.log2_lt_pow2; lia); lia).
  assert (Hb : 1 <= b <= 53) by (unfold b; lia). replace (Z.succ (Z.log2 f)) with b in LB by (unfold b; lia).
  assert (PB : 2 ^ b = 2 * 2 ^ Z.log2 f) by (unfold b; rewrite <- Z.pow_succ_r by lia; f_equal; lia).
  assert (UB : u * 2 ^ b = 2 ^ 63) by (unfold u; rewrite <- Z.pow_add_r by lia; f_equal; lia).
  assert (U10 : 2 ^ 10 <= u) by (unfold u; apply Z.pow_le_mono_r; lia). assert (U64 : u <= 2 ^ 62) by (unfold u; apply Z.pow_le_mono_r; lia).
  assert (F1 : 2 * f * u < 2 ^ 64) by (change (2 ^ 64) with (2 * 2 ^ 63); nia). assert (F2 : 2 ^ 63 <= 2 * f * u) by nia.
  assert (F3 : (2 * f + 1) * u < 2 ^ 64) by (change (2 ^ 64) with (2 * 2 ^ 63); nia).
  split; [exact Hb|]. split; [|split; [|split; [exact U10|split; [exact F2|split; [exact F3|]]]]].
  - unfold normalize. cbn [df de]. replace (f =? 0) with false by (symmetry; apply Z.eqb_neq; lia). replace (63 - Z.log2 f) with (64 - b) by (unfold b; lia). unfold shl64. replace ((0 <=? 64 - b) && (64 - b <? 64)) with true by (symmetry; apply andb_true_intro; split; [apply Z.leb_le|apply Z.ltb_lt]; lia). cbn [obind].
    assert (E2 : f * 2 ^ (64 - b) = 2 * f * u) by (unfold u; replace (64 - b) with (Z.succ (63 - b)) by lia; rewrite Z.pow_succ_r by lia; ring). rewrite E2, u64_id by lia. do 2 f_equal. unfold E. lia.
  - unfold boundaries. cbn [df de]. assert (f < 2 ^ 53) by lia. change (2 ^ 64) with (2 ^ 53 * 2048) in *. change (2 ^ 53) with 9007199254740992 in *. rewrite !(u64_id (f * 2)) by (change (2 ^ 64) with 18446744073709551616; lia). rewrite (u64_id (f * 4)) by (change (2 ^ 64) with 18446744073709551616; lia). rewrite !u64_id by (change (2 ^ 64) with 18446744073709551616; lia).
    unfold normalize_boundary. cbn [df de].
    assert (NL : norm_loop 64 (f * 2 + 1) (e - 1) = Some (mkDiy ((f * 2 + 1) * 2 ^ (53 - b)) (e - 1 - (53 - b)))).
    { assert (Hn : Z.of_nat (Z.to_nat (53 - b)) = 53 - b) by lia. rewrite (norm_loop_ok (Z.to_nat (53 - b))); [now rewrite Hn|lia|lia|]. rewrite Hn. replace (53 - (53 - b)) with b by lia. replace (54 - (53 - b)) with (Z.succ b) by lia. rewrite Z.pow_succ_r by lia. lia. }
    rewrite NL. cbn [obind df de]. unfold shl64 at 1. cbn [Z.leb Z.ltb Z.compare Pos.compare Pos.compare_cont andb obind]. cbn [de df].
    assert (EP : (f * 2 + 1) * 2 ^ (53 - b) * 2 ^ 10 = (2 * f + 1) * u) by (unfold u; replace (63 - b) with (53 - b + 10) by lia; rewrite Z.pow_add_r by lia; ring).
    rewrite EP. rewrite u64_id by (change (2 ^ 64) with (9007199254740992 * 2048); lia).
    replace (e - 1 - (53 - b) - 10) with E by (unfold E; lia). unfold lower.
    destruct (Z.eqb_spec f (2 ^ 52)) as [F52|F52].
    + assert (b = 53) as B53 by (unfold b; rewrite F52; reflexivity). cbn [df de]. replace (e - 2 - E) with 9 by (unfold E; lia). unfold shl64. cbn [Z.leb Z.ltb Z.compare Pos.compare Pos.compare_cont andb obind].
      rewrite u64_id by (rewrite F52; cbn; lia). do 4 f_equal. lia.
    + cbn [df de]. replace (e - 1 - E) with (63 - b) by (unfold E; lia). unfold shl64. replace ((0 <=? 63 - b) && (63 - b <? 64)) with true by (symmetry; apply andb_true_intro; split; [apply Z.leb_le|apply Z.ltb_lt]; lia). cbn [obind]. fold u.
      rewrite u64_id by (change (2 ^ 64) with 18446744073709551616; nia). do 4 f_equal. lia.
  - unfold lower. destruct (Z.eqb_spec f (2 ^ 52)) as [F52|F52].
    + assert (b = 53) as B53 by (unfold b; rewrite F52; reflexivity). unfold u. rewrite B53, F52. cbn. lia.
    + nia.
Qed.

(** ** over the reals *)
Definition r10 : radix := Build_radix 10 eq_refl.
Open Scope R_scope.
Lemma bpow_frac r k : bpow r k * IZR (r ^ Z.max 0 (- k)) = IZR (r ^ Z.max 0 k).
Proof. rewrite !IZR_Zpower by lia. rewrite <- bpow_plus. f_equal. lia. Qed.
Lemma entry_R i : (0 <= i < 87)%Z -> exists c e, at_ cached_F i = Some c /\ at_ cached_E i = Some e /\ (2 ^ 63 <= c < 2 ^ 64)%Z /\
  Rabs (IZR c - bpow r10 (-348 + 8 * i) * bpow radix2 (- e)) <= / 2.
Proof.
  intros H. destruct (entry i H) as (c & e & C & E & R & A). exists c, e. split; [exact C|]. split; [exact E|]. split; [exact R|]. cbv zeta in A. set (k := (-348 + 8 * i)%Z) in *. clearbody k.
  pose proof (bpow_frac r10 k) as B10. change (r10 : Z) with 10%Z in B10. pose proof (bpow_frac radix2 (- e)) as B2. change (radix2 : Z) with 2%Z in B2. rewrite Z.opp_involutive in B2.
  apply IZR_le in A. rewrite abs_IZR, minus_IZR, !mult_IZR in A. rewrite <- B10, <- B2 in A.
  assert (P1 : 0 < IZR (2 ^ Z.max 0 e)) by (apply IZR_lt; apply Z.pow_pos_nonneg; lia). assert (P2 : 0 < IZR (10 ^ Z.max 0 (- k))) by (apply IZR_lt; apply Z.pow_pos_nonneg; lia).
  set (x := IZR (2 ^ Z.max 0 e)) in *. set (y := IZR (10 ^ Z.max 0 (- k))) in *. set (s := bpow r10 k) in *. set (t := bpow radix2 (- e)) in *. clearbody x y s t.
  replace (2 * IZR c * x * y - 2 * (s * y) * (t * x)) with ((IZR c - s * t) * (2 * (x * y))) in A by ring. rewrite Rabs_mult in A. rewrite (Rabs_pos_eq (2 * (x * y))) in A by (assert (0 < x * y) by (now apply Rmult_lt_0_compat); lra).
  apply Rmult_le_reg_r with (2 * (x * y)); [assert (0 < x * y) by (now apply Rmult_lt_0_compat); lra|]. lra.
Qed.
Lemma inside_R M delta sh ds kappa : (0 <= sh)%Z -> inside M delta sh ds kappa ->
  IZR (M - delta) * bpow radix2 (- sh) <= IZR (dec_val ds) * bpow r10 kappa <= IZR M * bpow radix2 (- sh).
Proof.
  intros Hs [A B]. apply IZR_le in A, B. rewrite !mult_IZR in A, B. pose proof (bpow_frac r10 kappa) as B10. change (r10 : Z) with 10%Z in B10. rewrite <- B10 in A, B.
  assert (PS : IZR (2 ^ sh) * bpow radix2 (- sh) = 1). { change 2%Z with (radix2 : Z). rewrite IZR_Zpower by exact Hs. rewrite <- bpow_plus. replace (sh + - sh)%Z with 0%Z by lia. reflexivity. }
  assert (P2 : 0 < IZR (10 ^ Z.max 0 (- kappa))) by (apply IZR_lt; apply Z.pow_pos_nonneg; lia). pose proof (bpow_gt_0 radix2 (- sh)) as P3.
  set (y := IZR (10 ^ Z.max 0 (- kappa))) in *. set (q := bpow radix2 (- sh)) in *. set (z := IZR (2 ^ sh)) in *. set (d := IZR (dec_val ds)) in *. set (s := bpow r10 kappa) in *. clearbody y q z d s.
  assert (0 < y * q * / y) by (replace (y * q * / y) with q by (field; lra); exact P3).
  split; apply Rmult_le_reg_r with y; try exact P2.
  - replace (IZR (M - delta) * q * y) with (IZR (M - delta) * y * q) by ring. apply Rle_trans with (d * (s * y) * z * q); [apply Rmult_le_compat_r; lra|]. apply Req_le. replace (d * (s * y) * z * q) with (d * s * y * (z * q)) by ring. rewrite PS. ring.
  - replace (IZR M * q * y) with (IZR M * y * q) by ring. apply Rle_trans with (d * (s * y) * z * q); [|apply Rmult_le_compat_r; lra]. apply Req_le. replace (d * (s * y) * z * q) with (d * s * y * (z * q)) by ring. rewrite PS. ring.
Qed.
(** the midpoints used as boundaries *)
Definition hi_mid (f e : Z) : R := IZR (2 * f + 1) * bpow radix2 (e - 1).
Definition lo_mid (f e : Z) : R := if (f =? 2 ^ 52)%Z then IZR (4 * f - 1) * bpow radix2 (e - 2) else IZR (2 * f - 1) * bpow radix2 (e - 1).
Close Scope R_scope.

Definition grisu_of (v : diy) (beyond : Z -> option Z) (s : bytes) (base : Z) : option (bytes * Z * Z) :=
  let* (w_m, w_p) := boundaries v in
  let* (c_mk, K) := cached_power (de w_p) in
  let* nv := normalize v in
  let W := diy_mul nv c_mk in
  let Wp := diy_mul w_p c_mk in
  let Wm := diy_mul w_m c_mk in
  let Wm := mkDiy (u64w (df Wm + 1)) (de Wm) in
  let Wp := mkDiy (u64w (df Wp - 1)) (de Wp) in
  let* (s, len, kappa) := digit_gen beyond W Wp (u64w (df Wp - df Wm)) s base in
  Some (s, len, K + kappa).
Lemma real_of_int (a b : Z) : (2 * 2 ^ 64 * a <= b)%Z -> (IZR a * 36893488147419103232 <= IZR b)%R.
Proof. intros H. apply IZR_le in H. rewrite mult_IZR in H. change (2 * 2 ^ 64) with 36893488147419103232 in H. lra. Qed.
Lemma grisu_core beyond pre m f e : (forall i, 10 <= i <= 16 -> beyond i <> None) -> (17 <= m)%nat -> 0 < f < 2 ^ 53 -> -1140 <= e - 64 + (Z.log2 f + 1) <= 969 ->
  exists ds K, grisu_of (mkDiy f e) beyond (pre ++ repeat NUL m) (len pre) = Some (pre ++ ds ++ repeat NUL (m - List.length ds), len ds, K) /\
  number ds /\ len ds <= 17 /\ -400 <= K <= 400 /\ (lo_mid f e < IZR (dec_val ds) * bpow r10 K < hi_mid f e)%R.
Proof.
  intros HB Hm Hf HE. destruct (significands f e Hf) as (Hb & NV & BD & U10 & F2 & F3 & LW). cbv zeta in *. set (b := Z.log2 f + 1) in *. set (u := 2 ^ (63 - b)) in *. set (E := e - 64 + b) in *.
  unfold grisu_of. rewrite BD. cbn [obind]. cbn [de]. destruct (index_in E HE) as (i & ce & CI & Hi & CE & HS). destruct (entry_R i Hi) as (c & ce' & CF & CE' & Hc & T). rewrite CE in CE'. injection CE' as <-.
  unfold cached_power. rewrite CI. cbn [obind]. rewrite CF. cbn [obind]. rewrite CE. cbn [obind]. rewrite NV. cbn [obind].
  assert (LO : 0 <= lower f u < 2 ^ 64) by lia. assert (HI : 0 <= (2 * f + 1) * u < 2 ^ 64) by lia.
  destruct (mul_ok (mkDiy ((2 * f + 1) * u) E) (mkDiy c ce)) as (EP & RP & IP); [exact HI|cbn [df]; lia|].
  destruct (mul_ok (mkDiy (lower f u) E) (mkDiy c ce)) as (EM & RM & IM); [exact LO|cbn [df]; lia|].
  set (W := diy_mul (mkDiy (2 * f * u) E) (mkDiy c ce)). set (Wp := diy_mul (mkDiy ((2 * f + 1) * u) E) (mkDiy c ce)) in *. set (Wm := diy_mul (mkDiy (lower f u) E) (mkDiy c ce)) in *. clearbody W Wp Wm. cbn [df de] in *.
  assert (GAP : 1536 <= (2 * f + 1) * u - lower f u /\ (2 * f + 1) * u <= 2 ^ 53 * ((2 * f + 1) * u - lower f u)).
  { unfold lower. destruct (Z.eqb_spec f (2 ^ 52)) as [F52|F52].
    - assert (b = 53) as B53 by (unfold b; rewrite F52; reflexivity). unfold u. rewrite B53, F52. cbn. lia.
    - change (2 ^ 10) with 1024 in *. change (2 ^ 53) with 9007199254740992 in *. split; nia. }
  destruct GAP as [G1 G2].
  (* real facts about the midpoints *)
  assert (HM : hi_mid f e = (IZR ((2 * f + 1) * u) * bpow radix2 E)%R). { unfold hi_mid. rewrite mult_IZR. unfold u. change 2 with (radix2 : Z) at 3. rewrite IZR_Zpower by lia. rewrite Rmult_assoc, <- bpow_plus. do 2 f_equal. unfold E. lia. }
  assert (LM : lo_mid f e = (IZR (lower f u) * bpow radix2 E)%R).
  { unfold lo_mid, lower. destruct (Z.eqb_spec f (2 ^ 52)) as [F52|F52].
    - rewrite (mult_IZR (4 * f - 1)). change (2 ^ 9) with (radix2 ^ 9). rewrite IZR_Zpower by lia. rewrite Rmult_assoc, <- bpow_plus. do 2 f_equal. unfold E, b. rewrite F52. change (Z.log2 (2 ^ 52)) with 52. lia.
    - rewrite mult_IZR. unfold u. change 2 with (radix2 : Z) at 3. rewrite IZR_Zpower by lia. rewrite Rmult_assoc, <- bpow_plus. do 2 f_equal. unfold E. lia. }
  set (wp := (2 * f + 1) * u) in *. set (wm := lower f u) in *.
  assert (HWP : 2 ^ 63 <= wp) by (unfold wp; lia). clearbody wp wm.
  (* integer facts *)
  assert (PC : 2 ^ 63 * 2 ^ 63 <= wp * c) by (apply Z.mul_le_mono_nonneg; lia).
  assert (DC : 1536 * 2 ^ 63 <= (wp - wm) * c) by (apply Z.mul_le_mono_nonneg; lia).
  assert (GC : wp * c <= 2 ^ 53 * (wp - wm) * c) by (apply Z.mul_le_mono_nonneg_r; lia).
  replace ((wp - wm) * c) with (wp * c - wm * c) in DC by ring. replace (2 ^ 53 * (wp - wm) * c) with (2 ^ 53 * (wp * c - wm * c)) in GC by ring.
  rewrite <- !Z.mul_assoc in IP, IM.
  assert (IPc : 2 * (wp * c) - 2 ^ 64 <= 2 * (2 ^ 64 * df Wp) <= 2 * (wp * c) + 2 ^ 64) by exact IP.
  assert (IMc : 2 * (wm * c) - 2 ^ 64 <= 2 * (2 ^ 64 * df Wm) <= 2 * (wm * c) + 2 ^ 64) by exact IM.
  clear IP IM. set (p := wp * c) in *. set (q := wm * c) in *. set (A := df Wp) in *. set (Bm := df Wm) in *. 
  assert (KEY : 2 ^ 60 <= A - 1 /\ 764 <= A - 1 - (Bm + 1) /\ A - 1 <= (A - 1 - (Bm + 1)) * 10 ^ 16 /\ Bm + 1 < A).
  { clearbody p q A Bm. clear - IPc IMc PC DC GC RP RM. change (2 ^ 64) with 18446744073709551616 in *. change (2 ^ 63) with 9223372036854775808 in *. change (2 ^ 53) with 9007199254740992 in *. change (2 ^ 60) with 1152921504606846976. change (10 ^ 16) with 10000000000000000. lia. }
  destruct KEY as (K1 & K2 & K3 & K4).
  rewrite (u64_id (A - 1)) by (clear - RP K1; lia). rewrite (u64_id (Bm + 1)) by (clear - RM RP K4; lia). rewrite u64_id by (clear - RP RM K2; lia).
  rewrite EP. set (sh := - (E + ce + 64)). assert (Hsh : 32 <= sh <= 60) by (unfold sh; lia).
  assert (S60 : 2 ^ sh <= 2 ^ 60) by (apply Z.pow_le_mono_r; lia).
  destruct (digit_gen_ok beyond pre m W (mkDiy (A - 1) (E + ce + 64)) (A - 1 - (Bm + 1)) HB Hm) as (ds & kappa & EQ & N & L & IN & KB); cbn [df de] in *; fold sh.
  - exact Hsh.
  - clear - K1 S60 RP. lia.
  - clear - K2 RM. lia.
  - exact K3.
  - fold sh in EQ, IN. exists ds, (- (-348 + i * 8) + kappa). rewrite EQ. cbn [obind]. split; [reflexivity|]. split; [exact N|]. split; [exact L|]. split; [lia|].
    apply inside_R in IN; [|lia]. replace (A - 1 - (A - 1 - (Bm + 1))) with (Bm + 1) in IN by ring. destruct IN as [I1 I2].
    rewrite HM, LM. replace (- sh) with (E + ce + 64) in I1, I2 by (unfold sh; lia).
    rewrite bpow_plus. replace (- (-348 + i * 8)) with (- (-348 + 8 * i)) by ring. rewrite bpow_opp.
    rewrite !bpow_plus in I1, I2. rewrite bpow_opp in T. pose proof (bpow_gt_0 r10 (-348 + 8 * i)) as PT. pose proof (bpow_gt_0 radix2 ce) as P2. pose proof (bpow_gt_0 radix2 E) as PE. change (bpow radix2 64) with 18446744073709551616%R in I1, I2.
    set (t := bpow r10 (-348 + 8 * i)) in *. set (g := bpow radix2 ce) in *. set (h := bpow radix2 E) in *. set (Y := (IZR (dec_val ds) * bpow r10 kappa)%R) in *.
    replace (IZR (dec_val ds) * (/ t * bpow r10 kappa))%R with (Y * / t)%R by (unfold Y; ring). clearbody Y t g h.
    rewrite plus_IZR in I1. rewrite minus_IZR in I2.
    destruct IPc as [_ IP2]. destruct IMc as [IM1 _]. apply IZR_le in IP2. apply IZR_le in IM1. rewrite plus_IZR, !mult_IZR in IP2. rewrite minus_IZR, !mult_IZR in IM1.
    change (IZR (2 ^ 64)) with 18446744073709551616%R in *.
    assert (WB : (0 < IZR wp < 18446744073709551616 /\ 0 < IZR wm < 18446744073709551616)%R) by (change (2 ^ 64) with 18446744073709551616 in *; repeat split; apply IZR_lt; lia).
    unfold p in IP2. unfold q in IM1. rewrite mult_IZR in IP2, IM1. clear - I1 I2 IP2 IM1 WB T PT P2 PE.
    set (RA := IZR A) in *. set (RB := IZR Bm) in *. set (Rc := IZR c) in *. set (x := IZR wp) in *. set (y := IZR wm) in *. clearbody RA RB Rc x y.
    apply Rabs_le_inv in T. set (tau := (t * / g)%R) in *. assert (ET : (t = tau * g)%R) by (unfold tau; field; lra). assert (PTau : (0 < tau)%R) by (unfold tau; apply Rmult_lt_0_compat; [exact PT|apply Rinv_0_lt_compat; exact P2]). clearbody tau.
    assert (HG : (0 < h * g)%R) by (apply Rmult_lt_0_compat; assumption).
    assert (X1 : (x * Rc <= x * (tau + / 2))%R) by (apply Rmult_le_compat_l; lra). assert (Y1 : (y * (tau - / 2) <= y * Rc)%R) by (apply Rmult_le_compat_l; lra).
    assert (X2 : (18446744073709551616 * (RA - 1) < x * tau)%R) by lra. assert (Y2 : (y * tau < 18446744073709551616 * (RB + 1))%R) by lra.
    assert (X3 : (18446744073709551616 * (RA - 1) * (h * g) < x * tau * (h * g))%R) by (apply Rmult_lt_compat_r; assumption). assert (Y3 : (y * tau * (h * g) < 18446744073709551616 * (RB + 1) * (h * g))%R) by (apply Rmult_lt_compat_r; assumption).
    split; apply Rmult_lt_reg_r with t; try exact PT.
    + replace (Y * / t * t)%R with Y by (field; lra). rewrite ET. lra.
    + replace (Y * / t * t)%R with Y by (field; lra). rewrite ET. lra.
Qed.

(** ** the theorem about Grisu2: every finite non-zero double *)
Lemma digits_size f : digits2_pos f = Pos.size f.
Proof. induction f as [f IH|f IH|]; cbn [digits2_pos Pos.size]; [now rewrite IH|now rewrite IH|reflexivity]. Qed.
Lemma digits_log f : Z.log2 (Zpos f) + 1 = Zpos (digits2_pos f).
Proof. rewrite digits_size. destruct f; cbn [Z.log2 Pos.size]; rewrite ?Pos2Z.inj_succ; lia. Qed.
Lemma finite_range f e : SpecFloat.bounded 53 1024 f e = true -> Zpos f < 2 ^ 53 /\ -1074 <= e <= 971 /\ (2 ^ 52 <= Zpos f \/ e = -1074) /\ -1140 <= e - 64 + (Z.log2 (Zpos f) + 1) <= 969.
Proof.
  intros H. assert (M := bounded_mantissa f e H). unfold SpecFloat.bounded in H. apply andb_prop in H as [H1 H2]. apply Z.leb_le in H2. unfold canonical_mantissa in H1. apply Zeq_bool_eq in H1. unfold SpecFloat.fexp, SpecFloat.emin in H1.
  pose proof (digits_log f) as L. assert (L0 : 0 <= Z.log2 (Zpos f)) by apply Z.log2_nonneg. split; [exact M|]. split; [lia|]. split; [|lia].
  destruct (Z.eq_dec e (-1074)) as [->|N]; [now right|left]. destruct (Z.log2_spec (Zpos f) ltac:(lia)) as [LA _]. replace 52 with (Z.log2 (Zpos f)) by lia. exact LA.
Qed.

Open Scope R_scope.
Lemma half_pow e : bpow radix2 e = 2 * bpow radix2 (e - 1).
Proof. replace e with ((e - 1) + 1)%Z at 1 by lia. rewrite bpow_plus. change (bpow radix2 1) with 2. ring. Qed.
Lemma round_trip f e x : SpecFloat.bounded 53 1024 f e = true -> lo_mid (Zpos f) e < x < hi_mid (Zpos f) e -> rnd x = R64 (S754_finite false f e).
Proof.
  intros HB [HL HH]. destruct (finite_range f e HB) as (F53 & He & HN & _).
  assert (EV : R64 (S754_finite false f e) = IZR (Zpos f) * bpow radix2 e) by reflexivity.
  set (v := R64 (S754_finite false f e)) in *.
  assert (FV : generic_format radix2 (SpecFloat.fexp 53 1024) v) by (apply (repr_R64 (S754_finite false f e)); split; [exact HB|reflexivity]).
  assert (PV : 0 < v) by (rewrite EV; apply Rmult_lt_0_compat; [apply IZR_lt; lia|apply bpow_gt_0]).
  assert (CE : cexp radix2 (SpecFloat.fexp 53 1024) v = e).
  { unfold SpecFloat.bounded in HB. apply andb_prop in HB as [HB _]. pose proof (BinarySingleNaN.canonical_canonical_mantissa 53 1024 false f e HB) as C. unfold canonical in C. cbn in C. symmetry. exact C. }
  assert (UL : ulp radix2 (SpecFloat.fexp 53 1024) v = bpow radix2 e) by (rewrite ulp_neq_0 by lra; now rewrite CE).
  assert (EH := half_pow e). pose proof (bpow_gt_0 radix2 (e - 1)) as PH.
  apply Rle_antisym.
  - apply round_N_le_midp; try (exact fexp_valid); try exact FV. rewrite succ_eq_pos by lra. rewrite UL. unfold hi_mid in HH. rewrite plus_IZR, mult_IZR in HH. rewrite EV in *. rewrite EH in *. lra.
  - apply round_N_ge_midp; try (exact fexp_valid); try exact FV. rewrite pred_eq_pos by lra.
    assert (PL : pred_pos radix2 (SpecFloat.fexp 53 1024) v <= 2 * lo_mid (Zpos f) e - v).
    { unfold pred_pos. unfold lo_mid. assert (EQ2 := half_pow (e - 1)). replace (e - 1 - 1)%Z with (e - 2)%Z in EQ2 by lia. pose proof (bpow_gt_0 radix2 (e - 2)) as PQ.
      case Req_bool_spec; intros RB.
      - assert (MG : SpecFloat.fexp 53 1024 (mag radix2 v) = e) by exact CE.
        destruct (Z.eqb_spec (Zpos f) (2 ^ 52)) as [F52|F52].
        + assert (HF : (e - 1 <= SpecFloat.fexp 53 1024 (mag radix2 v - 1) <= e)%Z) by (unfold SpecFloat.fexp, SpecFloat.emin in *; lia).
          assert (bpow radix2 (e - 1) <= bpow radix2 (SpecFloat.fexp 53 1024 (mag radix2 v - 1))) by (apply bpow_le; lia).
          rewrite minus_IZR, mult_IZR. rewrite EV in *. rewrite EH, EQ2 in *. lra.
        + assert (HF : (SpecFloat.fexp 53 1024 (mag radix2 v - 1) = e)%Z).
          { destruct (Z.eq_dec e (-1074)) as [->|NE]; [unfold SpecFloat.fexp, SpecFloat.emin in *; lia|exfalso]. destruct HN as [HN|HN]; [|now apply NE].
            assert (mag radix2 v = (e + 53)%Z :> Z) as MV by (unfold SpecFloat.fexp, SpecFloat.emin in MG; lia). rewrite MV in RB. rewrite EV in RB. replace (e + 53 - 1)%Z with (52 + e)%Z in RB by lia. rewrite bpow_plus in RB. apply Rmult_eq_reg_r in RB; [|apply Rgt_not_eq, bpow_gt_0]. apply F52. apply eq_IZR. exact RB. }
          rewrite HF. rewrite minus_IZR, mult_IZR. rewrite EV in *. rewrite EH in *. lra.
      - rewrite UL. destruct (Z.eqb_spec (Zpos f) (2 ^ 52)) as [F52|F52]; rewrite minus_IZR, mult_IZR; rewrite EV in *; rewrite EH, ?EQ2 in *; lra. }
    lra.
Qed.
Lemma grisu2_ok beyond pre m f e : (forall i, (10 <= i <= 16)%Z -> beyond i <> None) -> (17 <= m)%nat -> SpecFloat.bounded 53 1024 f e = true ->
  exists ds K, grisu2 beyond (S754_finite false f e) (pre ++ repeat NUL m) (len pre) = Some (pre ++ ds ++ repeat NUL (m - List.length ds), len ds, K) /\
  number ds /\ (len ds <= 17)%Z /\ (-400 <= K <= 400)%Z /\ lo_mid (Zpos f) e < IZR (dec_val ds) * bpow r10 K < hi_mid (Zpos f) e /\ rnd (IZR (dec_val ds) * bpow r10 K) = R64 (S754_finite false f e).
Proof.
  intros HB Hm BD. destruct (finite_range f e BD) as (F53 & He & HN & HE). destruct (grisu_core beyond pre m (Zpos f) e HB Hm ltac:(lia) HE) as (ds & K & EQ & N & L & KB & I).
  exists ds, K. split; [exact EQ|]. split; [exact N|]. split; [exact L|]. split; [exact KB|]. split; [exact I|]. now apply round_trip.
Qed.
(** an infinity is taken for 2^1024 *)
Lemma grisu2_inf beyond pre m sg : (forall i, (10 <= i <= 16)%Z -> beyond i <> None) -> (17 <= m)%nat -> 
  exists ds K, grisu2 beyond (S754_infinity sg) (pre ++ repeat NUL m) (len pre) = Some (pre ++ ds ++ repeat NUL (m - List.length ds), len ds, K) /\
  number ds /\ (len ds <= 17)%Z /\ (-400 <= K <= 400)%Z /\ lo_mid (2 ^ 52) 972 < IZR (dec_val ds) * bpow r10 K < hi_mid (2 ^ 52) 972.
Proof. intros HB Hm. apply (grisu_core beyond pre m (2 ^ 52) 972 HB Hm); [split; reflexivity|]. change (Z.log2 (2 ^ 52)) with 52%Z. lia. Qed.
