(** Texts of doubles (to_str, dtoa.h): C45 decimals, C46 memory safety of the digit generation, C64 round trip. *)
From Coq Require Import ZArith List Ascii String Bool Lia Reals Lra.
From Coq Require Import Floats.SpecFloat.
From Flocq Require Import Core.
From Verif Require Import F64 F64R Str DecSpec SsqModel ItoaModel ItoaProof DtoaModel DtoaSpec DtoaFix DtoaFix2 DtoaFix3 DtoaFix4 DtoaGen DtoaTab DtoaGrisu.
Import ListNotations.
Open Scope Z_scope.
Open Scope opt_scope.

(** ** texts contain no NUL *)
Definition no_nul (t : bytes) : Prop := Forall (fun c => c <> NUL) t.
Lemma digits_no_nul t : Forall is_digit t -> no_nul t.
Proof. intros H. eapply Forall_impl; [apply digit_not_nul|exact H]. Qed.
Lemma canonical_no_nul t : canonical t -> no_nul t.
Proof. intros (_ & D & _). now apply digits_no_nul. Qed.
Lemma int_no_nul i t : int_text i t -> no_nul t.
Proof. unfold int_text. destruct (i <? 0); [intros (u & -> & C & _); constructor; [discriminate|now apply canonical_no_nul]|intros [C _]; now apply canonical_no_nul]. Qed.
Lemma fixed_no_nul N p t : fixed_text N p t -> no_nul t.
Proof. intros (i & f & -> & C & F & _). apply Forall_app. split; [now apply canonical_no_nul|]. constructor; [discriminate|now apply digits_no_nul]. Qed.
Lemma sci_no_nul D k t : sci_text D k t -> no_nul t.
Proof.
  intros (d & f & x & e & -> & X & Dd & _ & C). constructor; [now apply digit_not_nul|]. apply Forall_app. split.
  - destruct C as [(-> & _)|(g & -> & _ & G & _)]; [constructor|]. constructor; [discriminate|now apply digits_no_nul].
  - constructor; [discriminate|]. now apply (int_no_nul e).
Qed.
Lemma cstr_stop t rest : no_nul t -> cstr (t ++ NUL :: rest) = Some t.
Proof. induction 1 as [|c t Hc _ IH]; [reflexivity|]. cbn [app cstr]. rewrite IH. destruct (Ascii.eqb_spec c NUL); [contradiction|reflexivity]. Qed.

(** ** to_str on finite doubles *)
(** the sign that is printed *)
Definition sgn (s : bool) : bytes := if s then ["-"%char] else [].
Lemma milo_finite beyond s f e p : 0 <= p -> dtoa_milo2 beyond (S754_finite s f e) (repeat NUL 32) p true =
  (let* (b, length, K) := grisu2 beyond (S754_finite false f e) (sgn s ++ repeat NUL (32 - List.length (sgn s))) (len (sgn s)) in prettify b (len (sgn s)) length K p true).
Proof.
  intros H. unfold dtoa_milo2. replace (0 <=? p) with true by (symmetry; now apply Z.leb_le). destruct s; reflexivity.
Qed.
Lemma sgn_no_nul s : no_nul (sgn s).
Proof. destruct s; repeat constructor; discriminate. Qed.
Lemma sgn_len s : 0 <= len (sgn s) <= 1.
Proof. destruct s; cbn; lia. Qed.
Lemma to_str_of beyond v p s t i rest : dtoa_milo2 beyond v (repeat NUL 32) p true = Some (sgn s ++ t ++ NUL :: rest, i) -> no_nul t -> to_str_double beyond v p 0 false = Some (sgn s ++ t).
Proof.
  intros E N. unfold to_str_double. rewrite E. cbn [obind]. rewrite app_assoc. rewrite cstr_stop by (apply Forall_app; split; [apply sgn_no_nul|exact N]). cbn [obind].
  unfold to_str_pad. pose proof (len_pos (sgn s ++ t)). replace (64 <=? 0 - len (sgn s ++ t)) with false by (symmetry; apply Z.leb_gt; lia). cbn [Z.ltb Z.compare orb]. replace (Z.to_nat (0 - len (sgn s ++ t))) with 0%nat by lia. cbn [repeat]. now rewrite app_nil_r.
Qed.
(** all digits d 9 9 ... 9 up to the last shown decimal, and the next digit is at least 5 *)
Lemma carry_shape d X r : is_digit d -> Forall is_digit X -> (dec_val (d :: X) + carry r) / 10 ^ Z.of_nat (List.length X) <> dval d -> X = repeat "9"%char (List.length X) /\ 53 <= ord r.
Proof.
  intros Dd DX NE. rewrite dec_val_cons in NE. pose proof (dec_bound X DX) as B. pose proof (pow10_pos (List.length X)) as P. set (h := 10 ^ Z.of_nat (List.length X)) in *.
  assert (CR : carry r = 0 \/ (carry r = 1 /\ 53 <= ord r)) by (unfold carry; destruct (Z.leb_spec 53 (ord r)); [right|left]; lia).
  assert (Q : dec_val X + carry r = h). { destruct (Z.eq_dec (dec_val X + carry r) h) as [Q|Q]; [exact Q|]. elim NE. symmetry. apply (Z.div_unique_pos _ _ _ (dec_val X + carry r)); lia. }
  destruct CR as [C|[C1 C2]]; [lia|]. split; [|exact C2]. destruct (nines X DX) as [E|(A & x & m & E & NX)]; [exact E|exfalso].
  rewrite E in DX. pose proof (dec_incr A x m DX NX) as I.
  destruct I as [I1 I2]. pose proof (dec_bound _ I1) as B2. rewrite <- E in I2.
  assert (LE : List.length (A ++ chr (ord x + 1) :: repeat "0"%char m) = List.length X) by (rewrite E, !app_length; cbn [List.length]; now rewrite !repeat_length).
  rewrite LE, I2 in B2. fold h in B2. lia.
Qed.

(** the text when a carry runs into the first of at least two digits before the point *)
Definition bad_text (d kk p : Z) : bytes := "1"%char :: digit d :: repeat "0"%char (Z.to_nat (kk - 1)) ++ "."%char :: repeat "0"%char (Z.to_nat p).
Definition carry_free (D L K p : Z) : Prop := L + K <= 1 \/ rounded D K p / 10 ^ (p + (L + K) - 1) = D / 10 ^ (L - 1).
Lemma lead ds : number ds -> dec_val ds / 10 ^ (len ds - 1) = dval (hd NUL ds) /\ 1 <= dval (hd NUL ds) <= 9.
Proof.
  intros N. pose proof (number_low ds N) as LW. destruct N as (D & NE & H0). destruct ds as [|d X]; [now elim NE|]. inversion D as [|? ? Dd DX]; subst. cbn [hd] in *. replace (len (d :: X) - 1) with (Z.of_nat (List.length X)) in * by (lens; unfold len; lia).
  rewrite dec_val_cons in *. pose proof (dec_bound X DX). pose proof (pow10_pos (List.length X)). split; [symmetry; apply (Z.div_unique_pos _ _ _ (dec_val X)); lia|]. unfold is_digit, dval in *. nia.
Qed.
Lemma digit_dval d : is_digit d -> digit (dval d) = d.
Proof.
  intros H. assert (R : 0 <= dval d <= 9) by (unfold is_digit, dval in *; lia). pose proof (digit_code (dval d) R) as E. unfold dval in E at 2. assert (Q : code (digit (dval d)) = code d) by lia. unfold code in Q. apply N2Z.inj in Q.
  rewrite <- (ascii_N_embedding (digit (dval d))), Q. apply ascii_N_embedding.
Qed.

Lemma repeat_app_inv {A} {c : A} a b : a ++ b = repeat c (List.length (a ++ b)) -> a = repeat c (List.length a) /\ b = repeat c (List.length b).
Proof. induction a as [|x a IH]; cbn [app List.length repeat]; intros H; [now split|]. injection H as -> H. destruct (IH H) as [E1 E2]. split; [now rewrite <- E1|exact E2]. Qed.

(** ** main lemma *)
Lemma to_str_finite beyond s f e p : (forall i, 10 <= i <= 16 -> beyond i <> None) -> SpecFloat.bounded 53 1024 f e = true -> 0 <= p <= 8 ->
  exists D L K t, 1 <= L <= 17 /\ 10 ^ (L - 1) <= D < 10 ^ L /\ -400 <= K <= 400 /\
  (lo_mid (Zpos f) e < IZR D * bpow r10 K < hi_mid (Zpos f) e)%R /\ rnd (IZR D * bpow r10 K) = R64 (S754_finite false f e) /\
  to_str_double beyond (S754_finite s f e) p 0 false = Some (sgn s ++ t) /\
  (L + K < -5 \/ 21 < L + K -> sci_text D K t) /\
  (-5 <= L + K <= 21 -> p = 0 -> int_text (if 0 <=? K then D * 10 ^ K else D / 10 ^ (- K)) t) /\
  (-5 <= L + K <= 21 -> 1 <= p -> carry_free D L K p -> fixed_text (rounded D K p) p t) /\
  (-5 <= L + K <= 21 -> 1 <= p -> ~ carry_free D L K p -> t = bad_text (D / 10 ^ (L - 1)) (L + K) p).
Proof.
  intros HB BD Hp. pose proof (sgn_len s) as SL. assert (SN : List.length (sgn s) = 0%nat \/ List.length (sgn s) = 1%nat) by (destruct s; [right|left]; reflexivity). set (m := (32 - List.length (sgn s))%nat). assert (Hm : (31 <= m)%nat) by (unfold m; lia).
  destruct (grisu2_ok beyond (sgn s) m f e HB ltac:(lia) BD) as (ds & K & EQ & N & L & KB & MID & RT). destruct (lead ds N) as [LD LD1]. pose proof (number_low ds N) as LW. destruct N as (D & NE & H0).
  assert (L1 : 1 <= len ds) by (destruct ds as [|d0 ds0]; [now elim NE|lens; pose proof (len_pos ds0); lia]).
  assert (UP : dec_val ds < 10 ^ len ds) by (pose proof (dec_bound ds D); unfold len; lia).
  assert (LDS : len ds = Z.of_nat (List.length ds)) by reflexivity.
  assert (MI := milo_finite beyond s f e p ltac:(lia)). fold m in MI. rewrite EQ in MI. cbn [obind] in MI.
  set (m' := (m - List.length ds)%nat) in *. assert (Hm' : len ds + Z.of_nat m' = Z.of_nat m) by (unfold m'; lia).
  set (kk := len ds + K).
  assert (OUT : forall t, (exists i rest, dtoa_milo2 beyond (S754_finite s f e) (repeat NUL 32) p true = Some (sgn s ++ t ++ NUL :: rest, i)) -> no_nul t ->
    (kk < -5 \/ 21 < kk -> sci_text (dec_val ds) K t) ->
    (-5 <= kk <= 21 -> p = 0 -> int_text (if 0 <=? K then dec_val ds * 10 ^ K else dec_val ds / 10 ^ (- K)) t) ->
    (-5 <= kk <= 21 -> 1 <= p -> carry_free (dec_val ds) (len ds) K p -> fixed_text (rounded (dec_val ds) K p) p t) ->
    (-5 <= kk <= 21 -> 1 <= p -> ~ carry_free (dec_val ds) (len ds) K p -> t = bad_text (dec_val ds / 10 ^ (len ds - 1)) kk p) ->
    exists D L K t, 1 <= L <= 17 /\ 10 ^ (L - 1) <= D < 10 ^ L /\ -400 <= K <= 400 /\
    (lo_mid (Zpos f) e < IZR D * bpow r10 K < hi_mid (Zpos f) e)%R /\ rnd (IZR D * bpow r10 K) = R64 (S754_finite false f e) /\
    to_str_double beyond (S754_finite s f e) p 0 false = Some (sgn s ++ t) /\
    (L + K < -5 \/ 21 < L + K -> sci_text D K t) /\
    (-5 <= L + K <= 21 -> p = 0 -> int_text (if 0 <=? K then D * 10 ^ K else D / 10 ^ (- K)) t) /\
    (-5 <= L + K <= 21 -> 1 <= p -> carry_free D L K p -> fixed_text (rounded D K p) p t) /\
    (-5 <= L + K <= 21 -> 1 <= p -> ~ carry_free D L K p -> t = bad_text (D / 10 ^ (L - 1)) (L + K) p)).
  { intros t (i & rest & E) NN T1 T2 T3 T4. exists (dec_val ds), (len ds), K, t. split; [lia|]. split; [lia|]. split; [exact KB|]. split; [exact MID|]. split; [exact RT|]. split; [exact (to_str_of _ _ _ _ _ _ _ E NN)|].
    split; [exact T1|]. split; [exact T2|]. split; [exact T3|exact T4]. }
  destruct (Z_lt_le_dec kk (-5)) as [C|C]; [|destruct (Z_lt_le_dec 21 kk) as [C2|C2]].
  - destruct (prettify_sci (sgn s) ds K p m' D NE H0) as (t & q & E & T); [fold kk; unfold kk in *; lia|left; exact C|unfold m'; lia|].
    apply (OUT t); try (intros; exfalso; lia); [|exact (sci_no_nul _ _ _ T)|intros _; exact T]. rewrite MI, E. cbn [repeat]. now eexists _, _.
  - destruct (prettify_sci (sgn s) ds K p m' D NE H0) as (t & q & E & T); [fold kk; unfold kk in *; lia|right; exact C2|unfold m'; lia|].
    apply (OUT t); try (intros; exfalso; lia); [|exact (sci_no_nul _ _ _ T)|intros _; exact T]. rewrite MI, E. cbn [repeat]. now eexists _, _.
  - destruct (Z.eq_dec p 0) as [P0|P0].
    + subst p. destruct (prettify_zero (sgn s) ds K m' D NE H0 L) as (t & rest & E & T); [fold kk; lia|lia|].
      apply (OUT t); try (intros; exfalso; lia); [|exact (int_no_nul _ _ T)|intros; exact T]. rewrite MI, E. now eexists _, _.
    + assert (CF : carry_free (dec_val ds) (len ds) K p \/ ~ carry_free (dec_val ds) (len ds) K p).
      { unfold carry_free. destruct (Z_le_gt_dec (len ds + K) 1); [left; now left|]. destruct (Z.eq_dec (rounded (dec_val ds) K p / 10 ^ (p + (len ds + K) - 1)) (dec_val ds / 10 ^ (len ds - 1))) as [Q|Q]; [left; now right|right]. intros [Q1|Q1]; [lia|now apply Q]. }
      destruct CF as [CF|CF].
      * destruct (prettify_fixed (sgn s) ds K p m' D NE H0 L) as (t & rest & E & T); try (fold kk; lia).
        { unfold carry_free in CF. rewrite LD in CF. destruct CF as [CF|CF]; [left; exact CF|right]. rewrite <- CF. do 2 f_equal. }
        apply (OUT t); try (intros; exfalso; lia); [|exact (fixed_no_nul _ _ _ T)|intros; exact T|intros; exfalso; contradiction]. rewrite MI, E. now eexists _, _.
      * assert (KK2 : 2 <= kk) by (destruct (Z_le_gt_dec kk 1); [elim CF; now left|lia]).
        destruct ds as [|d X0]; [now elim NE|]. inversion D as [|? ? Dd DX0]; subst. cbn [hd] in *.
        (* more digits than are shown *)
        assert (MORE : kk + p < len (d :: X0)).
        { destruct (Z_lt_le_dec (kk + p) (len (d :: X0))) as [Q|Q]; [exact Q|]. elim CF. right. rewrite LD. rewrite rounded_pos by (unfold kk in Q; lia).
          replace (p + (len (d :: X0) + K) - 1) with ((len (d :: X0) - 1) + (K + p)) by lia. rewrite (Z.pow_add_r 10 (len (d :: X0) - 1) (K + p)) by (unfold kk in *; lia). rewrite Z.div_mul_cancel_r by (apply Z.pow_nonzero; unfold kk in *; lia). exact LD. }
        assert (LX0 : len (d :: X0) = len X0 + 1) by (unfold len; cbn [List.length]; lia).
        assert (HX : 0 <= kk - 1 + p <= len X0) by lia.
        destruct (bytes_split X0 (kk - 1 + p) HX) as (X & Y & EX & LX & LY). destruct Y as [|r R]; [exfalso; change (len []) with 0 in LY; lia|].
        subst X0. apply Forall_app in DX0 as [DX DY]. inversion DY as [|? ? Dr DR]; subst.
        assert (RS : rounded (dec_val (d :: X ++ r :: R)) K p = dec_val (d :: X) + carry r).
        { change (d :: X ++ r :: R) with ((d :: X) ++ r :: R). apply rounded_split; [exact DY|]. rewrite LY. unfold kk in *. lia. }
        assert (SH : X = repeat "9"%char (List.length X) /\ 53 <= ord r).
        { apply (carry_shape d X r Dd DX). intros Q. apply CF. right. rewrite LD, RS, <- Q. f_equal. f_equal. unfold len in LX. unfold kk in *. lia. }
        destruct SH as [S9 Sr].
        destruct (bytes_split X (kk - 1) ltac:(lia)) as (XI & F & EXF & LXI & LF). subst X.
        assert (SI : XI = repeat "9"%char (List.length XI) /\ F = repeat "9"%char (List.length F)).
        { exact (repeat_app_inv XI F S9). }
        destruct SI as [SI SF].
        assert (PF : len F = p) by lia. assert (QI : List.length XI = S (Z.to_nat (kk - 2))) by (unfold len in LXI; lia). rewrite QI in SI.
        assert (LALL : len (d :: (XI ++ F) ++ r :: R) = kk + p + len (r :: R)) by lia. pose proof (len_pos R) as LR. assert (LRR : len (r :: R) = 1 + len R) by (unfold len; cbn [List.length]; lia).
        destruct (prettify_bad (sgn s) d (Z.to_nat (kk - 2)) m' F R r Dd Dr DR Sr) as (rest & E); [intros Q; subst F; change (len []) with 0 in PF; lia|exact SF| |unfold m'; unfold len in *; lia|].
        { rewrite <- SI. replace (len (d :: XI)) with kk by (unfold len in *; cbn [List.length]; lia). lia. }
        rewrite <- SI in E. replace ((d :: XI) ++ F ++ r :: R) with (d :: (XI ++ F) ++ r :: R) in E by (cbn [app]; now rewrite <- app_assoc). replace (- (len F + len (r :: R))) with K in E by (unfold kk in *; lia). rewrite PF in E.
        set (t := bad_text (dval d) kk p). assert (ET : "1"%char :: d :: repeat "0"%char (S (Z.to_nat (kk - 2))) ++ "."%char :: repeat "0"%char (List.length F) = t).
        { unfold t, bad_text. rewrite digit_dval by exact Dd. do 4 f_equal; [f_equal; lia|]. f_equal. f_equal. unfold len in PF. lia. }
        cbv zeta in E. rewrite ET in E.
        apply (OUT t); try (intros; exfalso; lia).
        { rewrite MI, E. now eexists _, _. }
        { rewrite <- ET. constructor; [discriminate|]. constructor; [now apply digit_not_nul|]. apply Forall_app. split; [apply digits_no_nul, digits_zeros|]. constructor; [discriminate|apply digits_no_nul, digits_zeros]. }
        { intros _ _ Q. now elim CF. }
        { intros _ _ _. now rewrite LD. }
Qed.

(** ** C45, C64: what to_str shows.  [beyond i] is what a read of entry i behind the 10-entry table kPow10 of dtoa.h:249 gives; it
    may be anything.  D has L digits; D * 10^K is the decimal number found for |v|. *)
Theorem C45_text beyond s f e p : (forall i, 10 <= i <= 16 -> beyond i <> None) -> SpecFloat.bounded 53 1024 f e = true -> 0 <= p <= 8 ->
  exists D L K t, 1 <= L <= 17 /\ 10 ^ (L - 1) <= D < 10 ^ L /\ rnd (IZR D * bpow r10 K) = R64 (S754_finite false f e) /\
  to_str_double beyond (S754_finite s f e) p 0 false = Some (sgn s ++ t) /\
  (L + K < -5 \/ 21 < L + K -> sci_text D K t) /\
  (-5 <= L + K <= 21 -> p = 0 -> int_text (if 0 <=? K then D * 10 ^ K else D / 10 ^ (- K)) t) /\
  (-5 <= L + K <= 21 -> 1 <= p -> carry_free D L K p -> fixed_text (rounded D K p) p t) /\
  (-5 <= L + K <= 21 -> 1 <= p -> ~ carry_free D L K p -> t = bad_text (D / 10 ^ (L - 1)) (L + K) p).
Proof.
  intros HB BD Hp. destruct (to_str_finite beyond s f e p HB BD Hp) as (D & L & K & t & H1 & H2 & _ & _ & H3 & H4). exists D, L, K, t. exact (conj H1 (conj H2 (conj H3 H4))).
Qed.
(** the hypotheses are met, and the three forms occur (3.14159, 1e-7, 2.7 without decimals) *)
Definition zero_beyond : Z -> option Z := fun _ => Some 0.
Definition shows (beyond : Z -> option Z) (v : f64) (p : Z) (t : string) : bool :=
  match to_str_double beyond v p 0 false with Some s => if list_eq_dec ascii_dec s (list_ascii_of_string t) then true else false | None => false end.
Example C45_text_example :
  SpecFloat.bounded 53 1024 7074231776675438 (-51) = true /\ shows zero_beyond (S754_finite false 7074231776675438 (-51)) 3 "3.142" = true /\
  shows zero_beyond (S754_finite true 7555786372591432 (-76)) 4 "-1e-7" = true /\ shows zero_beyond (S754_finite false 6079859496950170 (-51)) 0 "2" = true.
Proof. vm_compute. exact (conj eq_refl (conj eq_refl (conj eq_refl eq_refl))). Qed.

(** ** C45: accuracy, stated without the digits: every double between 2^-16 and 9 *)
Open Scope R_scope.
Lemma rounded_near D k p : (0 <= D)%Z -> Rabs (IZR (rounded D k p) * bpow r10 (- p) - IZR D * bpow r10 k) <= / 2 * bpow r10 (- p).
Proof.
  intros HD. pose proof (bpow_gt_0 r10 (- p)) as P. unfold rounded. destruct (Z.leb_spec 0 (k + p)) as [C|C].
  - rewrite mult_IZR. change 10%Z with (r10 : Z). rewrite IZR_Zpower by exact C. rewrite Rmult_assoc, <- bpow_plus. replace (k + p + - p)%Z with k by lia. rewrite Rminus_diag_eq by reflexivity. rewrite Rabs_R0. lra.
  - cbv zeta. assert (EK : bpow r10 k = bpow r10 (k + p) * bpow r10 (- p)) by (rewrite <- bpow_plus; f_equal; lia). rewrite EK. rewrite <- Rmult_assoc, <- Rmult_minus_distr_r. rewrite Rabs_mult. rewrite (Rabs_pos_eq (bpow r10 (- p))) by lra. apply Rmult_le_compat_r; [lra|].
    assert (EQ : bpow r10 (k + p) = / IZR (10 ^ (- (k + p)))). { change 10%Z with (r10 : Z). rewrite IZR_Zpower by lia. rewrite <- bpow_opp. f_equal. lia. }
    rewrite EQ. set (q := (10 ^ (- (k + p)))%Z). assert (Q : (0 < q)%Z) by (apply Z.pow_pos_nonneg; lia). clearbody q. pose proof (Z.div_mod (2 * D + q) (2 * q) ltac:(lia)) as DM. pose proof (Z.mod_pos_bound (2 * D + q) (2 * q) ltac:(lia)) as MB.
    set (n := ((2 * D + q) / (2 * q))%Z) in *. assert (A : (2 * q * n - q <= 2 * D < 2 * q * n + q)%Z) by lia. clearbody n. destruct A as [A1 A2]. apply IZR_le in A1. apply IZR_lt in A2. apply IZR_lt in Q. rewrite minus_IZR, !mult_IZR in A1. rewrite plus_IZR, !mult_IZR in A2.
    assert (E : IZR D = (IZR D * / IZR q) * IZR q) by (field; lra). set (y := IZR D * / IZR q) in *. clearbody y. rewrite E in A1, A2.
    apply Rabs_le. split; apply Rmult_le_reg_r with (IZR q); lra.
Qed.
Lemma mid_near f e x : lo_mid f e < x < hi_mid f e -> Rabs (x - IZR f * bpow radix2 e) <= bpow radix2 (e - 1).
Proof.
  intros [A B]. unfold lo_mid, hi_mid in *. rewrite (half_pow e). pose proof (bpow_gt_0 radix2 (e - 1)) as P. rewrite plus_IZR, mult_IZR in B. apply Rabs_le. destruct (f =? 2 ^ 52)%Z.
  - rewrite (half_pow (e - 1)) in *. replace (e - 1 - 1)%Z with (e - 2)%Z in * by lia. rewrite minus_IZR, mult_IZR in A. lra.
  - rewrite minus_IZR, mult_IZR in A. lra.
Qed.
Theorem C45_accuracy beyond s f e p : (forall i, (10 <= i <= 16)%Z -> beyond i <> None) -> SpecFloat.bounded 53 1024 f e = true -> (1 <= p <= 8)%Z ->
  bpow radix2 (-16) <= R64 (S754_finite false f e) <= 9 ->
  exists N t, to_str_double beyond (S754_finite s f e) p 0 false = Some (sgn s ++ t) /\ fixed_text N p t /\
  Rabs (IZR N * bpow r10 (- p) - R64 (S754_finite false f e)) <= / 2 * bpow r10 (- p) + / 2 * bpow radix2 e.
Proof.
  intros HB BD Hp HV. destruct (to_str_finite beyond s f e p HB BD ltac:(lia)) as (D & L & K & t & HL & HD & _ & MID & RT & E & _ & _ & FX & _).
  pose proof (mid_near _ _ _ MID) as NEAR. assert (EV : R64 (S754_finite false f e) = IZR (Zpos f) * bpow radix2 e) by reflexivity. rewrite <- EV in NEAR. set (v := R64 (S754_finite false f e)) in *.
  assert (ULP : bpow radix2 (e - 1) <= / 2 * v). { rewrite EV, (half_pow e). pose proof (bpow_gt_0 radix2 (e - 1)). assert (1 <= IZR (Zpos f)) by (apply IZR_le; lia). assert (bpow radix2 (e - 1) * 1 <= bpow radix2 (e - 1) * IZR (Zpos f)) by (apply Rmult_le_compat_l; lra). lra. }
  (* the spacing is at most 1/2 for values up to 9 *)
  assert (UP : bpow radix2 (e - 1) <= / 2).
  { destruct (finite_range f e BD) as (F53 & He & HN & _). destruct HN as [HN| ->]; [|change (/ 2) with (bpow radix2 (-1)); apply bpow_le; lia].
    change (/ 2) with (bpow radix2 (-1)). apply bpow_le. destruct (Z_le_gt_dec e 0); [lia|exfalso]. assert (bpow radix2 0 <= bpow radix2 e) by (apply bpow_le; lia). change (bpow radix2 0) with 1 in *. apply IZR_le in HN. change (IZR (2 ^ 52)) with 4503599627370496 in HN. assert (4503599627370496 * 1 <= IZR (Z.pos f) * bpow radix2 e) by (apply Rmult_le_compat; lra). rewrite EV in HV. lra. }
  pose proof (Rabs_le_inv _ _ NEAR) as NE2. set (x := IZR D * bpow r10 K) in *.
  assert (X1 : x < bpow r10 (L + K)). { rewrite bpow_plus. unfold x. apply Rmult_lt_compat_r; [apply bpow_gt_0|]. rewrite <- IZR_Zpower by lia. apply IZR_lt. change (r10 : Z) with 10%Z. lia. }
  assert (X2 : bpow r10 (L - 1 + K) <= x). { rewrite bpow_plus. unfold x. apply Rmult_le_compat_r; [left; apply bpow_gt_0|]. rewrite <- IZR_Zpower by lia. apply IZR_le. change (r10 : Z) with 10%Z. lia. }
  assert (LK1 : (L + K <= 1)%Z). { destruct (Z_le_gt_dec (L + K) 1) as [Q|Q]; [exact Q|exfalso]. assert (bpow r10 1 <= bpow r10 (L - 1 + K)) by (apply bpow_le; lia). change (bpow r10 1) with 10 in *. lra. }
  assert (LK5 : (-5 <= L + K)%Z). { destruct (Z_lt_le_dec (L + K) (-5)) as [Q|Q]; [exfalso|exact Q]. assert (bpow r10 (L + K) <= bpow r10 (-6)) by (apply bpow_le; lia). change (bpow r10 (-6)) with (/ 1000000) in *. change (bpow radix2 (-16)) with (/ 65536) in HV. lra. }
  exists (rounded D K p), t. split; [exact E|]. split; [apply FX; [lia|lia|now left]|].
  assert (D0 : (0 <= D)%Z) by (assert (0 < 10 ^ (L - 1))%Z by (apply Z.pow_pos_nonneg; lia); lia). pose proof (rounded_near D K p D0) as RN. fold x in RN. rewrite (half_pow e).
  replace (IZR (rounded D K p) * bpow r10 (- p) - v) with ((IZR (rounded D K p) * bpow r10 (- p) - x) + (x - v)) by ring. eapply Rle_trans; [apply Rabs_triang|]. lra.
Qed.
(** 3.14159 meets the hypotheses *)
Example C45_accuracy_example : SpecFloat.bounded 53 1024 7074231776675438 (-51) = true /\ bpow radix2 (-16) <= R64 (S754_finite false 7074231776675438 (-51)) <= 9.
Proof. split; [reflexivity|]. change (R64 (S754_finite false 7074231776675438 (-51))) with (7074231776675438 * / 2251799813685248). change (bpow radix2 (-16)) with (/ 65536). lra. Qed.
Close Scope R_scope.

(** ** C45 is refuted in general *)
(** the wrong text shows a 1 in front of the leading digit d, so it is never the rounded value *)
Lemma bad_shows d kk p : 0 <= d <= 9 -> 2 <= kk -> 1 <= p -> fixed_text ((10 + d) * 10 ^ (kk - 1 + p)) p (bad_text d kk p).
Proof.
  intros Hd Hk Hp. exists ("1"%char :: digit d :: repeat "0"%char (Z.to_nat (kk - 1))), (repeat "0"%char (Z.to_nat p)). split; [reflexivity|]. split; [|split; [apply digits_zeros|split]].
  - split; [discriminate|]. split; [|intros t E; discriminate E]. constructor; [vm_compute; split; discriminate|]. constructor; [now apply digit_is|apply digits_zeros].
  - unfold len. rewrite repeat_length. lia.
  - cbn [app]. rewrite !dec_val_cons, <- repeat_app. cbn [List.length]. rewrite dec_zeros, repeat_length. rewrite Nat2Z.inj_succ, Z.pow_succ_r by lia. replace (Z.of_nat (Z.to_nat (kk - 1) + Z.to_nat p)) with (kk - 1 + p) by lia. change (dval "1") with 1. unfold dval. rewrite digit_code by exact Hd. ring.
Qed.
Theorem C45_carry_wrong D L K p : 1 <= L -> 10 ^ (L - 1) <= D < 10 ^ L -> 2 <= L + K -> 1 <= p -> exists N, fixed_text N p (bad_text (D / 10 ^ (L - 1)) (L + K) p) /\ rounded D K p < N.
Proof.
  intros HL HD HK Hp. assert (P : 0 < 10 ^ (L - 1)) by (apply Z.pow_pos_nonneg; lia). assert (EL : 10 ^ L = 10 * 10 ^ (L - 1)) by (rewrite <- Z.pow_succ_r by lia; f_equal; lia).
  assert (Q : 1 <= D / 10 ^ (L - 1) < 10) by (split; [apply Z.div_le_lower_bound; lia|apply Z.div_lt_upper_bound; lia]).
  exists ((10 + D / 10 ^ (L - 1)) * 10 ^ (L + K - 1 + p)). split; [apply bad_shows; lia|].
  set (d := D / 10 ^ (L - 1)) in *. clearbody d. assert (PP : 0 < 10 ^ (L + K - 1 + p)) by (apply Z.pow_pos_nonneg; lia).
  assert (UB : rounded D K p <= 10 * 10 ^ (L + K - 1 + p)); [|nia].
  assert (E10 : 10 * 10 ^ (L + K - 1 + p) = 10 ^ (L + K + p)) by (rewrite <- Z.pow_succ_r by lia; f_equal; lia). rewrite E10. unfold rounded. destruct (Z.leb_spec 0 (K + p)).
  - replace (L + K + p) with (L + (K + p)) by lia. rewrite (Z.pow_add_r 10 L (K + p)) by lia. apply Z.mul_le_mono_nonneg_r; [apply Z.pow_nonneg; lia|lia].
  - cbv zeta. assert (PQ : 0 < 10 ^ (- (K + p))) by (apply Z.pow_pos_nonneg; lia). assert (EL2 : 10 ^ L = 10 ^ (L + K + p) * 10 ^ (- (K + p))) by (rewrite <- Z.pow_add_r by lia; f_equal; lia).
    set (q := 10 ^ (- (K + p))) in *. set (h := 10 ^ (L + K + p)) in *. clearbody q h. assert (D <= h * q - 1) by lia.
    assert ((2 * D + q) / (2 * q) < h + 1); [|lia]. apply Z.div_lt_upper_bound; [lia|]. nia.
Qed.
(** 19.96 with one decimal is shown as 110.0 *)
Theorem C45_carry_refuted : exists v N t, R64 v = rnd (1996 / 100) /\ to_str_double zero_beyond v 1 0 false = Some t /\ fixed_text N 1 t /\ (90 < IZR N * bpow r10 (-1) - R64 v)%R.
Proof.
  exists (S754_finite false 5618240535144694 (-48)), 1100, (list_ascii_of_string "110.0"). split; [|split; [vm_compute; reflexivity|]].
  - symmetry. apply round_trip; [reflexivity|]. unfold lo_mid, hi_mid. change (Z.pos 5618240535144694 =? 2 ^ 52) with false. cbv iota. change (IZR (2 * Z.pos 5618240535144694 - 1)) with 11236481070289387%R. change (IZR (2 * Z.pos 5618240535144694 + 1)) with 11236481070289389%R. change (bpow radix2 (-48 - 1)) with (/ 562949953421312)%R. lra.
  - split.
    + exists (list_ascii_of_string "110"), (list_ascii_of_string "0"). split; [reflexivity|]. split; [|split; [|split; reflexivity]].
      * split; [discriminate|]. split; [repeat constructor; vm_compute; discriminate|]. intros t E. discriminate E.
      * repeat constructor; vm_compute; discriminate.
    + change (bpow r10 (-1)) with (/ 10)%R. change (R64 (S754_finite false 5618240535144694 (-48))) with (5618240535144694 * / 281474976710656)%R. lra.
Qed.
(** without decimals the value is cut, not rounded: 2.7 is shown as 2; this is so for every value (C45_text, p = 0) *)
Theorem C45_no_decimals_refuted : exists v t N, to_str_double zero_beyond v 0 0 false = Some t /\ int_text N t /\ (IZR N + / 2 < R64 v)%R.
Proof.
  exists (S754_finite false 6079859496950170 (-51)), (list_ascii_of_string "2"), 2. split; [vm_compute; reflexivity|]. split.
  - split; [|reflexivity]. split; [discriminate|]. split; [repeat constructor; vm_compute; discriminate|]. intros t E. discriminate E.
  - change (R64 (S754_finite false 6079859496950170 (-51))) with (6079859496950170 * / 2251799813685248)%R. lra.
Qed.
(** a negative precision loses the digits of a whole number: 12 is shown as ".0" *)
Theorem C45_negative_precision_refuted : exists v, R64 v = 12%R /\ to_str_double zero_beyond v (-1) 0 false = Some (list_ascii_of_string ".0").
Proof. exists (S754_finite false 6755399441055744 (-49)). split; [|vm_compute; reflexivity]. change (R64 (S754_finite false 6755399441055744 (-49))) with (6755399441055744 * / 562949953421312)%R. lra. Qed.

(** zeros: the sign of a negative zero is shown *)
Theorem C45_zero beyond s p : 1 <= p <= 8 -> to_str_double beyond (S754_zero s) p 0 false = Some (sgn s ++ "0"%char :: "."%char :: repeat "0"%char (Z.to_nat p)).
Proof. intros H. assert (C : p = 1 \/ p = 2 \/ p = 3 \/ p = 4 \/ p = 5 \/ p = 6 \/ p = 7 \/ p = 8) by lia. repeat (destruct C as [->|C]; [destruct s; vm_compute; reflexivity|]). subst p. destruct s; vm_compute; reflexivity. Qed.
(** an infinity is shown as a number *)
Theorem C45_infinity_refuted beyond s p : (forall i, 10 <= i <= 16 -> beyond i <> None) -> 0 <= p <= 8 ->
  exists D K t, to_str_double beyond (S754_infinity s) p 0 false = Some (sgn s ++ t) /\ sci_text D K t.
Proof.
  intros HB Hp. pose proof (sgn_len s) as SL. assert (SN : List.length (sgn s) = 0%nat \/ List.length (sgn s) = 1%nat) by (destruct s; [right|left]; reflexivity). set (m := (32 - List.length (sgn s))%nat). assert (Hm : (31 <= m)%nat) by (unfold m; lia).
  destruct (grisu2_inf beyond (sgn s) m false HB ltac:(lia)) as (ds & K & EQ & (D & NE & H0) & L & KB & [MID _]).
  assert (L1 : 1 <= len ds) by (destruct ds as [|d0 ds0]; [now elim NE|lens; pose proof (len_pos ds0); lia]).
  assert (LDS : len ds = Z.of_nat (List.length ds)) by reflexivity.
  assert (BIG : 21 < len ds + K).
  { destruct (Z_lt_le_dec 21 (len ds + K)) as [Q|Q]; [exact Q|exfalso]. pose proof (dec_bound ds D) as [_ UP]. rewrite <- LDS in UP. apply IZR_lt in UP. change 10 with (r10 : Z) in UP. rewrite IZR_Zpower in UP by lia.
    assert (X1 : (IZR (dec_val ds) * bpow r10 K < bpow r10 21)%R). { apply Rlt_le_trans with (bpow r10 (len ds) * bpow r10 K)%R; [apply Rmult_lt_compat_r; [apply bpow_gt_0|exact UP]|]. rewrite <- bpow_plus. apply bpow_le. lia. }
    assert (X2 : (bpow r10 21 <= bpow radix2 970)%R). { rewrite <- !IZR_Zpower by lia. apply IZR_le. apply Z.leb_le. vm_compute. reflexivity. }
    unfold lo_mid in MID. change (2 ^ 52 =? 2 ^ 52) with true in MID. cbv iota in MID. assert (X3 : (1 * bpow radix2 970 <= IZR (4 * 2 ^ 52 - 1) * bpow radix2 (972 - 2))%R) by (apply Rmult_le_compat_r; [left; apply bpow_gt_0|apply IZR_le; apply Z.leb_le; reflexivity]). lra. }
  destruct (prettify_sci (sgn s) ds K p (m - List.length ds) D NE H0) as (t & q & E & T); [lia|right; exact BIG|lia|].
  exists (dec_val ds), K, t. split; [|exact T]. apply (to_str_of _ _ _ _ _ (len (sgn s) + len t) (repeat NUL q)); [|exact (sci_no_nul _ _ _ T)].
  change (repeat NUL (S q)) with (NUL :: repeat NUL q) in E. rewrite <- E. unfold dtoa_milo2. replace (0 <=? p) with true by (symmetry; apply Z.leb_le; lia).
  destruct s; cbn [sgn] in *; match goal with |- ?l = ?r => change l with (let* (b, length, K0) := grisu2 beyond (S754_infinity false) (sgn true ++ repeat NUL m) (len (sgn true)) in prettify b (len (sgn true)) length K0 p true) || change l with (let* (b, length, K0) := grisu2 beyond (S754_infinity false) (sgn false ++ repeat NUL m) (len (sgn false)) in prettify b (len (sgn false)) length K0 p true) end; cbn [sgn]; rewrite EQ; reflexivity.
Qed.

(** ** C64: for every finite double and whatever follows the table, the digits found read back as the same double *)
Theorem C64_round_trip beyond f e : (forall i, 10 <= i <= 16 -> beyond i <> None) -> SpecFloat.bounded 53 1024 f e = true -> forall pre m, (17 <= m)%nat ->
  exists ds K, grisu2 beyond (S754_finite false f e) (pre ++ repeat NUL m) (len pre) = Some (pre ++ ds ++ repeat NUL (m - List.length ds), len ds, K) /\
  Forall is_digit ds /\ hd NUL ds <> "0"%char /\ 1 <= len ds <= 17 /\ rnd (IZR (dec_val ds) * bpow r10 K) = R64 (S754_finite false f e).
Proof.
  intros HB BD pre m Hm. destruct (grisu2_ok beyond pre m f e HB Hm BD) as (ds & K & EQ & (D & NE & H0) & L & _ & _ & RT). exists ds, K. split; [exact EQ|]. split; [exact D|]. split; [exact H0|]. split; [|exact RT].
  destruct ds as [|d0 ds0]; [now elim NE|]. pose proof (len_pos ds0). lens. lia.
Qed.
(** the smallest subnormal, the smallest normal and the largest double *)
Example C64_example : (fun r => match r with Some (s, l, k) => (firstn (Z.to_nat l) s, l, k) | None => ([], 0, 0) end) (grisu2 zero_beyond (S754_finite false 1 (-1074)) (repeat NUL 32) 0) = (["5"%char], 1, -324) /\
  SpecFloat.bounded 53 1024 1 (-1074) = true /\ SpecFloat.bounded 53 1024 9007199254740991 971 = true.
Proof. vm_compute. exact (conj eq_refl (conj eq_refl eq_refl)). Qed.

(** ** C46: no access outside the arrays, but for kPow10: all finite doubles and infinities, up to 8 decimals *)
Theorem C46_safe beyond v p : (forall i, 10 <= i <= 16 -> beyond i <> None) -> ok v \/ (exists s, v = S754_infinity s) -> 0 <= p <= 8 -> to_str_double beyond v p 0 false <> None.
Proof.
  intros HB HV Hp. destruct HV as [[HV HF]|[s ->]].
  - destruct v as [s|s| |s f e]; try discriminate HF.
    + destruct (Z.eq_dec p 0) as [->|NP]; [destruct s; vm_compute; discriminate|]. rewrite C45_zero by lia. discriminate.
    + destruct (to_str_finite beyond s f e p HB HV Hp) as (D & L & K & t & _ & _ & _ & _ & _ & E & _). rewrite E. discriminate.
  - destruct (C45_infinity_refuted beyond s p HB Hp) as (D & K & t & E & _). rewrite E. discriminate.
Qed.
Example C46_safe_example : ok (S754_finite true 6103515625000000 14) /\ (exists t, to_str_double zero_beyond (S754_finite true 6103515625000000 14) 8 0 false = Some t /\ len t = 31).
Proof.
  split; [exact (conj eq_refl eq_refl)|]. assert (Q : match to_str_double zero_beyond (S754_finite true 6103515625000000 14) 8 0 false with Some t => len t | None => 0 end = 31) by (vm_compute; reflexivity).
  destruct (to_str_double zero_beyond (S754_finite true 6103515625000000 14) 8 0 false) as [t|]; [|discriminate Q]. now exists t.
Qed.
(** the entries of the two tables of cached powers that are read exist for every finite double *)
Theorem C46_cached_power f e : SpecFloat.bounded 53 1024 f e = true -> exists wm wp c k i, boundaries (mkDiy (Zpos f) e) = Some (wm, wp) /\ cached_index (de wp) = Some i /\ 0 <= i < 87 /\ cached_power (de wp) = Some (c, k).
Proof.
  intros BD. destruct (finite_range f e BD) as (F53 & He & HN & HE). destruct (significands (Zpos f) e ltac:(lia)) as (_ & _ & BO & _). cbv zeta in BO. destruct (index_in _ HE) as (i & ce & CI & Hi & CE & _). destruct (entry i Hi) as (c & ce' & CF & _).
  eexists _, _, (mkDiy c ce), (- (-348 + i * 8)), i. split; [exact BO|]. cbn [de]. split; [exact CI|]. split; [exact Hi|]. unfold cached_power. rewrite CI. cbn [obind]. rewrite CF. cbn [obind]. rewrite CE. reflexivity.
Qed.
(** kPow10 has 10 entries; for 1/3 an entry behind it is read *)
Theorem C46_digit_table_refuted : exists v, ok v /\ to_str_double (fun _ => None) v 4 0 false = None.
Proof. exists (S754_finite false 6004799503160661 (-54)). split; [exact (conj eq_refl eq_refl)|vm_compute; reflexivity]. Qed.
(** with 9 decimals the 32 bytes of to_str can be too few: -1e20 *)
Theorem C46_decimals_refuted : exists v, ok v /\ to_str_double zero_beyond v 9 0 false = None.
Proof. exists (S754_finite true 6103515625000000 14). split; [exact (conj eq_refl eq_refl)|vm_compute; reflexivity]. Qed.

Print Assumptions C45_text. Print Assumptions C45_accuracy. Print Assumptions C45_carry_wrong. Print Assumptions C45_carry_refuted. Print Assumptions C45_infinity_refuted. Print Assumptions C64_round_trip. Print Assumptions C46_safe. Print Assumptions C46_cached_power.
