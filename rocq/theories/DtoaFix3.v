From Coq Require Import ZArith List Ascii String Bool Lia.
From Verif Require Import F64 F64R Str DecSpec SsqModel ItoaModel ItoaProof DtoaSpec DtoaModel DtoaFix DtoaFix2.
Import ListNotations.
Open Scope Z_scope.
Open Scope opt_scope.

Lemma carry_digit r : is_digit r -> carry r = if 5 <=? dval r then 1 else 0.
Proof. unfold carry, is_digit, dval. change (ord r) with (code r). intros H. destruct (Z.leb_spec 53 (code r)), (Z.leb_spec 5 (code r - 48)); lia. Qed.
Lemma len_nat s : Z.of_nat (List.length s) = len s. Proof. reflexivity. Qed.
Lemma rounded_split X r R k p : Forall is_digit (r :: R) -> k + p = - len (r :: R) -> rounded (dec_val (X ++ r :: R)) k p = dec_val X + carry r.
Proof.
  intros H E. inversion H as [|? ? Hr HR]; subst. unfold rounded. rewrite E. replace (0 <=? - len (r :: R)) with false by (symmetry; apply Z.leb_gt; lens; pose proof (len_pos R); lia).
  cbv zeta. rewrite Z.opp_involutive. rewrite dec_val_app, dec_val_cons. cbn [List.length]. rewrite <- len_nat. cbn [List.length]. rewrite pow10_S. rewrite carry_digit by assumption.
  pose proof (dec_bound R HR) as B. pose proof (pow10_pos (List.length R)) as P. set (h := 10 ^ Z.of_nat (List.length R)) in *. unfold is_digit, dval in *.
  destruct (Z.leb_spec 5 (code r - 48)); symmetry; apply (Z.div_unique_pos _ _ _ (2 * ((code r - 48) * h + dec_val R) + 10 * h - (if 5 <=? code r - 48 then 20 * h else 0)));
  destruct (Z.leb_spec 5 (code r - 48)); try lia; nia.
Qed.
Lemma rounded_pos D k p : 0 <= k + p -> rounded D k p = D * 10 ^ (k + p).
Proof. intros H. unfold rounded. replace (0 <=? k + p) with true by (symmetry; now apply Z.leb_le). reflexivity. Qed.
Lemma dec_pad s n : dec_val (s ++ repeat "0"%char n) = dec_val s * 10 ^ Z.of_nat n.
Proof. rewrite dec_val_app, dec_zeros, repeat_length. lia. Qed.
Lemma repeat_split (c : ascii) n a : 0 <= a <= Z.of_nat n -> repeat c n = repeat c (Z.to_nat a) ++ repeat c (n - Z.to_nat a).
Proof. intros H. rewrite <- repeat_app. f_equal. lia. Qed.
Lemma canon_ds ds : ds <> [] -> Forall is_digit ds -> hd NUL ds <> "0"%char -> canonical ds.
Proof. intros N D H. split; [exact N|]. split; [exact D|]. intros t ->. now elim H. Qed.
Lemma canon_zero : canonical ["0"%char].
Proof. split; [discriminate|]. split; [constructor; [vm_compute; split; discriminate|constructor]|]. intros t E. now injection E. Qed.
Lemma bytes_split (X : bytes) n : 0 <= n <= len X -> exists a b, X = a ++ b /\ len a = n /\ len b = len X - n.
Proof. intros H. destruct (split_len X n H) as (a & b & -> & L). exists a, b. split; [reflexivity|]. split; [exact L|]. lens. lia. Qed.

Section P.
Variables (pre ds : bytes) (k p : Z) (m : nat).
Hypothesis Hds : Forall is_digit ds.
Hypothesis Hne : ds <> [].
Hypothesis Hhd : hd NUL ds <> "0"%char.
Hypothesis HL : len ds <= 17.
Hypothesis Hp : 1 <= p <= 1000.
Hypothesis Room1 : 26 <= len ds + Z.of_nat m.
Hypothesis Room2 : 23 + p <= len ds + Z.of_nat m.
Let kk := len ds + k.
Hypothesis Hkk : -5 <= kk <= 21.
Hypothesis HC : kk <= 1 \/ rounded (dec_val ds) k p / 10 ^ (p + kk - 1) = dval (hd NUL ds).

Lemma L1 : 1 <= len ds.
Proof. destruct ds; [now elim Hne|]. lens. pose proof (len_pos b). lia. Qed.
Lemma prettify_fixed : exists t rest, prettify (pre ++ ds ++ repeat NUL m) (len pre) (len ds) k p true = Some (pre ++ t ++ NUL :: rest, len pre + len t) /\ fixed_text (rounded (dec_val ds) k p) p t.
Proof.
  pose proof L1 as L1. unfold prettify. fold kk. rewrite mk_int_in by (unfold int_min, int_max; lia). cbn [obind].
  destruct (Z.leb_spec (len ds) kk) as [C1|C1]; cbn [andb].
  - (* integers *)
    replace (kk <=? 21) with true by (symmetry; apply Z.leb_le; lia).
    rewrite (repeat_split NUL m k) by (unfold kk in *; lia).
    rewrite (app_assoc pre). rewrite fill_ok by (rewrite ?repeat_length; lens; lia). cbn [obind].
    replace (0 <? p) with true by (symmetry; apply Z.ltb_lt; lia). cbn [andb].
    rewrite Z2Nat.id by (unfold kk in *; lia).
    destruct (m - Z.to_nat k)%nat as [|m1] eqn:Em1; [unfold kk in *; lia|]. assert (M1 : Z.of_nat m1 = Z.of_nat m - k - 1) by (unfold kk in *; lia). cbn [repeat].
    replace ((pre ++ ds) ++ repeat "0"%char (Z.to_nat k) ++ NUL :: repeat NUL m1) with ((pre ++ ds ++ repeat "0"%char (Z.to_nat k)) ++ NUL :: repeat NUL m1) by apps.
    rewrite setb_at by (lens; unfold kk in *; lia). cbn [obind].
    rewrite (repeat_split NUL m1 p) by (unfold kk in *; lia). destruct (m1 - Z.to_nat p)%nat as [|m2] eqn:Em2; [unfold kk in *; lia|]. cbn [repeat].
    replace ((pre ++ ds ++ repeat "0"%char (Z.to_nat k)) ++ "."%char :: repeat NUL (Z.to_nat p) ++ NUL :: repeat NUL m2) with ((pre ++ ds ++ repeat "0"%char (Z.to_nat k) ++ ["."%char]) ++ repeat NUL (Z.to_nat p) ++ NUL :: repeat NUL m2) by apps.
    rewrite fill_ok by (rewrite ?repeat_length; lens; unfold kk in *; lia). cbn [obind].
    rewrite app_assoc. rewrite setb_at by (lens; unfold kk in *; lia). cbn [obind].
    exists ((ds ++ repeat "0"%char (Z.to_nat k)) ++ "."%char :: repeat "0"%char (Z.to_nat p)), (repeat NUL m2). split; [f_equal; f_equal; [apps|lens; unfold kk in *; lia]|].
    exists (ds ++ repeat "0"%char (Z.to_nat k)), (repeat "0"%char (Z.to_nat p)). split; [reflexivity|]. split.
    + apply canon_ds; [destruct ds; [now elim Hne|discriminate]|apply Forall_app; split; [exact Hds|apply digits_zeros]|destruct ds; [now elim Hne|exact Hhd]].
    + split; [apply digits_zeros|]. split; [lens; lia|]. rewrite !dec_pad, rounded_pos by (unfold kk in *; lia). rewrite !Z2Nat.id by (unfold kk in *; lia). rewrite Z.pow_add_r by (unfold kk in *; lia). lia.
  - destruct (Z.ltb_spec 0 kk) as [C2|C2]; cbn [andb].
    + (* digits on both sides of the point *)
      replace (kk <=? 21) with true by (symmetry; apply Z.leb_le; lia).
      destruct (bytes_split ds kk) as (I & F & EI & LI & LF); [lia|].
      assert (DI : Forall is_digit I /\ Forall is_digit F) by (rewrite EI in Hds; now apply Forall_app in Hds). destruct DI as [DI DF].
      assert (NI : I <> []) by (intros ->; lens; lia).
      assert (HHd : hd NUL ds = hd NUL I) by (rewrite EI; destruct I; [now elim NI|reflexivity]).
      assert (CI : canonical I) by (apply canon_ds; [exact NI|exact DI|now rewrite <- HHd]).
      destruct m as [|m1]; [lia|]. destruct m1 as [|m1]; [lia|].
      replace (pre ++ ds ++ repeat NUL (S (S m1))) with ((pre ++ I) ++ F ++ NUL :: NUL :: repeat NUL m1) by (rewrite EI; cbn [repeat]; apps).
      destruct (mmove_one (pre ++ I) F NUL (NUL :: repeat NUL m1) (len pre + kk + 1) (len pre + kk) (len ds - kk)) as (h & M); [lens; lia|lens; lia|lia|]. rewrite M. cbn [obind].
      replace (0 <? p) with true by (symmetry; apply Z.ltb_lt; lia). rewrite setb_at by (lens; lia). cbn [obind].
      destruct (Z.leb_spec (len ds - kk) p) as [C3|C3].
      * rewrite (repeat_split NUL m1 (p - (len ds - kk))) by lia.
        assert (MS : exists q rest, NUL :: repeat NUL m1 = q ++ NUL :: rest /\ List.length q = Z.to_nat (p - (len ds - kk))).
        { exists (repeat NUL (Z.to_nat (p - (len ds - kk)))), (repeat NUL (m1 - Z.to_nat (p - (len ds - kk)))). split; [|apply repeat_length].
          change (NUL :: repeat NUL m1) with (repeat NUL (S m1)). rewrite (repeat_split NUL (S m1) (p - (len ds - kk))) by lia. f_equal. replace (S m1 - Z.to_nat (p - (len ds - kk)))%nat with (S (m1 - Z.to_nat (p - (len ds - kk)))) by lia. reflexivity. }
        rewrite <- (repeat_split NUL m1 (p - (len ds - kk))) by lia.
        destruct MS as (q & rest & EQ & LQ). rewrite EQ.
        replace ((pre ++ I) ++ "."%char :: F ++ q ++ NUL :: rest) with ((pre ++ I ++ "."%char :: F) ++ q ++ NUL :: rest) by apps.
        rewrite fill_ok by (try exact LQ; lens; lia). cbn [obind]. rewrite app_assoc. rewrite setb_at by (lens; lia). cbn [obind].
        exists (I ++ "."%char :: F ++ repeat "0"%char (Z.to_nat (p - (len ds - kk)))), rest. split; [f_equal; f_equal; [apps|lens; lia]|].
        exists I, (F ++ repeat "0"%char (Z.to_nat (p - (len ds - kk)))). split; [reflexivity|]. split; [exact CI|]. split; [apply Forall_app; split; [exact DF|apply digits_zeros]|]. split; [lens; lia|].
        rewrite app_assoc, dec_pad, <- EI, rounded_pos by (unfold kk in *; lia). f_equal. f_equal. unfold kk in *; lia.
      * destruct (bytes_split F p) as (F1 & R0 & EF & LF1 & LR0); [lia|]. destruct R0 as [|r R]; [lens; lia|].
        assert (DD : Forall is_digit F1 /\ Forall is_digit (r :: R)) by (rewrite EF in DF; now apply Forall_app in DF). destruct DD as [DF1 DR].
        assert (EN : rounded (dec_val ds) k p = dec_val (I ++ F1) + carry r).
        { rewrite EI, EF, app_assoc. apply rounded_split; [exact DR|]. rewrite LR0, LF. unfold kk in *. lia. }
        assert (exists y tl', R ++ NUL :: repeat NUL m1 = y :: tl') as (y & tl' & EY) by (destruct R; [now exists NUL, (repeat NUL m1)|eexists _, _; reflexivity]).
        replace ((pre ++ I) ++ "."%char :: F ++ NUL :: repeat NUL m1) with (pre ++ I ++ "."%char :: F1 ++ r :: y :: tl') by (rewrite EF, <- EY; apps).
        destruct (round_up_ok pre I F1 r y tl' CI DF1) as (I' & F' & rest & E & CI' & DF' & LF' & V).
        -- intros ->. lens. lia.
        -- intros HR. destruct HC as [HC1|HC1]; [left; lia|]. destruct (Z.eq_dec (len I) 1) as [|N1]; [now left|]. right. intros Q.
           destruct I as [|d0 I]; [now elim NI|]. cbn [tl] in Q. rewrite HHd in HC1. cbn [hd] in HC1. rewrite EN in HC1. unfold carry in HC1. replace (53 <=? ord r) with true in HC1 by (symmetry; now apply Z.leb_le).
           cbn [app] in HC1. rewrite dec_val_cons, Q, dec_nines, repeat_length in HC1.
           assert (LQ : Z.of_nat (List.length (I ++ F1)) = p + kk - 1) by (rewrite app_length; unfold len in *; cbn [List.length] in LI; lia). rewrite LQ in HC1.
           pose proof (pow10_pos (List.length (I ++ F1))) as PP. rewrite LQ in PP. replace (dval d0 * 10 ^ (p + kk - 1) + (10 ^ (p + kk - 1) - 1) + 1) with ((dval d0 + 1) * 10 ^ (p + kk - 1)) in HC1 by lia. rewrite Z.div_mul in HC1 by lia. lia.
        -- replace (len pre + kk + 1 + p) with (len pre + len I + 1 + len F1) by lia. rewrite E. exists (I' ++ "."%char :: F'), rest. split; [reflexivity|].
           exists I', F'. split; [reflexivity|]. split; [exact CI'|]. split; [exact DF'|]. split; [lia|]. rewrite EN. exact V.
    + (* only zeros before the point *)
      replace (-6 <? kk) with true by (symmetry; apply Z.ltb_lt; lia). replace (kk <=? 0) with true by (symmetry; apply Z.leb_le; lia). cbn [andb].
      destruct (mmove_far pre ds (repeat NUL m) (2 + - kk) (len ds) (len pre + 2 + - kk) (len pre)) as (J & r & LJ & LR & RZ & M); [reflexivity|reflexivity|lia|lens; lia|]. rewrite M. cbn [obind].
      specialize (RZ NUL ltac:(now rewrite repeat_length)). lens.
      destruct J as [|j0 J]; [lens; lia|]. cbn [app]. rewrite setb_at by reflexivity. cbn [obind]. replace (0 <? p) with true by (symmetry; apply Z.ltb_lt; lia).
      destruct J as [|j1 J]; [lens; lia|]. replace (pre ++ "0"%char :: (j1 :: J) ++ ds ++ r) with ((pre ++ ["0"%char]) ++ j1 :: J ++ ds ++ r) by apps. rewrite setb_at by (lens; lia). cbn [obind].
      replace ((pre ++ ["0"%char]) ++ "."%char :: J ++ ds ++ r) with ((pre ++ ["0"%char; "."%char]) ++ J ++ ds ++ r) by apps. lens.
      rewrite fill_ok by (try (lens; lia); unfold len in LJ; lia). cbn [obind]. rewrite Z2Nat.id by lia. rewrite mk_int_in by (unfold int_min, int_max; lia). cbn [obind].
      set (G := repeat "0"%char (Z.to_nat (- kk)) ++ ds). assert (LG : len G = - kk + len ds) by (unfold G; lens; lia).
      assert (DG : Forall is_digit G) by (apply Forall_app; split; [apply digits_zeros|exact Hds]). assert (VG : dec_val G = dec_val ds) by (unfold G; rewrite dec_val_app, dec_zeros; lia).
      replace ((pre ++ ["0"%char; "."%char]) ++ repeat "0"%char (Z.to_nat (- kk)) ++ ds ++ r) with (pre ++ ["0"%char] ++ "."%char :: G ++ r) by (unfold G; apps).
      destruct (Z.ltb_spec 0 (p - (- kk + len ds))) as [C3|C3].
      * assert (MS : exists q rest, r = q ++ NUL :: rest /\ List.length q = Z.to_nat (p - (- kk + len ds))).
        { rewrite RZ. set (w := List.length r). assert (W : Z.of_nat w = Z.of_nat m - (2 + - kk)) by (unfold w; rewrite len_nat; lia).
          exists (repeat NUL (Z.to_nat (p - (- kk + len ds)))), (repeat NUL (w - Z.to_nat (p - (- kk + len ds)) - 1)). split; [|apply repeat_length].
          rewrite (repeat_split NUL w (p - (- kk + len ds))) by lia. f_equal. destruct (w - Z.to_nat (p - (- kk + len ds)))%nat as [|w'] eqn:EW; [lia|]. cbn [repeat]. replace (S w' - 1)%nat with w' by lia. reflexivity. }
        destruct MS as (q & rest & EQ & LQ). rewrite EQ.
        replace (pre ++ ["0"%char] ++ "."%char :: G ++ q ++ NUL :: rest) with ((pre ++ ["0"%char] ++ "."%char :: G) ++ q ++ NUL :: rest) by apps.
        rewrite fill_ok by (try exact LQ; lens; lia). cbn [obind]. rewrite app_assoc. rewrite setb_at by (lens; lia). cbn [obind].
        exists (["0"%char] ++ "."%char :: G ++ repeat "0"%char (Z.to_nat (p - (- kk + len ds)))), rest. split; [f_equal; f_equal; [apps|lens; lia]|].
        exists ["0"%char], (G ++ repeat "0"%char (Z.to_nat (p - (- kk + len ds)))). split; [reflexivity|]. split; [exact canon_zero|]. split; [apply Forall_app; split; [exact DG|apply digits_zeros]|]. split; [lens; lia|].
        rewrite app_assoc, dec_pad, rounded_pos by (unfold kk in *; lia). rewrite (dec_val_app ["0"%char]). change (dec_val ["0"%char]) with 0. rewrite VG. rewrite Z.mul_0_l, Z.add_0_l. f_equal. f_equal. unfold kk in *; lia.
      * assert (SP : exists F1 c y tl', G ++ r = F1 ++ c :: y :: tl' /\ len F1 = p /\ Forall is_digit F1 /\ rounded (dec_val ds) k p = dec_val F1 + carry c).
        { destruct (Z.eq_dec p (len G)) as [EP|NP].
          - destruct r as [|r0 [|r1 r]]; [lens; lia|lens; lia|]. exists G, r0, r1, r. split; [reflexivity|]. split; [lia|]. split; [exact DG|].
            assert (r0 = NUL) as -> by (cbn [List.length repeat] in RZ; injection RZ; auto). change (carry NUL) with 0. rewrite rounded_pos by (unfold kk in *; lia). replace (k + p) with 0 by (unfold kk in *; lia). rewrite VG. cbn. lia.
          - destruct (bytes_split G p) as (F1 & R0 & EG & LF1 & LR0); [lia|]. destruct R0 as [|c R]; [lens; lia|]. rewrite EG in DG. apply Forall_app in DG as [DF1 DR].
            assert (exists y tl', R ++ r = y :: tl') as (y & tl' & EY) by (destruct R; [destruct r; [lens; lia|eexists _, _; reflexivity]|eexists _, _; reflexivity]).
            exists F1, c, y, tl'. split; [rewrite EG, <- EY; apps|]. split; [exact LF1|]. split; [exact DF1|]. rewrite <- VG, EG. apply rounded_split; [exact DR|]. rewrite LR0. unfold kk in *. lia. }
        destruct SP as (F1 & c & y & tl' & ES & LF1 & DF1 & EN). rewrite ES.
        destruct (round_up_ok pre ["0"%char] F1 c y tl' canon_zero DF1) as (I' & F' & rest & E & CI' & DF' & LF' & V).
        -- intros ->. lens. lia.
        -- intros _. now left.
        -- replace (len pre + 1 + 1 + - kk + len ds + (p - (- kk + len ds))) with (len pre + len ["0"%char] + 1 + len F1) by (rewrite (len_cons "0"%char []), len_nil; lia). rewrite E. exists (I' ++ "."%char :: F'), rest. split; [reflexivity|].
           exists I', F'. split; [reflexivity|]. split; [exact CI'|]. split; [exact DF'|]. split; [lia|]. rewrite EN, V. rewrite (dec_val_app ["0"%char]). change (dec_val ["0"%char]) with 0. lia.
Qed.
End P.
