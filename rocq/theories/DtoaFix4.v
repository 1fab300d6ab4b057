From Coq Require Import ZArith List Ascii String Bool Lia.
From Verif Require Import F64 F64R Str DecSpec SsqModel ItoaModel ItoaProof DtoaSpec DtoaModel DtoaFix DtoaFix2 DtoaFix3.
Import ListNotations.
Open Scope Z_scope.
Open Scope opt_scope.

Ltac pr := apply (f_equal Some); apply f_equal2.
Lemma chr_digit d : 0 <= d <= 9 -> chr (48 + d) = digit d.
Proof. intros H. unfold chr, digit. rewrite Z.mod_small by lia. reflexivity. Qed.
Lemma canonical_digits n x : 0 <= n -> canonical x -> dec_val x = n -> int_text n x.
Proof. intros H C V. unfold int_text. replace (n <? 0) with false by (symmetry; apply Z.ltb_ge; lia). now split. Qed.
Lemma write_pos K a q : 0 <= K <= 999 -> (3 <= q)%nat ->
  exists x q', (if 100 <=? K then let* s := setb (a ++ repeat NUL q) (len a) (chr (48 + K / 100)) in let* p := dd_at (K mod 100) in let* s := put2 s (len a + 1) p in Some (s, len a + 3)
     else if 10 <=? K then let* p := dd_at K in let* s := put2 (a ++ repeat NUL q) (len a) p in Some (s, len a + 2)
     else let* s := setb (a ++ repeat NUL q) (len a) (chr (48 + K)) in Some (s, len a + 1)) = Some (a ++ x ++ repeat NUL q', len a + len x) /\ canonical x /\ dec_val x = K /\ (q = q' + List.length x)%nat /\ (List.length x <= 3)%nat.
Proof.
  intros HK Hq. destruct q as [|[|[|q]]]; try lia.
  destruct (Z.leb_spec 100 K).
  - cbn [repeat]. rewrite setb_at by reflexivity. cbn [obind]. rewrite dd_at_ok by (apply Z.mod_pos_bound; lia). cbn [obind].
    replace (a ++ chr (48 + K / 100) :: NUL :: NUL :: repeat NUL q) with ((a ++ [chr (48 + K / 100)]) ++ repeat NUL (S (S q))) by (cbn [repeat]; apps). rewrite put2_ok by (lens; lia). cbn [obind].
    assert (0 <= K / 100 <= 9) by (Z.div_mod_to_equations; lia). assert (0 <= K mod 100 / 10 <= 9) by (Z.div_mod_to_equations; lia). assert (0 <= (K mod 100) mod 10 <= 9) by (Z.div_mod_to_equations; lia).
    rewrite chr_digit by assumption. exists [digit (K / 100); digit (K mod 100 / 10); digit ((K mod 100) mod 10)], q. split; [pr; [apps|lens; lia]|]. split.
    + apply canon_ds; [discriminate|constructor; [|constructor; [|constructor; [|constructor]]]; now apply digit_is|]. cbn [hd]. intros E. apply (digit_inj (K / 100) 0) in E; Z.div_mod_to_equations; lia.
    + split; [|cbn [List.length]; lia]. unfold dec_val. cbn [fold_left]. unfold dval. rewrite !digit_code by assumption. Z.div_mod_to_equations; lia.
  - destruct (Z.leb_spec 10 K).
    + rewrite dd_at_ok by lia. cbn [obind]. rewrite put2_ok by reflexivity. cbn [obind].
      assert (0 <= K / 10 <= 9) by (Z.div_mod_to_equations; lia). assert (0 <= K mod 10 <= 9) by (Z.div_mod_to_equations; lia).
      exists [digit (K / 10); digit (K mod 10)], (S q). split; [pr; [apps|lens; lia]|]. split.
      * apply canon_ds; [discriminate|constructor; [|constructor; [|constructor]]; now apply digit_is|]. cbn [hd]. intros E. apply (digit_inj (K / 10) 0) in E; Z.div_mod_to_equations; lia.
      * split; [|cbn [List.length]; lia]. unfold dec_val. cbn [fold_left]. unfold dval. rewrite !digit_code by assumption. Z.div_mod_to_equations; lia.
    + cbn [repeat]. rewrite setb_at by reflexivity. cbn [obind]. rewrite chr_digit by lia. exists [digit K], (S (S q)). split; [pr; [apps|lens; lia]|]. split.
      * split; [discriminate|]. split; [constructor; [apply digit_is; lia|constructor]|]. intros t E. now injection E.
      * split; [|cbn [List.length]; lia]. unfold dec_val. cbn [fold_left]. unfold dval. rewrite !digit_code by lia. lia.
Qed.
Lemma write_ok K a q : -999 <= K <= 999 -> (4 <= q)%nat -> exists x q', write_exponent K (a ++ repeat NUL q) (len a) = Some (a ++ x ++ repeat NUL q', len a + len x) /\ int_text K x /\ (q = q' + List.length x)%nat /\ (List.length x <= 4)%nat.
Proof.
  intros HK Hq. unfold write_exponent. destruct (Z.ltb_spec K 0).
  - destruct q as [|q]; [lia|]. cbn [repeat]. rewrite setb_at by reflexivity. cbn [obind].
    replace (a ++ "-"%char :: repeat NUL q) with ((a ++ ["-"%char]) ++ repeat NUL q) by apps. replace (len a + 1) with (len (a ++ ["-"%char])) by (lens; lia).
    destruct (write_pos (- K) (a ++ ["-"%char]) q) as (x & q' & E & C & V & LQ & LX); [lia|lia|]. rewrite E. exists ("-"%char :: x), q'. split; [pr; [apps|lens; lia]|]. split; [|cbn [List.length]; lia].
    unfold int_text. replace (K <? 0) with true by (symmetry; now apply Z.ltb_lt). exists x. split; [reflexivity|]. split; [exact C|lia].
  - cbn [obind]. destruct (write_pos K a q) as (x & q' & E & C & V & LQ & LX); [lia|lia|]. rewrite E. exists x, q'. split; [reflexivity|]. split; [now apply canonical_digits; [lia| |]|lia].
Qed.
Lemma prettify_sci pre ds k p m : Forall is_digit ds -> ds <> [] -> hd NUL ds <> "0"%char -> -999 <= len ds + k - 1 <= 999 -> len ds + k < -5 \/ 21 < len ds + k -> (7 <= m)%nat ->
  exists t q, prettify (pre ++ ds ++ repeat NUL m) (len pre) (len ds) k p true = Some (pre ++ t ++ repeat NUL (S q), len pre + len t) /\ sci_text (dec_val ds) k t.
Proof.
  intros D N H0 HK HR Hm. unfold prettify. set (kk := len ds + k) in *. rewrite mk_int_in by (unfold int_min, int_max; lia). cbn [obind].
  destruct ds as [|d g]; [now elim N|]. inversion D as [|? ? Dd Dg]; subst. cbn [hd] in H0. pose proof (len_pos g) as LG.
  assert ((len (d :: g) <=? kk) && (kk <=? 21) = false) as ->. { destruct (Z.leb_spec kk 21); [|apply andb_false_r]. assert (kk < -5) by lia. replace (len (d :: g) <=? kk) with false; [reflexivity|]. symmetry. apply Z.leb_gt. lens. lia. }
  assert ((0 <? kk) && (kk <=? 21) = false) as ->. { destruct (Z.leb_spec kk 21); [|apply andb_false_r]. replace (0 <? kk) with false; [reflexivity|]. symmetry. apply Z.ltb_ge. lia. }
  assert ((-6 <? kk) && (kk <=? 0) = false) as ->. { destruct (Z.leb_spec kk 0); [|apply andb_false_r]. replace (-6 <? kk) with false; [reflexivity|]. symmetry. apply Z.ltb_ge. lia. }
  unfold expo. destruct (Z.eqb_spec (len (d :: g)) 1) as [E1|E1].
  - assert (g = []) as -> by (destruct g; [reflexivity|]; pose proof (len_pos g); lens; lia). destruct m as [|m]; [lia|].
    cbn [app repeat]. replace (pre ++ d :: NUL :: repeat NUL m) with ((pre ++ [d]) ++ NUL :: repeat NUL m) by apps. rewrite setb_at by (lens; lia). cbn [obind].
    replace ((pre ++ [d]) ++ "e"%char :: repeat NUL m) with ((pre ++ [d; "e"%char]) ++ repeat NUL m) by apps. replace (len pre + 2) with (len (pre ++ [d; "e"%char])) by (lens; lia).
    destruct (write_ok (kk - 1) (pre ++ [d; "e"%char]) m) as (x & q' & E & IX & LQ & LX); [lia|lia|]. rewrite E. destruct q' as [|q']; [lia|].
    exists (d :: "e"%char :: x), q'. split; [pr; [apps|lens; lia]|]. exists d, [], x, (kk - 1). split; [reflexivity|]. split; [exact IX|]. split; [exact Dd|]. split; [exact H0|]. left. split; [reflexivity|]. split; [cbn; lia|unfold kk; lens; lia].
  - assert (NG : g <> []) by (intros ->; lens; lia). destruct m as [|[|m]]; [lia|lia|].
    replace (pre ++ (d :: g) ++ repeat NUL (S (S m))) with ((pre ++ [d]) ++ g ++ NUL :: NUL :: repeat NUL m) by (cbn [repeat]; apps).
    destruct (mmove_one (pre ++ [d]) g NUL (NUL :: repeat NUL m) (len pre + 2) (len pre + 1) (len (d :: g) - 1)) as (h & M); [lens; lia|lens; lia|lens; lia|]. rewrite M. cbn [obind].
    rewrite setb_at by (lens; lia). cbn [obind]. replace ((pre ++ [d]) ++ "."%char :: g ++ NUL :: repeat NUL m) with ((pre ++ d :: "."%char :: g) ++ NUL :: repeat NUL m) by apps. rewrite setb_at by (lens; lia). cbn [obind].
    replace ((pre ++ d :: "."%char :: g) ++ "e"%char :: repeat NUL m) with ((pre ++ d :: "."%char :: g ++ ["e"%char]) ++ repeat NUL m) by apps. replace (len pre + len (d :: g) + 2) with (len (pre ++ d :: "."%char :: g ++ ["e"%char])) by (lens; lia).
    destruct (write_ok (kk - 1) (pre ++ d :: "."%char :: g ++ ["e"%char]) m) as (x & q' & E & IX & LQ & LX); [lia|lia|]. rewrite E. destruct q' as [|q']; [lia|].
    exists (d :: ("."%char :: g) ++ "e"%char :: x), q'. split; [pr; [apps|lens; lia]|]. exists d, ("."%char :: g), x, (kk - 1). split; [reflexivity|]. split; [exact IX|]. split; [exact Dd|]. split; [exact H0|]. right. exists g. split; [reflexivity|]. split; [exact NG|]. split; [exact Dg|]. split; [reflexivity|unfold kk; lens; lia].
Qed.
(** without decimals: the digits after the point are cut off *)
Lemma prettify_zero pre ds k m : Forall is_digit ds -> ds <> [] -> hd NUL ds <> "0"%char -> len ds <= 17 -> -5 <= len ds + k <= 21 -> 26 <= len ds + Z.of_nat m ->
  exists t rest, prettify (pre ++ ds ++ repeat NUL m) (len pre) (len ds) k 0 true = Some (pre ++ t ++ NUL :: rest, len pre + len t) /\
  int_text (if 0 <=? k then dec_val ds * 10 ^ k else dec_val ds / 10 ^ (- k)) t.
Proof.
  intros D N H0 HL HK Hm. unfold prettify. set (kk := len ds + k) in *. rewrite mk_int_in by (unfold int_min, int_max; lia). cbn [obind].
  pose proof (dec_bound ds D) as VB. assert (L1 : 1 <= len ds) by (destruct ds as [|d0 ds0]; [now elim N|lens; pose proof (len_pos ds0); lia]).
  destruct (Z.leb_spec (len ds) kk) as [C1|C1]; cbn [andb].
  - replace (kk <=? 21) with true by (symmetry; apply Z.leb_le; lia). replace (0 <=? k) with true by (symmetry; apply Z.leb_le; unfold kk in *; lia).
    rewrite (repeat_split NUL m k) by (unfold kk in *; lia). rewrite (app_assoc pre). rewrite fill_ok by (rewrite ?repeat_length; lens; lia). cbn [obind]. cbn [andb Z.ltb Z.compare obind].
    rewrite Z2Nat.id by (unfold kk in *; lia). destruct (m - Z.to_nat k)%nat as [|m1] eqn:Em1; [unfold kk in *; lia|]. cbn [repeat]. rewrite app_assoc. rewrite setb_at by (lens; unfold kk in *; lia). cbn [obind].
    exists (ds ++ repeat "0"%char (Z.to_nat k)), (repeat NUL m1). split; [pr; [apps|lens; unfold kk in *; lia]|]. apply canonical_digits.
    + pose proof (Z.pow_nonneg 10 k). nia.
    + apply canon_ds; [destruct ds; [now elim N|discriminate]|apply Forall_app; split; [exact D|apply digits_zeros]|destruct ds; [now elim N|exact H0]].
    + rewrite dec_pad. rewrite Z2Nat.id by (unfold kk in *; lia). reflexivity.
  - replace (0 <=? k) with false by (symmetry; apply Z.leb_gt; unfold kk in *; lia).
    destruct (Z.ltb_spec 0 kk) as [C2|C2]; cbn [andb].
    + replace (kk <=? 21) with true by (symmetry; apply Z.leb_le; lia).
      destruct (bytes_split ds kk) as (I & F & EI & LI & LF); [lia|].
      assert (DI : Forall is_digit I /\ Forall is_digit F) by (rewrite EI in D; now apply Forall_app in D). destruct DI as [DI DF].
      assert (NI : I <> []) by (intros ->; lens; lia). assert (HHd : hd NUL ds = hd NUL I) by (rewrite EI; destruct I; [now elim NI|reflexivity]).
      destruct m as [|m1]; [lia|]. replace (pre ++ ds ++ repeat NUL (S m1)) with ((pre ++ I) ++ F ++ NUL :: repeat NUL m1) by (rewrite EI; cbn [repeat]; apps).
      destruct (mmove_one (pre ++ I) F NUL (repeat NUL m1) (len pre + kk + 1) (len pre + kk) (len ds - kk)) as (h & M); [lens; lia|lens; lia|lia|]. rewrite M. cbn [obind]. cbn [Z.ltb Z.compare].
      rewrite setb_at by (lens; lia). cbn [obind]. exists I, (F ++ repeat NUL m1). split; [pr; [apps|lens; lia]|].
      assert (EV : dec_val ds / 10 ^ (- k) = dec_val I).
      { rewrite EI, dec_val_app. rewrite len_nat, LF. replace (len ds - kk) with (- k) by (unfold kk; lia). pose proof (dec_bound F DF) as BF. rewrite len_nat, LF in BF. replace (len ds - kk) with (- k) in BF by (unfold kk; lia).
        rewrite Z.div_add_l by lia. rewrite Z.div_small by lia. lia. }
      rewrite EV. apply canonical_digits; [pose proof (dec_bound I DI); lia|apply canon_ds; [exact NI|exact DI|now rewrite <- HHd]|reflexivity].
    + replace (-6 <? kk) with true by (symmetry; apply Z.ltb_lt; lia). replace (kk <=? 0) with true by (symmetry; apply Z.leb_le; lia). cbn [andb].
      destruct (mmove_far pre ds (repeat NUL m) (2 + - kk) (len ds) (len pre + 2 + - kk) (len pre)) as (J & r & LJ & LR & RZ & M); [reflexivity|reflexivity|lia|lens; lia|]. rewrite M. cbn [obind].
      destruct J as [|j0 J]; [lens; lia|]. cbn [app]. rewrite setb_at by reflexivity. cbn [obind]. cbn [Z.ltb Z.compare]. destruct J as [|j1 J]; [lens; lia|].
      replace (pre ++ "0"%char :: (j1 :: J) ++ ds ++ r) with ((pre ++ ["0"%char]) ++ j1 :: J ++ ds ++ r) by apps. rewrite setb_at by (lens; lia). cbn [obind].
      exists ["0"%char], (J ++ ds ++ r). split; [pr; [apps|lens; lia]|].
      assert (EV : dec_val ds / 10 ^ (- k) = 0). { apply Z.div_small. split; [lia|]. rewrite len_nat in VB. eapply Z.lt_le_trans; [apply VB|]. apply Z.pow_le_mono_r; [lia|unfold kk in *; lia]. }
      rewrite EV. apply canonical_digits; [lia|exact canon_zero|reflexivity].
Qed.
(** a carry into the first of several digits before the point always goes wrong: d9..9.9..9r prints as 1d0..0.0..0 *)
Lemma prettify_bad pre d q m F R r : is_digit d -> is_digit r -> Forall is_digit R -> 53 <= ord r -> F <> [] -> F = repeat "9"%char (List.length F) -> len (d :: repeat "9"%char (S q)) + len F + len (r :: R) <= 17 -> (3 <= m)%nat ->
  let ds := (d :: repeat "9"%char (S q)) ++ F ++ r :: R in
  exists rest, prettify (pre ++ ds ++ repeat NUL m) (len pre) (len ds) (- (len F + len (r :: R))) (len F) true =
    Some (pre ++ ("1"%char :: d :: repeat "0"%char (S q) ++ "."%char :: repeat "0"%char (List.length F)) ++ NUL :: rest, len pre + 3 + Z.of_nat q + 1 + len F).
Proof.
  intros Dd Dr DR Hr NF EF HL Hm ds. unfold prettify. set (k := - (len F + len (r :: R))). pose proof (len_pos F) as PF. pose proof (len_pos R) as PR.
  assert (LD : len ds = 2 + Z.of_nat q + len F + 1 + len R) by (unfold ds; lens; lia). set (kk := len ds + k). assert (EK : kk = 2 + Z.of_nat q) by (unfold kk, k; lens; lia).
  lens. rewrite mk_int_in by (unfold int_min, int_max; lia). cbn [obind]. replace (len ds <=? kk) with false by (symmetry; apply Z.leb_gt; lia). replace (0 <? kk) with true by (symmetry; apply Z.ltb_lt; lia). replace (kk <=? 21) with true by (symmetry; apply Z.leb_le; lia). cbn [andb].
  set (I := d :: repeat "9"%char (S q)) in *. assert (LI : len I = kk) by (unfold I; lens; lia).
  destruct m as [|[|m]]; [lia|lia|].
  replace (pre ++ ds ++ repeat NUL (S (S m))) with ((pre ++ I) ++ (F ++ r :: R) ++ NUL :: NUL :: repeat NUL m) by (unfold ds; cbn [repeat]; apps).
  destruct (mmove_one (pre ++ I) (F ++ r :: R) NUL (NUL :: repeat NUL m) (len pre + kk + 1) (len pre + kk) (len ds - kk)) as (h & M); [lens; lia|lens; lia|lens; lia|]. rewrite M. cbn [obind].
  assert (F1 : 1 <= len F) by (destruct F; [now elim NF|lens; pose proof (len_pos F); lia]).
  replace (0 <? len F) with true by (symmetry; apply Z.ltb_lt; lia). rewrite setb_at by (lens; lia). cbn [obind]. replace (len ds - kk <=? len F) with false by (symmetry; apply Z.leb_gt; lia).
  assert (exists y tl', R ++ NUL :: repeat NUL m = y :: tl') as (y & tl' & EY) by (destruct R; [now exists NUL, (repeat NUL m)|eexists _, _; reflexivity]).
  replace ((pre ++ I) ++ "."%char :: (F ++ r :: R) ++ NUL :: repeat NUL m) with (pre ++ I ++ "."%char :: F ++ r :: y :: tl') by (rewrite <- EY; apps).
  set (end_ := len pre + kk + 1 + len F). unfold round_up.
  assert (G1 : getb (pre ++ I ++ "."%char :: F ++ r :: y :: tl') end_ = Some r).
  { replace (pre ++ I ++ "."%char :: F ++ r :: y :: tl') with ((pre ++ I ++ "."%char :: F) ++ r :: y :: tl') by apps. apply getb_at. unfold end_. lens. lia. }
  rewrite G1. cbn [obind]. change (ord "5") with 53. replace (53 <=? ord r) with true by (symmetry; now apply Z.leb_le).
  destruct (List.length F) as [|f] eqn:LF; [unfold len in F1; lia|].
  assert (G2 : getb (pre ++ I ++ "."%char :: F ++ r :: y :: tl') (end_ - 1) = Some "9"%char).
  { rewrite EF, repeat_snoc. replace (pre ++ I ++ "."%char :: (repeat "9"%char f ++ ["9"%char]) ++ r :: y :: tl') with ((pre ++ I ++ "."%char :: repeat "9"%char f) ++ "9"%char :: r :: y :: tl') by apps. apply getb_at. unfold end_. unfold len at 2. rewrite LF. lens. lia. }
  rewrite G2. cbn [obind]. replace (Ascii.eqb "9" ".") with false by reflexivity.
  set (fuel := Z.to_nat (end_ - len pre)). assert (HFU : (fuel = q + f + 4)%nat) by (unfold fuel, end_; unfold len at 2; rewrite LF; lia).
  assert (EI : I = (d :: repeat "9"%char q) ++ ["9"%char]) by (unfold I; rewrite repeat_snoc; reflexivity).
  rewrite EF. replace (pre ++ I ++ "."%char :: repeat "9"%char (S f) ++ r :: y :: tl') with ((pre ++ d :: repeat "9"%char q) ++ "9"%char :: "."%char :: repeat "9"%char (S f) ++ r :: y :: tl') by (rewrite EI; apps).
  replace (end_ - 1) with (len (pre ++ d :: repeat "9"%char q) + 2 + Z.of_nat f) by (assert (LFZ : len F = 1 + Z.of_nat f) by (unfold len; lia); unfold end_; lens; lia).
  rewrite roll_point; [|lia|lens; lia].
  replace ((pre ++ d :: repeat "9"%char q) ++ "9"%char :: "."%char :: repeat "0"%char (S f) ++ r :: y :: tl') with ((pre ++ [d]) ++ "9"%char :: repeat "9"%char q ++ "."%char :: repeat "0"%char (S f) ++ r :: y :: tl').
  2:{ change ("9"%char :: repeat "9"%char q ++ "."%char :: repeat "0"%char (S f) ++ r :: y :: tl') with (repeat "9"%char (S q) ++ "."%char :: repeat "0"%char (S f) ++ r :: y :: tl'). rewrite repeat_snoc. apps. }
  replace (len (pre ++ d :: repeat "9"%char q)) with (len (pre ++ [d]) + Z.of_nat q) by (lens; lia).
  rewrite roll_run; [|lia|discriminate|left; lens; lia].
  destruct (fuel - S f - q)%nat as [|w] eqn:EW; [lia|]. cbn [roll]. rewrite getb_at by reflexivity. cbn [obind]. rewrite Ascii.eqb_refl. rewrite setb_at by reflexivity. cbn [obind].
  replace (len pre <? len (pre ++ [d]) - 1) with false by (symmetry; apply Z.ltb_ge; lens; lia).
  replace ((pre ++ [d]) ++ "0"%char :: repeat "0"%char q ++ "."%char :: repeat "0"%char (S f) ++ r :: y :: tl') with (pre ++ (d :: repeat "0"%char (S q) ++ "."%char :: repeat "0"%char (S f)) ++ r :: y :: tl') by apps.
  destruct (mmove_one pre (d :: repeat "0"%char (S q) ++ "."%char :: repeat "0"%char (S f)) r (y :: tl') (len pre + 1) (len pre) (end_ - len pre)) as (h' & M'); [reflexivity|reflexivity|unfold end_; unfold len at 2; rewrite LF; lens; lia|]. rewrite M'. cbn [obind].
  rewrite setb_at by reflexivity. cbn [obind].
  replace (pre ++ "1"%char :: (d :: repeat "0"%char (S q) ++ "."%char :: repeat "0"%char (S f)) ++ y :: tl') with ((pre ++ "1"%char :: d :: repeat "0"%char (S q) ++ "."%char :: repeat "0"%char (S f)) ++ y :: tl') by apps.
  rewrite setb_at by (unfold end_; unfold len at 2; rewrite LF; lens; lia). cbn [obind]. exists tl'. pr; [apps|unfold end_; rewrite <- EF; lia].
Qed.
