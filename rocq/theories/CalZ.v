(** Integer closed forms for day counting, and their agreement with the counting specification. *)
From Coq Require Import ZArith Bool Lia List ZifyBool.
From Verif Require Import CalSpec.
Open Scope Z_scope.
Ltac Zify.zify_post_hook ::= Z.div_mod_to_equations.

Definition greg_key (y m d : Z) : bool := 588829 <=? y * 372 + m * 31 + d.

(** Julian day number of a date, integer form of tool.cpp:127-140. *)
Definition jdn (c : cdate) : Z :=
  let y := if cm c <=? 2 then cy c - 1 else cy c in
  let m := if cm c <=? 2 then cm c + 12 else cm c in
  let g := if greg_key (cy c) (cm c) (cd c) then 2 - y / 100 + y / 100 / 4 else 0 in
  g + (1461 * (y + 4716)) / 4 + (153 * (m + 1)) / 5 + cd c - 1524.

(** Date of a day number, integer form of tool.cpp:142-160. *)
Definition cal_greg (n : Z) : Z :=
  if 2299161 <=? n then let c := (4 * n - 7468865) / 146097 in n + (1 + c - c / 4) else n.
Definition cal_ymd (d : Z) : cdate :=
  let d := d + 1524 in
  let y := (20 * d - 2442) / 7305 in
  let d := d - (1461 * y) / 4 in
  let m := (1000 * d) / 30601 in
  let d := d - (30601 * m) / 1000 in
  if 13 <? m then mkc (y - 4715) (m - 13) d else mkc (y - 4716) (m - 1) d.
Definition cal (n : Z) : cdate := cal_ymd (cal_greg n).

Lemma jdn_zero : jdn (mkc (-4712) 1 1) = 0.
Proof. reflexivity. Qed.

Lemma leap_ex y : leap_year y = true \/ leap_year y = false.
Proof. destruct (leap_year y); auto. Qed.

(* month cases *)
Lemma month_cases m : 1 <= m <= 12 -> m = 1 \/ m = 2 \/ m = 3 \/ m = 4 \/ m = 5 \/ m = 6 \/ m = 7 \/ m = 8 \/ m = 9 \/ m = 10 \/ m = 11 \/ m = 12.
Proof. lia. Qed.

Lemma jdn_next d : real_date d -> jdn (next_day d) = jdn d + 1.
Proof.
  destruct d as [y m d]. unfold real_date, next_day. cbn [cy cm cd]. intros (Hm & Hd & Hg).
  destruct (month_cases m Hm) as [E|[E|[E|[E|[E|[E|[E|[E|[E|[E|[E|E]]]]]]]]]]]; subst m.
  all: unfold month_len, leap_year in *; cbn [Z.eqb Z.leb Z.ltb Z.compare Pos.eqb Pos.compare Pos.compare_cont orb andb negb] in *.
  all: unfold jdn, greg_key; repeat (match goal with |- context [if ?b then _ else _] => destruct b eqn:? end; cbn [cy cm cd] in * );
    try lia.
  all: destruct (y <=? 1582) eqn:?; destruct (y mod 4 =? 0) eqn:?; cbn [andb] in *; try lia.
  all: destruct (y mod 100 =? 0) eqn:?; destruct (y mod 400 =? 0) eqn:?; cbn [andb orb negb] in *; lia.
Qed.

Lemma next_real d : real_date d -> real_date (next_day d).
Proof.
  destruct d as [y m d]. unfold real_date, next_day. cbn [cy cm cd]. intros (Hm & Hd & Hg).
  destruct ((y =? 1582) && (m =? 10) && (d =? 4)) eqn:E1; cbn [cy cm cd].
  { unfold month_len. simpl. lia. }
  destruct (d <? month_len y m) eqn:E2; cbn [cy cm cd]; [lia|].
  assert (L : forall a b, 28 <= month_len a b).
  { intros a b. unfold month_len. repeat match goal with |- context [if ?b then _ else _] => destruct b end; lia. }
  destruct (m <? 12) eqn:E3; cbn [cy cm cd]; [specialize (L y (m + 1)) | specialize (L (y + 1) 1)]; lia.
Qed.

Lemma real_epoch : real_date (mkc (-4712) 1 1).
Proof. unfold real_date. cbn. unfold month_len. simpl. lia. Qed.

Lemma day_number_real n d : day_number n d -> real_date d.
Proof. induction 1; auto using real_epoch, next_real. Qed.

(** soundness: the counted number is the closed form *)
Lemma day_number_jdn n d : day_number n d -> n = jdn d.
Proof.
  induction 1 as [|n d H IH|n d R H IH].
  - reflexivity.
  - rewrite jdn_next by (eapply day_number_real; eauto). lia.
  - rewrite jdn_next in IH by easy. lia.
Qed.

(** the day before *)
Definition prev_day (d : cdate) : cdate :=
  if (cy d =? 1582) && (cm d =? 10) && (cd d =? 15) then mkc 1582 10 4
  else if 1 <? cd d then mkc (cy d) (cm d) (cd d - 1)
  else if 1 <? cm d then mkc (cy d) (cm d - 1) (month_len (cy d) (cm d - 1))
  else mkc (cy d - 1) 12 31.

Lemma month_len_bounds a b : 28 <= month_len a b <= 31.
Proof. unfold month_len. repeat match goal with |- context [if ?b then _ else _] => destruct b end; lia. Qed.

Lemma prev_real d : real_date d -> real_date (prev_day d).
Proof.
  destruct d as [y m d]. unfold real_date, prev_day. cbn [cy cm cd]. intros (Hm & Hd & Hg).
  destruct ((y =? 1582) && (m =? 10) && (d =? 15)) eqn:E1; cbn [cy cm cd].
  { unfold month_len. simpl. lia. }
  destruct (1 <? d) eqn:E2; cbn [cy cm cd]; [lia|].
  pose proof (month_len_bounds y (m - 1)).
  destruct (1 <? m) eqn:E3; cbn [cy cm cd]; [lia|]. unfold month_len. simpl. lia.
Qed.

Lemma next_prev d : real_date d -> next_day (prev_day d) = d.
Proof.
  destruct d as [y m d]. unfold real_date, prev_day. cbn [cy cm cd]. intros (Hm & Hd & Hg).
  destruct ((y =? 1582) && (m =? 10) && (d =? 15)) eqn:E1; cbn [cy cm cd].
  { assert (y = 1582 /\ m = 10 /\ d = 15) as (-> & -> & ->) by lia. reflexivity. }
  destruct (1 <? d) eqn:E2; cbn [cy cm cd]; unfold next_day; cbn [cy cm cd].
  { destruct ((y =? 1582) && (m =? 10) && (d - 1 =? 4)) eqn:E4; [exfalso; lia|].
    destruct (d - 1 <? month_len y m) eqn:E5; [f_equal; lia | exfalso; lia]. }
  destruct (1 <? m) eqn:E3; cbn [cy cm cd].
  - pose proof (month_len_bounds y (m - 1)).
    destruct ((y =? 1582) && (m - 1 =? 10) && (month_len y (m - 1) =? 4)) eqn:E4; [exfalso; lia|].
    rewrite Z.ltb_irrefl. destruct (m - 1 <? 12) eqn:E6; [|exfalso; lia]. f_equal; lia.
  - destruct ((y - 1 =? 1582) && (12 =? 10) && (31 =? 4)) eqn:E4; [exfalso; lia|].
    unfold month_len. simpl. f_equal; lia.
Qed.

(** completeness: every real date is counted *)
Lemma day_number_iter_fwd k n d : day_number n d -> day_number (n + Z.of_nat k) (Nat.iter k next_day d).
Proof.
  induction k as [|k IH]; intros H; simpl Nat.iter.
  - now rewrite Z.add_0_r.
  - replace (n + Z.of_nat (S k)) with (n + Z.of_nat k + 1) by lia. apply dn_fwd; auto.
Qed.

Lemma day_number_prev n d : day_number n d -> day_number (n - 1) (prev_day d).
Proof.
  intros H. apply dn_bwd; [apply prev_real; eapply day_number_real; eauto|].
  rewrite next_prev by (eapply day_number_real; eauto). now replace (n - 1 + 1) with n by lia.
Qed.

Lemma day_number_total n : exists d, day_number n d.
Proof.
  destruct (Z_le_gt_dec 0 n).
  - exists (Nat.iter (Z.to_nat n) next_day (mkc (-4712) 1 1)).
    replace n with (0 + Z.of_nat (Z.to_nat n)) at 1 by lia. apply day_number_iter_fwd. constructor.
  - replace n with (- Z.of_nat (Z.to_nat (- n))) by lia. induction (Z.to_nat (- n)) as [|k [d IH]].
    + exists (mkc (-4712) 1 1). constructor.
    + exists (prev_day d). replace (- Z.of_nat (S k)) with (- Z.of_nat k - 1) by lia. now apply day_number_prev.
Qed.
