(** Proofs for itoa.h. *)
From Coq Require Import ZArith List Ascii String Bool Lia.
From Verif Require Import F64 Str DecSpec ItoaModel.
Import ListNotations.
Open Scope Z_scope.

(** [k] decimal digits of [n], most significant first *)
Fixpoint fixd (k : nat) (n : Z) : bytes :=
  match k with O => [] | S k => digit (n / 10 ^ Z.of_nat k mod 10) :: fixd k n end.

Lemma digit_code n : 0 <= n <= 9 -> code (digit n) = 48 + n.
Proof.
  intros H. assert (n = 0 \/ n = 1 \/ n = 2 \/ n = 3 \/ n = 4 \/ n = 5 \/ n = 6 \/ n = 7 \/ n = 8 \/ n = 9) as K by lia.
  repeat destruct K as [->|K]; [reflexivity..|]. now subst.
Qed.
Lemma digit_is n : 0 <= n <= 9 -> is_digit (digit n).
Proof. intros H. unfold is_digit. rewrite digit_code; lia. Qed.
Lemma digit_inj a b : 0 <= a <= 9 -> 0 <= b <= 9 -> digit a = digit b -> a = b.
Proof. intros Ha Hb E. apply (f_equal code) in E. rewrite !digit_code in E; lia. Qed.
Lemma mod10 n : 0 <= n mod 10 <= 9.
Proof. pose proof (Z.mod_pos_bound n 10). lia. Qed.

Lemma fixd_length k n : List.length (fixd k n) = k.
Proof. revert n; induction k; cbn; auto. Qed.
Lemma fixd_digits k n : Forall is_digit (fixd k n).
Proof. induction k; cbn; constructor; auto. apply digit_is, mod10. Qed.

Lemma pow10_pos k : 0 < 10 ^ Z.of_nat k.
Proof. apply Z.pow_pos_nonneg; lia. Qed.
Lemma pow10_S k : 10 ^ Z.of_nat (S k) = 10 * 10 ^ Z.of_nat k.
Proof. rewrite Nat2Z.inj_succ, Z.pow_succ_r; lia. Qed.

Lemma fold_dec s a : fold_left (fun a c => 10 * a + dval c) s a = a * 10 ^ Z.of_nat (List.length s) + dec_val s.
Proof.
  unfold dec_val. revert a. induction s as [|c s IH]; intros a; cbn [fold_left List.length].
  - cbn. lia.
  - rewrite IH, (IH (10 * 0 + dval c)), pow10_S. lia.
Qed.
Lemma dec_val_cons c s : dec_val (c :: s) = dval c * 10 ^ Z.of_nat (List.length s) + dec_val s.
Proof. unfold dec_val at 1. cbn [fold_left]. rewrite fold_dec. f_equal. Qed.
Lemma dec_val_app a b : dec_val (a ++ b) = dec_val a * 10 ^ Z.of_nat (List.length b) + dec_val b.
Proof. unfold dec_val at 1. rewrite fold_left_app, fold_dec. reflexivity. Qed.

Lemma dec_val_fixd k n : 0 <= n -> dec_val (fixd k n) = n mod 10 ^ Z.of_nat k.
Proof.
  intros Hn. induction k.
  - cbn. now rewrite Z.mod_1_r.
  - cbn [fixd]. rewrite dec_val_cons, fixd_length, IHk. unfold dval. rewrite digit_code by apply mod10.
    rewrite pow10_S. pose proof (pow10_pos k) as P. set (p := 10 ^ Z.of_nat k) in *.
    rewrite (Z.mul_comm 10 p), Z.rem_mul_r by lia. lia.
Qed.
Lemma fixd_app a b n : fixd (a + b) n = fixd a (n / 10 ^ Z.of_nat b) ++ fixd b n.
Proof.
  induction a; [reflexivity|]. cbn [fixd Nat.add app]. f_equal; [|easy].
  do 2 f_equal. rewrite Z.div_div by (pose proof (pow10_pos a); pose proof (pow10_pos b); lia).
  f_equal. rewrite Nat2Z.inj_add, Z.pow_add_r by lia. lia.
Qed.
Lemma fixd_mod k n : fixd k (n mod 10 ^ Z.of_nat k) = fixd k n.
Proof.
  assert (G : forall j, (j <= k)%nat -> fixd j (n mod 10 ^ Z.of_nat k) = fixd j n); [|now apply G].
  induction j; intros H; [reflexivity|]. cbn [fixd]. f_equal; [|apply IHj; lia]. f_equal.
  replace (Z.of_nat k) with (Z.of_nat j + (1 + Z.of_nat (k - j - 1))) by lia.
  rewrite Z.pow_add_r by lia. pose proof (pow10_pos j) as P. set (p := 10 ^ Z.of_nat j) in *.
  assert (Q : 0 < 10 ^ (1 + Z.of_nat (k - j - 1))) by (apply Z.pow_pos_nonneg; lia).
  rewrite Z.rem_mul_r by lia.
  rewrite (Z.mul_comm p), Z.div_add by lia. rewrite (Z.div_small (n mod p)) by (apply Z.mod_pos_bound; lia).
  rewrite Z.add_0_l. rewrite Z.pow_add_r by lia. change (10 ^ 1) with 10.
  assert (Q2 : 0 < 10 ^ Z.of_nat (k - j - 1)) by (apply Z.pow_pos_nonneg; lia).
  rewrite Z.rem_mul_r by lia. rewrite (Z.mul_comm 10), Z.mod_add by lia. apply Z.mod_mod. lia.
Qed.

Lemma canonical_fixd k n : 0 <= n < 10 ^ Z.of_nat (S k) -> (k = O \/ 10 ^ Z.of_nat k <= n) ->
  canonical (fixd (S k) n) /\ dec_val (fixd (S k) n) = n.
Proof.
  intros H K. split; [|rewrite dec_val_fixd by lia; apply Z.mod_small; lia].
  split; [easy|]. split; [apply fixd_digits|].
  intros t E. destruct K as [->|K].
  - cbn in E. now injection E as _ <-.
  - cbn [fixd] in E. exfalso. injection E as E _. change "0"%char with (digit 0) in E.
    apply digit_inj in E; [|apply mod10|lia].
    rewrite pow10_S in H. pose proof (pow10_pos k) as P. set (p := 10 ^ Z.of_nat k) in *.
    assert (1 <= n / p < 10) by (split; [apply Z.div_le_lower_bound | apply Z.div_lt_upper_bound]; lia).
    rewrite Z.mod_small in E; lia.
Qed.

(** ** the buffer *)
Notation zeros := (repeat NUL).
Lemma setb_ok pre x post c : setb (pre ++ x :: post) (len pre) c = Some (pre ++ c :: post).
Proof.
  unfold setb, len. rewrite app_length. cbn [List.length].
  destruct (Z.leb_spec 0 (Z.of_nat (List.length pre))); [|lia].
  destruct (Z.ltb_spec (Z.of_nat (List.length pre)) (Z.of_nat (List.length pre + S (List.length post)))); [|lia].
  cbn [andb]. rewrite Nat2Z.id.
  rewrite firstn_app, firstn_all, Nat.sub_diag. cbn [firstn]. rewrite app_nil_r.
  replace (skipn (S (List.length pre)) (pre ++ x :: post)) with post; [reflexivity|].
  rewrite skipn_app, skipn_all2 by lia. replace (S (List.length pre) - List.length pre)%nat with 1%nat by lia. reflexivity.
Qed.
Lemma len_snoc pre x : len (pre ++ [x]) = len pre + 1.
Proof. unfold len. rewrite app_length. cbn. lia. Qed.
Lemma len_app a b : len (a ++ b) = len a + len b.
Proof. unfold len. rewrite app_length. lia. Qed.

Lemma put2_ok pre m x y b : b = len pre -> put2 (pre ++ zeros (S (S m))) b (x, y) = Some (pre ++ x :: y :: zeros m).
Proof.
  intros ->. unfold put2. cbn [fst snd repeat]. rewrite setb_ok. cbn [obind].
  replace (pre ++ x :: NUL :: zeros m) with ((pre ++ [x]) ++ NUL :: zeros m) by now rewrite <- app_assoc.
  rewrite <- len_snoc with (x := x). rewrite setb_ok. now rewrite <- app_assoc.
Qed.

Lemma dd_at_ok n : 0 <= n < 100 -> dd_at n = Some (digit (n / 10), digit (n mod 10)).
Proof. intros H. unfold dd_at. destruct (Z.leb_spec 0 n); [|lia]. destruct (Z.ltb_spec n 100); [easy|lia]. Qed.

(** the fixed-point invariant: f/2^P is r/100^j up to the excess e *)
Definition fixpoint (P j S r e f : Z) : Prop :=
  f * 100 ^ j * S = 2 ^ P * S * r + e /\ 0 <= e < 2 ^ P * S /\ 0 <= r /\ 0 < S /\ 0 <= P /\ 0 <= j.

Lemma fixpoint_div P j S r e f : fixpoint P j S r e f -> f / 2 ^ P = r / 100 ^ j.
Proof.
  intros (E & He & Hr & HS & HP & Hj).
  assert (P2 : 0 < 2 ^ P) by (apply Z.pow_pos_nonneg; lia). assert (PJ : 0 < 100 ^ j) by (apply Z.pow_pos_nonneg; lia).
  set (p := 2 ^ P) in *. set (c := 100 ^ j) in *. clearbody p c.
  pose proof (Z.div_mod r c ltac:(lia)) as D. pose proof (Z.mod_pos_bound r c ltac:(lia)) as M.
  set (q := r / c) in *. set (t := r mod c) in *. clearbody q t. subst r.
  symmetry. apply Z.div_unique with (f - p * q); [|ring]. left.
  assert (E' : (f - p * q) * (c * S) = p * S * t + e) by lia.
  split.
  - assert (0 <= (f - p * q) * (c * S)) by (rewrite E'; assert (0 <= p * S * t) by (apply Z.mul_nonneg_nonneg; nia); lia).
    assert (0 < c * S) by nia. nia.
  - assert ((f - p * q) * (c * S) < p * (c * S)).
    { rewrite E'. assert (p * S * t <= p * S * (c - 1)) by (apply Z.mul_le_mono_nonneg_l; nia). lia. }
    assert (0 < c * S) by nia. nia.
Qed.
Lemma fixpoint_step P j S r e f : 0 <= j -> fixpoint P (j + 1) S r e f ->
  fixpoint P j S (r mod 100 ^ (j + 1)) e ((f mod 2 ^ P) * 100).
Proof.
  intros Hj F. pose proof (fixpoint_div _ _ _ _ _ _ F) as D. destruct F as (E & He & Hr & HS & HP & _).
  assert (PJ : 0 < 100 ^ (j + 1)) by (apply Z.pow_pos_nonneg; lia).
  assert (P2 : 0 < 2 ^ P) by (apply Z.pow_pos_nonneg; lia).
  repeat split; try lia.
  - rewrite !Z.mod_eq by lia. rewrite D. rewrite Z.pow_add_r in * by lia. change (100 ^ 1) with 100 in *. nia.
  - apply Z.mod_pos_bound. lia.
Qed.

Lemma hundred_pow j : 100 ^ Z.of_nat j = 10 ^ Z.of_nat (2 * j).
Proof. replace (Z.of_nat (2 * j)) with (2 * Z.of_nat j) by lia. rewrite Z.pow_mul_r by lia. reflexivity. Qed.

Lemma fixd_pair j r : 0 <= r ->
  fixd (2 * S j) r = digit ((r mod 100 ^ Z.of_nat (S j)) / 100 ^ Z.of_nat j / 10) ::
                     digit (((r mod 100 ^ Z.of_nat (S j)) / 100 ^ Z.of_nat j) mod 10) :: fixd (2 * j) r.
Proof.
  intros Hr. replace (2 * S j)%nat with (S (S (2 * j))) by lia. cbn [fixd].
  rewrite (pow10_S (2 * j)). rewrite <- hundred_pow.
  replace (100 ^ Z.of_nat (S j)) with (100 * 100 ^ Z.of_nat j) by (rewrite (Nat2Z.inj_succ j), Z.pow_succ_r; lia).
  assert (0 < 100 ^ Z.of_nat j) by (apply Z.pow_pos_nonneg; lia).
  set (p := 100 ^ Z.of_nat j) in *. clearbody p.
  rewrite (Z.mul_comm 100 p), Z.rem_mul_r by lia. rewrite (Z.mul_comm p (_ mod 100)), Z.div_add by lia.
  rewrite (Z.div_small (r mod p)) by (apply Z.mod_pos_bound; lia). rewrite Z.add_0_l.
  rewrite (Z.mul_comm 10 p), <- Z.div_div by lia. set (q := r / p). clearbody q.
  replace (q mod 100 / 10) with (q / 10 mod 10) by (Z.div_mod_to_equations; lia).
  replace ((q mod 100) mod 10) with (q mod 10) by (Z.div_mod_to_equations; lia). reflexivity.
Qed.

Lemma rest_ok j : forall P f b r e S pre m,
  fixpoint P (Z.of_nat j) S r e f -> P <= 57 -> b + 2 = len pre ->
  rest j P f b (pre ++ zeros (2 * j + m)) = Some (pre ++ fixd (2 * j) r ++ zeros m).
Proof.
  induction j; intros P f b r e S pre m F HP Hb.
  - reflexivity.
  - pose proof F as (_ & _ & Hr & _ & HP0 & _).
    rewrite Nat2Z.inj_succ in F. unfold Z.succ in F.
    apply fixpoint_step in F; [|lia]. pose proof (fixpoint_div _ _ _ _ _ _ F) as D.
    assert (P2 : 0 < 2 ^ P <= 2 ^ 57) by (split; [apply Z.pow_pos_nonneg; lia | apply Z.pow_le_mono_r; lia]).
    pose proof (Z.mod_pos_bound f (2 ^ P) ltac:(lia)) as MB. change (2 ^ 57) with 144115188075855872 in P2.
    cbn [rest]. unfold u64w at 1. rewrite (Z.mod_small (_ * 100)) by (change (2 ^ 64) with 18446744073709551616; lia).
    rewrite D.
    assert (PJ : 0 < 100 ^ Z.of_nat j) by (apply Z.pow_pos_nonneg; lia).
    assert (PJ1 : 100 ^ (Z.of_nat j + 1) = 100 * 100 ^ Z.of_nat j) by (rewrite Z.pow_add_r by lia; lia).
    pose proof (Z.mod_pos_bound r (100 ^ (Z.of_nat j + 1)) ltac:(lia)) as MR.
    rewrite dd_at_ok.
    2: { split; [apply Z.div_pos; lia | apply Z.div_lt_upper_bound; lia]. }
    cbn [obind]. replace (2 * Datatypes.S j + m)%nat with (Datatypes.S (Datatypes.S (2 * j + m))) by lia.
    rewrite put2_ok by exact Hb. cbn [obind].
    unfold u64w. rewrite Z.mod_small by (change (2 ^ 64) with 18446744073709551616; lia).
    match goal with |- rest _ _ _ _ (pre ++ ?x :: ?y :: ?z) = _ => replace (pre ++ x :: y :: z) with ((pre ++ [x; y]) ++ z)
      by (rewrite <- app_assoc; reflexivity) end.
    rewrite (IHj P _ (b + 2) (r mod 100 ^ (Z.of_nat j + 1)) e S); [| exact F | exact HP | rewrite len_app; cbn; lia].
    rewrite <- app_assoc. do 2 f_equal. rewrite fixd_pair by lia. cbn [app].
    replace (Z.of_nat (Datatypes.S j)) with (Z.of_nat j + 1) by lia. do 3 f_equal.
    rewrite <- (fixd_mod (2 * j) r), <- (fixd_mod (2 * j) (r mod _)). f_equal.
    rewrite <- hundred_pow, PJ1. symmetry. rewrite (Z.mul_comm 100), Z.rem_mul_r by lia.
    rewrite Z.mul_comm, Z.mod_add by lia. now rewrite Z.mod_mod by lia.
Qed.

(** what a digit-writing block does: it appends the canonical digits of [n] *)
Definition ndig (n : Z) (k : nat) : Prop := 0 <= n < 10 ^ Z.of_nat k /\ (k = 1%nat \/ (1 < k)%nat /\ 10 ^ Z.of_nat (k - 1) <= n).
Definition writes (g : Z -> bytes -> option (bytes * Z)) (k : nat) (t : bytes) : Prop :=
  List.length t = k /\
  forall pre m, g (len pre) (pre ++ zeros (k + m)) = Some (pre ++ t ++ zeros m, len pre + Z.of_nat k).

Lemma fd_big n : 10 <= n < 100 -> fd_at n = Some (digit (n / 10), digit (n mod 10)).
Proof. intros H. unfold fd_at. destruct (Z.leb_spec 0 n); [|lia]. destruct (Z.ltb_spec n 10); [lia|]. apply dd_at_ok; lia. Qed.
Lemma fd_small n : 0 <= n < 10 -> fd_at n = Some (digit n, NUL).
Proof. intros H. unfold fd_at. destruct (Z.leb_spec 0 n); [|lia]. destruct (Z.ltb_spec n 10); [easy|lia]. Qed.

Lemma lead_ok j P f0 n thr e S : fixpoint P (Z.of_nat j) S n e f0 -> P <= 57 ->
  thr = 10 * 100 ^ Z.of_nat j -> 100 ^ Z.of_nat j <= n < 100 * 100 ^ Z.of_nat j ->
  let k := if n <? thr then (2 * j + 1)%nat else (2 * j + 2)%nat in
  forall pre m, lead j P f0 n thr (len pre) (pre ++ zeros (2 * j + 2 + m)) =
    Some (pre ++ fixd k n ++ zeros (2 * j + 2 + m - k), len pre + Z.of_nat k).
Proof.
  intros F HP -> B k pre m. pose proof (fixpoint_div _ _ _ _ _ _ F) as D. unfold lead. rewrite D.
  assert (PJ : 0 < 100 ^ Z.of_nat j) by (apply Z.pow_pos_nonneg; lia).
  set (p := 100 ^ Z.of_nat j) in *.
  assert (Q : 1 <= n / p < 100) by (split; [apply Z.div_le_lower_bound | apply Z.div_lt_upper_bound]; lia).
  unfold k. destruct (Z.ltb_spec n (10 * p)) as [L|L].
  - assert (Q2 : n / p < 10) by (apply Z.div_lt_upper_bound; lia).
    rewrite fd_small by lia. cbn [obind].
    replace (2 * j + 2 + m)%nat with (Datatypes.S (Datatypes.S (2 * j + m))) by lia.
    rewrite put2_ok by reflexivity. cbn [obind].
    replace (pre ++ digit (n / p) :: NUL :: zeros (2 * j + m)) with ((pre ++ [digit (n / p)]) ++ zeros (2 * j + Datatypes.S m)).
    2:{ rewrite <- app_assoc. cbn [app]. do 3 f_equal. replace (2 * j + Datatypes.S m)%nat with (Datatypes.S (2 * j + m)) by lia. reflexivity. }
    rewrite (rest_ok j P f0 _ n e S) by (try assumption; rewrite len_snoc; lia). cbn [obind].
    f_equal. f_equal; [|lia].
    replace (Datatypes.S (Datatypes.S (2 * j + m)) - (2 * j + 1))%nat with (Datatypes.S m) by lia.
    replace (2 * j + 1)%nat with (Datatypes.S (2 * j)) by lia. cbn [fixd].
    rewrite <- hundred_pow. fold p. rewrite (Z.mod_small (n / p)) by lia. rewrite <- app_assoc. reflexivity.
  - assert (Q2 : 10 <= n / p) by (apply Z.div_le_lower_bound; lia).
    rewrite fd_big by lia. cbn [obind].
    replace (2 * j + 2 + m)%nat with (Datatypes.S (Datatypes.S (2 * j + m))) by lia.
    rewrite put2_ok by reflexivity. cbn [obind].
    match goal with |- context [rest _ _ _ _ (pre ++ ?x :: ?y :: ?z)] => replace (pre ++ x :: y :: z) with ((pre ++ [x; y]) ++ z)
      by (rewrite <- app_assoc; reflexivity) end.
    rewrite (rest_ok j P f0 _ n e S) by (try assumption; rewrite len_app; cbn; lia). cbn [obind].
    f_equal. f_equal; [|lia].
    replace (Datatypes.S (Datatypes.S (2 * j + m)) - (2 * j + 2))%nat with m by lia.
    replace (2 * j + 2)%nat with (2 * Datatypes.S j)%nat by lia. rewrite fixd_pair by lia.
    rewrite Nat2Z.inj_succ, Z.pow_succ_r by lia. fold p. rewrite (Z.mod_small n) by lia. rewrite <- app_assoc. reflexivity.
Qed.

Lemma lead_app j P f0 n thr e S : fixpoint P (Z.of_nat j) S n e f0 -> P <= 57 ->
  thr = 10 * 100 ^ Z.of_nat j -> 100 ^ Z.of_nat j <= n < 100 * 100 ^ Z.of_nat j ->
  exists k, (k <= 2 * j + 2)%nat /\ ndig n k /\ forall pre N, (2 * j + 2 <= N)%nat ->
    lead j P f0 n thr (len pre) (pre ++ zeros N) = Some (pre ++ fixd k n ++ zeros (N - k), len pre + Z.of_nat k).
Proof.
  intros F HP Ht B. pose proof (lead_ok j P f0 n thr e S F HP Ht B) as K. cbv zeta in K.
  assert (PJ : 0 < 100 ^ Z.of_nat j) by (apply Z.pow_pos_nonneg; lia).
  destruct (Z.ltb_spec n thr) as [L|L].
  - exists (2 * j + 1)%nat. split; [lia|]. split.
    + unfold ndig. replace (2 * j + 1)%nat with (Datatypes.S (2 * j)) by lia. rewrite pow10_S, <- hundred_pow.
      split; [lia|]. destruct j; [now left|right]. split; [lia|].
      replace (Datatypes.S (2 * Datatypes.S j) - 1)%nat with (2 * Datatypes.S j)%nat by lia. rewrite <- hundred_pow. lia.
    + intros pre N HN. replace N with (2 * j + 2 + (N - (2 * j + 2)))%nat by lia. apply K.
  - exists (2 * j + 2)%nat. split; [lia|]. split.
    + unfold ndig. replace (2 * j + 2)%nat with (Datatypes.S (Datatypes.S (2 * j))) by lia. rewrite !pow10_S, <- hundred_pow.
      split; [lia|]. right. split; [lia|].
      replace (Datatypes.S (Datatypes.S (2 * j)) - 1)%nat with (Datatypes.S (2 * j))%nat by lia. rewrite pow10_S, <- hundred_pow. lia.
    + intros pre N HN. replace N with (2 * j + 2 + (N - (2 * j + 2)))%nat by lia. apply K.
Qed.

Definition appends (g : Z -> bytes -> option (bytes * Z)) (need : nat) (n : Z) : Prop :=
  exists k, (k <= need)%nat /\ ndig n k /\ forall pre N, (need <= N)%nat ->
    g (len pre) (pre ++ zeros N) = Some (pre ++ fixd k n ++ zeros (N - k), len pre + Z.of_nat k).

Lemma k4_val : k4 = 167773. Proof. vm_compute. reflexivity. Qed.
Lemma k6_val : k6 = 429497. Proof. vm_compute. reflexivity. Qed.
Lemma k8_val : k8 = 281474977. Proof. vm_compute. reflexivity. Qed.
Lemma k10_val : k10 = 1441151881. Proof. vm_compute. reflexivity. Qed.
Lemma k8r_val : k8r = 281474977. Proof. vm_compute. reflexivity. Qed.

Lemma b4 n w : 100 <= n < 10000 -> 32 <= w -> appends (lead 1 24 ((k4 * n) mod 2 ^ w) n 1000) 4 n.
Proof.
  intros H W. rewrite k4_val.
  assert (2 ^ 32 <= 2 ^ w) by (apply Z.pow_le_mono_r; lia). change (2 ^ 32) with 4294967296 in *.
  rewrite Z.mod_small by lia.
  apply (lead_app 1 24 (167773 * n) n 1000 (84 * n) 1); try lia.
  repeat split; try lia.
Qed.
Lemma b6 n : 10000 <= n < 1000000 -> appends (lead 2 32 (u64w (k6 * n)) n 100000) 6 n.
Proof.
  intros H. rewrite k6_val. unfold u64w. rewrite Z.mod_small by (change (2 ^ 64) with 18446744073709551616; lia).
  apply (lead_app 2 32 (429497 * n) n 100000 (2704 * n) 1); try lia.
  repeat split; try lia.
Qed.
Lemma b8 n : 1000000 <= n < 100000000 -> appends (lead 3 32 (u64w (k8 * n) / 2 ^ 16) n 10000000) 8 n.
Proof.
  intros H. rewrite k8_val. unfold u64w. rewrite Z.mod_small by (change (2 ^ 64) with 18446744073709551616; lia).
  pose proof (Z.div_mod (281474977 * n) (2 ^ 16) ltac:(lia)) as D.
  pose proof (Z.mod_pos_bound (281474977 * n) (2 ^ 16) ltac:(lia)) as M.
  set (q := 281474977 * n / 2 ^ 16) in *. set (r := (281474977 * n) mod 2 ^ 16) in *. clearbody q r.
  change (2 ^ 16) with 65536 in *.
  apply (lead_app 3 32 q n 10000000 (289344 * n - r * 1000000) 65536); try lia.
  repeat split; try lia.
Qed.
Lemma b10 n : 100000000 <= n < 2 ^ 32 -> appends (lead 4 57 (u64w (k10 * n)) n 1000000000) 10 n.
Proof.
  intros H. change (2 ^ 32) with 4294967296 in *. rewrite k10_val. unfold u64w.
  rewrite Z.mod_small by (change (2 ^ 64) with 18446744073709551616; lia).
  apply (lead_app 4 57 (1441151881 * n) n 1000000000 (24144128 * n) 1); try lia.
  repeat split; try lia.
Qed.
Lemma eight_ok y pre N : 0 <= y < 100000000 -> (8 <= N)%nat ->
  eight y (len pre) (pre ++ zeros N) = Some (pre ++ fixd 8 y ++ zeros (N - 8), len pre + 8).
Proof.
  intros H HN. unfold eight. rewrite k8r_val. unfold u64w.
  rewrite (Z.mod_small (281474977 * y)) by (change (2 ^ 64) with 18446744073709551616; lia).
  pose proof (Z.div_mod (281474977 * y) (2 ^ 16) ltac:(lia)) as D.
  pose proof (Z.mod_pos_bound (281474977 * y) (2 ^ 16) ltac:(lia)) as M.
  set (q := 281474977 * y / 2 ^ 16) in *. set (r := (281474977 * y) mod 2 ^ 16) in *. clearbody q r.
  change (2 ^ 16) with 65536 in *.
  rewrite (Z.mod_small (q + 1)) by (change (2 ^ 64) with 18446744073709551616; lia).
  assert (F : fixpoint 32 (Z.of_nat 3) 65536 y (289344 * y + (65536 - r) * 1000000) (q + 1)).
  { repeat split; try lia. }
  pose proof (fixpoint_div _ _ _ _ _ _ F) as Q. rewrite Q. change (100 ^ Z.of_nat 3) with 1000000 in *.
  rewrite dd_at_ok by (split; [apply Z.div_pos | apply Z.div_lt_upper_bound]; lia). cbn [obind].
  replace N with (S (S (2 * 3 + (N - 8)))) by lia. rewrite put2_ok by reflexivity. cbn [obind].
  match goal with |- context [rest _ _ _ _ (pre ++ ?x :: ?y :: ?z)] => replace (pre ++ x :: y :: z) with ((pre ++ [x; y]) ++ z)
      by (rewrite <- app_assoc; reflexivity) end.
  rewrite (rest_ok 3 32 _ _ _ _ _ _ (N - 8) F) by (try lia; rewrite len_app; cbn; lia). cbn [obind].
  do 2 f_equal. rewrite <- app_assoc. f_equal. change 8%nat with (2 * 4)%nat at 1. rewrite (fixd_pair 3) by lia.
  change (100 ^ Z.of_nat 4) with 100000000. change (100 ^ Z.of_nat 3) with 1000000. rewrite (Z.mod_small y) by lia.
  cbn [app]. do 4 f_equal. lia.
Qed.

Lemma ndig_app u z k : ndig u k -> 0 < u -> 0 <= z < 100000000 -> (0 < k)%nat -> ndig (u * 100000000 + z) (k + 8).
Proof.
  intros [H1 H2] Hu Hz Hk. unfold ndig. rewrite Nat2Z.inj_add, Z.pow_add_r by lia. change (10 ^ Z.of_nat 8) with 100000000.
  split; [lia|]. right. split; [lia|].
  replace (Z.of_nat (k + 8 - 1)) with (Z.of_nat (k - 1) + 8) by lia. rewrite Z.pow_add_r by lia. change (10 ^ 8) with 100000000.
  destruct H2 as [->|[_ H2]]; [cbn; lia|lia].
Qed.
Lemma fixd_app8 k u z : 0 <= z < 100000000 -> fixd (k + 8) (u * 100000000 + z) = fixd k u ++ fixd 8 z.
Proof.
  intros Hz. rewrite fixd_app. change (10 ^ Z.of_nat 8) with 100000000.
  replace ((u * 100000000 + z) / 100000000) with u by (apply Z.div_unique with z; lia).
  f_equal. rewrite <- (fixd_mod 8). change (10 ^ Z.of_nat 8) with 100000000.
  f_equal. symmetry. apply Z.mod_unique with u; lia.
Qed.

Lemma small_ok n b s pre N : 0 <= n < 100 -> b = len pre -> s = pre ++ zeros N -> (2 <= N)%nat ->
  exists k, (k <= 2)%nat /\ ndig n k /\ obind (fd_at n) (fun p => obind (put2 s b p) (fun s =>
     Some (s, if n <? 10 then b + 1 else b + 2))) = Some (pre ++ fixd k n ++ zeros (N - k), len pre + Z.of_nat k).
Proof.
  intros H -> -> HN. replace N with (S (S (N - 2))) by lia. destruct (Z.ltb_spec n 10).
  - exists 1%nat. split; [lia|]. split; [unfold ndig; cbn; lia|]. rewrite fd_small by lia. cbn [obind].
    rewrite put2_ok by reflexivity. cbn [obind].
    cbn [fixd]. rewrite Z.div_1_r, Z.mod_small by lia. cbn [app]. do 2 f_equal.
  - exists 2%nat. split; [lia|]. split; [unfold ndig; cbn; lia|]. rewrite fd_big by lia. cbn [obind].
    rewrite put2_ok by reflexivity. cbn [obind]. do 2 f_equal. cbn [fixd app]. change (10 ^ Z.of_nat 1) with 10.
    change (10 ^ Z.of_nat 0) with 1. rewrite Z.div_1_r.
    rewrite (Z.mod_small (n / 10)) by (split; [apply Z.div_pos | apply Z.div_lt_upper_bound]; lia).
    do 4 f_equal. lia.
Qed.
Lemma dd2_ok n pre N : 10 <= n < 100 -> (2 <= N)%nat ->
  exists k, k = 2%nat /\ ndig n k /\ forall T (g : bytes -> option T), obind (dd_at n) (fun p => obind (put2 (pre ++ zeros N) (len pre) p) g) = g (pre ++ fixd k n ++ zeros (N - k)).
Proof.
  intros H HN. replace N with (S (S (N - 2))) by lia. exists 2%nat. split; [easy|]. split; [unfold ndig; cbn; lia|].
  intros T g. rewrite dd_at_ok by lia. cbn [obind]. rewrite put2_ok by reflexivity. cbn [obind]. f_equal. f_equal.
  cbn [fixd app]. change (10 ^ Z.of_nat 1) with 10.
    change (10 ^ Z.of_nat 0) with 1. rewrite Z.div_1_r.
    rewrite (Z.mod_small (n / 10)) by (split; [apply Z.div_pos | apply Z.div_lt_upper_bound]; lia).
  do 3 f_equal. lia.
Qed.

Lemma upper_ok u : 100 <= u < 2 ^ 32 -> appends (upper u) 10 u.
Proof.
  intros H. unfold appends.
  assert (G : forall g need, appends g need u -> (need <= 10)%nat -> appends g 10 u).
  { intros g need (k & K1 & K2 & K3) Hn. exists k. split; [lia|]. split; [easy|]. intros pre N HN. apply K3. lia. }
  unfold upper. destruct (Z.ltb_spec u 1000000); [destruct (Z.ltb_spec u 10000)|destruct (Z.ltb_spec u 100000000)].
  - apply (G (fun b s => lead 1 24 (u64w (k4 * u)) u 1000 b s) 4%nat); [apply b4; lia|lia].
  - apply (G (fun b s => lead 2 32 (u64w (k6 * u)) u 100000 b s) 6%nat); [apply b6; lia|lia].
  - apply (G (fun b s => lead 3 32 (u64w (k8 * u) / 2 ^ 16) u 10000000 b s) 8%nat); [apply b8; lia|lia].
  - apply (G (fun b s => lead 4 57 (u64w (k10 * u)) u 1000000000 b s) 10%nat); [apply b10; lia|lia].
Qed.

(** the unsigned part: itoa.h:93-248 after the sign *)
Lemma to_text_unsigned w n pre N : (w = 32 \/ w = 64) -> 0 <= n < 2 ^ w -> (31 <= N)%nat ->
  exists k, (k <= 20)%nat /\ ndig n k /\
   (if n <? 100 then
    obind (fd_at n) (fun p =>
    obind (put2 (pre ++ zeros N) (len pre) p) (fun s =>
    Some (s, if n <? 10 then len pre + 1 else len pre + 2)))
  else if n <? 1000000 then
    if n <? 10000 then lead 1 24 ((k4 * n) mod 2 ^ w) n 1000 (len pre) (pre ++ zeros N)
    else lead 2 32 (u64w (k6 * n)) n 100000 (len pre) (pre ++ zeros N)
  else if n <? 2 ^ 32 then
    if n <? 100000000 then lead 3 32 (u64w (k8 * n) / 2 ^ 16) n 10000000 (len pre) (pre ++ zeros N)
    else lead 4 57 (u64w (k10 * n)) n 1000000000 (len pre) (pre ++ zeros N)
  else
    let z := u32w (n mod 100000000) in
    let u := n / 100000000 in
    if u <? 100 then
      obind (dd_at u) (fun p =>
      obind (put2 (pre ++ zeros N) (len pre) p) (fun s =>
      eight z (len pre + 2) s))
    else if u <? 2 ^ 32 then
      obind (upper u (len pre) (pre ++ zeros N)) (fun '(s, b) =>
      eight z b s)
    else
      let y := u32w (u mod 100000000) in
      let u := u / 100000000 in
      obind (if u <? 100 then
           obind (dd_at u) (fun p => obind (put2 (pre ++ zeros N) (len pre) p) (fun s => Some (s, len pre + 2)))
         else lead 1 24 (u64w (k4 * u)) u 1000 (len pre) (pre ++ zeros N)) (fun '(s, b) =>
      obind (eight y b s) (fun '(s, b) =>
      eight z b s)))
   = Some (pre ++ fixd k n ++ zeros (N - k), len pre + Z.of_nat k).
Proof.
  intros W H HN.
  destruct (Z.ltb_spec n 100).
  { destruct (small_ok n (len pre) _ pre N ltac:(lia) eq_refl eq_refl ltac:(lia)) as (k & K1 & K2 & K3).
    exists k. split; [lia|]. split; [easy|exact K3]. }
  assert (G : forall g need, appends g need n -> (need <= 20)%nat ->
     exists k, (k <= 20)%nat /\ ndig n k /\ g (len pre) (pre ++ zeros N) = Some (pre ++ fixd k n ++ zeros (N - k), len pre + Z.of_nat k)).
  { intros g need (k & K1 & K2 & K3) Hn. exists k. split; [lia|]. split; [easy|]. apply K3. lia. }
  destruct (Z.ltb_spec n 1000000); [destruct (Z.ltb_spec n 10000)|destruct (Z.ltb_spec n (2 ^ 32)); [destruct (Z.ltb_spec n 100000000)|]].
  - apply (G _ 4%nat); [apply b4; lia|lia].
  - apply (G _ 6%nat); [apply b6; lia|lia].
  - apply (G _ 8%nat); [apply b8; lia|lia].
  - apply (G _ 10%nat); [apply b10; lia|lia].
  - assert (H64 : n < 2 ^ 64) by (destruct W as [->| ->]; lia).
    change (2 ^ 64) with 18446744073709551616 in *. change (2 ^ 32) with 4294967296 in *. cbv zeta.
    pose proof (Z.div_mod n 100000000 ltac:(lia)) as D. pose proof (Z.mod_pos_bound n 100000000 ltac:(lia)) as M.
    set (u := n / 100000000) in *. set (z := n mod 100000000) in *. clearbody u z.
    assert (UZ : u32w z = z) by (unfold u32w; apply Z.mod_small; change (2 ^ 32) with 4294967296; lia). rewrite !UZ.
    replace n with (u * 100000000 + z) in * by lia. clear D.
    assert (G2 : forall g need, appends g need u -> (need <= 12)%nat ->
       exists k, (k <= 20)%nat /\ ndig (u * 100000000 + z) k /\
         obind (g (len pre) (pre ++ zeros N)) (fun '(s, b) => eight z b s) =
         Some (pre ++ fixd k (u * 100000000 + z) ++ zeros (N - k), len pre + Z.of_nat k)).
    { intros g need (k & K1 & K2 & K3) Hn.
      assert (K0 : (0 < k)%nat) by (destruct K2 as [_ [->|[]]]; lia).
      exists (k + 8)%nat. split; [lia|]. split; [apply ndig_app; try easy; lia|].
      rewrite K3 by lia. cbn [obind]. replace (len pre + Z.of_nat k) with (len (pre ++ fixd k u)).
      2:{ rewrite len_app. unfold len at 2. now rewrite fixd_length. }
      rewrite app_assoc. rewrite eight_ok by lia. rewrite len_app. unfold len at 2. rewrite fixd_length.
      rewrite fixd_app8 by lia. rewrite <- !app_assoc. do 2 f_equal; [|lia].
      do 3 f_equal. f_equal. lia. }
    destruct (Z.ltb_spec u 100).
    { destruct (dd2_ok u pre N ltac:(lia) ltac:(lia)) as (k & -> & K2 & K3). rewrite K3.
      exists 10%nat. split; [lia|]. split; [apply (ndig_app u z 2); try easy; lia|].
      replace (len pre + 2) with (len (pre ++ fixd 2 u)) by (rewrite len_app; unfold len at 2; now rewrite fixd_length).
      rewrite app_assoc. rewrite eight_ok by lia. rewrite len_app. unfold len at 2. rewrite fixd_length.
      change 10%nat with (2 + 8)%nat. rewrite fixd_app8 by lia. rewrite <- !app_assoc. do 2 f_equal; [|lia].
      do 3 f_equal. f_equal. lia. }
    destruct (Z.ltb_spec u 4294967296).
    { apply (G2 (upper u) 10%nat); [apply upper_ok; change (2 ^ 32) with 4294967296; lia|lia]. }
    pose proof (Z.div_mod u 100000000 ltac:(lia)) as D. pose proof (Z.mod_pos_bound u 100000000 ltac:(lia)) as M2.
    set (v := u / 100000000) in *. set (y := u mod 100000000) in *. clearbody v y.
    assert (UY : u32w y = y) by (unfold u32w; apply Z.mod_small; change (2 ^ 32) with 4294967296; lia). rewrite !UY.
    replace u with (v * 100000000 + y) in * by lia. clear D.
    assert (G3 : forall k, ndig v k -> (2 <= k <= 12)%nat ->
       exists K, (K <= 20 + 8)%nat /\ ndig ((v * 100000000 + y) * 100000000 + z) K /\ K = (k + 8 + 8)%nat /\
         obind (eight y (len pre + Z.of_nat k) (pre ++ fixd k v ++ zeros (N - k))) (fun '(s, b) => eight z b s) =
         Some (pre ++ fixd K ((v * 100000000 + y) * 100000000 + z) ++ zeros (N - K), len pre + Z.of_nat K)).
    { intros k K2 Hk. exists (k + 8 + 8)%nat. split; [lia|].
      split; [apply ndig_app; [apply ndig_app; try easy; lia | lia | lia | lia]|]. split; [easy|].
      replace (len pre + Z.of_nat k) with (len (pre ++ fixd k v)) by (rewrite len_app; unfold len at 2; now rewrite fixd_length).
      rewrite app_assoc. rewrite eight_ok by lia. cbn [obind].
      replace (len (pre ++ fixd k v) + 8) with (len ((pre ++ fixd k v) ++ fixd 8 y))
        by (rewrite (len_app _ (fixd 8 y)); unfold len at 2; now rewrite fixd_length).
      rewrite (app_assoc _ (fixd 8 y)). rewrite eight_ok by lia.
      rewrite fixd_app8, fixd_app8 by lia. rewrite <- !app_assoc. do 2 f_equal.
      - do 4 f_equal. f_equal. lia.
      - rewrite !len_app. unfold len. rewrite !fixd_length. lia. }
    assert (V : v < 1845) by lia.
    destruct (Z.ltb_spec v 100).
    { destruct (dd2_ok v pre N ltac:(lia) ltac:(lia)) as (k & -> & K2 & K3). rewrite K3. cbn [obind].
      destruct (G3 2%nat K2 ltac:(lia)) as (K & E1 & E2 & E3 & E4). exists K. split; [lia|]. split; [easy|exact E4]. }
    { destruct (b4 v 64 ltac:(lia) ltac:(lia)) as (k & K1 & K2 & K3). change (2 ^ 64) with (2 ^ 64) in K3.
      unfold u64w at 1. rewrite K3 by lia. cbn [obind].
      assert (2 <= k)%nat. { destruct K2 as [L [->|[]]]; [cbn in L; lia|lia]. }
      destruct (G3 k K2 ltac:(lia)) as (K & E1 & E2 & E3 & E4). exists K. split; [lia|]. split; [easy|exact E4]. }
Qed.

Lemma cstr_zeros t m : Forall (fun c => c <> NUL) t -> cstr (t ++ zeros (S m)) = Some t.
Proof.
  induction 1 as [|c t Hc _ IH]; [reflexivity|]. cbn [app cstr]. rewrite IH.
  destruct (Ascii.eqb_spec c NUL); [contradiction|reflexivity].
Qed.
Lemma digit_not_nul c : is_digit c -> c <> NUL.
Proof. intros H ->. unfold is_digit in H. vm_compute in H. destruct H as [H _]. now apply H. Qed.

(** canonical digits of a natural number *)
Lemma ndig_canonical n k : ndig n k -> canonical (fixd k n) /\ dec_val (fixd k n) = n.
Proof.
  intros [H [->|[K1 K2]]].
  - now apply canonical_fixd; [|left].
  - destruct k; [lia|]. apply canonical_fixd; [easy|]. right. now replace (S k - 1)%nat with k in K2 by lia.
Qed.

Theorem to_str_int_ok w i : (w = 32 \/ w = 64) -> - 2 ^ (w - 1) <= i < 2 ^ w ->
  exists s, to_str_int w i 0 false = Some s /\ int_text i s /\ (List.length s <= 21)%nat.
Proof.
  intros W H. unfold to_str_int, to_text.
  assert (PW : 2 ^ w = 2 * 2 ^ (w - 1)) by (rewrite <- Z.pow_succ_r by lia; f_equal; lia).
  assert (P0 : 0 < 2 ^ (w - 1)) by (apply Z.pow_pos_nonneg; lia).
  assert (PAD : forall t, (List.length t <= 21)%nat -> to_str_pad t 0 false = Some t).
  { intros t Ht. unfold to_str_pad. replace (0 <? 0) with false by reflexivity. unfold len.
    destruct (Z.leb_spec 64 (0 - Z.of_nat (List.length t))); [lia|]. cbn [orb].
    replace (Z.to_nat (0 - Z.of_nat (List.length t))) with 0%nat by lia. cbn. now rewrite app_nil_r. }
  unfold int_text. destruct (Z.ltb_spec i 0) as [L|L].
  - change (repeat NUL 32) with ([] ++ NUL :: zeros 31). change 0 with (len []) at 1. rewrite setb_ok. cbn [obind].
    assert (N : (0 - i mod 2 ^ w) mod 2 ^ w = - i).
    { rewrite Zminus_mod_idemp_r. apply Z.mod_small. lia. }
    rewrite N.
    destruct (to_text_unsigned w (- i) ["-"%char] 31 W ltac:(lia) ltac:(lia)) as (k & K1 & K2 & K3).
    change (len ["-"%char]) with 1 in K3. cbn [app] in K3. cbn [app]. rewrite K3. cbn [obind].
    destruct (ndig_canonical _ _ K2) as [C1 C2].
    replace (31 - k)%nat with (S (30 - k)) by lia.
    change ("-"%char :: fixd k (- i) ++ zeros (S (30 - k))) with (("-"%char :: fixd k (- i)) ++ zeros (S (30 - k))).
    rewrite (cstr_zeros ("-"%char :: fixd k (- i))).
    2:{ constructor; [discriminate|]. eapply Forall_impl; [apply digit_not_nul|apply fixd_digits]. }
    cbn [obind]. exists ("-"%char :: fixd k (- i)). rewrite PAD by (cbn [List.length]; rewrite fixd_length; lia).
    split; [reflexivity|]. split; [exists (fixd k (- i)); exact (conj eq_refl (conj C1 C2))|]. cbn [List.length]. rewrite fixd_length. lia.
  - cbn [obind]. rewrite Z.mod_small by lia.
    destruct (to_text_unsigned w i [] 32 W ltac:(lia) ltac:(lia)) as (k & K1 & K2 & K3).
    change (len []) with 0 in K3. cbn [app] in K3. rewrite K3. cbn [obind].
    destruct (ndig_canonical _ _ K2) as [C1 C2].
    replace (32 - k)%nat with (S (31 - k)) by lia.
    rewrite (cstr_zeros (fixd k i)).
    2:{ eapply Forall_impl; [apply digit_not_nul|apply fixd_digits]. }
    cbn [obind]. exists (fixd k i). rewrite PAD by (rewrite fixd_length; lia).
    split; [reflexivity|]. split; [exact (conj C1 C2)|]. rewrite fixd_length. lia.
Qed.
