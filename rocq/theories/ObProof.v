(** Proofs about the festival tables (OBA). *)
From Coq Require Import ZArith Lia Bool List Ascii String.
From Verif Require Import F64 Str DecSpec ItoaModel StrModel StrProof SsqModel ObTab ObSpec ObModel CountZ.
Import ListNotations.
Open Scope Z_scope.
Open Scope opt_scope.

(** ** sweeps over small ranges *)
Lemma sweep (P : Z -> bool) lo n : forallb (fun k => P (lo + Z.of_nat k)) (seq 0 n) = true ->
  forall x, lo <= x < lo + Z.of_nat n -> P x = true.
Proof.
  intros H x Hx. rewrite forallb_forall in H. specialize (H (Z.to_nat (x - lo))). cbv beta in H.
  replace (lo + Z.of_nat (Z.to_nat (x - lo))) with x in H by lia. apply H. apply in_seq. lia.
Qed.

Definition oeqb (a : option bytes) (b : bytes) : bool := match a with Some x => beq x b | None => false end.
Lemma oeqb_eq a b : oeqb a b = true -> a = Some b.
Proof. destruct a as [x|]; [|discriminate]. cbn. rewrite beq_eq. congruence. Qed.

Lemma two_text_dig d : 1 <= d <= 99 -> two_text d = Some (dig 2 d).
Proof.
  intros H. apply oeqb_eq. apply (sweep (fun d => oeqb (two_text d) (dig 2 d)) 1 99); [vm_compute; reflexivity|].
  change (Z.of_nat 99) with 99. lia.
Qed.
Lemma to_str_dig d : 0 <= d <= 9 -> to_str d = Some (dig 1 d).
Proof.
  intros H. apply oeqb_eq. apply (sweep (fun d => oeqb (to_str d) (dig 1 d)) 0 10); [vm_compute; reflexivity|].
  change (Z.of_nat 10) with 10. lia.
Qed.
Lemma code_digit n : 0 <= n <= 9 -> code (digit n) = 48 + n.
Proof.
  intros H. apply Z.eqb_eq. apply (sweep (fun d => code (digit d) =? 48 + d) 0 10); [vm_compute; reflexivity|].
  change (Z.of_nat 10) with 10. lia.
Qed.
Lemma digit_inj a b : 0 <= a <= 9 -> 0 <= b <= 9 -> digit a = digit b -> a = b.
Proof. intros A C E. pose proof (code_digit a A). pose proof (code_digit b C). rewrite E in *. lia. Qed.
Lemma dig1 a : dig 1 a = [digit (a mod 10)].
Proof. reflexivity. Qed.
Lemma dig2 a : dig 2 a = [digit (a / 10 mod 10); digit (a mod 10)].
Proof. reflexivity. Qed.
Lemma dig1_inj a b : 0 <= a <= 9 -> 0 <= b <= 9 -> dig 1 a = dig 1 b -> a = b.
Proof.
  intros A C. rewrite !dig1. rewrite !Z.mod_small by lia. intros E. injection E as E. now apply digit_inj.
Qed.
Lemma dig2_inj a b : 0 <= a <= 99 -> 0 <= b <= 99 -> dig 2 a = dig 2 b -> a = b.
Proof.
  intros A C. rewrite !dig2. intros E. injection E as E1 E2.
  apply digit_inj in E1; [|Z.div_mod_to_equations; lia..]. apply digit_inj in E2; [|Z.div_mod_to_equations; lia..].
  Z.div_mod_to_equations; lia.
Qed.
Lemma dig4 a : dig 4 a = [digit (a / 1000 mod 10); digit (a / 100 mod 10); digit (a / 10 mod 10); digit (a mod 10)].
Proof. unfold dig. rewrite !Z.div_div by lia. reflexivity. Qed.
Lemma digit_is n : 0 <= n <= 9 -> is_digit (digit n).
Proof. intros H. unfold is_digit. pose proof (code_digit n H). lia. Qed.
Lemma stoi_dig4 a : 0 <= a <= 9999 -> my_stoi false (dig 4 a) = (false, stoi_value a).
Proof.
  intros H. rewrite dig4.
  assert (D1 : 0 <= a / 1000 mod 10 <= 9) by (Z.div_mod_to_equations; lia).
  assert (D2 : 0 <= a / 100 mod 10 <= 9) by (Z.div_mod_to_equations; lia).
  assert (D3 : 0 <= a / 10 mod 10 <= 9) by (Z.div_mod_to_equations; lia).
  assert (D4 : 0 <= a mod 10 <= 9) by (Z.div_mod_to_equations; lia).
  assert (E : dec_val [digit (a / 1000 mod 10); digit (a / 100 mod 10); digit (a / 10 mod 10); digit (a mod 10)] = a).
  { unfold dec_val, dval. cbn [fold_left]. rewrite !code_digit by assumption. clear D1 D2 D3 D4. Z.div_mod_to_equations; lia. }
  unfold my_stoi. rewrite strtol_digits; [|discriminate|repeat constructor; now apply digit_is].
  rewrite E. destruct (Z.ltb_spec long_max a) as [L|L]; [unfold long_max in L; lia|].
  cbn [orb]. rewrite wrap_int_id by (unfold int_min, int_max; lia). reflexivity.
Qed.

(** ** substrings of concatenations *)
Lemma len_app a b : len (a ++ b) = len a + len b.
Proof. unfold len. rewrite app_length. lia. Qed.
Lemma len_cons c s : len (c :: s) = 1 + len s.
Proof. unfold len. cbn [List.length]. lia. Qed.
Lemma len_nil : len [] = 0.
Proof. reflexivity. Qed.
Lemma len_pos s : 0 <= len s.
Proof. unfold len. lia. Qed.
Lemma substr_app a b n : substr (a ++ b) (len a) n = Some (firstn (Z.to_nat n) b).
Proof.
  unfold substr. pose proof (len_pos a). pose proof (len_pos b). rewrite len_app.
  destruct (Z.leb_spec 0 (len a)); [|lia]. destruct (Z.leb_spec (len a) (len a + len b)); [|lia]. cbn [andb].
  unfold len at 1. rewrite Nat2Z.id. rewrite skipn_app. rewrite skipn_all. rewrite Nat.sub_diag. reflexivity.
Qed.
Lemma substr_head a b : substr (a ++ b) 0 (len a) = Some a.
Proof.
  rewrite (substr_app [] (a ++ b) (len a) : substr (a ++ b) 0 (len a) = _). unfold len. rewrite Nat2Z.id.
  rewrite firstn_app, Nat.sub_diag, firstn_all. now rewrite app_nil_r.
Qed.
Lemma substr_tail a b n : n = len b -> substr (a ++ b) (len a) n = Some b.
Proof. intros ->. rewrite substr_app. unfold len. rewrite Nat2Z.id, firstn_all. reflexivity. Qed.
(** the same with a known length of the first part *)
Lemma substr_at a b k n : len a = k -> substr (a ++ b) k n = Some (firstn (Z.to_nat n) b).
Proof. intros <-. apply substr_app. Qed.
Lemma substr_rest a b k : len a = k -> substr (a ++ b) k (len (a ++ b) - k) = Some b.
Proof. intros E. rewrite <- E. apply substr_tail. rewrite len_app. lia. Qed.

(** ** marks *)
Lemma mark_type k s r : add_type (mark_text k) s r =
  match k with Holiday => set_F (add_A r (s ++ B " ")) | Major => add_B r (s ++ B " ") | Minor => add_C r (s ++ B " ") end.
Proof. destruct k; reflexivity. Qed.
Lemma mark_single k : exists c, mark_text k = [c].
Proof. destruct k; eexists; reflexivity. Qed.

Definition note (r : notes) (p : mark * bytes) : notes := add_type (mark_text (fst p)) (snd p) r.
Lemma fold_note l : forall r, let r' := fold_left note l r in
  n_A r' = n_A r ++ names Holiday l /\ n_B r' = n_B r ++ names Major l /\ n_C r' = n_C r ++ names Minor l /\
  n_F r' = if existsb (fun p => mark_eqb (fst p) Holiday) l then Some true else n_F r.
Proof.
  induction l as [|[k s] l IH]; intros r; cbv zeta.
  - cbn. rewrite !app_nil_r. repeat split.
  - cbn [fold_left]. specialize (IH (note r (k, s))). cbv zeta in IH. destruct IH as (IA & IB & IC & IF).
    rewrite IA, IB, IC, IF. unfold note. cbn [fst snd]. rewrite mark_type. unfold names. cbn [flat_map fst snd existsb].
    destruct k; cbn [mark_eqb orb n_A n_B n_C n_F set_F add_A add_B add_C app]; rewrite <- ?app_assoc; repeat split.
    now destruct (existsb _ l).
Qed.

(** ** fixed dates *)
Lemma fixed_entry_ok y d f r : 1 <= d <= 99 -> fest_wf f = true ->
  fixed_entry y (dig 2 d) (fest_text f) (false, r) =
  Some (false, if f_due y d f then note r (f_mark f, f_name f) else r).
Proof.
  intros Hd W. unfold fest_wf in W. rewrite !andb_true_iff in W. destruct W as [[W1 W2] W].
  apply Z.leb_le in W1, W2. unfold fixed_entry, fest_text.
  rewrite (substr_head (dig 2 (f_day f)) _ : substr (dig 2 (f_day f) ++ _) 0 2 = _). cbn [obind].
  unfold f_due. destruct (beq (dig 2 (f_day f)) (dig 2 d)) eqn:E.
  2:{ destruct (Z.eqb_spec (f_day f) d) as [X|X]; [|reflexivity]. rewrite X, beq_refl in E. discriminate E. }
  apply beq_eq in E. apply dig2_inj in E; [|lia..]. rewrite <- E, Z.eqb_refl. cbn [negb andb].
  rewrite (substr_rest (dig 2 (f_day f)) _ 2) by reflexivity. cbn [obind].
  destruct (mark_single (f_mark f)) as [c Hc].
  destruct (f_limits f) as [[a b]|].
  - rewrite !andb_true_iff in W. destruct W as [[[A1 A2] A3] A4]. apply Z.leb_le in A1, A2, A3, A4.
    rewrite <- !app_assoc. set (t := mark_text (f_mark f) ++ dig 4 a ++ B "-" ++ dig 4 b ++ f_name f).
    assert (S1 : substr t 0 1 = Some (mark_text (f_mark f))) by (unfold t; rewrite Hc; apply (substr_head [c])).
    assert (S2 : substr t 5 1 = Some (B "-")).
    { unfold t. rewrite Hc, app_assoc. rewrite (substr_at ([c] ++ dig 4 a) _ 5) by reflexivity. reflexivity. }
    assert (S3 : substr t 1 4 = Some (dig 4 a)).
    { unfold t. rewrite Hc. rewrite (substr_at [c] _ 1) by reflexivity. reflexivity. }
    assert (S4 : substr t 6 4 = Some (dig 4 b)).
    { unfold t. rewrite Hc. replace ([c] ++ dig 4 a ++ B "-" ++ dig 4 b ++ f_name f) with (([c] ++ dig 4 a ++ B "-") ++ dig 4 b ++ f_name f) by reflexivity.
      rewrite (substr_at ([c] ++ dig 4 a ++ B "-") _ 6) by reflexivity. reflexivity. }
    assert (S5 : substr t 10 (len t - 10) = Some (f_name f)).
    { unfold t. rewrite Hc. replace ([c] ++ dig 4 a ++ B "-" ++ dig 4 b ++ f_name f) with (([c] ++ dig 4 a ++ B "-" ++ dig 4 b) ++ f_name f) by reflexivity.
      apply substr_rest. reflexivity. }
    clearbody t.
    rewrite ?S1. cbn [obind]. rewrite S2. cbn [obind]. change (beq (B "-") (B "-")) with true. cbv iota.
    rewrite S3. cbn [obind]. rewrite stoi_dig4 by lia. rewrite Z.leb_antisym. destruct (Z.ltb_spec y a) as [L|L]; [reflexivity|].
    rewrite S4. cbn [obind]. rewrite stoi_dig4 by lia. cbn [negb andb]. rewrite (Z.leb_antisym b y).
    destruct (Z.ltb_spec b y) as [L2|L2]; [reflexivity|]. rewrite S5. cbn [obind negb]. reflexivity.
  - rewrite andb_true_iff in W. destruct W as [W3 W4]. apply Z.leb_le in W3. cbn [app].
    rewrite Hc. rewrite (substr_head [c] (f_name f) : substr ([c] ++ f_name f) 0 1 = _). cbn [obind].
    assert (S5 : substr ([c] ++ f_name f) 5 1 = Some (firstn 1 (skipn 4 (f_name f)))).
    { unfold substr. rewrite len_app. change (len [c]) with 1. destruct (Z.leb_spec 5 (1 + len (f_name f))); [|lia]. reflexivity. }
    rewrite S5. cbn [obind]. apply negb_true_iff in W4. rewrite W4. rewrite Z.leb_antisym.
    destruct (Z.ltb_spec y 1850) as [L|L]; [reflexivity|]. cbn [negb].
    rewrite (substr_rest [c] (f_name f) 1) by reflexivity. cbn [obind]. unfold note. cbn [fst snd]. rewrite Hc. reflexivity.
Qed.

Definition fixed_due (y d : Z) (l : list festival) : list (mark * bytes) :=
  map (fun f => (f_mark f, f_name f)) (filter (f_due y d) l).
Lemma fixed_loop_ok y d l : 1 <= d <= 99 -> forallb fest_wf l = true -> forall r,
  foldM (fixed_entry y (dig 2 d)) (map fest_text l) (false, r) = Some (false, fold_left note (fixed_due y d l) r).
Proof.
  intros Hd. induction l as [|f l IH]; intros W r; [reflexivity|].
  cbn [forallb] in W. apply andb_prop in W. destruct W as [W1 W2]. cbn [map foldM].
  rewrite fixed_entry_ok by assumption. cbn [obind]. rewrite (IH W2). unfold fixed_due. cbn [filter].
  destruct (f_due y d f); reflexivity.
Qed.

(** ** ordinal weekdays *)
(** lunar_ob.cpp:159-160 *)
Definition key_w (w0 i : Z) : Z := if w0 <=? (w0 + i) mod 7 then (w0 + i) / 7 + 1 else (w0 + i) / 7.
Definition key_w2 (w0 dn i : Z) : Z := if (w0 + i) / 7 =? (w0 + dn - 1) / 7 + 1 - 1 then 5 else key_w w0 i.
Lemma count_weekday_closed w0 w i : 0 <= w < 7 -> 0 <= i -> count_weekday w0 w i = count_closed w0 7 w i.
Proof. intros. apply (count_mod w0 7 w i); lia. Qed.
Lemma week_arith w0 dn i w k : 0 <= w0 < 7 -> 1 <= dn <= 31 -> 0 <= i < dn -> 0 <= w < 7 -> 1 <= k <= 5 -> (k <= 4 \/ w = 0) ->
  ((w0 + i) mod 7 =? w) && ((k =? key_w w0 i) || (k =? key_w2 w0 dn i)) =
  ((w0 + i) mod 7 =? w) && (if k =? 5 then dn <=? i + 7 else count_weekday w0 w i =? k).
Proof.
  intros H0 H1 H2 H3 H4 H5. destruct (Z.eqb_spec ((w0 + i) mod 7) w) as [E|E]; [|reflexivity]. cbn [andb].
  assert (K : count_weekday w0 w i = key_w w0 i).
  { rewrite count_weekday_closed by lia. unfold count_closed, key_w. rewrite E.
    destruct (Z.leb_spec w0 w); Z.div_mod_to_equations; lia. }
  rewrite K. unfold key_w2.
  assert (L : k = 5 -> ((w0 + i) / 7 = (w0 + dn - 1) / 7 <-> dn <= i + 7)).
  { intros ->. assert (w = 0) by lia. subst w. clear K. Z.div_mod_to_equations; lia. }
  assert (B : key_w w0 i <= 5 /\ (key_w w0 i = 5 -> dn <= i + 7)).
  { unfold key_w in *. rewrite E in *. destruct (Z.leb_spec w0 w); clear K L; Z.div_mod_to_equations; lia. }
  set (q := (w0 + i) / 7) in *. set (q2 := (w0 + dn - 1) / 7) in *. set (kw := key_w w0 i) in *. clearbody q q2 kw.
  destruct (Z.eqb_spec k 5) as [->|N].
  - specialize (L eq_refl). destruct (Z.eqb_spec q (q2 + 1 - 1)), (Z.leb_spec dn (i + 7)), (Z.eqb_spec 5 kw); cbn [orb]; try reflexivity; lia.
  - destruct (Z.eqb_spec q (q2 + 1 - 1)), (Z.eqb_spec kw k), (Z.eqb_spec k kw), (Z.eqb_spec k 5); cbn [orb]; try reflexivity; lia.
Qed.
Lemma key_bounds w0 dn i : 0 <= w0 < 7 -> 1 <= dn <= 31 -> 0 <= i < dn ->
  0 <= key_w w0 i <= 9 /\ 0 <= key_w2 w0 dn i <= 9.
Proof.
  intros. assert (0 <= (w0 + i) / 7 <= 5) by (Z.div_mod_to_equations; lia). unfold key_w2, key_w.
  destruct (w0 <=? _), (_ =? _); lia.
Qed.

Lemma beq_iff a b (P : Prop) (p : bool) : (a = b <-> P) -> (p = true <-> P) -> beq a b = p.
Proof.
  intros H1 H2. pose proof (beq_eq a b). destruct (beq a b), p; try reflexivity.
  - symmetry. tauto.
  - tauto.
Qed.
Lemma key_eq m k w m' k' w' : 0 <= m <= 99 -> 0 <= k <= 9 -> 0 <= w <= 9 -> 0 <= m' <= 99 -> 0 <= k' <= 9 -> 0 <= w' <= 9 ->
  beq (dig 2 m ++ dig 1 k ++ dig 1 w) (dig 2 m' ++ dig 1 k' ++ dig 1 w') = (m =? m') && (k =? k') && (w =? w').
Proof.
  intros. apply (beq_iff _ _ (m = m' /\ k = k' /\ w = w')).
  - split; [|intros (-> & -> & ->); reflexivity]. intros E.
    rewrite !dig2, !dig1 in E. cbn [app] in E. injection E as E1 E2 E3 E4.
    split; [apply dig2_inj; [lia..|]; rewrite !dig2; congruence|].
    split; apply dig1_inj; try lia; rewrite !dig1; congruence.
  - rewrite !andb_true_iff, !Z.eqb_eq. tauto.
Qed.
Lemma week_entry_ok m w0 dn i f r : 1 <= m <= 12 -> 0 <= w0 < 7 -> 1 <= dn <= 31 -> 0 <= i < dn -> wfest_wf f = true ->
  week_entry (dig 2 m ++ dig 1 (key_w w0 i) ++ dig 1 ((w0 + i) mod 7)) (dig 2 m ++ dig 1 (key_w2 w0 dn i) ++ dig 1 ((w0 + i) mod 7)) (wfest_text f) r =
  Some (if w_due m w0 dn i f then note r (w_mark f, w_name f) else r).
Proof.
  intros Hm H0 H1 H2 W. unfold wfest_wf in W. rewrite !andb_true_iff, orb_true_iff, !Z.leb_le, Z.eqb_eq in W.
  destruct W as ((((((W1 & W2) & W3) & W4) & W5) & W6) & W7).
  destruct (key_bounds w0 dn i H0 H1 H2) as [K1 K2].
  pose proof (Z.mod_pos_bound (w0 + i) 7 ltac:(lia)) as M.
  unfold week_entry, wfest_text.
  replace (dig 2 (w_month f) ++ dig 1 (w_k f) ++ dig 1 (w_day f) ++ mark_text (w_mark f) ++ w_name f)
    with ((dig 2 (w_month f) ++ dig 1 (w_k f) ++ dig 1 (w_day f)) ++ mark_text (w_mark f) ++ w_name f) by (rewrite <- !app_assoc; reflexivity).
  set (key := dig 2 (w_month f) ++ dig 1 (w_k f) ++ dig 1 (w_day f)).
  assert (LK : len key = 4) by reflexivity.
  assert (S1 : substr (key ++ mark_text (w_mark f) ++ w_name f) 0 4 = Some key) by (rewrite <- LK; apply substr_head).
  rewrite S1. cbn [obind]. unfold key. rewrite !key_eq by lia. fold key.
  assert (E : negb ((w_month f =? m) && (w_k f =? key_w w0 i) && (w_day f =? (w0 + i) mod 7)) &&
              negb ((w_month f =? m) && (w_k f =? key_w2 w0 dn i) && (w_day f =? (w0 + i) mod 7)) = negb (w_due m w0 dn i f)).
  { unfold w_due. pose proof (week_arith w0 dn i (w_day f) (w_k f) H0 H1 H2 ltac:(lia) ltac:(lia) W7) as A.
    transitivity (negb ((w_month f =? m) && (((w0 + i) mod 7 =? w_day f) && ((w_k f =? key_w w0 i) || (w_k f =? key_w2 w0 dn i))))).
    - rewrite (Z.eqb_sym (w_day f)).
      destruct (w_month f =? m), (_ =? w_day f), (w_k f =? key_w w0 i), (w_k f =? key_w2 w0 dn i); reflexivity.
    - rewrite A, andb_assoc. reflexivity. }
  rewrite E. destruct (w_due m w0 dn i f); cbn [negb]; [|reflexivity].
  destruct (mark_single (w_mark f)) as [c Hc].
  assert (S2 : substr (key ++ mark_text (w_mark f) ++ w_name f) 4 1 = Some (mark_text (w_mark f))).
  { rewrite (substr_at key _ 4 1 LK). rewrite Hc. reflexivity. }
  assert (S3 : substr (key ++ mark_text (w_mark f) ++ w_name f) 5 (len (key ++ mark_text (w_mark f) ++ w_name f) - 5) = Some (w_name f)).
  { rewrite !app_assoc. apply substr_rest. rewrite len_app, LK, Hc. reflexivity. }
  rewrite S2. cbn [obind]. rewrite S3. cbn [obind]. reflexivity.
Qed.
Definition week_due (m w0 dn i : Z) (l : list week_festival) : list (mark * bytes) :=
  map (fun f => (w_mark f, w_name f)) (filter (w_due m w0 dn i) l).
Lemma week_loop_ok m w0 dn i l : 1 <= m <= 12 -> 0 <= w0 < 7 -> 1 <= dn <= 31 -> 0 <= i < dn -> forallb wfest_wf l = true -> forall r,
  foldM (week_entry (dig 2 m ++ dig 1 (key_w w0 i) ++ dig 1 ((w0 + i) mod 7)) (dig 2 m ++ dig 1 (key_w2 w0 dn i) ++ dig 1 ((w0 + i) mod 7)))
    (map wfest_text l) r = Some (fold_left note (week_due m w0 dn i l) r).
Proof.
  intros Hm H0 H1 H2. induction l as [|f l IH]; intros W r; [reflexivity|].
  cbn [forallb] in W. apply andb_prop in W. destruct W as [W1 W2]. cbn [map foldM].
  rewrite week_entry_ok by assumption. cbn [obind]. rewrite (IH W2). unfold week_due. cbn [filter].
  destruct (w_due m w0 dn i f); reflexivity.
Qed.

(** ** getDayName on well-formed tables *)
Lemma getDayName_ok fests wfests fl y m d w0 dn i r :
  1 <= m <= 12 -> 1 <= d <= 31 -> 0 <= w0 < 7 -> 1 <= dn <= 31 -> 0 <= i < dn ->
  at_ fests (m - 1) = Some fl -> forallb fest_wf fl = true -> forallb wfest_wf wfests = true ->
  getDayName (map (map fest_text) fests) (map wfest_text wfests)
    (mkDayIn y m d ((w0 + i) mod 7) w0 ((w0 + i) / 7) ((w0 + dn - 1) / 7 + 1)) (false, r) =
  Some (false, fold_left note (fixed_due y d fl ++ week_due m w0 dn i wfests)
                 (if ((w0 + i) mod 7 =? 0) || ((w0 + i) mod 7 =? 6) then set_F r else r)).
Proof.
  intros Hm Hd H0 H1 H2 F W1 W2. unfold getDayName. cbn [i_y i_m i_d i_week i_week0 i_weeki i_weekN].
  rewrite two_text_dig by lia. cbn [obind]. rewrite two_text_dig by lia. cbn [obind].
  assert (E : at_ (map (map fest_text) fests) (m - 1) = Some (map fest_text fl)).
  { unfold at_ in *. destruct (0 <=? m - 1); [|discriminate F]. now apply map_nth_error. }
  rewrite E. cbn [obind]. rewrite fixed_loop_ok by (assumption || lia). cbn [obind].
  fold (key_w w0 i). change (if (w0 + i) / 7 =? (w0 + dn - 1) / 7 + 1 - 1 then 5 else key_w w0 i) with (key_w2 w0 dn i).
  destruct (key_bounds w0 dn i H0 H1 H2) as [K1 K2]. pose proof (Z.mod_pos_bound (w0 + i) 7 ltac:(lia)) as M.
  rewrite to_str_dig by lia. cbn [obind]. rewrite to_str_dig by lia. cbn [obind]. rewrite to_str_dig by lia. cbn [obind].
  rewrite week_loop_ok by assumption. cbn [obind]. rewrite fold_left_app. reflexivity.
Qed.
