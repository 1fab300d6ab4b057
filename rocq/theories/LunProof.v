(** Proofs about OBB::getDayName2. *)
From Coq Require Import ZArith Lia Bool List Ascii String.
From Verif Require Import F64 F64R Str DecSpec ItoaModel StrModel StrProof SsqModel ObTab ObSpec LunSpec ObModel ObProof CountZ.
Import ListNotations.
Open Scope Z_scope.
Open Scope opt_scope.

Definition put (r : notes) (x : item) : notes :=
  let r := match it_class x with Holiday => add_A r (it_text x) | Major => add_B r (it_text x) | Minor => add_C r (it_text x) end in
  if it_free x then set_F r else r.
Lemma fold_put l : forall r, let r' := fold_left put l r in
  n_A r' = n_A r ++ texts Holiday l /\ n_B r' = n_B r ++ texts Major l /\ n_C r' = n_C r ++ texts Minor l /\
  n_F r' = if existsb it_free l then Some true else n_F r.
Proof.
  induction l as [|x l IH]; intros r; cbn [fold_left].
  - unfold texts. cbn [flat_map existsb]. rewrite !app_nil_r. auto.
  - cbv zeta in *. destruct (IH (put r x)) as (EA & EB & EC & EF). rewrite EA, EB, EC, EF.
    unfold texts. cbn [flat_map existsb]. unfold put.
    destruct x as [c f t]. destruct c, f; cbn [it_class it_free it_text mark_eqb orb n_A n_B n_C n_F add_A add_B add_C set_F app];
      rewrite <- ?app_assoc; repeat split; try reflexivity; destruct (existsb it_free l); reflexivity.
Qed.

(** ** lunar dates *)
Definition rmc (k : Z) : bytes := nth (Z.to_nat (k - 1)) str_rmc [].
Definition date_text (m : bytes) (k : Z) : bytes := m ++ B "月" ++ rmc k.
Lemma rmc_len k : 1 <= k <= 30 -> List.length (rmc k) = 6%nat.
Proof.
  intros H. apply Nat.eqb_eq. apply (sweep (fun k => Nat.eqb (List.length (rmc k)) 6) 1 30); [vm_compute; reflexivity|].
  change (Z.of_nat 30) with 30. lia.
Qed.
Lemma rmc_inj k k' : 1 <= k <= 30 -> 1 <= k' <= 30 -> rmc k = rmc k' -> k = k'.
Proof.
  intros H H' E.
  assert (S : forall a, 1 <= a < 1 + Z.of_nat 30 -> forallb (fun j => negb (beq (rmc a) (rmc (1 + Z.of_nat j))) || (a =? 1 + Z.of_nat j)) (seq 0 30) = true).
  { apply (sweep (fun a => forallb (fun j => negb (beq (rmc a) (rmc (1 + Z.of_nat j))) || (a =? 1 + Z.of_nat j)) (seq 0 30))). vm_compute. reflexivity. }
  specialize (S k ltac:(change (Z.of_nat 30) with 30; lia)).
  rewrite forallb_forall in S. specialize (S (Z.to_nat (k' - 1)) ltac:(apply in_seq; lia)). cbv beta in S.
  replace (1 + Z.of_nat (Z.to_nat (k' - 1))) with k' in S by lia. rewrite E in S.
  replace (beq (rmc k') (rmc k')) with true in S by (symmetry; now apply beq_eq). cbn in S. now apply Z.eqb_eq.
Qed.
Lemma app_inj_len (a b c d : bytes) : List.length b = List.length d -> a ++ b = c ++ d -> a = c /\ b = d.
Proof.
  revert c. induction a as [|x a IH]; intros [|y c] L E; cbn [app] in E; [auto| | |].
  - rewrite E in L. cbn in L. rewrite app_length in L. lia.
  - rewrite <- E in L. cbn in L. rewrite app_length in L. lia.
  - injection E as -> E. destruct (IH c L E) as [-> ->]. auto.
Qed.
Lemma date_text_eq m k m' k' : 1 <= k <= 30 -> 1 <= k' <= 30 ->
  beq (date_text m k) (date_text m' k') = beq m m' && (k =? k').
Proof.
  intros H H'. apply (beq_iff _ _ (m = m' /\ k = k')).
  - split; [|intros [-> ->]; reflexivity]. unfold date_text. intros E. apply app_inj_len in E.
    + destruct E as [-> E]. apply app_inv_head in E. split; [reflexivity|]. now apply rmc_inj.
    + rewrite !app_length, !rmc_len by assumption. reflexivity.
  - rewrite andb_true_iff, beq_eq, Z.eqb_eq. tauto.
Qed.

Definition date_fold (d : bytes) (l : list lfest) (r : notes) : notes :=
  fold_left (fun r f => if beq d (date_text (lf_month f) (lf_day f)) then put r (lf_item f) else r) l r.
Definition acts : list (bytes * (notes -> notes)) := [
  (B "正月初一", (fun r => set_F (add_A r (B "春节 "))));
  (B "正月初二", (fun r => set_F (add_B r (B "大年初二 "))));
  (B "五月初五", (fun r => set_F (add_A r (B "端午节 "))));
  (B "八月十五", (fun r => set_F (add_A r (B "中秋节 "))));
  (B "正月十五", (fun r => add_A r (B "元宵节 ")));
  (B "正月廿五", (fun r => add_C r (B "填仓节 ")));
  (B "正月廿九", (fun r => add_C r (B "送穷日 ")));
  (B "二月初二", (fun r => add_B r (B "春龙节(龙抬头) ")));
  (B "三月初三", (fun r => add_B r (B "北帝诞 ")));
  (B "三月廿三", (fun r => add_B r (B "天后诞 妈祖诞 ")));
  (B "四月初八", (fun r => add_B r (B "牛王诞 ")));
  (B "五月十三", (fun r => add_B r (B "关帝诞 ")));
  (B "六月初六", (fun r => add_B r (B "姑姑节 天贶节 ")));
  (B "七月初七", (fun r => add_B r (B "七夕(中国情人节,乞巧节,女儿节 ) ")));
  (B "七月十五", (fun r => add_B r (B "中元节 鬼节")));
  (B "九月初九", (fun r => add_B r (B "重阳节 ")));
  (B "十月初一", (fun r => add_B r (B "祭祖节(十月朝) ")));
  (B "十月十五", (fun r => add_B r (B "下元节 ")));
  (B "冬月初八", (fun r => add_B r (B "腊八节 ")))].
Lemma lunar_dates_acts d r : lunar_dates d r = fold_left (fun r p => when (beq d (fst p)) (snd p) r) acts r.
Proof. unfold lunar_dates, acts. cbn [fold_left fst snd]. reflexivity. Qed.
Lemma acts_ok : Forall2 (fun p f => fst p = date_text (lf_month f) (lf_day f) /\ forall r, snd p r = put r (lf_item f)) acts lunar_festivals.
Proof. unfold acts, lunar_festivals. repeat (constructor; [split; [reflexivity|intros r; reflexivity]|]). constructor. Qed.
Lemma lunar_dates_fold d r : lunar_dates d r = date_fold d lunar_festivals r.
Proof.
  rewrite lunar_dates_acts. pose proof acts_ok as A. unfold date_fold. revert r. induction A as [|p f l l' [E1 E2] A IH]; intros r; [reflexivity|].
  cbn [fold_left]. rewrite IH. unfold when. rewrite E1, E2. reflexivity.
Qed.
Lemma date_fold_due m k l : 1 <= k <= 30 -> Forall (fun f => 1 <= lf_day f <= 30) l -> forall r,
  date_fold (date_text m k) l r = fold_left put (map lf_item (filter (lf_due m k) l)) r.
Proof.
  intros H F. induction F as [|f l Hf F IH]; intros r; [reflexivity|]. cbn [date_fold fold_left filter].
  rewrite date_text_eq by assumption. unfold lf_due at 1. destruct (beq m (lf_month f) && (k =? lf_day f)); cbn [map fold_left]; apply IH.
Qed.
Lemma lf_days : Forall (fun f => 1 <= lf_day f <= 30) lunar_festivals.
Proof. repeat constructor; cbn; lia. Qed.

(** ** the input of getDayName2 for a lunar date *)
Definition lunar_of (c : ldate) (jq day2 : bytes) (dz xz lq mz xs : Z) : lunar_in :=
  mkLunarIn (ld_month c) (ld_next c) (rmc (ld_day c)) (ld_length c) (if ld_leap c then B "闰" else []) jq day2 dz xz lq mz xs.

Lemma year_end_ok c jq day2 dz xz lq mz xs r : 1 <= ld_day c <= ld_length c -> ld_length c = 29 \/ ld_length c = 30 ->
  (if beq (ld_next c) (B "正") then year_end (lunar_of c jq day2 dz xz lq mz xs) (date_text (ld_month c) (ld_day c)) r else r) =
  fold_left put (due_year_end c) r.
Proof.
  intros H L. unfold due_year_end, year_end, lunar_of. cbn [l_Ldn].
  destruct (beq (ld_next c) (B "正")); [|reflexivity]. cbn [andb].
  change (B "腊月三十") with (date_text (B "腊") 30). change (B "腊月廿九") with (date_text (B "腊") 29). change (B "腊月廿三") with (date_text (B "腊") 23).
  rewrite !date_text_eq by lia. destruct (beq (ld_month c) (B "腊")); [|reflexivity]. cbn [andb].
  destruct L as [L|L]; rewrite L in *.
  - change (29 =? 30) with false. change (29 =? 29) with true. rewrite andb_false_r, andb_true_r. unfold when.
    destruct (Z.eqb_spec (ld_day c) 29) as [->|N]; [reflexivity|]. destruct (ld_day c =? 23); reflexivity.
  - change (30 =? 30) with true. change (30 =? 29) with false. rewrite andb_false_r, andb_true_r. unfold when.
    destruct (Z.eqb_spec (ld_day c) 30) as [->|N]; [reflexivity|]. destruct (ld_day c =? 23); reflexivity.
Qed.
Lemma term_note_ok t r : term_note t r = fold_left put (due_term t) r.
Proof.
  unfold term_note, due_term. destruct t as [|x t]; [reflexivity|].
  replace (len (x :: t) =? 0) with false by (symmetry; apply Z.eqb_neq; unfold len; cbn [List.length]; lia).
  destruct (beq (x :: t) (B "清明")); reflexivity.
Qed.
Definition nines_item (r : notes) (x : Z) : notes := fold_left put (due_nines x) r.
Lemma nines_ok x r : nines x r = Some (fold_left put (due_nines x) r).
Proof.
  unfold nines, due_nines. destruct (Z.leb_spec 0 x) as [L|L]; [|reflexivity]. destruct (Z.ltb_spec x 81) as [U|U]; [|reflexivity]. cbn [andb].
  rewrite Z.quot_div_nonneg, Z.rem_mod_nonneg by lia.
  assert (Q : 0 <= x / 9 <= 8) by (Z.div_mod_to_equations; lia). assert (R : 0 <= x mod 9 <= 8) by (Z.div_mod_to_equations; lia).
  assert (E : (let* q := int2 (fZ (x / 9)) in at_ str_num (q + 1)) = Some (numeral (x / 9 + 1))).
  { apply oeqb_eq. apply (sweep (fun q => oeqb (let* q := int2 (fZ q) in at_ str_num (q + 1)) (numeral (q + 1))) 0 9); [vm_compute; reflexivity|].
    change (Z.of_nat 9) with 9. lia. }
  destruct (int2 (fZ (x / 9))) as [q|]; [|discriminate E]. cbn [obind] in *. rewrite E. cbn [obind].
  destruct (x mod 9 =? 0); [reflexivity|]. rewrite to_str_dig by lia. reflexivity.
Qed.

(** ** dog days *)
Definition gan (s : Z) : bytes := nth (Z.to_nat s) str_gan [].
Definition zhi (b : Z) : bytes := nth (Z.to_nat b) str_zhi [].
Lemma gan_ok s t k : 0 <= s < 10 -> In (t, k) [(B "庚", 6); (B "丙", 2)] -> List.length (gan s) = 3%nat /\ beq (gan s) t = (s =? k).
Proof.
  intros H I. split.
  - apply Nat.eqb_eq. apply (sweep (fun s => Nat.eqb (List.length (gan s)) 3) 0 10); [vm_compute; reflexivity|]. change (Z.of_nat 10) with 10. lia.
  - apply eqb_prop. destruct I as [I|[I|[]]]; injection I as <- <-.
    + apply (sweep (fun s => Bool.eqb (beq (gan s) (B "庚")) (s =? 6)) 0 10); [vm_compute; reflexivity|]. change (Z.of_nat 10) with 10. lia.
    + apply (sweep (fun s => Bool.eqb (beq (gan s) (B "丙")) (s =? 2)) 0 10); [vm_compute; reflexivity|]. change (Z.of_nat 10) with 10. lia.
Qed.
Lemma zhi_ok b : 0 <= b < 12 -> List.length (zhi b) = 3%nat /\ beq (zhi b) (B "未") = (b =? 7).
Proof.
  intros H. split.
  - apply Nat.eqb_eq. apply (sweep (fun s => Nat.eqb (List.length (zhi s)) 3) 0 12); [vm_compute; reflexivity|]. change (Z.of_nat 12) with 12. lia.
  - apply eqb_prop. apply (sweep (fun s => Bool.eqb (beq (zhi s) (B "未")) (s =? 7)) 0 12); [vm_compute; reflexivity|]. change (Z.of_nat 12) with 12. lia.
Qed.
Lemma kth_ok p t k a n : 0 < p -> 0 <= t < p -> 1 <= k ->
  kth_day (fun n => (n - 6) mod p =? t) k a n = ((p * (k - 1) <=? n - a) && (n - a <? p * k)) && ((n - 6) mod p =? t).
Proof.
  intros P T K. unfold kth_day.
  destruct (Z.leb_spec a n) as [L|L].
  2:{ cbn [andb]. destruct (Z.leb_spec (p * (k - 1)) (n - a)); [nia|reflexivity]. }
  cbn [andb]. destruct (Z.eqb_spec ((n - 6) mod p) t) as [E|E]; [|now rewrite andb_false_r]. rewrite andb_true_r. cbn [andb].
  rewrite (filter_ext _ (fun j => ((a - 6) + Z.of_nat j) mod p =? t)).
  2:{ intros j. f_equal. f_equal. lia. }
  rewrite (count_mod (a - 6) p t (n - a)) by lia. unfold count_closed.
  set (r := (t - (a - 6)) mod p). assert (R : 0 <= r < p) by (apply Z.mod_pos_bound; lia).
  assert (D : (n - a) mod p = r).
  { unfold r. rewrite <- E. rewrite Zminus_mod_idemp_l. f_equal. lia. }
  pose proof (Z.div_mod (n - a) p ltac:(lia)) as Q. rewrite D in Q. set (q := (n - a) / p) in *.
  assert (C : (n - a - r) / p = q) by (symmetry; apply Z.div_unique with 0; lia).
  rewrite C. clearbody q r. clear C D E. destruct (Z.eqb_spec (q + 1) k), (Z.leb_spec (p * (k - 1)) (n - a)), (Z.ltb_spec (n - a) (p * k)); cbn [andb]; try reflexivity; nia.
Qed.
Lemma dog_days_ok c jq dz xz lq mz xs n r :
  dog_days (lunar_of c jq (gan (stem n) ++ zhi (branch n)) dz (n - xz) (n - lq) (n - mz) (n - xs)) r =
  Some (fold_left put (due_seasons xz lq mz xs n) r).
Proof.
  unfold dog_days, lunar_of. cbn [l_Lday2 l_xz l_lq l_mz l_xs].
  assert (S : 0 <= stem n < 10) by (apply Z.mod_pos_bound; lia). assert (Bb : 0 <= branch n < 12) by (apply Z.mod_pos_bound; lia).
  destruct (gan_ok (stem n) (B "庚") 6 S ltac:(left; reflexivity)) as [LG E1].
  destruct (gan_ok (stem n) (B "丙") 2 S ltac:(right; left; reflexivity)) as [_ E2].
  destruct (zhi_ok (branch n) Bb) as [LZ E3].
  assert (LG' : len (gan (stem n)) = 3) by (unfold len; now rewrite LG).
  assert (S1 : substr (gan (stem n) ++ zhi (branch n)) 0 3 = Some (gan (stem n))) by (rewrite <- LG'; apply substr_head).
  assert (S2 : substr (gan (stem n) ++ zhi (branch n)) 3 6 = Some (zhi (branch n))).
  { rewrite (substr_at _ _ 3 6 LG'). f_equal. apply firstn_all2. rewrite LZ. change (Z.to_nat 6) with 6%nat. lia. }
  rewrite S1. cbn [obind]. rewrite S2. cbn [obind]. rewrite E1, E2, E3.
  unfold due_seasons, is_geng, is_bing, is_wei.
  unfold stem, branch. rewrite !kth_ok by lia. fold (stem n) (branch n).
  change (10 * (3 - 1)) with 20. change (10 * 3) with 30. change (10 * (4 - 1)) with 30. change (10 * 4) with 40.
  change (10 * (1 - 1)) with 0. change (10 * 1) with 10. change (12 * (1 - 1)) with 0. change (12 * 1) with 12.
  fold (between 20 (n - xz) 30) (between 30 (n - xz) 40) (between 0 (n - lq) 10) (between 0 (n - mz) 10) (between 0 (n - xs) 12).
  apply (f_equal (@Some _)). unfold when.
  destruct (between 20 (n - xz) 30 && (stem n =? 6)), (between 30 (n - xz) 40 && (stem n =? 6)), (between 0 (n - lq) 10 && (stem n =? 6)),
    (between 0 (n - mz) 10 && (stem n =? 2)), (between 0 (n - xs) 12 && (branch n =? 7)); reflexivity.
Qed.

Definition due_notes (c : ldate) (jq : bytes) (dz xz lq mz xs n : Z) : list item :=
  due_dates c ++ due_year_end c ++ due_term jq ++ due_nines (n - dz) ++ due_seasons xz lq mz xs n.
Lemma getDayName2_ok c jq dz xz lq mz xs n r : 1 <= ld_day c <= ld_length c -> ld_length c = 29 \/ ld_length c = 30 ->
  getDayName2 (lunar_of c jq (gan (stem n) ++ zhi (branch n)) (n - dz) (n - xz) (n - lq) (n - mz) (n - xs)) r =
  Some (fold_left put (due_notes c jq dz xz lq mz xs n) r).
Proof.
  intros H L. unfold getDayName2. set (u := lunar_of c jq _ _ _ _ _ _).
  change (l_Lmc u ++ B "月" ++ l_Ldc u) with (date_text (ld_month c) (ld_day c)). change (l_Lleap u) with (if ld_leap c then B "闰" else []).
  change (l_Lmc2 u) with (ld_next c). change (l_Ljq u) with jq. change (l_dz u) with (n - dz).
  assert (E : (if negb (beq (if ld_leap c then B "闰" else []) (B "闰")) then lunar_dates (date_text (ld_month c) (ld_day c)) r else r) =
    fold_left put (due_dates c) r).
  { unfold due_dates. destruct (ld_leap c).
    - change (beq (B "闰") (B "闰")) with true. reflexivity.
    - change (beq [] (B "闰")) with false. cbn [negb]. rewrite lunar_dates_fold. apply date_fold_due; [lia|apply lf_days]. }
  rewrite E. unfold u. rewrite year_end_ok by assumption. rewrite term_note_ok, nines_ok. cbn [obind]. rewrite dog_days_ok.
  unfold due_notes. rewrite !fold_left_app. reflexivity.
Qed.
