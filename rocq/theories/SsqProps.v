(** Properties C15-C20: the table of new moons and solar terms (class SSQ).
    Specification: [SsqSpec].  Model: [SsqModel], tables [SsqTab]. *)
From Coq Require Import ZArith Reals Lia Lra Bool List Ascii String Permutation.
From Coq Require Import Floats.SpecFloat.
From Flocq Require Import Core.
From Verif Require CalSpec CalZ2.
From Verif Require Import F64 F64R F64T CalProof Str StrModel FmtModel FmtProof2 SsqTab SsqModel SsqSpec SsqProof SsqProof2 SsqProof3 SsqProof4 SsqProof5 SsqProof6.
Import ListNotations.
Ltac Zify.zify_post_hook ::= idtac.
Open Scope Z_scope.
Open Scope opt_scope.

(** an environment for the examples: its astronomical functions return their argument *)
Definition env0 : ssq_env := mkEnv (fun x => x) (fun x => x) (fun x => x) (fun x => x) (expanded 0) (expanded 1).

(** ** C15 *)
(** The 30 replacements made one after the other are one simultaneous substitution ... *)
Theorem C15_jieya_expands (s r : bytes) : replace_all jieya_rules s r <-> expands jieya_rules s r.
Proof. rewrite (replace_all_ok _ jieya_clean), (expands_ok _ (proj1 jieya_clean)). reflexivity. Qed.
(** ... so any order of the replacements gives the same result ... *)
Theorem C15_order_irrelevant rules (s r : bytes) : Permutation jieya_rules rules -> (replace_all rules s r <-> replace_all jieya_rules s r).
Proof.
  intros P. pose proof (clean_perm _ _ P jieya_clean) as C. rewrite (replace_all_ok _ C), <- (expands_ok _ (proj1 C)), C15_jieya_expands.
  split; apply expands_perm; [now apply Permutation_sym|exact P].
Qed.
(** ... and the shipped tables have exactly one expansion, of the promised length, consisting of digits 0, 1, 2. *)
Definition digits012 (r : bytes) : Prop := Forall (fun c => c = "0"%char \/ c = "1"%char \/ c = "2"%char) r.
Definition b012 (r : bytes) : bool := forallb (fun c => Ascii.eqb c "0" || Ascii.eqb c "1" || Ascii.eqb c "2") r.
Lemma b012_ok r : b012 r = true -> digits012 r.
Proof.
  unfold b012, digits012. rewrite forallb_forall, Forall_forall. intros H c Hc. specialize (H c Hc). rewrite !orb_true_iff, !Ascii.eqb_eq in H.
  destruct H as [[H|H]|H]; auto.
Qed.
Theorem C15_table_lengths type r : type = 0 \/ type = 1 -> jieya type r ->
  digits012 r /\ Z.of_nat (List.length r) = if type =? 0 then 7567 else 16598.
Proof. intros [->| ->] H; apply jieya_is in H as ->; split; [apply b012_ok| |apply b012_ok|]; vm_compute; reflexivity. Qed.
Theorem C15_jieya_total type : exists r, jieya type r /\ forall r', jieya type r' -> r' = r.
Proof. exists (expanded type). split; [now apply jieya_is|]. intros r' H. now apply jieya_is. Qed.
Example C15_witness : expands jieya_rules (B "A") (B "000000000000000000000000000000000000000000000000000000000000").
Proof. apply expands_ok; [exact (proj1 jieya_clean)|]. vm_compute. reflexivity. Qed.

(** ** C16 *)
(** In the corrected era the index is inside the table and the day found by the series is moved by the digit found,
    hence by at most one. [low_day] is the instant so_low / qi_low returned; it is only assumed to be a number below 10^9. *)
Theorem C16_correction e qs jd :
  qs = 0 \/ qs = 1 -> jieya 1 (str_so e) -> jieya 0 (str_qi e) -> ok jd -> (Rabs (R64 jd) <= 1000000)%R ->
  let J := fadd jd (fZ 2451545) in
  (R64 (f2_of qs) <= R64 J < 2436935)%R -> ok (low_day e qs J) -> (Rabs (R64 (low_day e qs J)) <= 1000000000)%R ->
  exists i c d, corr_index qs J (f2_of qs) = Some i /\ 0 <= i < Z.of_nat (List.length (if qs =? 0 then str_so e else str_qi e)) /\
    at_ (if qs =? 0 then str_so e else str_qi e) i = Some c /\
    (Rabs (IZR d - R64 (low_day e qs J)) <= / 2 + / 1000)%R /\
    calc e jd qs = Some (d + digit_shift c) /\ Z.abs (digit_shift c) <= 1.
Proof.
  intros Hq Hs Hz Oj Bj J BJ OD BD. apply jieya_is in Hs, Hz.
  destruct (shift_ok jd Oj Bj) as [OJ _]. fold J in OJ.
  destruct (calc_corr_ok e qs J Hq Hs Hz OJ BJ OD BD) as (i & c & d & E1 & E2 & E3 & E4 & E5).
  exists i, c, d. split; [exact E1|]. split; [exact E2|]. split; [exact E3|]. split; [exact E4|]. split.
  - unfold calc. fold J. rewrite calc_f1_is, calc_f2_is. cbn [obind].
    destruct (f1_bounds qs) as [O1 B1]. destruct (f2_bounds qs) as [O2 B2]. destruct (fZ_ok 2436935) as [O3 E6]; [lia|].
    replace (fltb J (f1_of qs)) with false by (symmetry; apply fltb_false; try assumption; lra).
    replace (fgeb J calc_f3) with false by (symmetry; apply fgeb_false; [assumption|exact O3|unfold calc_f3; rewrite E6; lra]).
    replace (fltb J (f2_of qs)) with false by (symmetry; apply fltb_false; try assumption; lra).
    rewrite andb_false_r. cbn [orb].
    replace (fgeb J (f2_of qs)) with true by (symmetry; apply fgeb_true; try assumption; lra).
    replace (fltb J calc_f3) with true by (symmetry; apply fltb_true; [assumption|exact O3|unfold calc_f3; rewrite E6; lra]).
    cbn [andb]. exact E5.
  - unfold digit_shift. destruct (Ascii.eqb c "1"); [cbn; lia|]. destruct (Ascii.eqb c "2"); cbn; lia.
Qed.
Example C16_witness : calc env0 (fZ (-100000)) 0 = Some (-21281) /\ corr_index 0 (fadd (fZ (-100000)) (fZ 2451545)) (f2_of 0) = Some 13693.
Proof. split; vm_compute; reflexivity. Qed.

(** ** C17 *)
(** Every number is in exactly one of the three eras, and [calc] serves it by that era's formula. *)
Inductive era (qs : Z) (J : R) : Z -> Prop :=
| era_far : (J < R64 (f1_of qs) \/ 2436935 <= J)%R -> era qs J 0
| era_mean : (R64 (f1_of qs) <= J < R64 (f2_of qs))%R -> era qs J 1
| era_corr : (R64 (f2_of qs) <= J < 2436935)%R -> era qs J 2.
Theorem C17_one_era qs J : exists k, era qs J k /\ forall k', era qs J k' -> k' = k.
Proof.
  destruct (f1_bounds qs) as [_ B1]. destruct (f2_bounds qs) as [_ B2].
  destruct (Rlt_le_dec J (R64 (f1_of qs))) as [C1|C1].
  { exists 0. split; [apply era_far; lra|]. intros k' H. inversion H; subst; [reflexivity|exfalso; lra|exfalso; lra]. }
  destruct (Rlt_le_dec J (R64 (f2_of qs))) as [C2|C2].
  { exists 1. split; [apply era_mean; lra|]. intros k' H. inversion H; subst; [exfalso; lra|reflexivity|exfalso; lra]. }
  destruct (Rlt_le_dec J 2436935) as [C3|C3].
  { exists 2. split; [apply era_corr; lra|]. intros k' H. inversion H; subst; [exfalso; lra|exfalso; lra|reflexivity]. }
  exists 0. split; [apply era_far; lra|]. intros k' H. inversion H; subst; [reflexivity|exfalso; lra|exfalso; lra].
Qed.
Theorem C17_served_by_era e jd qs k : qs = 0 \/ qs = 1 -> ok jd -> (Rabs (R64 jd) <= 1000000)%R ->
  let J := fadd jd (fZ 2451545) in
  era qs (R64 J) k ->
  calc e jd qs = match k with
                 | 0 => if qs =? 1 then cast_int (ffloor (fadd (qi_high e (qi_angle J (fZ 7))) (lit 5 10)))
                        else cast_int (ffloor (fadd (so_high e (so_angle J (fZ 14))) (lit 5 10)))
                 | 1 => calc_mean (calc_B qs) (calc_pc qs) J
                 | _ => calc_corr e qs (calc_pc qs) (f2_of qs) J
                 end.
Proof.
  intros Hq Oj Bj J HE. destruct (shift_ok jd Oj Bj) as [OJ _]. fold J in OJ.
  destruct (f1_bounds qs) as [O1 B1]. destruct (f2_bounds qs) as [O2 B2]. destruct (fZ_ok 2436935) as [O3 E3]; [lia|].
  assert (G3 : fgeb J calc_f3 = false <-> (R64 J < 2436935)%R) by (unfold calc_f3; rewrite fgeb_false by assumption; rewrite E3; reflexivity).
  assert (L3 : fltb J calc_f3 = true <-> (R64 J < 2436935)%R) by (unfold calc_f3; rewrite fltb_true by assumption; rewrite E3; reflexivity).
  unfold calc. fold J. rewrite calc_f1_is, calc_f2_is. cbn [obind]. inversion HE; subst.
  - replace (fltb J (f1_of qs) || fgeb J calc_f3) with true; [destruct Hq as [->| ->]; reflexivity|].
    symmetry. apply orb_true_iff. destruct H as [H|H]; [left; now apply fltb_true|right].
    unfold calc_f3. apply fgeb_true; try assumption. now rewrite E3.
  - replace (fltb J (f1_of qs)) with false by (symmetry; apply fltb_false; try assumption; lra).
    replace (fgeb J calc_f3) with false by (symmetry; apply G3; lra).
    replace (fgeb J (f1_of qs)) with true by (symmetry; apply fgeb_true; try assumption; lra).
    replace (fltb J (f2_of qs)) with true by (symmetry; apply fltb_true; try assumption; lra). reflexivity.
  - replace (fltb J (f1_of qs)) with false by (symmetry; apply fltb_false; try assumption; lra).
    replace (fgeb J calc_f3) with false by (symmetry; apply G3; lra).
    replace (fltb J (f2_of qs)) with false by (symmetry; apply fltb_false; try assumption; lra).
    rewrite andb_false_r. cbn [orb].
    replace (fgeb J (f2_of qs)) with true by (symmetry; apply fgeb_true; try assumption; lra).
    replace (fltb J calc_f3) with true by (symmetry; apply L3; lra). reflexivity.
Qed.
(** In the linear era the search stops inside the table at the segment [b, b') that contains x = J + pc, and the day is
    the nearest day to a term b + n k of that segment's arithmetic progression, the last one not after x
    (up to 1/100 day of rounding; day 1683460 is moved to 1683461). *)
Theorem C17_mean_era e jd qs : qs = 0 \/ qs = 1 -> ok jd -> (Rabs (R64 jd) <= 1000000)%R ->
  let J := fadd jd (fZ 2451545) in
  (R64 (f1_of qs) <= R64 J < R64 (f2_of qs))%R ->
  let T := calc_B qs in
  let x := fadd J (calc_pc qs) in
  exists i b k b' n d, seg_loop (S (List.length T)) T (Z.of_nat (List.length T)) x 0 = Some i /\
    at_ T i = Some b /\ at_ T (i + 1) = Some k /\ at_ T (i + 2) = Some b' /\ (R64 b <= R64 x < R64 b')%R /\
    calc e jd qs = Some ((if d =? 1683460 then d + 1 else d) - 2451545) /\
    0 <= n /\ (Rabs (IZR d - (R64 b + R64 k * IZR n)) <= / 2 + / 100)%R /\
    (R64 x - R64 k - / 2 - / 100 <= IZR d <= R64 x + / 2 + / 100)%R.
Proof.
  intros Hq Oj Bj J BJ T x. destruct (shift_ok jd Oj Bj) as [OJ _]. fold J in OJ.
  rewrite (C17_served_by_era e jd qs 1 Hq Oj Bj (era_mean _ _ BJ)). fold J.
  destruct Hq as [->| ->]; cbn [Z.eqb] in *.
  - destruct (mean_suo J OJ BJ) as (i & d & Hi & E1 & E2 & E3 & E4 & n & E5 & E6).
    exists (2 * i), (fat suoKB (2 * i)), (fat suoKB (2 * i + 1)), (fat suoKB (2 * i + 2)), n, d.
    assert (LT : Z.of_nat (List.length suoKB) = 23) by reflexivity.
    assert (A1 : at_ suoKB (2 * i) = Some (fat suoKB (2 * i))) by (apply at_fat; lia).
    assert (A2 : at_ suoKB (2 * i + 1) = Some (fat suoKB (2 * i + 1))) by (apply at_fat; lia).
    assert (A3 : at_ suoKB (2 * i + 2) = Some (fat suoKB (2 * i + 2))) by (apply at_fat; lia).
    refine (conj E1 (conj A1 (conj A2 (conj A3 (conj E2 (conj _ (conj E5 (conj E6 E4)))))))).
    transitivity (calc_mean suoKB (fZ 14) J); [reflexivity|]. rewrite E3. f_equal. destruct (d =? 1683460); lia.
  - destruct (mean_qi J OJ BJ) as (i & d & Hi & E1 & E2 & E3 & E4 & n & E5 & E6).
    exists (2 * i), (fat qiKB (2 * i)), (fat qiKB (2 * i + 1)), (fat qiKB (2 * i + 2)), n, d.
    assert (LT : Z.of_nat (List.length qiKB) = 71) by reflexivity.
    assert (A1 : at_ qiKB (2 * i) = Some (fat qiKB (2 * i))) by (apply at_fat; lia).
    assert (A2 : at_ qiKB (2 * i + 1) = Some (fat qiKB (2 * i + 1))) by (apply at_fat; lia).
    assert (A3 : at_ qiKB (2 * i + 2) = Some (fat qiKB (2 * i + 2))) by (apply at_fat; lia).
    refine (conj E1 (conj A1 (conj A2 (conj A3 (conj E2 (conj _ (conj E5 (conj E6 E4)))))))).
    transitivity (calc_mean qiKB (fZ 7) J); [reflexivity|]. rewrite E3. f_equal. destruct (d =? 1683460); lia.
Qed.
Example C17_witness : calc env0 (fZ (-694000)) 0 = Some (-693993) /\ calc env0 (fZ (-694000)) 1 = Some (-694000) /\
  seg_loop 24 suoKB 23 (fadd (fZ 1757545) (fZ 14)) 0 = Some 10.
Proof. split; [|split]; vm_compute; reflexivity. Qed.

(** ** C18 *)
Theorem C18_leap_rule cal jd s : calcY cal jd = Some s -> ~ old_era (tab (s_ZQ s) 0) ->
  let A := tab (s_ZQ s) in let B := tab (s_HS s) in let k := s_leap s in
  (~ thirteen A B -> k = 0) /\
  (thirteen A B -> 1 <= k <= 12 /\ B (k + 1) <= A (2 * k) /\ forall j, 1 <= j < k -> A (2 * j) < B (j + 1)).
Proof.
  intros H N A B k. destruct (calcY_new cal jd s H N) as (L1 & L2 & _ & EL & _).
  destruct (leap_of_ok _ _ _ L1 L2 EL) as [(T & K1 & K2 & K3)|(T & K)]; split; intros T'; try easy.
Qed.
(** With tables as nature makes them: the leap month is the first month without a major solar term, and all months
    before it have one. *)
Theorem C18_leap_month_is_first_without_major_term cal jd s : calcY cal jd = Some s -> ~ old_era (tab (s_ZQ s) 0) ->
  let A := tab (s_ZQ s) in let B := tab (s_HS s) in let k := s_leap s in
  natural A B -> thirteen A B -> 1 <= k <= 12 /\ ~ has_major A B k /\ forall j, 0 <= j < k -> has_major A B j.
Proof.
  intros H N A B k NT T. destruct (C18_leap_rule cal jd s H N) as [_ R]. destruct (R T) as (K1 & K2 & K3).
  split; [exact K1|]. exact (leap_meaning _ _ _ NT T K1 K2 K3).
Qed.
(** Numbers: months before the leap month keep their position as number, the others are one lower. *)
Theorem C18_month_numbers cal jd s i : calcY cal jd = Some s -> ~ old_era (tab (s_ZQ s) 0) -> 0 <= i < 14 ->
  exists v m, at_ (s_ym s) i = Some m /\ month_name (tab (s_HS s) i + 2451545) v = Some m /\
    v = if (s_leap s =? 0) || (i <? s_leap s) then i else i - 1.
Proof.
  intros H N Hi. destruct (calcY_new cal jd s H N) as (_ & _ & _ & _ & NM). destruct (NM i Hi) as (m & E1 & E2).
  exists (month_no (s_leap s) i), m. split; [exact E1|]. split; [exact E2|reflexivity].
Qed.
Definition sui0 : sui := match calcY (calc env0) (fZ (-693635)) with Some s => s | None => mkSui [] [] [] [] 0 [] end.
Lemma natural_dec A B : forallb (fun i => (29 <=? B (i + 1) - B i) && (B (i + 1) - B i <=? 30)) (upto 14) = true ->
  forallb (fun j => (29 <=? A (2 * j + 2) - A (2 * j)) && (A (2 * j + 2) - A (2 * j) <=? 32)) (upto 12) = true ->
  (A 24 - A 0 <=? 366) && (B 0 <=? A 0) && (A 0 <? B 1) = true -> natural A B.
Proof.
  intros H1 H2 H3. rewrite forallb_forall in H1, H2. rewrite !andb_true_iff, !Z.leb_le, Z.ltb_lt in H3.
  assert (I : forall n i, 0 <= i < Z.of_nat n -> In i (upto n)).
  { intros n i Hi. unfold upto. apply in_map_iff. exists (Z.to_nat i). split; [lia|]. apply in_seq. lia. }
  split; [|split; [|split; [|split]]].
  - intros i Hi. specialize (H1 i (I 14%nat i ltac:(lia))). rewrite andb_true_iff, !Z.leb_le in H1. exact H1.
  - intros i Hi. specialize (H2 i (I 12%nat i ltac:(lia))). rewrite andb_true_iff, !Z.leb_le in H2. exact H2.
  - apply H3.
  - apply H3.
  - apply H3.
Qed.
Example C18_witness : calcY (calc env0) (fZ (-693635)) = Some sui0 /\ ~ old_era (tab (s_ZQ sui0) 0) /\ natural (tab (s_ZQ sui0)) (tab (s_HS sui0)) /\
  thirteen (tab (s_ZQ sui0)) (tab (s_HS sui0)) /\ s_leap sui0 = 7.
Proof.
  split; [vm_compute; reflexivity|]. split; [|split; [|split]].
  - intros [H1 H2]. vm_compute in H2. now apply H2.
  - apply natural_dec; vm_compute; reflexivity.
  - apply Z.leb_le. vm_compute. reflexivity.
  - vm_compute. reflexivity.
Qed.

(** ** C19 *)
(** In the years -720..-104 naming the months succeeds whatever the astronomical functions return: the year-head search
    finds a year head, no index leaves its table, and every name is one of the twelve month names or 十三 or 后九. *)
Theorem C19_old_names_total e jd ZQ pe A0 : sui_terms (calc e) jd = Some (ZQ, pe) -> at_ ZQ 0 = Some A0 -> -720 <= sui_year A0 <= -104 ->
  exists s, calcY (calc e) jd = Some s /\ s_leap s = 0 /\ List.length (s_ym s) = 14%nat /\ forall m, In m (s_ym s) -> In m month_names_all.
Proof. intros H1 H2 H3. apply (old_years e jd ZQ pe A0 (sui_year A0) H1 H2); [reflexivity|lia|lia]. Qed.
(** The year -721 is the first with a year head (17 Dec -722, day -993847).  There the property needs the solstice the
    series qi_high returns not to be before that day.  Missing here: that bound of qi_high; TermDay supplies
    it in C19_from_721. *)
Theorem C19_year_721_partial e jd ZQ pe A0 : sui_terms (calc e) jd = Some (ZQ, pe) -> at_ ZQ 0 = Some A0 -> sui_year A0 = -721 -> -993847 <= A0 ->
  exists s, calcY (calc e) jd = Some s /\ s_leap s = 0 /\ List.length (s_ym s) = 14%nat /\ forall m, In m (s_ym s) -> In m month_names_all.
Proof. intros H1 H2 H3 H4. apply (old_years e jd ZQ pe A0 (sui_year A0) H1 H2); [reflexivity|lia|lia]. Qed.
Definition sui1 : sui := match calcY (calc env0) (fZ (-785000)) with Some s => s | None => mkSui [] [] [] [] 0 [] end.
Example C19_witness : calcY (calc env0) (fZ (-785000)) = Some sui1 /\ sui_year (tab (s_ZQ sui1) 0) = -150 /\ In (B "后九") (s_ym sui1).
Proof. split; [vm_compute; reflexivity|]. split; [vm_compute; reflexivity|]. vm_compute. tauto. Qed.
Example C19_721_witness : sui_year (-993838) = -721.
Proof. reflexivity. Qed.

(** ** C20 *)
(** Outside the old era and the decreed months: the first month is 十一, a month that is not leap has the name following
    that of the month before it in the cycle of twelve, the leap month has the name of the month before it. *)
Definition cycle : list bytes := [B "十一"; B "腊"; B "正"; B "二"; B "三"; B "四"; B "五"; B "六"; B "七"; B "八"; B "九"; B "十"].
Definition follows (m m' : bytes) : Prop := exists j, 0 <= j < 12 /\ at_ cycle j = Some m /\ at_ cycle ((j + 1) mod 12) = Some m'.
Lemma follows_neq m m' : follows m m' -> m <> m'.
Proof.
  intros (j & Hj & E1 & E2) ->.
  assert (C : forallb (fun j => match at_ cycle j, at_ cycle ((j + 1) mod 12) with Some a, Some b => negb (if list_eq_dec Ascii.ascii_dec a b then true else false) | _, _ => false end) (upto 12) = true)
    by (vm_compute; reflexivity).
  rewrite forallb_forall in C. specialize (C j). rewrite E1, E2 in C. destruct (list_eq_dec Ascii.ascii_dec m' m'); [|easy].
  assert (false = true); [|easy]. apply C. unfold upto. apply in_map_iff. exists (Z.to_nat j). split; [lia|]. apply in_seq. lia.
Qed.
Theorem C20_month_names cal jd s : calcY cal jd = Some s -> ~ old_era (tab (s_ZQ s) 0) ->
  (forall i, 0 <= i < 14 -> ~ decreed (tab (s_HS s) i + 2451545)) ->
  at_ (s_ym s) 0 = Some (B "十一") /\
  forall i, 0 <= i < 13 -> exists m m', at_ (s_ym s) i = Some m /\ at_ (s_ym s) (i + 1) = Some m' /\
    (i + 1 = s_leap s -> m' = m) /\ (i + 1 <> s_leap s -> follows m m').
Proof.
  intros H N D. destruct (calcY_new cal jd s H N) as (L1 & L2 & _ & EL & NM).
  assert (KB : 0 <= s_leap s <= 12) by (destruct (leap_of_ok _ _ _ L1 L2 EL) as [(_ & K & _)|(_ & K)]; lia).
  assert (NM2 : forall i, 0 <= i < 14 -> exists m, at_ (s_ym s) i = Some m /\ at_ cycle (month_no (s_leap s) i mod 12) = Some m).
  { intros i Hi. destruct (NM i Hi) as (m & E1 & E2). exists m. split; [exact E1|]. apply month_name_plain in E2; [|now apply D].
    destruct (month_no_ok (s_leap s) i Hi KB) as (B1 & _). rewrite Z.rem_mod_nonneg in E2 by lia. exact E2. }
  split.
  - destruct (NM2 0 ltac:(lia)) as (m & E1 & E2). destruct (month_no_ok (s_leap s) 0 ltac:(lia) KB) as (_ & Z0 & _). rewrite Z0 in E2.
    rewrite E1. symmetry. exact E2.
  - intros i Hi. destruct (NM2 i ltac:(lia)) as (m & E1 & E2). destruct (NM2 (i + 1) ltac:(lia)) as (m' & E3 & E4).
    exists m, m'. split; [exact E1|]. split; [exact E3|]. destruct (month_no_ok (s_leap s) i ltac:(lia) KB) as (B1 & _ & SU).
    specialize (SU ltac:(lia)). destruct (Z.eqb_spec (i + 1) (s_leap s)) as [E|NE].
    + split; [|easy]. intros _. rewrite SU, E2 in E4. congruence.
    + split; [easy|]. intros _. exists (month_no (s_leap s) i mod 12). split; [apply Z.mod_pos_bound; lia|]. split; [exact E2|].
      rewrite SU in E4. rewrite <- E4. f_equal. rewrite Zplus_mod_idemp_l. reflexivity.
Qed.
Corollary C20_neighbours_differ cal jd s i m m' : calcY cal jd = Some s -> ~ old_era (tab (s_ZQ s) 0) ->
  (forall i, 0 <= i < 14 -> ~ decreed (tab (s_HS s) i + 2451545)) -> 0 <= i < 13 ->
  at_ (s_ym s) i = Some m -> at_ (s_ym s) (i + 1) = Some m' -> (m = m' <-> i + 1 = s_leap s).
Proof.
  intros H N D Hi E1 E2. destruct (C20_month_names cal jd s H N D) as [_ F]. destruct (F i Hi) as (a & b & Ea & Eb & S1 & S2).
  rewrite E1 in Ea. injection Ea as <-. rewrite E2 in Eb. injection Eb as <-. split.
  - intros ->. destruct (Z.eq_dec (i + 1) (s_leap s)) as [E|NE]; [exact E|]. exfalso. now apply (follows_neq m' m' (S2 NE)).
  - intros E. symmetry. now apply S1.
Qed.
Example C20_witness : map (fun i => at_ (s_ym sui0) i) [5; 6; 7; 8] = [Some (B "四"); Some (B "五"); Some (B "五"); Some (B "六")] /\
  forall i, 0 <= i < 14 -> ~ decreed (tab (s_HS sui0) i + 2451545).
Proof.
  split; [vm_compute; reflexivity|]. intros i Hi.
  assert (C : forallb (fun i => (1729795 <=? tab (s_HS sui0) i + 2451545) && (tab (s_HS sui0) i + 2451545 <? 1807724)) (upto 14) = true) by (vm_compute; reflexivity).
  rewrite forallb_forall in C. specialize (C i). rewrite andb_true_iff, Z.leb_le, Z.ltb_lt in C.
  assert (I : In i (upto 14)) by (unfold upto; apply in_map_iff; exists (Z.to_nat i); split; [lia|]; apply in_seq; lia).
  specialize (C I). unfold decreed. lia.
Qed.
(** The decreed months too: every month has exactly one era and its name is the one of the era. *)
Definition name_in (e : month_era) (k : Z) (m : bytes) : Prop :=
  match e with
  | one_ahead => at_ cycle ((k + 1) mod 12) = Some m
  | two_ahead => at_ cycle ((k + 2) mod 12) = Some m
  | last_of_era => m = B "拾贰"
  | wu_zetian => (k = 0 \/ k = 12 -> m = B "正") /\ (k = 2 -> m = B "一") /\ (k <> 0 -> k <> 12 -> k <> 2 -> at_ cycle (k mod 12) = Some m)
  | plain => at_ cycle (k mod 12) = Some m
  end.
Lemma one_era Dm : exists e, in_era e Dm /\ forall e', in_era e' Dm -> e' = e.
Proof.
  assert (C : in_era one_ahead Dm \/ in_era two_ahead Dm \/ in_era wu_zetian Dm \/ in_era last_of_era Dm \/ in_era plain Dm)
    by (unfold in_era, decreed; lia).
  destruct C as [C|[C|[C|[C|C]]]]; eexists; (split; [exact C|]); intros [] C'; try reflexivity; exfalso; unfold in_era, decreed in *; lia.
Qed.
Theorem C20_decreed_names cal jd s : calcY cal jd = Some s -> ~ old_era (tab (s_ZQ s) 0) ->
  forall i, 0 <= i < 14 ->
  let k := if (s_leap s =? 0) || (i <? s_leap s) then i else i - 1 in
  exists e m, at_ (s_ym s) i = Some m /\ in_era e (tab (s_HS s) i + 2451545) /\
    (forall e', in_era e' (tab (s_HS s) i + 2451545) -> e' = e) /\ name_in e k m.
Proof.
  intros H N i Hi k. destruct (calcY_new cal jd s H N) as (L1 & L2 & _ & EL & NM).
  assert (KB : 0 <= s_leap s <= 12) by (destruct (leap_of_ok _ _ _ L1 L2 EL) as [(_ & K & _)|(_ & K)]; lia).
  destruct (NM i Hi) as (m & E1 & E2). change (month_no (s_leap s) i) with k in E2.
  assert (Hk : 0 <= k <= 13). { destruct (month_no_ok (s_leap s) i Hi KB) as (B1 & _). exact B1. }
  clearbody k. set (Dm := tab (s_HS s) i + 2451545) in *. clearbody Dm.
  destruct (one_era Dm) as (e & Ie & Ue). exists e, m. split; [exact E1|]. split; [exact Ie|]. split; [exact Ue|]. clear - E2 Ie Hk.
  unfold month_name in E2. rewrite !(Z.rem_mod_nonneg _ 12) in E2 by lia.
  destruct (at_ str_ymc (k mod 12)) as [mc|] eqn:EC; [|discriminate E2]. cbn [obind] in E2.
  destruct e; unfold in_era, decreed in Ie; unfold name_in;
    repeat match type of E2 with
    | context [(?a <=? ?b) && (?c <=? ?d)] =>
      first [replace ((a <=? b) && (c <=? d)) with false in E2 by (symmetry; apply andb_false_iff; rewrite !Z.leb_gt; lia)
            |replace ((a <=? b) && (c <=? d)) with true in E2 by (symmetry; apply andb_true_iff; rewrite !Z.leb_le; lia)
            |destruct (Z.leb_spec a b), (Z.leb_spec c d); try lia; cbn [andb] in E2] end.
  all: repeat match type of E2 with context [(?a =? ?b) || (?c =? ?d)] =>
      first [replace ((a =? b) || (c =? d)) with false in E2 by (symmetry; apply orb_false_iff; rewrite !Z.eqb_neq; lia)
            |replace ((a =? b) || (c =? d)) with true in E2 by (symmetry; apply orb_true_iff; rewrite !Z.eqb_eq; lia)] end.
  all: try (destruct (at_ str_ymc ((k + 1) mod 12)) as [x|] eqn:EX; [|discriminate E2]; cbn [obind] in E2; injection E2 as <-; first [exact EX|reflexivity]).
  - destruct (at_ str_ymc ((k + 2) mod 12)) as [x|] eqn:EX; [|discriminate E2]; cbn [obind] in E2; injection E2 as <-; exact EX.
  - cbn [obind] in E2. destruct (Z.eqb_spec k 2) as [K2|K2].
    + injection E2 as <-. split; [lia|]. split; [reflexivity|lia].
    + assert (M : k mod 12 = 0 <-> k = 0 \/ k = 12) by (Z.div_mod_to_equations; lia).
      destruct (Z.eqb_spec (k mod 12) 0) as [K0|K0]; injection E2 as <-.
      * split; [reflexivity|]. split; [lia|]. intros; lia.
      * split; [tauto|]. split; [lia|]. intros; exact EC.
  - cbn [obind] in E2. injection E2 as <-. exact EC.
Qed.
(** The bounds of the eras are these days of the Julian calendar (the comment in lunar_ssq.cpp:356 says 8.01.15 for
    the first; the number in the code is that of 15 January 9). *)
Example C20_era_dates :
  CalSpec.day_number 1724360 (CalSpec.mkc 9 1 15) /\ CalSpec.day_number 1729794 (CalSpec.mkc 23 12 2) /\
  CalSpec.day_number 1807724 (CalSpec.mkc 237 4 12) /\ CalSpec.day_number 1808699 (CalSpec.mkc 239 12 13) /\
  CalSpec.day_number 1999349 (CalSpec.mkc 761 12 2) /\ CalSpec.day_number 1999467 (CalSpec.mkc 762 3 30) /\
  CalSpec.day_number 1973067 (CalSpec.mkc 689 12 18) /\ CalSpec.day_number 1977052 (CalSpec.mkc 700 11 15).
Proof. repeat split; apply CalZ2.day_number_iff; (split; [unfold CalSpec.real_date; cbn; lia|reflexivity]). Qed.

Print Assumptions C15_jieya_expands.
Print Assumptions C15_order_irrelevant.
Print Assumptions C15_table_lengths.
Print Assumptions C15_jieya_total.
Print Assumptions C16_correction.
Print Assumptions C17_one_era.
Print Assumptions C17_served_by_era.
Print Assumptions C17_mean_era.
Print Assumptions C18_leap_rule.
Print Assumptions C18_leap_month_is_first_without_major_term.
Print Assumptions C18_month_numbers.
Print Assumptions C19_old_names_total.
Print Assumptions C19_year_721_partial.
Print Assumptions C20_month_names.
Print Assumptions C20_neighbours_differ.
Print Assumptions C20_decreed_names.
