(** Properties C27, C28, C29, C51, C52: lunar festivals and seasonal days.
    Specification: [LunSpec].  Model: [ObModel]. *)
From Coq Require Import ZArith Lia Bool List Ascii String.
From Verif Require Import F64 Str DecSpec StrModel SsqModel ObTab ObSpec ObSpecTab LunSpec ObModel ObProof ObProps SsqProps LunProof.
Import ListNotations.
Open Scope Z_scope.
Open Scope opt_scope.

(** ** C52: getDayName2 as a whole *)
(** Input of getDayName2 for the day with number n (days from 2000-01-01 noon) on the lunar date c, with the solar term jq (empty if none)
    and the days of the winter solstice, summer solstice, beginning of autumn, grain in ear and minor heat. *)
Theorem C52_lunar_notes c jq dz xz lq mz xs n r : 1 <= ld_day c <= ld_length c -> ld_length c = 29 \/ ld_length c = 30 ->
  let due := due_dates c ++ due_year_end c ++ due_term jq ++ due_nines (n - dz) ++ due_seasons xz lq mz xs n in
  exists r', getDayName2 (lunar_of c jq (gan (stem n) ++ zhi (branch n)) (n - dz) (n - xz) (n - lq) (n - mz) (n - xs)) r = Some r' /\
    n_A r' = n_A r ++ texts Holiday due /\ n_B r' = n_B r ++ texts Major due /\ n_C r' = n_C r ++ texts Minor due /\
    n_F r' = if existsb it_free due then Some true else n_F r.
Proof. intros H L due. eexists. split; [apply getDayName2_ok; assumption|]. apply fold_put. Qed.
(** 2021-02-12, first day of the month 正 (a 30-day month before 二), 54th day after the solstice of 2020-12-21 *)
Definition d20210212 : Z := 7713.
Example C52_witness :
  getDayName2 (lunar_of (mkLDate (B "正") false 1 29 (B "二")) [] (gan (stem d20210212) ++ zhi (branch d20210212)) 53 (-129) (-176) (-113) (-145)) no_notes =
  Some (mkNotes (B "春节 ") [] (B "六九第9天 ") (Some true)).
Proof. vm_compute. reflexivity. Qed.

(** ** texts *)
Fixpoint prefixb (t s : bytes) : bool :=
  match t, s with [], _ => true | x :: t, y :: s => Ascii.eqb x y && prefixb t s | _, _ => false end.
Fixpoint occursb (t s : bytes) : bool := prefixb t s || match s with [] => false | _ :: s => occursb t s end.
Lemma prefixb_app t b : prefixb t (t ++ b) = true.
Proof. induction t as [|x t IH]; [reflexivity|]. cbn. now rewrite Ascii.eqb_refl. Qed.
Lemma occursb_app t b : forall a, occursb t (a ++ t ++ b) = true.
Proof.
  induction a as [|x a IH]; cbn [app].
  - destruct (t ++ b) as [|y s] eqn:E; cbn [occursb]; rewrite <- E, prefixb_app; reflexivity.
  - cbn [occursb]. rewrite IH. apply orb_true_r.
Qed.
Lemma occurs_b t s : occursb t s = false -> ~ occurs t s.
Proof. intros H (a & b & ->). rewrite occursb_app in H. discriminate H. Qed.

(** ** C27 *)
(** The eighth day of the month 腊 does not report 腊八节 ... *)
Theorem C27_laba_refuted : exists c jq dz xz lq mz xs n r',
  ld_month c = B "腊" /\ ld_leap c = false /\ ld_day c = 8 /\
  getDayName2 (lunar_of c jq (gan (stem n) ++ zhi (branch n)) (n - dz) (n - xz) (n - lq) (n - mz) (n - xs)) no_notes = Some r' /\
  ~ occurs (B "腊八节") (n_A r' ++ n_B r' ++ n_C r').
Proof.
  exists (mkLDate (B "腊") false 8 30 (B "正")), [], (7690 - 30), 8000, 8000, 8000, 8000, 7690. eexists.
  split; [reflexivity|]. split; [reflexivity|]. split; [reflexivity|]. split; [vm_compute; reflexivity|].
  apply occurs_b. vm_compute. reflexivity.
Qed.
(** ... the eighth day of the month 冬 does *)
Theorem C27_laba_on_wrong_month : exists c jq dz xz lq mz xs n r',
  ld_month c = B "冬" /\ ld_day c = 8 /\
  getDayName2 (lunar_of c jq (gan (stem n) ++ zhi (branch n)) (n - dz) (n - xz) (n - lq) (n - mz) (n - xs)) no_notes = Some r' /\
  occurs (B "腊八节 ") (n_B r').
Proof.
  exists (mkLDate (B "冬") false 8 30 (B "腊")), [], 8000, 8000, 8000, 8000, 8000, 7661. eexists.
  split; [reflexivity|]. split; [reflexivity|]. split; [vm_compute; reflexivity|]. exists [], []. reflexivity.
Qed.

(** ... and a month that calcY names (C20: the names of [cycle]) never does on any day: among the items that C52 says are
    reported there is none with that text *)
Theorem C27_laba_never c jq dz xz lq mz xs n : In (ld_month c) cycle -> jq <> B "腊八节" ->
  ~ In (B "腊八节 ") (map it_text (due_dates c ++ due_year_end c ++ due_term jq ++ due_nines (n - dz) ++ due_seasons xz lq mz xs n)).
Proof.
  intros M J. rewrite !map_app, !in_app_iff. intros [H|[H|[H|[H|H]]]].
  - unfold due_dates in H. destruct (ld_leap c); [exact H|]. rewrite map_map in H. apply in_map_iff in H. destruct H as (f & E & F).
    apply filter_In in F. destruct F as [F1 F2]. unfold lf_due in F2. apply andb_true_iff in F2. destruct F2 as [F2 _]. apply beq_eq in F2.
    assert (X : lf_month f = B "冬").
    { unfold lunar_festivals in F1. repeat (destruct F1 as [<-|F1]; [first [reflexivity|discriminate E]|]). destruct F1. }
    rewrite F2, X in M. unfold cycle in M. repeat (destruct M as [M|M]; [discriminate M|]). exact M.
  - unfold due_year_end in H. destruct (beq _ _ && beq _ _); [|exact H]. rewrite map_app, in_app_iff in H.
    destruct H as [H|H]; (destruct (_ =? _); [destruct H as [H|[]]; discriminate H|exact H]).
  - unfold due_term in H. destruct jq as [|x t]; [exact H|]. set (q := x :: t) in *. clearbody q.
    assert (E : q ++ B " " = B "腊八节 ") by (destruct (beq q _); destruct H as [H|[]]; exact H).
    change (B "腊八节 ") with (B "腊八节" ++ B " ") in E. apply app_inv_tail in E. contradiction.
  - unfold due_nines in H. destruct (_ && _); [|exact H]. destruct H as [H|[]].
    assert (LQ : In (numeral ((n - dz) / 9 + 1)) [[]; B "一"; B "二"; B "三"; B "四"; B "五"; B "六"; B "七"; B "八"; B "九"]).
    { unfold numeral. generalize (Z.to_nat ((n - dz) / 9 + 1 - 1)). intros k.
      do 9 (destruct k as [|k]; [cbn; tauto|]). destruct k; left; reflexivity. }
    revert H LQ. generalize (numeral ((n - dz) / 9 + 1)). intros q H LQ.
    destruct ((n - dz) mod 9 =? 0); cbn [it_text] in H.
    + discriminate H.
    + cbn [In] in LQ. repeat (destruct LQ as [<-|LQ]; [discriminate H|]). exact LQ.
  - unfold due_seasons in H. rewrite !map_app, !in_app_iff in H.
    repeat (destruct H as [H|H]; [destruct (kth_day _ _ _ _); [destruct H as [H|[]]; discriminate H|exact H]|]).
    destruct (kth_day _ _ _ _); [destruct H as [H|[]]; discriminate H|exact H].
Qed.
Example C27_never_witness : In (B "腊") cycle /\ In (B "十一") cycle /\ [] <> B "腊八节".
Proof. split; [right; left; reflexivity|]. split; [left; reflexivity|discriminate]. Qed.
(** ** C28 *)
Definition holidays_A : list bytes := [[]; B "春节 "; B "端午节 "; B "中秋节 "; B "元宵节 "].
Lemma dates_A c : In (texts Holiday (due_dates c)) holidays_A.
Proof.
  unfold due_dates. destruct (ld_leap c); [left; reflexivity|].
  set (m := ld_month c). set (k := ld_day c). clearbody m k.
  change (filter (lf_due m k) lunar_festivals) with (filter (fun f => beq m (lf_month f) && (k =? lf_day f)) lunar_festivals).
  assert (Q : texts Holiday (map lf_item (filter (fun f => beq m (lf_month f) && (k =? lf_day f)) lunar_festivals)) =
    texts Holiday (map lf_item (filter (fun f => beq m (lf_month f) && (k =? lf_day f)) (filter (fun f => mark_eqb (it_class (lf_item f)) Holiday) lunar_festivals)))).
  { clear. induction lunar_festivals as [|f l IH]; [reflexivity|]. cbn [filter].
    destruct (mark_eqb (it_class (lf_item f)) Holiday) eqn:E; cbn [filter]; destruct (beq m (lf_month f) && (k =? lf_day f)); cbn [map]; try exact IH.
    - unfold texts in *. cbn [flat_map]. now rewrite IH.
    - unfold texts in *. cbn [flat_map]. rewrite E. exact IH. }
  rewrite Q. change (filter (fun f => mark_eqb (it_class (lf_item f)) Holiday) lunar_festivals) with
    [mkL (B "正") 1 (mkItem Holiday true (B "春节 ")); mkL (B "五") 5 (mkItem Holiday true (B "端午节 "));
     mkL (B "八") 15 (mkItem Holiday true (B "中秋节 ")); mkL (B "正") 15 (mkItem Holiday false (B "元宵节 "))].
  clear Q. cbn [filter lf_month lf_day].
  destruct (beq m (B "正")) eqn:E1.
  - apply beq_eq in E1. subst m. change (beq (B "正") (B "五")) with false. change (beq (B "正") (B "八")) with false. cbn [andb].
    destruct (Z.eqb_spec k 1) as [->|N1]; [right; left; reflexivity|].
    destruct (Z.eqb_spec k 15) as [->|N2]; [right; right; right; right; left; reflexivity|left; reflexivity].
  - cbn [andb]. destruct (beq m (B "五")) eqn:E2.
    + apply beq_eq in E2. subst m. change (beq (B "五") (B "八")) with false. cbn [andb].
      destruct (k =? 5); [right; right; left; reflexivity|left; reflexivity].
    + cbn [andb]. destruct (beq m (B "八") && (k =? 15)); [right; right; right; left; reflexivity|left; reflexivity].
Qed.
Lemma texts_app k a b : texts k (a ++ b) = texts k a ++ texts k b.
Proof. unfold texts. apply flat_map_app. Qed.
Lemma term_A jq : In (texts Holiday (due_term jq)) [[]; B "清明 "].
Proof.
  unfold due_term. destruct jq as [|x t]; [left; reflexivity|]. destruct (beq (x :: t) (B "清明")) eqn:E; [|left; reflexivity].
  apply beq_eq in E. rewrite E. right; left; reflexivity.
Qed.
Lemma nines_A x : texts Holiday (due_nines x) = [].
Proof. unfold due_nines. destruct ((0 <=? x) && (x <? 81)); [|reflexivity]. destruct (x mod 9 =? 0); reflexivity. Qed.
Lemma seasons_A xz lq mz xs n : texts Holiday (due_seasons xz lq mz xs n) = [].
Proof.
  unfold due_seasons. rewrite !texts_app. repeat match goal with |- context [if ?b then _ else _] => destruct b end; reflexivity.
Qed.
(** 除夕 is added to the holidays of a day iff the day is the last day of a month 腊 that is followed by month 正 *)
Theorem C28_new_years_eve c jq dz xz lq mz xs n r : 1 <= ld_day c <= ld_length c -> ld_length c = 29 \/ ld_length c = 30 ->
  exists r' added, getDayName2 (lunar_of c jq (gan (stem n) ++ zhi (branch n)) (n - dz) (n - xz) (n - lq) (n - mz) (n - xs)) r = Some r' /\
    n_A r' = n_A r ++ added /\
    (occurs (B "除夕 ") added <-> ld_month c = B "腊" /\ ld_next c = B "正" /\ ld_day c = ld_length c) /\
    (occurs (B "除夕 ") added -> n_F r' = Some true).
Proof.
  intros H L. destruct (C52_lunar_notes c jq dz xz lq mz xs n r H L) as (r' & E & EA & _ & _ & EF).
  exists r'. eexists. split; [exact E|]. split; [exact EA|]. clear EA E.
  rewrite !texts_app, nines_A, seasons_A, !app_nil_r.
  pose proof (dates_A c) as D. pose proof (term_A jq) as T.
  assert (Y : (texts Holiday (due_year_end c) = B "除夕 " /\ existsb it_free (due_year_end c) = true /\ ld_month c = B "腊" /\ ld_next c = B "正" /\ ld_day c = ld_length c) \/
              (texts Holiday (due_year_end c) = [] /\ ~ (ld_month c = B "腊" /\ ld_next c = B "正" /\ ld_day c = ld_length c))).
  { unfold due_year_end. destruct (beq (ld_next c) (B "正")) eqn:E1.
    2:{ right. split; [reflexivity|]. intros (_ & X & _). apply beq_eq in X. congruence. }
    destruct (beq (ld_month c) (B "腊")) eqn:E2; cbn [andb].
    2:{ right. split; [reflexivity|]. intros (X & _). apply beq_eq in X. congruence. }
    apply beq_eq in E1, E2. destruct (Z.eqb_spec (ld_day c) (ld_length c)) as [E3|E3].
    - left. split; [destruct (_ =? 23); reflexivity|]. split; [reflexivity|]. auto.
    - right. split; [destruct (_ =? 23); reflexivity|]. intros (_ & _ & X). contradiction. }
  destruct Y as [(EY & FY & Y)|[EY N]]; rewrite EY in *.
  - split.
    + split; [intros _; exact Y|]. intros _. exists (texts Holiday (due_dates c)), (texts Holiday (due_term jq)). rewrite ?app_nil_r. reflexivity.
    + intros _. rewrite EF. rewrite !existsb_app, FY. now rewrite orb_true_r.
  - assert (X : ~ occurs (B "除夕 ") (texts Holiday (due_dates c) ++ [] ++ texts Holiday (due_term jq))).
    { set (s1 := texts Holiday (due_dates c)) in *. set (s2 := texts Holiday (due_term jq)) in *. clearbody s1 s2. clear - D T.
      apply occurs_b. unfold holidays_A in D.
      destruct D as [<-|[<-|[<-|[<-|[<-|[]]]]]]; destruct T as [<-|[<-|[]]]; vm_compute; reflexivity. }
    split; [split; [intros O; contradiction|intros Y; contradiction]|intros O; contradiction].
Qed.
Example C28_witness : exists r',
  getDayName2 (lunar_of (mkLDate (B "腊") false 29 29 (B "正")) [] (gan (stem 8065) ++ zhi (branch 8065)) 41 8000 8000 8000 8000) no_notes = Some r' /\
  n_A r' = B "除夕 " /\ n_F r' = Some true.
Proof. eexists. split; [vm_compute; reflexivity|]. split; reflexivity. Qed.

(** ** C29 *)
(** On a plain weekday neither getDayName nor getDayName2 gives the flag a value: 17 November 2021, a Wednesday *)
Theorem C29_holiday_flag_refuted : exists y m d w0 dn i c jq dz xz lq mz xs n r1 r2,
  getDayName (map (map fest_text) festivals) wFtv (day_of y m d w0 dn i) (false, no_notes) = Some (false, r1) /\
  getDayName2 (lunar_of c jq (gan (stem n) ++ zhi (branch n)) (n - dz) (n - xz) (n - lq) (n - mz) (n - xs)) r1 = Some r2 /\
  n_F r2 = None.
Proof.
  exists 2021, 11, 17, 1, 30, 16, (mkLDate (B "十") false 13 30 (B "冬")), [], 8025, 7842, 7889, 7826, 7858, 7991. eexists. eexists.
  split; [vm_compute; reflexivity|]. split; [vm_compute; reflexivity|]. reflexivity.
Qed.
(** what holds: the flag becomes true on weekends and on the days that have an official holiday and is otherwise left as it was *)
Theorem C29_holiday_flag_partial fl y m d w0 dn i c jq dz xz lq mz xs n r :
  1 <= m <= 12 -> 1 <= d <= 31 -> 0 <= w0 < 7 -> 1 <= dn <= 31 -> 0 <= i < dn -> at_ festivals (m - 1) = Some fl ->
  1 <= ld_day c <= ld_length c -> ld_length c = 29 \/ ld_length c = 30 ->
  let due1 := map (fun f => (f_mark f, f_name f)) (filter (f_due y d) fl) ++
              map (fun f => (w_mark f, w_name f)) (filter (w_due m w0 dn i) week_festivals) in
  let due2 := due_dates c ++ due_year_end c ++ due_term jq ++ due_nines (n - dz) ++ due_seasons xz lq mz xs n in
  exists r1 r2, getDayName (map (map fest_text) festivals) wFtv (day_of y m d w0 dn i) (false, r) = Some (false, r1) /\
    getDayName2 (lunar_of c jq (gan (stem n) ++ zhi (branch n)) (n - dz) (n - xz) (n - lq) (n - mz) (n - xs)) r1 = Some r2 /\
    n_F r2 = if ((w0 + i) mod 7 =? 0) || ((w0 + i) mod 7 =? 6) || existsb (fun p => mark_eqb (fst p) Holiday) due1 || existsb it_free due2
             then Some true else n_F r.
Proof.
  intros Hm Hd H0 H1 H2 A HL HD due1 due2. destruct C26_shipped_table as (_ & _ & W). destruct C22_shipped_table as (T2 & W2). rewrite T2.
  assert (W1 : forallb fest_wf fl = true).
  { rewrite forallb_forall in W. apply W. unfold at_ in A. destruct (0 <=? m - 1); [|discriminate A]. exact (nth_error_In _ _ A). }
  destruct (C26_festivals festivals week_festivals fl y m d w0 dn i r Hm Hd H0 H1 H2 A W1 W2) as (r1 & E1 & _ & _ & _ & F1).
  destruct (C52_lunar_notes c jq dz xz lq mz xs n r1 HL HD) as (r2 & E2 & _ & _ & _ & F2).
  exists r1, r2. split; [exact E1|]. split; [exact E2|]. rewrite F2, F1. fold due1 due2.
  destruct (((w0 + i) mod 7 =? 0) || ((w0 + i) mod 7 =? 6) || existsb (fun p => mark_eqb (fst p) Holiday) due1), (existsb it_free due2); reflexivity.
Qed.

(** ** C51: the seasonal days of C52 are unique and ordinal *)
(** between two days with the same ordinal there is no difference: each of the five days occurs exactly once per year, at most
    p days after its k-th predecessor (p = 10 for stems, 12 for branches) *)
Theorem C51_seasonal_day p t k a n : 0 < p -> 0 <= t < p -> 1 <= k ->
  kth_day (fun n => (n - 6) mod p =? t) k a n = true <-> (a + p * (k - 1) <= n < a + p * k /\ (n - 6) mod p = t).
Proof.
  intros P T K. rewrite kth_ok by assumption. rewrite !andb_true_iff, Z.leb_le, Z.ltb_lt, Z.eqb_eq. lia.
Qed.
(** the five reports of getDayName2, each on exactly the ordinal day that the traditional rule names *)
Theorem C51_dog_days c jq dz xz lq mz xs n r : 1 <= ld_day c <= ld_length c -> ld_length c = 29 \/ ld_length c = 30 ->
  exists r' before, getDayName2 (lunar_of c jq (gan (stem n) ++ zhi (branch n)) (n - dz) (n - xz) (n - lq) (n - mz) (n - xs)) r = Some r' /\
    n_B r' = before ++
      (if kth_day is_geng 3 xz n then B "初伏 " else []) ++ (if kth_day is_geng 4 xz n then B "中伏 " else []) ++
      (if kth_day is_geng 1 lq n then B "末伏 " else []) ++ (if kth_day is_bing 1 mz n then B "入梅 " else []) ++
      (if kth_day is_wei 1 xs n then B "出梅 " else []).
Proof.
  intros H L. destruct (C52_lunar_notes c jq dz xz lq mz xs n r H L) as (r' & E & _ & EB & _).
  exists r', (n_B r ++ texts Major (due_dates c ++ due_year_end c ++ due_term jq ++ due_nines (n - dz))). split; [exact E|].
  rewrite EB. rewrite <- (app_assoc (n_B r)). f_equal.
  assert (Q : forall l1 l2 l3 l4 l5 : list item, l1 ++ l2 ++ l3 ++ l4 ++ l5 = (l1 ++ l2 ++ l3 ++ l4) ++ l5) by (intros; now rewrite <- !app_assoc).
  rewrite Q, (texts_app Major (_ ++ _)). f_equal. unfold due_seasons. rewrite !texts_app.
  assert (X : forall (b : bool) t, texts Major (if b then [mkItem Major false t] else []) = if b then t else []).
  { intros [|] t; [|reflexivity]. unfold texts. cbn. apply app_nil_r. }
  rewrite !X. reflexivity.
Qed.
(** 2021: summer solstice 21 June (7842), 初伏 on 11 July (7862) *)
Example C51_witness : kth_day is_geng 3 7842 7862 = true /\ kth_day is_geng 4 7842 7872 = true /\ kth_day is_geng 1 7889 7892 = true.
Proof. split; [vm_compute; reflexivity|]. split; vm_compute; reflexivity. Qed.

Print Assumptions C52_lunar_notes.
Print Assumptions C27_laba_refuted.
Print Assumptions C27_laba_on_wrong_month.
Print Assumptions C27_laba_never.
Print Assumptions C28_new_years_eve.
Print Assumptions C29_holiday_flag_refuted.
Print Assumptions C29_holiday_flag_partial.
Print Assumptions C51_seasonal_day.
Print Assumptions C51_dog_days.
