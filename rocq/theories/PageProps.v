(** Properties C21, C30, C53, C54, C55: the month page.
    Specifications: [CalSpec], [SsqSpec], [PageSpec], [ObSpec], [LunSpec].  Model: [PageModel]. *)
From Coq Require Import ZArith Lia Bool List Ascii String.
From Verif Require Import F64 F64R Str DecSpec CalModel CalSpec CalZ CalZ2 CalProps SsqModel SsqSpec SsqProof SsqProof6 SsqProps ObTab ObSpec ObSpecTab ObModel StrSpec ObProof EraProof ObProps LunSpec LunProof LunProps PageSpec PageModel PageProof PageProof2 PageProof3 PageProof4.
Import ListNotations.
Ltac Zify.zify_post_hook ::= idtac.
Open Scope Z_scope.
Open Scope opt_scope.

(** ** C21 *)
(** The page has one entry for every date of the month, in order; the entries have consecutive day numbers, the numbers of their dates;
    the weekday (0 = Sunday) is that of the day number (day 0 was a Monday). *)
Theorem C21_page_lists_the_month y m : 1 <= m <= 12 -> -4715 <= y <= 5772802 ->
  exists p cs, page_head y m = Some p /\ p_y p = y /\ p_m p = m /\
    Z.of_nat (List.length cs) = p_dn p /\ (forall i, 0 <= i < p_dn p -> page_civil p i = at_ cs i) /\
    (forall d, real_date (mkc y m d) <-> In d (map c_d cs)) /\
    (forall i c, at_ cs i = Some c -> c_d0 c = p_d0 p + i /\ c_di c = i /\ day_number (c_d0 c + 2451545) (mkc y m (c_d c)) /\ c_week c = (c_d0 c + 2451545 + 1) mod 7) /\
    (forall i c c', at_ cs i = Some c -> at_ cs (i + 1) = Some c' -> c_d c < c_d c').
Proof.
  intros Hm Hy. set (n := jdn (mkc y m 1)). pose proof (page_len_bounds y m) as PL.
  exists (mkHead y m (n - 2451545) (page_len y m) ((n + 1) mod 7)).
  set (w0 := (n + 1) mod 7).
  set (entry := fun i => mkCivil (n + i - 2451545) i ((w0 + i) mod 7) ((w0 + i) / 7) ((w0 + page_len y m - 1) / 7 + 1) (page_label y m i)).
  set (cs := map (fun k => entry (Z.of_nat k)) (seq 0 (Z.to_nat (page_len y m)))).
  assert (LC : Z.of_nat (List.length cs) = page_len y m) by (unfold cs; rewrite map_length, seq_length; lia).
  assert (AT : forall i, 0 <= i < page_len y m -> at_ cs i = Some (entry i)).
  { intros i Hi. unfold at_. destruct (Z.leb_spec 0 i); [|lia]. unfold cs.
    rewrite (map_nth_error _ (Z.to_nat i) _ (d := Z.to_nat i)); [rewrite Z2Nat.id by lia; reflexivity|].
    rewrite (nth_error_nth' _ 0%nat) by (rewrite seq_length; lia). rewrite seq_nth by lia. reflexivity. }
  assert (AT2 : forall i c, at_ cs i = Some c -> 0 <= i < page_len y m /\ c = entry i).
  { intros i c H. assert (R : 0 <= i < page_len y m).
    { unfold at_ in H. destruct (Z.leb_spec 0 i); [|discriminate H]. assert (X : nth_error cs (Z.to_nat i) <> None) by congruence. apply nth_error_Some in X. lia. }
    split; [exact R|]. rewrite AT in H by exact R. now injection H as <-. }
  exists cs. split; [now apply page_head_ok|]. split; [reflexivity|]. split; [reflexivity|]. cbn [p_dn p_d0]. split; [exact LC|].
  split; [|split; [|split]].
  - intros i Hi. rewrite AT by exact Hi. now apply page_civil_ok.
  - intros d. rewrite in_map_iff. split.
    + intros R. unfold real_date in R. cbn [cy cm cd] in R.
      assert (X : exists i, 0 <= i < page_len y m /\ page_label y m i = d).
      { unfold page_len, page_label. destruct ((y =? 1582) && (m =? 10)) eqn:E; cbn [andb].
        - apply andb_prop in E. destruct E as [E1 E2]. apply Z.eqb_eq in E1, E2. subst y m. change (month_len 1582 10) with 31 in R.
          destruct (Z_le_gt_dec d 4); [exists (d - 1)|exists (d - 11)].
          + split; [lia|]. destruct (Z.leb_spec 4 (d - 1)); lia.
          + split; [lia|]. destruct (Z.leb_spec 4 (d - 11)); lia.
        - exists (d - 1). split; lia. }
      destruct X as (i & Hi & <-). exists (entry i). split; [reflexivity|]. unfold cs. apply in_map_iff. exists (Z.to_nat i). rewrite Z2Nat.id by lia. split; [reflexivity|]. apply in_seq. lia.
    + intros (c & E & I). unfold cs in I. apply in_map_iff in I. destruct I as (k & <- & I). apply in_seq in I. subst d. cbn [c_d entry]. apply page_label_real; [exact Hm|lia].
  - intros i c H. destruct (AT2 i c H) as [R ->]. cbn [entry c_d0 c_di c_d c_week]. split; [lia|]. split; [reflexivity|].
    replace (n + i - 2451545 + 2451545) with (n + i) by lia. split.
    + apply day_number_iff. split; [now apply page_label_real|]. unfold n. symmetry. now apply page_label_jdn.
    + unfold w0. rewrite Zplus_mod_idemp_l. f_equal. lia.
  - intros i c c' H H'. destruct (AT2 i c H) as [R ->]. destruct (AT2 _ c' H') as [R' ->]. cbn [entry c_d]. unfold page_label.
    destruct ((y =? 1582) && (m =? 10)); cbn [andb]; [|lia]. destruct (Z.leb_spec 4 i), (Z.leb_spec 4 (i + 1)); lia.
Qed.
(** Rows of a calendar sheet whose weeks start on Sunday: the first entry is in row 0, an entry starts a new row iff it is a Sunday;
    weekN is the number of rows. *)
Theorem C21_week_rows y m p : 1 <= m <= 12 -> -4715 <= y <= 5772802 -> page_head y m = Some p ->
  (exists c, page_civil p 0 = Some c /\ c_week c = p_w0 p /\ c_weeki c = 0) /\
  (forall i c c', 0 <= i -> i + 1 < p_dn p -> page_civil p i = Some c -> page_civil p (i + 1) = Some c' ->
     c_week c' = (c_week c + 1) mod 7 /\ c_weeki c' = c_weeki c + (if c_week c' =? 0 then 1 else 0)) /\
  (forall i c, 0 <= i < p_dn p -> page_civil p i = Some c -> exists last, page_civil p (p_dn p - 1) = Some last /\ c_weekN c = c_weeki last + 1).
Proof.
  intros Hm Hy E. rewrite page_head_ok in E by assumption. injection E as <-. cbn [p_dn p_w0].
  set (n := jdn (mkc y m 1)). set (w0 := (n + 1) mod 7). assert (W : 0 <= w0 < 7) by (apply Z.mod_pos_bound; lia). pose proof (page_len_bounds y m) as PL.
  assert (PC : forall i, 0 <= i < page_len y m -> page_civil (mkHead y m (n - 2451545) (page_len y m) w0) i =
    Some (mkCivil (n + i - 2451545) i ((w0 + i) mod 7) ((w0 + i) / 7) ((w0 + page_len y m - 1) / 7 + 1) (page_label y m i))).
  { intros i Hi. now apply page_civil_ok. }
  clearbody w0 n. split; [|split].
  - eexists. split; [apply PC; lia|]. cbn [c_week c_weeki]. replace (w0 + 0) with w0 by lia. split; [now apply Z.mod_small|now apply Z.div_small].
  - intros i c c' Hi Hi2 E1 E2. rewrite PC in E1, E2 by lia. injection E1 as <-. injection E2 as <-. cbn [c_week c_weeki].
    split; [rewrite Zplus_mod_idemp_l; f_equal; lia|]. destruct (Z.eqb_spec ((w0 + (i + 1)) mod 7) 0); Z.div_mod_to_equations; lia.
  - intros i c Hi E1. rewrite PC in E1 by lia. injection E1 as <-. eexists. split; [apply PC; lia|]. cbn [c_weekN c_weeki]. do 2 f_equal. lia.
Qed.
(** October 1582 has 21 days and starts on a Monday; its fifth day is Friday the 15th; 1 January 2000 was a Saturday *)
Example C21_witness : page_head 1582 10 = Some (mkHead 1582 10 (-152388) 21 1) /\
  page_civil (mkHead 1582 10 (-152388) 21 1) 4 = Some (mkCivil (-152384) 4 5 0 4 15) /\
  page_head 2000 1 = Some (mkHead 2000 1 0 31 6).
Proof. split; [vm_compute; reflexivity|]. split; vm_compute; reflexivity. Qed.

Lemma leb2 a x b : (a <=? x) && (x <=? b) = true -> a <= x <= b.
Proof. rewrite andb_true_iff, !Z.leb_le. tauto. Qed.
(** ** C30 *)
Theorem C30_month_of_day (A : Z -> Z) HS d : List.length HS = 15%nat -> natural A (tab HS) -> A 0 <= d < A 24 -> Z.abs (A 0) <= 2000000000 ->
  exists i, month_index HS d = Some i /\ 0 <= i < 14 /\ in_period (tab HS) i d /\ 0 <= d - tab HS i < tab HS (i + 1) - tab HS i /\ d - tab HS i < 30.
Proof.
  intros L N R Bd. pose proof (natural_cover A (tab HS) d N R) as C. destruct (period_ex (tab HS) 14 d ltac:(lia) C) as (i & Hi & P).
  exists i. split.
  - apply (month_index_ok A); try assumption. pose proof (natural_B A (tab HS) 1 N ltac:(lia)) as N1. destruct N as (_ & _ & Y & IM). unfold in_month in IM.
    replace (0 + 1) with 1 in IM by lia. unfold int_min, int_max. lia.
  - split; [exact Hi|]. split; [exact P|]. destruct P as [P1 P2]. destruct N as (N & _). specialize (N i ltac:(lia)). lia.
Qed.
Theorem C30_term_of_day ZQ d : List.length ZQ = 25%nat -> even_terms (tab ZQ) -> tab ZQ 0 <= d < tab ZQ 24 ->
  exists i, term_index ZQ d = Some i /\ 0 <= i < 24 /\ in_period (tab ZQ) i d.
Proof.
  intros L N R. destruct (period_ex (tab ZQ) 24 d ltac:(lia) R) as (i & Hi & P). exists i. split; [|split; assumption].
  apply term_index_ok; try assumption. pose proof (N 24 ltac:(lia)). unfold int_min, int_max. lia.
Qed.
Example C30_witness : List.length (s_HS sui0) = 15%nat /\ natural (tab (s_ZQ sui0)) (tab (s_HS sui0)) /\ even_terms (tab (s_ZQ sui0)) /\
  month_index (s_HS sui0) (-693787) = Some 6 /\ month_index (s_HS sui0) (-693786) = Some 7 /\ term_index (s_ZQ sui0) (-693788) = Some 11.
Proof.
  split; [vm_compute; reflexivity|]. split; [exact (proj1 (proj2 (proj2 C18_witness)))|]. split.
  - intros i Hi. assert (X : ((-70000 <=? 10000 * (tab (s_ZQ sui0) i - tab (s_ZQ sui0) 0) - 152184 * i) &&
        (10000 * (tab (s_ZQ sui0) i - tab (s_ZQ sui0) 0) - 152184 * i <=? 70000))%Z = true).
    { apply (sweep (fun i => ((-70000 <=? 10000 * (tab (s_ZQ sui0) i - tab (s_ZQ sui0) 0) - 152184 * i) &&
        (10000 * (tab (s_ZQ sui0) i - tab (s_ZQ sui0) 0) - 152184 * i <=? 70000))%Z) 0 25); [vm_compute; reflexivity|]. change (Z.of_nat 25) with 25. lia. }
    exact (leb2 _ _ _ X).
  - split; [vm_compute; reflexivity|]. split; vm_compute; reflexivity.
Qed.

(** ** C53: years *)
(** The year that changes at the beginning of spring (term 3): counted from 1984. *)
Theorem C53_year_from_spring ZQ d y : List.length ZQ = 25%nat -> even_terms (tab ZQ) -> solstice_of (tab ZQ) y -> -1000000 <= y <= 5000000 ->
  year_spring ZQ d = Some (y - 1984 + (if d <? tab ZQ 3 then -1 else 0)).
Proof. apply year_spring_ok. Qed.
(** The year that changes on the first day of month 正, for the tables of every year outside the old era and the decreed months. *)
Lemma cycle_zheng j : 0 <= j < 12 -> (at_ cycle j = Some (B "正") <-> j = 2).
Proof.
  intros H. assert (X : Bool.eqb (match at_ cycle j with Some m => beq m (B "正") | None => false end) (j =? 2) = true).
  { apply (sweep (fun j => Bool.eqb (match at_ cycle j with Some m => beq m (B "正") | None => false end) (j =? 2)) 0 12); [vm_compute; reflexivity|]. change (Z.of_nat 12) with 12. lia. }
  apply eqb_prop in X. destruct (at_ cycle j) as [m|].
  - destruct (Z.eqb_spec j 2) as [->|N].
    + apply beq_eq in X. subst m. tauto.
    + split; [|lia]. intros E. injection E as ->. rewrite beq_refl in X. discriminate X.
  - destruct (Z.eqb_spec j 2) as [->|N]; [discriminate X|]. split; [discriminate|lia].
Qed.
Lemma new_year_ex cal jd s : calcY cal jd = Some s -> ~ old_era (tab (s_ZQ s) 0) -> (forall i, 0 <= i < 14 -> ~ decreed (tab (s_HS s) i + 2451545)) ->
  List.length (s_HS s) = 15%nat /\ List.length (s_ym s) = 14%nat /\ exists j, 2 <= j <= 3 /\ new_year_at s j.
Proof.
  intros H N D. destruct (calcY_new cal jd s H N) as (L1 & L2 & L3 & EL & NM). split; [exact L2|]. split; [exact L3|].
  assert (KB : 0 <= s_leap s <= 12) by (destruct (leap_of_ok _ _ _ L1 L2 EL) as [(_ & K & _)|(_ & K)]; lia).
  assert (NM2 : forall i, 0 <= i < 14 -> (at_ (s_ym s) i = Some (B "正") <-> month_no (s_leap s) i = 2)).
  { intros i Hi. destruct (NM i Hi) as (m & E1 & E2). apply month_name_plain in E2; [|now apply D].
    destruct (month_no_ok (s_leap s) i Hi KB) as (B1 & _). rewrite Z.rem_mod_nonneg in E2 by lia.
    rewrite E1. pose proof (Z.mod_pos_bound (month_no (s_leap s) i) 12 ltac:(lia)) as MB. rewrite <- E2. change str_ymc with cycle. rewrite cycle_zheng by exact MB.
    Z.div_mod_to_equations; lia. }
  exists (if (1 <=? s_leap s) && (s_leap s <=? 2) then 3 else 2). split; [destruct (_ && _); lia|].
  split; [destruct (_ && _); lia|]. intros i Hi. rewrite NM2 by exact Hi. unfold month_no.
  destruct (Z.leb_spec 1 (s_leap s)), (Z.leb_spec (s_leap s) 2), (Z.eqb_spec (s_leap s) 0), (Z.ltb_spec i (s_leap s)); cbn [andb orb]; lia.
Qed.
Theorem C53_year_from_new_year cal jd s d y : calcY cal jd = Some s -> ~ old_era (tab (s_ZQ s) 0) -> (forall i, 0 <= i < 14 -> ~ decreed (tab (s_HS s) i + 2451545)) ->
  natural (tab (s_ZQ s)) (tab (s_HS s)) -> solstice_of (tab (s_ZQ s)) y -> -1000000 <= y <= 5000000 ->
  exists j, new_year_at s j /\ year_festival s d = Some (y - 1984 + (if d <? tab (s_HS s) j then -1 else 0)).
Proof.
  intros H N D NA S Y. destruct (new_year_ex cal jd s H N D) as (L1 & L2 & j & Hj & NY). exists j. split; [exact NY|].
  apply year_festival_ok; try assumption; lia.
Qed.
(** the solstice year 100: new year day is -693934 *)
Example C53_witness : solstice_of (tab (s_ZQ sui0)) 100 /\ year_festival sui0 (-693935) = Some (-1885) /\ year_festival sui0 (-693934) = Some (-1884).
Proof. split; [vm_compute; split; discriminate|]. split; vm_compute; reflexivity. Qed.

(** ** C54: five tigers *)
(** Month pillar of the page and year pillar of the page: the month that starts with the n-th jie (n = 0: beginning of spring) of the year with
    index v has the index 12 v + 2 + n, so the first month of a 甲 year is 丙寅. *)
Theorem C54_five_tigers ZQ d y v w n : List.length ZQ = 25%nat -> even_terms (tab ZQ) -> solstice_of (tab ZQ) y -> -70000 <= y <= 5000000 ->
  tab ZQ 0 <= d < tab ZQ 24 -> year_spring ZQ d = Some v -> month_pillar ZQ d = Some w ->
  0 <= n <= 11 ->
  ((tab ZQ 3 <= d /\ 2 * n + 3 < 24 /\ tab ZQ (2 * n + 3) <= d < tab ZQ (Z.min 24 (2 * n + 5))) \/
   (d < tab ZQ 3 /\ 10 <= n /\ (n = 11 -> tab ZQ 1 <= d) /\ (n = 10 -> d < tab ZQ 1))) ->
  (w - (12 * v + 2 + n)) mod 60 = 0.
Proof.
  intros L N S Y R EV EW Hn HC. rewrite (year_spring_ok ZQ d y L N S) in EV by lia. injection EV as <-.
  destruct HC as [(H3 & H4 & H5)|(H3 & H4 & H5 & H6)].
  - rewrite (month_pillar_ok ZQ d y (n + 2) L N S Y R) in EW; [|lia| |].
    + injection EW as <-. destruct (Z.ltb_spec d (tab ZQ 3)); [lia|]. replace (n + 2 + (y - 1999) * 12 + 900000 - (12 * (y - 1984 + 0) + 2 + n)) with (14997 * 60) by lia. apply Z.mod_mul. lia.
    + intros _. replace (2 * (n + 2) - 1) with (2 * n + 3) by lia. lia.
    + intros H. replace (2 * (n + 2) + 1) with (2 * n + 5) by lia. rewrite Z.min_r in H5 by lia. lia.
  - rewrite (month_pillar_ok ZQ d y (n - 10) L N S Y R) in EW; [|lia| |].
    + injection EW as <-. destruct (Z.ltb_spec d (tab ZQ 3)); [|lia]. replace (n - 10 + (y - 1999) * 12 + 900000 - (12 * (y - 1984 + -1) + 2 + n)) with (14997 * 60) by lia. apply Z.mod_mul. lia.
    + intros H. replace (2 * (n - 10) - 1) with 1 by lia. apply H5. lia.
    + intros H. destruct (Z.eq_dec n 10) as [->|]; [replace (2 * (10 - 10) + 1) with 1 by lia; auto|]. replace (2 * (n - 10) + 1) with 3 by lia. exact H3.
Qed.
Example C54_witness : year_spring (s_ZQ sui0) (-693924) = Some (-1884) /\ month_pillar (s_ZQ sui0) (-693924) = Some (2 + (100 - 1999) * 12 + 900000) /\
  pillar (-1884) = B "庚子" /\ pillar (2 + (100 - 1999) * 12 + 900000) = B "戊寅".
Proof. split; [vm_compute; reflexivity|]. split; [vm_compute; reflexivity|]. split; vm_compute; reflexivity. Qed.

(** ** C55: the page as a whole *)
(** If calcY returns windows of one calendar (T, M) for the days of the month, the page is computed without undefined behaviour or exception;
    it has one entry per day of the month, each with the right civil, lunar and festival data ([entry_right]: the lunar month, term, pillars,
    zodiac sign and Islamic date are those the calendar gives for the day, the notes are exactly those due). *)
Theorem C55_month_page T M cal s y m : calendar T M -> 1 <= m <= 12 -> -4715 <= y <= 2700000 -> state_ok T M s ->
  (forall d, real_date (mkc y m d) -> forall n, day_number n (mkc y m d) -> serves T M cal (n - 2451545)) ->
  exists tab JNB s' pg n, OBA_init sFtv_text = Some tab /\ OBB_init JNB_text = Some JNB /\ day_number n (mkc y m 1) /\
    yueLiCalc cal tab wFtv JNB s false y m = Some (s', false, pg) /\ state_ok T M s' /\
    pg_head pg = mkHead y m (n - 2451545) (page_len y m) ((n + 1) mod 7) /\
    (exists ts, Forall2 (era_entry y) (filter (e_covers y) eras) ts /\ pg_nianhao pg = join ";" ts) /\
    Z.of_nat (List.length (pg_days pg)) = page_len y m /\
    forall i g, at_ (pg_days pg) i = Some g -> entry_right T M y m n i g.
Proof.
  intros C Hm Hy S HS. destruct C26_shipped_table as (TB & _). destruct (C25_shipped_eras y) as (JNB & ts & EJ & F & EN); [unfold int_min, int_max; lia|].
  assert (R1 : real_date (mkc y m 1)) by (unfold real_date; cbn [cy cm cd]; pose proof (month_len_bounds y m); lia).
  destruct (yueLiCalc_ok T M cal JNB (join ";" ts) s y m C Hm Hy EN S) as (s' & pg & E & S' & EH & ENH & LD & PD).
  { intros i Hi. apply (HS (page_label y m i)); [now apply page_label_real|]. apply day_number_iff. split; [now apply page_label_real|]. symmetry. now apply page_label_jdn. }
  exists (map (map fest_text) festivals), JNB, s', pg, (jdn (mkc y m 1)). split; [exact TB|]. split; [exact EJ|]. split; [apply day_number_iff; now split|].
  split; [exact E|]. split; [exact S'|]. split; [exact EH|]. split; [exists ts; split; [exact F|exact ENH]|]. split; [exact LD|].
  intros i g HG. apply PD; [|exact HG]. unfold at_ in HG. destruct (Z.leb_spec 0 i); [lia|discriminate HG].
Qed.
Lemma some_inj {X} (a b : X) : Some a = Some b -> a = b.
Proof. intros H. now injection H. Qed.
(** any sequence of page computations, starting with the static tables empty *)
Fixpoint call_pages (cal : f64 -> Z -> option Z) (tab : list (list bytes)) (wtab JNB : list bytes) (s : sui) (errno : bool) (calls : list (Z * Z)) : option (list page) :=
  match calls with
  | [] => Some []
  | (y, m) :: calls => let* (s, errno, pg) := yueLiCalc cal tab wtab JNB s errno y m in let* rest := call_pages cal tab wtab JNB s errno calls in Some (pg :: rest)
  end.
Theorem C55_any_history T M cal calls : calendar T M ->
  (forall y m, In (y, m) calls -> 1 <= m <= 12 /\ -4715 <= y <= 2700000 /\ forall d, real_date (mkc y m d) -> forall n, day_number n (mkc y m d) -> serves T M cal (n - 2451545)) ->
  exists tab JNB pgs, OBA_init sFtv_text = Some tab /\ OBB_init JNB_text = Some JNB /\
    call_pages cal tab wFtv JNB sui_zero false calls = Some pgs /\
    Forall2 (fun c pg => let '(y, m) := c in Z.of_nat (List.length (pg_days pg)) = page_len y m /\
      exists n, day_number n (mkc y m 1) /\ forall i g, at_ (pg_days pg) i = Some g -> entry_right T M y m n i g) calls pgs.
Proof.
  intros C HC. destruct C26_shipped_table as (TB & _). destruct (C25_shipped_eras 0) as (JNB & _ & EJ & _); [unfold int_min, int_max; lia|].
  exists (map (map fest_text) festivals), JNB.
  assert (X : forall s, state_ok T M s -> exists pgs, call_pages cal (map (map fest_text) festivals) wFtv JNB s false calls = Some pgs /\
    Forall2 (fun c pg => let '(y, m) := c in Z.of_nat (List.length (pg_days pg)) = page_len y m /\
      exists n, day_number n (mkc y m 1) /\ forall i g, at_ (pg_days pg) i = Some g -> entry_right T M y m n i g) calls pgs).
  { induction calls as [|[y m] calls IH]; intros s S.
    - exists []. split; [reflexivity|constructor].
    - destruct (HC y m (or_introl eq_refl)) as (Hm & Hy & HV).
      destruct (C55_month_page T M cal s y m C Hm Hy S HV) as (tab & JNB' & s' & pg & n & E1 & E2 & DN & E & S' & _ & _ & LD & PD).
      rewrite TB in E1. apply some_inj in E1. subst tab. rewrite EJ in E2. apply some_inj in E2. subst JNB'.
      destruct (IH (fun y m H => HC y m (or_intror H)) s' S') as (pgs & EP & FP).
      exists (pg :: pgs). split; [cbn [call_pages]; rewrite E; cbn [obind]; rewrite EP; reflexivity|]. constructor; [|exact FP]. split; [exact LD|]. exists n. split; [exact DN|exact PD]. }
  destruct (X sui_zero (or_introl eq_refl)) as (pgs & EP & FP). exists pgs. split; [exact TB|]. split; [exact EJ|]. split; [exact EP|exact FP].
Qed.

(** ** C56: phases and terms are stored inside the page *)
(** For every time function the loops that enter moon phases and exact terms only touch the entries of days of the page. *)
Theorem C56_events_inside fuel time step name slack Bd0 Bdn w l : event_loop fuel time step name slack Bd0 Bdn w = Some l ->
  Forall (fun e => 0 <= fst (fst e) < Bdn) l.
Proof.
  revert w l. induction fuel as [|fuel IH]; intros w l; cbn [event_loop]; [intros H; injection H as <-; constructor|].
  destruct (int2 (fadd (time w) (lit 5 10))) as [D|]; [|discriminate]. cbn [obind].
  destruct (name w) as [xn|]; [|discriminate]. cbn [obind].
  destruct (mk_int (Bd0 + Bdn)) as [e|] eqn:E; [|discriminate]. cbn [obind]. apply mk_int_Some in E. destruct E as [-> _].
  destruct (Z.leb_spec (Bd0 + Bdn) D) as [L|L]; [intros H; injection H as <-; constructor|].
  destruct (mk_int (D + slack)) as [D5|]; [|discriminate]. cbn [obind].
  destruct (if D5 <? Bd0 + Bdn then event_loop fuel time step name slack Bd0 Bdn (fadd w step) else Some []) as [rest|] eqn:ER; [|discriminate]. cbn [obind].
  assert (FR : Forall (fun e => 0 <= fst (fst e) < Bdn) rest).
  { destruct (D5 <? Bd0 + Bdn); [exact (IH _ _ ER)|injection ER as <-; constructor]. }
  destruct (Z.ltb_spec D Bd0) as [L2|L2]; [intros H; injection H as <-; exact FR|].
  destruct (mk_int (D - Bd0)) as [k|] eqn:EK; [|discriminate]. cbn [obind]. apply mk_int_Some in EK. destruct EK as [-> _].
  intros H. injection H as <-. constructor; [cbn [fst]; lia|exact FR].
Qed.
Example C56_witness : exists l, event_loop 10 (fun w => w) (fZ 7) (fun _ => Some 3) 5 (-10) 31 (fZ (-20)) = Some l /\ map (fun e => fst (fst e)) l = [4; 11; 18; 25].
Proof. eexists. split; [vm_compute; reflexivity|vm_compute; reflexivity]. Qed.

(** A calendar and a day function for the hypotheses of C55: [int2] as the day function makes terms every 15.2184 days and
    months every 29.5306 days; the page of March 100. *)
Definition cal0 (x : f64) (_ : Z) : option Z := int2 x.
Definition sui5 : sui := match calcY cal0 (fZ (-693902)) with Some s => s | None => sui_zero end.
Definition stretch (l : list Z) (last step j : Z) : Z :=
  if j <? 0 then tab l 0 + step * j else if j <=? last then tab l j else tab l last + step * (j - last).
Definition T0 (j : Z) : Z := stretch (s_ZQ sui5) 24 15 (j - 2400).
Definition M0 (k : Z) : Z := stretch (s_HS sui5) 14 29 k.
Lemma stretch_steps l last step a b : 0 <= last -> a <= step <= b ->
  forallb (fun k => (a <=? tab l (Z.of_nat k + 1) - tab l (Z.of_nat k)) && (tab l (Z.of_nat k + 1) - tab l (Z.of_nat k) <=? b)) (seq 0 (Z.to_nat last)) = true ->
  forall j, a <= stretch l last step (j + 1) - stretch l last step j <= b.
Proof.
  intros HL HS H j. rewrite forallb_forall in H. unfold stretch.
  destruct (Z.ltb_spec (j + 1) 0), (Z.ltb_spec j 0); try lia.
  - destruct (Z.leb_spec (j + 1) last); [|lia]. replace (j + 1) with 0 by lia. replace j with (-1) by lia. lia.
  - destruct (Z.leb_spec (j + 1) last), (Z.leb_spec j last); try lia.
    + specialize (H (Z.to_nat j)). rewrite in_seq in H. specialize (H ltac:(lia)). apply andb_true_iff in H. rewrite !Z.leb_le in H.
      rewrite Z2Nat.id in H by lia. lia.
    + replace j with last by lia. replace (last + 1 - last) with 1 by lia. lia.
Qed.
Lemma calendar0 : calendar T0 M0.
Proof.
  split.
  - intros j. unfold T0. replace (j + 1 - 2400) with (j - 2400 + 1) by lia.
    pose proof (stretch_steps (s_ZQ sui5) 24 15 1 17 ltac:(lia) ltac:(lia) ltac:(vm_compute; reflexivity) (j - 2400)). lia.
  - intros k. unfold M0. apply (stretch_steps (s_HS sui5) 14 29 29 30); [lia|lia|vm_compute; reflexivity].
Qed.
Lemma window0 : window T0 M0 sui5 100 0.
Proof.
  assert (SW : forall (f : Z -> bool) n, forallb (fun k => f (Z.of_nat k)) (seq 0 n) = true -> forall i, 0 <= i < Z.of_nat n -> f i = true).
  { intros f n H i Hi. rewrite forallb_forall in H. specialize (H (Z.to_nat i)). rewrite in_seq, Z2Nat.id in H by lia. apply H. lia. }
  split.
  - vm_compute; reflexivity.
  - vm_compute; reflexivity.
  - vm_compute; reflexivity.
  - vm_compute; reflexivity.
  - intros i Hi. unfold T0, stretch. replace (24 * 100 + i - 2400) with i by lia. destruct (Z.ltb_spec i 0); [lia|]. destruct (Z.leb_spec i 24); [reflexivity|lia].
  - intros i Hi. unfold M0, stretch. replace (0 + i) with i by lia. destruct (Z.ltb_spec i 0); [lia|]. destruct (Z.leb_spec i 14); [reflexivity|lia].
  - intros i Hi. rewrite (at_nth (s_dx sui5) i 0) by (change (List.length (s_dx sui5)) with 14%nat; lia). f_equal. apply Z.eqb_eq.
    apply (SW (fun i => nth (Z.to_nat i) (s_dx sui5) 0 =? M0 (0 + i + 1) - M0 (0 + i)) 14%nat); [vm_compute; reflexivity|exact Hi].
  - split; [|split; [|split]].
    + intros i Hi. pose proof (SW (fun i => (29 <=? tab (s_HS sui5) (i + 1) - tab (s_HS sui5) i) && (tab (s_HS sui5) (i + 1) - tab (s_HS sui5) i <=? 30)) 14%nat ltac:(vm_compute; reflexivity) i ltac:(lia)) as X.
      cbv beta in X. exact (leb2 _ _ _ X).
    + intros i Hi. pose proof (SW (fun i => (29 <=? tab (s_ZQ sui5) (2 * i + 2) - tab (s_ZQ sui5) (2 * i)) && (tab (s_ZQ sui5) (2 * i + 2) - tab (s_ZQ sui5) (2 * i) <=? 32)) 12%nat ltac:(vm_compute; reflexivity) i ltac:(lia)) as X.
      cbv beta in X. exact (leb2 _ _ _ X).
    + vm_compute. discriminate.
    + split; [vm_compute; discriminate|vm_compute; reflexivity].
  - intros i Hi. pose proof (SW (fun i => (-70000 <=? 10000 * (tab (s_ZQ sui5) i - tab (s_ZQ sui5) 0) - 152184 * i) && (10000 * (tab (s_ZQ sui5) i - tab (s_ZQ sui5) 0) - 152184 * i <=? 70000)) 25%nat ltac:(vm_compute; reflexivity) i ltac:(lia)) as X.
    cbv beta in X. exact (leb2 _ _ _ X).
  - split; vm_compute; discriminate.
Qed.
Definition terms_eqb (a b : option (list Z * list Z)) : bool :=
  match a, b with Some (x, u), Some (y, v) => (if list_eq_dec Z.eq_dec x y then true else false) && (if list_eq_dec Z.eq_dec u v then true else false) | _, _ => false end.
Lemma terms_eqb_eq a b : terms_eqb a b = true -> a = b.
Proof.
  destruct a as [[x u]|], b as [[y v]|]; try discriminate. cbn. destruct (list_eq_dec Z.eq_dec x y); [|discriminate]. destruct (list_eq_dec Z.eq_dec u v); [|discriminate]. congruence.
Qed.
Example C55_witness : calendar T0 M0 /\ (forall d, real_date (mkc 100 3 d) -> forall n, day_number n (mkc 100 3 d) -> serves T0 M0 cal0 (n - 2451545)).
Proof.
  split; [exact calendar0|]. intros d R n N. unfold real_date in R. cbn [cy cm cd] in R. change (month_len 100 3) with 31 in R.
  assert (E : n - 2451545 = -693903 + d).
  { apply day_number_iff in N. destruct N as [_ ->]. unfold jdn. cbn [cy cm cd]. replace (greg_key 100 3 d) with false.
    2:{ symmetry. unfold greg_key. apply Z.leb_gt. lia. }
    change (3 <=? 2) with false. cbv iota. Z.div_mod_to_equations; lia. }
  rewrite E. exists sui5, 100, 0.
  assert (ET : sui_terms cal0 (fZ (-693903 + d)) = sui_terms cal0 (fZ (-693902))).
  { apply terms_eqb_eq. apply (sweep (fun d => terms_eqb (sui_terms cal0 (fZ (-693903 + d))) (sui_terms cal0 (fZ (-693902)))) 1 31); [vm_compute; reflexivity|].
    change (Z.of_nat 31) with 31. lia. }
  split.
  - assert (E5 : calcY cal0 (fZ (-693902)) = Some sui5) by (vm_compute; reflexivity). rewrite <- E5. unfold calcY. rewrite ET. reflexivity.
  - split; [exact window0|]. change (T0 (24 * 100)) with (-693971). change (T0 (24 * 100 + 24)) with (-693606). lia.
Qed.

Print Assumptions C21_page_lists_the_month.
Print Assumptions C21_week_rows.
Print Assumptions C30_month_of_day.
Print Assumptions C30_term_of_day.
Print Assumptions C53_year_from_spring.
Print Assumptions C53_year_from_new_year.
Print Assumptions C54_five_tigers.
Print Assumptions C55_month_page.
Print Assumptions C55_any_history.
Print Assumptions C56_events_inside.
