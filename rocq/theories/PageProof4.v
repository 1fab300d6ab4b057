(** Proofs about the month page as a whole. *)
From Coq Require Import ZArith Lia Bool List Ascii String.
From Verif Require Import F64 F64R Str DecSpec CalModel CalSpec CalZ CalZ2 SsqModel SsqSpec SsqProof ObTab ObSpec ObSpecTab ObModel ObProof ObProps LunSpec LunProof LunProps PageSpec PageModel PageProof PageProof2 PageProof3.
Import ListNotations.
Ltac Zify.zify_post_hook ::= idtac.
Open Scope Z_scope.
Open Scope opt_scope.

(** the lunar date a day of the page shows *)
Definition shown_date (l : lunar_day) : ldate :=
  mkLDate (m_Lmc (y_month l)) (negb (beq (m_Lleap (y_month l)) [])) (y_Ldi l + 1) (m_Ldn (y_month l)) (m_Lmc2 (y_month l)).
(** What the notes of day number d, i-th day (label b) of the month m of year y (first weekday w0, dn days) should be. *)
Definition notes_right (y m b w0 dn i d : Z) (l : lunar_day) (r : notes) : Prop := exists fl, at_ festivals (m - 1) = Some fl /\
  let due1 := map (fun f => (f_mark f, f_name f)) (filter (f_due y b) fl) ++
              map (fun f => (w_mark f, w_name f)) (filter (w_due m w0 dn i) week_festivals) in
  let c := shown_date l in
  let due2 := due_dates c ++ due_year_end c ++ due_term (y_Ljq l) ++ due_nines (y_dz l) ++ due_seasons (d - y_xz l) (d - y_lq l) (d - y_mz l) (d - y_xs l) d in
  n_A r = names Holiday due1 ++ texts Holiday due2 /\ n_B r = names Major due1 ++ texts Major due2 /\ n_C r = names Minor due1 ++ texts Minor due2 /\
  n_F r = if ((w0 + i) mod 7 =? 0) || ((w0 + i) mod 7 =? 6) || existsb (fun p => mark_eqb (fst p) Holiday) due1 || existsb it_free due2 then Some true else None.

Definition fest_table : list (list bytes) := map (map fest_text) festivals.
Lemma page_notes_ok T M y m w0 dn d0 i b d l : 1 <= m <= 12 -> 1 <= b <= 31 -> 0 <= w0 < 7 -> 1 <= dn <= 31 -> 0 <= i < dn ->
  calendar T M -> day_right T M d l ->
  exists r, page_notes fest_table wFtv (mkHead y m d0 dn w0) (mkCivil d i ((w0 + i) mod 7) ((w0 + i) / 7) ((w0 + dn - 1) / 7 + 1) b) l false = Some (false, r) /\
    notes_right y m b w0 dn i d l r.
Proof.
  intros Hm Hb Hw Hdn Hi C DR. destruct C26_shipped_table as (_ & LF & W). destruct C22_shipped_table as (T2 & W2).
  destruct (at_some festivals (m - 1)) as [fl A]; [rewrite LF; lia|].
  assert (W1 : forallb fest_wf fl = true).
  { rewrite forallb_forall in W. apply W. unfold at_ in A. destruct (0 <=? m - 1); [|discriminate A]. exact (nth_error_In _ _ A). }
  destruct (C26_festivals festivals week_festivals fl y m b w0 dn i (mkNotes [] [] [] None) Hm Hb Hw Hdn Hi A W1 W2) as (r1 & E1 & EA1 & EB1 & EC1 & F1).
  destruct DR as ((K & RK & EL & EC & (s & yy & k & j & Wd & Hj & EK & EM)) & _ & _ & _ & _ & ED & _ & _ & (y' & _)).
  pose proof (proj2 C K) as CK.
  set (c := shown_date l).
  assert (Hc1 : 1 <= ld_day c <= ld_length c) by (unfold c, shown_date; rewrite EM; cbn [ld_day ld_length m_Ldn]; lia).
  assert (Hc2 : ld_length c = 29 \/ ld_length c = 30) by (unfold c, shown_date; rewrite EM; cbn [ld_length m_Ldn]; lia).
  assert (HL : negb (beq (if is_leap s j then B "闰" else []) []) = is_leap s j) by (destruct (is_leap s j); reflexivity).
  destruct (C52_lunar_notes c (y_Ljq l) (d - y_dz l) (d - y_xz l) (d - y_lq l) (d - y_mz l) (d - y_xs l) d r1 Hc1 Hc2) as (r2 & E2 & EA2 & EB2 & EC2 & F2).
  replace (d - (d - y_dz l)) with (y_dz l) in * by lia. replace (d - (d - y_xz l)) with (y_xz l) in * by lia. replace (d - (d - y_lq l)) with (y_lq l) in * by lia.
  replace (d - (d - y_mz l)) with (y_mz l) in * by lia. replace (d - (d - y_xs l)) with (y_xs l) in * by lia.
  exists r2. split.
  - unfold page_notes. cbn [p_y p_m p_w0 c_d c_week c_weeki c_weekN]. unfold fest_table. rewrite T2. unfold day_of in E1.
    rewrite E1. cbn [obind]. unfold lunar_of in E2.
    replace (m_Lleap (y_month l)) with (if ld_leap c then B "闰" else []).
    2:{ unfold c, shown_date. rewrite EM. cbn [ld_leap m_Lleap]. rewrite HL. destruct (is_leap s j); reflexivity. }
    rewrite ED. change (pillar (d - 6)) with (gan (stem d) ++ zhi (branch d)).
    rewrite EC. replace (d - M K + 1) with (ld_day c) by (unfold c, shown_date; cbn [ld_day]; lia).
    change (m_Lmc (y_month l)) with (ld_month c). change (m_Lmc2 (y_month l)) with (ld_next c). change (m_Ldn (y_month l)) with (ld_length c).
    rewrite E2. reflexivity.
  - exists fl. split; [exact A|]. cbv zeta. fold c. cbn [n_A n_B n_C n_F app] in EA1, EB1, EC1, F1. rewrite EA1 in EA2. rewrite EB1 in EB2. rewrite EC1 in EC2. rewrite F1 in F2.
    split; [exact EA2|]. split; [exact EB2|]. split; [exact EC2|]. rewrite F2.
    destruct (((w0 + i) mod 7 =? 0) || ((w0 + i) mod 7 =? 6) || existsb _ _), (existsb it_free _); reflexivity.
Qed.

(** ** the loop *)
Definition state_ok (T M : Z -> Z) (s : sui) : Prop := s = sui_zero \/ exists y k, window T M s y k.
Definition serves (T M : Z -> Z) (cal : f64 -> Z -> option Z) (d : Z) : Prop :=
  exists s y k, calcY cal (fZ d) = Some s /\ window T M s y k /\ T (24 * y) <= d < T (24 * y + 24).
Lemma sui_for_ok T M cal s d : state_ok T M s -> serves T M cal d ->
  exists s' y k, sui_for cal s d = Some s' /\ window T M s' y k /\ T (24 * y) <= d < T (24 * y + 24).
Proof.
  intros S V. unfold sui_for, covers. destruct S as [->|(y & k & W)].
  { change (at_ (s_ZQ sui_zero) 0) with (Some 0). cbn [obind Z.eqb]. destruct V as (s' & y & k & E & W & R). exists s', y, k. auto. }
  pose proof (w_ZQ _ _ _ _ _ W) as LZ. rewrite (at_tab (s_ZQ s) 0) by (rewrite LZ; lia). cbn [obind].
  destruct V as (s' & y' & k' & E & W' & R').
  destruct (_ =? 0); cbn [obind]; [exists s', y', k'; auto|].
  destruct (Z.ltb_spec d (tab (s_ZQ s) 0)) as [L|L]; cbn [obind]; [exists s', y', k'; auto|].
  rewrite (at_tab (s_ZQ s) 24) by (rewrite LZ; lia). cbn [obind].
  destruct (Z.leb_spec (tab (s_ZQ s) 24) d) as [L2|L2]; cbn [negb]; [exists s', y', k'; auto|].
  exists s, y, k. split; [reflexivity|]. split; [exact W|]. rewrite !(w_T _ _ _ _ _ W) in L, L2 by lia. replace (24 * y + 0) with (24 * y) in L by lia. lia.
Qed.

(** the i-th entry of the page for the month m of year y whose first day has the number n *)
Definition entry_right (T M : Z -> Z) (y m n i : Z) (g : page_day) : Prop :=
  let w0 := (n + 1) mod 7 in
  g_civil g = mkCivil (n + i - 2451545) i ((w0 + i) mod 7) ((w0 + i) / 7) ((w0 + page_len y m - 1) / 7 + 1) (page_label y m i) /\
  day_right T M (n + i - 2451545) (g_lunar g) /\
  notes_right y m (page_label y m i) w0 (page_len y m) i (n + i - 2451545) (g_lunar g) (g_notes g).
Lemma jdn_range2 y m : -4715 <= y <= 2700000 -> 1 <= m <= 12 -> -2000 <= jdn (mkc y m 1) <= 990000000.
Proof.
  intros Hy Hm. unfold jdn. cbn [cy cm cd]. set (g := greg_key y m 1). clearbody g.
  destruct (Z.leb_spec m 2), g; Z.div_mod_to_equations; lia.
Qed.
Lemma page_days_ok T M cal y m n : calendar T M -> 1 <= m <= 12 -> -4715 <= y <= 2700000 -> n = jdn (mkc y m 1) ->
  (forall i, 0 <= i < page_len y m -> serves T M cal (n + i - 2451545)) ->
  forall r i s prev, 0 <= i -> i + Z.of_nat r = page_len y m -> state_ok T M s ->
  (i = 0 \/ exists mi K, prev = Some mi /\ M K <= n + i - 2451545 - 1 < M (K + 1) /\ info_from T M K mi) ->
  exists s' gs, page_days cal fest_table wFtv (mkHead y m (n - 2451545) (page_len y m) ((n + 1) mod 7)) r i s false prev = Some (s', false, gs) /\
    state_ok T M s' /\ List.length gs = r /\
    forall j g, 0 <= j -> at_ gs j = Some g -> entry_right T M y m n (i + j) g.
Proof.
  intros C Hm Hy En HS. pose proof (page_len_bounds y m) as PL. assert (HW : 0 <= (n + 1) mod 7 < 7) by (apply Z.mod_pos_bound; lia).
  assert (BN : -2000 <= n <= 990000000).
  { rewrite En. now apply jdn_range2. }
  induction r as [|r IH]; intros i s prev Hi Hr S HP; cbn [page_days].
  { exists s, []. split; [reflexivity|]. split; [exact S|]. split; [reflexivity|]. intros j g Hj. unfold at_. destruct (0 <=? j); [|discriminate]. destruct (Z.to_nat j); discriminate. }
  rewrite (page_civil_ok y m i n ((n + 1) mod 7) Hm ltac:(lia) En eq_refl ltac:(lia)). cbn [obind c_d0].
  destruct (sui_for_ok T M cal s (n + i - 2451545) S (HS i ltac:(lia))) as (s1 & y1 & k1 & E1 & W1 & R1). rewrite E1. cbn [obind].
  destruct (page_lunar_ok T M s1 y1 k1 (mkHead y m (n - 2451545) (page_len y m) ((n + 1) mod 7)) prev (n + i - 2451545) C W1 R1 ltac:(lia)) as (l & EL & DR).
  { cbn [p_d0]. destruct HP as [->|HP]; [left; lia|right; exact HP]. }
  rewrite EL. cbn [obind].
  assert (LB : 1 <= page_label y m i <= 31).
  { pose proof (page_label_real y m i Hm ltac:(lia)) as RL. unfold real_date in RL. cbn [cy cm cd] in RL. pose proof (month_len_bounds y m). lia. }
  destruct (page_notes_ok T M y m ((n + 1) mod 7) (page_len y m) (n - 2451545) i (page_label y m i) (n + i - 2451545) l Hm LB HW ltac:(lia) ltac:(lia) C DR) as (rn & ER & NR).
  rewrite ER. cbn [obind].
  destruct (IH (i + 1) s1 (Some (y_month l)) ltac:(lia) ltac:(lia)) as (s2 & gs & EP & S2 & LG & PG).
  { right. exists y1, k1. exact W1. }
  { right. destruct DR as ((K & RK & _ & _ & IK) & _). exists (y_month l), K. split; [reflexivity|]. split; [|exact IK]. lia. }
  rewrite EP. cbn [obind]. eexists. eexists. split; [reflexivity|]. split; [exact S2|]. split; [cbn [List.length]; now rewrite LG|].
  intros j g Hj HG. destruct (Z.eq_dec j 0) as [->|NJ].
  - change (at_ ({| g_civil := _; g_lunar := l; g_notes := rn |} :: gs) 0) with (Some {| g_civil := mkCivil (n + i - 2451545) i (((n + 1) mod 7 + i) mod 7) (((n + 1) mod 7 + i) / 7) (((n + 1) mod 7 + page_len y m - 1) / 7 + 1) (page_label y m i); g_lunar := l; g_notes := rn |}) in HG.
    injection HG as <-. replace (i + 0) with i by lia. unfold entry_right. cbn [g_civil g_lunar g_notes]. exact (conj eq_refl (conj DR NR)).
  - replace (i + j) with (i + 1 + (j - 1)) by lia. apply PG; [lia|]. unfold at_ in *. destruct (Z.leb_spec 0 j); [|lia]. destruct (Z.leb_spec 0 (j - 1)); [|lia].
    replace (Z.to_nat j) with (Datatypes.S (Z.to_nat (j - 1))) in HG by lia. exact HG.
Qed.
Lemma yueLiCalc_ok T M cal JNB nh s y m : calendar T M -> 1 <= m <= 12 -> -4715 <= y <= 2700000 ->
  getNH JNB y false = Some (false, nh) -> state_ok T M s ->
  (forall i, 0 <= i < page_len y m -> serves T M cal (jdn (mkc y m 1) + i - 2451545)) ->
  exists s' pg, yueLiCalc cal fest_table wFtv JNB s false y m = Some (s', false, pg) /\ state_ok T M s' /\
    pg_head pg = mkHead y m (jdn (mkc y m 1) - 2451545) (page_len y m) ((jdn (mkc y m 1) + 1) mod 7) /\ pg_nianhao pg = nh /\
    Z.of_nat (List.length (pg_days pg)) = page_len y m /\
    forall i g, 0 <= i -> at_ (pg_days pg) i = Some g -> entry_right T M y m (jdn (mkc y m 1)) i g.
Proof.
  intros C Hm Hy EN S HS. unfold yueLiCalc. pose proof (page_len_bounds y m) as PL.
  rewrite (page_head_ok y m Hm ltac:(lia)). cbn [obind]. rewrite EN. cbn [obind p_dn].
  destruct (Z.ltb_spec 31 (page_len y m)); [lia|].
  destruct (page_days_ok T M cal y m _ C Hm Hy eq_refl HS (Z.to_nat (page_len y m)) 0 s None ltac:(lia) ltac:(lia) S ltac:(now left)) as (s' & gs & E & S' & LG & PG).
  rewrite E. cbn [obind]. eexists. eexists. split; [reflexivity|]. split; [exact S'|]. cbn [pg_head pg_nianhao pg_days].
  split; [reflexivity|]. split; [reflexivity|]. split; [lia|]. intros i g Hi HG. exact (PG i g Hi HG).
Qed.
