(** The integer closed forms are inverse to each other and to day counting. *)
From Coq Require Import ZArith Bool Lia List ZifyBool.
From Verif Require Import CalSpec CalZ.
Open Scope Z_scope.
Ltac Zify.zify_post_hook ::= Z.div_mod_to_equations.

(** The March-based year and month used by both conversions. *)
Definition sy (c : cdate) := if cm c <=? 2 then cy c - 1 else cy c.
Definition sm (c : cdate) := if cm c <=? 2 then cm c + 12 else cm c.

(** month part *)
Lemma month_part m d : 3 <= m <= 14 -> 1 <= d <= 31 -> (m = 14 -> d <= 29) -> (d <= 30 \/ (m <> 4 /\ m <> 6 /\ m <> 9 /\ m <> 11)) ->
  (1000 * ((153 * (m + 1)) / 5 + d)) / 30601 = m + 1 /\ (30601 * (m + 1)) / 1000 = (153 * (m + 1)) / 5.
Proof.
  intros Hm Hd HF H.
  assert (m = 3 \/ m = 4 \/ m = 5 \/ m = 6 \/ m = 7 \/ m = 8 \/ m = 9 \/ m = 10 \/ m = 11 \/ m = 12 \/ m = 13 \/ m = 14) as C by lia.
  destruct C as [E|[E|[E|[E|[E|[E|[E|[E|[E|[E|[E|E]]]]]]]]]]]; subst m; lia.
Qed.

Lemma cal_ymd_ok (c : cdate) : 1 <= cm c <= 12 -> 1 <= cd c <= 31 ->
  (cd c <= 30 \/ ((cm c =? 4) || (cm c =? 6) || (cm c =? 9) || (cm c =? 11)) = false) ->
  (cm c = 2 -> cd c <= 29) -> (cm c = 2 -> cd c = 29 -> cy c mod 4 = 0) ->
  cal_ymd ((1461 * (sy c + 4716)) / 4 + (153 * (sm c + 1)) / 5 + cd c - 1524) = c.
Proof.
  intros Hm Hd H30 HF HL. unfold cal_ymd.
  set (m := sm c). set (y := sy c).
  assert (Bm : 3 <= m <= 14) by (unfold m, sm; destruct (cm c <=? 2) eqn:?; lia).
  assert (Q : cd c <= 30 \/ (m <> 4 /\ m <> 6 /\ m <> 9 /\ m <> 11)).
  { destruct H30 as [?|K]; [now left|right]. unfold m, sm. destruct (cm c <=? 2) eqn:?; lia. }
  assert (Q2 : m = 14 -> cd c <= 29).
  { intros E. apply HF. unfold m, sm in E. destruct (cm c <=? 2) eqn:?; lia. }
  destruct (month_part m (cd c) Bm Hd Q2 Q) as [P1 P2].
  assert (T1 : 122 <= 153 * (m + 1) / 5 <= 459) by lia.
  assert (T2 : m < 14 -> 153 * (m + 1) / 5 + cd c <= 459).
  { intros L. destruct Q as [?|(? & ? & ? & ?)]; [lia|].
    assert (m = 3 \/ m = 5 \/ m = 7 \/ m = 8 \/ m = 10 \/ m = 12 \/ m = 13) as C by lia.
    destruct C as [E|[E|[E|[E|[E|[E|E]]]]]]; rewrite E; lia. }
  assert (T3 : m = 14 -> cd c <= 29 /\ (cd c = 29 -> (y + 1) mod 4 = 0)).
  { intros E. unfold m, sm in E. unfold y, sy. destruct (cm c <=? 2) eqn:?; [|lia].
    assert (cm c = 2) as K by lia. specialize (HF K). specialize (HL K). split; [lia|].
    intros F. specialize (HL F). now replace (cy c - 1 + 1) with (cy c) by lia. }
  assert (EY : (20 * (1461 * (y + 4716) / 4 + 153 * (m + 1) / 5 + cd c - 1524 + 1524) - 2442) / 7305 = y + 4716).
  { destruct (Z.eq_dec m 14) as [E|N].
    - destruct (T3 E) as [U1 U2]. assert (K : cd c <= 28 \/ cd c = 29) by lia.
      rewrite E in *. change (153 * (14 + 1) / 5) with 459 in *.
      destruct K as [K|K]; [|specialize (U2 K)]; lia.
    - generalize dependent (153 * (m + 1) / 5). intros q **. specialize (T2 ltac:(lia)). lia. }
  cbv zeta. rewrite EY.
  replace (1461 * (y + 4716) / 4 + 153 * (m + 1) / 5 + cd c - 1524 + 1524 - 1461 * (y + 4716) / 4)
    with (153 * (m + 1) / 5 + cd c) by lia.
  rewrite P1, P2.
  destruct c as [cy0 cm0 cd0]. unfold m, y, sm, sy in *. cbn [cy cm cd] in *.
  destruct (cm0 <=? 2) eqn:E; [destruct (13 <? cm0 + 12 + 1) eqn:E2 | destruct (13 <? cm0 + 1) eqn:E2]; try (exfalso; lia).
  all: f_equal; lia.
Qed.

Lemma jdn_split c : jdn c = (if greg_key (cy c) (cm c) (cd c) then 2 - sy c / 100 + sy c / 100 / 4 else 0)
   + ((1461 * (sy c + 4716)) / 4 + (153 * (sm c + 1)) / 5 + cd c - 1524).
Proof. unfold jdn, sy, sm. destruct (cm c <=? 2); lia. Qed.

(** In the Gregorian part the code recovers the century correction from the day number. *)
Lemma century_ok c : real_date c -> greg_key (cy c) (cm c) (cd c) = true ->
  2299161 <= jdn c /\ cal_greg (jdn c) = (1461 * (sy c + 4716)) / 4 + (153 * (sm c + 1)) / 5 + cd c - 1524.
Proof.
  intros (Hm & Hd & Hg) K. rewrite jdn_split, K. unfold greg_key in K.
  assert (Bm : 3 <= sm c <= 14) by (unfold sm; destruct (cm c <=? 2) eqn:?; lia).
  set (y := sy c). set (m := sm c) in *.
  pose proof (month_len_bounds (cy c) (cm c)) as ML. assert (D31 : 1 <= cd c <= 31) by lia.
  assert (Bq : 122 <= 153 * (m + 1) / 5 <= 459) by lia.
  assert (U : m = 14 -> cd c <= 29 /\ (cd c = 29 -> (y + 1) mod 4 = 0 /\ ((y + 1) mod 100 <> 0 \/ (y + 1) mod 400 = 0))).
  { intros E. unfold m, sm in E. destruct (cm c <=? 2) eqn:F; [|exfalso; lia].
    assert (E2 : cm c = 2) by lia. unfold month_len in Hd. rewrite E2 in Hd. change (2 =? 2) with true in Hd. cbv iota in Hd.
    unfold y, sy. rewrite F. replace (cy c - 1 + 1) with (cy c) by lia. unfold leap_year in Hd.
    destruct (cy c <=? 1582) eqn:G; [exfalso; lia|].
    destruct (cy c mod 4 =? 0) eqn:M4; destruct (cy c mod 100 =? 0) eqn:M1; destruct (cy c mod 400 =? 0) eqn:M5;
      cbn [andb orb negb] in Hd; lia. }
  assert (T2 : m < 14 -> 153 * (m + 1) / 5 + cd c <= 459).
  { intros L. unfold m, sm in *. destruct (cm c <=? 2) eqn:F.
    - assert (E2 : cm c = 1) by lia. rewrite E2. lia.
    - assert (C : cm c = 3 \/ cm c = 4 \/ cm c = 5 \/ cm c = 6 \/ cm c = 7 \/ cm c = 8 \/ cm c = 9 \/ cm c = 10 \/ cm c = 11 \/ cm c = 12) by lia.
      unfold month_len in Hd. destruct C as [E|[E|[E|[E|[E|[E|[E|[E|[E|E]]]]]]]]]; rewrite E in *; simpl in Hd; lia. }
  assert (Yl : 1582 <= y). { unfold y, sy. destruct (cm c <=? 2) eqn:F; lia. }
  assert (Y2 : y = 1582 -> 336 + 14 < 153 * (m + 1) / 5 + cd c).
  { intros E. unfold y, sy, m, sm in *. destruct (cm c <=? 2) eqn:F; [lia|].
    assert (C : cm c = 10 \/ cm c = 11 \/ cm c = 12) by lia. destruct C as [G|[G|G]]; rewrite G in *; lia. }
  clear Hm Hd Hg K ML. clearbody y. revert Bq T2 Y2. generalize (153 * (m + 1) / 5). intros q Bq T2 Y2.
  assert (L : 2299161 <= 2 - y / 100 + y / 100 / 4 + (1461 * (y + 4716) / 4 + q + cd c - 1524)).
  { destruct (Z.eq_dec y 1582) as [E|N]; [rewrite E in *; lia|]. clear U T2. lia. }
  split; [exact L|]. unfold cal_greg.
  destruct (2299161 <=? _) eqn:G; [|exfalso; lia]. clear G L. cbv zeta.
  set (n := 2 - y / 100 + y / 100 / 4 + (1461 * (y + 4716) / 4 + q + cd c - 1524)).
  assert (EC : (4 * n - 7468865) / 146097 = y / 100 - 4).
  { unfold n.
    destruct (Z.eq_dec m 14) as [E|N].
    - destruct (U E) as [U1 U2]. assert (q <= 459) by lia. clear T2 U Y2.
      destruct (Z.eq_dec (cd c) 29) as [F|F]; [specialize (U2 F); rewrite F|]; lia.
    - specialize (T2 ltac:(lia)). clear U Y2. lia. }
  rewrite EC. unfold n. lia.
Qed.

Lemma julian_small c : real_date c -> greg_key (cy c) (cm c) (cd c) = false -> jdn c < 2299161.
Proof.
  intros (Hm & Hd & Hg) K. rewrite jdn_split, K. unfold greg_key in K.
  pose proof (month_len_bounds (cy c) (cm c)) as ML. assert (D31 : 1 <= cd c <= 31) by lia.
  assert (Y : cy c <= 1581 \/ (cy c = 1582 /\ (cm c < 10 \/ (cm c = 10 /\ cd c <= 4)))) by lia.
  assert (Bm : 3 <= sm c <= 14) by (unfold sm; destruct (cm c <=? 2) eqn:?; lia).
  destruct Y as [Y|[Y X]].
  - unfold sy, sm in *. destruct (cm c <=? 2) eqn:F; [clear Hd Hg ML; lia|].
    assert (cm c <= 12) by lia. clear Hd Hg ML. lia.
  - unfold sy, sm in *. destruct (cm c <=? 2) eqn:F; rewrite Y; [clear Hd Hg ML; lia|].
    clear Hd Hg ML K. assert (q : 153 * (cm c + 1) / 5 + cd c <= 340) by lia. lia.
Qed.

Lemma cal_jdn c : real_date c -> cal (jdn c) = c.
Proof.
  intros R. unfold cal.
  assert (E : cal_greg (jdn c) = (1461 * (sy c + 4716)) / 4 + (153 * (sm c + 1)) / 5 + cd c - 1524).
  { destruct (greg_key (cy c) (cm c) (cd c)) eqn:K.
    - now apply century_ok.
    - pose proof (julian_small c R K) as L. unfold cal_greg.
      destruct (2299161 <=? jdn c) eqn:G; [exfalso; lia|]. rewrite jdn_split, K. lia. }
  rewrite E. destruct R as (Hm & Hd & Hg).
  pose proof (month_len_bounds (cy c) (cm c)) as ML.
  apply cal_ymd_ok; try lia.
  - unfold month_len in Hd. destruct ((cm c =? 4) || (cm c =? 6) || (cm c =? 9) || (cm c =? 11)) eqn:F; [left|now right].
    destruct (cm c =? 2) eqn:G; [exfalso; lia|lia].
  - intros F. unfold month_len in Hd. rewrite F in Hd. simpl in Hd. destruct (leap_year (cy c)); lia.
  - intros F G. unfold month_len in Hd. rewrite F, G in Hd. simpl in Hd.
    destruct (leap_year (cy c)) eqn:L; [|lia]. unfold leap_year in L. destruct (cy c <=? 1582); lia.
Qed.

(** The closed forms are exactly day counting, in both directions and for every integer. *)
Theorem day_number_iff n c : day_number n c <-> real_date c /\ n = jdn c.
Proof.
  split.
  - intros H. split; [eapply day_number_real; eauto | now apply day_number_jdn].
  - intros [R ->]. destruct (day_number_total (jdn c)) as [c' H].
    pose proof (day_number_jdn _ _ H) as E. pose proof (day_number_real _ _ H) as R'.
    assert (c = c') as -> by (rewrite <- (cal_jdn c R), <- (cal_jdn c' R'), E; reflexivity). easy.
Qed.

Theorem day_number_cal n : day_number n (cal n).
Proof.
  destruct (day_number_total n) as [c H]. pose proof (day_number_jdn _ _ H) as E.
  rewrite E at 2. rewrite cal_jdn; [easy | eapply day_number_real; eauto].
Qed.

Lemma jdn_cal n : jdn (cal n) = n.
Proof. symmetry. apply day_number_jdn, day_number_cal. Qed.
Lemma cal_real n : real_date (cal n).
Proof. eapply day_number_real, day_number_cal. Qed.
