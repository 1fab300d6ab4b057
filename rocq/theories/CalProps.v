(** Properties C01-C05: civil date <-> Julian day.
    Specification: [CalSpec] (day counting).  Model: [CalModel]. *)
From Coq Require Import ZArith Reals Lia Lra Bool List.
From Coq Require Import Floats.SpecFloat.
From Flocq Require Import Core.
From Verif Require Import F64 F64R F64T CalModel CalSpec CalZ CalZ2 CalProof CalProof2 CalProof3.
Ltac Zify.zify_post_hook ::= idtac.
Open Scope R_scope.

(** C01.  [toJD] of 12:00:00 on the date reached by counting n days from JD 0 is exactly n. *)
Theorem C01_toJD_counts_days (n : Z) (c : cdate) :
  day_number n c ->
  (cy c <= 5772803)%Z -> (-4716 < cy c)%Z \/ (cy c = -4716 /\ 3 <= cm c)%Z ->
  exists x, toJD (mkDate (cy c) (cm c) (cd c) 12 0 (fZ 0)) = Some x /\ ok x /\ R64 x = IZR n.
Proof.
  intros H U L. apply day_number_iff in H as [R ->].
  exact (toJD_noon c R (conj U L)).
Qed.

(** every real date has a day number, so C01 speaks about every real date of the range *)
Theorem C01_every_date_is_counted (c : cdate) : real_date c <-> exists n, day_number n c.
Proof.
  split.
  - intros R. exists (jdn c). apply day_number_iff. now split.
  - intros [n H]. now apply day_number_iff in H.
Qed.

(** C01 with a time of day: the instant, up to 2^(k-53) days when the day number has k bits. *)
Theorem C01_toJD_instant (n k : Z) (date : Date) :
  day_number n (mkc (Y date) (M date) (D date)) ->
  (Y date <= 5772803)%Z -> (-4716 < Y date)%Z \/ (Y date = -4716 /\ 3 <= M date)%Z ->
  (0 <= h date < 24)%Z -> (0 <= m date < 60)%Z -> ok (s date) -> 0 <= R64 (s date) < 60 ->
  (12 <= k <= 31)%Z -> (Z.abs n <= 2 ^ k - 1)%Z ->
  exists x, toJD date = Some x /\ ok x /\
    Rabs (R64 x - (IZR n - / 2 + (IZR (h date) * 3600 + IZR (m date) * 60 + R64 (s date)) / 86400)) <= bpow radix2 (k - 53).
Proof.
  intros H U L B1 B2 O B3 Hk Hn. apply day_number_iff in H as [R ->].
  exact (toJD_instant date k R (conj U L) (conj B1 (conj B2 (conj O B3))) Hk Hn).
Qed.

Example C01_witness : exists x, toJD (mkDate 2000 1 1 12 0 (fZ 0)) = Some x /\ feqb x (fZ 2451545) = true.
Proof. eexists; split; [vm_compute; reflexivity | vm_compute; reflexivity]. Qed.
Example C01_witness_counted : day_number 2451545 (mkc 2000 1 1) /\ real_date (mkc 2000 1 1).
Proof. split; [apply day_number_iff; split; [|reflexivity]|]; unfold real_date; cbn; lia. Qed.

(** C02.  [setFromJD] at noon of day n is the date reached by counting n days; it is a real date. *)
Theorem C02_setFromJD_counts_days (n : Z) (x : f64) :
  ok x -> R64 x = IZR n -> (-2147483648 <= n <= 2147429998)%Z ->
  exists r, setFromJD x = Some r /\ day_number n (mkc (Y r) (M r) (D r)) /\ real_date (mkc (Y r) (M r) (D r)) /\
            h r = 12%Z /\ m r = 0%Z /\ R64 (s r) = 0.
Proof.
  intros O E B. destruct (setFromJD_noon n x O E B) as (r & E1 & E2 & E3 & E4 & E5).
  exists r. unfold dateof in E2. rewrite E2.
  exact (conj E1 (conj (day_number_cal n) (conj (cal_real n) (conj E3 (conj E4 E5))))).
Qed.
Example C02_witness : exists r, setFromJD (fZ 2299161) = Some r /\ Y r = 1582%Z /\ M r = 10%Z /\ D r = 15%Z.
Proof. eexists; split; [vm_compute; reflexivity | cbn; repeat split]. Qed.
Example C02_witness_hyp : ok (fZ 2299161) /\ R64 (fZ 2299161) = IZR 2299161.
Proof. apply fZ_ok. lia. Qed.

(** C02 at any instant: date and clock returned denote the instant, up to 2^(k-53) days. *)
Theorem C02_setFromJD_instant (jd : f64) (k : Z) :
  ok jd -> (8 <= k <= 31)%Z -> -2147483648 <= R64 jd <= 2147429998 -> Rabs (R64 jd + / 2) <= bpow radix2 k ->
  exists r n, setFromJD jd = Some r /\ day_number n (mkc (Y r) (M r) (D r)) /\
    Rabs ((IZR n - / 2 + (IZR (h r) * 3600 + IZR (m r) * 60 + R64 (s r)) / 86400) - R64 jd) <= bpow radix2 (k - 53).
Proof.
  intros O Hk BJ BK. destruct (setFromJD_instant jd k O Hk BJ BK) as (r & n & E1 & E2 & _ & E4 & _).
  exists r, n. unfold dateof in E2. rewrite E2. split; [exact E1|]. split; [apply day_number_cal|exact E4].
Qed.

(** C03.  Round trips. *)
Theorem C03_date_round_trip (c : cdate) :
  real_date c -> (cy c <= 5772803)%Z -> (-4716 < cy c)%Z \/ (cy c = -4716 /\ 3 <= cm c)%Z ->
  exists x r, toJD (mkDate (cy c) (cm c) (cd c) 12 0 (fZ 0)) = Some x /\ setFromJD x = Some r /\
    Y r = cy c /\ M r = cm c /\ D r = cd c /\ h r = 12%Z /\ m r = 0%Z /\ R64 (s r) = 0.
Proof.
  intros R U L. destruct (toJD_noon c R (conj U L)) as (x & E1 & O1 & V1).
  destruct (toJD_core (noon c)) as (_ & _ & _ & _ & B). { now destruct c. } { now destruct c. }
  replace (dateof (noon c)) with c in B by now destruct c.
  assert (U2 : (jdn c <= 2147429998)%Z).
  { destruct R as (Hm & Hd & _). pose proof (month_len_bounds (cy c) (cm c)).
    assert (Bm : (3 <= sm c <= 14)%Z) by (unfold sm; destruct (Z.leb_spec (cm c) 2); lia).
    assert (By : (-4716 <= sy c <= 5772803)%Z) by (unfold sy; destruct (Z.leb_spec (cm c) 2); lia).
    rewrite jdn_split. clear - Hd H Bm By.
    assert (sy c / 100 / 4 <= sy c / 100 + 59)%Z by (Z.div_mod_to_equations; lia).
    assert (1461 * (sy c + 4716) / 4 <= 2110245063)%Z by (apply Z.div_le_upper_bound; lia).
    assert (153 * (sm c + 1) / 5 <= 459)%Z by (apply Z.div_le_upper_bound; lia).
    destruct (greg_key _ _ _); lia. }
  destruct (setFromJD_noon (jdn c) x O1 V1) as (r & E2 & E3 & E4 & E5 & E6); [lia|].
  exists x, r. rewrite cal_jdn in E3 by assumption.
  refine (conj E1 (conj E2 (conj (f_equal cy E3) (conj (f_equal cm E3) (conj (f_equal cd E3) (conj E4 (conj E5 E6))))))).
Qed.
Example C03_witness : real_date (mkc 1582 10 15) /\ real_date (mkc (-4716) 3 1) /\ real_date (mkc 5772803 12 31) /\ real_date (mkc 2024 2 29).
Proof. repeat split; cbn; lia. Qed.

Theorem C03_day_round_trip (n : Z) (x : f64) (r : Date) :
  ok x -> R64 x = IZR n -> (-1401 <= n <= 2100000000)%Z -> setFromJD x = Some r ->
  exists x', toJD (mkDate (Y r) (M r) (D r) 12 0 (fZ 0)) = Some x' /\ R64 x' = IZR n.
Proof.
  intros O E B ER.
  destruct (setFromJD_noon n x O E) as (r' & E1 & E2 & _); [lia|].
  assert (r = r') by congruence. subst r'.
  pose proof (cal_real n) as R. pose proof (jdn_cal n) as J. rewrite <- E2 in R, J.
  assert (RG : date_in_range (dateof r)).
  { destruct R as (Hm & Hd & _). pose proof (month_len_bounds (cy (dateof r)) (cm (dateof r))).
    rewrite jdn_split in J. set (c := dateof r) in *. clearbody c. clear - J Hm Hd H B.
    unfold date_in_range.
    destruct (greg_key (cy c) (cm c) (cd c)) eqn:K; unfold greg_key in K;
      [apply Z.leb_le in K|apply Z.leb_gt in K].
    - assert (sy c <= 5772802)%Z.
      { destruct (Z_le_gt_dec (sy c) 5772802) as [|G]; [assumption|exfalso].
        assert (153 * (sm c + 1) / 5 >= 0)%Z by (unfold sm; destruct (Z.leb_spec (cm c) 2); Z.div_mod_to_equations; lia).
        Z.div_mod_to_equations; lia. }
      unfold sy in *. destruct (Z.leb_spec (cm c) 2); lia.
    - assert (cy c <= 1582)%Z by lia. split; [lia|].
      assert (-4716 <= sy c)%Z.
      { destruct (Z_le_gt_dec (-4716) (sy c)) as [|G]; [assumption|exfalso].
        assert (153 * (sm c + 1) / 5 + cd c <= 488)%Z.
        { unfold sm. destruct (Z.eqb_spec (cm c) 2) as [C2|C2].
          - rewrite C2 in *. unfold month_len in Hd. change (2 =? 2)%Z with true in Hd. cbv iota in Hd.
            change (2 <=? 2)%Z with true. cbv iota. change (153 * (2 + 12 + 1) / 5)%Z with 459%Z. destruct (leap_year (cy c)); lia.
          - destruct (Z.leb_spec (cm c) 2); Z.div_mod_to_equations; lia. }
        assert (1461 * (sy c + 4716) / 4 <= -366)%Z by (Z.div_mod_to_equations; lia).
        lia. }
      unfold sy in *. destruct (Z.leb_spec (cm c) 2); lia. }
  destruct (toJD_noon (dateof r) R RG) as (x' & E3 & O3 & V3).
  exists x'. split; [exact E3|]. now rewrite V3, J.
Qed.
Example C03_day_witness : exists r, setFromJD (fZ (-1401)) = Some r /\ Y r = (-4716)%Z /\ M r = 3%Z /\ D r = 1%Z.
Proof. eexists; split; [vm_compute; reflexivity | cbn; repeat split]. Qed.

(** Round trip of a date-time: if the clock is not within the rounding error of midnight the date comes back
    unchanged and the clock comes back up to that error (k bits of day number; k = 22 covers the years up to 6770,
    where the error is below 0.0001 s). *)
Theorem C03_datetime_round_trip (n k : Z) (date : Date) :
  let clk d := IZR (h d) * 3600 + IZR (m d) * 60 + R64 (s d) in
  let err := 172800 * bpow radix2 (k - 53) in
  day_number n (mkc (Y date) (M date) (D date)) ->
  (Y date <= 5772803)%Z -> (-4716 < Y date)%Z \/ (Y date = -4716 /\ 3 <= M date)%Z ->
  (0 <= h date < 24)%Z -> (0 <= m date < 60)%Z -> ok (s date) -> 0 <= R64 (s date) < 60 ->
  (12 <= k <= 30)%Z -> (Z.abs n <= 2 ^ k - 1)%Z ->
  err < clk date < 86400 - err ->
  exists x r, toJD date = Some x /\ setFromJD x = Some r /\
    Y r = Y date /\ M r = M date /\ D r = D date /\ Rabs (clk r - clk date) <= err.
Proof.
  intros clk err H U L B1 B2 O B3 Hk Hn BC. apply day_number_iff in H as [R ->].
  change (mkc (Y date) (M date) (D date)) with (dateof date) in *.
  destruct (toJD_instant date k R (conj U L) (conj B1 (conj B2 (conj O B3))) ltac:(lia) Hn) as (x & E1 & O1 & A1).
  set (n := jdn (dateof date)) in *. set (e := bpow radix2 (k - 53)) in *.
  assert (Pe : 0 < e) by apply bpow_gt_0.
  assert (Le : e <= / 8388608).
  { change (/ 8388608) with (bpow radix2 (-23)). apply bpow_le. lia. }
  unfold err in BC. unfold instant in A1. change (clock date) with (clk date) in A1.
  apply Rabs_le_inv in A1.
  assert (N : - (bpow radix2 k - 1) <= IZR n <= bpow radix2 k - 1).
  { rewrite <- (IZR_Zpower radix2 k) by lia. change (radix2 ^ k)%Z with (2 ^ k)%Z.
    rewrite <- minus_IZR, <- opp_IZR. split; apply IZR_le; lia. }
  assert (K30 : bpow radix2 k <= bpow radix2 30) by (apply bpow_le; lia).
  change (bpow radix2 30) with 1073741824 in K30.
  destruct (setFromJD_instant x k O1) as (r & n' & E2 & E3 & C3 & A2 & _); try lia; try lra.
  { apply Rabs_le. lra. }
  fold e in A2. unfold instant in A2. change (clock r) with (clk r) in A2. apply Rabs_le_inv in A2.
  assert (CB : 0 <= clk r < 86400).
  { destruct C3 as (C1 & C2 & _ & C4). unfold clk.
    assert (0 <= IZR (h r) <= 23) by (split; apply IZR_le; lia).
    assert (0 <= IZR (m r) <= 59) by (split; apply IZR_le; lia). lra. }
  assert (NN : n' = n).
  { assert (n' < n + 1)%Z by (apply lt_IZR; rewrite plus_IZR; lra).
    assert (n < n' + 1)%Z by (apply lt_IZR; rewrite plus_IZR; lra). lia. }
  subst n'. exists x, r. unfold n in E3. rewrite cal_jdn in E3 by assumption.
  refine (conj E1 (conj E2 (conj (f_equal cy E3) (conj (f_equal cm E3) (conj (f_equal cd E3) _))))).
  unfold err. fold e. apply Rabs_le. lra.
Qed.
Example C03_datetime_witness :
  let date := mkDate 2008 8 8 20 8 (fZ 8) in
  day_number 2454687 (mkc 2008 8 8) /\ 172800 * bpow radix2 (22 - 53) < 20 * 3600 + 8 * 60 + 8 < 86400 - 172800 * bpow radix2 (22 - 53)
  /\ ok (s date) /\ R64 (s date) = 8.
Proof.
  split; [|split].
  - apply day_number_iff; split; [unfold real_date; cbn; lia | reflexivity].
  - change (bpow radix2 (22 - 53)) with (/ 2147483648). lra.
  - apply (fZ_ok 8). lia.
Qed.

(** C04 is false: for years before -4716 [toJD] does not count days (its (int) casts round towards zero), so the
    date does not come back.  Witnesses: 1 Jan -5621 (a year of the program's own demo) and 1 Jan -4716. *)
Definition there_and_back (c : cdate) : option cdate :=
  match toJD (mkDate (cy c) (cm c) (cd c) 12 0 (fZ 0)) with
  | Some x => match setFromJD x with Some r => Some (mkc (Y r) (M r) (D r)) | None => None end
  | None => None
  end.
Theorem C04_round_trip_refuted :
  exists c, real_date c /\ cy c = (-5621)%Z /\ there_and_back c = Some (mkc (-5621) 1 2) /\ c <> mkc (-5621) 1 2.
Proof.
  exists (mkc (-5621) 1 1). split; [unfold real_date; cbn; lia|]. split; [reflexivity|].
  split; [vm_compute; reflexivity|]. intros H. apply (f_equal cd) in H. discriminate H.
Qed.
(** the limit of C01/C03 is sharp: the last two months before 1 March -4716 already fail *)
Theorem C04_limit_sharp_refuted :
  exists c, real_date c /\ cy c = (-4716)%Z /\ there_and_back c = Some (mkc (-4716) 1 2) /\ c <> mkc (-4716) 1 2.
Proof.
  exists (mkc (-4716) 1 1). split; [unfold real_date; cbn; lia|]. split; [reflexivity|].
  split; [vm_compute; reflexivity|]. intros H. apply (f_equal cd) in H. discriminate H.
Qed.

(** C05.  Every instant of the int-safe range gives a clock reading in range. *)
Theorem C05_clock_fields_in_range (jd : f64) :
  ok jd -> -2147483648 <= R64 jd <= 2147429998 ->
  exists r, setFromJD jd = Some r /\ (0 <= h r <= 23)%Z /\ (0 <= m r <= 59)%Z /\ 0 <= R64 (s r) < 60 /\ real_date (mkc (Y r) (M r) (D r)).
Proof.
  intros O B. destruct (setFromJD_instant jd 31 O) as (r & n & E1 & E2 & (C1 & C2 & _ & C3) & _); try lia; try lra.
  { change (bpow radix2 31) with 2147483648. apply Rabs_le. lra. }
  exists r. split; [exact E1|]. split; [lia|]. split; [lia|]. split; [exact C3|].
  unfold dateof in E2. rewrite E2. apply cal_real.
Qed.
Example C05_witness : ok (lit 24515449999 1000) /\ exists r, setFromJD (lit 24515449999 1000) = Some r.
Proof. split; [apply lit_ok; lia | eexists; vm_compute; reflexivity]. Qed.

Print Assumptions C01_toJD_counts_days.
Print Assumptions C01_every_date_is_counted.
Print Assumptions C01_toJD_instant.
Print Assumptions C02_setFromJD_counts_days.
Print Assumptions C02_setFromJD_instant.
Print Assumptions C03_date_round_trip.
Print Assumptions C03_day_round_trip.
Print Assumptions C03_datetime_round_trip.
Print Assumptions C04_round_trip_refuted.
Print Assumptions C04_limit_sharp_refuted.
Print Assumptions C05_clock_fields_in_range.
