(** Properties C06, C07, C08, C14: texts of dates, times and angles.
    Specifications: [CalSpec], [DecSpec], [FmtSpec].  Model: [FmtModel]. *)
From Coq Require Import ZArith Reals Lia Lra Bool List Ascii String.
From Coq Require Import Floats.SpecFloat.
From Flocq Require Import Core.
From Verif Require Import F64 F64R F64T CalModel CalSpec CalZ CalZ2 CalProof CalProof2 CalProof3.
From Verif Require Import Str DecSpec ItoaModel ItoaProof StrModel StrSpec StrProof FmtModel FmtSpec FmtProof FmtProof2.
Import ListNotations.
Ltac Zify.zify_post_hook ::= idtac.
Open Scope R_scope.

Lemma year_bound n c : day_number n c -> (-1930000 <= n <= 38000000)%Z -> (-9999 <= cy c <= 99999)%Z /\ (1 <= cm c <= 12)%Z /\ (1 <= cd c <= 31)%Z.
Proof.
  intros H B. apply day_number_iff in H as [(Hm & Hd & _) ->].
  pose proof (month_len_bounds (cy c) (cm c)) as ML. rewrite jdn_split in B.
  assert (Bm : (122 <= 153 * (sm c + 1) / 5 <= 459)%Z) by (unfold sm; destruct (Z.leb_spec (cm c) 2); Z.div_mod_to_equations; lia).
  assert (BY : (sy c <= cy c <= sy c + 1)%Z) by (unfold sy; destruct (Z.leb_spec (cm c) 2); lia).
  split; [|lia].
  destruct (greg_key (cy c) (cm c) (cd c)) eqn:K; unfold greg_key in K; [apply Z.leb_le in K|apply Z.leb_gt in K];
    split; try lia; Z.div_mod_to_equations; lia.
Qed.

(** C06, what holds.  The date printed is the date reached by counting n days; the clock printed is at most 24:00:00,
    and date and clock together denote the instant jd up to half a second (plus the resolution of jd).
    Missing for the full property: hour <= 23; that is false, see [C06_hour_24_refuted]. *)
Theorem C06_JD2str_partial (jd : f64) (k : Z) :
  ok jd -> (8 <= k <= 26)%Z -> -1929999 <= R64 jd <= 37999998 -> Rabs (R64 jd + / 2) <= bpow radix2 k ->
  exists t n y mo d hh mm ss, JD2str jd = Some t /\ date_text y mo d hh mm ss t /\ day_number n (mkc y mo d) /\
    (0 <= hh <= 24)%Z /\ (0 <= mm <= 59)%Z /\ (0 <= ss <= 59)%Z /\ (hh = 24 -> mm = 0 /\ ss = 0)%Z /\
    Rabs (IZR n - / 2 + IZR (hh * 3600 + mm * 60 + ss) / 86400 - R64 jd) <= / 172800 + bpow radix2 (k - 52).
Proof.
  intros O Hk BJ BK. destruct (setFromJD_instant jd k O) as (r & n & E1 & E2 & CK & E4 & E5); try lia; try lra.
  assert (DN : day_number n (dateof r)) by (rewrite E2; apply day_number_cal).
  pose proof (half_up_err jd k ltac:(lia) BK) as HU. apply Rabs_le_inv in HU.
  assert (KK : bpow radix2 (k - 54) <= bpow radix2 (26 - 54)) by (apply bpow_le; lia).
  change (bpow radix2 (26 - 54)) with (/ 268435456) in KK.
  assert (Bn : (-1930000 <= n <= 38000000)%Z).
  { pose proof (Zfloor_lb (half_up jd)). pose proof (Zfloor_ub (half_up jd)). rewrite <- E5 in *.
    assert (-1930001 < n)%Z by (apply lt_IZR; lra). assert (n < 38000001)%Z by (apply lt_IZR; lra). lia. }
  destruct (year_bound n _ DN Bn) as (BY & BM & BD). unfold dateof in BY, BM, BD. cbn [cy cm cd] in BY, BM, BD.
  destruct (DD2str_ok r BY ltac:(lia) ltac:(lia) CK) as (t & hh & mm & ss & E & T & B1 & B2 & B3 & H24 & EC & _).
  exists t, n, (Y r), (M r), (D r), hh, mm, ss. unfold JD2str. rewrite E1. cbn [obind].
  refine (conj E (conj T (conj DN (conj B1 (conj B2 (conj B3 (conj H24 _))))))).
  unfold instant in E4. apply Rabs_le_inv in E4, EC.
  assert (K52 : bpow radix2 (k - 52) = 2 * bpow radix2 (k - 53)).
  { replace (k - 52)%Z with (1 + (k - 53))%Z by lia. rewrite bpow_plus. reflexivity. }
  assert (K8 : bpow radix2 (8 - 53) <= bpow radix2 (k - 53)) by (apply bpow_le; lia).
  change (bpow radix2 (8 - 53)) with (/ 35184372088832) in K8. change (bpow radix2 (-48)) with (/ 281474976710656) in EC.
  apply Rabs_le. rewrite K52. lra.
Qed.
Example C06_witness : ok (lit 24546873389 10000) /\ JD2str (lit 24546873389 10000) = Some (B " 2008-08-08 20:08:01").
Proof. split; [apply lit_ok; lia|vm_compute; reflexivity]. Qed.
(** finding: in the last half second of a day the text says 24:00:00 of the old date *)
Theorem C06_hour_24_refuted : exists jd t, ok jd /\ JD2str jd = Some t /\ t = B " 2000-12-31 24:00:00".
Proof. exists (lit 24519104999970 10000000). eexists. split; [apply lit_ok; lia|]. split; [vm_compute; reflexivity|reflexivity]. Qed.

(** C07, what holds.  Missing for the full property: hour <= 23; false, see below. *)
Theorem C07_timeStr_partial (jd : f64) (k : Z) :
  ok jd -> (8 <= k <= 31)%Z -> -2147483648 <= R64 jd <= 2147483646 -> Rabs (R64 jd + / 2) <= bpow radix2 k ->
  exists t n hh mm ss, timeStr jd = Some t /\ time_text hh mm ss t /\
    (0 <= hh <= 24)%Z /\ (0 <= mm <= 59)%Z /\ (0 <= ss <= 59)%Z /\ (hh = 24 -> mm = 0 /\ ss = 0)%Z /\
    Rabs (IZR n - / 2 + IZR (hh * 3600 + mm * 60 + ss) / 86400 - R64 jd) <= / 172800 + bpow radix2 (k - 53).
Proof.
  intros O Hk BJ BK. destruct (timeStr_hms_ok jd k O Hk BJ BK) as (hh & mm & ss & n & E & B1 & B2 & B3 & H24 & T).
  unfold timeStr. rewrite E. cbn [obind].
  destruct (two_ok hh ltac:(lia)) as (fh & -> & F1). cbn [obind].
  destruct (two_ok mm ltac:(lia)) as (fm & -> & F2). cbn [obind].
  destruct (two_ok ss ltac:(lia)) as (fs & -> & F3). cbn [obind].
  eexists _, n, hh, mm, ss. split; [reflexivity|].
  refine (conj _ (conj B1 (conj B2 (conj B3 (conj H24 T))))).
  exists fh, fm, fs. exact (conj eq_refl (conj F1 (conj F2 F3))).
Qed.
Example C07_witness : ok (lit 24515452 10) /\ timeStr (lit 24515452 10) = Some (B "16:48:00").
Proof. split; [apply lit_ok; lia|vm_compute; reflexivity]. Qed.
Theorem C07_hour_24_refuted : exists jd t, ok jd /\ timeStr jd = Some t /\ t = B "24:00:00".
Proof. exists (lit 24519104999970 10000000). eexists. split; [apply lit_ok; lia|]. split; [vm_compute; reflexivity|reflexivity]. Qed.

(** C08.  Between the years -9999 and 99999 the text shows every field; it therefore determines the date and the
    rounded clock ([DD_hms], which C06 relates to the instant). *)
Theorem C08_text_shows_fields (r : Date) :
  (-9999 <= Y r <= 99999)%Z -> (0 <= M r <= 99)%Z -> (0 <= D r <= 99)%Z ->
  (0 <= h r < 24)%Z -> (0 <= m r < 60)%Z -> ok (s r) -> 0 <= R64 (s r) < 60 ->
  exists t hh mm ss, DD2str r = Some t /\ date_text (Y r) (M r) (D r) hh mm ss t /\
    Rabs (IZR (hh * 3600 + mm * 60 + ss) - (IZR (h r) * 3600 + IZR (m r) * 60 + R64 (s r))) <= / 2 + bpow radix2 (-48).
Proof.
  intros BY BM BD B1 B2 O B3.
  destruct (DD2str_ok r BY BM BD (conj B1 (conj B2 (conj O B3)))) as (t & hh & mm & ss & E & T & _ & _ & _ & _ & EC & _).
  exists t, hh, mm, ss. exact (conj E (conj T EC)).
Qed.
Theorem C08_fields_readable (y mo d hh mm ss y' mo' d' hh' mm' ss' : Z) (t : bytes) :
  date_text y mo d hh mm ss t -> date_text y' mo' d' hh' mm' ss' t ->
  y = y' /\ mo = mo' /\ d = d' /\ hh = hh' /\ mm = mm' /\ ss = ss'.
Proof. apply date_text_inj. Qed.
Theorem C08_text_identifies_date (r r' : Date) (t : bytes) :
  (-9999 <= Y r <= 99999)%Z -> (0 <= M r <= 99)%Z -> (0 <= D r <= 99)%Z -> (0 <= h r < 24)%Z -> (0 <= m r < 60)%Z -> ok (s r) -> 0 <= R64 (s r) < 60 ->
  (-9999 <= Y r' <= 99999)%Z -> (0 <= M r' <= 99)%Z -> (0 <= D r' <= 99)%Z -> (0 <= h r' < 24)%Z -> (0 <= m r' < 60)%Z -> ok (s r') -> 0 <= R64 (s r') < 60 ->
  DD2str r = Some t -> DD2str r' = Some t ->
  Y r = Y r' /\ M r = M r' /\ D r = D r' /\
  Rabs ((IZR (h r) * 3600 + IZR (m r) * 60 + R64 (s r)) - (IZR (h r') * 3600 + IZR (m r') * 60 + R64 (s r'))) <= 1 + bpow radix2 (-47).
Proof.
  intros A1 A2 A3 A4 A5 A6 A7 A1' A2' A3' A4' A5' A6' A7' E E'.
  destruct (C08_text_shows_fields r A1 A2 A3 A4 A5 A6 A7) as (u & hh & mm & ss & F & T & EC).
  destruct (C08_text_shows_fields r' A1' A2' A3' A4' A5' A6' A7') as (u' & hh' & mm' & ss' & F' & T' & EC').
  rewrite E in F. injection F as <-. rewrite E' in F'. injection F' as <-.
  destruct (C08_fields_readable _ _ _ _ _ _ _ _ _ _ _ _ _ T T') as (-> & -> & -> & <- & <- & <-).
  refine (conj eq_refl (conj eq_refl (conj eq_refl _))).
  apply Rabs_le_inv in EC, EC'. change (bpow radix2 (-47)) with (/ 140737488355328). change (bpow radix2 (-48)) with (/ 281474976710656) in EC, EC'.
  apply Rabs_le. lra.
Qed.
Example C08_witness : DD2str (mkDate (-104) 12 25 23 59 (fZ 59)) = Some (B " -104-12-25 23:59:59").
Proof. vm_compute. reflexivity. Qed.
(** finding: outside those years the year column is cut and different years share a text *)
Theorem C08_year_cut_refuted : exists y y' t, y <> y' /\
  DD2str (mkDate y 1 1 12 0 (fZ 0)) = Some t /\ DD2str (mkDate y' 1 1 12 0 (fZ 0)) = Some t.
Proof. exists (-10000)%Z, 10000%Z. eexists. split; [lia|]. split; vm_compute; reflexivity. Qed.
Theorem C08_year_100000_refuted : exists y y' t, y <> y' /\ (99999 < y)%Z /\ (0 <= y')%Z /\
  DD2str (mkDate y 1 1 12 0 (fZ 0)) = Some t /\ DD2str (mkDate y' 1 1 12 0 (fZ 0)) = Some t.
Proof. exists 112345%Z, 12345%Z. eexists. split; [lia|]. split; [lia|]. split; [lia|]. split; vm_compute; reflexivity. Qed.

(** C14.  The value split is |d| * (180 or 12)/pi as the code computes it ([rnd] is rounding to double). *)
Theorem C14_rad2strE (d : f64) (flag : bool) (ext : Z) :
  ok d -> Rabs (R64 d) <= 17 -> (0 <= ext <= 5)%Z ->
  let per := fdiv (fZ (if flag then 12 else 180)) M_PI in
  exists t a b c z,
    rad2strE d flag ext = Some t /\
    angle_text (if Rlt_bool (R64 d) 0 then B "-" else B " ")
      (if flag then B "h" else B "°") (if flag then B "m" else B "'") (if flag then B "s" else B """") (Z.to_nat ext) a b c z t /\
    (0 <= a <= 999)%Z /\ (0 <= b <= 59)%Z /\ (0 <= c <= 59)%Z /\ (0 <= z < 10 ^ ext)%Z /\
    Rabs (IZR (sexagesimal (10 ^ ext) a b c z) - rnd (Rabs (R64 d) * R64 per) * IZR (3600 * 10 ^ ext)) <= / 2 + / 1000000.
Proof. apply rad2strE_ok. Qed.
(** the split itself, for every non-negative value that fits an int *)
Theorem C14_split_in_range (d : f64) (ext : Z) :
  ok d -> 0 <= R64 d < 2147483646 -> (0 <= ext <= 5)%Z ->
  exists a b c x z, rad2strE_split d ext = Some (a, b, c, x) /\ R64 x = IZR z /\
  (0 <= a)%Z /\ (0 <= b <= 59)%Z /\ (0 <= c <= 59)%Z /\ (0 <= z < 10 ^ ext)%Z /\
  Rabs (IZR (sexagesimal (10 ^ ext) a b c z) - R64 d * IZR (3600 * 10 ^ ext)) <= / 2 + / 1000000.
Proof.
  intros O Bd Be. destruct (rad2strE_split_ok d ext O Bd Be) as (a & b & c & x & z & E & _ & Ex & Ba & _ & Bb & Bc & Bz & T).
  exists a, b, c, x, z. exact (conj E (conj Ex (conj Ba (conj Bb (conj Bc (conj Bz T)))))).
Qed.
Theorem C14_rad2str2 (d : f64) :
  ok d -> Rabs (R64 d) <= 17 ->
  exists t ta tb a b,
    rad2str2 d = Some t /\ t = (if Rlt_bool (R64 d) 0 then B "-" else B "+") ++ ta ++ B "°" ++ tb ++ B "'" /\
    blank_field 3 a ta /\ digits_field 2 b tb /\ (0 <= a <= 999)%Z /\ (0 <= b <= 59)%Z /\
    Rabs (IZR (a * 60 + b) - rnd (Rabs (R64 d) * R64 (fdiv (fZ 180) M_PI)) * 60) <= / 2 + / 1000000.
Proof. apply rad2str2_ok. Qed.
Theorem C14_split2_in_range (d : f64) : ok d -> 0 <= R64 d < 2147483646 ->
  exists a b, rad2str2_split d = Some (a, b) /\ (0 <= a)%Z /\ (0 <= b <= 59)%Z /\
  Rabs (IZR (a * 60 + b) - R64 d * 60) <= / 2 + / 1000000.
Proof.
  intros O Bd. destruct (rad2str2_split_ok d O Bd) as (a & b & E & Ba & _ & Bb & T). exists a, b. exact (conj E (conj Ba (conj Bb T))).
Qed.
Example C14_witness : rad2strE (lit (-13) 10) false 2 = Some (B "- 74°29'04.25""") /\ rad2strE (lit 26179938 10000000) true 2 = Some (B "  10h00m00.00s")
  /\ rad2str2 (lit (-13) 10) = Some (B "- 74°29'").
Proof. split; [|split]; vm_compute; reflexivity. Qed.
(** finding: beyond 999 degrees the leading digit is cut *)
Theorem C14_wide_angle_refuted : exists d, ok d /\ rad2str2 d = Some (B "+031°19'").
Proof. exists (fZ 18). split; [apply fZ_ok; lia|]. vm_compute. reflexivity. Qed.

Print Assumptions C06_JD2str_partial.
Print Assumptions C06_hour_24_refuted.
Print Assumptions C07_timeStr_partial.
Print Assumptions C07_hour_24_refuted.
Print Assumptions C08_text_shows_fields.
Print Assumptions C08_fields_readable.
Print Assumptions C08_text_identifies_date.
Print Assumptions C08_year_cut_refuted.
Print Assumptions C08_year_100000_refuted.
Print Assumptions C14_rad2strE.
Print Assumptions C14_split_in_range.
Print Assumptions C14_rad2str2.
Print Assumptions C14_split2_in_range.
Print Assumptions C14_wide_angle_refuted.
