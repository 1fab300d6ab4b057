(** Property C154: the text of the table of the equation of time. *)
From Coq Require Import ZArith Reals Lia Lra Bool List Ascii String.
From Coq Require Import Floats.SpecFloat.
From Flocq Require Import Core.
From Verif Require Import F64 F64R F64T CalModel CalSpec CalProps Str DecSpec ItoaModel ItoaProof FmtModel FmtSpec FmtProof FmtProps DtoaModel FmModel FmProps YearModel RptModel RptProps EttModel.
Import ListNotations.
Open Scope R_scope.
Open Scope list_scope.

(** ** Specification *)
(** the civil date of the day number n: year, month, day *)
Definition date_of (n : Z) (t : bytes) : Prop := exists y mo d ty tmo td, t = ty ++ B "-" ++ tmo ++ B "-" ++ td /\ day_number n (mkc y mo d) /\ blank_field 5 y ty /\ digits_field 2 mo tmo /\ digits_field 2 d td.
(** a length of time of [v] seconds: sign, whole minutes, and the text of the seconds left, which are less than 60 *)
Definition minutes_text (beyond : Z -> option Z) (v : R) (t : bytes) : Prop := exists f m tf tm, ok m /\ 0 <= R64 m < 60 /\ Rabs v = 60 * IZR f + R64 m /\ int_text f tf /\ to_str_double beyond m 2 0 false = Some tm /\
  t = (if Rlt_dec v 0 then ["-"%char] else []) ++ tf ++ B "m" ++ tm ++ B "s".
(** the row of day n, for the equation of time [x] (days): the seconds are those of x up to the rounding of one product *)
Definition et_row (beyond : Z -> option Z) (n : Z) (x : f64) (t : bytes) : Prop := exists v td tm, Rabs (v - 86400 * R64 x) <= / 100000000 /\ date_of n td /\ minutes_text beyond v tm /\
  t = td ++ B " " ++ ESC :: B "[31m" ++ tm ++ ESC :: B "[0m" ++ NL.

(** ** Proofs *)
Lemma noon_date x n : ok x -> R64 x = IZR n -> (400000 <= n <= 4500000)%Z -> exists t d, JD2str x = Some t /\ substr t 0 11 = Some d /\ date_of n d.
Proof.
  intros O V Bn. assert (BN : 400000 <= IZR n <= 4500000) by (split; apply IZR_le; lia).
  destruct (C06_JD2str_partial x 23 O ltac:(lia)) as (t & n' & y & mo & d & hh & mm & ss & Et & Dt & Dn & Hh & Hm & Hs & H24 & Hi); [lra|change (bpow radix2 23) with 8388608; apply Rabs_le; lra|].
  assert (EN : n' = n).
  { change (bpow radix2 (23 - 52)) with (/ 536870912) in Hi. apply Rabs_le_inv in Hi. rewrite V in Hi. assert (S1 : (0 <= hh * 3600 + mm * 60 + ss <= 86400)%Z) by (destruct (Z.eq_dec hh 24) as [->|]; [destruct (H24 eq_refl); lia|lia]).
    destruct S1 as [S1 S2]. apply IZR_le in S1, S2. assert (A : (n' - 1 < n)%Z) by (apply lt_IZR; rewrite minus_IZR; lra). assert (A2 : (n < n' + 1)%Z) by (apply lt_IZR; rewrite plus_IZR; lra). lia. }
  subst n'. destruct Dt as (ty & tmo & td & th & tm & ts & -> & By & Bm & Bd & _). pose proof By as (kk & dd & _ & _ & Ly). pose proof Bm as (Lm & _). pose proof Bd as (Ld & _).
  eexists. exists (ty ++ B "-" ++ tmo ++ B "-" ++ td). split; [exact Et|]. split.
  - unfold substr. match goal with |- context [(0 <=? len ?s)%Z] => replace (0 <=? len s)%Z with true by (symmetry; apply Z.leb_le; unfold len; lia) end. change ((0 <=? 0)%Z) with true. cbn [andb]. f_equal. change (Z.to_nat 11) with 11%nat. change (Z.to_nat 0) with 0%nat. cbn [skipn].
    replace (ty ++ B "-" ++ tmo ++ B "-" ++ td ++ B " " ++ th ++ B ":" ++ tm ++ B ":" ++ ts) with ((ty ++ B "-" ++ tmo ++ B "-" ++ td) ++ B " " ++ th ++ B ":" ++ tm ++ B ":" ++ ts) by (rewrite <- !app_assoc; reflexivity).
    set (p := ty ++ B "-" ++ tmo ++ B "-" ++ td). assert (L : List.length p = 11%nat) by (unfold p; rewrite !app_length, Ly, Lm, Ld; reflexivity). rewrite firstn_app, L, Nat.sub_diag, firstn_O, app_nil_r, <- L. apply firstn_all.
  - exists y, mo, d, ty, tmo, td. split; [reflexivity|]. split; [exact Dn|]. split; [exact By|]. split; [exact Bm|exact Bd].
Qed.
Lemma seconds_ok x : ok x -> Rabs (R64 x) <= 1 -> ok (fmul x (fZ 86400)) /\ Rabs (R64 (fmul x (fZ 86400)) - 86400 * R64 x) <= / 100000000.
Proof.
  intros O B. destruct (fZ_ok 86400 ltac:(lia)) as [OZ EZ]. apply Rabs_le_inv in B. assert (S : Rabs (R64 x * R64 (fZ 86400)) <= bpow radix2 17) by (rewrite EZ; change (bpow radix2 17) with 131072; apply Rabs_le; lra).
  destruct (fmul_ok x _ O OZ) as [Om Em]; [eapply Rle_trans; [exact S|apply bpow_le; lia]|]. split; [exact Om|]. rewrite Em. pose proof (rnd_err _ 17 ltac:(lia) S) as R1. change (bpow radix2 (17 - 54)) with (/ 137438953472) in R1. rewrite EZ in *.
  apply Rabs_le_inv in R1. apply Rabs_le. lra.
Qed.
Section Lib.
Variables (beyond : Z -> option Z) (value : f64 -> Z -> option f64).
Hypothesis HB : forall i, (10 <= i <= 16)%Z -> beyond i <> None.

Lemma line_ok jd n i x : ok jd -> R64 jd = IZR n -> (400000 <= n <= 4400000)%Z -> (0 <= i <= 400)%Z -> value jd i = Some x -> ok x -> Rabs (R64 x) <= 1 ->
  exists t, et_line beyond value jd i = Some t /\ et_row beyond (n + i) x t.
Proof.
  intros O V Bn Bi E Ox Bx. unfold et_line. rewrite E. cbn [obind]. destruct (fZ_ok i ltac:(lia)) as [Oi Ei].
  assert (S : ok (fadd jd (fZ i)) /\ R64 (fadd jd (fZ i)) = IZR (n + i)).
  { assert (BS : Rabs (R64 jd + R64 (fZ i)) <= bpow radix2 23). { rewrite V, Ei, <- plus_IZR, <- abs_IZR. change (bpow radix2 23) with (IZR 8388608). apply IZR_le. lia. }
    destruct (fadd_ok jd _ O Oi) as [Os Es]; [eapply Rle_trans; [exact BS|apply bpow_le; lia]|]. split; [exact Os|]. rewrite Es, V, Ei, <- plus_IZR. apply rnd_IZR. lia. }
  destruct S as [Os Vs]. destruct (noon_date _ _ Os Vs ltac:(lia)) as (t & d & -> & Ed & Dd). cbn [obind]. rewrite Ed. cbn [obind].
  destruct (seconds_ok x Ox Bx) as [Om Em]. set (v := fmul x (fZ 86400)) in *. clearbody v. apply Rabs_le_inv in Bx. pose proof (Rabs_le_inv _ _ Em) as Em'.
  assert (BV : Rabs (R64 v) < 2147483700) by (apply Rabs_def1; lra).
  destruct (C121_minutes_seconds beyond v 2 2 (B "m") (B "s") HB Om BV ltac:(lia)) as (f & m & tf & tm & Omm & Bm & EV & Tf & Tm & ->); [right; right; repeat split|]. cbn [obind].
  eexists. split; [reflexivity|]. exists (R64 v), d. eexists. split; [exact Em|]. split; [exact Dd|]. split; [|reflexivity]. exists f, m, tf, tm. split; [exact Omm|]. split; [exact Bm|]. split; [exact EV|]. split; [exact Tf|]. split; [exact Tm|reflexivity].
Qed.
Lemma lines_ok jd n : ok jd -> R64 jd = IZR n -> (400000 <= n <= 4400000)%Z -> forall k i s, (0 <= i)%Z -> (i + Z.of_nat k <= 400)%Z ->
  (forall l, (i <= l < i + Z.of_nat k)%Z -> exists x, value jd l = Some x /\ ok x /\ Rabs (R64 x) <= 1) ->
  exists rows, et_lines beyond value jd k i s = Some (s ++ List.concat rows) /\ List.length rows = k /\
    forall l, (l < k)%nat -> exists x t, value jd (i + Z.of_nat l) = Some x /\ nth_error rows l = Some t /\ et_row beyond (n + i + Z.of_nat l) x t.
Proof.
  intros O V Bn. induction k as [|k IH]; intros i s Hi Hk H.
  - exists []. cbn [et_lines List.concat]. rewrite app_nil_r. repeat split. intros l Hl. lia.
  - destruct (H i ltac:(lia)) as (x & Ex & Ox & Bx). destruct (line_ok jd n i x O V Bn ltac:(lia) Ex Ox Bx) as (t & Et & Rt).
    destruct (IH (i + 1)%Z (s ++ t) ltac:(lia) ltac:(lia)) as (rows & Er & Lr & Tr); [intros l Hl; apply H; lia|].
    exists (t :: rows). cbn [et_lines List.concat]. rewrite Et. cbn [obind]. rewrite Er. split; [now rewrite <- app_assoc|]. split; [cbn; now rewrite Lr|].
    intros [|l] Hl.
    + exists x, t. cbn [nth_error]. change (Z.of_nat 0) with 0%Z. rewrite !Z.add_0_r. repeat split; assumption.
    + destruct (Tr l ltac:(lia)) as (x' & t' & E1 & E2 & E3). exists x', t'. cbn [nth_error]. replace (i + Z.of_nat (S l))%Z with (i + 1 + Z.of_nat l)%Z by lia. replace (n + i + Z.of_nat (S l))%Z with (n + (i + 1) + Z.of_nat l)%Z by lia. repeat split; assumption.
Qed.
(** C154: 368 rows, row i for the day i days after 1 January of the year with its date, and the equation of time of that row in minutes and seconds *)
Theorem C154_table y n : day_number n (mkc y 1 1) -> (500000 <= n <= 4400000)%Z -> (-4716 < y)%Z ->
  exists jd, toJD (mkDate y 1 1 12 0 (fZ 0)) = Some jd /\ ok jd /\ R64 jd = IZR n /\
  ((forall i, (0 <= i < 368)%Z -> exists x, value jd i = Some x /\ ok x /\ Rabs (R64 x) <= 1) ->
   exists rows, et_text beyond value y = Some (B "太阳时差表(所用时间为北京时间每日12点)" ++ NL ++ List.concat rows) /\ List.length rows = 368%nat /\
   forall i, (i < 368)%nat -> exists x t, value jd (Z.of_nat i) = Some x /\ nth_error rows i = Some t /\ et_row beyond (n + Z.of_nat i) x t).
Proof.
  intros DN Bn By. destruct (year_bound n _ DN ltac:(lia)) as ([_ Y5] & _). cbn [cy] in Y5.
  destruct (C01_toJD_counts_days n (mkc y 1 1) DN ltac:(cbn [cy]; lia)) as (j & Ej & Oj & Vj); [left; exact By|]. cbn [cy cm cd] in Ej.
  exists j. split; [exact Ej|]. split; [exact Oj|]. split; [exact Vj|]. intros H. unfold et_text. rewrite Ej. cbn [obind].
  destruct (lines_ok j n Oj Vj ltac:(lia) 368 0 [] ltac:(lia) ltac:(lia)) as (rows & Er & Lr & Tr); [intros l Hl; apply H; lia|]. rewrite Er. cbn [obind app].
  exists rows. split; [reflexivity|]. split; [exact Lr|]. intros i Hi. destruct (Tr i Hi) as (x & t & E1 & E2 & E3). exists x, t. rewrite Z.add_0_r in E3. repeat split; assumption.
Qed.
End Lib.
From Verif Require CalZ2 F64E StProof SerSpec SmModel EtModel EtProps.
Lemma nth_seq_lt k : forall n s, (k < n)%nat -> nth_error (seq s n) k = Some (s + k)%nat.
Proof. induction k as [|k IH]; intros [|n] s H; try lia; cbn [seq nth_error]; [f_equal; lia|rewrite IH by lia; f_equal; lia]. Qed.
(** C154 with the numbers of pty_zty: the numbers exist, so the text does; they are those of C143_table, at most 26 minutes *)
Theorem C154_equation_of_time (beyond : Z -> option Z) (fsin fcos ftan fasin : f64 -> f64) (fatan2 : f64 -> f64 -> f64) (XL0 : list (list f64)) (rest : list f64) :
  (forall i, (10 <= i <= 16)%Z -> beyond i <> None) ->
  F64E.good_lib fsin sin -> F64E.good_lib fcos cos -> StProof.close_on ftan tan -> StProof.close_atan2 fatan2 ->
  nth_error XL0 0 = Some (SerSpec.memory (SmModel.earth_table rest)) -> List.length rest = 1518%nat ->
  forall y n, day_number n (mkc y 1 1) -> (-4716 < y <= 5000)%Z -> (Z.abs (n - 2451545) <= 999000)%Z ->
  exists l rows, EtModel.shengjiang3 fsin fcos ftan fasin fatan2 XL0 y = Some l /\
    et_text beyond (EtModel.row_value fsin fcos ftan fasin fatan2 XL0) y = Some (B "太阳时差表(所用时间为北京时间每日12点)" ++ NL ++ List.concat rows) /\ List.length rows = 368%nat /\
    forall i, (i < 368)%nat -> exists x t, nth_error l i = Some (Some x) /\ Rabs (R64 x) <= 0.0175 /\ nth_error rows i = Some t /\ et_row beyond (n + Z.of_nat i) x t.
Proof.
  intros HB Gs Gc Gt G2 H0 HR y n DN Y Hn.
  destruct (EtProps.C143_table fsin fcos ftan fasin fatan2 Gs Gc Gt G2 XL0 rest H0 HR y n DN Y Hn) as (l & El & Ll & Hl).
  destruct (C154_table beyond (EtModel.row_value fsin fcos ftan fasin fatan2 XL0) HB y n DN ltac:(lia) ltac:(lia)) as (jd & Ej & Oj & Vj & H).
  assert (NL : forall i, (i < 368)%nat -> nth_error l i = Some (EtModel.row_value fsin fcos ftan fasin fatan2 XL0 jd (Z.of_nat i))).
  { intros i Hi. unfold EtModel.shengjiang3 in El. rewrite Ej in El. cbn [obind] in El. assert (E : l = map (fun i => EtModel.row_value fsin fcos ftan fasin fatan2 XL0 jd (Z.of_nat i)) (seq 0 368)) by congruence. rewrite E, nth_error_map, nth_seq_lt by exact Hi. reflexivity. }
  destruct H as (rows & Er & Lr & Tr).
  { intros i Hi. destruct (Hl (Z.to_nat i) ltac:(lia)) as (dt & x & s & En & Ox & Bx & _). rewrite NL in En by lia. rewrite Z2Nat.id in En by lia. exists x. split; [congruence|]. split; [exact Ox|lra]. }
  exists l, rows. split; [exact El|]. split; [exact Er|]. split; [exact Lr|]. intros i Hi. destruct (Tr i Hi) as (x & t & E1 & E2 & E3). exists x, t.
  destruct (Hl i Hi) as (dt & x' & s & En & Ox & Bx & _). rewrite NL in * by exact Hi. assert (x' = x) by congruence. subst x'. split; [congruence|]. split; [exact Bx|]. split; assumption.
Qed.
(** the hypotheses can be met: the year 2000, all values -1/64 day; those of C154_equation_of_time on the library by EtProps.C143_example *)
Example C154_example : let beyond := fun _ : Z => Some 0%Z in let value := fun (_ : f64) (_ : Z) => Some (S754_finite true 4503599627370496 (-58)) in
  (forall i, (10 <= i <= 16)%Z -> beyond i <> None) /\ day_number 2451545 (mkc 2000 1 1) /\ (forall jd i, exists x, value jd i = Some x /\ ok x /\ Rabs (R64 x) <= 1).
Proof.
  cbv zeta. split; [discriminate|]. split; [apply CalZ2.day_number_iff; split; [repeat split; try (cbn; lia); vm_compute; congruence|vm_compute; reflexivity]|]. intros _ _. eexists. split; [reflexivity|]. split; [split; vm_compute; reflexivity|].
  unfold R64, BinarySingleNaN.SF2R, F2R. cbn. apply Rabs_le. lra.
Qed.
Print Assumptions C154_table.
Print Assumptions C154_equation_of_time.
