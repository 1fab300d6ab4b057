(** The lunar year of SSQ::calcY in the era of the series. *)
From Coq Require Import ZArith Reals Lia Lra Bool List.
From Coq Require Import Floats.SpecFloat.
From Flocq Require Import Core IEEE754.BinarySingleNaN.
From Verif Require Import F64 F64R F64T F64E AngModel PiBound ErrExpr SmTab SerModel SerSpec FormModel FormSpec FormProps WaveF WaveR SmModel SmSpec SmLon SmProps SmSun SmNewton SunProps LonProps SmMoon MoonProps IllProps DtSpec QuickR HighR QuickSun QuickMoonR QuickMoon TermDay NewMoon MoonGap.
From Verif Require FmtModel SsqModel SsqSpec SsqProof SsqProof2 SsqProof3 SsqProof4 SsqProof5 SsqProof6 SsqProps.
Import ListNotations.
Open Scope R_scope.

(** Delta T hardly changes in a year *)
Lemma table_modern y : 1941 <= y -> y < 2028 -> Rabs (in_table rows y) <= 73.
Proof.
  intros L U. unfold rows. cbn [in_table next_first first_year].
  repeat match goal with |- context [Rlt_dec y ?b] => destruct (Rlt_dec y b); [first [lra|match goal with |- Rabs (cubic ?c ?t) <= _ => apply Rle_trans with (1 := cubic_abs c t ltac:(apply Rabs_le; lra)); cbn -[IZR]; lra end]|] end; lra.
Qed.
Lemma delta_T_year y y' : 1941 <= y <= 3010 -> 1941 <= y' <= 3010 -> Rabs (y' - y) <= 1.1 -> Rabs (delta_T y' - delta_T y) <= 160.
Proof.
  intros B B' D. revert D. decs. intros D. apply Rabs_le_inv in D.
  assert (PL : Rabs (parabola y' - parabola y) <= 8.2).
  { unfold parabola. replace (-20 + 31 * ((y' - 1820) / 100) ^ 2 - (-20 + 31 * ((y - 1820) / 100) ^ 2)) with ((y' - y) * (31 / 10000 * (y' + y - 3640))) by field. apply Rle_trans with (1.1 * 7.4); [|decs; lra]. apply prod_le; decs; apply Rabs_le; lra. }
  assert (P2 : 114.1 <= parabola 2028 <= 114.2) by (unfold parabola; decs; lra).
  assert (PF : forall z, 2028 <= z <= 2029.1 -> 114 <= parabola z <= 117) by (intros z Hz; revert Hz; unfold parabola; decs; intros Hz; nra).
  revert PL P2 PF. decs. intros PL P2 PF. set (K := parabola 2028 - 726 / 10).
  assert (E1 : forall z, 1941 <= z -> z < 2028 -> delta_T z = in_table rows z) by (intros z _ L; unfold delta_T; destruct (Rlt_dec z 2028); [reflexivity|lra]).
  assert (E2 : forall z, 2028 <= z -> delta_T z = parabola z - (if Rle_dec z 2128 then K * (2128 - z) / 100 else 0)).
  { intros z L. unfold delta_T. destruct (Rlt_dec z 2028); [lra|]. destruct (Rle_dec z 2128); [reflexivity|ring]. }
  assert (E3 : forall z, 2028 <= z <= 2029.1 -> Rabs (delta_T z) <= 80).
  { intros z Hz. revert Hz. decs. intros Hz. rewrite E2 by lra. pose proof (PF z Hz) as Pz. destruct (Rle_dec z 2128); [|lra].
    assert (BK : 41.4 * 0.98 <= K * ((2128 - z) / 100) <= 41.6 * 1) by (decs; split; apply Rmult_le_compat; unfold K; lra). revert BK. unfold Rdiv. rewrite <- Rmult_assoc. decs. intros BK. apply Rabs_le. lra. }
  revert E3. decs. intros E3.
  destruct (Rlt_or_le y 2028) as [L|L]; destruct (Rlt_or_le y' 2028) as [L'|L'].
  - rewrite !E1 by lra. replace 160 with (80 + 80) by ring. apply Rle_trans with (1 := diff_le _ _ _ _ (table_modern y' ltac:(lra) L') (table_modern y ltac:(lra) L)). lra.
  - rewrite (E1 y) by lra. apply Rle_trans with (1 := diff_le _ _ _ _ (E3 y' ltac:(lra)) (table_modern y ltac:(lra) L)). lra.
  - rewrite (E1 y') by lra. apply Rle_trans with (1 := diff_le _ _ _ _ (table_modern y' ltac:(lra) L') (E3 y ltac:(lra))). lra.
  - rewrite !E2 by lra. apply Rabs_le_inv in PL. assert (K1 : 41 <= K <= 42) by (unfold K; lra).
    destruct (Rle_dec y 2128), (Rle_dec y' 2128); apply Rabs_le; nra.
Qed.

(** the lengths of a month, of a month of the Sun and of a year, in civil days *)
Lemma delta_days r y r' y' D : -14800 <= 36525 * r -> 36525 * r <= 364100 -> -14800 <= 36525 * r' -> 36525 * r' <= 364100 -> Rabs (365.2425 * (y - 2000) - 36525 * r) <= 6 -> Rabs (365.2425 * (y' - 2000) - 36525 * r') <= 6 ->
  36525 * (r' - r) = D -> 29 <= D <= 366 -> Rabs (civil r' y' - civil r y - D) <= 0.0019.
Proof.
  intros R1 R2 R3 R4 Y Y' E B. revert Y Y'. decs. intros Y Y'. apply Rabs_le_inv in Y. apply Rabs_le_inv in Y'.
  assert (DT : Rabs (delta_T y' - delta_T y) <= 160) by (apply delta_T_year; decs; try apply Rabs_le; lra). apply Rabs_le_inv in DT.
  unfold civil. decs. apply Rabs_le. lra.
Qed.
Lemma month_days n d d' : (-500 <= n <= 12325)%Z -> moon_of n d -> moon_of (n + 1) d' -> (29 <= d' - d <= 30)%Z.
Proof.
  intros Bn (r & y & E & Br & _ & Y & C) (r' & y' & E' & Br' & _ & Y' & C').
  assert (Bn' : -500 <= IZR n <= 12325) by (split; apply IZR_le; lia).
  pose proof (moon_date n r Br ltac:(lra) E) as M. pose proof (moon_date (n + 1) r' Br' ltac:(rewrite plus_IZR; lra) E') as M'. rewrite plus_IZR in M'.
  revert M M'. decs. intros M M'. apply Rabs_le_inv in M. apply Rabs_le_inv in M'.
  pose proof (lunation r r' n ltac:(decs; apply Rabs_le; lra) ltac:(apply Rabs_le; lra) E E') as L. revert L. decs. intros L.
  pose proof (delta_days r y r' y' (36525 * (r' - r)) ltac:(lra) ltac:(lra) ltac:(lra) ltac:(lra) Y Y' eq_refl ltac:(lra)) as D. revert D. decs. intros D. apply Rabs_le_inv in D.
  assert (L1 : IZR 28 < IZR (d' - d)) by (rewrite minus_IZR; lra). assert (L2 : IZR (d' - d) < IZR 31) by (rewrite minus_IZR; lra).
  apply lt_IZR in L1. apply lt_IZR in L2. lia.
Qed.
Lemma term_days n d d' : (-950 <= n <= 23928)%Z -> term_of n d -> term_of (n + 2) d' -> (29 <= d' - d <= 32)%Z.
Proof.
  intros Bn (r & y & E & Br & _ & Y & C) (r' & y' & E' & Br' & _ & Y' & C').
  assert (Bn' : -950 <= IZR n <= 23928) by (split; apply IZR_le; lia).
  pose proof (term_date n r Br ltac:(lra) E) as M. pose proof (term_date (n + 2) r' Br' ltac:(rewrite plus_IZR; lra) E') as M'. rewrite plus_IZR in M'.
  revert M M' C C'. decs. intros M M' C C'. apply Rabs_le_inv in M. apply Rabs_le_inv in M'.
  pose proof (sun_month r r' n ltac:(apply Rabs_le; lra) ltac:(apply Rabs_le; lra) E E') as L. revert L. decs. intros L.
  pose proof (delta_days r y r' y' (36525 * (r' - r)) ltac:(lra) ltac:(lra) ltac:(lra) ltac:(lra) Y Y' eq_refl ltac:(lra)) as D. revert D. decs. intros D. apply Rabs_le_inv in D.
  assert (L1 : IZR 28 < IZR (d' - d)) by (rewrite minus_IZR; lra). assert (L2 : IZR (d' - d) < IZR 33) by (rewrite minus_IZR; lra).
  apply lt_IZR in L1. apply lt_IZR in L2. lia.
Qed.
Lemma year_days n d d' : (-950 <= n <= 23904)%Z -> term_of n d -> term_of (n + 24) d' -> (d' - d <= 366)%Z.
Proof.
  intros Bn (r & y & E & Br & _ & Y & C) (r' & y' & E' & Br' & _ & Y' & C').
  assert (Bn' : -950 <= IZR n <= 23904) by (split; apply IZR_le; lia).
  pose proof (term_date n r Br ltac:(lra) E) as M. pose proof (term_date (n + 24) r' Br' ltac:(rewrite plus_IZR; lra) E') as M'. rewrite plus_IZR in M'.
  revert M M' C C'. decs. intros M M' C C'. apply Rabs_le_inv in M. apply Rabs_le_inv in M'.
  pose proof (sun_year r r' n ltac:(decs; apply Rabs_le; lra) ltac:(apply Rabs_le; lra) E E') as L. revert L. decs. intros L.
  pose proof (delta_days r y r' y' (36525 * (r' - r)) ltac:(lra) ltac:(lra) ltac:(lra) ltac:(lra) Y Y' eq_refl ltac:(lra)) as D. revert D. decs. intros D. apply Rabs_le_inv in D.
  assert (L2 : IZR (d' - d) < IZR 367) by (rewrite minus_IZR; lra). apply lt_IZR in L2. lia.
Qed.

(** calcY succeeds once the days are found *)
Lemma name_total Dm v : (0 <= v <= 13)%Z -> exists m, SsqModel.month_name Dm v = Some m.
Proof.
  intros Hv. unfold SsqModel.month_name.
  assert (T : forall k, (0 <= k)%Z -> exists m, SsqModel.at_ SsqModel.str_ymc (Z.rem k 12) = Some m).
  { intros k Hk. pose proof (Z.rem_bound_pos k 12 Hk ltac:(lia)) as Bk. unfold SsqModel.at_. destruct (Z.leb_spec 0 (Z.rem k 12)); [|lia].
    destruct (nth_error SsqModel.str_ymc (Z.to_nat (Z.rem k 12))) as [m|] eqn:E; [now exists m|]. apply nth_error_None in E. cbn in E. lia. }
  destruct (T v ltac:(lia)) as [m ->]. destruct (T (v + 1)%Z ltac:(lia)) as [m1 ->]. destruct (T (v + 2)%Z ltac:(lia)) as [m2 ->]. cbn [obind].
  repeat match goal with |- context [if ?b then _ else _] => destruct b end; cbn [obind]; eexists; reflexivity.
Qed.
Lemma in_upto i n : In i (SsqModel.upto n) -> (0 <= i < Z.of_nat n)%Z.
Proof. unfold SsqModel.upto. rewrite in_map_iff. intros (k & <- & Hk). apply in_seq in Hk. lia. Qed.
Lemma calcY_total e jd ZQ pe HS : SsqModel.sui_terms (SsqModel.calc e) jd = Some (ZQ, pe) -> List.length ZQ = 25%nat -> (-800000 <= SsqProof.tab ZQ 0 <= 1000000)%Z ->
  SsqModel.sui_months (SsqModel.calc e) (SsqProof.tab ZQ 0) = Some HS -> List.length HS = 15%nat -> (forall i, (0 <= i < 15)%Z -> (-1000000 <= SsqProof.tab HS i <= 1000000)%Z) -> ~ SsqSpec.old_era (SsqProof.tab ZQ 0) ->
  exists s, SsqModel.calcY (SsqModel.calc e) jd = Some s /\ SsqModel.s_ZQ s = ZQ /\ SsqModel.s_HS s = HS /\ SsqModel.s_pe s = pe /\
    forall i, (0 <= i < 14)%Z -> SsqModel.at_ (SsqModel.s_dx s) i = Some (SsqProof.tab HS (i + 1) - SsqProof.tab HS i)%Z.
Proof.
  intros ET LZ BA EM LH BH NO. unfold SsqModel.calcY. rewrite ET. cbn [obind]. rewrite SsqProof.at_tab by lia. cbn [obind]. rewrite EM. cbn [obind].
  set (A0 := SsqProof.tab ZQ 0) in *.
  destruct (SsqProof5.mapM_ok (fun i => let* a := SsqModel.at_ HS (i + 1) in let* b := SsqModel.at_ HS i in mk_int (a - b)) (fun i v => v = (SsqProof.tab HS (i + 1) - SsqProof.tab HS i)%Z) (SsqModel.upto 14)) as (dx & Ed & _).
  { intros i Hi. apply in_upto in Hi. rewrite !SsqProof.at_tab by lia. cbn [obind]. pose proof (BH i ltac:(lia)). pose proof (BH (i + 1)%Z ltac:(lia)). rewrite mk_int_in by (unfold int_min, int_max; lia). eexists. split; reflexivity. }
  rewrite Ed. cbn [obind]. rewrite mk_int_in by (unfold int_min, int_max; lia). cbn [obind]. rewrite SsqProof5.int2_tropical by lia. cbn [obind].
  assert (Q : (-3000 <= (A0 + 190) * 10000 / 3652422 <= 3000)%Z) by (split; [apply Z.div_le_lower_bound; lia|apply Z.div_le_upper_bound; lia]).
  rewrite mk_int_in by (unfold int_min, int_max; lia). cbn [obind].
  destruct (_ && _) eqn:C; [exfalso; apply NO; apply andb_true_iff in C as [C1 C2]; apply Z.leb_le in C1, C2; unfold SsqSpec.old_era, SsqSpec.sui_year; lia|].
  assert (EL : exists leap, SsqModel.leap_of ZQ HS = Some leap /\ (0 <= leap <= 12)%Z).
  { unfold SsqModel.leap_of. rewrite !SsqProof.at_tab by lia. cbn [obind]. destruct (Z.leb_spec (SsqProof.tab HS 13) (SsqProof.tab ZQ 24)) as [T|T]; [|exists 0%Z; split; [reflexivity|lia]].
    destruct (SsqProof.leap_loop_ok ZQ HS 14 1 LZ LH T ltac:(lia) ltac:(lia)) as (k & E & K & _). exists k. split; [exact E|lia]. }
  destruct EL as (leap & EL & BL). rewrite EL. cbn [obind].
  destruct (SsqProof5.mapM_ok (fun i => let* hs := SsqModel.at_ HS i in let* Dm := mk_int (hs + 2451545) in SsqModel.month_name Dm (SsqModel.month_no leap i)) (fun _ _ => True) (SsqModel.upto 14)) as (ym & En & _).
  { intros i Hi. apply in_upto in Hi. rewrite SsqProof.at_tab by lia. cbn [obind]. pose proof (BH i ltac:(lia)). rewrite mk_int_in by (unfold int_min, int_max; lia). cbn [obind].
    destruct (SsqProof6.month_no_ok leap i ltac:(lia) BL) as (Bm & _). destruct (name_total (SsqProof.tab HS i + 2451545) _ Bm) as [m Em]. exists m. now split. }
  rewrite En. cbn [obind]. eexists. split; [reflexivity|]. cbn [SsqModel.s_ZQ SsqModel.s_HS SsqModel.s_pe SsqModel.s_dx]. repeat (split; [reflexivity|]).
  intros i Hi. apply SsqProof6.mapM_at in Ed as [_ PM]. destruct (PM i i) as (v & Ev & N); [now apply SsqProof5.at_upto|].
  rewrite !SsqProof.at_tab in N by lia. cbn [obind] in N. pose proof (BH i ltac:(lia)). pose proof (BH (i + 1)%Z ltac:(lia)). rewrite mk_int_in in N by (unfold int_min, int_max; lia). now rewrite Ev, N.
Qed.

(** C95: the lunar year that holds a day of the years 1961 to 2993, as SSQ::calcY sets it up: the solar terms are the days on which the Sun reaches every 15
    degrees by its series, from one winter solstice to the next, the months start on the days of successive new moons by the series, the first of them holds the
    solstice, a month has 29 or 30 days, a leap month is set exactly when thirteen months start before the next solstice month, it is the first one without a major
    solar term, and the months are named in their order from the eleventh one *)
Section Lunar.
Variables fsin fcos : f64 -> f64.
Hypothesis Gs : good_lib fsin sin.
Hypothesis Gc : good_lib fcos cos.
Variable XL1 : list (list (list f64)).
Variable XL0 : list (list f64).
Variable rest : list f64.
Hypothesis H1 : nth_error XL1 0 = Some moon_lon_tables.
Hypothesis H0 : nth_error XL0 0 = Some (memory (earth_table rest)).
Hypothesis HR : length rest = 1518%nat.
Variable e : SsqModel.ssq_env.
Hypothesis SQ : series_qi fsin fcos XL0 e.
Hypothesis SS : series_so fsin fcos XL1 XL0 e.

Theorem C95_lunar_year jd : ok jd -> -14000 <= R64 jd <= 363000 ->
  exists s k m, SsqModel.calcY (SsqModel.calc e) jd = Some s /\
    let A := SsqProof.tab (SsqModel.s_ZQ s) in let B := SsqProof.tab (SsqModel.s_HS s) in let leap := SsqModel.s_leap s in
    (forall i, (0 <= i < 25)%Z -> term_of (24 * k + 42 + i) (A i)) /\ (forall i, (0 <= i < 15)%Z -> moon_of (m + i) (B i)) /\
    IZR (A 0%Z) <= R64 jd < IZR (A 24%Z) /\ IZR (B 0%Z) <= R64 jd < IZR (B 14%Z) /\ SsqSpec.natural A B /\
    (forall i, (0 <= i < 14)%Z -> SsqModel.at_ (SsqModel.s_dx s) i = Some (B (i + 1) - B i)%Z) /\
    (~ SsqSpec.thirteen A B -> leap = 0%Z) /\
    (SsqSpec.thirteen A B -> (1 <= leap <= 12)%Z /\ ~ SsqSpec.has_major A B leap /\ forall j, (0 <= j < leap)%Z -> SsqSpec.has_major A B j) /\
    SsqModel.at_ (SsqModel.s_ym s) 0 = SsqModel.at_ SsqProps.cycle 0 /\
    (forall i, (0 <= i < 13)%Z -> exists a b, SsqModel.at_ (SsqModel.s_ym s) i = Some a /\ SsqModel.at_ (SsqModel.s_ym s) (i + 1) = Some b /\
      ((i + 1)%Z = leap -> b = a) /\ ((i + 1)%Z <> leap -> SsqProps.follows a b)).
Proof.
  intros Oj Bj. destruct (C93_terms_of_year fsin fcos Gs Gc XL0 rest H0 HR e SQ jd Oj ltac:(lra)) as (k & ZQ & p0 & p1 & A0 & A24 & ET & LZ & T & _ & _ & EA & EB & BA & BK).
  assert (TT : forall i, (0 <= i < 25)%Z -> term_of (24 * k + 42 + i) (SsqProof.tab ZQ i)).
  { intros i Hi. destruct (T i Hi) as (d & Ed & Td). rewrite SsqProof.at_tab in Ed by lia. injection Ed as <-. exact Td. }
  rewrite SsqProof.at_tab in EA, EB by lia. injection EA as <-. injection EB as <-. clear T.
  revert BK. decs. intros BK.
  assert (Bk : (-40 <= k <= 992)%Z). { assert (L1 : IZR k < 993) by lra. assert (L2 : -41 < IZR k) by lra. apply lt_IZR in L1. apply lt_IZR in L2. lia. }
  assert (Bk' : -40 <= IZR k <= 992) by (split; apply IZR_le; lia).
  pose proof (term_mean (24 * k + 42 + 0) _ ltac:(rewrite !plus_IZR, mult_IZR; lra) (TT 0%Z ltac:(lia))) as MA. rewrite !plus_IZR, mult_IZR in MA. revert MA. decs. intros MA. apply Rabs_le_inv in MA.
  assert (BA0 : (-14400 <= SsqProof.tab ZQ 0 <= 363000)%Z) by (split; apply le_IZR; lra).
  destruct (months_of_year fsin fcos Gs Gc XL1 XL0 rest H1 H0 HR e SS (SsqProof.tab ZQ 0) ltac:(lia)) as (m & HS & b0 & b1 & EM & LH & M & E0 & E1 & Bb & Bm).
  assert (MM : forall i, (0 <= i < 15)%Z -> moon_of (m + i) (SsqProof.tab HS i)).
  { intros i Hi. destruct (M i Hi) as (d & Ed & Td). rewrite SsqProof.at_tab in Ed by lia. injection Ed as <-. exact Td. }
  rewrite SsqProof.at_tab in E0, E1 by lia. injection E0 as <-. injection E1 as <-. clear M.
  assert (Bm' : -33900 <= IZR m <= 12330) by (split; apply IZR_le; lia).
  assert (MD : forall i, (0 <= i < 15)%Z -> Rabs (IZR (SsqProof.tab HS i) - (IZR (m + i) * (295306 * / 10000) + 543 * / 100)) <= 54 * / 10).
  { intros i Hi. assert (0 <= IZR i <= 14) by (split; apply IZR_le; lia). pose proof (moon_mean_day (m + i) _ ltac:(rewrite plus_IZR; lra) (MM i Hi)) as D. revert D. decs. intros D. exact D. }
  assert (Bm2 : (-495 <= m <= 12300)%Z).
  { pose proof (MD 0%Z ltac:(lia)) as D0. pose proof (MD 1%Z ltac:(lia)) as D1. rewrite plus_IZR in D0, D1. apply Rabs_le_inv in D0. apply Rabs_le_inv in D1.
    assert (IZR (SsqProof.tab HS 0) <= IZR (SsqProof.tab ZQ 0) < IZR (SsqProof.tab HS 1)) by (split; [apply IZR_le|apply IZR_lt]; lia). assert (-14400 <= IZR (SsqProof.tab ZQ 0) <= 363000) by (split; apply IZR_le; lia).
    assert (L1 : IZR m < 12301) by lra. assert (L2 : -496 < IZR m) by lra. apply lt_IZR in L1. apply lt_IZR in L2. lia. }
  assert (Bm2' : -495 <= IZR m <= 12300) by (split; apply IZR_le; lia).
  assert (BH : forall i, (0 <= i < 15)%Z -> (-15000 <= SsqProof.tab HS i <= 364000)%Z).
  { intros i Hi. pose proof (MD i Hi) as D. rewrite plus_IZR in D. apply Rabs_le_inv in D. assert (0 <= IZR i <= 14) by (split; apply IZR_le; lia). split; apply le_IZR; lra. }
  assert (N : SsqSpec.natural (SsqProof.tab ZQ) (SsqProof.tab HS)).
  { split; [|split; [|split]].
    - intros i Hi. apply (month_days (m + i)); [lia|apply MM; lia|]. replace (m + i + 1)%Z with (m + (i + 1))%Z by ring. apply MM. lia.
    - intros j Hj. apply (term_days (24 * k + 42 + 2 * j)); [lia|apply TT; lia|]. replace (24 * k + 42 + 2 * j + 2)%Z with (24 * k + 42 + (2 * j + 2))%Z by ring. apply TT. lia.
    - apply (year_days (24 * k + 42 + 0)); [lia|apply TT; lia|]. replace (24 * k + 42 + 0 + 24)%Z with (24 * k + 42 + 24)%Z by ring. apply TT. lia.
    - split; [exact (proj1 Bb)|exact (proj2 Bb)]. }
  assert (NO : ~ SsqSpec.old_era (SsqProof.tab ZQ 0)).
  { unfold SsqSpec.old_era, SsqSpec.sui_year. assert (-40 <= (SsqProof.tab ZQ 0 + 190) * 10000 / 3652422)%Z by (apply Z.div_le_lower_bound; lia). lia. }
  destruct (calcY_total e jd ZQ [p0; p1] HS ET LZ ltac:(lia) EM LH) as (s & Es & EZ & EH & _ & Ex); [intros i Hi; pose proof (BH i Hi); lia|exact NO|].
  exists s, k, m. split; [exact Es|]. cbv zeta. rewrite EZ, EH.
  split; [exact TT|]. split; [exact MM|]. split; [exact BA|]. split.
  { pose proof (SsqProof.B_mono _ _ N 1 14 ltac:(lia) ltac:(lia)) as BM. destruct N as (_ & _ & NY & _).
    assert (I1 : (SsqProof.tab HS 0 <= SsqProof.tab ZQ 0)%Z) by lia. assert (I2 : (SsqProof.tab ZQ 24 <= SsqProof.tab HS 14)%Z) by lia. apply IZR_le in I1. apply IZR_le in I2. lra. }
  split; [exact N|]. split; [exact Ex|].
  assert (NO' : ~ SsqSpec.old_era (SsqProof.tab (SsqModel.s_ZQ s) 0)) by (rewrite EZ; exact NO).
  pose proof (SsqProps.C18_leap_rule _ jd s Es NO') as LR. pose proof (SsqProps.C18_leap_month_is_first_without_major_term _ jd s Es NO') as LM. cbv zeta in LR, LM. rewrite EZ, EH in LR, LM.
  split; [exact (proj1 LR)|]. split; [exact (LM N)|].
  destruct (SsqProps.C20_month_names _ jd s Es NO') as [N0 N1].
  { intros i Hi. rewrite EH. pose proof (BH i ltac:(lia)). unfold SsqSpec.decreed. lia. }
  split; [rewrite N0; reflexivity|exact N1].
Qed.
End Lunar.
Example C95_example : exists fsin fcos XL1 XL0 rest e, good_lib fsin sin /\ good_lib fcos cos /\ nth_error XL1 0 = Some moon_lon_tables /\ nth_error XL0 0 = Some (memory (earth_table rest)) /\ length rest = 1518%nat /\
  series_qi fsin fcos XL0 e /\ series_so fsin fcos XL1 XL0 e /\ ok (fZ 9000) /\ -14000 <= R64 (fZ 9000) <= 363000 /\ ok (fZ (-999000)) /\ -1000000 <= R64 (fZ (-999000)) <= -993862.
Proof.
  destruct good_lib_exists as (fsin & fcos & _ & Gs & Gc & _). set (X := [memory (earth_table (repeat (fZ 0) 1518))]).
  exists fsin, fcos, [moon_lon_tables], X, (repeat (fZ 0) 1518), (SsqModel.mkEnv (fun W => match qi_high fsin fcos X W with Some v => v | None => fZ 0 end) (fun W => match so_high fsin fcos [moon_lon_tables] X W with Some v => v | None => fZ 0 end) (fun x => x) (fun x => x) [] []).
  split; [exact Gs|]. split; [exact Gc|]. split; [reflexivity|]. split; [reflexivity|]. split; [apply repeat_length|]. split; [intros W v E; cbn [SsqModel.qi_high]; rewrite E; reflexivity|].
  split; [intros W v E; cbn [SsqModel.so_high]; rewrite E; reflexivity|].
  destruct (fZ_ok 9000 ltac:(lia)) as [O1 V1]. destruct (fZ_ok (-999000) ltac:(lia)) as [O2 V2]. rewrite V1, V2. repeat split; try assumption; lra.
Qed.
Print Assumptions C94_new_moon.
Print Assumptions C95_lunar_year.
