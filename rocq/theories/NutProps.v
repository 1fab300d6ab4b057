(** C142: the two nutation series agree; the choice of terms by period does not work. *)
From Coq Require Import ZArith Reals List Lia Lra Bool.
From Flocq Require Import Core.
From Verif Require Import F64 F64R F64E PiBound WaveR GeoModel GeoProof FormModel FormSpec FormProps NutModel.
Import ListNotations.
Open Scope R_scope.

Lemma poly4 t x0 x1 x2 x3 x4 e0 e1 e2 e3 e4 b : Rabs t <= 10 -> Rabs x0 <= e0 -> Rabs x1 <= e1 -> Rabs x2 <= e2 -> Rabs x3 <= e3 -> Rabs x4 <= e4 ->
  e0 + e1 * 10 + e2 * 100 + e3 * 1000 + e4 * 10000 <= b -> Rabs (x0 + x1 * t + x2 * t ^ 2 + x3 * t ^ 3 + x4 * t ^ 4) <= b.
Proof.
  intros T H0 H1 H2 H3 H4 B. apply Rle_trans with (2 := B). assert (P : forall n, Rabs (t ^ n) <= 10 ^ n) by (intros n; rewrite <- RPow_abs; apply pow_incr; split; [apply Rabs_pos|exact T]).
  pose proof (P 2%nat) as P2. pose proof (P 3%nat) as P3. pose proof (P 4%nat) as P4. replace (10 ^ 2) with 100 in P2 by ring. replace (10 ^ 3) with 1000 in P3 by ring. replace (10 ^ 4) with 10000 in P4 by ring.
  repeat apply sum_le; try assumption; apply prod_le; assumption.
Qed.
Ltac phase t x0 x1 x2 x3 x4 e0 e1 e2 e3 e4 :=
  intros T; match goal with |- Rabs ?X <= _ => replace X with (x0 + x1 * t + x2 * t ^ 2 + x3 * t ^ 3 + x4 * t ^ 4) by
    (unfold row_arg, nut_arg, arg_l, arg_l1, arg_F, arg_D, arg_Om; decs; field; apply PI_neq0) end;
  pose proof PI_bounds; apply (poly4 t x0 x1 x2 x3 x4 e0 e1 e2 e3 e4); try assumption; try (apply Rabs_le); lra.
Lemma phase0 t : Rabs t <= 10 -> Rabs (row_arg t ((0, 0, 0, 0, 1), (-172064161, -174666, 33386), (92052331, 9086, 15377))%Z - (nut_arg t (2.1824, -33.75705, 36e-6, -1720, 920)) - 2 * PI * IZR 0) <= 9 / 62500.
Proof. phase t (12504455501 / 18000000000 * PI - 1364 / 625) ((-69628905431) / 6480000000 * PI - (-675141) / 20000) (37361 / 3240000000 * PI - 9 / 250000) (3851 / 324000000000 * PI - 0 / 1) ((-5939) / 64800000000000 * PI - 0 / 1) (19794291 / 500000000000) (4086833 / 1000000000000) (457021 / 2000000000000) (377139 / 10000000000000) (291 / 1000000000000). Qed.
Lemma phase1 t : Rabs t <= 10 -> Rabs (row_arg t ((0, 0, 2, -2, 2), (-13170906, -1675, -13696), (5730336, -3015, -4587))%Z - (nut_arg t (3.5069, 1256.66393, 11e-6, -132, 57)) - 2 * PI * IZR (-1)) <= 117 / 1250000.
Proof. phase t (180839610289 / 162000000000 * PI - 35069 / 10000) (1296027710957 / 3240000000 * PI - 125666393 / 100000) (2729 / 810000000 * PI - 11 / 1000000) (1 / 4500000000 * PI - 0 / 1) ((-2353) / 32400000000000 * PI - 0 / 1) (41093047 / 1000000000000) (1490877 / 2000000000000) (4197033 / 10000000000000) (7053 / 10000000000000) (1153 / 5000000000000). Qed.
Lemma phase2 t : Rabs t <= 10 -> Rabs (row_arg t ((0, 0, 2, 0, 2), (-2276413, -234, 2796), (978459, -485, 1374))%Z - (nut_arg t (1.3375, 16799.4182, -51e-6, -23, 10)) - 2 * PI * IZR 1) <= 3143 / 10000000.
Proof. phase t (425740507 / 1000000000 * PI - 107 / 80) (213896836087 / 40000000 * PI - 83997091 / 5000) ((-5279) / 324000000 * PI - (-51) / 1000000) (1333 / 64800000000 * PI - 0 / 1) ((-2761) / 16200000000000 * PI - 0 / 1) (16408091 / 5000000000000) (110723697 / 5000000000000) (1884949 / 10000000000000) (652721 / 10000000000000) (5409 / 10000000000000). Qed.
Lemma phase3 t : Rabs t <= 10 -> Rabs (row_arg t ((0, 0, 0, 0, 2), (2074554, 207, -698), (-897492, 470, -291))%Z - (nut_arg t (4.3649, -67.5141, 72e-6, 21, -9)) - 2 * PI * IZR 0) <= 1153 / 5000000.
Proof. phase t (12504455501 / 9000000000 * PI - 43649 / 10000) ((-69628905431) / 3240000000 * PI - (-675141) / 10000) (37361 / 1620000000 * PI - 9 / 125000) (3851 / 162000000000 * PI - 0 / 1) ((-5939) / 32400000000000 * PI - 0 / 1) (43645673 / 2000000000000) (40868329 / 5000000000000) (4570209 / 10000000000000) (754277 / 10000000000000) (2909 / 5000000000000). Qed.
Lemma phase4 t : Rabs t <= 10 -> Rabs (row_arg t ((0, 1, 0, 0, 0), (1475877, -3633, 11817), (73871, -184, -1924))%Z - (- nut_arg t (0.04, -628.302, 0, -14, 0)) - 2 * PI * IZR 1) <= 19407 / 5000000.
Proof. phase t ((-177904139) / 12960000000 * PI - (-1) / 25) (1295965810481 / 6480000000 * PI - 314151 / 500) ((-461) / 540000000 * PI - 0 / 1) (17 / 81000000000 * PI - 0 / 1) ((-383) / 21600000000000 * PI - 0 / 1) (31564320593 / 10000000000000) (452768893 / 10000000000000) (27088093 / 10000000000000) (6661 / 10000000000000) (141 / 2500000000000). Qed.
Lemma phase5 t : Rabs t <= 10 -> Rabs (row_arg t ((1, 0, 0, 0, 0), (711159, 73, -872), (-6750, 0, 358))%Z - (nut_arg t (2.36, 8328.691, 0, 7, 0)) - 2 * PI * IZR 0) <= 123317 / 5000000.
Proof. phase t (13496340251 / 18000000000 * PI - 59 / 25) (954397735121 / 360000000 * PI - 8328691 / 1000) (13283 / 270000000 * PI - 0 / 1) (10327 / 129600000000 * PI - 0 / 1) ((-2447) / 6480000000000 * PI - 0 / 1) (44886990713 / 10000000000000) (4299762771 / 10000000000000) (97562669 / 625000000000) (252837 / 1000000000000) (749 / 625000000000). Qed.
Lemma phase6 t : Rabs t <= 10 -> Rabs (row_arg t ((0, 1, 2, -2, 2), (-516821, 1226, -524), (224386, -677, -174))%Z - (nut_arg t (3.46, 1884.966, 0, -5, 2)) - 2 * PI * IZR 0) <= 14521 / 2500000.
Proof. phase t (119077205701 / 108000000000 * PI - 173 / 50) (28800157277 / 48000000 * PI - 942483 / 500) (163 / 64800000 * PI - 0 / 1) (7 / 16200000000 * PI - 0 / 1) ((-1171) / 12960000000000 * PI - 0 / 1) (19268304939 / 5000000000000) (1152314509 / 10000000000000) (39907439 / 5000000000000) (857 / 625000000000) (717 / 2500000000000). Qed.
Lemma phase7 t : Rabs t <= 10 -> Rabs (row_arg t ((0, 0, 2, 0, 1), (-387298, -367, 380), (200728, 18, 318))%Z - (nut_arg t (5.44, 16833.175, 0, -4, 2)) - 2 * PI * IZR 0) <= 5333 / 400000.
Proof. phase t (249270989 / 144000000 * PI - 136 / 25) (1388836654061 / 259200000 * PI - 673327 / 40) ((-90151) / 3240000000 * PI - 0 / 1) (469 / 54000000000 * PI - 0 / 1) ((-1021) / 12960000000000 * PI - 0 / 1) (141451737 / 80000000000) (1352789533 / 5000000000000) (220717513 / 2500000000000) (275583 / 10000000000000) (2501 / 10000000000000). Qed.
Lemma phase8 t : Rabs t <= 10 -> Rabs (row_arg t ((1, 0, 2, 0, 2), (-301461, -36, 816), (129025, -63, 367))%Z - (nut_arg t (3.69, 25128.110, 0, -3, 0)) - 2 * PI * IZR 1) <= 174241 / 10000000.
Proof. phase t (21159669377 / 18000000000 * PI - 369 / 100) (22495853593 / 2812500 * PI - 2512811 / 100) (53303 / 1620000000 * PI - 0 / 1) (4331 / 43200000000 * PI - 0 / 1) ((-1973) / 3600000000000 * PI - 0 / 1) (3089582547 / 1000000000000) (3558789839 / 10000000000000) (1044017757 / 10000000000000) (318109 / 1000000000000) (17391 / 10000000000000). Qed.
Lemma phase9 t : Rabs t <= 10 -> Rabs (row_arg t ((0, -1, 2, -2, 2), (215829, -494, 111), (-95929, 299, 132))%Z - (nut_arg t (3.55, 628.362, 0, 2, 0)) - 2 * PI * IZR (-2)) <= 331 / 200000.
Proof. phase t (366126824053 / 324000000000 * PI - 71 / 20) (1296089611433 / 6480000000 * PI - 314181 / 500) (6841 / 1620000000 * PI - 0 / 1) (1 / 81000000000 * PI - 0 / 1) ((-3557) / 64800000000000 * PI - 0 / 1) (665251061 / 10000000000000) (246776727 / 10000000000000) (133991061 / 10000000000000) (393 / 10000000000000) (1743 / 10000000000000). Qed.

(** one term of each series *)
Lemma wave_near t A A' A2 M M' s s' o p : Rabs t <= 10 -> Rabs s <= 1 -> Rabs o <= 1 -> Rabs (s - s') <= p ->
  Rabs ((A + A' * t) * s + A2 * o - (M + M' * t) * s') <= Rabs (A - M) + Rabs (A' - M') * 10 + Rabs A2 + (Rabs M + Rabs M' * 10) * p.
Proof.
  intros T S O P. replace ((A + A' * t) * s + A2 * o - (M + M' * t) * s') with (((A - M) + (A' - M') * t) * s + A2 * o + (M + M' * t) * (s - s')) by ring.
  replace (Rabs (A - M) + Rabs (A' - M') * 10) with ((Rabs (A - M) + Rabs (A' - M') * 10) * 1) by ring. replace (Rabs A2) with (Rabs A2 * 1) by ring.
  apply sum_le; [apply sum_le|]; (apply prod_le; [|assumption]); try apply Rle_refl; (apply sum_le; [apply Rle_refl|apply prod_le; [apply Rle_refl|exact T]]).
Qed.
Lemma sin_turn a b k p : Rabs (a - b - 2 * PI * IZR k) <= p -> Rabs (sin a - sin b) <= p /\ Rabs (cos a - cos b) <= p.
Proof.
  intros H. set (c := a - 2 * PI * IZR k). replace a with (c + 2 * PI * IZR k) by (unfold c; ring). rewrite sin_Z, cos_Z. split; (apply Rle_trans with (2 := H)).
  - apply Rle_trans with (1 := sin_lip c b). right. f_equal. unfold c. ring.
  - apply Rle_trans with (1 := cos_lip c b). right. f_equal. unfold c. ring.
Qed.
Definition amp_lon (x : nrow) : Z := let '(_, (a, a', a2), _) := x in (Z.abs a + 10 * Z.abs a' + Z.abs a2)%Z.
Definition amp_obl (x : nrow) : Z := let '(_, _, (a, a', a2)) := x in (Z.abs a + 10 * Z.abs a' + Z.abs a2)%Z.
Lemma wave_le t a a' a2 s o : Rabs t <= 10 -> Rabs s <= 1 -> Rabs o <= 1 -> Rabs ((IZR a + IZR a' * t) * s + IZR a2 * o) <= IZR (Z.abs a + 10 * Z.abs a' + Z.abs a2).
Proof.
  intros T S O. rewrite !plus_IZR, mult_IZR, !abs_IZR. replace (Rabs (IZR a) + 10 * Rabs (IZR a') + Rabs (IZR a2)) with ((Rabs (IZR a) + Rabs (IZR a') * 10) * 1 + Rabs (IZR a2) * 1) by ring.
  apply sum_le; (apply prod_le; [|assumption]); [|apply Rle_refl]. apply sum_le; [apply Rle_refl|apply prod_le; [apply Rle_refl|exact T]].
Qed.
Lemma sin1 x : Rabs (sin x) <= 1. Proof. apply Rabs_le. pose proof (SIN_bound x). lra. Qed.
Lemma cos1 x : Rabs (cos x) <= 1. Proof. apply Rabs_le. pose proof (COS_bound x). lra. Qed.
Lemma row_lon_le t x : Rabs t <= 10 -> Rabs (row_lon t x) <= IZR (amp_lon x).
Proof. intros T. destruct x as [[m [[a a'] a2]] b]. unfold row_lon, amp_lon. apply wave_le; [exact T|apply sin1|apply cos1]. Qed.
Lemma row_obl_le t x : Rabs t <= 10 -> Rabs (row_obl t x) <= IZR (amp_obl x).
Proof. intros T. destruct x as [[m b] [[a a'] a2]]. unfold row_obl, amp_obl. apply wave_le; [exact T|apply cos1|apply sin1]. Qed.

(** the loop is a sum over the terms kept *)
Lemma fold_sum zq f l s : fold_left (fun s x => if kept zq x then s + f x else s) l s = s + sum (map f (filter (kept zq) l)).
Proof. revert s. induction l as [|x l IH]; intros s; [cbn; ring|]. cbn [fold_left filter]. rewrite IH. destruct (kept zq x); [cbn [map sum fold_right]; unfold sum; cbn [fold_right]; ring|reflexivity]. Qed.
Lemma nut_sum_eq zq f : nut_sum zq f = sum (map f (filter (kept zq) nuTab)).
Proof. unfold nut_sum. rewrite fold_sum. apply Rplus_0_l. Qed.
Lemma filter_all A (p : A -> bool) l : (forall x, p x = true) -> filter p l = l.
Proof. intros H. induction l as [|x l IH]; [reflexivity|]. cbn. now rewrite H, IH. Qed.
Lemma sum_cons x l : sum (x :: l) = x + sum l.
Proof. reflexivity. Qed.
Lemma sum_app l l' : sum (l ++ l') = sum l + sum l'.
Proof. induction l as [|x l IH]; [unfold sum; cbn; ring|]. unfold sum in *. cbn [app fold_right]. rewrite IH. ring. Qed.
Definition zsum (l : list Z) : Z := fold_right Z.add 0%Z l.
Lemma sum_bound f (amp : nrow -> Z) l : (forall x, Rabs (f x) <= IZR (amp x)) -> Rabs (sum (map f l)) <= IZR (zsum (map amp l)).
Proof. intros H. induction l as [|x l IH]; [unfold sum, zsum; cbn; rewrite Rabs_R0; lra|]. unfold sum, zsum in *. cbn [map fold_right]. rewrite plus_IZR. apply sum_le; [apply H|exact IH]. Qed.
Lemma nut_split f : nut_sum 0 f = sum (map f (firstn 10 nuTab)) + sum (map f (skipn 10 nuTab)).
Proof. rewrite nut_sum_eq, filter_all by reflexivity. rewrite <- sum_app, <- map_app, firstn_skipn. reflexivity. Qed.

Lemma wave_num t A A' A2 M M' s s' o p d d' d2 m m' b : Rabs t <= 10 -> Rabs s <= 1 -> Rabs o <= 1 -> Rabs (s - s') <= p ->
  - d <= A - M <= d -> - d' <= A' - M' <= d' -> - d2 <= A2 <= d2 -> - m <= M <= m -> - m' <= M' <= m' -> d + d' * 10 + d2 + (m + m' * 10) * p <= b ->
  Rabs ((A + A' * t) * s + A2 * o - (M + M' * t) * s') <= b.
Proof.
  intros T S O P B1 B2 B3 B4 B5 B. apply Rle_trans with (1 := wave_near t A A' A2 M M' s s' o p T S O P). apply Rabs_le in B1, B2, B3, B4, B5. pose proof (Rabs_pos (s - s')).
  assert ((Rabs M + Rabs M' * 10) * p <= (m + m' * 10) * p) by (apply Rmult_le_compat_r; lra). lra.
Qed.

Lemma wave_sin t A A' A2 M M' c s' p d d' d2 m m' b : Rabs t <= 10 -> Rabs (sin c - s') <= p ->
  - d <= A - M <= d -> - d' <= A' - M' <= d' -> - d2 <= A2 <= d2 -> - m <= M <= m -> - m' <= M' <= m' -> d + d' * 10 + d2 + (m + m' * 10) * p <= b ->
  Rabs ((A + A' * t) * sin c + A2 * cos c - (M + M' * t) * s') <= b.
Proof. intros T. exact (wave_num t A A' A2 M M' (sin c) s' (cos c) p d d' d2 m m' b T (sin1 c) (cos1 c)). Qed.
Lemma wave_cos t A A' A2 M M' c s' p d d' d2 m m' b : Rabs t <= 10 -> Rabs (cos c - s') <= p ->
  - d <= A - M <= d -> - d' <= A' - M' <= d' -> - d2 <= A2 <= d2 -> - m <= M <= m -> - m' <= M' <= m' -> d + d' * 10 + d2 + (m + m' * 10) * p <= b ->
  Rabs ((A + A' * t) * cos c + A2 * sin c - (M + M' * t) * s') <= b.
Proof. intros T. exact (wave_num t A A' A2 M M' (cos c) s' (sin c) p d d' d2 m m' b T (cos1 c) (sin1 c)). Qed.
Ltac names := rewrite ?sin_neg, ?cos_neg; repeat match goal with |- context [sin ?x] => generalize (sin x); intro | |- context [cos ?x] => generalize (cos x); intro end.
(** The short series nutation2 (here as the formula of C87) and the full series agree within 0.18" in longitude and 0.11" in obliquity, from the year 1000 to 3000. *)
Theorem C142_series t : Rabs t <= 10 -> Rabs (fst (nutation t 0) - nut_lon t) <= arcsec 0.18 /\ Rabs (snd (nutation t 0) - nut_obl t) <= arcsec 0.11.
Proof.
  intros T. pose proof PI_RGT_0 as P.
  assert (SC : forall x y e, Rabs (x - y * 100000) <= e -> Rabs (x / (10000000 * (648000 / PI)) - arcsec (y / 100)) <= arcsec (e / 10000000)).
  { intros x y e H. unfold arcsec. replace (x / (10000000 * (648000 / PI)) - y / 100 * PI / 648000) with ((x - y * 100000) * (PI / 6480000000000)) by (field; lra). replace (e / 10000000 * PI / 648000) with (e * (PI / 6480000000000)) by field.
    rewrite Rabs_mult, (Rabs_pos_eq (PI / _)) by lra. apply Rmult_le_compat_r; lra. }
  pose proof (phase0 t T) as H0. pose proof (phase1 t T) as H1. pose proof (phase2 t T) as H2. pose proof (phase3 t T) as H3. pose proof (phase4 t T) as H4. pose proof (phase5 t T) as H5. pose proof (phase6 t T) as H6. pose proof (phase7 t T) as H7. pose proof (phase8 t T) as H8. pose proof (phase9 t T) as H9.
  apply sin_turn in H0, H1, H2, H3, H4, H5, H6, H7, H8, H9. destruct H0 as [S0 C0], H1 as [S1 C1], H2 as [S2 C2], H3 as [S3 C3], H4 as [S4 C4], H5 as [S5 C5], H6 as [S6 C6], H7 as [S7 C7], H8 as [S8 C8], H9 as [S9 C9].
  split.
  - unfold nutation. cbn [fst]. unfold nut_lon. replace (arcsec 0.18) with (arcsec (1800000 / 10000000)) by (unfold arcsec; lra). apply SC.
    rewrite nut_split. pose proof (sum_bound (row_lon t) amp_lon (skipn 10 nuTab) (fun x => row_lon_le t x T)) as RB.
    change (zsum (map amp_lon (skipn 10 nuTab))) with 1302200%Z in RB. set (rest := sum (map (row_lon t) (skipn 10 nuTab))) in *. clearbody rest.
    replace (2.1824 - 33.75705 * t + 36e-6 * t ^ 2) with (nut_arg t (2.1824, -33.75705, 36e-6, -1720, 920)) by (unfold nut_arg; decs; field).
    cbn [firstn nuTab map sum fold_right]. unfold row_lon. unfold sum, nutation_terms. cbn [map fold_right fst snd].
    pose proof (wave_sin t (-172064161) (-174666) 33386 (-172000000) (-174200) _ _ _ 64161 466 33386 172000000 174200 127226 T S0 ltac:(lra) ltac:(lra) ltac:(lra) ltac:(lra) ltac:(lra) ltac:(lra)) as W0. revert W0.
    pose proof (wave_sin t (-13170906) (-1675) (-13696) (-13200000) 0 _ _ _ 29094 1675 13696 13200000 0 60776 T S1 ltac:(lra) ltac:(lra) ltac:(lra) ltac:(lra) ltac:(lra) ltac:(lra)) as W1. revert W1.
    pose proof (wave_sin t (-2276413) (-234) 2796 (-2300000) 0 _ _ _ 23587 234 2796 2300000 0 29446 T S2 ltac:(lra) ltac:(lra) ltac:(lra) ltac:(lra) ltac:(lra) ltac:(lra)) as W2. revert W2.
    pose proof (wave_sin t 2074554 207 (-698) 2100000 0 _ _ _ 25446 207 698 2100000 0 28699 T S3 ltac:(lra) ltac:(lra) ltac:(lra) ltac:(lra) ltac:(lra) ltac:(lra)) as W3. revert W3.
    pose proof (wave_sin t 1475877 (-3633) 11817 1400000 0 _ _ _ 75877 3633 11817 1400000 0 129458 T S4 ltac:(lra) ltac:(lra) ltac:(lra) ltac:(lra) ltac:(lra) ltac:(lra)) as W4. revert W4.
    pose proof (wave_sin t 711159 73 (-872) 700000 0 _ _ _ 11159 73 872 700000 0 30026 T S5 ltac:(lra) ltac:(lra) ltac:(lra) ltac:(lra) ltac:(lra) ltac:(lra)) as W5. revert W5.
    pose proof (wave_sin t (-516821) 1226 (-524) (-500000) 0 _ _ _ 16821 1226 524 500000 0 32510 T S6 ltac:(lra) ltac:(lra) ltac:(lra) ltac:(lra) ltac:(lra) ltac:(lra)) as W6. revert W6.
    pose proof (wave_sin t (-387298) (-367) 380 (-400000) 0 _ _ _ 12702 367 380 400000 0 22085 T S7 ltac:(lra) ltac:(lra) ltac:(lra) ltac:(lra) ltac:(lra) ltac:(lra)) as W7. revert W7.
    pose proof (wave_sin t (-301461) (-36) 816 (-300000) 0 _ _ _ 1461 36 816 300000 0 7865 T S8 ltac:(lra) ltac:(lra) ltac:(lra) ltac:(lra) ltac:(lra) ltac:(lra)) as W8. revert W8.
    pose proof (wave_sin t 215829 (-494) 111 200000 0 _ _ _ 15829 494 111 200000 0 21211 T S9 ltac:(lra) ltac:(lra) ltac:(lra) ltac:(lra) ltac:(lra) ltac:(lra)) as W9. revert W9.
    clear - RB. names. intros W9 W8 W7 W6 W5 W4 W3 W2 W1 W0. apply Rabs_le_inv in RB, W0, W1, W2, W3, W4, W5, W6, W7, W8, W9. apply Rabs_le. lra.
  - unfold nutation. cbn [snd]. unfold nut_obl. replace (arcsec 0.11) with (arcsec (1100000 / 10000000)) by (unfold arcsec; lra). apply SC.
    rewrite nut_split. pose proof (sum_bound (row_obl t) amp_obl (skipn 10 nuTab) (fun x => row_obl_le t x T)) as RB.
    change (zsum (map amp_obl (skipn 10 nuTab))) with 433755%Z in RB. set (rest := sum (map (row_obl t) (skipn 10 nuTab))) in *. clearbody rest.
    cbn [firstn nuTab map sum fold_right]. unfold row_obl. unfold sum, nutation_terms. cbn [map fold_right fst snd].
    pose proof (wave_cos t 92052331 9086 15377 92000000 0 _ _ _ 52331 9086 15377 92000000 0 171816 T C0 ltac:(lra) ltac:(lra) ltac:(lra) ltac:(lra) ltac:(lra) ltac:(lra)) as W0. revert W0.
    pose proof (wave_cos t 5730336 (-3015) (-4587) 5700000 0 _ _ _ 30336 3015 4587 5700000 0 65607 T C1 ltac:(lra) ltac:(lra) ltac:(lra) ltac:(lra) ltac:(lra) ltac:(lra)) as W1. revert W1.
    pose proof (wave_cos t 978459 (-485) 1374 1000000 0 _ _ _ 21541 485 1374 1000000 0 28080 T C2 ltac:(lra) ltac:(lra) ltac:(lra) ltac:(lra) ltac:(lra) ltac:(lra)) as W2. revert W2.
    pose proof (wave_cos t (-897492) 470 (-291) (-900000) 0 _ _ _ 2508 470 291 900000 0 7707 T C3 ltac:(lra) ltac:(lra) ltac:(lra) ltac:(lra) ltac:(lra) ltac:(lra)) as W3. revert W3.
    pose proof (wave_cos t 73871 (-184) (-1924) 0 0 _ _ _ 73871 184 1924 0 0 77635 T C4 ltac:(lra) ltac:(lra) ltac:(lra) ltac:(lra) ltac:(lra) ltac:(lra)) as W4. revert W4.
    pose proof (wave_cos t (-6750) 0 358 0 0 _ _ _ 6750 0 358 0 0 7108 T C5 ltac:(lra) ltac:(lra) ltac:(lra) ltac:(lra) ltac:(lra) ltac:(lra)) as W5. revert W5.
    pose proof (wave_cos t 224386 (-677) (-174) 200000 0 _ _ _ 24386 677 174 200000 0 32492 T C6 ltac:(lra) ltac:(lra) ltac:(lra) ltac:(lra) ltac:(lra) ltac:(lra)) as W6. revert W6.
    pose proof (wave_cos t 200728 18 318 200000 0 _ _ _ 728 18 318 200000 0 3893 T C7 ltac:(lra) ltac:(lra) ltac:(lra) ltac:(lra) ltac:(lra) ltac:(lra)) as W7. revert W7.
    pose proof (wave_cos t 129025 (-63) 367 0 0 _ _ _ 129025 63 367 0 0 130022 T C8 ltac:(lra) ltac:(lra) ltac:(lra) ltac:(lra) ltac:(lra) ltac:(lra)) as W8. revert W8.
    pose proof (wave_cos t (-95929) 299 132 0 0 _ _ _ 95929 299 132 0 0 99051 T C9 ltac:(lra) ltac:(lra) ltac:(lra) ltac:(lra) ltac:(lra) ltac:(lra)) as W9. revert W9.
    clear - RB. names. intros W9 W8 W7 W6 W5 W4 W3 W2 W1 W0. apply Rabs_le_inv in RB, W0, W1, W2, W3, W4, W5, W6, W7, W8, W9. apply Rabs_le. lra.
Qed.

(** With the doubles of the program: nutation2 as computed *)
Theorem C142_program fsin fcos : good_lib fsin sin -> good_lib fcos cos -> forall t, ok t -> Rabs (R64 t) <= 10 ->
  Rabs (R64 (fst (nutation2 fsin fcos t)) - fst (nutation (R64 t) 0)) <= arcsec 0.1801 /\
  Rabs (R64 (snd (nutation2 fsin fcos t)) - snd (nutation (R64 t) 0)) <= arcsec 0.1101.
Proof.
  intros Gs Gc t O B. destruct (proj1 (C87_formulas fsin fcos Gs Gc) t O ltac:(lra)) as (_ & _ & _ & _ & _ & [_ HL] & [_ HO] & _). destruct (C142_series (R64 t) B) as [L Q].
  assert (E : forall x, arcsec (x + 0.0001) = arcsec x + 0.0001 * PI / 648000) by (intros x; unfold arcsec; field). pose proof PI_bounds as P.
  replace 0.1801 with (0.18 + 0.0001) by lra. replace 0.1101 with (0.11 + 0.0001) by lra. rewrite !E. apply Rabs_le_inv in HL, HO, L, Q. split; apply Rabs_le; lra.
Qed.

(** ** Terms chosen by period *)
(** P days is the period of a term around J2000: t is in centuries of 36525 days *)
Definition is_period (x : nrow) (P : R) : Prop := 0 < P /\ exists w, derivable_pt_lim (fun t => row_arg t x) 0 w /\ Rabs w * P = 2 * PI * 36525.
(** the rate of a term in units of 0.0001 arc seconds a century, and the same with the sign of Om turned as in the code *)
Definition rateZ (x : nrow) : Z := let '((a, b, c, d, e), _, _) := x in (17179159232178 * a + 1295965810481 * b + 17395272628478 * c + 16029616012090 * d - 69628905431 * e)%Z.
Definition codeZ (x : nrow) : Z := let '((a, b, c, d, e), _, _) := x in (17179159232178 * a + 1295965810481 * b + 17395272628478 * c + 16029616012090 * d + 69628905431 * e)%Z.
Lemma arg_rate x : derivable_pt_lim (fun t => row_arg t x) 0 (IZR (rateZ x) / 10000 / (648000 / PI)).
Proof.
  destruct x as [[[[[[a b] c] d] e] ?] ?]. unfold row_arg, rateZ.
  rewrite !minus_IZR, !plus_IZR, !mult_IZR. assert (P := PI_RGT_0).
  set (k0 := IZR a * 485868.249036 + IZR b * 1287104.79305 + IZR c * 335779.526232 + IZR d * 1072260.70369 + IZR e * 450160.398036).
  set (k1 := IZR a * 1717915923.2178 + IZR b * 129596581.0481 + IZR c * 1739527262.8478 + IZR d * 1602961601.2090 - IZR e * 6962890.5431).
  set (k2 := IZR a * 31.8792 - IZR b * 0.5532 - IZR c * 12.7512 - IZR d * 6.3706 + IZR e * 7.4722).
  set (k3 := IZR a * 0.051635 + IZR b * 0.000136 - IZR c * 0.001037 + IZR d * 0.006593 + IZR e * 0.007702).
  set (k4 := - IZR a * 0.00024470 - IZR b * 0.00001149 + IZR c * 0.00000417 - IZR d * 0.00003169 - IZR e * 0.00005939).
  intros eps He.
  assert (L : derivable_pt_lim (fun t => (k1 * t + (k2 + (k3 + k4 * t) * t) * (t * t)) / (648000 / PI)) 0 (k1 / (648000 / PI))).
  { replace (k1 / (648000 / PI)) with (((k1 * 1) + (((0 + ((0 + k4 * 1) * 0 + (k3 + k4 * 0) * 1)) * (0 * 0)) + (k2 + (k3 + k4 * 0) * 0) * (1 * 0 + 0 * 1))) * / (648000 / PI) + (k1 * 0 + (k2 + (k3 + k4 * 0) * 0) * (0 * 0)) * 0) by (field; lra).
    apply (derivable_pt_lim_mult (fun t => k1 * t + (k2 + (k3 + k4 * t) * t) * (t * t)) (fun _ => / (648000 / PI))); [|apply derivable_pt_lim_const].
    apply (derivable_pt_lim_plus (fun t => k1 * t) (fun t => (k2 + (k3 + k4 * t) * t) * (t * t))).
    - replace (k1 * 1) with (0 * 0 + k1 * 1) by ring. apply (derivable_pt_lim_mult (fun _ => k1) (fun t => t)); [apply derivable_pt_lim_const|apply derivable_pt_lim_id].
    - apply (derivable_pt_lim_mult (fun t => k2 + (k3 + k4 * t) * t) (fun t => t * t)); [|apply (derivable_pt_lim_mult (fun t => t) (fun t => t)); apply derivable_pt_lim_id].
      apply (derivable_pt_lim_plus (fun _ => k2) (fun t => (k3 + k4 * t) * t)); [apply derivable_pt_lim_const|]. apply (derivable_pt_lim_mult (fun t => k3 + k4 * t) (fun t => t)); [|apply derivable_pt_lim_id].
      apply (derivable_pt_lim_plus (fun _ => k3) (fun t => k4 * t)); [apply derivable_pt_lim_const|]. replace (k4 * 1) with (0 * 0 + k4 * 1) by ring. apply (derivable_pt_lim_mult (fun _ => k4) (fun t => t)); [apply derivable_pt_lim_const|apply derivable_pt_lim_id]. }
  destruct (L eps He) as [del D]. exists del. intros h N H. specialize (D h N H).
  match goal with |- Rabs ?X < eps => match type of D with Rabs ?Y < eps => replace X with Y end end; [exact D|].
  unfold arg_l, arg_l1, arg_F, arg_D, arg_Om, k1, k2, k3, k4. decs. field. split; [lra|exact N].
Qed.
(** the period of a term *)
Lemma period_of x : rateZ x <> 0%Z -> is_period x (36525 * 1296000 * 10000 / Rabs (IZR (rateZ x))).
Proof.
  intros N. assert (A : 0 < Rabs (IZR (rateZ x))) by (apply Rabs_pos_lt; now apply not_0_IZR). split; [apply Rdiv_lt_0_compat; lra|]. eexists. split; [apply arg_rate|].
  pose proof PI_RGT_0 as P. unfold Rdiv. rewrite !Rabs_mult. rewrite (Rabs_pos_eq (/ 10000)) by lra. rewrite (Rabs_pos_eq (/ (648000 * / PI))); [field; split; lra|]. apply Rlt_le, Rinv_0_lt_compat, Rmult_lt_0_compat; [lra|now apply Rinv_0_lt_compat].
Qed.
Lemma period_unique x P : is_period x P -> P * Rabs (IZR (rateZ x)) = 36525 * 1296000 * 10000.
Proof.
  intros (H & w & D & E). rewrite (uniqueness_limite _ _ _ _ D (arg_rate x)) in E. pose proof PI_RGT_0 as PP. unfold Rdiv in E. rewrite !Rabs_mult in E. rewrite (Rabs_pos_eq (/ 10000)) in E by lra.
  rewrite (Rabs_pos_eq (/ (648000 * / PI))) in E by (apply Rlt_le, Rinv_0_lt_compat, Rmult_lt_0_compat; [lra|now apply Rinv_0_lt_compat]). set (r := Rabs (IZR (rateZ x))) in *. clearbody r.
  apply (Rmult_eq_reg_r (/ 10000 * / (648000 * / PI))); [|apply Rgt_not_eq, Rmult_lt_0_compat; [lra|apply Rinv_0_lt_compat, Rmult_lt_0_compat; [lra|now apply Rinv_0_lt_compat]]].
  transitivity (r * / 10000 * / (648000 * / PI) * P); [ring|]. rewrite E. field. lra.
Qed.
(** what the code keeps, in integers *)
Definition keptZ (zq : Z) (x : nrow) : bool := (0 <? codeZ x)%Z && (zq * codeZ x <=? 473376960000000)%Z.
Lemma kept_eq zq x : (1 <= zq)%Z -> kept zq x = keptZ zq x.
Proof.
  intros Hz. unfold kept, keptZ. destruct (Z.eqb_spec zq 0); [lia|].
  assert (Q : row_q x = 473376960000000 / IZR (codeZ x)).
  { destruct x as [[[[[[a b] c] d] e] ?] ?]. unfold row_q, codeZ. rewrite !plus_IZR, !mult_IZR.
    replace (1717915923.2178 * IZR a + 129596581.0481 * IZR b + 1739527262.8478 * IZR c + 1602961601.2090 * IZR d + 6962890.5431 * IZR e) with ((17179159232178 * IZR a + 1295965810481 * IZR b + 17395272628478 * IZR c + 16029616012090 * IZR d + 69628905431 * IZR e) / 10000) by (decs; field).
    set (u := _ + 69628905431 * IZR e). clearbody u. pose proof PI_RGT_0. unfold Rdiv. rewrite Rinv_mult, Rinv_inv. set (i := / u). clearbody i. field. lra. }
  rewrite Q. set (u := codeZ x). clearbody u. apply IZR_le in Hz. destruct (Z.ltb_spec 0 u) as [U|U]; cbn [andb].
  - apply IZR_lt in U. assert (E : 473376960000000 / IZR u < IZR zq <-> 473376960000000 < IZR zq * IZR u).
    { split; intros H; [apply (Rmult_lt_compat_r (IZR u)) in H; [|lra]; replace (473376960000000 / IZR u * IZR u) with 473376960000000 in H by (field; lra); exact H|].
      apply (Rmult_lt_reg_r (IZR u)); [lra|]. replace (473376960000000 / IZR u * IZR u) with 473376960000000 by (field; lra). exact H. }
    destruct (Z.leb_spec (zq * u) 473376960000000) as [L|L]; [apply IZR_le in L|apply IZR_lt in L]; rewrite mult_IZR in L; destruct (Rlt_dec _ _) as [C|C]; try reflexivity; [apply E in C; lra|contradiction C; now apply E].
  - destruct (Rlt_dec _ _) as [C|C]; [reflexivity|]. contradiction C. apply IZR_le in U. destruct (Req_dec (IZR u) 0) as [->|N]; [unfold Rdiv; rewrite Rinv_0; lra|]. assert (/ IZR u < 0) by (apply Rinv_lt_0_compat; lra). unfold Rdiv. nra.
Qed.

(** No term that is much too short is kept: for every positive zq the period of a term kept is at least zq, up to the 36526 for 36525 in the code. *)
Theorem C142_kept zq x P : (1 <= zq)%Z -> In x nuTab -> kept zq x = true -> is_period x P -> IZR zq * 36525 <= P * 36526.
Proof.
  intros Hz I K HP. rewrite kept_eq in K by exact Hz. unfold keptZ in K. apply andb_true_iff in K as [K1 K2]. apply Z.ltb_lt in K1. apply Z.leb_le in K2.
  assert (A : forallb (fun x => negb (0 <? codeZ x)%Z || (Z.abs (rateZ x) <=? codeZ x)%Z) nuTab = true) by reflexivity. rewrite forallb_forall in A. specialize (A x I). apply orb_true_iff in A as [A|A].
  { apply negb_true_iff, Z.ltb_ge in A. lia. } apply Z.leb_le in A. apply period_unique in HP as E. destruct HP as [P0 _]. rewrite <- abs_IZR in E.
  assert (R0 : 0 < IZR (Z.abs (rateZ x))). { apply IZR_lt. destruct (Z.eq_dec (Z.abs (rateZ x)) 0) as [N|N]; [|lia]. exfalso. rewrite N in E. lra. }
  assert (B : IZR zq * IZR (Z.abs (rateZ x)) <= 473376960000000). { rewrite <- mult_IZR. apply IZR_le. apply Z.le_trans with (zq * codeZ x)%Z; [|exact K2]. apply Z.mul_le_mono_nonneg_l; lia. }
  apply (Rmult_le_reg_r _ _ _ R0). nra.
Qed.

(** Expected besides: every term with a longer period is kept.  False: a term of 411.8 days is never kept, whatever positive zq is given, *)
Theorem C142_lost_refuted : exists x P, In x nuTab /\ is_period x P /\ 411 < P /\ forall zq, (1 <= zq)%Z -> kept zq x = false.
Proof.
  set (x := ((-1, 0, 0, 1, 0), (4026, 0, -353), (-553, 0, -139))%Z). exists x, (36525 * 1296000 * 10000 / Rabs (IZR (rateZ x))). split; [|split; [apply period_of; discriminate|split]].
  - assert (E : nth 68 nuTab x = x) by reflexivity. rewrite <- E. apply nth_In. cbn. lia.
  - change (rateZ x) with (-1149543220088)%Z. rewrite Rabs_left by lra. replace (- -1149543220088) with 1149543220088 by ring. lra.
  - intros zq Hz. rewrite kept_eq by exact Hz. reflexivity.
Qed.
(** the sum over the terms with periods above zq days *)
Definition long (zq : Z) (x : nrow) : bool := if Rlt_dec (IZR zq * Rabs (IZR (rateZ x))) (36525 * 1296000 * 10000) then true else false.
Lemma long_ok zq x P : is_period x P -> (long zq x = true <-> IZR zq < P).
Proof.
  intros HP. apply period_unique in HP as E. destruct HP as [P0 _]. unfold long. rewrite <- E. pose proof (Rabs_pos (IZR (rateZ x))) as A. assert (0 < Rabs (IZR (rateZ x))) by (destruct A as [A|A]; [exact A|rewrite <- A in E; lra]).
  destruct (Rlt_dec _ _) as [L|L]; split; intros H'; try reflexivity; try discriminate; [apply (Rmult_lt_reg_r _ _ _ H L)|contradiction L; now apply Rmult_lt_compat_r].
Qed.
Definition longZ (zq : Z) (x : nrow) : bool := (zq * Z.abs (rateZ x) <? 473364000000000)%Z.
Lemma long_eq zq x : long zq x = longZ zq x.
Proof.
  unfold long, longZ. rewrite <- abs_IZR, <- mult_IZR. replace (36525 * 1296000 * 10000) with 473364000000000 by ring. destruct (Z.ltb_spec (zq * Z.abs (rateZ x)) 473364000000000) as [L|L]; [apply IZR_lt in L|apply IZR_le in L]; destruct (Rlt_dec _ _); try reflexivity; lra.
Qed.
Lemma sum_filter f (p q : nrow -> bool) l : forallb (fun x => implb (p x) (q x)) l = true -> sum (map f (filter q l)) = sum (map f (filter p l)) + sum (map f (filter (fun x => q x && negb (p x)) l)).
Proof.
  unfold sum. induction l as [|x l IH]; [intros _; cbn; ring|]. cbn [forallb filter]. intros H. apply andb_true_iff in H as [H1 H2]. rename IH into IH'. specialize (IH' H2).
  destruct (p x), (q x); cbn [implb andb negb map fold_right] in *; try discriminate; rewrite ?IH'; cbn [map fold_right]; rewrite ?IH'; ring.
Qed.
Definition half_year : nrow := ((0, 0, 2, -2, 2), (-13170906, -1675, -13696), (5730336, -3015, -4587))%Z.
Lemma diff170 : exists l, filter (fun x => longZ 170 x && negb (keptZ 170 x)) nuTab = half_year :: l /\ (zsum (map amp_lon l) <= 300000)%Z.
Proof. eexists. split; [vm_compute; reflexivity|]. apply Z.leb_le. vm_compute. reflexivity. Qed.
Lemma sub170 : forallb (fun x => implb (keptZ 170 x) (longZ 170 x)) nuTab = true.
Proof. vm_compute. reflexivity. Qed.
Lemma half_year_arg : row_arg 0 half_year = - (PI - PI * (75358.441156 / 648000)).
Proof. unfold row_arg, half_year, arg_l, arg_l1, arg_F, arg_D, arg_Om. decs. field. apply PI_neq0. Qed.
Lemma half_year_now : 4000000 + 300000 < row_lon 0 half_year.
Proof.
  pose proof half_year_arg as A. pose proof PI_bounds as P. set (y := PI * (75358.441156 / 648000)) in *.
  assert (S : 0.34 <= sin y). { pose proof (sin_lip (PI / 6) y) as L. rewrite sin_PI6 in L. assert (Rabs (PI / 6 - y) <= 0.16) by (unfold y; apply Rabs_le; decs; lra). apply Rabs_le_inv in H. pose proof (Rle_trans _ _ _ L (Rabs_le _ _ H)) as L'. apply Rabs_le_inv in L'. lra. }
  assert (E : row_lon 0 half_year = (-13170906 + -1675 * 0) * sin (row_arg 0 half_year) + -13696 * cos (row_arg 0 half_year)) by reflexivity.
  rewrite E, A, sin_neg, cos_neg, Rtrigo_facts.sin_pi_minus, Rtrigo_facts.cos_pi_minus. pose proof (COS_bound y). lra.
Qed.
Lemma lon_sum t zq : fst (nutation t zq) = sum (map (row_lon t) (filter (kept zq) nuTab)) / (10000000 * (648000 / PI)).
Proof. unfold nutation. rewrite nut_sum_eq. reflexivity. Qed.
Lemma kept170 : filter (kept 170) nuTab = filter (keptZ 170) nuTab.
Proof. apply filter_ext. intros x. apply kept_eq. lia. Qed.
Lemma long170 : filter (long 170) nuTab = filter (longZ 170) nuTab.
Proof. apply filter_ext. intros x. apply long_eq. Qed.
(** and with zq = 170 the half-yearly term (182.6 days, 1.3") is dropped: at J2000 the longitude is wrong by more than 0.4". *)
Theorem C142_filter_refuted : exists t zq, let want := arcsec (sum (map (row_lon t) (filter (long zq) nuTab)) / 10000000) in arcsec 0.4 < Rabs (fst (nutation t zq) - want).
Proof.
  exists 0, 170%Z. cbv zeta. rewrite lon_sum, kept170, long170, (sum_filter (row_lon 0) (keptZ 170) (longZ 170) nuTab sub170). generalize (sum (map (row_lon 0) (filter (keptZ 170) nuTab))). intros K.
  destruct diff170 as (l & E & Z1). rewrite E. apply IZR_le in Z1. cbn [map]. rewrite sum_cons. pose proof half_year_now as X.
  pose proof (sum_bound (row_lon 0) amp_lon l (fun x => row_lon_le 0 x ltac:(rewrite Rabs_R0; lra))) as RB. revert RB X. generalize (sum (map (row_lon 0) l)) (row_lon 0 half_year). intros r v RB X.
  pose proof PI_bounds as P. apply Rabs_le_inv in RB. unfold arcsec. replace (K / (10000000 * (648000 / PI)) - (K + (v + r)) / 10000000 * PI / 648000) with (- ((v + r) * (PI / 6480000000000))) by (field; lra).
  rewrite Rabs_Ropp, Rabs_pos_eq; [|apply Rmult_le_pos; lra]. replace (0.4 * PI / 648000) with (4000000 * (PI / 6480000000000)) by (decs; field). apply Rmult_lt_compat_r; lra.
Qed.

(** *** Non-vacuity *)
Example C142_example : Rabs 0.2 <= 10 /\ is_period (nth 0 nuTab ((0, 0, 0, 0, 0), (0, 0, 0), (0, 0, 0))%Z) (473364000000000 / 69628905431) /\ kept 6000 (nth 0 nuTab ((0, 0, 0, 0, 0), (0, 0, 0), (0, 0, 0))%Z) = true.
Proof.
  split; [rewrite Rabs_pos_eq; lra|]. split; [|rewrite kept_eq by lia; reflexivity]. set (x := nth 0 nuTab _). pose proof (period_of x ltac:(discriminate)) as H. change (rateZ x) with (-69628905431)%Z in H. rewrite Rabs_left in H by lra.
  replace (36525 * 1296000 * 10000 / - -69628905431) with (473364000000000 / 69628905431) in H by field. exact H.
Qed.

Print Assumptions C142_series.
Print Assumptions C142_program.
Print Assumptions C142_kept.
Print Assumptions C142_lost_refuted.
Print Assumptions C142_filter_refuted.
