(** Theorems about the four pillars (C23). *)
From Coq Require Import ZArith Lia Bool List Reals Lra Ascii String.
From Flocq Require Import Core.
From Verif Require Import F64 F64R F64T Str DecSpec CalModel FmtModel FmtSpec FmtProof FmtProps SsqModel SsqSpec SsqProof SsqProof2 ObTab LunProof PageModel PageProof3 BaziModel BaziSpec BaziProof.
Import ListNotations.
Ltac Zify.zify_post_hook ::= idtac.
Open Scope Z_scope.
Open Scope opt_scope.

Lemma pillar_name v : pillar v = sexagenary v.
Proof. reflexivity. Qed.
Lemma name_period v k : sexagenary (v + 60 * k) = sexagenary v.
Proof. rewrite <- !pillar_name. apply pillar_add. Qed.

Definition hour_text (v SC i : Z) : bytes := (if i =? 0 then [] else B " ") ++ (if i =? SC then red (sexagenary (v + i)) else sexagenary (v + i)).
Fixpoint hour_texts (n : nat) (v SC i : Z) : bytes :=
  match n with O => [] | Datatypes.S n => hour_text v SC i ++ hour_texts n v SC (i + 1) end.
Lemma hour_loop_ok n : forall v SC i JS js, 0 <= v -> 0 <= i -> v + i + Z.of_nat n <= int_max ->
  hour_loop n v SC i JS js = Some (JS ++ hour_texts n v SC i, if (i <=? SC) && (SC <? i + Z.of_nat n) then sexagenary (v + SC) else js).
Proof.
  induction n as [|n IH]; intros v SC i JS js Hv Hi Hm.
  - cbn [hour_loop hour_texts]. rewrite app_nil_r. replace ((i <=? SC) && (SC <? i + Z.of_nat 0)) with false; [reflexivity|].
    symmetry. destruct (Z.leb_spec i SC); [|reflexivity]. apply Z.ltb_ge. lia.
  - cbn [hour_loop hour_texts]. rewrite Nat2Z.inj_succ in *. unfold int_max in *.
    rewrite mk_int_in by (unfold int_min, int_max; lia). cbn [obind]. rewrite gz_ok by lia. cbn [obind]. rewrite pillar_name.
    unfold hour_text. rewrite (Z.eqb_sym i SC). destruct (Z.eqb_spec SC i) as [->|NE].
    + rewrite IH by lia. f_equal. f_equal; [unfold red; rewrite <- !app_assoc; reflexivity|].
      replace (i <=? i) with true by (symmetry; apply Z.leb_le; lia). replace (i <? i + Z.succ (Z.of_nat n)) with true by (symmetry; apply Z.ltb_lt; lia).
      cbn [andb]. destruct ((i + 1 <=? i) && (i <? i + 1 + Z.of_nat n)); reflexivity.
    + rewrite IH by lia. f_equal. f_equal; [rewrite <- !app_assoc; reflexivity|].
      replace ((i + 1 <=? SC) && (SC <? i + 1 + Z.of_nat n)) with ((i <=? SC) && (SC <? i + Z.succ (Z.of_nat n))); [reflexivity|].
      apply eq_true_iff_eq. rewrite !andb_true_iff, !Z.leb_le, !Z.ltb_lt. lia.
Qed.
Lemma hour_texts_list d h k : hour_texts 13 (12 * d + 60 * k) h 0 = spaced (hour_list d h).
Proof.
  assert (E : forall i, hour_text (12 * d + 60 * k) h i = (if i =? 0 then [] else B " ") ++ (if i =? h then red (sexagenary (12 * d + i)) else sexagenary (12 * d + i))).
  { intros i. unfold hour_text. replace (12 * d + 60 * k + i) with (12 * d + i + 60 * k) by lia. rewrite name_period. reflexivity. }
  cbn [hour_texts]. rewrite !E. unfold hour_list. cbn [map seq spaced]. rewrite <- !app_assoc. rewrite app_nil_r. reflexivity.
Qed.

(** For every number k of a jie and every local true solar time in the range (17000 years back, 465000 years forward) the four pillars are
    computed, with no access outside the tables and no int overflow: [d] is the day number counted from 23 h of the evening before (0 = 2000-1-1),
    [h] the double hour of it, both those of the given time up to a microday. *)
Theorem C23_pillars k jd : ok jd -> (-7000000 <= R64 jd <= 170000000)%R -> Z.abs k <= 50000000 ->
  exists b d h, bazi_at k jd = Some b /\ 0 <= h <= 11 /\
    (IZR d + IZR h / 12 - / 1000000 <= R64 jd + 13 / 24 <= IZR d + IZR (h + 1) / 12 + / 1000000)%R /\
    bz_jn b = sexagenary (k / 12) /\ bz_jy b = sexagenary (k + 2) /\ bz_jr b = sexagenary (d - 6) /\ bz_js b = sexagenary (12 * (d - 6) + h) /\
    bz_JS b = spaced (hour_list (d - 6) h) /\
    (exists hh mm ss, time_text hh mm ss (bz_zty b) /\ 0 <= hh <= 24 /\ 0 <= mm <= 59 /\ 0 <= ss <= 59).
Proof.
  intros O Bj Bk. destruct (C07_timeStr_partial jd 28 O ltac:(lia)) as (t & n & hh & mm & ss & ET & TT & Bh & Bm & Bs & _); [lra|change (bpow radix2 28) with 268435456%R; apply Rabs_le; lra|].
  destruct (day_and_hour_ok jd O Bj) as (D & SC & ED & BS & BD & NEAR). unfold bazi_at. rewrite ET. cbn [obind]. rewrite ED. cbn [obind].
  rewrite year_of_jie by lia. cbn [obind]. rewrite gz_ok by (Z.div_mod_to_equations; lia). cbn [obind].
  rewrite (mk_int_in (k + 2)) by (unfold int_min, int_max; lia). cbn [obind].
  rewrite (mk_int_in (k + 2 + 60000000)) by (unfold int_min, int_max; lia). cbn [obind].
  rewrite (gz_ok (k + 2 + 60000000)) by lia. cbn [obind].
  rewrite (mk_int_in (D - 6)) by (unfold int_min, int_max; lia). cbn [obind].
  rewrite (mk_int_in (D - 6 + 9000000)) by (unfold int_min, int_max; lia). cbn [obind].
  rewrite (gz_ok (D - 6 + 9000000)) by lia. cbn [obind].
  rewrite (mk_int_in (D - 1)) by (unfold int_min, int_max; lia). cbn [obind].
  rewrite (mk_int_in ((D - 1) * 12)) by (unfold int_min, int_max; lia). cbn [obind].
  rewrite (mk_int_in ((D - 1) * 12 + 90000000)) by (unfold int_min, int_max; lia). cbn [obind].
  rewrite (mk_int_in ((D - 1) * 12 + 90000000 + SC)) by (unfold int_min, int_max; lia). cbn [obind].
  rewrite (gz_ok ((D - 1) * 12 + 90000000 + SC)) by lia. cbn [obind].
  rewrite mk_int_in by (unfold int_min, int_max; lia). cbn [obind].
  rewrite hour_loop_ok by (unfold int_max; lia). cbn [obind app].
  replace (0 <=? SC) with true by (symmetry; apply Z.leb_le; lia). replace (SC <? 0 + Z.of_nat 13) with true by (symmetry; apply Z.ltb_lt; lia). cbn [andb].
  eexists _, D, SC. split; [reflexivity|]. cbn [bz_zty bz_jn bz_jy bz_jr bz_js bz_JS]. split; [exact BS|]. split; [exact NEAR|].
  rewrite !pillar_name.
  split; [replace (k / 12 + 6000000) with (k / 12 + 60 * 100000) by lia; apply name_period|].
  split; [replace (k + 2 + 60000000) with (k + 2 + 60 * 1000000) by lia; apply name_period|].
  split; [replace (D - 6 + 9000000) with (D - 6 + 60 * 150000) by lia; apply name_period|].
  split; [replace ((D - 1) * 12 + 90000000 + SC - SC + SC) with (12 * (D - 6) + SC + 60 * 1500001) by lia; apply name_period|].
  split; [|exists hh, mm, ss; auto].
  replace ((D - 1) * 12 + 90000000 + SC - SC) with (12 * (D - 6) + 60 * 1500001) by lia. apply hour_texts_list.
Qed.

(** At least a microday away from the changes of the double hour, day and hour are exactly those of the clock. *)
Theorem C23_clock k jd d h : ok jd -> (-7000000 <= R64 jd <= 170000000)%R -> Z.abs k <= 50000000 -> 0 <= h <= 11 ->
  (IZR d + IZR h / 12 + / 1000000 < R64 jd + 13 / 24 < IZR d + IZR (h + 1) / 12 - / 1000000)%R ->
  exists b, bazi_at k jd = Some b /\ bz_jr b = sexagenary (d - 6) /\ bz_js b = sexagenary (12 * (d - 6) + h) /\ bz_JS b = spaced (hour_list (d - 6) h).
Proof.
  intros O Bj Bk Hh HC. destruct (C23_pillars k jd O Bj Bk) as (b & d' & h' & E & Bh & NEAR & _ & _ & ER & ES & EL & _).
  assert (Q : 12 * d + h = 12 * d' + h').
  { rewrite plus_IZR in *. assert (12 * d + h < 12 * d' + h' + 1 /\ 12 * d' + h' < 12 * d + h + 1); [|lia].
    split; apply lt_IZR; rewrite !plus_IZR, !mult_IZR; lra. }
  assert (d = d' /\ h = h') as [-> ->] by lia. exists b. auto.
Qed.

(** One step of the cycle per day, one per double hour. *)
Theorem C23_steps k k' jd jd' d h : ok jd -> ok jd' -> (-7000000 <= R64 jd <= 170000000)%R -> (-7000000 <= R64 jd' <= 170000000)%R ->
  Z.abs k <= 50000000 -> Z.abs k' <= 50000000 -> 0 <= h <= 11 ->
  (IZR d + IZR h / 12 + / 1000000 < R64 jd + 13 / 24 < IZR d + IZR (h + 1) / 12 - / 1000000)%R ->
  exists b n m, bazi_at k jd = Some b /\ bz_jr b = sexagenary n /\ bz_js b = sexagenary m /\
    ((IZR (d + 1) + IZR h / 12 + / 1000000 < R64 jd' + 13 / 24 < IZR (d + 1) + IZR (h + 1) / 12 - / 1000000)%R ->
       exists b', bazi_at k' jd' = Some b' /\ bz_jr b' = sexagenary (n + 1) /\ bz_js b' = sexagenary (m + 12)) /\
    ((IZR d + IZR (h + 1) / 12 + / 1000000 < R64 jd' + 13 / 24 < IZR d + IZR (h + 2) / 12 - / 1000000)%R ->
       exists b', bazi_at k' jd' = Some b' /\ bz_jr b' = sexagenary (if h =? 11 then n + 1 else n) /\ bz_js b' = sexagenary (m + 1)).
Proof.
  intros O O' Bj Bj' Bk Bk' Hh HC. destruct (C23_clock k jd d h O Bj Bk Hh HC) as (b & E & ER & ES & _). exists b, (d - 6), (12 * (d - 6) + h).
  split; [exact E|]. split; [exact ER|]. split; [exact ES|]. split; intros HC'.
  - destruct (C23_clock k' jd' (d + 1) h O' Bj' Bk' Hh HC') as (b' & E' & ER' & ES' & _). exists b'. split; [exact E'|].
    rewrite ER', ES'. split; f_equal; lia.
  - destruct (Z.eqb_spec h 11) as [->|NE].
    + destruct (C23_clock k' jd' (d + 1) 0 O' Bj' Bk' ltac:(lia)) as (b' & E' & ER' & ES' & _).
      { rewrite !plus_IZR in *. lra. }
      exists b'. split; [exact E'|]. rewrite ER', ES'. split; f_equal; lia.
    + destruct (C23_clock k' jd' d (h + 1) O' Bj' Bk' ltac:(lia)) as (b' & E' & ER' & ES' & _).
      { replace (h + 1 + 1) with (h + 2) by lia. exact HC'. }
      exists b'. split; [exact E'|]. rewrite ER', ES'. split; f_equal; lia.
Qed.

(** Five rats: the stem of the hour follows from the stem s of the day (甲 day: the first hour is 甲子), its branch is the double hour.
    Five tigers: the stem of the month follows from the stem of the year (甲 year: the first month is 丙寅). *)
Theorem C23_rules k jd : ok jd -> (-7000000 <= R64 jd <= 170000000)%R -> Z.abs k <= 50000000 ->
  exists b s c y z h, bazi_at k jd = Some b /\ 0 <= h <= 11 /\
    bz_jr b = name s c /\ bz_js b = name (2 * s + h) h /\
    bz_jn b = name y z /\ bz_jy b = name (2 * y + 2 + k mod 12) (2 + k mod 12) /\
    exists l, List.length l = 13%nat /\ nth_error l (Z.to_nat h) = Some (red (bz_js b)) /\ bz_JS b = spaced l.
Proof.
  intros O Bj Bk. destruct (C23_pillars k jd O Bj Bk) as (b & d & h & E & Bh & _ & EN & EY & ER & ES & EL & _).
  exists b, (d - 6), (d - 6), (k / 12), (k / 12), h. split; [exact E|]. split; [exact Bh|]. split; [exact ER|].
  split.
  { rewrite ES. unfold sexagenary, name. f_equal; f_equal; f_equal; Z.div_mod_to_equations; lia. }
  split; [exact EN|]. split.
  { rewrite EY. unfold sexagenary, name. pose proof (Z.div_mod k 12 ltac:(lia)) as DM. set (q := k / 12) in *. set (r := k mod 12) in *. clearbody q r.
    f_equal; f_equal; f_equal; Z.div_mod_to_equations; lia. }
  exists (hour_list (d - 6) h). split; [reflexivity|]. split; [|exact EL]. unfold hour_list.
  rewrite nth_error_map. rewrite (nth_error_nth' (seq 0 13) 0%nat) by (rewrite seq_length; lia). rewrite seq_nth by lia. cbn [option_map Nat.add]. rewrite Z2Nat.id by lia.
  rewrite Z.eqb_refl, ES. reflexivity.
Qed.

(** ** the jie number *)
Lemma pi2_ok : ok pi2 /\ (R64 pi2 = 884279719003555 / 140737488355328)%R.
Proof. apply (lit_val _ 884279719003555 140737488355328); [lia|vm_compute; reflexivity]. Qed.
(** k is the number of jie (longitudes 30 k - 45 - 15 * 360 degrees, k = 0 being the beginning of spring 1984) passed at longitude w,
    up to a millionth of a jie. *)
Theorem C23_jie_count w : ok w -> (Rabs (R64 w) <= 5000000)%R ->
  exists k, jie_count w = Some k /\ Z.abs k <= 20000000 /\
    (IZR k - / 1000000 <= R64 w / R64 pi2 * 12 + 3 / 2 + 180 <= IZR (k + 1) + / 1000000)%R.
Proof.
  intros O Bw. destruct pi2_ok as [Op Vp]. unfold jie_count. rewrite Vp. apply Rabs_le_inv in Bw.
  destruct (fZ_ok 360 ltac:(lia)) as [O1 V1]. destruct (fZ_ok 45 ltac:(lia)) as [O2 V2]. destruct (fZ_ok 5400 ltac:(lia)) as [O3 V3]. destruct (fZ_ok 30 ltac:(lia)) as [O4 V4].
  destruct (fdiv_ok w pi2 O Op) as [Oq Vq]; [rewrite Vp; lra|rewrite Vp; abs_small 1000000%R|]. rewrite Vp in Vq.
  pose proof (rnd_near (R64 w / (884279719003555 / 140737488355328)) 20 ltac:(lia)) as N1. change (bpow radix2 20) with 1048576%R in N1. specialize (N1 ltac:(lra)).
  change (bpow radix2 (20 - 54)) with (/ 17179869184)%R in N1. rewrite <- Vq in N1. set (q := fdiv w pi2) in *. clearbody q.
  destruct (fmul_ok q (fZ 360) Oq O1) as [Om Vm]; [rewrite V1; abs_small 400000000%R|]. rewrite V1 in Vm.
  pose proof (rnd_near (R64 q * 360) 29 ltac:(lia)) as N2. change (bpow radix2 29) with 536870912%R in N2. specialize (N2 ltac:(lra)).
  change (bpow radix2 (29 - 54)) with (/ 33554432)%R in N2. rewrite <- Vm in N2. set (m := fmul q (fZ 360)) in *. clearbody m.
  destruct (fadd_ok m (fZ 45) Om O2) as [Oa Va]; [rewrite V2; abs_small 400000000%R|]. rewrite V2 in Va.
  pose proof (rnd_near (R64 m + 45) 29 ltac:(lia)) as N3. change (bpow radix2 29) with 536870912%R in N3. specialize (N3 ltac:(lra)).
  change (bpow radix2 (29 - 54)) with (/ 33554432)%R in N3. rewrite <- Va in N3. set (a := fadd m (fZ 45)) in *. clearbody a.
  destruct (fadd_ok a (fZ 5400) Oa O3) as [Ob Vb]; [rewrite V3; abs_small 400000000%R|]. rewrite V3 in Vb.
  pose proof (rnd_near (R64 a + 5400) 29 ltac:(lia)) as N4. change (bpow radix2 29) with 536870912%R in N4. specialize (N4 ltac:(lra)).
  change (bpow radix2 (29 - 54)) with (/ 33554432)%R in N4. rewrite <- Vb in N4. set (c := fadd a (fZ 5400)) in *. clearbody c.
  destruct (fdiv_ok c (fZ 30) Ob O4) as [Oe Ve]; [rewrite V4; lra|rewrite V4; abs_small 20000000%R|]. rewrite V4 in Ve.
  pose proof (rnd_near (R64 c / 30) 24 ltac:(lia)) as N5. change (bpow radix2 24) with 16777216%R in N5. specialize (N5 ltac:(lra)).
  change (bpow radix2 (24 - 54)) with (/ 1073741824)%R in N5. rewrite <- Ve in N5. set (e := fdiv c (fZ 30)) in *. clearbody e.
  rewrite int2_ok by exact Oe. set (k := Zfloor (R64 e)). pose proof (Zfloor_lb (R64 e)) as LB. pose proof (Zfloor_ub (R64 e)) as UB. fold k in LB, UB.
  assert (BK : -20000000 <= k <= 20000000).
  { assert (-20000001 < k < 20000001); [|lia]. split; apply lt_IZR; lra. }
  exists k. rewrite mk_int_in by (unfold int_min, int_max; lia). split; [reflexivity|]. split; [lia|]. rewrite plus_IZR. lra.
Qed.

(** The whole function, for any series dt_T, S_aLon and pty_zty2 with finite results in range. *)
Theorem C23_whole dt_T S_aLon pty_zty2 jd J :
  let t := fdiv (fadd jd (dt_T jd)) (fZ 36525) in
  let local := fadd jd (fadd (pty_zty2 t) (fdiv (fdiv J M_PI) (fZ 2))) in
  ok (S_aLon t) -> (Rabs (R64 (S_aLon t)) <= 5000000)%R -> ok local -> (-7000000 <= R64 local <= 170000000)%R ->
  exists b k, mingLiBaZi dt_T S_aLon pty_zty2 jd J = Some b /\ bazi_at k local = Some b /\
    (IZR k - / 1000000 <= R64 (S_aLon t) / R64 pi2 * 12 + 3 / 2 + 180 <= IZR (k + 1) + / 1000000)%R /\
    bz_jn b = sexagenary (k / 12) /\ bz_jy b = sexagenary (k + 2).
Proof.
  cbv zeta. intros OS BS OL BL. destruct (C23_jie_count _ OS BS) as (k & E & Bk & NEAR). unfold mingLiBaZi. rewrite E. cbn [obind].
  destruct (C23_pillars k _ OL BL ltac:(lia)) as (b & d & h & EB & _ & _ & EN & EY & _). exists b, k. auto.
Qed.

(** 2008-8-8 19:30 local time: 戊子 year, 庚申 month (k = 24 * 12 + 6), 庚辰 day, 丙戌 hour. *)
Example C23_witness :
  let jd := fdiv (fZ 50277) (fZ 16) in
  (exists b, bazi_at (24 * 12 + 6) jd = Some b /\ bz_jn b = B "戊子" /\ bz_jy b = B "庚申" /\ bz_jr b = B "庚辰" /\ bz_js b = B "丙戌" /\ bz_zty b = B "19:30:00") /\
  spaced (hour_list 16 10) = B "丙子 丁丑 戊寅 己卯 庚辰 辛巳 壬午 癸未 甲申 乙酉 " ++ red (B "丙戌") ++ B " 丁亥 戊子".
Proof.
  cbv zeta. split; [|vm_compute; reflexivity].
  eexists. split; [vm_compute; reflexivity|]. cbn [bz_jn bz_jy bz_jr bz_js bz_zty]. repeat (split; [vm_compute; reflexivity|]). vm_compute; reflexivity.
Qed.
Example C23_witness_hyps : let jd := fdiv (fZ 50277) (fZ 16) in
  ok jd /\ (IZR 3142 + IZR 10 / 12 + / 1000000 < R64 jd + 13 / 24 < IZR 3142 + IZR (10 + 1) / 12 - / 1000000)%R.
Proof.
  cbv zeta. destruct (lit_val (fdiv (fZ 50277) (fZ 16)) 50277 16) as [O V]; [lia|vm_compute; reflexivity|]. split; [exact O|]. rewrite V. cbn [Z.add Pos.add]. lra.
Qed.

Print Assumptions C23_pillars.
Print Assumptions C23_clock.
Print Assumptions C23_steps.
Print Assumptions C23_rules.
Print Assumptions C23_jie_count.
Print Assumptions C23_whole.
