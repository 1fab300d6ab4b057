(** Proofs about the head and the civil part of the month page. *)
From Coq Require Import ZArith Lia Bool List Reals Lra.
From Flocq Require Import Core.
From Verif Require Import F64 F64R F64T CalModel CalSpec CalZ CalZ2 CalProof CalProof2 CalProof3 SsqModel PageModel.
Import ListNotations.
Ltac Zify.zify_post_hook ::= idtac.
Open Scope Z_scope.
Open Scope opt_scope.

(** number of days of a month and label of its i-th day (from 0) *)
Definition page_len (y m : Z) : Z := if (y =? 1582) && (m =? 10) then 21 else month_len y m.
Definition page_label (y m i : Z) : Z := if (y =? 1582) && (m =? 10) && (4 <=? i) then i + 11 else i + 1.
Definition next_first (y m : Z) : cdate := if m <? 12 then mkc y (m + 1) 1 else mkc (y + 1) 1 1.

Lemma page_len_bounds y m : 21 <= page_len y m <= 31.
Proof. unfold page_len. pose proof (month_len_bounds y m). destruct (_ && _); lia. Qed.
Lemma page_label_real y m i : 1 <= m <= 12 -> 0 <= i < page_len y m -> real_date (mkc y m (page_label y m i)).
Proof.
  intros Hm Hi. unfold real_date, page_len, page_label in *. cbn [cy cm cd] in *. split; [exact Hm|].
  destruct (Z.eqb_spec y 1582) as [->|Ny].
  - destruct (Z.eqb_spec m 10) as [->|Nm]; cbn [andb] in *.
    + change (month_len 1582 10) with 31. destruct (Z.leb_spec 4 i); lia.
    + lia.
  - cbn [andb] in *. lia.
Qed.
Lemma page_label_jdn y m i : 1 <= m <= 12 -> 0 <= i < page_len y m -> jdn (mkc y m (page_label y m i)) = jdn (mkc y m 1) + i.
Proof.
  intros Hm Hi. pose proof (page_len_bounds y m) as PL. unfold page_len, page_label in *. unfold jdn, greg_key. cbn [cy cm cd].
  destruct ((y =? 1582) && (m =? 10)) eqn:E; cbn [andb].
  - apply andb_prop in E. destruct E as [E1 E2]. apply Z.eqb_eq in E1, E2. subst y m. destruct (Z.leb_spec 4 i).
    + destruct (Z.leb_spec 588829 (1582 * 372 + 10 * 31 + (i + 11))); [|lia]. destruct (Z.leb_spec 588829 (1582 * 372 + 10 * 31 + 1)); [lia|].
      vm_compute (10 <=? 2). cbv iota. change (2 - 1582 / 100 + 1582 / 100 / 4) with (-10). lia.
    + destruct (Z.leb_spec 588829 (1582 * 372 + 10 * 31 + (i + 1))); [lia|]. destruct (Z.leb_spec 588829 (1582 * 372 + 10 * 31 + 1)); [lia|]. lia.
  - assert (K : (588829 <=? y * 372 + m * 31 + (i + 1)) = (588829 <=? y * 372 + m * 31 + 1)).
    { apply andb_false_iff in E. rewrite !Z.eqb_neq in E. destruct (Z.leb_spec 588829 (y * 372 + m * 31 + (i + 1))), (Z.leb_spec 588829 (y * 372 + m * 31 + 1)); try reflexivity; lia. }
    rewrite K. lia.
Qed.
Lemma next_first_jdn y m : 1 <= m <= 12 -> real_date (next_first y m) /\ jdn (next_first y m) = jdn (mkc y m 1) + page_len y m.
Proof.
  intros Hm. pose proof (page_len_bounds y m) as PL. pose proof (page_label_real y m (page_len y m - 1) Hm ltac:(lia)) as R.
  pose proof (page_label_jdn y m (page_len y m - 1) Hm ltac:(lia)) as J.
  assert (N : next_day (mkc y m (page_label y m (page_len y m - 1))) = next_first y m).
  { unfold next_day, next_first, page_label, page_len. cbn [cy cm cd].
    destruct ((y =? 1582) && (m =? 10)) eqn:E; cbn [andb].
    - apply andb_prop in E. destruct E as [E1 E2]. apply Z.eqb_eq in E1, E2. subst y m. reflexivity.
    - replace (month_len y m - 1 + 1) with (month_len y m) by lia. rewrite Z.ltb_irrefl. reflexivity. }
  rewrite <- N. split; [now apply next_real|]. rewrite jdn_next by assumption. lia.
Qed.

(** ** first day of a month *)
Lemma tenth_ok : ok (lit 1 10) /\ (/ 20 <= R64 (lit 1 10) <= / 5)%R.
Proof.
  destruct (lit_near 1 10 0 ltac:(lia) ltac:(lia) ltac:(lia) ltac:(lia)) as [O V]. split; [exact O|].
  apply Rabs_le_inv in V. assert (bpow radix2 (0 - 54) <= bpow radix2 (-10))%R by (apply bpow_le; lia).
  change (bpow radix2 (-10)) with (/ 1024)%R in H. lra.
Qed.
Lemma first_day_ok y m : real_date (mkc y m 1) -> date_in_range (mkc y m 1) -> -2000000 <= jdn (mkc y m 1) <= 2140000000 ->
  first_day y m = Some (jdn (mkc y m 1) - 2451545).
Proof.
  intros R RG BJ. unfold first_day. destruct tenth_ok as [O1 B1].
  destruct (toJD_instant (mkDate y m 1 12 0 (lit 1 10)) 31 R RG) as (x & E & Ox & Dx).
  { unfold clock_ok. cbn [h CalModel.m s]. repeat split; try lia; try assumption; lra. }
  { lia. }
  { change (dateof (mkDate y m 1 12 0 (lit 1 10))) with (mkc y m 1). change (2 ^ 31) with 2147483648. lia. }
  rewrite E. cbn [obind]. change (dateof (mkDate y m 1 12 0 (lit 1 10))) with (mkc y m 1) in Dx.
  set (n := jdn (mkc y m 1)) in *. clearbody n.
  unfold instant, clock in Dx. cbn [h CalModel.m s] in Dx. change (31 - 53) with (-22) in Dx. change (bpow radix2 (-22)) with (/ 4194304)%R in Dx.
  rewrite (int2_ok _ Ox).
  assert (F : Zfloor (R64 x) = n).
  { apply Zfloor_eq. apply Rabs_le_inv in Dx. rewrite ?plus_IZR. lra. }
  rewrite F. rewrite mk_int_in by (unfold int_min, int_max; lia). cbn [obind]. unfold J2000. apply mk_int_in. unfold int_min, int_max; lia.
Qed.

(** range of the years: from -4715 to 5772802 *)
Lemma jdn_range y m d : -4716 <= y <= 5772803 -> 1 <= m <= 12 -> 1 <= d <= 31 -> -2000000 <= jdn (mkc y m d) <= 2140000000.
Proof.
  intros Hy Hm Hd. unfold jdn. cbn [cy cm cd]. set (g := greg_key y m d). clearbody g.
  destruct (Z.leb_spec m 2), g; Z.div_mod_to_equations; lia.
Qed.
Lemma page_head_ok y m : 1 <= m <= 12 -> -4715 <= y <= 5772802 ->
  let n := jdn (mkc y m 1) in
  page_head y m = Some (mkHead y m (n - 2451545) (page_len y m) ((n + 1) mod 7)).
Proof.
  intros Hm Hy n. unfold page_head.
  assert (R : real_date (mkc y m 1)).
  { unfold real_date. cbn [cy cm cd]. pose proof (month_len_bounds y m). lia. }
  pose proof (jdn_range y m 1 ltac:(lia) Hm ltac:(lia)) as B. fold n in B.
  rewrite first_day_ok; [|exact R|unfold date_in_range; cbn [cy cm cd]; lia|exact B]. cbn [obind]. fold n.
  rewrite mk_int_in by (unfold int_min, int_max; lia). cbn [obind].
  destruct (next_first_jdn y m Hm) as [R2 J2]. fold n in J2. pose proof (page_len_bounds y m) as PL.
  assert (E : (let* (Y, M) := (if 12 <? m + 1 then let* Y := mk_int (y + 1) in Some (Y, 1) else Some (y, m + 1)) in first_day Y M) =
    Some (n + page_len y m - 2451545)).
  { unfold next_first in *. destruct (Z.ltb_spec 12 (m + 1)) as [L|L].
    - destruct (Z.ltb_spec m 12); [lia|]. rewrite mk_int_in by (unfold int_min, int_max; lia). cbn [obind].
      rewrite <- J2. apply first_day_ok; [exact R2|unfold date_in_range; cbn [cy cm cd]; lia|]. rewrite J2. pose proof (jdn_range (y + 1) 1 1 ltac:(lia) ltac:(lia) ltac:(lia)). lia.
    - destruct (Z.ltb_spec m 12); [|lia]. cbn [obind].
      rewrite <- J2. apply first_day_ok; [exact R2|unfold date_in_range; cbn [cy cm cd]; lia|]. pose proof (jdn_range y (m + 1) 1 ltac:(lia) ltac:(lia) ltac:(lia)). lia. }
  destruct (if 12 <? m + 1 then let* Y := mk_int (y + 1) in Some (Y, 1) else Some (y, m + 1)) as [[Y M]|]; [|discriminate E].
  cbn [obind] in *. rewrite E. cbn [obind].
  replace (n + page_len y m - 2451545 - (n - 2451545)) with (page_len y m) by lia.
  unfold J2000.
  rewrite mk_int_in by (unfold int_min, int_max; lia). cbn [obind].
  rewrite mk_int_in by (unfold int_min, int_max; lia). cbn [obind].
  rewrite mk_int_in by (unfold int_min, int_max; lia). cbn [obind].
  rewrite mk_int_in by (unfold int_min, int_max; lia). cbn [obind].
  do 2 f_equal. rewrite Z.rem_mod_nonneg by lia. rewrite <- (Z.mod_add (n + 1) 1000000 7) by lia. f_equal. lia.
Qed.

Lemma int2_fZ n : int_min <= n <= int_max -> int2 (fZ n) = Some n.
Proof.
  unfold int_min, int_max. intros H. destruct (fZ_ok n ltac:(lia)) as [O V]. rewrite (int2_ok _ O), V, Zfloor_IZR. now apply mk_int_in.
Qed.
Lemma page_civil_ok y m i n w0 : 1 <= m <= 12 -> -4715 <= y <= 5772802 -> n = jdn (mkc y m 1) -> w0 = (n + 1) mod 7 -> 0 <= i < page_len y m ->
  page_civil (mkHead y m (n - 2451545) (page_len y m) w0) i =
  Some (mkCivil (n + i - 2451545) i ((w0 + i) mod 7) ((w0 + i) / 7) ((w0 + page_len y m - 1) / 7 + 1) (page_label y m i)).
Proof.
  intros Hm Hy En Ew Hi. unfold page_civil. cbn [p_d0 p_w0 p_dn p_y p_m].
  pose proof (jdn_range y m 1 ltac:(lia) Hm ltac:(lia)) as B. rewrite <- En in B.
  pose proof (page_len_bounds y m) as PL. assert (W : 0 <= w0 < 7) by (rewrite Ew; apply Z.mod_pos_bound; lia).
  rewrite mk_int_in by (unfold int_min, int_max; lia). cbn [obind].
  rewrite mk_int_in by (unfold int_min, int_max; lia). cbn [obind].
  rewrite Z.quot_div_nonneg, Z.rem_mod_nonneg by lia.
  assert (Q : 0 <= (w0 + i) / 7 <= 10) by (Z.div_mod_to_equations; lia).
  rewrite int2_fZ by (unfold int_min, int_max; lia). cbn [obind].
  rewrite Z.quot_div_nonneg by lia. assert (Q2 : 0 <= (w0 + page_len y m - 1) / 7 <= 10) by (Z.div_mod_to_equations; lia).
  rewrite int2_fZ by (unfold int_min, int_max; lia). cbn [obind]. unfold J2000.
  rewrite mk_int_in by (unfold int_min, int_max; lia). cbn [obind].
  replace (n - 2451545 + i + 2451545) with (n + i) by lia. replace (n - 2451545 + i) with (n + i - 2451545) by lia.
  destruct (fZ_ok (n + i) ltac:(lia)) as [O V].
  destruct (setFromJD_noon (n + i) (fZ (n + i)) O V ltac:(lia)) as (r & E & Er & _). rewrite E. cbn [obind].
  assert (X : cal (n + i) = mkc y m (page_label y m i)).
  { rewrite En, <- (page_label_jdn y m i Hm Hi). apply cal_jdn. now apply page_label_real. }
  rewrite X in Er. unfold dateof in Er. injection Er as _ _ ->. reflexivity.
Qed.
