(** Whole-function results for setFromJD and toJD. *)
From Coq Require Import ZArith Reals Lia Lra Bool List.
From Coq Require Import Floats.SpecFloat.
From Flocq Require Import Core IEEE754.BinarySingleNaN.
From Verif Require Import F64 F64R F64T CalModel CalSpec CalZ CalZ2 CalProof.
Open Scope R_scope.
Ltac Zify.zify_post_hook ::= idtac.

Definition dateof (r : Date) : cdate := mkc (Y r) (M r) (D r).

(** seconds since midnight denoted by the clock fields *)
Definition clock (r : Date) : R := IZR (h r) * 3600 + IZR (m r) * 60 + R64 (s r).

Lemma setFromJD_ok jd : ok jd -> (-2147483648 <= Zfloor (half_up jd) <= 2147430000)%Z -> Rabs (R64 jd) <= bpow radix2 32 ->
  exists r, setFromJD jd = Some r /\ dateof r = cal (Zfloor (half_up jd)) /\
    (0 <= h r < 24)%Z /\ (0 <= m r < 60)%Z /\ ok (s r) /\ 0 <= R64 (s r) < 60 /\
    Rabs (clock r - (half_up jd - IZR (Zfloor (half_up jd))) * 86400) <= bpow radix2 (-34).
Proof.
  intros O B A. unfold setFromJD. destruct (add_half_ok jd O A) as [O1 E1].
  set (x := fadd jd (lit 5 10)) in *. set (n := Zfloor (half_up jd)) in *.
  rewrite int2_ok by easy. rewrite E1. fold n. rewrite mk_int_in by (unfold int_min, int_max; lia). cbn [obind].
  assert (L : IZR n <= half_up jd) by apply Zfloor_lb. assert (U : half_up jd < IZR n + 1) by apply Zfloor_ub.
  destruct (fZ_ok n) as [O2 E2]; [lia|].
  destruct (fsub_ok x (fZ n)) as [O3 E3]; try assumption.
  { rewrite E1, E2. apply Rabs_small with 1; [apply Rabs_le; lra | small]. }
  rewrite E1, E2 in E3. rewrite (rnd_repr (half_up jd - IZR n)) in E3 by now apply half_up_frac.
  assert (I : in_int n = true) by (unfold in_int, int_min, int_max; lia).
  rewrite sfj_greg_ok by easy.
  assert (G : (n <= cal_greg n <= n + 50000)%Z).
  { unfold cal_greg. destruct (Z.leb_spec 2299161 n) as [K|K]; [|lia]. cbv zeta.
    set (c := ((4 * n - 7468865) / 146097)%Z).
    assert (Bc : (0 <= c <= 60000)%Z) by (unfold c; split; [apply Z.div_pos; lia | apply Z.div_le_upper_bound; lia]).
    assert (Bq : (4 * (c / 4) <= c < 4 * (c / 4) + 4)%Z).
    { pose proof (Z.div_mod c 4). pose proof (Z.mod_pos_bound c 4). lia. }
    lia. }
  rewrite mk_int_in by (unfold int_min, int_max; lia). cbn [obind].
  rewrite sfj_ymd_ok by (unfold in_int, int_min, int_max; lia).
  replace (in_int (cal_greg n + 1524)) with true by (unfold in_int, int_min, int_max; lia).
  cbn [obind ymd].
  destruct (sfj_hms_ok (fsub x (fZ n)) O3 ltac:(rewrite E3; lra)) as (hh & mi & ss & -> & Bh & Bm & Os & Bs & K).
  cbn [obind]. eexists. split; [reflexivity|]. unfold dateof, clock. cbn [Y M D h m s].
  repeat split; try lia; try apply Os; try lra.
  - fold (cal n). now destruct (cal n).
  - now rewrite E3 in K.
Qed.

(** ** toJD *)

Definition date_in_range (c : cdate) : Prop :=
  (cy c <= 5772803)%Z /\ ((-4716 < cy c)%Z \/ (cy c = -4716 /\ 3 <= cm c)%Z).

Lemma add_ZZ x y a b : ok x -> ok y -> R64 x = IZR a -> R64 y = IZR b -> (Z.abs (a + b) <= 2 ^ 53)%Z ->
  ok (fadd x y) /\ R64 (fadd x y) = IZR (a + b).
Proof.
  intros Ox Oy Ex Ey H.
  assert (B : - IZR (2 ^ 53) <= IZR (a + b) <= IZR (2 ^ 53)) by (apply IZR_abs; lia).
  destruct (fadd_ok x y) as [O E]; try assumption.
  { rewrite Ex, Ey, <- plus_IZR. apply Rabs_small with (IZR (2 ^ 53)); [apply Rabs_le; lra | small]. }
  split; [assumption|]. rewrite E, Ex, Ey, <- plus_IZR. now apply rnd_IZR.
Qed.
Lemma sub_ZZ x y a b : ok x -> ok y -> R64 x = IZR a -> R64 y = IZR b -> (Z.abs (a - b) <= 2 ^ 53)%Z ->
  ok (fsub x y) /\ R64 (fsub x y) = IZR (a - b).
Proof.
  intros Ox Oy Ex Ey H.
  assert (B : - IZR (2 ^ 53) <= IZR (a - b) <= IZR (2 ^ 53)) by (apply IZR_abs; lia).
  destruct (fsub_ok x y) as [O E]; try assumption.
  { rewrite Ex, Ey, <- minus_IZR. apply Rabs_small with (IZR (2 ^ 53)); [apply Rabs_le; lra | small]. }
  split; [assumption|]. rewrite E, Ex, Ey, <- minus_IZR. now apply rnd_IZR.
Qed.

Lemma toJD_ym_ok c : (Z.abs (cy c) <= 2 ^ 32)%Z -> (1 <= cm c <= 12)%Z ->
  exists y mm, toJD_ym (fZ (cy c)) (fZ (cm c)) = (y, mm) /\ ok y /\ ok mm /\ R64 y = IZR (sy c) /\ R64 mm = IZR (sm c).
Proof.
  intros By Bm. unfold toJD_ym.
  destruct (fZ_ok (cy c)) as [O1 E1]; [lia|]. destruct (fZ_ok (cm c)) as [O2 E2]; [lia|].
  destruct (fZ_ok 2) as [O3 E3]; [lia|]. destruct (fZ_ok 1) as [O4 E4]; [lia|]. destruct (fZ_ok 12) as [O5 E5]; [lia|].
  rewrite fleb_ok by easy. rewrite E2, E3. unfold sy, sm.
  destruct (Z.leb_spec (cm c) 2) as [L|L].
  - rewrite Rle_bool_true by (apply IZR_le; lia).
    destruct (sub_ZZ _ _ _ _ O1 O4 E1 E4 ltac:(lia)). destruct (add_ZZ _ _ _ _ O2 O5 E2 E5 ltac:(lia)).
    eexists _, _; repeat split; try eassumption; try apply H; try apply H1.
  - rewrite Rle_bool_false by (apply IZR_lt; lia).
    eexists _, _; repeat split; try eassumption; try apply O1; try apply O2.
Qed.

Lemma cast_div_Z x y a b : ok x -> ok y -> R64 x = IZR a -> R64 y = IZR b ->
  (0 <= a <= 2 ^ 31 - 1)%Z -> (0 < b <= 2 ^ 20)%Z -> cast_int (fdiv x y) = Some (a / b)%Z.
Proof.
  intros Ox Oy Ex Ey Ha Hb. assert (P : 1 <= IZR b) by (apply IZR_le; lia).
  assert (PA : 0 <= IZR a <= IZR (2 ^ 31)) by (split; apply IZR_le; lia).
  assert (Q : 0 <= IZR a / IZR b <= IZR (2 ^ 31)).
  { split; [apply Rmult_le_pos; [lra | apply Rlt_le, Rinv_0_lt_compat; lra]|].
    apply Rmult_le_reg_r with (IZR b); [lra|]. unfold Rdiv. rewrite Rmult_assoc, Rinv_l by lra. nra. }
  destruct (fdiv_ok x y) as [O E]; try assumption.
  - rewrite Ey; lra.
  - rewrite Ex, Ey. apply Rabs_small with (IZR (2 ^ 31)); [apply Rabs_le; lra | small].
  - rewrite cast_int_ok by easy. rewrite E, Ex, Ey.
    assert (D0 : (0 <= a / b <= a)%Z) by (split; [apply Z.div_pos; lia | apply Z.div_le_upper_bound; nia]).
    rewrite (Ztrunc_eq (a / b)); [apply mk_int_in; unfold int_min, int_max; lia | easy |].
    apply floor_rnd_div; lia.
Qed.

Lemma toJD_century_ok date y : let c := dateof date in real_date c -> date_in_range c -> ok y -> R64 y = IZR (sy c) ->
  exists g, toJD_century date y = Some g /\ ok g /\
    R64 g = IZR (if greg_key (cy c) (cm c) (cd c) then 2 - sy c / 100 + sy c / 100 / 4 else 0).
Proof.
  intros c (Hm & Hd & Hg) [HU HL] Oy Ey.
  pose proof (month_len_bounds (cy c) (cm c)) as ML. unfold toJD_century.
  change (Y date) with (cy c). change (M date) with (cm c). change (D date) with (cd c).
  rewrite mk_int_in by (unfold int_min, int_max; lia). cbn [obind].
  rewrite mk_int_in by (unfold int_min, int_max; lia). cbn [obind].
  rewrite mk_int_in by (unfold int_min, int_max; lia). cbn [obind].
  rewrite mk_int_in by (unfold int_min, int_max; lia). cbn [obind].
  unfold greg_key. destruct (Z.leb_spec 588829 (cy c * 372 + cm c * 31 + cd c)) as [G|G].
  - assert (By : (1500 <= sy c <= 5772803)%Z) by (unfold sy; destruct (Z.leb_spec (cm c) 2); lia).
    destruct (fZ_ok 100) as [O1 E1]; [lia|]. destruct (fZ_ok 4) as [O2 E2]; [lia|]. destruct (fZ_ok 2) as [O3 E3]; [lia|].
    rewrite (cast_div_Z y (fZ 100) (sy c) 100) by (try assumption; lia). cbn [obind].
    set (q := (sy c / 100)%Z).
    assert (Bq : (0 <= q <= 100000)%Z) by (unfold q; split; [apply Z.div_pos; lia | apply Z.div_le_upper_bound; lia]).
    destruct (fZ_ok q) as [O4 E4]; [lia|].
    rewrite (cast_div_Z (fZ q) (fZ 4) q 4) by (try assumption; lia). cbn [obind].
    assert (Bq4 : (0 <= q / 4 <= 100000)%Z) by (split; [apply Z.div_pos; lia | apply Z.div_le_upper_bound; lia]).
    destruct (fZ_ok (q / 4)) as [O5 E5]; [lia|].
    destruct (sub_ZZ _ _ _ _ O3 O4 E3 E4 ltac:(lia)) as [O6 E6].
    destruct (add_ZZ _ _ _ _ O6 O5 E6 E5 ltac:(lia)) as [O7 E7].
    eexists. split; [reflexivity|]. split; [exact O7|exact E7].
  - destruct (fZ_ok 0) as [O1 E1]; [lia|]. eexists. split; [reflexivity|]. now split.
Qed.

Lemma toJD_year_ok x k : ok x -> R64 x = IZR k -> (0 <= k <= 5800000)%Z ->
  cast_int (fadd (fmul (lit 36525 100) x) (lit 1 100)) = Some (1461 * k / 4)%Z.
Proof.
  intros O E B. destruct (mul365_ok x k O E ltac:(lia)) as [O1 E1].
  destruct (lit_near 1 100 0) as [O2 E2]; try lia.
  change (bpow radix2 (0 - 54)) with (/ 18014398509481984) in E2. apply Rabs_le_inv in E2.
  set (l := R64 (lit 1 100)) in *.
  assert (BK : 0 <= IZR (1461 * k) <= IZR 8473800000) by (split; apply IZR_le; lia).
  destruct (fadd_ok (fmul (lit 36525 100) x) (lit 1 100)) as [O3 E3]; try assumption.
  { rewrite E1. fold l. apply Rabs_small with (IZR (2 ^ 33)); [apply Rabs_le; lra | small]. }
  rewrite E1 in E3. fold l in E3.
  assert (R1 : Rabs (rnd (IZR (1461 * k) / 4 + l) - (IZR (1461 * k) / 4 + l)) <= bpow radix2 (33 - 54)).
  { apply rnd_err; [lia|]. change (bpow radix2 33) with 8589934592. apply Rabs_le. lra. }
  change (bpow radix2 (33 - 54)) with (/ 2097152) in R1. apply Rabs_le_inv in R1.
  rewrite cast_int_ok by easy. rewrite E3.
  destruct (div_bounds (1461 * k) 4 ltac:(lia)) as [L U].
  assert (D0 : (0 <= 1461 * k / 4 <= 2147483647)%Z).
  { split; [apply Z.div_pos; lia|]. apply Z.div_le_upper_bound; lia. }
  rewrite (Ztrunc_eq (1461 * k / 4)); [apply mk_int_in; unfold int_min, int_max; lia | lia |].
  apply Zfloor_eq. lra.
Qed.

Lemma toJD_month_ok x q : ok x -> R64 x = IZR q -> (4 <= q <= 15)%Z -> R64 x = R64 (fZ q) ->
  cast_int (fmul (lit 306 10) x) = Some (153 * q / 5)%Z.
Proof.
  intros O E B Q. destruct (fZ_ok q) as [O1 E1]; [lia|].
  assert (T : forallb (fun q => match cast_int (fmul (lit 306 10) (fZ q)) with Some v => Z.eqb v (153 * q / 5) | None => false end)
              (Zrange 4 12) = true) by vm.
  rewrite forallb_forall in T. specialize (T q (in_Zrange 4 12 q ltac:(lia))).
  destruct (lit_near 306 10 5) as [O2 E2]; try lia.
  assert (BL : Rabs (R64 (lit 306 10) * IZR q) <= bpow radix2 1000).
  { change (bpow radix2 (5 - 54)) with (/ 562949953421312) in E2. apply Rabs_le_inv in E2.
    assert (4 <= IZR q <= 15) by (split; apply IZR_le; lia).
    apply Rabs_small with 600; [apply Rabs_le; nra | small]. }
  destruct (fmul_ok (lit 306 10) x) as [O3 E3]; try assumption. { now rewrite E. }
  destruct (fmul_ok (lit 306 10) (fZ q)) as [O4 E4]; try assumption. { now rewrite E1. }
  rewrite cast_int_ok in * by easy. rewrite E3, Q, <- E4.
  destruct (mk_int _); [|discriminate T]. f_equal. now apply Z.eqb_eq.
Qed.

(** The time-of-day term. *)
Definition day_frac (r : Date) : f64 :=
  fdiv (fadd (fdiv (fadd (fdiv (s r) (fZ 60)) (fZ (m r))) (fZ 60)) (fZ (h r))) (fZ 24).

Lemma toJD_core date : let c := dateof date in real_date c -> date_in_range c ->
  exists nn, toJD date = Some (fadd nn (fsub (day_frac date) (lit 15245 10))) /\ ok nn /\ R64 nn = IZR (jdn c + 1524) /\
   (0 <= jdn c + 1524 <= 2147483647)%Z.
Proof.
  intros c R RG. assert (RC := R). assert (RGC := RG). destruct R as (Hm & Hd & Hg). destruct RG as [HU HL].
  pose proof (month_len_bounds (cy c) (cm c)) as ML.
  unfold toJD. destruct (toJD_ym_ok c) as (y & mm & E0 & Oy & Om & Ey & Em); [lia|lia|].
  change (Y date) with (cy c). change (M date) with (cm c). rewrite E0.
  destruct (toJD_century_ok date y RC RGC Oy Ey) as (g & -> & Og & Eg). cbn [obind].
  assert (By : (-4716 <= sy c <= 5772803)%Z) by (unfold sy; destruct (Z.leb_spec (cm c) 2); lia).
  assert (Bm : (3 <= sm c <= 14)%Z) by (unfold sm; destruct (Z.leb_spec (cm c) 2); lia).
  destruct (fZ_ok 4716) as [O1 E1]; [lia|]. destruct (fZ_ok 1) as [O2 E2]; [lia|].
  destruct (add_ZZ _ _ _ _ Oy O1 Ey E1 ltac:(lia)) as [O3 E3].
  rewrite (toJD_year_ok _ _ O3 E3) by lia. cbn [obind].
  destruct (add_ZZ _ _ _ _ Om O2 Em E2 ltac:(lia)) as [O4 E4].
  destruct (fZ_ok (sm c + 1)) as [O5 E5]; [lia|].
  rewrite (toJD_month_ok _ _ O4 E4) by (try lia; now rewrite E4, E5). cbn [obind].
  set (yd := (1461 * (sy c + 4716) / 4)%Z). set (md := (153 * (sm c + 1) / 5)%Z).
  assert (Byd : (0 <= yd <= 2120000000)%Z) by (unfold yd; split; [apply Z.div_pos; lia | apply Z.div_le_upper_bound; lia]).
  assert (Bmd : (122 <= md <= 459)%Z) by (unfold md; split; [apply Z.div_le_lower_bound; lia | apply Z.div_le_upper_bound; lia]).
  change (D date) with (cd c).
  rewrite mk_int_in by (unfold int_min, int_max; lia). cbn [obind].
  set (gz := if greg_key (dateof date).(cy) (dateof date).(cm) (dateof date).(cd) then _ else _) in Eg.
  assert (Bgz : (-60000 <= gz <= 2)%Z /\ (gz < 0 -> 2000000 <= yd)%Z).
  { unfold gz. change (dateof date) with c. unfold greg_key. destruct (Z.leb_spec 588829 (cy c * 372 + cm c * 31 + cd c)) as [K|K]; [|lia].
    assert (1581 <= sy c)%Z by (unfold sy; destruct (Z.leb_spec (cm c) 2); lia).
    assert (Bq : (100 * (sy c / 100) <= sy c < 100 * (sy c / 100) + 100)%Z).
    { pose proof (Z.div_mod (sy c) 100). pose proof (Z.mod_pos_bound (sy c) 100). lia. }
    assert (Bq4 : (4 * (sy c / 100 / 4) <= sy c / 100 < 4 * (sy c / 100 / 4) + 4)%Z).
    { pose proof (Z.div_mod (sy c / 100) 4). pose proof (Z.mod_pos_bound (sy c / 100) 4). lia. }
    split; [lia|]. intros _. unfold yd. apply Z.div_le_lower_bound; lia. }
  destruct (fZ_ok yd) as [O6 E6]; [lia|]. destruct (fZ_ok (md + cd c)) as [O7 E7]; [lia|].
  destruct (add_ZZ _ _ _ _ Og O6 Eg E6 ltac:(lia)) as [O8 E8].
  destruct (add_ZZ _ _ _ _ O8 O7 E8 E7 ltac:(lia)) as [O9 E9].
  assert (EJ : (jdn c + 1524 = gz + yd + (md + cd c))%Z).
  { rewrite jdn_split. unfold gz, yd, md. change (dateof date) with c. lia. }
  eexists. split; [reflexivity|]. split; [exact O9|]. rewrite EJ. split; [exact E9|lia].
Qed.

(** noon: exact *)
Definition noon (c : cdate) : Date := mkDate (cy c) (cm c) (cd c) 12 0 (fZ 0).

Lemma toJD_noon c : real_date c -> date_in_range c ->
  exists x, toJD (noon c) = Some x /\ ok x /\ R64 x = IZR (jdn c).
Proof.
  intros R RG.
  destruct (toJD_core (noon c)) as (nn & -> & O1 & E1 & B1). { now destruct c. } { now destruct c. }
  replace (dateof (noon c)) with c in * by now destruct c.
  assert (K : fsub (day_frac (noon c)) (lit 15245 10) = fZ (-1524)) by (unfold day_frac, noon; cbn [Y M D h m s]; vm).
  rewrite K. destruct (fZ_ok (-1524)) as [O2 E2]; [lia|].
  destruct (add_ZZ _ _ _ _ O1 O2 E1 E2 ltac:(lia)) as [O3 E3].
  exists (fadd nn (fZ (-1524))). repeat split; try apply O3. rewrite E3. f_equal. lia.
Qed.
