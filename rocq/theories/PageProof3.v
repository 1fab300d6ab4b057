(** Proofs about the lunar part of the month page: one day, and the page. *)
From Coq Require Import ZArith Lia Bool List Reals Lra Ascii String.
From Flocq Require Import Core.
From Verif Require Import F64 F64R F64T Str DecSpec SsqModel SsqSpec SsqProof SsqProof2 SsqProof3 SsqProof5 CalProof ObTab ObSpec ObModel ObProof HuiModel HuiProof LunSpec LunProof PageSpec PageModel PageProof PageProof2.
Import ListNotations.
Ltac Zify.zify_post_hook ::= idtac.
Open Scope Z_scope.
Open Scope opt_scope.

(** the tables of a solstice year are the window of the calendar that starts with term 24 y and month k *)
Record window (T M : Z -> Z) (s : sui) (y k : Z) : Prop := mkWindow {
  w_ZQ : List.length (s_ZQ s) = 25%nat; w_HS : List.length (s_HS s) = 15%nat; w_dx : List.length (s_dx s) = 14%nat; w_ym : List.length (s_ym s) = 14%nat;
  w_T : forall i, 0 <= i <= 24 -> tab (s_ZQ s) i = T (24 * y + i);
  w_M : forall i, 0 <= i <= 14 -> tab (s_HS s) i = M (k + i);
  w_len : forall i, 0 <= i < 14 -> at_ (s_dx s) i = Some (M (k + i + 1) - M (k + i));
  w_natural : natural (tab (s_ZQ s)) (tab (s_HS s));
  w_even : even_terms (tab (s_ZQ s));
  w_year : solstice_of (tab (s_ZQ s)) y }.

(** ** stems and branches *)
Definition pillar (v : Z) : bytes := gan (v mod 10) ++ zhi (v mod 12).
Lemma at_nth {X} (l : list X) i d : 0 <= i < Z.of_nat (List.length l) -> at_ l i = Some (nth (Z.to_nat i) l d).
Proof. intros H. unfold at_. destruct (Z.leb_spec 0 i); [|lia]. apply nth_error_nth'. lia. Qed.
Lemma gz_ok v : 0 <= v -> gz v = Some (pillar v).
Proof.
  intros H. unfold gz. rewrite !Z.rem_mod_nonneg by lia. pose proof (Z.mod_pos_bound v 10 ltac:(lia)). pose proof (Z.mod_pos_bound v 12 ltac:(lia)).
  rewrite (at_nth str_gan _ []) by (change (Z.of_nat (List.length str_gan)) with 10; lia). cbn [obind].
  rewrite (at_nth str_zhi _ []) by (change (Z.of_nat (List.length str_zhi)) with 12; lia). cbn [obind]. reflexivity.
Qed.
Lemma pillar_add v k : pillar (v + 60 * k) = pillar v.
Proof.
  unfold pillar. replace (v + 60 * k) with (v + (6 * k) * 10) at 1 by lia. rewrite Z.mod_add by lia.
  replace (v + 60 * k) with (v + (5 * k) * 12) by lia. rewrite Z.mod_add by lia. reflexivity.
Qed.

(** ** years *)
Lemma year_spring_ok ZQ d y : List.length ZQ = 25%nat -> even_terms (tab ZQ) -> solstice_of (tab ZQ) y -> -1000000 <= y <= 5000000 ->
  year_spring ZQ d = Some (y - 1984 + (if d <? tab ZQ 3 then -1 else 0)).
Proof.
  intros L N S Y. unfold year_spring. unfold solstice_of in S. pose proof (N 3 ltac:(lia)) as N3. set (A := tab ZQ) in *.
  rewrite (at_tab ZQ 3) by (rewrite L; lia). cbn [obind]. fold A.
  set (sh := if d <? A 3 then -365 else 0). assert (SH : sh = 0 \/ sh = -365) by (unfold sh; destruct (d <? A 3); lia).
  rewrite mk_int_in by (unfold int_min, int_max; lia). cbn [obind].
  assert (E : fsub (fadd (fZ (A 3 + sh)) (fmul (lit 36525 100) (fZ 16))) (fZ 35) = fsub (fadd (fZ (A 3 + sh)) (fZ 5844)) (fZ 35)).
  { replace (fmul (lit 36525 100) (fZ 16)) with (fZ 5844) by (vm_compute; reflexivity). reflexivity. }
  rewrite E. destruct (fZ_ok (A 3 + sh) ltac:(lia)) as [O1 V1]. destruct (fZ_ok 5844 ltac:(lia)) as [O2 V2]. destruct (fZ_ok 35 ltac:(lia)) as [O3 V3].
  destruct (fadd_ok _ _ O1 O2) as [O4 V4].
  { rewrite V1, V2, <- plus_IZR. eapply Rle_trans; [apply (Rabs_IZR_bpow _ 40); lia|apply bpow_le; lia]. }
  rewrite V1, V2, <- plus_IZR, rnd_IZR in V4 by lia.
  destruct (fsub_ok _ _ O4 O3) as [O5 V5].
  { rewrite V4, V3, <- minus_IZR. eapply Rle_trans; [apply (Rabs_IZR_bpow _ 40); lia|apply bpow_le; lia]. }
  rewrite V4, V3, <- minus_IZR, rnd_IZR in V5 by lia.
  rewrite cast_int_ok, V5, Ztrunc_IZR by exact O5. rewrite mk_int_in by (unfold int_min, int_max; lia). cbn [obind].
  apply year_round_near; [lia|]. unfold sh in *. destruct (d <? A 3); lia.
Qed.
Lemma year_round_total D : Z.abs D <= 2000000000 -> exists k, year_round D = Some k /\ -3700000 <= 10000 * D - 3652422 * k <= 3700000.
Proof.
  intros HD. unfold year_round. destruct (trop_quot D HD) as [O1 Q]. set (q := fdiv (fZ D) (lit 3652422 10000)) in *. clearbody q.
  assert (DB : (-20000000000000 <= IZR (10000 * D) <= 20000000000000)%R) by (split; apply IZR_le; lia).
  destruct lit_half as [O2 V2].
  destruct (fadd_ok q (lit 5 10) O1 O2) as [O3 E3]; [rewrite V2; abs_small 7000000%R|]. rewrite V2 in E3.
  pose proof (rnd_near (R64 q + 1 / 2) 23 ltac:(lia)) as R1. change (bpow radix2 23) with 8388608%R in R1. specialize (R1 ltac:(lra)).
  change (bpow radix2 (23 - 54)) with (/ 2147483648)%R in R1. rewrite <- E3 in R1.
  destruct (ffloor_ok _ O3) as [O4 E4]. rewrite cast_int_ok, E4, Ztrunc_IZR by exact O4.
  set (k := Zfloor (R64 (fadd q (lit 5 10)))). pose proof (Zfloor_lb (R64 (fadd q (lit 5 10)))) as LB. pose proof (Zfloor_ub (R64 (fadd q (lit 5 10)))) as UB.
  fold k in LB, UB. exists k. split.
  - apply mk_int_in. unfold int_min, int_max. split; apply le_IZR; lra.
  - split; apply le_IZR; rewrite minus_IZR, (mult_IZR 3652422); lra.
Qed.
Lemma spring_loop_total s d B0 : List.length (s_HS s) = 15%nat -> List.length (s_ym s) = 14%nat -> Z.abs B0 <= 1999000000 ->
  (forall i, 0 <= i <= 14 -> B0 <= tab (s_HS s) i <= B0 + 420) ->
  forall n j D, 0 <= j -> j + Z.of_nat n <= 14 -> B0 - 365 <= D <= B0 + 420 ->
  exists D', spring_loop n s d j D = Some D' /\ B0 - 365 <= D' <= B0 + 420.
Proof.
  intros L1 L2 HB HH. induction n as [|n IH]; intros j D Hj Hn HD; cbn [spring_loop]; [exists D; split; [reflexivity|lia]|].
  destruct (at_some (s_ym s) j) as [m Em]; [lia|]. rewrite Em. cbn [obind].
  destruct (negb _ || _); [apply IH; lia|]. rewrite (at_tab (s_HS s) j) by (rewrite L1; lia). cbn [obind].
  specialize (HH j ltac:(lia)) as HHj. destruct (d <? tab (s_HS s) j).
  - rewrite mk_int_in by (unfold int_min, int_max; lia). eexists. split; [reflexivity|]. lia.
  - apply IH; lia.
Qed.
(** one new year day among the fourteen months *)
Definition new_year_at (s : sui) (j : Z) : Prop := 0 <= j < 14 /\ forall i, 0 <= i < 14 -> (i = j <-> (at_ (s_ym s) i = Some (B "正") /\ ~ (s_leap s = i /\ i <> 0))).
Lemma spring_loop_ok s d j0 : List.length (s_HS s) = 15%nat -> List.length (s_ym s) = 14%nat -> new_year_at s j0 -> Z.abs (tab (s_HS s) j0) <= 1999000000 ->
  forall n j D, 0 <= j -> j + Z.of_nat n = 14 ->
  spring_loop n s d j D = Some (if j <=? j0 then tab (s_HS s) j0 + (if d <? tab (s_HS s) j0 then -365 else 0) else D).
Proof.
  intros L1 L2 [J0 NY] HB. induction n as [|n IH]; intros j D Hj Hn; cbn [spring_loop].
  { destruct (Z.leb_spec j j0); [lia|reflexivity]. }
  destruct (at_some (s_ym s) j) as [m Em]; [lia|]. rewrite Em. cbn [obind]. specialize (NY j ltac:(lia)). rewrite Em in NY.
  destruct (Z.eq_dec j j0) as [->|NE].
  - destruct (proj1 NY eq_refl) as [E1 E2]. injection E1 as ->. rewrite beq_refl. cbn [negb orb].
    replace ((s_leap s =? j0) && negb (j0 =? 0)) with false.
    2:{ symmetry. apply andb_false_iff. destruct (Z.eqb_spec (s_leap s) j0); [|now left]. destruct (Z.eqb_spec j0 0); [now right|]. tauto. }
    rewrite (at_tab (s_HS s) j0) by (rewrite L1; lia). cbn [obind]. rewrite Z.leb_refl. destruct (d <? tab (s_HS s) j0).
    + rewrite mk_int_in by (unfold int_min, int_max; lia). reflexivity.
    + rewrite IH by lia. destruct (Z.leb_spec (j0 + 1) j0); [lia|]. f_equal. lia.
  - assert (C : negb (beq m (B "正")) || ((s_leap s =? j) && negb (j =? 0)) = true).
    { destruct (beq m (B "正")) eqn:E; [|reflexivity]. apply beq_eq in E. subst m. cbn [negb orb].
      destruct (Z.eqb_spec (s_leap s) j) as [E1|E1]; destruct (Z.eqb_spec j 0) as [E2|E2]; try reflexivity; exfalso; apply NE; apply NY; (split; [reflexivity|tauto]). }
    rewrite C. rewrite IH by lia. destruct (Z.leb_spec (j + 1) j0), (Z.leb_spec j j0); try lia; reflexivity.
Qed.
Lemma year_festival_ok s d y j0 : List.length (s_HS s) = 15%nat -> List.length (s_ym s) = 14%nat -> natural (tab (s_ZQ s)) (tab (s_HS s)) ->
  solstice_of (tab (s_ZQ s)) y -> -1000000 <= y <= 5000000 -> new_year_at s j0 -> 1 <= j0 <= 3 ->
  year_festival s d = Some (y - 1984 + (if d <? tab (s_HS s) j0 then -1 else 0)).
Proof.
  intros L1 L2 N S Y NY J. unfold year_festival. unfold solstice_of in S. pose proof (natural_B _ _ j0 N ltac:(lia)) as NB.
  pose proof (natural_B _ _ 1 N ltac:(lia)) as NB1. destruct N as (_ & _ & _ & IM). unfold in_month in IM. replace (0 + 1) with 1 in IM by lia.
  set (A := tab (s_ZQ s)) in *. set (H := tab (s_HS s)) in *.
  rewrite (at_tab (s_HS s) 2) by (rewrite L1; lia). cbn [obind].
  rewrite (spring_loop_ok s d j0 L1 L2 NY) by (fold H; lia). fold H. destruct (Z.leb_spec 0 j0); [|lia]. cbn [obind].
  set (sh := if d <? H j0 then -365 else 0). assert (SH : sh = 0 \/ sh = -365) by (unfold sh; destruct (d <? H j0); lia).
  rewrite mk_int_in by (unfold int_min, int_max; lia). cbn [obind].
  apply year_round_near; [lia|]. unfold sh in *. destruct (d <? H j0); lia.
Qed.
Lemma month_pillar_ok ZQ d y q : List.length ZQ = 25%nat -> even_terms (tab ZQ) -> solstice_of (tab ZQ) y -> -70000 <= y <= 5000000 ->
  tab ZQ 0 <= d < tab ZQ 24 -> 0 <= q <= 12 -> (0 < q -> tab ZQ (2 * q - 1) <= d) -> (q < 12 -> d < tab ZQ (2 * q + 1)) ->
  month_pillar ZQ d = Some (q + (y - 1999) * 12 + 900000).
Proof.
  intros L N S Y R Hq K1 K2. unfold solstice_of in S.
  assert (X := jie_index_ok ZQ d q L N R). pose proof (N 24 ltac:(lia)) as N24. pose proof (N 12 ltac:(lia)) as N12.
  assert (I : int_min <= d - tab ZQ 0 <= int_max) by (unfold int_min, int_max; lia). specialize (X I Hq K1 K2).
  unfold month_pillar. destruct (at_ ZQ 0) as [z0|]; [|discriminate X]. cbn [obind] in *.
  destruct (mk_int (d - z0)) as [t|]; [|discriminate X]. cbn [obind] in *.
  destruct (int2 (fdiv (fZ t) (lit 3043685 100000))) as [mk|]; [|discriminate X]. cbn [obind] in *.
  rewrite X. cbn [obind]. rewrite (at_tab ZQ 12) by (rewrite L; lia). cbn [obind].
  rewrite mk_int_in by (unfold int_min, int_max; lia). cbn [obind].
  rewrite (tropical_near _ (y - 1999)) by lia. cbn [obind].
  rewrite mk_int_in by (unfold int_min, int_max; lia). cbn [obind].
  rewrite mk_int_in by (unfold int_min, int_max; lia). cbn [obind].
  apply mk_int_in. unfold int_min, int_max; lia.
Qed.

(** ** the calendar *)
Lemma T_mono (T : Z -> Z) : (forall j, T j < T (j + 1)) -> forall i j, i < j -> T i < T j.
Proof.
  intros H i j L. replace j with (i + 1 + (j - i - 1)) by lia. assert (P : 0 <= j - i - 1) by lia. revert P. generalize (j - i - 1).
  apply (natlike_ind (fun n => T i < T (i + 1 + n))).
  - replace (i + 1 + 0) with (i + 1) by lia. apply H.
  - intros n _ IH. specialize (H (i + 1 + n)). replace (i + 1 + Z.succ n) with (i + 1 + n + 1) by lia. lia.
Qed.
Lemma T_unique (T : Z -> Z) d i j : (forall j, T j < T (j + 1)) -> T i <= d < T (i + 1) -> T j <= d < T (j + 1) -> i = j.
Proof.
  intros H Hi Hj. destruct (Z.lt_trichotomy i j) as [L|[E|L]]; [|exact E|]; exfalso.
  - destruct (Z.eq_dec (i + 1) j) as [<-|N]; [lia|]. pose proof (T_mono T H (i + 1) j ltac:(lia)). lia.
  - destruct (Z.eq_dec (j + 1) i) as [<-|N]; [lia|]. pose proof (T_mono T H (j + 1) i ltac:(lia)). lia.
Qed.

(** name and leap mark of month i of a table, name of the next month *)
Definition mname (s : sui) (i : Z) : bytes := nth (Z.to_nat i) (s_ym s) [].
Definition is_leap (s : sui) (i : Z) : bool := negb (s_leap s =? 0) && (s_leap s =? i).
(** the month information comes from the window of some year in which it is month number K of the calendar *)
Definition info_from (T M : Z -> Z) (K : Z) (mi : month_info) : Prop := exists s y k i, window T M s y k /\ 0 <= i < 14 /\ K = k + i /\
  mi = mkMonth (mname s i) (M (K + 1) - M K) (if is_leap s i then B "闰" else []) (if i <? 13 then mname s (i + 1) else B "未知").
Lemma month_info_ok T M s y k i : window T M s y k -> 0 <= i < 14 ->
  exists mi, month_info_at s i = Some mi /\ info_from T M (k + i) mi.
Proof.
  intros W Hi. unfold month_info_at.
  rewrite (at_nth (s_ym s) i []) by (rewrite (w_ym _ _ _ _ _ W); lia). cbn [obind]. rewrite (w_len _ _ _ _ _ W i Hi). cbn [obind].
  assert (E : (if i <? 13 then at_ (s_ym s) (i + 1) else Some (B "未知")) = Some (if i <? 13 then mname s (i + 1) else B "未知")).
  { destruct (Z.ltb_spec i 13); [|reflexivity]. apply at_nth. rewrite (w_ym _ _ _ _ _ W). lia. }
  rewrite E. cbn [obind]. eexists. split; [reflexivity|]. exists s, y, k, i. split; [exact W|]. split; [exact Hi|]. split; reflexivity.
Qed.

(** ** one day *)
(** What the page should say about the day d of the calendar (T, M). *)
Definition day_right (T M : Z -> Z) (d : Z) (l : lunar_day) : Prop :=
  (exists K, M K <= d < M (K + 1) /\ y_Ldi l = d - M K /\ y_Ldc l = rmc (d - M K + 1) /\ info_from T M K (y_month l)) /\
  ((exists j, d = T j /\ at_ str_jqmc (j mod 24) = Some (y_Ljq l)) \/ ((forall j, d <> T j) /\ y_Ljq l = [])) /\
  (exists Y, T (24 * Y + 3) <= d < T (24 * (Y + 1) + 3) /\ y_Lyear l = Y - 1984 /\ y_Lyear2 l = pillar (Y - 1984)) /\
  (y_Lyear3 l = pillar (y_Lyear0 l) /\ y_Lyear4 l = y_Lyear0 l + 4682) /\
  (exists J, T (2 * J - 1) <= d < T (2 * J + 1) /\ y_Lmonth l = J mod 12 /\ y_Lmonth2 l = pillar (J - 23988)) /\
  y_Lday2 l = pillar (d - 6) /\
  (exists Q, T (2 * Q) <= d < T (2 * Q + 2) /\ at_ str_xz (Q mod 12) = Some (y_XiZ l)) /\
  (islamic d (y_H l)) /\
  (exists y, T (24 * y) <= d < T (24 * y + 24) /\ y_dz l = d - T (24 * y) /\ y_mz l = d - T (24 * y + 11) /\ y_xz l = d - T (24 * y + 12) /\
    y_xs l = d - T (24 * y + 13) /\ y_lq l = d - T (24 * y + 15)).
Lemma term_name_ok T M s y k d : calendar T M -> window T M s y k -> T (24 * y) <= d < T (24 * y + 24) -> Z.abs d <= 1100000000 ->
  exists t, term_name (s_ZQ s) d = Some t /\ ((exists j, d = T j /\ at_ str_jqmc (j mod 24) = Some t) \/ ((forall j, d <> T j) /\ t = [])).
Proof.
  intros [CT CM] W R Bd. pose proof (w_T _ _ _ _ _ W) as WT. pose proof (w_ZQ _ _ _ _ _ W) as LZ.
  pose proof (w_even _ _ _ _ _ W 24 ltac:(lia)) as E24.
  assert (P : exists i, 0 <= i < 24 /\ in_period (tab (s_ZQ s)) i d).
  { apply period_ex; [lia|]. rewrite !WT by lia. replace (24 * y + 0) with (24 * y) by lia. exact R. }
  destruct P as (i & Hi & P). pose proof P as [P1 P2]. rewrite !WT in P1, P2 by lia.
  assert (A0 : tab (s_ZQ s) 0 = T (24 * y)) by (rewrite WT by lia; f_equal; lia).
  assert (A24 : tab (s_ZQ s) 24 = T (24 * y + 24)) by (now rewrite WT by lia).
  unfold term_name. rewrite (term_index_ok (s_ZQ s) d i LZ (w_even _ _ _ _ _ W)); [|unfold int_min, int_max; lia|exact Hi|exact P]. cbn [obind].
  rewrite (at_tab (s_ZQ s) i) by (rewrite LZ; lia). cbn [obind]. rewrite WT by lia.
  destruct (Z.eqb_spec d (T (24 * y + i))) as [E|NE].
  - rewrite (at_nth str_jqmc i []) by (change (Z.of_nat (List.length str_jqmc)) with 24; lia). eexists. split; [reflexivity|]. left. exists (24 * y + i). split; [exact E|].
    replace (24 * y + i) with (i + y * 24) by lia. rewrite Z.mod_add, Z.mod_small by lia.
    apply at_nth. change (Z.of_nat (List.length str_jqmc)) with 24; lia.
  - exists []. split; [reflexivity|]. right. split; [|reflexivity]. intros j E. apply NE.
    replace (24 * y + (i + 1)) with (24 * y + i + 1) in P2 by lia.
    rewrite (T_unique T d (24 * y + i) j CT (conj P1 P2)); [exact E|]. pose proof (CT j). lia.
Qed.
Lemma window_bounds T M s y k d : window T M s y k -> T (24 * y) <= d < T (24 * y + 24) -> -2600000 <= d <= 1000000000 ->
  -6000 <= y <= 3000000 /\ (forall i, 0 <= i <= 24 -> T (24 * y) - 10 <= T (24 * y + i) <= T (24 * y) + 380) /\ (forall i, 0 <= i <= 14 -> T (24 * y) - 30 <= M (k + i) <= T (24 * y) + 420).
Proof.
  intros W R Bd. pose proof (w_even _ _ _ _ _ W) as E. pose proof (w_year _ _ _ _ _ W) as S. pose proof (w_T _ _ _ _ _ W) as WT. pose proof (w_M _ _ _ _ _ W) as WM.
  unfold solstice_of in S. unfold even_terms in E. rewrite (WT 0) in S by lia. replace (24 * y + 0) with (24 * y) in S by lia.
  assert (E' : forall i, 0 <= i <= 24 -> T (24 * y) - 10 <= T (24 * y + i) <= T (24 * y) + 380).
  { intros i Hi. specialize (E i Hi). rewrite (WT i Hi), (WT 0) in E by lia. replace (24 * y + 0) with (24 * y) in E by lia. lia. }
  pose proof (E' 24 ltac:(lia)) as E24.
  split; [lia|]. split; [exact E'|]. intros i Hi. pose proof (natural_B _ _ i (w_natural _ _ _ _ _ W) ltac:(lia)) as NB.
  pose proof (natural_B _ _ 1 (w_natural _ _ _ _ _ W) ltac:(lia)) as NB1.
  destruct (w_natural _ _ _ _ _ W) as (_ & _ & _ & IM). unfold in_month in IM. replace (0 + 1) with 1 in IM by lia.
  rewrite (WT 0) in IM by lia. replace (24 * y + 0) with (24 * y) in IM by lia. rewrite <- (WM i) by lia. lia.
Qed.
Lemma day_pillar_ok d : Z.abs d <= 1100000000 -> -2600000 <= d -> exists v, day_pillar d = Some v /\ gz v = Some (pillar (d - 6)).
Proof.
  intros Bd B2. unfold day_pillar. rewrite mk_int_in by (unfold int_min, int_max; lia). cbn [obind].
  rewrite mk_int_in by (unfold int_min, int_max; lia). eexists. split; [reflexivity|]. rewrite gz_ok by lia. f_equal.
  replace (d - 6 + 9000000) with (d - 6 + 60 * 150000) by lia. apply pillar_add.
Qed.
Lemma jie_ex T y d : (forall j, T j < T (j + 1)) -> T (24 * y) <= d < T (24 * y + 24) ->
  exists q, 0 <= q <= 12 /\ (0 < q -> T (24 * y + (2 * q - 1)) <= d) /\ (q < 12 -> d < T (24 * y + (2 * q + 1))).
Proof.
  intros CT R. destruct (Z_lt_le_dec d (T (24 * y + 1))) as [L|L].
  - exists 0. split; [lia|]. split; [lia|]. intros _. exact L.
  - destruct (Z_le_gt_dec (T (24 * y + 23)) d) as [L2|L2].
    + exists 12. split; [lia|]. split; [intros _; exact L2|lia].
    + destruct (period_ex (fun i => T (24 * y + (2 * i + 1))) 11 d ltac:(lia)) as (i & Hi & P1 & P2).
      { cbn beta. replace (24 * y + (2 * 0 + 1)) with (24 * y + 1) by lia. replace (24 * y + (2 * 11 + 1)) with (24 * y + 23) by lia. lia. }
      exists (i + 1). split; [lia|]. replace (2 * (i + 1) - 1) with (2 * i + 1) by lia. split; intros _; assumption.
Qed.
Lemma page_lunar_ok T M s y k p prev d : calendar T M -> window T M s y k -> T (24 * y) <= d < T (24 * y + 24) -> -2600000 <= d <= 1000000000 ->
  (d = p_d0 p \/ exists mi K, prev = Some mi /\ M K <= d - 1 < M (K + 1) /\ info_from T M K mi) ->
  exists l, page_lunar s p prev d = Some l /\ day_right T M d l.
Proof.
  intros C W R Bd HP. pose proof C as [CT CM]. destruct (window_bounds T M s y k d W R Bd) as (By & BT & BM).
  pose proof (w_T _ _ _ _ _ W) as WT. pose proof (w_M _ _ _ _ _ W) as WM. pose proof (w_ZQ _ _ _ _ _ W) as LZ. pose proof (w_HS _ _ _ _ _ W) as LH.
  assert (A0 : tab (s_ZQ s) 0 = T (24 * y)) by (rewrite WT by lia; f_equal; lia).
  assert (A24 : tab (s_ZQ s) 24 = T (24 * y + 24)) by (now rewrite WT by lia).
  pose proof (BT 24 ltac:(lia)) as BT24.
  assert (INT : forall i, 0 <= i <= 24 -> mk_int (d - tab (s_ZQ s) i) = Some (d - T (24 * y + i))).
  { intros i Hi. rewrite WT by exact Hi. specialize (BT i Hi). apply mk_int_in. unfold int_min, int_max. lia. }
  assert (P : exists i, 0 <= i < 14 /\ in_period (tab (s_HS s)) i d).
  { apply period_ex; [lia|]. apply (natural_cover (tab (s_ZQ s))); [exact (w_natural _ _ _ _ _ W)|]. rewrite A0, A24. exact R. }
  destruct P as (i & Hi & P). pose proof P as [P1 P2]. rewrite !WM in P1, P2 by lia. replace (k + (i + 1)) with (k + i + 1) in P2 by lia.
  pose proof (BM i ltac:(lia)) as BMi. pose proof (CM (k + i)) as CMi.
  unfold page_lunar.
  rewrite (month_index_ok (tab (s_ZQ s)) (s_HS s) d i LH (w_natural _ _ _ _ _ W)); [|rewrite WM by lia; specialize (BM 0 ltac:(lia)); unfold int_min, int_max; lia|exact Hi|exact P].
  cbn [obind]. rewrite (at_tab (s_HS s) i) by (rewrite LH; lia). cbn [obind]. rewrite (WM i) by lia.
  rewrite mk_int_in by (unfold int_min, int_max; lia). cbn [obind].
  rewrite (at_nth str_rmc (d - M (k + i)) []) by (change (Z.of_nat (List.length str_rmc)) with 30; lia). cbn [obind].
  rewrite (at_tab (s_ZQ s) 0) by (rewrite LZ; lia). cbn [obind]. rewrite INT by lia. cbn [obind].
  rewrite (at_tab (s_ZQ s) 12) by (rewrite LZ; lia). cbn [obind]. rewrite INT by lia. cbn [obind].
  rewrite (at_tab (s_ZQ s) 15) by (rewrite LZ; lia). cbn [obind]. rewrite INT by lia. cbn [obind].
  rewrite (at_tab (s_ZQ s) 11) by (rewrite LZ; lia). cbn [obind]. rewrite INT by lia. cbn [obind].
  rewrite (at_tab (s_ZQ s) 13) by (rewrite LZ; lia). cbn [obind]. rewrite INT by lia. cbn [obind].
  assert (MI : exists mi, (if (d =? M (k + i)) || (d =? p_d0 p) then month_info_at s i else prev) = Some mi /\ info_from T M (k + i) mi).
  { destruct (Z.eqb_spec d (M (k + i))) as [E1|E1]; cbn [orb]; [now apply (month_info_ok T M s y k)|].
    destruct (Z.eqb_spec d (p_d0 p)) as [E2|E2]; [now apply (month_info_ok T M s y k)|].
    destruct HP as [HP|(mi & K & -> & RK & IK)]; [contradiction|]. exists mi. split; [reflexivity|].
    assert (MM : forall j, M j < M (j + 1)) by (intros j; specialize (CM j); lia).
    rewrite (T_unique M (d - 1) (k + i) K MM ltac:(lia) RK). exact IK. }
  destruct MI as (mi & EMI & IMI). rewrite EMI. cbn [obind]. clear EMI.
  destruct (term_name_ok T M s y k d C W R ltac:(lia)) as (jq & EJ & PJ). rewrite EJ. cbn [obind].
  rewrite (year_spring_ok (s_ZQ s) d y LZ (w_even _ _ _ _ _ W) (w_year _ _ _ _ _ W)) by lia. cbn [obind]. rewrite (WT 3) by lia.
  assert (YF : exists ly0, year_festival s d = Some ly0 /\ -11000 <= ly0 <= 3100000).
  { unfold year_festival. rewrite (at_tab (s_HS s) 2) by (rewrite LH; lia). cbn [obind]. rewrite (WM 2) by lia. pose proof (BM 2 ltac:(lia)) as BM2.
    pose proof (BM 0 ltac:(lia)) as BM0. replace (k + 0) with k in BM0 by lia.
    destruct (spring_loop_total s d (M k) LH (w_ym _ _ _ _ _ W) ltac:(lia)) with (n := 14%nat) (j := 0) (D := M (k + 2)) as (D' & ED & BD); [|lia|lia| |].
    - intros j Hj. pose proof (natural_B _ _ j (w_natural _ _ _ _ _ W) ltac:(lia)) as NB. rewrite (WM 0) in NB by lia. replace (k + 0) with k in NB by lia. lia.
    - pose proof (natural_B _ _ 2 (w_natural _ _ _ _ _ W) ltac:(lia)) as NB. rewrite (WM 0), (WM 2) in NB by lia. replace (k + 0) with k in NB by lia. lia.
    - rewrite ED. cbn [obind]. rewrite mk_int_in by (unfold int_min, int_max; lia). cbn [obind].
      destruct (year_round_total (D' + 5810) ltac:(lia)) as (ly & EL & BL). exists ly. split; [exact EL|lia]. }
  destruct YF as (ly0 & EY & BY). rewrite EY. cbn [obind]. clear EY.
  set (sh := if d <? T (24 * y + 3) then -1 else 0). assert (SH : sh = 0 \/ sh = -1) by (unfold sh; destruct (d <? _); lia).
  rewrite mk_int_in by (unfold int_min, int_max; lia). cbn [obind]. rewrite gz_ok by lia. cbn [obind].
  rewrite mk_int_in by (unfold int_min, int_max; lia). cbn [obind]. rewrite gz_ok by lia. cbn [obind].
  rewrite mk_int_in by (unfold int_min, int_max; lia). cbn [obind].
  rewrite mk_int_in by (unfold int_min, int_max; lia). cbn [obind].
  destruct (jie_ex T y d CT R) as (q & Hq & Q1 & Q2).
  rewrite (month_pillar_ok (s_ZQ s) d y q LZ (w_even _ _ _ _ _ W) (w_year _ _ _ _ _ W)); [|lia|lia|exact Hq|intros Z1; rewrite WT by lia; auto|intros Z1; rewrite WT by lia; auto].
  cbn [obind]. rewrite gz_ok by lia. cbn [obind].
  destruct (day_pillar_ok d ltac:(lia) ltac:(lia)) as (dp & EDP & EG). rewrite EDP. cbn [obind]. rewrite EG. cbn [obind].
  destruct (period_ex (fun i => T (24 * y + 2 * i)) 12 d ltac:(lia)) as (z & Hz & Z1 & Z2).
  { cbn beta. replace (24 * y + 2 * 0) with (24 * y) by lia. replace (24 * y + 2 * 12) with (24 * y + 24) by lia. exact R. }
  cbn beta in Z1, Z2.
  rewrite (zhongqi_index_ok (s_ZQ s) d z LZ (w_even _ _ _ _ _ W)); [|rewrite A0; unfold int_min, int_max; lia|exact Hz|].
  2:{ rewrite !WT by lia. replace (24 * y + (2 * z + 2)) with (24 * y + 2 * (z + 1)) by lia. lia. }
  rewrite (at_nth str_xz z []) by (change (Z.of_nat (List.length str_xz)) with 12; lia). cbn [obind].
  rewrite (getHuiLi_ok d) by (change (2 ^ 30) with 1073741824; lia). cbn [obind].
  eexists. split; [reflexivity|]. unfold day_right. cbn [y_Ldi y_Ldc y_month y_Ljq y_Lyear y_Lyear2 y_Lyear3 y_Lyear4 y_Lyear0 y_Lmonth y_Lmonth2 y_Lday2 y_XiZ y_H y_dz y_mz y_xz y_xs y_lq].
  split; [|split; [exact PJ|split; [|split; [|split; [|split; [reflexivity|split; [|split; [apply hconv_islamic|]]]]]]]].
  - exists (k + i). split; [lia|]. split; [reflexivity|]. split; [|exact IMI]. unfold rmc. do 2 f_equal. lia.
  - exists (y + sh). replace (y - 1984 + sh) with (y + sh - 1984) by lia. split; [|split; [reflexivity|]].
    + unfold sh. destruct (Z.ltb_spec d (T (24 * y + 3))) as [L|L].
      * pose proof (T_mono T CT (24 * (y + -1) + 3) (24 * y) ltac:(lia)). replace (24 * (y + -1 + 1) + 3) with (24 * y + 3) by lia. lia.
      * replace (y + 0) with y by lia. pose proof (T_mono T CT (24 * y + 24) (24 * (y + 1) + 3) ltac:(lia)). lia.
    + replace (y + sh - 1984 + 12000) with (y + sh - 1984 + 60 * 200) by lia. apply pillar_add.
  - split; [|lia]. replace (ly0 + 12000) with (ly0 + 60 * 200) by lia. apply pillar_add.
  - exists (12 * y + q). split; [|split].
    + split.
      * destruct (Z.eq_dec q 0) as [->|].
        -- pose proof (T_mono T CT (2 * (12 * y + 0) - 1) (24 * y) ltac:(lia)). lia.
        -- replace (2 * (12 * y + q) - 1) with (24 * y + (2 * q - 1)) by lia. apply Q1. lia.
      * destruct (Z.eq_dec q 12) as [->|].
        -- pose proof (T_mono T CT (24 * y + 24) (2 * (12 * y + 12) + 1) ltac:(lia)). lia.
        -- replace (2 * (12 * y + q) + 1) with (24 * y + (2 * q + 1)) by lia. apply Q2. lia.
    + rewrite Z.rem_mod_nonneg by lia. replace (q + (y - 1999) * 12 + 900000) with (12 * y + q + (73001) * 12) by lia. apply Z.mod_add. lia.
    + replace (q + (y - 1999) * 12 + 900000) with (12 * y + q - 23988 + 60 * 15000) by lia. apply pillar_add.
  - exists (12 * y + z). replace (2 * (12 * y + z) + 2) with (24 * y + 2 * (z + 1)) by lia. replace (2 * (12 * y + z)) with (24 * y + 2 * z) by lia. split; [lia|].
    replace (12 * y + z) with (z + y * 12) by lia. rewrite Z.mod_add, Z.mod_small by lia. apply at_nth. change (Z.of_nat (List.length str_xz)) with 12; lia.
  - exists y. split; [exact R|]. split; [f_equal; f_equal; lia|]. exact (conj eq_refl (conj eq_refl (conj eq_refl eq_refl))).
Qed.
