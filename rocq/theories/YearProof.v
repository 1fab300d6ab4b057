From Coq Require Import ZArith Reals Lia Lra Bool String List Ascii Sorted.
From Coq Require Import Floats.SpecFloat.
From Flocq Require Import Core.
From Verif Require Import F64 F64R F64T CalModel CalSpec CalZ CalZ2 CalProof CalProof2 CalProof3.
From Verif Require Import Str DecSpec ItoaModel ItoaProof StrModel StrSpec StrProof FmtModel FmtSpec FmtProof FmtProof2 FmtProps.
From Verif Require Import SsqModel SsqSpec SsqProof ObTab PageSpec PageModel PageProof PageProof3 YearModel YearSpec.
Import ListNotations.
Ltac Zify.zify_post_hook ::= idtac.
Open Scope Z_scope.
Open Scope opt_scope.

(** ** parts of the text of a date *)
Lemma blank5 x t : blank_field 5 x t -> List.length t = 5%nat.
Proof. intros (k & d & _ & _ & L). exact L. Qed.
Lemma cut_md y mo d hh mm ss t : date_text y mo d hh mm ss t ->
  exists tm td, substr t 6 5 = Some (tm ++ B "-" ++ td) /\ digits_field 2 mo tm /\ digits_field 2 d td.
Proof.
  intros (ty & tmo & td & th & tm & ts & -> & F1 & F2 & F3 & F4 & F5 & F6). exists tmo, td. split; [|split; assumption].
  apply blank5 in F1. destruct F2 as [L2 _], F3 as [L3 _], F4 as [L4 _], F5 as [L5 _], F6 as [L6 _].
  destruct ty as [|y1 [|y2 [|y3 [|y4 [|y5 [|]]]]]]; try discriminate F1. destruct tmo as [|m1 [|m2 [|]]]; try discriminate L2.
  destruct td as [|d1 [|d2 [|]]]; try discriminate L3. destruct th as [|h1 [|h2 [|]]]; try discriminate L4.
  destruct tm as [|i1 [|i2 [|]]]; try discriminate L5. destruct ts as [|s1 [|s2 [|]]]; try discriminate L6. reflexivity.
Qed.
Lemma cut_time y mo d hh mm ss t : date_text y mo d hh mm ss t ->
  exists td th tm ts, substr t 9 11 = Some (td ++ B " " ++ th ++ B ":" ++ tm ++ B ":" ++ ts) /\
    digits_field 2 d td /\ digits_field 2 hh th /\ digits_field 2 mm tm /\ digits_field 2 ss ts.
Proof.
  intros (ty & tmo & td & th & tm & ts & -> & F1 & F2 & F3 & F4 & F5 & F6). exists td, th, tm, ts. split; [|repeat split; assumption || (destruct F3, F4, F5, F6; tauto)].
  apply blank5 in F1. destruct F2 as [L2 _], F3 as [L3 _], F4 as [L4 _], F5 as [L5 _], F6 as [L6 _].
  destruct ty as [|y1 [|y2 [|y3 [|y4 [|y5 [|]]]]]]; try discriminate F1. destruct tmo as [|m1 [|m2 [|]]]; try discriminate L2.
  destruct td as [|d1 [|d2 [|]]]; try discriminate L3. destruct th as [|h1 [|h2 [|]]]; try discriminate L4.
  destruct tm as [|i1 [|i2 [|]]]; try discriminate L5. destruct ts as [|s1 [|s2 [|]]]; try discriminate L6. reflexivity.
Qed.

(** ** days *)
Lemma day_text_ok d : -4381000 <= d <= 35548000 -> exists t, day_text d = Some t /\ md_text d t.
Proof.
  intros H. unfold day_text, J2000. rewrite mk_int_in by (unfold int_min, int_max; lia). cbn [obind].
  destruct (fZ_ok (d + 2451545) ltac:(lia)) as [O E].
  destruct (C06_JD2str_partial (fZ (d + 2451545)) 26 O ltac:(lia)) as (t & n & y & mo & dd & hh & mm & ss & ET & DT & DN & B1 & B2 & B3 & _ & CL).
  { rewrite E. split; apply IZR_le; lia. }
  { rewrite E. change (bpow radix2 26) with 67108864%R. apply Rabs_le.
    assert (-1929455 <= IZR (d + 2451545) <= 37999545)%R by (split; apply IZR_le; lia). lra. }
  rewrite ET. cbn [obind]. destruct (cut_md _ _ _ _ _ _ _ DT) as (tm & td & ES & F1 & F2). rewrite ES. eexists. split; [reflexivity|].
  assert (N : n = d + 2451545).
  { rewrite E in CL. change (bpow radix2 (26 - 52)) with (/ 67108864)%R in CL. apply Rabs_le_inv in CL.
    assert (C1 : (0 <= IZR (hh * 3600 + mm * 60 + ss) <= 90000)%R) by (split; apply IZR_le; lia).
    assert (C2 : IZR (hh * 3600 + mm * 60 + ss) = IZR (hh * 3600 + mm * 60 + ss)) by reflexivity.
    assert (L1 : (IZR n < IZR (d + 2451545 + 1))%R) by (rewrite plus_IZR; lra).
    assert (L2 : (IZR (d + 2451545 - 1) < IZR n)%R) by (rewrite minus_IZR; lra).
    apply lt_IZR in L1, L2. lia. }
  subst n. exists y, mo, dd, tm, td. auto.
Qed.
Lemma exact_text_ok v d : ok v -> (Rabs (R64 v - IZR d) <= 1000)%R -> -4380000 <= d <= 35540000 -> exists t, exact_text v d = Some t /\ event_text (R64 v) d t.
Proof.
  intros O HV HD. apply Rabs_le_inv in HV. assert (BD : (-4380000 <= IZR d <= 35540000)%R) by (split; apply IZR_le; lia).
  destruct (fZ_ok 2451545 ltac:(lia)) as [OJ EJ].
  destruct (fadd_ok v (fZ 2451545) O OJ) as [OS ES].
  { rewrite EJ. apply Rle_trans with (bpow radix2 30); [|apply bpow_le; lia]. change (bpow radix2 30) with 1073741824%R. apply Rabs_le. lra. }
  rewrite EJ in ES.
  assert (NR : (Rabs (R64 (fadd v (fZ 2451545)) - (R64 v + 2451545)) <= / 268435456)%R).
  { rewrite ES. change (/ 268435456)%R with (bpow radix2 (26 - 54)). apply rnd_err; [lia|]. change (bpow radix2 26) with 67108864%R. apply Rabs_le. lra. }
  apply Rabs_le_inv in NR. unfold exact_text, J2000.
  destruct (C06_JD2str_partial (fadd v (fZ 2451545)) 26 OS ltac:(lia)) as (t & n & y & mo & dd & hh & mm & ss & ET & DT & DN & B1 & B2 & B3 & _ & CL).
  { lra. }
  { change (bpow radix2 26) with 67108864%R. apply Rabs_le. lra. }
  rewrite ET. cbn [obind]. destruct (cut_time _ _ _ _ _ _ _ DT) as (td & th & tm & ts & EC & F1 & F2 & F3 & F4). rewrite EC. cbn [obind].
  destruct (add_half_ok v O) as [OH EH]; [change (bpow radix2 32) with 4294967296%R; apply Rabs_le; lra|]. rewrite int2_ok by exact OH. rewrite EH.
  pose proof (half_up_err v 26 ltac:(lia)) as HE. change (bpow radix2 26) with 67108864%R in HE. change (bpow radix2 (26 - 54)) with (/ 268435456)%R in HE.
  specialize (HE ltac:(apply Rabs_le; lra)). apply Rabs_le_inv in HE.
  pose proof (Zfloor_lb (half_up v)) as FL. pose proof (Zfloor_ub (half_up v)) as FU. set (f := Zfloor (half_up v)) in *.
  assert (BF : -4382000 < f < 35542000) by (split; apply lt_IZR; lra).
  rewrite mk_int_in by (unfold int_min, int_max; lia). cbn [obind].
  eexists. split; [reflexivity|]. exists (td ++ B " " ++ th ++ B ":" ++ tm ++ B ":" ++ ts). split.
  { exists n, y, mo, dd, hh, mm, ss, td, th, tm, ts. repeat (split; [assumption || reflexivity || lia|]).
    change (bpow radix2 (26 - 52)) with (/ 67108864)%R in CL. apply Rabs_le_inv in CL. apply Rabs_le. lra. }
  destruct (Z.eqb_spec f d) as [Q|Q].
  - left. split; [reflexivity|]. subst d. split; [lra|]. apply Rnot_le_lt. intros L.
    assert (IZR (f + 1) <= half_up v)%R; [|rewrite plus_IZR in *; lra].
    unfold half_up. rewrite <- (rnd_repr (IZR (f + 1))) by (apply repr_IZR; lia). apply rnd_le. rewrite plus_IZR. exact L.
  - right. split.
    { unfold red_on, red_off, ESC. cbn [app]. rewrite <- !app_assoc. reflexivity. }
    destruct (Z.lt_ge_cases f d) as [L|L].
    + left. assert (IZR (f + 1) <= IZR d)%R as L2 by (apply IZR_le; lia). rewrite plus_IZR in L2. apply Rnot_le_lt. intros L3.
      assert (IZR d <= half_up v)%R; [|lra]. unfold half_up. rewrite <- (rnd_repr (IZR d)) by (apply repr_IZR; lia). apply rnd_le. exact L3.
    + right. assert (IZR (d + 1) <= IZR f)%R as L2 by (apply IZR_le; lia). rewrite plus_IZR in L2. lra.
Qed.

(** ** terms *)
Definition jrange (j : Z) (n : nat) : list Z := map (fun i => j + Z.of_nat i) (seq 0 n).
Lemma jrange_S j n : jrange j (S n) = j :: jrange (j + 1) n.
Proof. unfold jrange. cbn [seq map]. f_equal; [lia|]. rewrite <- seq_shift, map_map. apply map_ext. intros i. lia. Qed.
Lemma jrange_In j n k : In k (jrange j n) <-> j <= k < j + Z.of_nat n.
Proof.
  unfold jrange. rewrite in_map_iff. split.
  - intros (i & <- & H). apply in_seq in H. lia.
  - intros H. exists (Z.to_nat (k - j)). split; [lia|]. apply in_seq. lia.
Qed.
Lemma jrange_sorted j n : StronglySorted Z.lt (jrange j n).
Proof.
  revert j. induction n as [|n IH]; intros j; [constructor|]. rewrite jrange_S. constructor; [apply IH|].
  apply Forall_forall. intros k H. apply jrange_In in H. lia.
Qed.
Lemma filter_sorted (f : Z -> bool) l : StronglySorted Z.lt l -> StronglySorted Z.lt (filter f l).
Proof.
  induction 1 as [|x l S IH F]; [constructor|]. cbn [filter]. destruct (f x); [|exact IH]. constructor; [exact IH|].
  rewrite Forall_forall in *. intros k H. apply filter_In in H. apply F, H.
Qed.
Lemma term_name_ok y j : -2 <= j <= 23 -> at_ str_jqmc (Z.rem (j + 24) 24) = Some (name_of_term (24 * y + j)).
Proof.
  intros H. rewrite Z.rem_mod_nonneg by lia. pose proof (Z.mod_pos_bound (j + 24) 24 ltac:(lia)) as B.
  rewrite (at_nth str_jqmc _ []) by (change (Z.of_nat (List.length str_jqmc)) with 24; lia). unfold name_of_term.
  replace ((24 * y + j) mod 24) with ((j + 24) mod 24). 2:{ replace (24 * y + j) with ((j + 24) + (y - 1) * 24) by lia. now rewrite Z.mod_add by lia. }
  reflexivity.
Qed.
Definition near (g : f64 -> f64) (d : Z) : Prop := ok (g (fZ d)) /\ (Rabs (R64 (g (fZ d)) - IZR d) <= 1000)%R /\ -4380000 <= d <= 35540000.
Definition timed (g : f64 -> f64) (d : Z) : R := R64 (g (fZ d)).
Lemma term_loop_ok qi s y T h0 h1 : forall n j s1, -2 <= j -> j + Z.of_nat n <= 24 ->
  (forall j, -2 <= j <= 23 -> term_day s j = Some (T (24 * y + j)) /\ near qi (T (24 * y + j))) ->
  exists ts, term_loop qi s h0 h1 n j s1 = Some (s1 ++ concat ts) /\
    Forall2 (fun j t => term_text j (T j) (timed qi (T j)) t) (filter (fun j => (h0 <=? T j) && (T j <? h1)) (jrange (24 * y + j) n)) ts.
Proof.
  induction n as [|n IH]; intros j s1 Hj Hn HT.
  - exists []. split; [cbn [term_loop concat]; now rewrite app_nil_r|constructor].
  - cbn [term_loop]. destruct (HT j ltac:(lia)) as [ED (O & NV & NB)]. rewrite ED. cbn [obind]. rewrite jrange_S. cbn [filter].
    set (d := T (24 * y + j)) in *. replace (24 * y + j + 1) with (24 * y + (j + 1)) by lia.
    destruct (Z.ltb_spec d h0) as [L|L]; cbn [orb].
    { destruct (Z.leb_spec h0 d); [lia|]. cbn [andb]. apply IH; [lia|lia|exact HT]. }
    destruct (Z.leb_spec h0 d); [|lia]. destruct (Z.leb_spec h1 d) as [L2|L2].
    { destruct (Z.ltb_spec d h1); [lia|]. cbn [andb]. apply IH; [lia|lia|exact HT]. }
    destruct (Z.ltb_spec d h1); [|lia]. cbn [andb]. rewrite (term_name_ok y j) by lia. cbn [obind].
    destruct (day_text_ok d ltac:(lia)) as (md & EM & TM). rewrite EM. cbn [obind].
    destruct (exact_text_ok (qi (fZ d)) d O NV NB) as (ex & EE & TE). rewrite EE. cbn [obind].
    destruct (IH (j + 1) (((s1 ++ B "  ") ++ name_of_term (24 * y + j) ++ md) ++ ex) ltac:(lia) ltac:(lia) HT) as (ts & EL & FL).
    exists ((B "  " ++ name_of_term (24 * y + j) ++ md ++ ex) :: ts). split.
    + rewrite EL. cbn [concat]. rewrite <- !app_assoc. reflexivity.
    + constructor; [|exact FL]. exists md, ex. auto.
Qed.

(** ** months *)
Lemma mapM_all {A C} (f : A -> option C) (P : C -> Prop) l : (forall x y, f x = Some y -> P y) -> forall r, mapM f l = Some r -> Forall P r.
Proof.
  intros HP. induction l as [|x l IH]; cbn [mapM]; intros r E; [injection E as <-; constructor|].
  destruct (f x) as [y|] eqn:EF; [|discriminate E]. cbn [obind] in E. destruct (mapM f l) as [ys|]; [|discriminate E]. cbn [obind] in E. injection E as <-.
  constructor; [exact (HP x y EF)|now apply IH].
Qed.
Definition one_or_two (m : bytes) : Prop := List.length m = 3%nat \/ List.length m = 6%nat.
Lemma ymc_len k m : at_ str_ymc k = Some m -> one_or_two m.
Proof.
  intros E. assert (F : Forall one_or_two str_ymc) by (unfold str_ymc; repeat constructor; ((left; reflexivity) || (right; reflexivity))).
  rewrite Forall_forall in F. apply F. unfold at_ in E. destruct (0 <=? k); [|discriminate E]. exact (nth_error_In _ _ E).
Qed.
Lemma names_len cal jd s : calcY cal jd = Some s -> Forall one_or_two (s_ym s).
Proof.
  unfold calcY. destruct (sui_terms cal jd) as [[ZQ pe]|]; [|discriminate]. cbn [obind]. destruct (at_ ZQ 0) as [A0|]; [|discriminate]. cbn [obind].
  destruct (sui_months cal A0) as [HS|]; [|discriminate]. cbn [obind]. destruct (mapM _ (upto 14)) as [dx|]; [|discriminate]. cbn [obind].
  destruct (mk_int (A0 + 190)) as [t|]; [|discriminate]. cbn [obind]. destruct (int2 _) as [yy|]; [|discriminate]. cbn [obind].
  destruct (mk_int (yy + 2000)) as [YY|]; [|discriminate]. cbn [obind]. destruct (_ && _).
  - destruct (mapM _ (upto 3)) as [ns|]; [|discriminate]. cbn [obind]. destruct (mapM _ (upto 14)) as [ym|] eqn:EM; [|discriminate]. cbn [obind].
    intros E. injection E as <-. cbn [s_ym]. refine (mapM_all _ _ _ _ _ EM). clear. intros i m E. cbv beta in E.
    destruct (at_ HS i) as [hs|]; [|discriminate E]. cbn [obind] in E. unfold old_name in E.
    destruct (at_ ns _) as [[[d lp] jian]|]; [|discriminate E]. cbn [obind] in E.
    repeat match type of E with obind ?a _ = _ => destruct a as [?|]; [|discriminate E]; cbn [obind] in E end.
    destruct (_ <? 12); [exact (ymc_len _ _ E)|]. unfold at_ in E. destruct (0 <=? lp); [|discriminate E]. apply nth_error_In in E.
    destruct E as [<-|[<-|[]]]; right; reflexivity.
  - destruct (leap_of ZQ HS) as [leap|]; [|discriminate]. cbn [obind]. destruct (mapM _ (upto 14)) as [ym|] eqn:EM; [|discriminate]. cbn [obind].
    intros E. injection E as <-. cbn [s_ym]. refine (mapM_all _ _ _ _ _ EM). clear. intros i m E. cbv beta in E.
    destruct (at_ HS i) as [hs|]; [|discriminate E]. cbn [obind] in E. destruct (mk_int (hs + 2451545)) as [Dm|]; [|discriminate E]. cbn [obind] in E.
    unfold month_name in E. destruct (at_ str_ymc (Z.rem (month_no leap i) 12)) as [mc|] eqn:E1; [|discriminate E]. cbn [obind] in E.
    match type of E with obind ?a _ = _ => destruct a as [mc2|] eqn:E2; [|discriminate E] end. cbn [obind] in E. injection E as <-.
    destruct (_ || _); [right; reflexivity|].
    destruct (_ && _) in E2; [exact (ymc_len _ _ E2)|]. destruct (_ && _) in E2; [exact (ymc_len _ _ E2)|]. destruct (_ && _) in E2; [exact (ymc_len _ _ E2)|].
    destruct (_ && _) in E2; injection E2 as <-; [|exact (ymc_len _ _ E1)].
    destruct (_ =? 2); [left; reflexivity|]. destruct (_ =? 0); [left; reflexivity|exact (ymc_len _ _ E1)].
Qed.

Lemma month_head_ok s i nm dx : at_ (s_ym s) i = Some nm -> one_or_two nm -> at_ (s_dx s) i = Some dx -> 29 <= dx <= 30 ->
  month_head s i = Some ((if negb (s_leap s =? 0) && (i =? s_leap s) then B "闰" else B "  ") ++ nm ++ (if (List.length nm =? 3)%nat then B "月" else []) ++
    (if dx =? 30 then B "大" else B "小")).
Proof.
  intros EN L ED BD. unfold month_head. rewrite EN, ED. cbn [obind]. set (lp := _ && _). clearbody lp. f_equal. unfold len. rewrite app_length.
  assert (DX : (29 <? dx) = (dx =? 30)) by (destruct (Z.ltb_spec 29 dx), (Z.eqb_spec dx 30); lia || reflexivity). rewrite DX.
  destruct L as [L|L]; rewrite L; destruct lp; cbn [Nat.eqb];
    (match goal with |- (if ?c then _ else _) ++ _ = _ => let v := eval vm_compute in c in change c with v end); cbv iota; rewrite ?app_nil_r, <- ?app_assoc; reflexivity.
Qed.
Lemma month_line_ok so qi s y k T M i nm : at_ (s_ym s) i = Some nm -> one_or_two nm -> window T M s y k -> 0 <= i <= 13 ->
  (forall j, -2 <= j <= 23 -> term_day s j = Some (T (24 * y + j)) /\ near qi (T (24 * y + j))) -> near so (M (k + i)) ->
  exists t, month_line so qi s i = Some t /\
    month_text (negb (s_leap s =? 0) && (i =? s_leap s)) nm (M (k + i)) (M (k + i + 1)) (timed so) T (timed qi)
      (filter (fun j => (M (k + i) <=? T j) && (T j <? M (k + i + 1))) (jrange (24 * y - 2) 26)) t.
Proof.
  intros EN L W Hi HT (OS & NS & BS). unfold month_line.
  pose proof (w_HS _ _ _ _ _ W) as LH. pose proof (w_natural _ _ _ _ _ W) as (NM & _).
  specialize (NM i ltac:(lia)). rewrite !(w_M _ _ _ _ _ W) in NM by lia. replace (k + (i + 1)) with (k + i + 1) in NM by lia.
  rewrite (month_head_ok s i nm (M (k + i + 1) - M (k + i)) EN L) by (exact (w_len _ _ _ _ _ W i ltac:(lia)) || lia). cbn [obind].
  rewrite (at_tab (s_HS s) i) by (rewrite LH; lia). cbn [obind]. rewrite (at_tab (s_HS s) (i + 1)) by (rewrite LH; lia). cbn [obind].
  rewrite !(w_M _ _ _ _ _ W) by lia. replace (k + (i + 1)) with (k + i + 1) by lia. set (h0 := M (k + i)) in *. set (h1 := M (k + i + 1)) in *.
  destruct (day_text_ok h0 ltac:(lia)) as (md & EM & TM). rewrite EM. cbn [obind].
  destruct (exact_text_ok (so (fZ h0)) h0 OS NS BS) as (ex & EE & TE). rewrite EE. cbn [obind].
  match goal with |- context [term_loop _ _ _ _ _ _ ?z] => destruct (term_loop_ok qi s y T h0 h1 26 (-2) z ltac:(lia) ltac:(lia) HT) as (ts & EL & FL) end.
  rewrite EL. eexists. split; [reflexivity|]. exists md, ex, ts. split; [now rewrite <- !app_assoc|]. auto.
Qed.
Lemma month_loop_ok so qi s y k T M K : window T M s y k -> Forall one_or_two (s_ym s) -> 0 <= K <= 13 ->
  (forall i, 0 <= i < K -> M (k + i + 1) <= T (24 * y + 24)) -> T (24 * y + 24) < M (k + K + 1) ->
  (forall j, -2 <= j <= 23 -> term_day s j = Some (T (24 * y + j)) /\ near qi (T (24 * y + j))) -> (forall i, 0 <= i < K -> near so (M (k + i))) ->
  forall n i t0, 0 <= i -> i <= K -> K - i < Z.of_nat n ->
  exists ls, month_loop so qi s n i t0 = Some (t0 ++ concat (map (fun l => l ++ [ascii_of_nat 10]) ls)) /\
    Forall2 (fun i t => exists nm, at_ (s_ym s) i = Some nm /\ month_text (negb (s_leap s =? 0) && (i =? s_leap s)) nm (M (k + i)) (M (k + i + 1)) (timed so) T (timed qi)
      (filter (fun j => (M (k + i) <=? T j) && (T j <? M (k + i + 1))) (jrange (24 * y - 2) 26)) t) (jrange i (Z.to_nat (K - i))) ls.
Proof.
  intros W NL HK BL BU HT HS. pose proof (w_HS _ _ _ _ _ W) as LH. pose proof (w_ZQ _ _ _ _ _ W) as LZ. pose proof (w_ym _ _ _ _ _ W) as LY.
  induction n as [|n IH]; intros i t0 Hi HiK Hn; [lia|]. cbn [month_loop].
  rewrite (at_tab (s_HS s) (i + 1)) by (rewrite LH; lia). cbn [obind]. rewrite (at_tab (s_ZQ s) 24) by (rewrite LZ; lia). cbn [obind].
  rewrite (w_M _ _ _ _ _ W), (w_T _ _ _ _ _ W) by lia. replace (k + (i + 1)) with (k + i + 1) by lia.
  destruct (Z.eq_dec i K) as [->|N].
  - destruct (Z.ltb_spec (T (24 * y + 24)) (M (k + K + 1))); [|lia]. rewrite Z.sub_diag. exists []. split; [cbn; now rewrite app_nil_r|constructor].
  - specialize (BL i ltac:(lia)). destruct (Z.ltb_spec (T (24 * y + 24)) (M (k + i + 1))); [lia|].
    destruct (at_some (s_ym s) i) as [nm EN]; [rewrite LY; lia|].
    assert (L : one_or_two nm). { rewrite Forall_forall in NL. apply NL. unfold at_ in EN. destruct (0 <=? i); [|discriminate EN]. exact (nth_error_In _ _ EN). }
    destruct (month_line_ok so qi s y k T M i nm EN L W ltac:(lia) HT (HS i ltac:(lia))) as (t & ET & TT). rewrite ET. cbn [obind].
    destruct (IH (i + 1) (t0 ++ t ++ [ascii_of_nat 10]) ltac:(lia) ltac:(lia) ltac:(lia)) as (ls & EL & FL).
    exists (t :: ls). split; [rewrite EL; cbn [map concat]; now rewrite <- !app_assoc|].
    replace (Z.to_nat (K - i)) with (S (Z.to_nat (K - (i + 1)))) by lia. rewrite (jrange_S i). constructor; [exists nm; auto|exact FL].
Qed.

(** ** the year *)
Lemma between_steps (M : Z -> Z) a n : M 0 <= a -> a < M (Z.of_nat n) -> exists K, 0 <= K < Z.of_nat n /\ M K <= a < M (K + 1).
Proof.
  induction n as [|n IH]; intros H0 H1; [cbn in H1; lia|]. destruct (Z.lt_ge_cases a (M (Z.of_nat n))) as [L|L].
  - destruct (IH H0 L) as (K & HK & B). exists K. split; [lia|exact B].
  - exists (Z.of_nat n). replace (Z.of_nat n + 1) with (Z.of_nat (S n)) by lia. lia.
Qed.
Lemma months_up (M : Z -> Z) i j : (forall k, 29 <= M (k + 1) - M k <= 30) -> i <= j -> M i <= M j.
Proof.
  intros C H. replace j with (i + Z.of_nat (Z.to_nat (j - i))) by lia. induction (Z.to_nat (j - i)) as [|n IH]; [replace (i + Z.of_nat 0) with i by lia; lia|].
  pose proof (C (i + Z.of_nat n)) as C1. replace (i + Z.of_nat (S n)) with (i + Z.of_nat n + 1) by lia. lia.
Qed.
Lemma terms_up (T : Z -> Z) i j : (forall k, T k < T (k + 1)) -> i <= j -> T i <= T j.
Proof.
  intros C H. replace j with (i + Z.of_nat (Z.to_nat (j - i))) by lia. induction (Z.to_nat (j - i)) as [|n IH]; [replace (i + Z.of_nat 0) with i by lia; lia|].
  pose proof (C (i + Z.of_nat n)) as C1. replace (i + Z.of_nat (S n)) with (i + Z.of_nat n + 1) by lia. lia.
Qed.
Lemma mid_year y : -9000 <= y <= 90000 ->
  exists d, int2 (fadd (fmul (fsub (fZ y) (fZ 2000)) (lit 3652422 10000)) (fZ 180)) = Some d /\ -10001 <= 10000 * d - (3652422 * (y - 2000) + 1800000) <= 1.
Proof.
  intros H. destruct (fZ_ok y ltac:(lia)) as [O1 E1]. destruct (fZ_ok 2000 ltac:(lia)) as [O2 E2]. destruct (fZ_ok 180 ltac:(lia)) as [O3 E3].
  assert (BY : (-9000 <= IZR y <= 90000)%R) by (split; apply IZR_le; lia).
  destruct (fsub_ok (fZ y) (fZ 2000) O1 O2) as [OS ES].
  { rewrite E1, E2. apply Rle_trans with (bpow radix2 30); [|apply bpow_le; lia]. change (bpow radix2 30) with 1073741824%R. apply Rabs_le. lra. }
  rewrite E1, E2, <- minus_IZR, rnd_IZR in ES by lia.
  destruct (lit_near 3652422 10000 9 ltac:(lia) ltac:(lia) ltac:(lia)) as [OT ET]; [apply Z.leb_le; vm_compute; reflexivity|].
  change (bpow radix2 (9 - 54)) with (/ 35184372088832)%R in ET. apply Rabs_le_inv in ET.
  set (c := R64 (lit 3652422 10000)) in *. set (z := IZR (y - 2000)) in *.
  assert (BZ : (-11000 <= z <= 88000)%R) by (unfold z; split; apply IZR_le; lia).
  assert (PC : (Rabs (z * c - z * (3652422 / 10000)) <= / 100000000)%R).
  { replace (z * c - z * (3652422 / 10000))%R with (z * (c - 3652422 / 10000))%R by ring. rewrite Rabs_mult.
    apply Rle_trans with (88000 * / 35184372088832)%R; [|lra]. apply Rmult_le_compat; try apply Rabs_pos; apply Rabs_le; lra. }
  apply Rabs_le_inv in PC.
  destruct (fmul_ok (fsub (fZ y) (fZ 2000)) (lit 3652422 10000) OS OT) as [OM EM].
  { rewrite ES. fold c. apply Rle_trans with (bpow radix2 30); [|apply bpow_le; lia]. change (bpow radix2 30) with 1073741824%R. apply Rabs_le. lra. }
  rewrite ES in EM. fold c in EM.
  assert (M1 : (Rabs (R64 (fmul (fsub (fZ y) (fZ 2000)) (lit 3652422 10000)) - z * c) <= / 268435456)%R).
  { rewrite EM. change (/ 268435456)%R with (bpow radix2 (26 - 54)). apply rnd_err; [lia|]. change (bpow radix2 26) with 67108864%R. apply Rabs_le. lra. }
  apply Rabs_le_inv in M1. set (p := fmul _ _) in *.
  destruct (fadd_ok p (fZ 180) OM O3) as [OA EA].
  { rewrite E3. apply Rle_trans with (bpow radix2 30); [|apply bpow_le; lia]. change (bpow radix2 30) with 1073741824%R. apply Rabs_le. lra. }
  rewrite E3 in EA.
  assert (A1 : (Rabs (R64 (fadd p (fZ 180)) - (R64 p + 180)) <= / 268435456)%R).
  { rewrite EA. change (/ 268435456)%R with (bpow radix2 (26 - 54)). apply rnd_err; [lia|]. change (bpow radix2 26) with 67108864%R. apply Rabs_le. lra. }
  apply Rabs_le_inv in A1. rewrite int2_ok by exact OA. set (q := R64 (fadd p (fZ 180))) in *.
  pose proof (Zfloor_lb q) as FL. pose proof (Zfloor_ub q) as FU. set (d := Zfloor q) in *. clearbody d q p c. clear OA EA OM EM OS.
  assert (BD : -5000000 < d < 33000000) by (split; apply lt_IZR; lra).
  exists d. rewrite mk_int_in by (unfold int_min, int_max; lia). split; [reflexivity|].
  assert (Z1 : IZR (10000 * d) = (10000 * IZR d)%R) by (now rewrite mult_IZR).
  assert (Z2 : IZR (3652422 * (y - 2000) + 1800000) = (3652422 * z + 1800000)%R) by (rewrite plus_IZR, mult_IZR; reflexivity).
  split; apply le_IZR; rewrite minus_IZR, Z1, Z2; lra.
Qed.
