(** C86: the calendar of a year as text (lunar/lunar.cpp:196-238 nianLiSTR). *)
From Coq Require Import ZArith Reals Lia Lra Bool String List Ascii Sorted.
From Coq Require Import Floats.SpecFloat.
From Flocq Require Import Core.
From Verif Require Import F64 F64R F64T CalModel CalSpec Str DecSpec FmtSpec.
From Verif Require Import SsqModel SsqSpec SsqProof ObTab PageSpec PageModel PageProof PageProof3 PageProps YearModel YearSpec YearProof.
Import ListNotations.
Ltac Zify.zify_post_hook ::= idtac.
Open Scope Z_scope.
Open Scope opt_scope.

(** calcY gives, for a day d, the window of year y, and the two terms before its solstice *)
Definition serves_year (T M : Z -> Z) (cal : f64 -> Z -> option Z) (y k : Z) (s : sui) (d : Z) : Prop :=
  calcY cal (fZ d) = Some s /\ window T M s y k /\ s_pe s = [T (24 * y - 1); T (24 * y - 2)].
(** an exact time found for a day: finite and within 1000 days of it *)
Definition tracks (g : f64 -> f64) : Prop := forall d, -4380000 <= d <= 35540000 -> ok (g (fZ d)) /\ (Rabs (R64 (g (fZ d)) - IZR d) <= 1000)%R.

Lemma Forall2_len {A C} (P : A -> C -> Prop) l m : Forall2 P l m -> List.length l = List.length m.
Proof. induction 1; cbn; congruence. Qed.
(** The text of year y has one line for every month from the one with the solstice before the year to the one before the month with the next
    solstice.  Each line is the leap mark, the name, the length and the first day of the month with the exact new moon, then all terms of
    the month in order, each with its name, day and exact time; the times are red when they fall on another day than the calendar's. *)
Theorem C86_year_text T M cal so qi y k s :
  calendar T M -> -9000 <= y <= 90000 -> T (24 * y - 3) <= T (24 * y) - 30 -> T (24 * y) - 60 <= T (24 * y - 2) ->
  (forall d, -10001 <= 10000 * d - (3652422 * (y - 2000) + 1800000) <= 1 -> serves_year T M cal y k s d) -> tracks so -> tracks qi ->
  exists t ls K, nianLiSTR cal so qi y = Some t /\
    t = concat (map (fun l => l ++ [ascii_of_nat 10]) ls) /\
    M k <= T (24 * y) < M (k + 1) /\ M (k + K) <= T (24 * y + 24) < M (k + K + 1) /\ 11 <= K <= 13 /\ List.length ls = Z.to_nat K /\
    forall i l, nth_error ls i = Some l -> exists name js,
      nth_error (s_ym s) i = Some name /\
      terms_between T (M (k + Z.of_nat i)) (M (k + Z.of_nat i + 1)) js /\
      month_text (negb (s_leap s =? 0) && (Z.of_nat i =? s_leap s)) name (M (k + Z.of_nat i)) (M (k + Z.of_nat i + 1))
        (fun d => R64 (so (fZ d))) T (fun d => R64 (qi (fZ d))) js l.
Proof.
  intros [CT CM] HY H3 H2 HS TS TQ. destruct (mid_year y HY) as (d & ED & BD). destruct (HS d BD) as (EC & W & PE).
  pose proof (w_natural _ _ _ _ _ W) as (NM & NT & NS & NB). pose proof (w_even _ _ _ _ _ W) as EV. pose proof (w_year _ _ _ _ _ W) as SO.
  pose proof (EV 24 ltac:(lia)) as E24. unfold solstice_of in SO. unfold in_month in NB.
  rewrite (w_T _ _ _ _ _ W 0) in * by lia. rewrite (w_T _ _ _ _ _ W 24) in * by lia. rewrite !(w_M _ _ _ _ _ W) in NB by lia.
  replace (24 * y + 0) with (24 * y) in * by lia. rewrite ?Z.add_0_r, ?Z.add_0_l in NB.
  assert (CK : forall n, 0 <= n -> M k + 29 * n <= M (k + n) <= M k + 30 * n).
  { intros n Hn. pattern n. apply natlike_ind; [replace (k + 0) with k by lia; lia| |exact Hn]. intros x Hx IH. pose proof (CM (k + x)) as C1.
    replace (k + Z.succ x) with (k + x + 1) by lia. lia. }
  pose proof (CM k) as CK0.
  destruct (between_steps (fun i => M (k + i)) (T (24 * y + 24)) 14) as (K & HK & BK).
  { replace (k + 0) with k by lia. lia. }
  { pose proof (CK 14 ltac:(lia)). change (Z.of_nat 14) with 14. lia. }
  cbv beta in BK. replace (k + (K + 1)) with (k + K + 1) in BK by lia. change (Z.of_nat 14) with 14 in HK.
  assert (K11 : 11 <= K). { destruct (Z.lt_ge_cases K 11) as [C|C]; [|exact C]. exfalso. pose proof (CK (K + 1) ltac:(lia)) as C2. replace (k + (K + 1)) with (k + K + 1) in C2 by lia. lia. }
  assert (HT : forall j, -2 <= j <= 23 -> term_day s j = Some (T (24 * y + j)) /\ near qi (T (24 * y + j))).
  { intros j Hj. split.
    - unfold term_day. destruct (Z.leb_spec 0 j).
      + rewrite (at_tab (s_ZQ s) j) by (rewrite (w_ZQ _ _ _ _ _ W); lia). f_equal. apply (w_T _ _ _ _ _ W). lia.
      + rewrite PE. destruct (Z.eqb_spec j (-1)) as [->|]; [reflexivity|]. replace j with (-2) by lia. reflexivity.
    - assert (B1 : T (24 * y - 2) <= T (24 * y + j)) by (apply terms_up; [exact CT|lia]).
      assert (B2 : T (24 * y + j) <= T (24 * y + 24)) by (apply terms_up; [exact CT|lia]).
      assert (BQ : -4380000 <= T (24 * y + j) <= 35540000) by lia. destruct (TQ _ BQ) as [O1 O2]. split; [exact O1|split; [exact O2|exact BQ]]. }
  assert (HM : forall i, 0 <= i < K -> near so (M (k + i))).
  { intros i Hi. pose proof (CK i ltac:(lia)) as C1. assert (BQ : -4380000 <= M (k + i) <= 35540000) by lia.
    destruct (TS _ BQ) as [O1 O2]. split; [exact O1|split; [exact O2|exact BQ]]. }
  destruct (month_loop_ok so qi s y k T M K W (names_len _ _ _ EC) ltac:(lia)) with (n := 14%nat) (i := 0) (t0 := @nil ascii) as (ls & EL & FL).
  - intros i Hi. destruct BK as [BK _]. pose proof (months_up M (k + i + 1) (k + K) CM ltac:(lia)). lia.
  - apply BK.
  - exact HT.
  - exact HM.
  - lia.
  - lia.
  - lia.
  - exists (concat (map (fun l => l ++ [ascii_of_nat 10]) ls)), ls, K. rewrite Z.sub_0_r in FL.
    split; [unfold nianLiSTR; rewrite ED; cbn [obind]; rewrite EC; cbn [obind]; exact EL|].
    split; [reflexivity|]. split; [exact NB|]. split; [exact BK|]. split; [lia|]. split.
    { apply Forall2_len in FL. unfold jrange in FL. rewrite map_length, seq_length in FL. symmetry. exact FL. }
    intros i l Hl. assert (HiK : (i < Z.to_nat K)%nat).
    { apply Forall2_len in FL. unfold jrange in FL. rewrite map_length, seq_length in FL. refine (Nat.lt_le_trans _ _ _ _ (Nat.eq_le_incl _ _ (eq_sym FL))). apply nth_error_Some. intros C. pose proof (eq_trans (eq_sym Hl) C) as D. discriminate D. }
    assert (X : exists nm, at_ (s_ym s) (Z.of_nat i) = Some nm /\ month_text (negb (s_leap s =? 0) && (Z.of_nat i =? s_leap s)) nm (M (k + Z.of_nat i)) (M (k + Z.of_nat i + 1)) (timed so) T (timed qi)
      (filter (fun j => (M (k + Z.of_nat i) <=? T j) && (T j <? M (k + Z.of_nat i + 1))) (jrange (24 * y - 2) 26)) l).
    { assert (HJ : nth_error (jrange 0 (Z.to_nat K)) i = Some (Z.of_nat i)).
      { unfold jrange. rewrite nth_error_map, (nth_error_nth' _ 0%nat) by (now rewrite seq_length). rewrite seq_nth by exact HiK. reflexivity. }
      clear - FL HJ Hl. revert FL HJ Hl. generalize (jrange 0 (Z.to_nat K)), (Z.of_nat i). intros is z FL HJ Hl. revert i HJ Hl.
      induction FL as [|a b la lb P F IH]; intros [|i] HJ Hl; try discriminate Hl.
      - injection Hl as <-. injection HJ as <-. exact P.
      - exact (IH i HJ Hl). }
    destruct X as (nm & EN & TX). unfold at_ in EN. destruct (0 <=? Z.of_nat i); [|discriminate EN]. rewrite Nat2Z.id in EN.
    eexists nm, _. split; [exact EN|]. split; [|exact TX].
    pose proof (months_up M k (k + Z.of_nat i) CM ltac:(lia)) as U1. pose proof (months_up M (k + Z.of_nat i + 1) (k + K) CM ltac:(lia)) as U2.
    split; [apply filter_sorted, jrange_sorted|]. intros j. rewrite filter_In, jrange_In, andb_true_iff, Z.leb_le, Z.ltb_lt. split; [tauto|]. intros HJ. split; [|exact HJ].
    change (Z.of_nat 26) with 26. split.
    + destruct (Z.lt_ge_cases j (24 * y - 2)) as [C|C]; [|exact C]. exfalso. pose proof (terms_up T j (24 * y - 3) CT ltac:(lia)). lia.
    + destruct (Z.lt_ge_cases j (24 * y + 24)) as [C|C]; [lia|]. exfalso. pose proof (terms_up T (24 * y + 24) j CT ltac:(lia)). lia.
Qed.

Example C86_witness : calendar T0 M0 /\ T0 (24 * 100 - 3) <= T0 (24 * 100) - 30 /\ T0 (24 * 100) - 60 <= T0 (24 * 100 - 2) /\
  (forall d, -10001 <= 10000 * d - (3652422 * (100 - 2000) + 1800000) <= 1 -> serves_year T0 M0 cal0 100 0 sui5 d) /\ tracks (fun x => x).
Proof.
  split; [exact calendar0|]. split; [vm_compute; discriminate|]. split; [vm_compute; discriminate|]. split.
  - intros d Hd. replace d with (-693781) by lia. split; [vm_compute; reflexivity|]. split; [exact window0|vm_compute; reflexivity].
  - intros d Hd. destruct (fZ_ok d ltac:(lia)) as [O E]. split; [exact O|]. rewrite E, Rminus_diag_eq, Rabs_R0 by reflexivity. lra.
Qed.
(** and the text it gives *)
Example C86_witness_line : option_map (firstn 82) (nianLiSTR cal0 (fun x => x) (fun x => x) 100) =
  Some (B "  十一小 12-23(23 12:00:00)  冬至12-23(23 12:00:00)  小寒01-07(07 12:00:00)").
Proof. vm_compute. reflexivity. Qed.

Print Assumptions C86_year_text.
