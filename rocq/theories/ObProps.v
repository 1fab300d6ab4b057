(** Properties C22, C24, C25, C26: festivals, Islamic calendar, eras.
    Specification: [ObSpec], structured tables [ObSpecTab].  Models: [HuiModel], [ObModel], table texts [ObTab]. *)
From Coq Require Import ZArith Lia Bool List Ascii String.
From Coq Require Import Floats.SpecFloat.
From Verif Require Import F64 F64R Str DecSpec StrModel StrSpec StrProof SsqModel ObTab ObSpec ObSpecTab ObModel ObProof EraProof HuiModel HuiProof.
Import ListNotations.
Open Scope Z_scope.
Open Scope opt_scope.

(** ** C24 *)
Theorem C24_islamic_date (n : Z) : Z.abs n < 2 ^ 30 ->
  exists c, getHuiLi (fZ n) = Some c /\ islamic n c /\ hreal c.
Proof. intros H. exists (hconv n). split; [now apply getHuiLi_ok|]. split; [apply hconv_islamic|apply hconv_real]. Qed.
(** counting gives one date only *)
Theorem C24_date_is_unique (n : Z) (c c' : hdate) : islamic n c -> islamic n c' -> c = c'.
Proof. intros H H'. rewrite (proj2 (islamic_hconv n c H)), (proj2 (islamic_hconv n c' H')). reflexivity. Qed.
(** 1 January 2000 is 24 Ramadan 1420; the day before the epoch is the last day of the leap year 0 ... *)
Example C24_witness : getHuiLi (fZ 0) = Some (1420, 9, 24) /\ getHuiLi (fZ (-503106)) = Some (0, 12, 29) /\ hleap 2 = true.
Proof. split; [vm_compute; reflexivity|]. split; vm_compute; reflexivity. Qed.

(** ** C22, C26 *)
(** The shipped tables are the texts of the structured tables, all entries well formed. *)
Fixpoint llbeq (a b : list (list bytes)) : bool :=
  match a, b with [], [] => true | x :: a, y :: b => lbeq x y && llbeq a b | _, _ => false end.
Lemma llbeq_eq a : forall b, llbeq a b = true -> a = b.
Proof.
  induction a as [|x a IH]; intros [|y b] H; try discriminate H; [reflexivity|]. cbn in H. apply andb_prop in H. destruct H as [H1 H2].
  apply lbeq_eq in H1. apply IH in H2. congruence.
Qed.
Lemma mapM_split l : mapM (fun s => split s (B ",")) l = Some (map (pieces ",") l).
Proof.
  induction l as [|x l IH]; [reflexivity|]. cbn [mapM map]. change (B ",") with [","%char] in *. rewrite split_one. cbn [obind].
  rewrite IH. reflexivity.
Qed.
Theorem C26_shipped_table : OBA_init sFtv_text = Some (map (map fest_text) festivals) /\ List.length festivals = 12%nat /\
  forallb (forallb fest_wf) festivals = true.
Proof.
  split; [|split; vm_compute; reflexivity]. unfold OBA_init. change (B "|") with ["|"%char]. rewrite split_one. cbn [obind].
  rewrite mapM_split. apply (f_equal (@Some _)). apply llbeq_eq. vm_compute. reflexivity.
Qed.
Theorem C22_shipped_table : wFtv = map wfest_text week_festivals /\ forallb wfest_wf week_festivals = true.
Proof. split; [apply lbeq_eq; vm_compute; reflexivity|vm_compute; reflexivity]. Qed.

(** Day i (from 0) of a month m of dn days whose first day has weekday w0; d is the day's label (different from i + 1 only in
    October 1582).  On any tables of well-formed entries getDayName succeeds (errno clear) and reports exactly the entries
    that are due, in table order, each in its class; the holiday flag is set on weekends and official holidays and is
    otherwise left alone. *)
Definition day_of (y m d w0 dn i : Z) : day_in :=
  mkDayIn y m d ((w0 + i) mod 7) w0 ((w0 + i) / 7) ((w0 + dn - 1) / 7 + 1).
Theorem C26_festivals fests wfests fl y m d w0 dn i r :
  1 <= m <= 12 -> 1 <= d <= 31 -> 0 <= w0 < 7 -> 1 <= dn <= 31 -> 0 <= i < dn ->
  at_ fests (m - 1) = Some fl -> forallb fest_wf fl = true -> forallb wfest_wf wfests = true ->
  let due := map (fun f => (f_mark f, f_name f)) (filter (f_due y d) fl) ++
             map (fun f => (w_mark f, w_name f)) (filter (w_due m w0 dn i) wfests) in
  exists r', getDayName (map (map fest_text) fests) (map wfest_text wfests) (day_of y m d w0 dn i) (false, r) = Some (false, r') /\
    n_A r' = n_A r ++ names Holiday due /\ n_B r' = n_B r ++ names Major due /\ n_C r' = n_C r ++ names Minor due /\
    n_F r' = if ((w0 + i) mod 7 =? 0) || ((w0 + i) mod 7 =? 6) || existsb (fun p => mark_eqb (fst p) Holiday) due then Some true else n_F r.
Proof.
  intros Hm Hd H0 H1 H2 F W1 W2 due. eexists. split; [apply (getDayName_ok fests wfests fl); assumption|].
  change (fixed_due y d fl ++ week_due m w0 dn i wfests) with due.
  destruct (fold_note due (if ((w0 + i) mod 7 =? 0) || ((w0 + i) mod 7 =? 6) then set_F r else r)) as (EA & EB & EC & EF).
  rewrite EA, EB, EC, EF. destruct (((w0 + i) mod 7 =? 0) || ((w0 + i) mod 7 =? 6)); cbn [orb set_F n_A n_B n_C n_F].
  - split; [reflexivity|]. split; [reflexivity|]. split; [reflexivity|]. now destruct (existsb _ due).
  - split; [reflexivity|]. split; [reflexivity|]. split; [reflexivity|]. reflexivity.
Qed.
(** the same for the tables shipped *)
Theorem C26_shipped_festivals y m d w0 dn i r :
  1 <= m <= 12 -> 1 <= d <= 31 -> 0 <= w0 < 7 -> 1 <= dn <= 31 -> 0 <= i < dn ->
  exists tab fl r', OBA_init sFtv_text = Some tab /\ at_ festivals (m - 1) = Some fl /\
    let due := map (fun f => (f_mark f, f_name f)) (filter (f_due y d) fl) ++
               map (fun f => (w_mark f, w_name f)) (filter (w_due m w0 dn i) week_festivals) in
    getDayName tab wFtv (day_of y m d w0 dn i) (false, r) = Some (false, r') /\
    n_A r' = n_A r ++ names Holiday due /\ n_B r' = n_B r ++ names Major due /\ n_C r' = n_C r ++ names Minor due.
Proof.
  intros Hm Hd H0 H1 H2. destruct C26_shipped_table as (T & L & W). destruct C22_shipped_table as (T2 & W2).
  destruct (nth_error festivals (Z.to_nat (m - 1))) as [fl|] eqn:E.
  2:{ apply nth_error_None in E. lia. }
  assert (A : at_ festivals (m - 1) = Some fl) by (unfold at_; destruct (Z.leb_spec 0 (m - 1)); [exact E|lia]).
  rewrite forallb_forall in W.
  destruct (C26_festivals festivals week_festivals fl y m d w0 dn i r Hm Hd H0 H1 H2 A (W fl (nth_error_In _ _ E)) W2) as (r' & E1 & E2 & E3 & E4 & _).
  exists (map (map fest_text) festivals), fl, r'. split; [exact T|]. split; [exact A|]. cbv zeta. rewrite T2.
  exact (conj E1 (conj E2 (conj E3 E4))).
Qed.
(** 9 May 2021 (a 31-day month starting on a Saturday): second Sunday, 国际母亲节 *)
Definition no_notes := mkNotes [] [] [] None.
Example C26_witness :
  getDayName (map (map fest_text) festivals) wFtv (day_of 2021 10 1 5 31 0) (false, no_notes) =
    Some (false, mkNotes (B "国庆节 ") [] (B "世界音乐日 国际老人节 ") (Some true)) /\
  getDayName (map (map fest_text) festivals) wFtv (day_of 2021 5 9 6 31 8) (false, no_notes) =
    Some (false, mkNotes [] [] (B "国际母亲节 ") (Some true)).
Proof. split; vm_compute; reflexivity. Qed.
(** finding: with errno still ERANGE from an earlier conversion, getDayName throws on any day that has an entry with
    limits, e.g. 15 March 2000 *)
Theorem C26_stale_errno_refuted : exists y m d w0 dn i,
  getDayName (map (map fest_text) festivals) wFtv (day_of y m d w0 dn i) (true, no_notes) = None.
Proof. exists 2000, 3, 15, 3, 31, 14. vm_compute. reflexivity. Qed.
(** finding: an unlimited festival with a name of one Chinese character would make getDayName throw *)
Theorem C26_short_name_refuted : exists f y m d w0 dn i,
  f_limits f = None /\ getDayName [[fest_text f]] [] (day_of y m d w0 dn i) (false, no_notes) = None.
Proof. exists (mkFest 1 Minor None (B "春")), 2000, 1, 1, 6, 31, 0. split; [reflexivity|]. vm_compute. reflexivity. Qed.

(** C22: what "due" means for an entry with ordinal k: due on exactly one day of the month, namely ... *)
Theorem C22_kth_weekday_unique m w0 dn f i j : w_k f <> 5 -> 0 <= i -> 0 <= j ->
  w_due m w0 dn i f = true -> w_due m w0 dn j f = true -> i = j.
Proof.
  intros K Hi Hj. unfold w_due. destruct (Z.eqb_spec (w_k f) 5) as [E|_]; [congruence|].
  rewrite !andb_true_iff, !Z.eqb_eq. intros [[_ W1] C1] [[_ W2] C2].
  assert (M : forall a b, 0 <= a -> a < b -> (w0 + b) mod 7 = w_day f -> count_weekday w0 (w_day f) a < count_weekday w0 (w_day f) b).
  { intros a b Ha L Wb. unfold count_weekday. apply Nat2Z.inj_lt.
    replace (S (Z.to_nat b)) with (S (Z.to_nat a) + S (Z.to_nat b - Z.to_nat a - 1))%nat by lia. rewrite seq_app, filter_app, app_length.
    enough (0 < List.length (filter (fun k : nat => ((w0 + Z.of_nat k) mod 7 =? w_day f)%Z) (seq (0 + S (Z.to_nat a)) (S (Z.to_nat b - Z.to_nat a - 1)))))%nat by lia.
    assert (I : In (Z.to_nat b) (filter (fun k : nat => (w0 + Z.of_nat k) mod 7 =? w_day f) (seq (0 + S (Z.to_nat a)) (S (Z.to_nat b - Z.to_nat a - 1))))).
    { apply filter_In. split; [apply in_seq; lia|]. rewrite Z2Nat.id by lia. now apply Z.eqb_eq. }
    destruct (filter _ _); [contradiction|cbn; lia]. }
  destruct (Z.lt_trichotomy i j) as [L|[E|L]]; [|exact E|].
  - pose proof (M i j Hi L W2). lia.
  - pose proof (M j i Hj L W1). lia.
Qed.
Example C22_witness : w_due 11 0 30 25 (mkWFest 11 4 4 Major (B "感恩节")) = true /\ count_weekday 0 4 25 = 4.
Proof. split; vm_compute; reflexivity. Qed.
(** ... and a "last weekday" entry for a day other than Sunday is not reported when the last row of the sheet lacks that
    weekday: last Saturday of a 30-day month that starts on Sunday *)
Theorem C22_last_weekday_refuted : exists f m w0 dn i r',
  w_k f = 5 /\ w_due m w0 dn i f = true /\
  getDayName [[]] [wfest_text f] (day_of 2000 m (i + 1) w0 dn i) (false, no_notes) = Some (false, r') /\
  n_A r' = [] /\ n_B r' = [] /\ n_C r' = [].
Proof.
  exists (mkWFest 1 5 6 Major (B "X")), 1, 0, 30, 27. eexists. split; [reflexivity|]. split; [vm_compute; reflexivity|].
  split; [vm_compute; reflexivity|]. split; [reflexivity|]. split; reflexivity.
Qed.

(** ** C25 *)
Theorem C25_eras es fs y : Forall era_wf es -> Forall2 era_fields es fs -> int_min <= y <= int_max ->
  exists ts, Forall2 (era_entry y) (filter (e_covers y) es) ts /\ getNH (List.concat fs) y false = Some (false, join ";" ts).
Proof.
  intros W F Hy. destruct (nh_loop_ok y es Hy W fs F (S (List.length (List.concat fs))) [] ltac:(lia) ltac:(constructor)) as (ts & E1 & E2).
  exists ts. split; [exact E1|exact E2].
Qed.
Theorem C25_shipped_table : exists fs, OBB_init JNB_text = Some (List.concat fs) /\ Forall2 era_fields eras fs /\ Forall era_wf eras /\
  List.length eras = 529%nat.
Proof.
  assert (W : Forall era_wf eras) by (apply era_wfb_ok; vm_compute; reflexivity).
  exists (map fields_of eras). split; [|split; [exact (fields_all eras W)|split; [exact W|vm_compute; reflexivity]]].
  unfold OBB_init. change (B ",") with [","%char]. rewrite split_one. apply (f_equal (@Some _)). apply lbeq_eq. vm_compute. reflexivity.
Qed.
Theorem C25_shipped_eras y : int_min <= y <= int_max ->
  exists tab ts, OBB_init JNB_text = Some tab /\ Forall2 (era_entry y) (filter (e_covers y) eras) ts /\
    getNH tab y false = Some (false, join ";" ts).
Proof.
  intros Hy. destruct C25_shipped_table as (fs & E & F & W & _). destruct (C25_eras eras fs y W F Hy) as (ts & E1 & E2).
  exists (List.concat fs), ts. exact (conj E (conj E1 E2)).
Qed.
Example C25_witness : map (fun e => e_name e) (filter (e_covers 1949) eras) = [B "公历纪元"] /\
  getNH (List.concat (map fields_of eras)) 1949 false = Some (false, B "[当代]中国  公历纪元1949年").
Proof. split; vm_compute; reflexivity. Qed.
(** finding: with errno still ERANGE getNH throws for every year *)
Theorem C25_stale_errno_refuted : exists tab, OBB_init JNB_text = Some tab /\ forall y, getNH tab y true = None.
Proof.
  destruct C25_shipped_table as (fs & E & F & W & L). exists (List.concat fs). split; [exact E|]. intros y.
  apply (getNH_stale eras); [exact W|exact F|]. intros N. rewrite N in L. discriminate L.
Qed.

Print Assumptions C24_islamic_date.
Print Assumptions C24_date_is_unique.
Print Assumptions C26_shipped_table.
Print Assumptions C22_shipped_table.
Print Assumptions C26_festivals.
Print Assumptions C26_shipped_festivals.
Print Assumptions C26_stale_errno_refuted.
Print Assumptions C26_short_name_refuted.
Print Assumptions C22_kth_weekday_unique.
Print Assumptions C22_last_weekday_refuted.
Print Assumptions C25_eras.
Print Assumptions C25_shipped_table.
Print Assumptions C25_shipped_eras.
Print Assumptions C25_stale_errno_refuted.
