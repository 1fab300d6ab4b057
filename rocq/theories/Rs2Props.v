(** Property C150: the eclipse on the screen follows the keys, lunation by lunation. *)
From Coq Require Import ZArith Reals Lia Lra Bool List String Ascii.
From Coq Require Import Floats.SpecFloat.
From Flocq Require Import Core.
From Verif Require Import F64 F64R F64T F64E AngModel PiBound ErrExpr SmTab SerModel SerSpec FormModel FormSpec FormProps SmModel EsProof.
From Verif Require Import CalModel Str FmtModel FmtSpec EcModel EcSpec EcProof EcProps EsModel IllProps EsProps RptProps Rs2Model.
Import ListNotations.
Open Scope R_scope.
Open Scope list_scope.
Open Scope opt_scope.

(** ** Specification *)
(** what the user asks for: nothing; the new moon number k; the one on the screen again; the one m months before or after; the table of 100 new moons, m months apart *)
Inductive key := Nothing | Pick (k : Z) | Again | Back (m : Z) | Forward (m : Z) | Table (m : Z).
(** a step that stands for m months, up to [e] days *)
Definition months (e : R) (m : Z) (step : f64) : Prop := ok step /\ Rabs (R64 step - 29.5306 * IZR m) <= e.
(** the arguments that say it: a day within ten days of the new moon, a step within four days of m months, or, for the table, within 0.02 day *)
Inductive asks : key -> Z * f64 * f64 -> Prop :=
| asks_nothing jd0 step : asks Nothing (0%Z, jd0, step)
| asks_pick k jd0 step : ok jd0 -> Rabs (R64 jd0 - 36525 * mean_new (IZR k)) <= 10 -> asks (Pick k) (1%Z, jd0, step)
| asks_again jd0 step : asks Again (2%Z, jd0, step)
| asks_back m jd0 step : months 4 m step -> asks (Back m) (3%Z, jd0, step)
| asks_forward m jd0 step : months 4 m step -> asks (Forward m) (4%Z, jd0, step)
| asks_table m jd0 step : months (1 / 50) m step -> asks (Table m) (5%Z, jd0, step).
(** the new moon on the screen, when [k] was on it before *)
Definition shown (k : Z) (q : key) : Z := match q with Pick k' => k' | Back m => k - m | Forward m => k + m | _ => k end.
(** the new moon at which the next key starts: the table leaves the one after its last *)
Definition left_at (k : Z) (q : key) : Z := match q with Table m => k + 100 * m | _ => shown k q end.
(** the answer for new moon [k]: on the console the date and time of a moment within five days of the mean new moon; then the text *)
Definition near_moon (k : Z) (c : bytes) : Prop := exists m, Rabs (m - 36525 * mean_new (IZR k)) <= 5 /\ moment_text (m + 2451545) c.
Definition answers (summary line : Z -> Z -> bytes) (k : Z) (q : key) (a : bytes * bytes) : Prop :=
  match q with
  | Nothing => a = ([], [])
  | Table m => near_moon k (fst a) /\ snd a = headline ++ List.concat (map (fun i => line 3%Z (k + Z.of_nat i * m)%Z) (seq 0 100))
  | _ => near_moon (shown k q) (fst a) /\ snd a = summary 7%Z (shown k q)
  end.
(** the answers to a row of keys, all new moons being of the years -993 to 4993 *)
Inductive session (summary line : Z -> Z -> bytes) : Z -> list key -> list (bytes * bytes) -> Z -> Prop :=
| session_end k : session summary line k [] [] k
| session_key k q qs a l k' : answers summary line k q a -> session summary line (left_at k q) qs l k' -> session summary line k (q :: qs) (a :: l) k'.
Fixpoint in_range (k : Z) (qs : list key) : Prop :=
  match qs with [] => True | q :: qs => (Z.abs (shown k q) <= 37060)%Z /\ (Z.abs (left_at k q) <= 37060)%Z /\ in_range (left_at k q) qs end.

(** ** Proofs *)
Definition near (r : R) (k : Z) (j : f64) : Prop := ok j /\ Rabs (R64 j - 29.5306 * IZR k - 5.098) <= r.
Section Lib.
Variables (fsin fcos : f64 -> f64) (XL1 : list (list (list f64))) (summary line : Z -> Z -> bytes).
Hypothesis Gs : good_lib fsin sin.
Hypothesis Gc : good_lib fcos cos.
Hypothesis H1 : nth_error XL1 0 = Some moon_lon_tables.
Notation calc := (rs2_calc fsin fcos XL1 summary line).

Lemma near_lunation k j : near 13 k j -> (Z.abs k <= 37060)%Z -> lunation j = Some k.
Proof.
  intros (O & D) K. assert (BK : Rabs (IZR k) <= 37060) by (rewrite <- abs_IZR; apply IZR_le; lia). apply Rabs_le_inv in D, BK. revert D. decs. intros D.
  assert (BJ : Rabs (R64 j) <= 2950000) by (apply Rabs_le; lra). destruct (num_val j O BJ) as (On & m & V & Km & I). revert I. decs. intros I.
  assert (m = k). { assert (L1 : (k - 1 < m)%Z) by (apply lt_IZR; rewrite minus_IZR; lra). assert (L2 : (m < k + 1)%Z) by (apply lt_IZR; rewrite plus_IZR; lra). lia. }
  subst m. exact (lunation_num fsin fcos Gs Gc j k O BJ V Km).
Qed.
Lemma near_mono r r' k j : near r k j -> r <= r' -> near r' k j.
Proof. intros (O & D) L. split; [exact O|lra]. Qed.
Lemma mean_near r k j : ok j -> Rabs (R64 j - 36525 * mean_new (IZR k)) <= r -> (Z.abs k <= 37060)%Z -> near (r + 1.2) k j.
Proof.
  intros O D K. assert (BK : Rabs (IZR k) <= 37060) by (rewrite <- abs_IZR; apply IZR_le; lia). pose proof (mean_line (IZR k) ltac:(lra)) as M. split; [exact O|].
  revert M. decs. intros M. apply Rabs_le_inv in M, D. apply Rabs_le. lra.
Qed.
Lemma step_near r e k m j s : near r k j -> months e m s -> r + e <= 15 -> (Z.abs k <= 37060)%Z -> (Z.abs (k + m) <= 37060)%Z -> near (r + e + / 1000000000) (k + m) (fadd j s).
Proof.
  intros (O & D) (Os & Ds) RE K KM. assert (BK : Rabs (IZR k) <= 37060) by (rewrite <- abs_IZR; apply IZR_le; lia).
  assert (BM : Rabs (IZR (k + m)) <= 37060) by (rewrite <- abs_IZR; apply IZR_le; lia). rewrite plus_IZR in BM. apply Rabs_le_inv in D, Ds, BK, BM. revert D Ds. decs. intros D Ds.
  assert (S : Rabs (R64 j + R64 s) <= bpow radix2 22) by (change (bpow radix2 22) with 4194304; apply Rabs_le; lra).
  destruct (fadd_ok j s O Os) as [Ox V]; [eapply Rle_trans; [exact S|apply bpow_le; lia]|]. split; [exact Ox|]. rewrite V.
  pose proof (rnd_err _ 22 ltac:(lia) S) as R1. change (bpow radix2 (22 - 54)) with (/ 4294967296) in R1. apply Rabs_le_inv in R1. rewrite plus_IZR. decs. apply Rabs_le. lra.
Qed.
Lemma back_near r e k m j s : near r k j -> months e m s -> r + e <= 15 -> (Z.abs k <= 37060)%Z -> (Z.abs (k - m) <= 37060)%Z -> near (r + e + / 1000000000) (k - m) (fsub j s).
Proof.
  intros (O & D) (Os & Ds) RE K KM. assert (BK : Rabs (IZR k) <= 37060) by (rewrite <- abs_IZR; apply IZR_le; lia).
  assert (BM : Rabs (IZR (k - m)) <= 37060) by (rewrite <- abs_IZR; apply IZR_le; lia). rewrite minus_IZR in BM. apply Rabs_le_inv in D, Ds, BK, BM. revert D Ds. decs. intros D Ds.
  assert (S : Rabs (R64 j - R64 s) <= bpow radix2 22) by (change (bpow radix2 22) with 4194304; apply Rabs_le; lra).
  destruct (fsub_ok j s O Os) as [Ox V]; [eapply Rle_trans; [exact S|apply bpow_le; lia]|]. split; [exact Ox|]. rewrite V.
  pose proof (rnd_err _ 22 ltac:(lia) S) as R1. change (bpow radix2 (22 - 54)) with (/ 4294967296) in R1. apply Rabs_le_inv in R1. rewrite minus_IZR. decs. apply Rabs_le. lra.
Qed.
(** eph/eph_show.cpp:163-165: back to the new moon, and its console line *)
Lemma settle k : (Z.abs k <= 37060)%Z -> exists t c, MS_aLon_t2 fsin fcos XL1 (fmul (fmul (fZ k) dpi) (fZ 2)) = Some t /\ near 6.2 k (fmul t (fZ 36525)) /\
  JD2str (fadd (fmul t (fZ 36525)) (fZ 2451545)) = Some c /\ near_moon k c.
Proof.
  intros K. destruct (start_ok fsin fcos XL1 Gs Gc H1 k K) as (t & E & O & D & B0 & _). exists t.
  pose proof (mean_near 5 k _ O D K) as N. set (j := fmul t (fZ 36525)) in *. clearbody j.
  assert (BK : Rabs (IZR k) <= 37060) by (rewrite <- abs_IZR; apply IZR_le; lia). pose proof (mean_line (IZR k) ltac:(lra)) as M. revert M. decs. intros M. apply Rabs_le_inv in M, BK. pose proof (Rabs_le_inv _ _ D) as D'.
  destruct (z_near 2451545 (/ 10000000000) ltac:(lia) ltac:(lra)) as [Oz Dz].
  destruct (add_near j (fZ 2451545) (R64 j) 2451545 (/ 10000000000) O Oz (self_near j (/ 10000000000) ltac:(lra)) Dz ltac:(lra)) as [Oa Da]; [apply Rabs_le; lra|].
  destruct (JD2str_near _ (R64 j + 2451545) Oa) as (c & Ec & T); [lra|lra|].
  exists c. split; [exact E|]. split; [eapply near_mono; [exact N|lra]|]. split; [exact Ec|]. exists (R64 j). split; assumption.
Qed.
Lemma rows_ok m step : months (1 / 50) m step -> forall i k j r s, near r k j -> r + INR i * (1 / 40) <= 10 -> (Z.abs k <= 37060)%Z -> (Z.abs (k + Z.of_nat i * m) <= 37060)%Z ->
  exists j', rs2_rows line i j step s = Some (j', s ++ List.concat (map (fun i => line 3%Z (k + Z.of_nat i * m)%Z) (seq 0 i))) /\ near (r + INR i * (1 / 40)) (k + Z.of_nat i * m) j'.
Proof.
  intros MS. induction i as [|i IH]; intros k j r s N RB K KM.
  - exists j. cbn [rs2_rows seq map List.concat]. rewrite app_nil_r. split; [reflexivity|]. cbn [INR Z.of_nat] in *. rewrite Z.mul_0_l, Z.add_0_r. eapply near_mono; [exact N|lra].
  - pose proof (pos_INR i) as PI'. rewrite S_INR in RB. cbn [rs2_rows]. rewrite (near_lunation k j) by first [exact K | eapply near_mono; [exact N|lra]]. cbn [obind].
    assert (KM1 : (Z.abs (k + m) <= 37060)%Z) by nia.
    destruct (IH (k + m)%Z (fadd j step) (r + 1 / 40) (s ++ line 3%Z k)) as (j' & E & N'); [|lra|exact KM1|replace (k + m + Z.of_nat i * m)%Z with (k + Z.of_nat (S i) * m)%Z by lia; exact KM|].
    + eapply near_mono; [apply (step_near r (1 / 50) k m j step N MS); [lra|exact K|exact KM1]|lra].
    + exists j'. split.
      * rewrite E. f_equal. f_equal. rewrite <- app_assoc. f_equal. cbn [seq map List.concat]. change (Z.of_nat 0) with 0%Z. rewrite Z.mul_0_l, Z.add_0_r. f_equal. rewrite <- seq_shift, map_map. f_equal. apply map_ext. intros a. f_equal. lia.
      * rewrite S_INR. replace (k + Z.of_nat (S i) * m)%Z with (k + m + Z.of_nat i * m)%Z by lia. eapply near_mono; [exact N'|lra].
Qed.
(** one call *)
Lemma call_ok k q fs jd0 step j : asks q (fs, jd0, step) -> near 8.8 k j -> (Z.abs k <= 37060)%Z -> (Z.abs (shown k q) <= 37060)%Z -> (Z.abs (left_at k q) <= 37060)%Z ->
  exists j' a, calc fs jd0 step j = Some (j', a) /\ answers summary line k q a /\ near 8.8 (left_at k q) j'.
Proof.
  intros A N K KS KL. destruct (settle (shown k q) KS) as (t & c & Et & Nt & Ec & NM).
  assert (L' : lunation (fmul t (fZ 36525)) = Some (shown k q)) by (apply near_lunation; [eapply near_mono; [exact Nt|lra]|exact KS]).
  inversion A; subst; clear A; cbn [shown left_at answers] in *.
  - exists j, ([], []). split; [reflexivity|]. split; [reflexivity|exact N].
  - unfold rs2_calc. cbn [Z.eqb Pos.eqb orb]. rewrite (near_lunation k0 jd0) by first [exact KS | eapply near_mono; [apply mean_near; eassumption|lra]]. cbn [obind]. rewrite Et. cbn [obind]. rewrite Ec. cbn [obind]. rewrite L'. cbn [obind].
    eexists _, _. split; [reflexivity|]. split; [split; [exact NM|reflexivity]|eapply near_mono; [exact Nt|lra]].
  - unfold rs2_calc. cbn [Z.eqb Pos.eqb orb]. rewrite (near_lunation k j) by first [exact KS | eapply near_mono; [exact N|lra]]. cbn [obind]. rewrite Et. cbn [obind]. rewrite Ec. cbn [obind]. rewrite L'. cbn [obind].
    eexists _, _. split; [reflexivity|]. split; [split; [exact NM|reflexivity]|eapply near_mono; [exact Nt|lra]].
  - unfold rs2_calc. cbn [Z.eqb Pos.eqb orb]. rewrite (near_lunation (k - m) (fsub j step)) by first [exact KS | eapply near_mono; [eapply back_near; try eassumption; lra|lra]]. cbn [obind]. rewrite Et. cbn [obind]. rewrite Ec. cbn [obind]. rewrite L'. cbn [obind].
    eexists _, _. split; [reflexivity|]. split; [split; [exact NM|reflexivity]|eapply near_mono; [exact Nt|lra]].
  - unfold rs2_calc. cbn [Z.eqb Pos.eqb orb]. rewrite (near_lunation (k + m) (fadd j step)) by first [exact KS | eapply near_mono; [eapply step_near; try eassumption; lra|lra]]. cbn [obind]. rewrite Et. cbn [obind]. rewrite Ec. cbn [obind]. rewrite L'. cbn [obind].
    eexists _, _. split; [reflexivity|]. split; [split; [exact NM|reflexivity]|eapply near_mono; [exact Nt|lra]].
  - unfold rs2_calc. cbn [Z.eqb Pos.eqb orb]. rewrite (near_lunation k j) by first [exact KS | eapply near_mono; [exact N|lra]]. cbn [obind]. rewrite Et. cbn [obind]. rewrite Ec. cbn [obind].
    assert (I100 : INR 100 = 100) by (rewrite INR_IZR_INZ; reflexivity).
    match goal with M : months (1 / 50) m step |- _ => destruct (rows_ok m step M 100 k _ 6.2 headline Nt) as (j' & E & N') end; [rewrite I100; lra|exact K|change (Z.of_nat 100) with 100%Z; lia|].
    rewrite E. cbn [obind]. eexists _, _. split; [reflexivity|]. split; [split; [exact NM|reflexivity]|]. rewrite I100 in N'. change (Z.of_nat 100) with 100%Z in N'. eapply near_mono; [exact N'|lra].
Qed.
Lemma session_ok : forall calls qs k j, Forall2 asks qs calls -> near 8.8 k j -> (Z.abs k <= 37060)%Z -> in_range k qs ->
  exists j' l k', rs2_all fsin fcos XL1 summary line j calls = Some (j', l) /\ session summary line k qs l k' /\ near 8.8 k' j'.
Proof.
  induction calls as [|[[fs jd0] step] calls IH]; intros qs k j F N K R.
  - inversion F; subst. exists j, [], k. split; [reflexivity|]. split; [constructor|exact N].
  - inversion F as [|q ? qs' ? A F']; subst. cbn [in_range] in R. destruct R as (R1 & R2 & R3).
    destruct (call_ok k q fs jd0 step j A N K R1 R2) as (j1 & a & E & AN & N1). destruct (IH qs' _ j1 F' N1 R2 R3) as (j' & l & k' & E' & S & N').
    exists j', (a :: l), k'. cbn [rs2_all]. rewrite E. cbn [obind]. rewrite E'. cbn [obind]. split; [reflexivity|]. split; [econstructor; eassumption|exact N'].
Qed.
Lemma start_near : near 8.8 106 rs2_start.
Proof.
  unfold rs2_start. assert (E : env_ok [] [] []) by constructor.
  assert (X : ok (fsub (lit 2454679926741 1000000) (fZ 2451545)) /\ Rabs (R64 (fsub (lit 2454679926741 1000000) (fZ 2451545)) - (2454679926741 / 1000000 - 2451545)) <= IZR 1267650600228229401496703 * U).
  { eapply (formula_ok fsin fcos Gs Gc _ _ _ (ESub (EL 2454679926741 1000000) (EZ 2451545)) _ _ _ E); [reflexivity|cbn [evR nth]; decs; reflexivity|vm_compute; reflexivity]. }
  destruct X as [Ox Dx]. assert (EU : 1267650600228229401496703 * U <= 1 / 1000000) by (unfold U, one; lra). split; [exact Ox|]. apply Rabs_le_inv in Dx. decs. apply Rabs_le. lra.
Qed.

(** C150 (partial: fs at most 5, new moons of about the years -993 to 4993, and the texts of one eclipse are parameters): whatever keys are pressed, from the new moon 106 (1 August 2008) on, each answer is for the new moon that the keys lead to *)
Theorem C150_session_partial qs calls : Forall2 asks qs calls -> in_range 106 qs ->
  exists j l k, rs2_all fsin fcos XL1 summary line rs2_start calls = Some (j, l) /\ session summary line 106 qs l k.
Proof.
  intros F R. destruct (session_ok calls qs 106%Z rs2_start F start_near ltac:(lia) R) as (j & l & k & E & S & _). exists j, l, k. split; assumption.
Qed.
(** once a new moon is on the screen, asking for it again changes nothing: the same variable, the same console line, the same text *)
Theorem C150_again fs jd0 step jd0' step' j j' a k q : asks q (fs, jd0, step) -> (1 <= fs <= 4)%Z -> near 8.8 k j -> (Z.abs k <= 37060)%Z -> (Z.abs (shown k q) <= 37060)%Z ->
  calc fs jd0 step j = Some (j', a) -> calc 2 jd0' step' j' = Some (j', a).
Proof.
  intros A F N K KS E. assert (KL : left_at k q = shown k q) by (inversion A; subst; try reflexivity; lia).
  assert (X : exists x, calc fs jd0 step j = (let* t := MS_aLon_t2 fsin fcos XL1 (fmul (fmul (fZ x) dpi) (fZ 2)) in let* c := JD2str (fadd (fmul t (fZ 36525)) (fZ 2451545)) in let* k := lunation (fmul t (fZ 36525)) in Some (fmul t (fZ 36525), (c, summary 7%Z k))) /\ x = shown k q).
  { exists (shown k q). split; [|reflexivity]. inversion A; subst; cbn [shown] in *; try lia; unfold rs2_calc; cbn [Z.eqb Pos.eqb orb].
    - rewrite (near_lunation k0 jd0) by first [exact KS | eapply near_mono; [apply mean_near; eassumption|lra]]. reflexivity.
    - rewrite (near_lunation k j) by first [exact KS | eapply near_mono; [exact N|lra]]. reflexivity.
    - rewrite (near_lunation (k - m) (fsub j step)) by first [exact KS | eapply near_mono; [eapply back_near; try eassumption; lra|lra]]. reflexivity.
    - rewrite (near_lunation (k + m) (fadd j step)) by first [exact KS | eapply near_mono; [eapply step_near; try eassumption; lra|lra]]. reflexivity. }
  destruct X as (x & EX & ->). rewrite EX in E. destruct (settle (shown k q) KS) as (t & c & Et & Nt & Ec & NM).
  assert (L' : lunation (fmul t (fZ 36525)) = Some (shown k q)) by (apply near_lunation; [eapply near_mono; [exact Nt|lra]|exact KS]).
  rewrite Et in E. cbn [obind] in E. rewrite Ec in E. cbn [obind] in E. rewrite L' in E. cbn [obind] in E. assert (EJ : j' = fmul t (fZ 36525) /\ a = (c, summary 7%Z (shown k q))) by (split; congruence). destruct EJ as [-> ->].
  unfold rs2_calc. cbn [Z.eqb Pos.eqb orb]. rewrite L'. cbn [obind]. rewrite Et. cbn [obind]. rewrite Ec. cbn [obind]. rewrite L'. reflexivity.
Qed.
(** false for the table: after the table of the 100 months from k on, the key that is to keep the time (eph/eph_show.cpp:160) shows the new moon k + 100 *)
Theorem C150_table_moves_refuted jd0 step jd0' step' k j : asks (Table 1) (5%Z, jd0, step) -> near 8.8 k j -> (Z.abs k <= 36960)%Z ->
  exists j1 a1 j2 a2, calc 5 jd0 step j = Some (j1, a1) /\ calc 2 jd0' step' j1 = Some (j2, a2) /\ near_moon k (fst a1) /\ near_moon (k + 100) (fst a2) /\ snd a2 = summary 7%Z (k + 100)%Z.
Proof.
  intros A N K. destruct (call_ok k (Table 1) 5 jd0 step j A N) as (j1 & a1 & E1 & (B1 & _) & N1); cbn [shown left_at] in *; try lia.
  destruct (call_ok (k + 100 * 1) Again 2 jd0' step' j1 (asks_again _ _) N1) as (j2 & a2 & E2 & (B2 & B3) & _); cbn [shown left_at] in *; try lia.
  exists j1, a1, j2, a2. replace (k + 100 * 1)%Z with (k + 100)%Z in * by lia. repeat split; assumption.
Qed.
End Lib.
(** other values of fs: the function ends without returning a string, whatever the state *)
Theorem C150_no_return_refuted fsin fcos XL1 summary line fs jd0 step jd : (6 <= fs <= 255)%Z -> rs2_calc fsin fcos XL1 summary line fs jd0 step jd = None.
Proof.
  intros F. unfold rs2_calc. repeat match goal with |- context [(fs =? ?z)%Z] => replace (fs =? z)%Z with false by (symmetry; apply Z.eqb_neq; lia) end. cbn [orb].
  destruct (lunation jd); [|reflexivity]. cbn [obind]. destruct (MS_aLon_t2 _ _ _ _); [|reflexivity]. cbn [obind]. destruct (JD2str _); reflexivity.
Qed.
(** the hypotheses can be met: the default step is one month, and a row of keys *)
Lemma default_month : months (1 / 50) 1 (lit 295306 10000).
Proof.
  destruct good_lib_exists as (fsin & fcos & _ & Gs & Gc & _). assert (E : env_ok [] [] []) by constructor.
  assert (X : ok (lit 295306 10000) /\ Rabs (R64 (lit 295306 10000) - 295306 / 10000) <= IZR 1267650600228229401496703 * U).
  { eapply (formula_ok fsin fcos Gs Gc _ _ _ (EL 295306 10000) _ _ _ E); [reflexivity|cbn [evR nth]; decs; reflexivity|vm_compute; reflexivity]. }
  destruct X as [Ox Dx]. assert (EU : 1267650600228229401496703 * U <= 1 / 1000000) by (unfold U, one; lra). split; [exact Ox|]. apply Rabs_le_inv in Dx. decs. apply Rabs_le. lra.
Qed.
Example C150_example : let s := lit 295306 10000 in
  Forall2 asks [Forward 1; Forward 1; Back 1; Again; Nothing; Table 1; Again] [(4%Z, fZ 0, s); (4%Z, fZ 0, s); (3%Z, fZ 0, s); (2%Z, fZ 0, s); (0%Z, fZ 0, s); (5%Z, fZ 0, s); (2%Z, fZ 0, s)] /\
  in_range 106 [Forward 1; Forward 1; Back 1; Again; Nothing; Table 1; Again] /\ fold_left left_at [Forward 1; Forward 1; Back 1; Again; Nothing; Table 1; Again] 106%Z = 207%Z.
Proof.
  cbv zeta. pose proof default_month as M. assert (M4 : months 4 1 (lit 295306 10000)) by (destruct M as (O & D); split; [exact O|lra]).
  split; [repeat (apply Forall2_cons; [constructor; assumption|]); apply Forall2_nil|]. split; [cbn [in_range shown left_at]; lia|reflexivity].
Qed.
Example C150_pick_example : asks (Pick 0) (1%Z, fZ 5, fZ 0).
Proof.
  destruct (fZ_ok 5 ltac:(lia)) as [O V]. constructor; [exact O|]. rewrite V. pose proof (mean_line 0 ltac:(rewrite Rabs_R0; lra)) as M. revert M. decs. intros M. apply Rabs_le_inv in M. apply Rabs_le. lra.
Qed.
(** the state in which the program starts meets the condition of C150_again and C150_table_moves_refuted *)
Example C150_start_example : near 8.8 106 rs2_start /\ asks (Table 1) (5%Z, fZ 0, lit 295306 10000) /\ asks Again (2%Z, fZ 0, fZ 0).
Proof.
  destruct good_lib_exists as (fsin & fcos & _ & Gs & Gc & _). split; [exact (start_near fsin fcos Gs Gc)|]. split; constructor. exact default_month.
Qed.
Print Assumptions C150_session_partial.
Print Assumptions C150_again.
Print Assumptions C150_table_moves_refuted.
Print Assumptions C150_no_return_refuted.
