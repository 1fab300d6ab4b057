(** Property C157: the table of the limits of a solar eclipse. *)
From Coq Require Import ZArith Reals Lia Lra Bool List Ascii String.
From Coq Require Import Floats.SpecFloat.
From Flocq Require Import Core.
From Verif Require Import F64 F64R F64T CalModel Str FmtModel FmtSpec FmtProps YearModel RptModel RptProps MtxProps OvwProps JxModel.
Import ListNotations.
Open Scope R_scope.
Open Scope list_scope.

(** ** Specification *)
(** there is no limit when the latitude is 100 *)
Definition no_limit (p : f64 * f64) : Prop := snd p = fZ 100.
Definition limit_ok (p : f64 * f64) : Prop := in_size (fst p) 17 /\ in_size (snd p) 17.
Definition cell_shown (between after none : string) (p : f64 * f64) (t : bytes) : Prop := no_limit p /\ t = B none \/ limit_ok p /\ exists j w, t = j ++ B between ++ w ++ B after /\ arc_shown (R64 (fst p)) j /\ arc_shown (R64 (snd p)) w.
(** the row of the moment [t]: nothing when there is no limit, else the moment (Dynamical Time) and the five limits *)
Definition row_shown (t : f64) (l : (f64 * f64) * (f64 * f64) * (f64 * f64) * (f64 * f64) * (f64 * f64)) (r : bytes) : Prop := let '(pn, un, c, us, ps) := l in
  (no_limit pn /\ no_limit un /\ no_limit c /\ no_limit us /\ no_limit ps -> r = []) /\
  (limit_ok pn \/ limit_ok un \/ limit_ok c \/ limit_ok us \/ limit_ok ps -> exists m a b x d e, r = m ++ B " " ++ a ++ b ++ x ++ d ++ e ++ NL /\ moment_text (R64 t + 2451545) m /\
    cell_shown "  " " |" "-------------------|" pn a /\ cell_shown "  " " |" "-------------------|" un b /\ cell_shown "  " " |" "-------------------|" c x /\ cell_shown "  " " |" "-------------------|" us d /\ cell_shown " " " " "------------------- " ps e).
Definition limits_ok (l : (f64 * f64) * (f64 * f64) * (f64 * f64) * (f64 * f64) * (f64 * f64)) : Prop := let '(pn, un, c, us, ps) := l in Forall (fun p => no_limit p \/ limit_ok p) [pn; un; c; us; ps].

(** ** Proofs *)
Ltac rw E := rewrite E; cbn [obind].
Lemma not_both p : no_limit p -> limit_ok p -> False.
Proof. intros N [_ [_ Bd]]. rewrite N in Bd. destruct (fZ_ok 100 ltac:(lia)) as [_ V]. rewrite V in Bd. apply Rabs_le_inv in Bd. lra. Qed.
Lemma cell_ok x y z p : no_limit p \/ limit_ok p -> exists t k, jx_cell x y z p = Some (t, k) /\ cell_shown x y z p t /\ (k = true <-> limit_ok p).
Proof.
  destruct (fZ_ok 100 ltac:(lia)) as [OZ EZ]. intros [N|L]; unfold jx_cell.
  - replace (feqb (snd p) (fZ 100)) with true by (rewrite N; vm_compute; reflexivity). exists (B z), false. split; [reflexivity|]. split; [left; auto|]. split; [discriminate|]. intros L. exfalso. exact (not_both p N L).
  - pose proof L as [HJ HW]. pose proof HW as [OW BW]. replace (feqb (snd p) (fZ 100)) with false by (rewrite feqb_ok by assumption; rewrite EZ; apply Rabs_le_inv in BW; symmetry; apply Req_bool_false; lra).
    destruct (arc_ok _ HJ) as (j & Ej & Tj), (arc_ok _ HW) as (w & Ew & Tw). rw Ej. rw Ew. eexists. exists true. split; [reflexivity|]. split; [right; split; [exact L|]; exists j, w; auto|]. split; auto.
Qed.
Section Lib.
Variable limits : f64 -> (f64 * f64) * (f64 * f64) * (f64 * f64) * (f64 * f64) * (f64 * f64).
Lemma row_ok t : in_size t 2000000 -> limits_ok (limits t) -> exists r, jx_row limits t = Some r /\ row_shown t (limits t) r.
Proof.
  intros HT HL. unfold jx_row. destruct (limits t) as [[[[pn un] c] us] ps]. unfold limits_ok in HL. repeat match goal with H : Forall _ (_ :: _) |- _ => inversion_clear H end.
  destruct (moment_ok t HT) as (m & Em & Tm). rw Em.
  destruct (cell_ok "  " " |" "-------------------|" pn) as (a & ka & Ea & Ta & Ka); [assumption|]. rw Ea.
  destruct (cell_ok "  " " |" "-------------------|" un) as (b & kb & Eb & Tb & Kb); [assumption|]. rw Eb.
  destruct (cell_ok "  " " |" "-------------------|" c) as (x & kc & Ec & Tc & Kc); [assumption|]. rw Ec.
  destruct (cell_ok "  " " |" "-------------------|" us) as (d & kd & Ed & Td & Kd); [assumption|]. rw Ed.
  destruct (cell_ok " " " " "------------------- " ps) as (e & ke & Ee & Te & Ke); [assumption|]. rw Ee.
  eexists. split; [reflexivity|]. split.
  - intros (N1 & N2 & N3 & N4 & N5). replace (ka || kb || kc || kd || ke) with false; [reflexivity|].
    destruct ka; [exfalso; exact (not_both _ N1 (proj1 Ka eq_refl))|]. destruct kb; [exfalso; exact (not_both _ N2 (proj1 Kb eq_refl))|]. destruct kc; [exfalso; exact (not_both _ N3 (proj1 Kc eq_refl))|].
    destruct kd; [exfalso; exact (not_both _ N4 (proj1 Kd eq_refl))|]. destruct ke; [exfalso; exact (not_both _ N5 (proj1 Ke eq_refl))|]. reflexivity.
  - intros L. replace (ka || kb || kc || kd || ke) with true.
    + exists m, a, b, x, d, e. split; [rewrite <- !app_assoc; reflexivity|]. auto 10.
    + symmetry. rewrite !orb_true_iff. tauto.
Qed.
(** the minute [z] of Dynamical Time, counted from J2000 *)
Definition at_minute (z : Z) (e : R) (t : f64) : Prop := ok t /\ Rabs (R64 t - IZR z / 1440) <= e.
Lemma dt_near : ok jx_dt /\ Rabs (R64 jx_dt - / 1440) <= / 10000000000000.
Proof.
  split; [split; vm_compute; reflexivity|]. match goal with |- context [R64 ?f] => let v := eval vm_compute in f in change f with v end. unfold R64, BinarySingleNaN.SF2R, F2R. cbn. apply Rabs_le. lra.
Qed.
Lemma step_near t z e : at_minute z e t -> (Z.abs z <= 2879999000)%Z -> 0 <= e <= / 10000000 -> at_minute (z + 1) (e + 2 / 10000000000) (fadd t jx_dt).
Proof.
  intros [O D] Bz Be. destruct dt_near as [OD DD]. assert (BZ : Rabs (IZR z) <= 2879999000) by (rewrite <- abs_IZR; apply IZR_le; exact Bz). apply Rabs_le_inv in BZ, D, DD.
  assert (S : Rabs (R64 t + R64 jx_dt) <= bpow radix2 21) by (change (bpow radix2 21) with 2097152; apply Rabs_le; lra).
  destruct (fadd_ok _ _ O OD) as [Os Es]; [eapply Rle_trans; [exact S|apply bpow_le; lia]|]. pose proof (rnd_err _ 21 ltac:(lia) S) as R1. rewrite <- Es in R1. change (bpow radix2 (21 - 54)) with (/ 8589934592) in R1. apply Rabs_le_inv in R1.
  split; [exact Os|]. rewrite plus_IZR. apply Rabs_le. lra.
Qed.
Lemma rows_ok : (forall t, ok t -> limits_ok (limits t)) -> forall n t z e s, at_minute z e t -> (Z.abs z + Z.of_nat n <= 2879999000)%Z -> 0 <= e -> e + INR n * (2 / 10000000000) <= / 10000000 ->
  exists ts rows, jx_rows limits n t s = Some (s ++ List.concat rows) /\ List.length rows = n /\
  forall i, (i < n)%nat -> exists ti r, nth_error ts i = Some ti /\ nth_error rows i = Some r /\ at_minute (z + Z.of_nat i) (/ 10000000) ti /\ row_shown ti (limits ti) r.
Proof.
  intros HL. induction n as [|n IH]; intros t z e s T Bz He Hn.
  - exists [], []. cbn [jx_rows List.concat]. rewrite app_nil_r. repeat split. intros i Hi. lia.
  - rewrite S_INR in Hn. pose proof (pos_INR n) as PN. pose proof T as [O D]. assert (BZ : Rabs (IZR z) <= 2879999000) by (rewrite <- abs_IZR; apply IZR_le; lia). apply Rabs_le_inv in BZ, D.
    destruct (row_ok t) as (r & Er & Tr); [split; [exact O|apply Rabs_le; lra]|exact (HL t O)|].
    destruct (IH (fadd t jx_dt) (z + 1)%Z (e + 2 / 10000000000) (s ++ r)) as (ts & rows & E & L & H); [apply step_near; [exact T|lia|lra]|lia|lra|lra|].
    exists (t :: ts), (r :: rows). cbn [jx_rows List.concat]. rw Er. rewrite E. split; [now rewrite <- app_assoc|]. split; [cbn; now rewrite L|].
    intros [|i] Hi.
    + exists t, r. cbn [nth_error]. repeat (split; [reflexivity|]). split; [|exact Tr]. change (Z.of_nat 0) with 0%Z. rewrite Z.add_0_r. split; [exact O|apply Rabs_le; lra].
    + destruct (H i ltac:(lia)) as (ti & ri & H1 & H2 & H3 & H4). exists ti, ri. cbn [nth_error]. replace (z + Z.of_nat (S i))%Z with (z + 1 + Z.of_nat i)%Z by lia. auto.
Qed.
Lemma start_near jd : ok jd -> Rabs (R64 jd) <= 1999990 -> exists z, at_minute (z - 180) (1 / 1000000000) (jx_start jd) /\ -0.000001 <= R64 jd * 1440 - IZR z <= 1.000001.
Proof.
  intros O Bj. apply Rabs_le_inv in Bj. destruct (fZ_ok 1440 ltac:(lia)) as [O1 V1]. unfold jx_start.
  assert (S : Rabs (R64 jd * R64 (fZ 1440)) <= bpow radix2 32) by (rewrite V1; change (bpow radix2 32) with 4294967296; apply Rabs_le; lra).
  destruct (fmul_ok _ _ O O1) as [Om Em]; [eapply Rle_trans; [exact S|apply bpow_le; lia]|]. pose proof (rnd_err _ 32 ltac:(lia) S) as R1. rewrite <- Em in R1. change (bpow radix2 (32 - 54)) with (/ 4194304) in R1. rewrite V1 in R1. apply Rabs_le_inv in R1.
  destruct (ffloor_ok _ Om) as [Of Vf]. set (x := fmul jd (fZ 1440)) in *. clearbody x. set (z := Zfloor (R64 x)) in *. pose proof (Zfloor_lb (R64 x)) as LB. pose proof (Zfloor_ub (R64 x)) as UB. fold z in LB, UB. clearbody z. set (y := ffloor x) in *. clearbody y.
  exists z. split; [|lra].
  assert (S2 : Rabs (R64 y / R64 (fZ 1440)) <= bpow radix2 21) by (rewrite V1, Vf; change (bpow radix2 21) with 2097152; apply Rabs_le; lra).
  destruct (fdiv_ok y (fZ 1440) Of O1) as [Od Ed]; [rewrite V1; lra|eapply Rle_trans; [exact S2|apply bpow_le; lia]|]. pose proof (rnd_err _ 21 ltac:(lia) S2) as R2. rewrite <- Ed in R2. change (bpow radix2 (21 - 54)) with (/ 8589934592) in R2. rewrite V1, Vf in R2. apply Rabs_le_inv in R2.
  assert (E8 : ok (fdiv (fZ 3) (fZ 24)) /\ R64 (fdiv (fZ 3) (fZ 24)) = / 8).
  { split; [split; vm_compute; reflexivity|]. match goal with |- context [R64 ?f] => let v := eval vm_compute in f in change f with v end. unfold R64, BinarySingleNaN.SF2R, F2R. cbn. lra. }
  destruct E8 as [O8 V8]. set (q := fdiv y (fZ 1440)) in *. clearbody q. set (h := fdiv (fZ 3) (fZ 24)) in *. clearbody h.
  assert (S3 : Rabs (R64 q - R64 h) <= bpow radix2 21) by (rewrite V8; change (bpow radix2 21) with 2097152; apply Rabs_le; lra).
  destruct (fsub_ok q h Od O8) as [Os Es]; [eapply Rle_trans; [exact S3|apply bpow_le; lia]|]. pose proof (rnd_err _ 21 ltac:(lia) S3) as R3. rewrite <- Es in R3. change (bpow radix2 (21 - 54)) with (/ 8589934592) in R3. rewrite V8 in R3. apply Rabs_le_inv in R3.
  split; [exact Os|]. rewrite minus_IZR. apply Rabs_le. lra.
Qed.
(** C157: one row for each of the 360 minutes from three hours before the minute of the middle of the eclipse on that has a limit *)
Theorem C157_table jd : ok jd -> Rabs (R64 jd) <= 1999990 -> (forall t, ok t -> limits_ok (limits t)) ->
  exists z ts rows, -0.000001 <= R64 jd * 1440 - IZR z <= 1.000001 /\
  jieX3 limits jd = Some (ESC :: B "[41;37;1m 时间(力学时) 半影北界限 本影北界线 中心线 本影南界线 半影南界线" ++ ESC :: B "[0m(伪本影南北界应互换)" ++ NL ++ NL ++ NL ++ NL ++ List.concat rows) /\ List.length rows = 360%nat /\
  forall i, (i < 360)%nat -> exists t r, nth_error ts i = Some t /\ nth_error rows i = Some r /\ Rabs (R64 t - IZR (z - 180 + Z.of_nat i) / 1440) <= / 10000000 /\ row_shown t (limits t) r.
Proof.
  intros O Bj HL. destruct (start_near jd O Bj) as (z & T & Bz).
  assert (BZ : (Z.abs (z - 180) + Z.of_nat 360 <= 2879999000)%Z). { apply Rabs_le_inv in Bj. assert ((-2879985602 <= z)%Z) by (apply le_IZR; lra). assert ((z <= 2879985602)%Z) by (apply le_IZR; lra). lia. }
  destruct (rows_ok HL 360 (jx_start jd) (z - 180) (1 / 1000000000) [] T BZ ltac:(lra)) as (ts & rows & E & L & H); [rewrite INR_IZR_INZ; change (Z.of_nat 360) with 360%Z; lra|].
  exists z, ts, rows. split; [exact Bz|]. unfold jieX3. rw E. split; [reflexivity|]. split; [exact L|]. intros i Hi. destruct (H i Hi) as (t & r & H1 & H2 & [_ H3] & H4). exists t, r. auto.
Qed.
End Lib.
(** the hypotheses can be met: a center line along the equator and no other limits *)
Example C157_example : let no := (fZ 100, fZ 100) in let limits := fun _ : f64 => (no, no, (fZ 2, fZ 0), no, no) in ok (fZ 3000) /\ Rabs (R64 (fZ 3000)) <= 1999990 /\ forall t, ok t -> limits_ok (limits t).
Proof.
  cbv zeta. destruct (fZ_ok 3000 ltac:(lia)) as [O V]. split; [exact O|]. split; [rewrite V; apply Rabs_le; lra|]. intros t _. destruct (fZ_ok 2 ltac:(lia)) as [O2 V2]. destruct (fZ_ok 0 ltac:(lia)) as [O0 V0].
  unfold limits_ok. repeat (apply Forall_cons; [first [left; reflexivity|right; split; cbn [fst snd]; (split; [assumption|]); first [rewrite V2|rewrite V0]; apply Rabs_le; lra]|]). apply Forall_nil.
Qed.
Print Assumptions C157_table.
