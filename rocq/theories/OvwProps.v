(** Property C156: the overview of one solar eclipse. *)
From Coq Require Import ZArith Reals Lia Lra Bool List Ascii String.
From Coq Require Import Floats.SpecFloat.
From Flocq Require Import Core.
From Verif Require Import F64 F64R F64T F64E AngModel PiBound ErrExpr SerSpec FormModel FormSpec FormProps TermDay IllProps.
From Verif Require Import CalModel Str DecSpec FmtModel FmtSpec FmtProps DtoaModel DtoaProps FmModel FmProps YearModel RptModel RptProps RysModel MtxProps OvwModel.
Import ListNotations.
Open Scope R_scope.
Open Scope list_scope.

(** ** Specification *)
(** [t] is the angle of [d] radians in degrees and minutes below 60, right to half a minute *)
Definition arc_shown (d : R) (t : bytes) : Prop := exists ta tb a b, t = (if Rlt_dec d 0 then B "-" else B "+") ++ ta ++ B "°" ++ tb ++ B "'" /\ blank_field 3 a ta /\ digits_field 2 b tb /\ (0 <= b <= 59)%Z /\
  Rabs (IZR (a * 60 + b) - Rabs d * (180 / PI) * 60) <= 0.50001.
(** the line of a point: its moment (days of Dynamical Time from J2000), longitude, latitude *)
Definition point_shown (label : string) (g : gpoint) (t : bytes) : Prop := exists m j w, t = B label ++ m ++ B " " ++ j ++ B "," ++ w ++ NL /\ moment_text (R64 (g_t g) + 2451545) m /\ arc_shown (R64 (g_J g)) j /\ arc_shown (R64 (g_W g)) w.
Definition point_ok (g : gpoint) : Prop := in_size (g_J g) 17 /\ in_size (g_W g) 17 /\ in_size (g_t g) 2000000.
(** [t] is [v] seconds as sign, whole minutes and the text without decimals of the seconds left *)
Definition whole_shown (beyond : Z -> option Z) (v : R) (t : bytes) : Prop := exists w f m tf tm, Rabs (w - v) <= / 10000000 /\ ok m /\ 0 <= R64 m < 60 /\ Rabs w = 60 * IZR f + R64 m /\ int_text f tf /\ to_str_double beyond m 0 0 false = Some tm /\
  t = (if Rlt_dec w 0 then ["-"%char] else []) ++ tf ++ B "m" ++ tm ++ B "s".

(** ** Proofs *)
Lemma degree_ok x : in_size x 17 -> ok (fmul x deg_per_rad) /\ Rabs (R64 (fmul x deg_per_rad) - R64 x * (180 / PI)) <= / 10000000000.
Proof.
  intros [O Bx]. destruct good_lib_exists as (fsin & fcos & _ & Gs & Gc & _). assert (E : env_ok [x] [R64 x] [given 17]) by (constructor; [apply given_ok; assumption|constructor]).
  assert (X : ok (fmul x deg_per_rad) /\ Rabs (R64 (fmul x deg_per_rad) - R64 x * (180 / PI)) <= IZR 1267650600228229401 * U) by (unfold deg_per_rad; pose proof PI_RGT_0; formula2 fsin fcos Gs Gc [x] E; lra).
  destruct X as [Ox Dx]. split; [exact Ox|]. assert (EU : 1267650600228229401 * U <= / 10000000000) by (unfold U, one; lra). lra.
Qed.
Lemma arc_ok d : in_size d 17 -> exists t, rad2str2 d = Some t /\ arc_shown (R64 d) t.
Proof.
  intros [O Bd]. destruct (C14_rad2str2 d O Bd) as (t & ta & tb & a & b & E & T & Ta & Tb & Ba & Bb & D). exists t. split; [exact E|]. exists ta, tb, a, b.
  split. { destruct (Rlt_bool_spec (R64 d) 0), (Rlt_dec (R64 d) 0); try exact T; lra. }
  split; [exact Ta|]. split; [exact Tb|]. split; [exact Bb|].
  assert (OA : exists x, ok x /\ R64 x = Rabs (R64 d)). { destruct (Rle_or_lt 0 (R64 d)) as [P|P]; [exists d; split; [exact O|now rewrite Rabs_pos_eq]|]. destruct (fopp_ok d O) as [O1 V1]. exists (fopp d). split; [exact O1|]. now rewrite V1, Rabs_left. }
  destruct OA as (x & OA & VA). assert (Bx : Rabs (R64 x) <= 17) by (rewrite VA, Rabs_Rabsolu; exact Bd). destruct (degree_ok x (conj OA Bx)) as [Om Dm].
  assert (P : ok deg_per_rad /\ Rabs (R64 deg_per_rad) <= 64).
  { split; [split; vm_compute; reflexivity|]. apply Rabs_le; match goal with |- context [R64 ?f] => let v := eval vm_compute in f in change f with v end; unfold R64, BinarySingleNaN.SF2R, F2R; cbn; lra. }
  destruct P as [OP BP]. rewrite <- VA in D |- *. rewrite mpi_is in D. fold deg_per_rad in D.
  assert (M : R64 (fmul x deg_per_rad) = rnd (R64 x * R64 deg_per_rad)).
  { apply fmul_ok; [exact OA|exact OP|]. apply Rle_trans with 2048; [|change 2048 with (bpow radix2 11); apply bpow_le; lia]. rewrite Rabs_mult. pose proof (Rabs_pos (R64 x)). pose proof (Rabs_pos (R64 deg_per_rad)). nra. }
  rewrite <- M in D. apply Rabs_le_inv in D, Dm. decs. apply Rabs_le. lra.
Qed.
Lemma moment_ok v : in_size v 2000000 -> exists t, JD2str (fadd v (fZ 2451545)) = Some t /\ moment_text (R64 v + 2451545) t.
Proof.
  intros [OT BT]. destruct (fZ_ok 2451545 ltac:(lia)) as [OZ EZ]. apply Rabs_le_inv in BT.
  assert (S : Rabs (R64 v + R64 (fZ 2451545)) <= bpow radix2 23) by (rewrite EZ; change (bpow radix2 23) with 8388608; apply Rabs_le; lra).
  destruct (fadd_ok _ _ OT OZ) as [Os Es]; [eapply Rle_trans; [exact S|apply bpow_le; lia]|]. pose proof (rnd_err _ 23 ltac:(lia) S) as R1. rewrite <- Es in R1. change (bpow radix2 (23 - 54)) with (/ 2147483648) in R1. rewrite EZ in R1.
  exact (JD2str_near _ (R64 v + 2451545) Os ltac:(lra) ltac:(lra)).
Qed.
Ltac rw E := rewrite E; cbn [obind].
Lemma point_line_ok l g : point_ok g -> exists t, point_line l g = Some t /\ point_shown l g t.
Proof.
  intros (HJ & HW & HT). destruct (moment_ok _ HT) as (m & Em & Tm), (arc_ok _ HJ) as (j & Ej & Tj), (arc_ok _ HW) as (w & Ew & Tw). unfold point_line. rw Em. rw Ej. rw Ew.
  eexists. split; [reflexivity|]. exists m, j, w. auto.
Qed.
(** the points in the order of time, each with its own moment and place; the point of noon exactly if its latitude is not 100 *)
Theorem C156_points r : point_ok (f_gk1 r) -> point_ok (f_gk2 r) -> point_ok (f_gk3 r) -> point_ok (f_gk4 r) -> (g_W (f_gk5 r) = fZ 100 \/ point_ok (f_gk5 r)) ->
  exists a b c d e, points r = Some (a ++ b ++ c ++ d ++ e) /\ point_shown "偏食始：" (f_gk3 r) a /\ point_shown "中心始：" (f_gk1 r) b /\ point_shown "中心终：" (f_gk2 r) d /\ point_shown "偏食终：" (f_gk4 r) e /\
  (g_W (f_gk5 r) = fZ 100 -> c = []) /\ (point_ok (f_gk5 r) -> point_shown "视午食：" (f_gk5 r) c).
Proof.
  intros H1 H2 H3 H4 H5. unfold points. destruct (point_line_ok "偏食始：" _ H3) as (a & Ea & Ta), (point_line_ok "中心始：" _ H1) as (b & Eb & Tb), (point_line_ok "中心终：" _ H2) as (d & Ed & Td), (point_line_ok "偏食终：" _ H4) as (e & Ee & Te).
  rw Ea. rw Eb. destruct (fZ_ok 100 ltac:(lia)) as [OZ EZ].
  assert (N : point_ok (f_gk5 r) -> feqb (g_W (f_gk5 r)) (fZ 100) = false).
  { intros (_ & [OW BW] & _). rewrite feqb_ok by assumption. rewrite EZ. apply Rabs_le_inv in BW. apply Req_bool_false. lra. }
  destruct H5 as [H5|H5].
  - replace (feqb (g_W (f_gk5 r)) (fZ 100)) with true by (rewrite H5; vm_compute; reflexivity). cbn [obind]. rw Ed. rw Ee. exists a, b, [], d, e. split; [reflexivity|]. do 4 (split; [assumption|]). split; [intros _; reflexivity|].
    intros H. specialize (N H). rewrite H5 in N. vm_compute in N. discriminate.
  - rewrite (N H5). destruct (point_line_ok "视午食：" _ H5) as (c & Ec & Tc). rw Ec. rw Ed. rw Ee. exists a, b, c, d, e. split; [reflexivity|]. do 4 (split; [assumption|]). split; [|auto].
    intros H. specialize (N H5). rewrite H in N. vm_compute in N. discriminate.
Qed.
Section Lib.
Variables (beyond : Z -> option Z) (name : bytes -> bytes).
Hypothesis HB : forall i, (10 <= i <= 16)%Z -> beyond i <> None.
Definition center_ok (r : ovw) : Prop := ok (f_D r) /\ ok (f_sf r) /\ ok (f_dw r) /\ in_size (f_zxJ r) 17 /\ in_size (f_zxW r) 17 /\ in_size (f_SJ r) 17 /\ in_size (f_SW r) 17 /\ in_size (f_jd r) 2000000 /\ in_size (f_tt r) 1000.
(** the lines of the center *)
Theorem C156_center r : center_ok r ->
  exists g j w t a h s l d, center beyond name r = Some (B "影轴地心距 γ = " ++ g ++ NL ++ B "中心地标 (经,纬) = " ++ j ++ B "," ++ w ++ NL ++ B "中心时刻 tm = " ++ t ++ NL ++ B "太阳方位 (经,纬) = " ++ a ++ B "," ++ h ++ NL ++
    B "日食类型 LX = " ++ f_lx r ++ B " " ++ name (f_lx r) ++ NL ++ B "食分=" ++ s ++ B ", 食延=" ++ l ++ B ", 食带=" ++ d ++ B "km" ++ NL ++ NL) /\
  number_shown beyond 4 (R64 (f_D r)) g /\ number_shown beyond 2 (R64 (f_zxJ r) * (180 / PI)) j /\ number_shown beyond 2 (R64 (f_zxW r) * (180 / PI)) w /\ moment_text (R64 (f_jd r) + 2451545) t /\
  number_shown beyond 0 (R64 (f_SJ r) * (180 / PI)) a /\ number_shown beyond 0 (R64 (f_SW r) * (180 / PI)) h /\ number_shown beyond 4 (R64 (f_sf r)) s /\ whole_shown beyond (86400 * R64 (f_tt r)) l /\ number_shown beyond 0 (R64 (f_dw r)) d.
Proof.
  intros (OD & Os & Od & HJ & HW & HA & HH & HT & [Ot Bt]). unfold center.
  assert (G : forall x p, in_size x 17 -> (0 <= p <= 8)%Z -> exists t, to_str_double beyond (fmul x deg_per_rad) p 0 false = Some t /\ number_shown beyond p (R64 x * (180 / PI)) t).
  { intros x p Hx Hp. destruct (degree_ok x Hx) as [O1 D1]. apply (number_ok beyond HB _ p _ O1); [lra|exact Hp]. }
  destruct (exact_ok beyond HB _ 4 OD ltac:(lia)) as (g & Eg & Tg). rw Eg. destruct (G _ 2%Z HJ ltac:(lia)) as (j & Ej & Tj). rw Ej. destruct (G _ 2%Z HW ltac:(lia)) as (w & Ew & Tw). rw Ew.
  destruct (moment_ok _ HT) as (t & Et & Tt). rw Et. destruct (G _ 0%Z HA ltac:(lia)) as (a & Ea & Ta). rw Ea. destruct (G _ 0%Z HH ltac:(lia)) as (h & Eh & Th). rw Eh.
  destruct (exact_ok beyond HB _ 4 Os ltac:(lia)) as (s & Es & Ts). rw Es.
  destruct (scale_ok _ 86400 1000 Ot Bt ltac:(lia) ltac:(lra)) as [O1 D1]. set (v := fmul (f_tt r) (fZ 86400)) in *. clearbody v.
  assert (BV : Rabs (R64 v) < 2147483700) by (apply Rabs_le_inv in D1; apply Rabs_le_inv in Bt; apply Rabs_def1; lra).
  destruct (C121_minutes_seconds beyond v 0 2 (B "m") (B "s") HB O1 BV ltac:(lia)) as (f & m & tf & tm & Omm & Bm & EV & Tf & Tm & El); [right; right; repeat split|]. rw El.
  destruct (exact_ok beyond HB _ 0 Od ltac:(lia)) as (d & Ed & Td). rw Ed.
  exists g, j, w, t, a, h, s. eexists. exists d. split; [reflexivity|]. repeat (split; [assumption|]). split; [|assumption]. exists (R64 v), f, m, tf, tm. repeat (split; [assumption|]). reflexivity.
Qed.
(** C156: without an eclipse the text says so, otherwise it has the points and the center under their headings *)
Theorem C156_overview r : (f_lx r = B "N" -> overview beyond name r = Some (B "无日食")) /\
  (f_lx r <> B "N" -> center_ok r -> point_ok (f_gk1 r) -> point_ok (f_gk2 r) -> point_ok (f_gk3 r) -> point_ok (f_gk4 r) -> (g_W (f_gk5 r) = fZ 100 \/ point_ok (f_gk5 r)) ->
   exists p c, points r = Some p /\ center beyond name r = Some c /\
   overview beyond name r = Some (NL ++ ESC :: B "[1m本次日食概述(力学时)" ++ ESC :: B "[0m" ++ NL ++ p ++ ESC :: B "[1m中心点特征" ++ ESC :: B "[0m" ++ NL ++ c)).
Proof.
  split.
  - intros E. unfold overview. rewrite E. reflexivity.
  - intros N HC H1 H2 H3 H4 H5. destruct (C156_points r H1 H2 H3 H4 H5) as (a & b & c & d & e & Ep & _). destruct (C156_center r HC) as (? & ? & ? & ? & ? & ? & ? & ? & ? & Ec & _).
    eexists. eexists. split; [exact Ep|]. split; [exact Ec|]. unfold overview. destruct (beq (f_lx r) (B "N")) eqn:Q; [apply beq_eq in Q; contradiction|]. rw Ep. rw Ec. reflexivity.
Qed.
End Lib.
(** C156 refuted for partial eclipses: feature leaves gk1 and gk2 zero when the axis misses the Earth (eph/eph_rsgs.cpp:233-236), and the overview then gives an eclipse without center a begin of the center, at noon of 1 January 2000 in the Gulf of Guinea *)
Theorem C156_no_center_refuted : exists r, f_lx r = B "P" /\ f_gk1 r = mkG (fZ 0) (fZ 0) (fZ 0) /\ exists x y, points r = Some (x ++ B "中心始： 2000-01-01 12:00:00 +  0°00',+  0°00'" ++ NL ++ y).
Proof.
  set (g := mkG (fZ 2) (fZ (-1)) (fZ 3000)). set (z := mkG (fZ 0) (fZ 0) (fZ 0)). exists (mkOvw z z g g (mkG (fZ 100) (fZ 100) (fZ 3000)) (fZ 1) (fZ 2) (fZ 1) (fZ 3000) (fZ 1) (fZ 1) (B "P") (fZ 1) (fZ 0) (fZ 200)). split; [reflexivity|]. split; [reflexivity|].
  assert (K : forall n k, (-1000 <= n <= 1000000)%Z -> IZR (Z.abs n) <= k -> in_size (fZ n) k). { intros n k Hn Hk. destruct (fZ_ok n ltac:(lia)) as [O V]. split; [exact O|]. rewrite V, <- abs_IZR. exact Hk. }
  assert (G : point_ok g) by (unfold point_ok; cbn [g g_J g_W g_t]; repeat (split; [apply K; [lia|cbn; lra]|]); apply K; [lia|cbn; lra]).
  assert (Z0 : point_ok z) by (unfold point_ok; cbn [z g_J g_W g_t]; repeat (split; [apply K; [lia|cbn; lra]|]); apply K; [lia|cbn; lra]).
  unfold points. cbn [f_gk1 f_gk2 f_gk3 f_gk4 f_gk5 g_W]. destruct (point_line_ok "偏食始：" g G) as (a & Ea & _), (point_line_ok "中心终：" z Z0) as (d & Ed & _), (point_line_ok "偏食终：" g G) as (e & Ee & _). rw Ea.
  assert (Eb : point_line "中心始：" z = Some (B "中心始： 2000-01-01 12:00:00 +  0°00',+  0°00'" ++ NL)) by (vm_compute; reflexivity). rw Eb. replace (feqb (fZ 100) (fZ 100)) with true by (vm_compute; reflexivity). cbn [obind]. rw Ed. rw Ee.
  exists a, (d ++ e). rewrite <- !app_assoc. reflexivity.
Qed.
(** the hypotheses can be met *)
Example C156_example : let g := mkG (fZ 2) (fZ (-1)) (fZ 3000) in let r := mkOvw g g g g (mkG (fZ 100) (fZ 100) (fZ 3000)) (fZ 1) (fZ 2) (fZ 1) (fZ 3000) (fZ 1) (fZ 1) (B "T") (fZ 1) (fZ 0) (fZ 200) in
  center_ok r /\ point_ok (f_gk1 r) /\ g_W (f_gk5 r) = fZ 100 /\ f_lx r <> B "N".
Proof.
  assert (K : forall n k, (-1000 <= n <= 1000000)%Z -> IZR (Z.abs n) <= k -> in_size (fZ n) k). { intros n k Hn Hk. destruct (fZ_ok n ltac:(lia)) as [O V]. split; [exact O|]. rewrite V, <- abs_IZR. exact Hk. }
  cbv zeta. split; [|split; [|split; [reflexivity|discriminate]]].
  - unfold center_ok. cbn [f_D f_sf f_dw f_zxJ f_zxW f_SJ f_SW f_jd f_tt]. do 3 (split; [apply fZ_ok; lia|]). repeat (split; [apply K; [lia|cbn; lra]|]). apply K; [lia|cbn; lra].
  - unfold point_ok. cbn [f_gk1 g_J g_W g_t]. repeat (split; [apply K; [lia|cbn; lra]|]). apply K; [lia|cbn; lra].
Qed.
Print Assumptions C156_points.
Print Assumptions C156_overview.
Print Assumptions C156_no_center_refuted.
