(** Property C155: the text of the places of Sun and Moon. *)
From Coq Require Import ZArith Reals Lia Lra Bool List Ascii String.
From Coq Require Import Floats.SpecFloat.
From Flocq Require Import Core.
From Verif Require Import F64 F64R F64T F64E AngModel PiBound ErrExpr SerSpec FormModel FormSpec FormProps TermDay IllProps.
From Verif Require Import CalModel Str DecSpec FmtModel FmtSpec FmtProps DtoaModel DtoaProps FmModel FmProps RptModel RptProps MtxModel.
Import ListNotations.
Open Scope R_scope.
Open Scope list_scope.

(** ** Specification *)
(** [t] is the angle of [d] radians: sign, degrees (or hours), minutes, seconds with two decimals, right to half a hundredth of a second *)
Definition angle_shown (tim : bool) (d : R) (t : bytes) : Prop := exists a b c z, angle_text (if Rlt_dec d 0 then B "-" else B " ") (if tim then B "h" else B "°") (if tim then B "m" else B "'") (if tim then B "s" else B """") 2 a b c z t /\
  (0 <= a <= 999)%Z /\ (0 <= b <= 59)%Z /\ (0 <= c <= 59)%Z /\ (0 <= z < 100)%Z /\ Rabs (IZR a * 3600 + IZR b * 60 + IZR c + IZR z / 100 - Rabs d * ((if tim then 12 else 180) / PI) * 3600) <= 0.005001.
(** [t] is the text with [p] decimals of a double that is [v] up to rounding *)
Definition number_shown (beyond : Z -> option Z) (p : Z) (v : R) (t : bytes) : Prop := exists x, ok x /\ Rabs (R64 x - v) <= / 10000000 /\ to_str_double beyond x p 0 false = Some t.
(** [t] is [v] as sign, whole minutes and the text with two decimals of the seconds left, less than 60 *)
Definition minutes_shown (beyond : Z -> option Z) (u1 u2 : bytes) (v : R) (t : bytes) : Prop := exists w f m tf tm, Rabs (w - v) <= / 10000000 /\ ok m /\ 0 <= R64 m < 60 /\ Rabs w = 60 * IZR f + R64 m /\ int_text f tf /\ to_str_double beyond m 2 0 false = Some tm /\
  t = (if Rlt_dec w 0 then ["-"%char] else []) ++ tf ++ u1 ++ tm ++ u2.
(** a line across *)
Definition dashes : bytes := repeat "-"%char 43.
Definition in_size (x : f64) (k : R) : Prop := ok x /\ Rabs (R64 x) <= k.
(** what is printed of a body is finite; angles at most 17 radians, the radius at most 2000000000 seconds of arc *)
Definition body_ok (b : mtx_body) : Prop := Forall (fun x => in_size x 17) [b_HJ b; b_HW b; b_CJ b; b_CW b; b_PJ b; b_PW b; b_ShiJ b] /\ ok (b_R b) /\ in_size (b_Rad b) 2000000000.

(** ** Proofs *)
Lemma angle_ok (tim : bool) d : in_size d 17 -> exists t, rad2str d tim = Some t /\ angle_shown tim (R64 d) t.
Proof.
  intros [O Bd]. pose proof Bd as Bd0. destruct (C14_rad2strE d tim 2 O Bd ltac:(lia)) as (t & a & b & c & z & E & T & Ba & Bb & Bc & Bz & D). exists t. split; [exact E|]. exists a, b, c, z.
  split. { destruct (Rlt_bool_spec (R64 d) 0), (Rlt_dec (R64 d) 0); try exact T; lra. }
  change (10 ^ 2)%Z with 100%Z in *. split; [exact Ba|]. split; [exact Bb|]. split; [exact Bc|]. split; [exact Bz|].
  set (n := (if tim then 12 else 180)%Z) in *. destruct good_lib_exists as (fsin & fcos & _ & Gs & Gc & _).
  assert (OA : exists x, ok x /\ R64 x = Rabs (R64 d)). { destruct (Rle_or_lt 0 (R64 d)) as [P|P]; [exists d; split; [exact O|now rewrite Rabs_pos_eq]|]. destruct (fopp_ok d O) as [O1 V1]. exists (fopp d). split; [exact O1|]. now rewrite V1, Rabs_left. }
  destruct OA as (x & OA & VA).
  assert (E1 : env_ok [x] [R64 x] [given 17]) by (constructor; [apply given_ok; [exact OA|rewrite VA, Rabs_Rabsolu; exact Bd]|constructor]).
  assert (X : ok (fmul x (fdiv (fZ n) M_PI)) /\ Rabs (R64 (fmul x (fdiv (fZ n) M_PI)) - R64 x * (IZR n / PI)) <= IZR 1267650600228229401 * U).
  { rewrite mpi_is. pose proof PI_RGT_0. destruct tim; subst n; formula2 fsin fcos Gs Gc [x] E1; lra. }
  destruct X as [Om Dm].
  assert (P : ok (fdiv (fZ n) M_PI) /\ Rabs (R64 (fdiv (fZ n) M_PI)) <= 64).
  { destruct tim; subst n; (split; [split; vm_compute; reflexivity|]); apply Rabs_le;
    match goal with |- context [R64 ?f] => let v := eval vm_compute in f in change f with v end; unfold R64, BinarySingleNaN.SF2R, F2R; cbn; lra. }
  destruct P as [OP BP]. rewrite <- VA in D |- *. set (per := fdiv (fZ n) M_PI) in *.
  assert (M : R64 (fmul x per) = rnd (R64 x * R64 per)).
  { apply fmul_ok; [exact OA|exact OP|]. apply Rle_trans with 2048; [|change 2048 with (bpow radix2 11); apply bpow_le; lia]. rewrite Rabs_mult. assert (Rabs (R64 x) <= 17) by (rewrite VA, Rabs_Rabsolu; exact Bd0). pose proof (Rabs_pos (R64 x)). pose proof (Rabs_pos (R64 per)). nra. }
  rewrite <- M in D. clear M. unfold sexagesimal in D. change (3600 * 100)%Z with 360000%Z in D. rewrite !plus_IZR, !mult_IZR, !plus_IZR, !mult_IZR, plus_IZR, mult_IZR in D.
  assert (EU : 1267650600228229401 * U <= / 10000000000) by (unfold U, one; lra). assert (Dm' := Rle_trans _ _ _ Dm EU).
  replace (if tim then 12 else 180) with (IZR n) by (subst n; now destruct tim).
  apply Rabs_le_inv in D, Dm'. decs. apply Rabs_le. lra.
Qed.
Lemma clock_ok x : in_size x 4000000 -> exists t, timeStr x = Some t /\ clock_text (R64 x) t.
Proof.
  intros [O Bx]. apply Rabs_le_inv in Bx. destruct (C07_timeStr_partial x 23 O ltac:(lia)) as (t & n & hh & mm & ss & E & T & B1 & B2 & B3 & _ & D); [lra|change (bpow radix2 23) with 8388608; apply Rabs_le; lra|].
  exists t. split; [exact E|]. exists n, hh, mm, ss. repeat (split; [assumption|]). eapply Rle_trans; [exact D|]. change (bpow radix2 (23 - 53)) with (/ 1073741824). lra.
Qed.
Section Lib.
Variable beyond : Z -> option Z.
Hypothesis HB : forall i, (10 <= i <= 16)%Z -> beyond i <> None.
Lemma scale_ok x n k : ok x -> Rabs (R64 x) <= k -> (0 < n <= 86400)%Z -> k * IZR n <= 100000000 -> ok (fmul x (fZ n)) /\ Rabs (R64 (fmul x (fZ n)) - IZR n * R64 x) <= / 10000000.
Proof.
  intros O Bx Bn K. destruct (fZ_ok n ltac:(lia)) as [OZ EZ]. assert (0 < IZR n) by (apply IZR_lt; lia).
  assert (S : Rabs (R64 x * R64 (fZ n)) <= bpow radix2 27). { rewrite EZ, Rabs_mult, (Rabs_pos_eq (IZR n)) by lra. change (bpow radix2 27) with 134217728. nra. }
  destruct (fmul_ok x _ O OZ) as [Om Em]; [eapply Rle_trans; [exact S|apply bpow_le; lia]|]. split; [exact Om|]. rewrite Em. pose proof (rnd_err _ 27 ltac:(lia) S) as R1. change (bpow radix2 (27 - 54)) with (/ 134217728) in R1. rewrite EZ in *.
  apply Rabs_le_inv in R1. apply Rabs_le. lra.
Qed.
Lemma number_ok x p v : ok x -> Rabs (R64 x - v) <= / 10000000 -> (0 <= p <= 8)%Z -> exists t, to_str_double beyond x p 0 false = Some t /\ number_shown beyond p v t.
Proof.
  intros O D Hp. destruct (to_str_double beyond x p 0 false) as [t|] eqn:E; [|exfalso; exact (C46_safe beyond x p HB (or_introl O) Hp E)]. exists t. split; [reflexivity|]. exists x. auto.
Qed.
Lemma exact_ok x p : ok x -> (0 <= p <= 8)%Z -> exists t, to_str_double beyond x p 0 false = Some t /\ number_shown beyond p (R64 x) t.
Proof. intros O Hp. apply number_ok; [exact O| |exact Hp]. rewrite Rminus_diag_eq, Rabs_R0 by reflexivity. lra. Qed.
Lemma minutes_ok x fs u1 u2 v : in_size x 2000000000 -> Rabs (R64 x - v) <= / 10000000 -> units_text fs u1 u2 -> exists t, m2fm beyond x 2 fs = Some t /\ minutes_shown beyond u1 u2 v t.
Proof.
  intros [O Bx] D HU. destruct (C121_minutes_seconds beyond x 2 fs u1 u2 HB O ltac:(lra) ltac:(lia) HU) as (f & m & tf & tm & Om & Bm & EV & Tf & Tm & E).
  eexists. split; [exact E|]. exists (R64 x), f, m, tf, tm. repeat (split; [assumption|]). reflexivity.
Qed.
Lemma arcsec_ok x : in_size x 1 -> ok (to_arcsec x) /\ Rabs (R64 (to_arcsec x) - R64 x * (648000 / PI)) <= / 10000000.
Proof.
  intros [O Bx]. destruct good_lib_exists as (fsin & fcos & _ & Gs & Gc & _). assert (E : env_ok [x] [R64 x] [given 1]) by (constructor; [apply given_ok; assumption|constructor]).
  assert (X : ok (to_arcsec x) /\ Rabs (R64 (to_arcsec x) - R64 x / (PI * 2) * 360 * 3600) <= IZR 1267650600228229401496 * U).
  { unfold to_arcsec, FormModel.pi2. pose proof PI_RGT_0. formula2 fsin fcos Gs Gc [x] E; lra. }
  destruct X as [Ox Dx]. split; [exact Ox|]. assert (EU : 1267650600228229401496 * U <= / 10000000) by (unfold U, one; lra). replace (R64 x * (648000 / PI)) with (R64 x / (PI * 2) * 360 * 3600) by (field; pose proof PI_RGT_0; lra). lra.
Qed.
Lemma two_ok l a b tim : in_size a 17 -> in_size b 17 -> exists x y, two_angles l a b tim = Some (B l ++ x ++ B "  " ++ y ++ NL) /\ angle_shown tim (R64 a) x /\ angle_shown tim (R64 b) y.
Proof. intros Ha Hb. destruct (angle_ok tim a Ha) as (x & Ex & Tx), (angle_ok tim b Hb) as (y & Ey & Ty). exists x, y. unfold two_angles. rewrite Ex. cbn [obind]. rewrite Ey. auto. Qed.
Ltac rw E := rewrite E; cbn [obind].
(** the line of the two solar times, and that of the equation of time and the lit part of the Moon *)
Theorem C155_head r : in_size (x_pty r) 4000000 -> in_size (x_zty r) 4000000 -> in_size (x_sc r) 1 -> in_size (x_mIll r) 1 ->
  exists p z c i, mtx_head beyond r = Some (dashes ++ NL ++ B "平太阳 " ++ p ++ B " 真太阳 " ++ z ++ NL ++ B "时差 " ++ c ++ B " 月亮被照亮 " ++ i ++ B "% " ++ NL) /\
  clock_text (R64 (x_pty r)) p /\ clock_text (R64 (x_zty r)) z /\ minutes_shown beyond (B "分") (B "秒") (86400 * R64 (x_sc r)) c /\ number_shown beyond 2 (100 * R64 (x_mIll r)) i.
Proof.
  intros Hp Hz [Oc Bc] [Oi Bi]. unfold mtx_head. destruct (clock_ok _ Hp) as (p & Ep & Tp), (clock_ok _ Hz) as (z & Ez & Tz). rw Ep. rw Ez.
  destruct (scale_ok _ 86400 1 Oc Bc ltac:(lia) ltac:(lra)) as [O1 D1]. destruct (scale_ok _ 100 1 Oi Bi ltac:(lia) ltac:(lra)) as [O2 D2].
  assert (S1 : in_size (fmul (x_sc r) (fZ 86400)) 2000000000) by (split; [exact O1|]; apply Rabs_le_inv in D1; apply Rabs_le_inv in Bc; apply Rabs_le; lra).
  destruct (minutes_ok _ 1 (B "分") (B "秒") _ S1 D1) as (c & Ec & Tc); [right; left; repeat split|]. rw Ec.
  destruct (number_ok _ 2 _ O2 D2 ltac:(lia)) as (i & Ei & Ti). rw Ei. exists p, z, c, i. split; [reflexivity|]. auto.
Qed.
(** the first table: apparent ecliptic and equatorial places and distances, the Moon before the Sun *)
Theorem C155_places m s : body_ok m -> body_ok s ->
  exists a1 a2 b1 b2 c1 c2 d1 d2 e f, mtx_one beyond m s = Some (dashes ++ NL ++ B "表一       月亮            太阳" ++ NL ++
    B "视黄经 " ++ a1 ++ B "  " ++ a2 ++ NL ++ B "视黄纬 " ++ b1 ++ B "  " ++ b2 ++ NL ++ B "视赤经 " ++ c1 ++ B "  " ++ c2 ++ NL ++ B "视赤纬 " ++ d1 ++ B "  " ++ d2 ++ NL ++
    B "距离    " ++ e ++ B "千米    " ++ f ++ B "AU" ++ NL) /\
  Forall2 (fun x t => angle_shown false (R64 x) t) [b_HJ m; b_HJ s; b_HW m; b_HW s; b_CW m; b_CW s] [a1; a2; b1; b2; d1; d2] /\ Forall2 (fun x t => angle_shown true (R64 x) t) [b_CJ m; b_CJ s] [c1; c2] /\
  number_shown beyond 2 (R64 (b_R m)) e /\ number_shown beyond 8 (R64 (b_R s)) f.
Proof.
  intros (Am & Rm & _) (As & Rs & _). repeat match goal with H : Forall _ (_ :: _) |- _ => inversion_clear H end. unfold mtx_one.
  destruct (two_ok "视黄经 " (b_HJ m) (b_HJ s) false) as (a1 & a2 & Ea & Ta1 & Ta2); [assumption..|]. rw Ea.
  destruct (two_ok "视黄纬 " (b_HW m) (b_HW s) false) as (b1 & b2 & Eb & Tb1 & Tb2); [assumption..|]. rw Eb.
  destruct (two_ok "视赤经 " (b_CJ m) (b_CJ s) true) as (c1 & c2 & Ec & Tc1 & Tc2); [assumption..|]. rw Ec.
  destruct (two_ok "视赤纬 " (b_CW m) (b_CW s) false) as (d1 & d2 & Ed & Td1 & Td2); [assumption..|]. rw Ed.
  destruct (exact_ok (b_R m) 2 Rm ltac:(lia)) as (e & Ee & Te), (exact_ok (b_R s) 8 Rs ltac:(lia)) as (f & Ef & Tf). rw Ee. rw Ef.
  exists a1, a2, b1, b2, c1, c2, d1, d2, e, f. split; [rewrite <- !app_assoc; reflexivity|]. split; [repeat (apply Forall2_cons; [assumption|]); apply Forall2_nil|]. split; [repeat (apply Forall2_cons; [assumption|]); apply Forall2_nil|]. auto.
Qed.
(** the second table: azimuth, altitude, hour angle and radius at the place of the observer *)
Theorem C155_horizon m s : body_ok m -> body_ok s ->
  exists a1 a2 b1 b2 c1 c2 e f, mtx_two beyond m s = Some (dashes ++ NL ++ B "表二       月亮            太阳" ++ NL ++
    B "方位角 " ++ a1 ++ B "  " ++ a2 ++ NL ++ B "高度角 " ++ b1 ++ B "  " ++ b2 ++ NL ++ B "时角   " ++ c1 ++ B "  " ++ c2 ++ NL ++ B "视半径   " ++ e ++ B "       " ++ f ++ B " (观测点)" ++ NL) /\
  Forall2 (fun x t => angle_shown false (R64 x) t) [b_PJ m; b_PJ s; b_PW m; b_PW s; b_ShiJ m; b_ShiJ s] [a1; a2; b1; b2; c1; c2] /\
  minutes_shown beyond (B "'") (B """") (R64 (b_Rad m)) e /\ minutes_shown beyond (B "'") (B """") (R64 (b_Rad s)) f.
Proof.
  intros (Am & _ & Rm) (As & _ & Rs). repeat match goal with H : Forall _ (_ :: _) |- _ => inversion_clear H end. unfold mtx_two.
  destruct (two_ok "方位角 " (b_PJ m) (b_PJ s) false) as (a1 & a2 & Ea & Ta1 & Ta2); [assumption..|]. rw Ea.
  destruct (two_ok "高度角 " (b_PW m) (b_PW s) false) as (b1 & b2 & Eb & Tb1 & Tb2); [assumption..|]. rw Eb.
  destruct (two_ok "时角   " (b_ShiJ m) (b_ShiJ s) false) as (c1 & c2 & Ec & Tc1 & Tc2); [assumption..|]. rw Ec.
  destruct (minutes_ok _ 0 (B "'") (B """") (R64 (b_Rad m)) Rm) as (e & Ee & Te); [rewrite Rminus_diag_eq, Rabs_R0 by reflexivity; lra|left; repeat split|]. rw Ee.
  destruct (minutes_ok _ 0 (B "'") (B """") (R64 (b_Rad s)) Rs) as (f & Ef & Tf); [rewrite Rminus_diag_eq, Rabs_R0 by reflexivity; lra|left; repeat split|]. rw Ef.
  exists a1, a2, b1, b2, c1, c2, e, f. split; [rewrite <- !app_assoc; reflexivity|]. split; [repeat (apply Forall2_cons; [assumption|]); apply Forall2_nil|]. auto.
Qed.
(** the further lines: Dynamical Time, its difference to Universal Time in seconds, nutation in seconds of arc, obliquity *)
Theorem C155_more r : in_size (x_T r) 2000000 -> in_size (x_dt r) 1000 -> in_size (x_dL r) 1 -> in_size (x_dE r) 1 -> in_size (x_E r) 17 ->
  exists t d l e o, mtx_more beyond r = Some (dashes ++ NL ++ B "力学时" ++ t ++ B " ΔT=" ++ d ++ B "秒" ++ NL ++ B "黄经章 " ++ l ++ B """ 交角章 " ++ e ++ B """ ε=" ++ o ++ NL ++ dashes ++ NL) /\
  moment_text (R64 (x_T r) + 2451545) t /\ number_shown beyond 1 (86400 * R64 (x_dt r)) d /\ number_shown beyond 2 (R64 (x_dL r) * (648000 / PI)) l /\ number_shown beyond 2 (R64 (x_dE r) * (648000 / PI)) e /\ angle_shown false (R64 (x_E r)) o.
Proof.
  intros [OT BT] [Od Bd] Hl He Ho. unfold mtx_more. destruct (fZ_ok 2451545 ltac:(lia)) as [OZ EZ]. apply Rabs_le_inv in BT.
  assert (S : Rabs (R64 (x_T r) + R64 (fZ 2451545)) <= bpow radix2 23) by (rewrite EZ; change (bpow radix2 23) with 8388608; apply Rabs_le; lra).
  destruct (fadd_ok _ _ OT OZ) as [Os Es]; [eapply Rle_trans; [exact S|apply bpow_le; lia]|]. pose proof (rnd_err _ 23 ltac:(lia) S) as R1. rewrite <- Es in R1. change (bpow radix2 (23 - 54)) with (/ 2147483648) in R1. rewrite EZ in R1.
  destruct (JD2str_near _ (R64 (x_T r) + 2451545) Os ltac:(lra) ltac:(lra)) as (t & Et & Tt). rw Et.
  destruct (scale_ok _ 86400 1000 Od Bd ltac:(lia) ltac:(lra)) as [O1 D1]. destruct (number_ok _ 1 _ O1 D1 ltac:(lia)) as (d & Ed & Td). rw Ed.
  destruct (arcsec_ok _ Hl) as [O2 D2]. destruct (number_ok _ 2 _ O2 D2 ltac:(lia)) as (l & El & Tl). rw El.
  destruct (arcsec_ok _ He) as [O3 D3]. destruct (number_ok _ 2 _ O3 D3 ltac:(lia)) as (e & Ee & Te). rw Ee.
  destruct (angle_ok false _ Ho) as (o & Eo & To). rw Eo. exists t, d, l, e, o. split; [reflexivity|]. auto.
Qed.
(** C155: the whole text, with the further lines if they are asked for *)
Theorem C155_text r fs : in_size (x_pty r) 4000000 -> in_size (x_zty r) 4000000 -> in_size (x_sc r) 1 -> in_size (x_mIll r) 1 -> body_ok (x_m r) -> body_ok (x_s r) ->
  (fs = true -> in_size (x_T r) 2000000 /\ in_size (x_dt r) 1000 /\ in_size (x_dL r) 1 /\ in_size (x_dE r) 1 /\ in_size (x_E r) 17) ->
  exists h a b c, mtx_text beyond r fs = Some (h ++ a ++ b ++ c) /\ mtx_head beyond r = Some h /\ mtx_one beyond (x_m r) (x_s r) = Some a /\ mtx_two beyond (x_m r) (x_s r) = Some b /\ (if fs then mtx_more beyond r = Some c else c = []).
Proof.
  intros H1 H2 H3 H4 H5 H6 H7. unfold mtx_text. destruct (C155_head r H1 H2 H3 H4) as (? & ? & ? & ? & E1 & _). rw E1. destruct (C155_places _ _ H5 H6) as (? & ? & ? & ? & ? & ? & ? & ? & ? & ? & E2 & _). rw E2.
  destruct (C155_horizon _ _ H5 H6) as (? & ? & ? & ? & ? & ? & ? & ? & E3 & _). rw E3.
  destruct fs.
  - destruct (H7 eq_refl) as (G1 & G2 & G3 & G4 & G5). destruct (C155_more r G1 G2 G3 G4 G5) as (? & ? & ? & ? & ? & E4 & _). rw E4. do 4 eexists. repeat split.
  - cbn [obind]. do 4 eexists. repeat split.
Qed.
End Lib.
(** the hypotheses can be met, and the text then exists *)
Example C155_example : let one := fZ 1 in let b := mkBd (fZ 12) one one one (fZ 384400) one one one (fZ 932) in let r := mkMtx (fZ 3000) one one one one one one one one b b in
  in_size (x_pty r) 4000000 /\ in_size (x_sc r) 1 /\ body_ok (x_m r) /\ in_size (x_T r) 2000000 /\ in_size (x_dt r) 1000 /\ in_size (x_E r) 17 /\ mtx_text (fun _ => Some 0%Z) r true <> None.
Proof.
  assert (K : forall n k, (0 <= n <= 1000000)%Z -> IZR n <= k -> in_size (fZ n) k). { intros n k Hn Hk. destruct (fZ_ok n ltac:(lia)) as [O V]. split; [exact O|]. rewrite V, Rabs_pos_eq by (apply IZR_le; lia). exact Hk. }
  cbv zeta. cbn [x_pty x_sc x_m x_T x_dt x_E]. split; [apply K; [lia|lra]|]. 
  assert (BO : body_ok (mkBd (fZ 12) (fZ 1) (fZ 1) (fZ 1) (fZ 384400) (fZ 1) (fZ 1) (fZ 1) (fZ 932))).
  { split; [cbn [b_HJ b_HW b_CJ b_CW b_PJ b_PW b_ShiJ]; repeat (apply Forall_cons; [apply K; [lia|lra]|]); apply Forall_nil|]. split; [apply fZ_ok; cbn; lia|apply K; [lia|cbn; lra]]. }
  split; [apply K; [lia|lra]|]. split; [exact BO|].
  split; [apply K; [lia|lra]|]. split; [apply K; [lia|lra]|]. split; [apply K; [lia|lra]|].
  match goal with |- mtx_text ?b ?r ?f <> None => destruct (C155_text b ltac:(discriminate) r f) as (h & a & b' & c & E & _) end; cbn [x_pty x_zty x_sc x_mIll x_m x_s x_T x_dt x_dL x_dE x_E]; try (apply K; [lia|lra]); try (repeat split; apply K; [lia|lra]); try exact BO; [intros _; repeat (split; [apply K; [lia|lra]|]); apply K; [lia|lra]|]. rewrite E. discriminate.
Qed.
Print Assumptions C155_text.
Print Assumptions C155_more.
