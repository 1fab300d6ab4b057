(** Property C149: the printed times of rising and setting. *)
From Coq Require Import ZArith Reals Lia Lra Bool List Ascii String.
From Coq Require Import Floats.SpecFloat.
From Flocq Require Import Core.
From Verif Require FormModel PiBound CalProof F64T.
From Verif Require Import F64 F64R F64T CalModel CalSpec CalProps Str DecSpec ItoaModel ItoaProof FmtModel FmtSpec FmtProof FmtProps YearModel RptModel.
Import ListNotations.
Open Scope R_scope.

(** ** Specification *)
(** [t] is the text of the moment [m] (days), with date and clock within half a second *)
Definition shows (m : R) (y mo d hh mm ss : Z) : Prop := exists n, day_number n (mkc y mo d) /\ (0 <= hh <= 24)%Z /\ (0 <= mm <= 59)%Z /\ (0 <= ss <= 59)%Z /\
  Rabs (IZR n - / 2 + IZR (hh * 3600 + mm * 60 + ss) / 86400 - m) <= / 172800 + / 100000000.
Definition moment_text (m : R) (t : bytes) : Prop := exists y mo d hh mm ss, date_text y mo d hh mm ss t /\ shows m y mo d hh mm ss.
(** [t] is the time of day of the moment [m] *)
Definition clock_text (m : R) (t : bytes) : Prop := exists n hh mm ss, time_text hh mm ss t /\ (0 <= hh <= 24)%Z /\ (0 <= mm <= 59)%Z /\ (0 <= ss <= 59)%Z /\
  Rabs (IZR n - / 2 + IZR (hh * 3600 + mm * 60 + ss) / 86400 - m) <= / 172800 + / 100000000.
(** the moment [v], counted in days from J2000 in Universal Time, as Julian date in the time of Beijing *)
Definition at_beijing (v : f64) : R := R64 v + 2451545 + 8 / 24.
Definition in_years (v : f64) : Prop := ok v /\ Rabs (R64 v) <= 2000000.

(** ** Proofs *)
Lemma JD2str_near x m : ok x -> Rabs (R64 x - m) <= / 200000000 -> 400000 <= m <= 4500000 -> exists t, JD2str x = Some t /\ moment_text m t.
Proof.
  intros O E B. apply Rabs_le_inv in E. assert (K : bpow radix2 23 = 8388608) by reflexivity.
  destruct (C06_JD2str_partial x 23 O ltac:(lia)) as (t & n & y & mo & d & hh & mm & ss & E1 & T & DN & B1 & B2 & B3 & _ & I); [lra|rewrite K; apply Rabs_le; lra|].
  exists t. split; [exact E1|]. exists y, mo, d, hh, mm, ss. split; [exact T|]. exists n. repeat split; try assumption; try lia.
  change (bpow radix2 (23 - 52)) with (/ 536870912) in I. apply Rabs_le_inv in I. apply Rabs_le. lra.
Qed.
Lemma timeStr_near x m : ok x -> Rabs (R64 x - m) <= / 200000000 -> -4500000 <= m <= 4500000 -> exists t, timeStr x = Some t /\ clock_text m t.
Proof.
  intros O E B. apply Rabs_le_inv in E. assert (K : bpow radix2 23 = 8388608) by reflexivity.
  destruct (C07_timeStr_partial x 23 O ltac:(lia)) as (t & n & hh & mm & ss & E1 & T & B1 & B2 & B3 & _ & I); [lra|rewrite K; apply Rabs_le; lra|].
  exists t. split; [exact E1|]. exists n, hh, mm, ss. repeat split; try assumption; try lia.
  change (bpow radix2 (23 - 53)) with (/ 1073741824) in I. apply Rabs_le_inv in I. apply Rabs_le. lra.
Qed.
Lemma third_ok : ok (fdiv (fZ 8) (fZ 24)) /\ Rabs (R64 (fdiv (fZ 8) (fZ 24)) - 8 / 24) <= / 10000000000.
Proof.
  destruct (fZ_ok 8 ltac:(lia)) as [O8 E8], (fZ_ok 24 ltac:(lia)) as [O24 E24]. destruct (fdiv_ok _ _ O8 O24) as [O E]; [rewrite E24; lra| |].
  - rewrite E8, E24. apply Rle_trans with (bpow radix2 0); [change (bpow radix2 0) with 1; apply Rabs_le; lra|apply bpow_le; lia].
  - split; [exact O|]. rewrite E, E8, E24. eapply Rle_trans; [apply (rnd_err _ 0); [lia|change (bpow radix2 0) with 1; apply Rabs_le; lra]|].
    change (bpow radix2 (0 - 54)) with (/ 18014398509481984). lra.
Qed.
Lemma add_near a b A B0 e : ok a -> ok b -> Rabs (R64 a - A) <= e -> Rabs (R64 b - B0) <= e -> e <= / 1000000 -> Rabs (A + B0) <= 8000000 -> ok (fadd a b) /\ Rabs (R64 (fadd a b) - (A + B0)) <= 2 * e + / 2147483648.
Proof.
  intros Oa Ob Ea Eb He H. apply Rabs_le_inv in Ea, Eb, H. assert (K : bpow radix2 23 = 8388608) by reflexivity.
  assert (S : Rabs (R64 a + R64 b) <= bpow radix2 23) by (rewrite K; apply Rabs_le; lra).
  destruct (fadd_ok a b Oa Ob) as [O E]; [eapply Rle_trans; [exact S|apply bpow_le; lia]|]. split; [exact O|]. rewrite E. pose proof (rnd_err _ 23 ltac:(lia) S) as R1. apply Rabs_le_inv in R1.
  change (bpow radix2 (23 - 54)) with (/ 2147483648) in R1. apply Rabs_le. lra.
Qed.
Lemma sub_near a b A B0 e : ok a -> ok b -> Rabs (R64 a - A) <= e -> Rabs (R64 b - B0) <= e -> e <= / 1000000 -> Rabs (A - B0) <= 8000000 -> ok (fsub a b) /\ Rabs (R64 (fsub a b) - (A - B0)) <= 2 * e + / 2147483648.
Proof.
  intros Oa Ob Ea Eb He H. apply Rabs_le_inv in Ea, Eb, H. assert (K : bpow radix2 23 = 8388608) by reflexivity.
  assert (S : Rabs (R64 a - R64 b) <= bpow radix2 23) by (rewrite K; apply Rabs_le; lra).
  destruct (fsub_ok a b Oa Ob) as [O E]; [eapply Rle_trans; [exact S|apply bpow_le; lia]|]. split; [exact O|]. rewrite E. pose proof (rnd_err _ 23 ltac:(lia) S) as R1. apply Rabs_le_inv in R1.
  change (bpow radix2 (23 - 54)) with (/ 2147483648) in R1. apply Rabs_le. lra.
Qed.
Lemma self_near x e : 0 <= e -> Rabs (R64 x - R64 x) <= e.
Proof. intros H. rewrite Rminus_diag_eq, Rabs_R0 by reflexivity. exact H. Qed.
Lemma z_near z e : (Z.abs z <= 2 ^ 53)%Z -> 0 <= e -> ok (fZ z) /\ Rabs (R64 (fZ z) - IZR z) <= e.
Proof. intros H He. destruct (fZ_ok z H) as [O E]. split; [exact O|]. rewrite E, Rminus_diag_eq, Rabs_R0 by reflexivity. exact He. Qed.
Lemma beijing_ok : ok beijing /\ Rabs (R64 beijing - (2451545 + 8 / 24)) <= / 1500000000.
Proof.
  destruct third_ok as [O3 E3]. destruct (z_near 2451545 (/ 10000000000) ltac:(lia) ltac:(lra)) as [OZ EZ].
  destruct (add_near _ _ _ _ _ OZ O3 EZ E3 ltac:(lra)) as [O E]; [apply Rabs_le; lra|]. split; [exact O|]. eapply Rle_trans; [exact E|]. lra.
Qed.
Lemma event_text v : in_years v -> exists t, JD2str (fadd v beijing) = Some t /\ moment_text (at_beijing v) t.
Proof.
  intros [O B]. destruct beijing_ok as [OB EB]. pose proof (Rabs_le_inv _ _ B) as B'.
  destruct (add_near v beijing _ _ _ O OB (self_near v (/ 1500000000) ltac:(lra)) EB ltac:(lra)) as [O1 E1]; [apply Rabs_le; lra|].
  apply JD2str_near; [exact O1| |unfold at_beijing; lra]. unfold at_beijing. rewrite Rplus_assoc. eapply Rle_trans; [exact E1|]. lra.
Qed.
Lemma event_row v : in_years v -> let x := fadd (fadd v (fZ 2451545)) (fdiv (fZ 8) (fZ 24)) in ok x /\ Rabs (R64 x - at_beijing v) <= / 200000000.
Proof.
  intros [O B] x. destruct third_ok as [O3 E3]. pose proof (Rabs_le_inv _ _ B) as B'. destruct (z_near 2451545 0 ltac:(lia) ltac:(lra)) as [OZ EZ].
  destruct (add_near v _ _ _ _ O OZ (self_near v 0 ltac:(lra)) EZ ltac:(lra)) as [O1 E1]; [apply Rabs_le; lra|].
  destruct (add_near _ _ _ _ (/ 1500000000) O1 O3 ltac:(eapply Rle_trans; [exact E1|]; lra) ltac:(eapply Rle_trans; [exact E3|]; lra) ltac:(lra)) as [O2 E2]; [apply Rabs_le; lra|].
  split; [exact O2|]. unfold at_beijing. eapply Rle_trans; [exact E2|]. lra.
Qed.
Lemma pair_ok l1 a l2 b : in_years a -> in_years b -> exists x y, pair_line l1 a l2 b = Some (B l1 ++ x ++ B l2 ++ y ++ NL) /\ moment_text (at_beijing a) x /\ moment_text (at_beijing b) y.
Proof.
  intros Ha Hb. destruct (event_text a Ha) as (x & Ex & Tx), (event_text b Hb) as (y & Ey & Ty). exists x, y. unfold pair_line. rewrite Ex. cbn [obind]. rewrite Ey. cbn [obind]. auto.
Qed.
(** the length is the time of day of a moment b - a after midnight *)
Lemma span_ok a b : in_years a -> in_years b -> exists t, span_text a b = Some t /\ clock_text (R64 b - R64 a - / 2) t.
Proof.
  intros [Oa Ba] [Ob Bb]. apply Rabs_le_inv in Ba, Bb. unfold span_text.
  destruct (sub_near b a _ _ 0 Ob Oa (self_near b 0 ltac:(lra)) (self_near a 0 ltac:(lra)) ltac:(lra)) as [O1 E1]; [apply Rabs_le; lra|].
  assert (L : ok (lit 5 10) /\ R64 (lit 5 10) = / 2). { destruct CalProof.lit_half as [A E]. split; [exact A|]. rewrite E. lra. }
  destruct L as [OL EL].
  destruct (sub_near _ (lit 5 10) _ (/ 2) (/ 2000000000) O1 OL ltac:(eapply Rle_trans; [exact E1|]; lra) ltac:(rewrite EL, Rminus_diag_eq, Rabs_R0 by reflexivity; lra) ltac:(lra)) as [O2 E2]; [apply Rabs_le; lra|].
  apply timeStr_near; [exact O2| |lra]. eapply Rle_trans; [exact E2|]. lra.
Qed.
Lemma over_pi2 L : ok L -> Rabs (R64 L) <= 4 -> ok (fdiv L FormModel.pi2) /\ Rabs (R64 (fdiv L FormModel.pi2) - R64 L / (2 * PI)) <= / 10000000000000.
Proof.
  intros OL BL. assert (P : ok FormModel.pi2 /\ R64 FormModel.pi2 = 884279719003555 / 140737488355328) by (apply (lit_val _ 884279719003555 140737488355328); [lia|vm_compute; reflexivity]).
  destruct P as [OP EP]. apply Rabs_le_inv in BL. set (a := 884279719003555 / 140737488355328) in *. assert (A : 6.28 <= a <= 6.29) by (unfold a; lra).
  assert (Q : Rabs (R64 L / a) <= 1). { apply Rabs_le. split; apply Rmult_le_reg_r with a; try lra; unfold Rdiv; rewrite Rmult_assoc, Rinv_l by lra; lra. }
  destruct (fdiv_ok L _ OL OP) as [O E]; [rewrite EP; lra|rewrite EP; apply Rle_trans with (bpow radix2 0); [exact Q|apply bpow_le; lia]|].
  split; [exact O|]. rewrite E, EP. pose proof (rnd_err _ 0 ltac:(lia) Q) as R1. change (bpow radix2 (0 - 54)) with (/ 18014398509481984) in R1. apply Rabs_le_inv in R1, Q.
  pose proof PiBound.PI_bounds as PB. assert (D : R64 L / a - R64 L / (2 * PI) = R64 L / a * ((2 * PI - a) / (2 * PI))) by (field; lra).
  assert (D2 : Rabs ((2 * PI - a) / (2 * PI)) <= / 100000000000000). { apply Rabs_le. split; apply Rmult_le_reg_r with (2 * PI); try lra; unfold Rdiv; rewrite Rmult_assoc, Rinv_l by lra; unfold a; lra. }
  assert (D3 : Rabs (R64 L / a - R64 L / (2 * PI)) <= / 100000000000000). { rewrite D, Rabs_mult. assert (Rabs (R64 L / a) <= 1) by (apply Rabs_le; lra). pose proof (Rabs_pos (R64 L / a)). pose proof (Rabs_pos ((2 * PI - a) / (2 * PI))). nra. }
  apply Rabs_le_inv in D3. apply Rabs_le. lra.
Qed.
(** the moment for which rising and setting are asked: noon of the day in the mean time of the place *)
Lemma local_noon j n L : ok j -> R64 j = IZR n -> ok L -> Rabs (R64 L) <= 4 -> (Z.abs (n - 2451545) <= 2000000)%Z ->
  let x := fsub (fsub j (fZ 2451545)) (fdiv (fmul (fdiv L FormModel.pi2) (fZ 24)) (fZ 24)) in ok x /\ Rabs (R64 x - (IZR (n - 2451545) - R64 L / (2 * PI))) <= / 500000000.
Proof.
  intros Oj Ej OL BL Bn x. assert (BR : Rabs (IZR (n - 2451545)) <= 2000000) by (rewrite <- abs_IZR; apply IZR_le; exact Bn). apply Rabs_le_inv in BR.
  destruct (z_near 2451545 0 ltac:(lia) ltac:(lra)) as [OZ EZ]. destruct (fZ_ok 2451545 ltac:(lia)) as [_ EZ'].
  destruct (sub_near j _ (IZR n) (IZR 2451545) 0 Oj OZ) as [O1 E1]; [rewrite Ej, Rminus_diag_eq, Rabs_R0 by reflexivity; lra|exact EZ|lra|rewrite <- minus_IZR; apply Rabs_le; lra|].
  rewrite <- minus_IZR in E1. destruct (over_pi2 L OL BL) as [O2 E2]. set (q := fdiv L FormModel.pi2) in *.
  assert (BQ : Rabs (R64 L / (2 * PI)) <= 1). { pose proof PI2_1. unfold Rdiv. rewrite Rabs_mult, (Rabs_pos_eq (/ _)). 2: { left. apply Rinv_0_lt_compat. lra. }
    apply Rmult_le_reg_r with (2 * PI); [lra|]. rewrite Rmult_assoc, Rinv_l by lra. pose proof (Rabs_pos (R64 L)). assert (3 < PI) by (pose proof PiBound.PI_bounds; lra). lra. }
  apply Rabs_le_inv in BQ, E2. destruct (fZ_ok 24 ltac:(lia)) as [O24 E24].
  destruct (fmul_ok q (fZ 24) O2 O24) as [O3 E3]. { rewrite E24. apply Rle_trans with (bpow radix2 6); [change (bpow radix2 6) with 64; apply Rabs_le; lra|apply bpow_le; lia]. }
  assert (E3' : Rabs (R64 (fmul q (fZ 24)) - R64 q * 24) <= / 100000000000000). { rewrite E3, E24. eapply Rle_trans; [apply (rnd_err _ 6); [lia|change (bpow radix2 6) with 64; apply Rabs_le; lra]|]. change (bpow radix2 (6 - 54)) with (/ 281474976710656). lra. }
  apply Rabs_le_inv in E3'. destruct (fdiv_ok (fmul q (fZ 24)) (fZ 24) O3 O24) as [O4 E4]; [rewrite E24; lra| |].
  { rewrite E24. apply Rle_trans with (bpow radix2 6); [change (bpow radix2 6) with 64; apply Rabs_le; lra|apply bpow_le; lia]. }
  assert (E4' : Rabs (R64 (fdiv (fmul q (fZ 24)) (fZ 24)) - R64 L / (2 * PI)) <= / 10000000000).
  { assert (RE : Rabs (R64 (fdiv (fmul q (fZ 24)) (fZ 24)) - R64 (fmul q (fZ 24)) / 24) <= / 100000000000000). { rewrite E4, E24. eapply Rle_trans; [apply (rnd_err _ 6); [lia|change (bpow radix2 6) with 64; apply Rabs_le; lra]|]. change (bpow radix2 (6 - 54)) with (/ 281474976710656). lra. }
    apply Rabs_le_inv in RE. apply Rabs_le. lra. }
  destruct (sub_near _ _ _ _ (/ 2000000000) O1 O4 ltac:(eapply Rle_trans; [exact E1|]; lra) ltac:(eapply Rle_trans; [exact E4'|]; lra) ltac:(lra)) as [O5 E5]; [apply Rabs_le; lra|].
  split; [exact O5|]. eapply Rle_trans; [exact E5|]. lra.
Qed.

(** ** C149 *)
(** the report of one day *)
Theorem C149_report St Mt L fa y mo d n : day_number n (mkc y mo d) -> (Z.abs (n - 2451545) <= 2000000)%Z -> (-4716 < y)%Z -> ok L -> Rabs (R64 L) <= 4 ->
  exists x, ok x /\ Rabs (R64 x - (IZR (n - 2451545) - R64 L / (2 * PI))) <= / 500000000 /\ let r := St L fa x in let q := Mt L fa x in
  (Forall in_years [d_s r; d_j r; d_z r; d_x r; d_c r; d_h r; d_c2 r; d_h2 r; d_c3 r; d_h3 r; d_s q; d_j q; d_z q; d_x q] ->
   exists s j z u c h c2 h2 c3 h3 t1 t2 ms mj mz mu,
     shengjiang St Mt L fa y mo d = Some (ESC :: B "[31;1m北京时间(转为格林尼治时间请减8小时)：" ++ ESC :: B "[0m" ++ NL ++
       B "太阳升起 " ++ s ++ B " 太阳降落 " ++ j ++ NL ++ B "日上中天 " ++ z ++ B " 日下中天 " ++ u ++ NL ++ B "民用天亮 " ++ c ++ B " 民用天黑 " ++ h ++ NL ++
       B "航海天亮 " ++ c2 ++ B " 航海天黑 " ++ h2 ++ NL ++ B "天文天亮 " ++ c3 ++ B " 天文天黑 " ++ h3 ++ NL ++ B "日照长度  " ++ t1 ++ B " " ++ NL ++ B "日光长度  " ++ t2 ++ NL ++
       (if (len (d_sm r) =? 0)%Z then [] else B "注：" ++ d_sm r ++ NL) ++
       B "月亮升起 " ++ ms ++ B " 月亮降落 " ++ mj ++ NL ++ B "月上中天 " ++ mz ++ B " 月下中天 " ++ mu ++ NL) /\
     Forall2 (fun v t => moment_text (at_beijing v) t) [d_s r; d_j r; d_z r; d_x r; d_c r; d_h r; d_c2 r; d_h2 r; d_c3 r; d_h3 r; d_s q; d_j q; d_z q; d_x q]
       [s; j; z; u; c; h; c2; h2; c3; h3; ms; mj; mz; mu] /\
     clock_text (R64 (d_j r) - R64 (d_s r) - / 2) t1 /\ clock_text (R64 (d_h r) - R64 (d_c r) - / 2) t2).
Proof.
  intros DN Bn By OL BL. assert (Y5 : (y <= 5772803)%Z).
  { destruct (year_bound n _ DN ltac:(lia)) as ([_ H] & _). cbn [cy] in H. lia. }
  destruct (C01_toJD_counts_days n (mkc y mo d) DN Y5) as (jd & Ej & Oj & Vj); [left; exact By|]. cbn [cy cm cd] in Ej.
  destruct (local_noon jd n L Oj Vj OL BL Bn) as [Ox Ex]. eexists. split; [exact Ox|]. split; [exact Ex|]. intros r q F.
  repeat match goal with H : Forall _ (_ :: _) |- _ => apply Forall_cons_iff in H; destruct H end.
  unfold shengjiang. rewrite Ej. cbn [obind]. cbv zeta. fold r q.
  edestruct (pair_ok "太阳升起 " (d_s r) " 太阳降落 " (d_j r)) as (s & j & -> & Ts & Tj); [assumption..|]. cbn [obind].
  edestruct (pair_ok "日上中天 " (d_z r) " 日下中天 " (d_x r)) as (z & u & -> & Tz & Tu); [assumption..|]. cbn [obind].
  edestruct (pair_ok "民用天亮 " (d_c r) " 民用天黑 " (d_h r)) as (c & h & -> & Tc & Th); [assumption..|]. cbn [obind].
  edestruct (pair_ok "航海天亮 " (d_c2 r) " 航海天黑 " (d_h2 r)) as (c2 & h2 & -> & Tc2 & Th2); [assumption..|]. cbn [obind].
  edestruct (pair_ok "天文天亮 " (d_c3 r) " 天文天黑 " (d_h3 r)) as (c3 & h3 & -> & Tc3 & Th3); [assumption..|]. cbn [obind].
  destruct (span_ok (d_s r) (d_j r)) as (t1 & -> & T1); [assumption..|]. cbn [obind]. destruct (span_ok (d_c r) (d_h r)) as (t2 & -> & T2); [assumption..|]. cbn [obind].
  edestruct (pair_ok "月亮升起 " (d_s q) " 月亮降落 " (d_j q)) as (ms & mj & -> & Tms & Tmj); [assumption..|]. cbn [obind].
  edestruct (pair_ok "月上中天 " (d_z q) " 月下中天 " (d_x q)) as (mz & mu & -> & Tmz & Tmu); [assumption..|]. cbn [obind].
  exists s, j, z, u, c, h, c2, h2, c3, h3, t1, t2, ms, mj, mz, mu. split; [|split; [repeat constructor; assumption|split; assumption]].
  assert (EN : (len (d_sm r) =? 0)%Z = match d_sm r with [] => true | _ => false end) by (unfold len; destruct (d_sm r); reflexivity). rewrite EN.
  destruct (d_sm r); repeat (rewrite <- ?app_assoc; cbn [app]); reflexivity.
Qed.

(** the row of a day in the table of the year: the date without the first character of the year and the hour of sunrise; the time of sunset *)
Definition row_text (rise set : R) (t : bytes) : Prop := exists c y mo d hh mm ss ty tmo td th u,
  t = B "  " ++ ESC :: B "[31m" ++ ty ++ B "-" ++ tmo ++ B "-" ++ td ++ B " " ++ th ++ B ":" ++ ESC :: B "[0m  " ++ u ++ NL /\
  shows rise y mo d hh mm ss /\ blank_field 5 y (c :: ty) /\ digits_field 2 mo tmo /\ digits_field 2 d td /\ digits_field 2 hh th /\ clock_text set u.
Lemma cut_date y mo d hh mm ss t : date_text y mo d hh mm ss t -> exists c ty tmo td th, substr t 1 14 = Some (ty ++ B "-" ++ tmo ++ B "-" ++ td ++ B " " ++ th ++ B ":") /\
  blank_field 5 y (c :: ty) /\ digits_field 2 mo tmo /\ digits_field 2 d td /\ digits_field 2 hh th.
Proof.
  intros (ty & tmo & td & th & tm & ts & -> & (k & dd & Ek & It & Ly) & (L1 & F1 & V1) & (L2 & F2 & V2) & (L3 & F3 & V3) & (L4 & _) & (L5 & _)).
  destruct ty as [|c0 [|c1 [|c2 [|c3 [|c4 [|? ?]]]]]]; try discriminate Ly. destruct tmo as [|m0 [|m1 [|? ?]]]; try discriminate L1. destruct td as [|d0 [|d1 [|? ?]]]; try discriminate L2.
  destruct th as [|h0 [|h1 [|? ?]]]; try discriminate L3. destruct tm as [|x0 [|x1 [|? ?]]]; try discriminate L4. destruct ts as [|y0 [|y1 [|? ?]]]; try discriminate L5.
  exists c0, [c1; c2; c3; c4], [m0; m1], [d0; d1], [h0; h1]. split; [reflexivity|]. split; [exists k, dd; auto|]. repeat split; assumption.
Qed.
Lemma row_ok sunShengJ L fa jd i : let rise := sunShengJ (fadd jd (fZ i)) L fa (-1)%Z in let set := sunShengJ (fadd jd (fZ i)) L fa 1%Z in in_years rise -> in_years set ->
  exists t, sun_row sunShengJ L fa jd i = Some t /\ row_text (at_beijing rise) (at_beijing set) t.
Proof.
  intros rise set Hr Hs. unfold sun_row. fold rise set. destruct (event_row rise Hr) as [O1 E1], (event_row set Hs) as [O2 E2].
  destruct Hr as [_ Br], Hs as [_ Bs]. apply Rabs_le_inv in Br, Bs.
  destruct (JD2str_near _ _ O1 E1) as (t & -> & (y & mo & d & hh & mm & ss & T & S)); [unfold at_beijing; lra|]. cbn [obind].
  destruct (timeStr_near _ _ O2 E2) as (u & Eu & U); [unfold at_beijing; lra|].
  destruct (cut_date _ _ _ _ _ _ _ T) as (c & ty & tmo & td & th & -> & F1 & F2 & F3 & F4). cbn [obind]. rewrite Eu. cbn [obind]. eexists. split; [reflexivity|].
  exists c, y, mo, d, hh, mm, ss, ty, tmo, td, th, u. split; [|repeat split; try assumption; apply F1 || apply F2 || apply F3 || apply F4].
  repeat (rewrite <- ?app_assoc; cbn [app]). reflexivity.
Qed.
Theorem C149_table sunShengJ L fa y n : day_number n (mkc y 1 1) -> (Z.abs (n - 2451545) <= 1900000)%Z -> (-4716 < y)%Z ->
  exists arg : nat -> f64, (forall i, (i < 368)%nat -> ok (arg i) /\ R64 (arg i) = IZR (n - 2451545 + Z.of_nat i)) /\
  ((forall i, (i < 368)%nat -> in_years (sunShengJ (arg i) L fa (-1)%Z) /\ in_years (sunShengJ (arg i) L fa 1%Z)) ->
   exists ys rows, shengjiang2 sunShengJ L fa y = Some (ys ++ B "年太阳年度升降表" ++ NL ++ B "        升        降" ++ NL ++ List.concat rows) /\ int_text y ys /\ List.length rows = 368%nat /\
   forall i, (i < 368)%nat -> row_text (at_beijing (sunShengJ (arg i) L fa (-1)%Z)) (at_beijing (sunShengJ (arg i) L fa 1%Z)) (nth i rows [])).
Proof.
  intros DN Bn By. destruct (year_bound n _ DN ltac:(lia)) as ([_ Y5] & _). cbn [cy] in Y5.
  destruct (C01_toJD_counts_days n (mkc y 1 1) DN ltac:(cbn [cy]; lia)) as (j & Ej & Oj & Vj); [left; exact By|]. cbn [cy cm cd] in Ej.
  set (jd := fsub j (fZ 2451545)). assert (BR : Rabs (IZR (n - 2451545)) <= 1900000) by (rewrite <- abs_IZR; apply IZR_le; exact Bn). apply Rabs_le_inv in BR.
  assert (J : ok jd /\ R64 jd = IZR (n - 2451545)).
  { destruct (fZ_ok 2451545 ltac:(lia)) as [OZ EZ]. destruct (fsub_ok j _ Oj OZ) as [O E]. { rewrite Vj, EZ, <- minus_IZR. apply Rle_trans with (bpow radix2 23); [change (bpow radix2 23) with 8388608; apply Rabs_le; lra|apply bpow_le; lia]. }
    split; [exact O|]. unfold jd. rewrite E, Vj, EZ, <- minus_IZR. apply rnd_IZR. lia. }
  destruct J as [OJ EJ]. exists (fun i => fadd jd (fZ (Z.of_nat i))). split.
  - intros i Hi. destruct (fZ_ok (Z.of_nat i) ltac:(lia)) as [OZ EZ]. assert (Ri : 0 <= IZR (Z.of_nat i) <= 400) by (split; apply IZR_le; lia).
    destruct (fadd_ok jd _ OJ OZ) as [O E]. { rewrite EJ, EZ. apply Rle_trans with (bpow radix2 23); [change (bpow radix2 23) with 8388608; apply Rabs_le; lra|apply bpow_le; lia]. }
    split; [exact O|]. rewrite E, EJ, EZ, <- plus_IZR. apply rnd_IZR. lia.
  - intros H. assert (G : forall k i, (i + k = 368)%nat -> exists rows, sun_rows sunShengJ L fa jd k (Z.of_nat i) = Some (List.concat rows) /\ List.length rows = k /\
      forall l, (l < k)%nat -> row_text (at_beijing (sunShengJ (fadd jd (fZ (Z.of_nat (i + l)))) L fa (-1)%Z)) (at_beijing (sunShengJ (fadd jd (fZ (Z.of_nat (i + l)))) L fa 1%Z)) (nth l rows [])).
    { intros k. induction k as [|k IH]; intros i Hi; [exists []; repeat split; intros l Hl; lia|]. destruct (H i ltac:(lia)) as [H1 H2].
      destruct (row_ok sunShengJ L fa jd (Z.of_nat i) H1 H2) as (t & Et & Tt). destruct (IH (S i) ltac:(lia)) as (rows & Er & Lr & Tr).
      exists (t :: rows). cbn [sun_rows List.concat]. rewrite Et. cbn [obind]. replace (Z.of_nat i + 1)%Z with (Z.of_nat (S i)) by lia. rewrite Er. cbn [obind]. split; [reflexivity|]. split; [cbn; now rewrite Lr|].
      intros [|l] Hl; [rewrite Nat.add_0_r; exact Tt|]. cbn [nth]. replace (i + S l)%nat with (S i + l)%nat by lia. apply Tr. lia. }
    destruct (G 368%nat 0%nat eq_refl) as (rows & Er & Lr & Tr). change (Z.of_nat 0) with 0%Z in Er.
    destruct (to_str_int_ok 32 y ltac:(now left)) as (ys & Ey & Ty & _); [change (2 ^ (32 - 1))%Z with 2147483648%Z; change (2 ^ 32)%Z with 4294967296%Z; lia|].
    exists ys, rows. unfold shengjiang2. rewrite Ej. cbn [obind]. fold jd. rewrite Er. cbn [obind]. unfold to_str. rewrite Ey. cbn [obind]. auto.
Qed.

(** finding: the table does not show the minutes of sunrise; two suns that rise an hour apart have the same table *)
Definition still (rise set : f64) (_ _ _ : f64) (sj : Z) : f64 := if (sj <? 0)%Z then rise else set.
Lemma same_row r1 r2 s L fa jd i t : JD2str (fadd (fadd r1 (fZ 2451545)) (fdiv (fZ 8) (fZ 24))) = Some t ->
  (exists t', JD2str (fadd (fadd r2 (fZ 2451545)) (fdiv (fZ 8) (fZ 24))) = Some t' /\ substr t 1 14 = substr t' 1 14) -> sun_row (still r1 s) L fa jd i = sun_row (still r2 s) L fa jd i.
Proof. intros E (t' & E' & S). unfold sun_row, still. change (-1 <? 0)%Z with true. change (1 <? 0)%Z with false. cbv iota. rewrite E, E'. cbn [obind]. now rewrite S. Qed.
Lemma same_table r1 r2 s L fa y : (forall jd i, sun_row (still r1 s) L fa jd i = sun_row (still r2 s) L fa jd i) -> shengjiang2 (still r1 s) L fa y = shengjiang2 (still r2 s) L fa y.
Proof.
  intros H. unfold shengjiang2. destruct (toJD _) as [j|]; [|reflexivity]. cbn [obind].
  replace (sun_rows (still r2 s) L fa (fsub j (fZ 2451545)) 368 0) with (sun_rows (still r1 s) L fa (fsub j (fZ 2451545)) 368 0); [reflexivity|].
  generalize 0%Z. generalize 368%nat. intros k. induction k as [|k IH]; intros i; [reflexivity|]. cbn [sun_rows]. rewrite H. destruct (sun_row _ _ _ _ i) as [t|]; [|reflexivity]. cbn [obind]. now rewrite IH.
Qed.
Theorem C149_minutes_refuted : exists r1 r2 s, in_years r1 /\ in_years r2 /\ in_years s /\ R64 r2 - R64 r1 >= / 25 - / 1000000 /\
  forall L fa y, shengjiang2 (still r1 s) L fa y = shengjiang2 (still r2 s) L fa y.
Proof.
  exists (fZ 0), (lit 4 100), (fZ 0). destruct (fZ_ok 0 ltac:(lia)) as [O0 E0].
  assert (L : ok (lit 4 100) /\ Rabs (R64 (lit 4 100) - 4 / 100) <= / 10000000). { split; [apply lit_ok; lia|]. destruct (fZ_ok 4 ltac:(lia)) as [O4 E4], (fZ_ok 100 ltac:(lia)) as [O100 E100].
    change (lit 4 100) with (fdiv (fZ 4) (fZ 100)). destruct (fdiv_ok _ _ O4 O100) as [_ E]; [rewrite E100; lra|rewrite E4, E100; apply Rle_trans with (bpow radix2 0); [change (bpow radix2 0) with 1; apply Rabs_le; lra|apply bpow_le; lia]|].
    rewrite E, E4, E100. eapply Rle_trans; [apply (rnd_err _ 0); [lia|change (bpow radix2 0) with 1; apply Rabs_le; lra]|]. change (bpow radix2 (0 - 54)) with (/ 18014398509481984). lra. }
  destruct L as [OL EL]. apply Rabs_le_inv in EL. assert (I0 : in_years (fZ 0)) by (split; [exact O0|rewrite E0; apply Rabs_le; lra]).
  split; [exact I0|]. split; [split; [exact OL|apply Rabs_le; lra]|]. split; [exact I0|]. split; [rewrite E0; lra|]. intros L fa y. apply same_table. intros jd i.
  eapply same_row; [vm_compute; reflexivity|]. eexists. split; [vm_compute; reflexivity|]. vm_compute. reflexivity.
Qed.
(** finding: the sign of the year is cut off, too *)
Theorem C149_sign_refuted : exists r1 r2 s, in_years r1 /\ in_years r2 /\ in_years s /\ R64 r2 - R64 r1 >= 1400000 /\
  forall L fa y, shengjiang2 (still r1 s) L fa y = shengjiang2 (still r2 s) L fa y.
Proof.
  assert (IY : forall z, (Z.abs z <= 2000000)%Z -> in_years (fZ z)). { intros z H. destruct (fZ_ok z ltac:(lia)) as [O E]. split; [exact O|]. rewrite E, <- abs_IZR. now apply IZR_le. }
  exists (fZ (990558 - 2451545)), (fZ 0), (fZ 0). repeat (split; [apply IY; lia|]). split.
  - destruct (fZ_ok 0 ltac:(lia)) as [_ ->], (fZ_ok (990558 - 2451545) ltac:(lia)) as [_ ->]. rewrite <- minus_IZR. apply IZR_ge. lia.
  - intros L fa y. apply same_table. intros jd i. eapply same_row; [vm_compute; reflexivity|]. eexists. split; [vm_compute; reflexivity|]. vm_compute. reflexivity.
Qed.
Example C149_ex : day_number 2451545 (mkc 2000 1 1) /\ in_years (fZ 0) /\ sun_row (still (fZ 0) (fZ 0)) (fZ 2) (fZ 0) (fZ 0) 0 = Some (B "  " ++ ESC :: B "[31m2000-01-01 20:" ++ ESC :: B "[0m  20:00:00" ++ NL).
Proof.
  split; [|split; [destruct (fZ_ok 0 ltac:(lia)) as [O E]; split; [exact O|rewrite E; apply Rabs_le; lra]|vm_compute; reflexivity]].
  exact (proj1 C01_witness_counted).
Qed.
Print Assumptions C149_report. Print Assumptions C149_table. Print Assumptions C149_minutes_refuted. Print Assumptions C149_sign_refuted.
