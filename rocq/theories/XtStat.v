(** Stations and conjunctions of the planets, in exact arithmetic. *)
From Coq Require Import ZArith Reals Lra Lia Psatz List.
From Flocq Require Import Core.
From Verif Require Import PiBound GeoModel GeoProof GeoProps SjProps ZbProps XtModel XtProps.
Import ListNotations.
Open Scope R_scope.

Ltac index := match goal with |- context [Z.to_nat ?z] => let k := eval vm_compute in (Z.to_nat z) in change (Z.to_nat z) with k end; cbn [nth].
(** ** The approach with the mean speed *)
Lemma rrad_turns i : rad2rrad (2 * PI * IZR i) = 0.
Proof. destruct (C31_rrad_exact (2 * PI * IZR i)) as (B & E). apply (C31_unique (2 * PI * IZR i)); [exact E|exists (- i)%Z; rewrite opp_IZR; ring|]. pose proof PI_RGT_0. apply Rabs_def1; lra. Qed.
Lemma approach_fix hd w0 v k : forall t i, hd t - w0 = 2 * PI * IZR i -> approach hd w0 v k t = t.
Proof. induction k as [|k IH]; intros t i E; cbn [approach]; [reflexivity|]. rewrite E, rrad_turns. replace (t - 0 / v) with t by (unfold Rdiv; ring). apply (IH t i E). Qed.
(** the mean motion: the difference of the longitudes grows by [speed] a century and is w0 at o *)
Lemma approach_linear hd w0 o v k t : v <> 0 -> (forall x, hd x = w0 + v * (x - o)) ->
  exists j, approach hd w0 v (S k) t = o + 2 * PI / v * IZR j /\ Rabs (approach hd w0 v (S k) t - t) <= PI / Rabs v.
Proof.
  intros V H. cbn [approach]. destruct (C31_rrad_exact (hd t - w0)) as (B & i & E). set (r := rad2rrad (hd t - w0)) in *.
  assert (T : hd (t - r / v) - w0 = 2 * PI * IZR (- i)). { rewrite H. rewrite H in E. rewrite opp_IZR. replace (w0 + v * (t - r / v - o) - w0) with (v * (t - o) - r) by (field; exact V). rewrite E. ring. }
  rewrite (approach_fix hd w0 v k _ _ T). exists (- i)%Z. split.
  - rewrite H in T. apply (Rmult_eq_reg_l v); [|exact V]. replace (v * (o + 2 * PI / v * IZR (- i))) with (v * o + 2 * PI * IZR (- i)) by (field; exact V). lra.
  - replace (t - r / v - t) with (- (r / v)) by ring. rewrite Rabs_Ropp. unfold Rdiv. rewrite Rabs_mult, Rabs_inv. apply Rmult_le_compat_r; [left; apply Rinv_0_lt_compat, Rabs_pos_lt, V|]. apply Rabs_le. lra.
Qed.
Lemma synodic_ok xt : (1 <= xt <= 8)%Z -> 100 < synodic xt.
Proof. intros H. assert (C : (xt = 1 \/ xt = 2 \/ xt = 3 \/ xt = 4 \/ xt = 5 \/ xt = 6 \/ xt = 7 \/ xt = 8)%Z) by lia. unfold synodic. destruct C as [->|[->|[->|[->|[->|[->|[->| ->]]]]]]]; index; lra. Qed.
Lemma speed_ok xt : (1 <= xt <= 8)%Z -> speed xt <> 0 /\ Rabs (speed xt) = 2 * PI / (synodic xt / 36525) /\ (speed xt < 0 <-> (2 < xt)%Z).
Proof.
  intros H. pose proof (synodic_ok xt H) as S. pose proof PI_RGT_0 as PP. unfold speed. cbv zeta. assert (P : 0 < 2 * PI / (synodic xt / 36525)) by (apply Rdiv_lt_0_compat; lra).
  destruct (Z.ltb_spec 2 xt).
  - split; [lra|]. split; [rewrite Rabs_Ropp, Rabs_pos_eq; lra|]. split; intros; [assumption|lra].
  - split; [lra|]. split; [rewrite Rabs_pos_eq; lra|]. split; intros; [lra|lia].
Qed.
(** Mean oppositions (or inferior conjunctions) come every synodic period; the approach finds the one closest to t. *)
Theorem approach_closest hd w0 o xt t : (1 <= xt <= 8)%Z -> (forall x, hd x = w0 + speed xt * (x - o)) ->
  exists j, approach hd w0 (speed xt) 6 t = o + synodic xt / 36525 * IZR j /\ forall i, Rabs (t - (o + synodic xt / 36525 * IZR j)) <= Rabs (t - (o + synodic xt / 36525 * IZR i)).
Proof.
  intros H L. destruct (speed_ok xt H) as (N & A & SG). pose proof (synodic_ok xt H) as S. pose proof PI_RGT_0 as PP.
  destruct (approach_linear hd w0 o (speed xt) 5 t N L) as (j & E & B). set (T := approach hd w0 (speed xt) 6 t) in *.
  assert (K : exists j', T = o + synodic xt / 36525 * IZR j').
  { unfold speed in E. destruct (2 <? xt)%Z; [exists (- j)%Z|exists j]; rewrite E, ?opp_IZR; field; repeat split; lra. }
  destruct K as (j' & E'). exists j'. split; [exact E'|]. rewrite <- E'. rewrite E'. apply closest; [lra|]. rewrite <- E'.
  replace (PI / Rabs (speed xt)) with (synodic xt / 36525 / 2) in B by (rewrite A; field; repeat split; lra). apply Rabs_le_inv in B. lra.
Qed.
(** ** C136: stations *)
(** days from opposition or inferior conjunction to the station *)
Definition station_days (xt : Z) : R :=
  if (xt =? 1)%Z then 17.4 else if (xt =? 2)%Z then 28 else if (xt =? 3)%Z then 52 else if (xt =? 4)%Z then 82 else if (xt =? 5)%Z then 86 else if (xt =? 6)%Z then 88 else if (xt =? 7)%Z then 89 else 90.
Lemma station_table xt : (1 <= xt <= 8)%Z -> nth (Z.to_nat (xt - 1)) [17.4; 28; 52; 82; 86; 88; 89; 90] 0 = station_days xt.
Proof. intros H. assert (C : (xt = 1 \/ xt = 2 \/ xt = 3 \/ xt = 4 \/ xt = 5 \/ xt = 6 \/ xt = 7 \/ xt = 8)%Z) by lia. destruct C as [->|[->|[->|[->|[->|[->|[->| ->]]]]]]]; reflexivity. Qed.
(** before or after: for the outer planets sn is the station before opposition, for the inner ones the station after inferior conjunction *)
Definition side (xt : Z) (sn : bool) : R := if sn then (if (2 <? xt)%Z then -1 else 1) else (if (2 <? xt)%Z then 1 else -1).
(** Mean motion in longitude, and a right ascension that is a parabola within ten days of the mean station, with the station within five days of it: it is found. *)
Theorem C136_station hd pos Agx xt t sn o m r q : (1 <= xt <= 8)%Z -> (forall x, hd x = 0 + speed xt * (x - o)) ->
  (forall j, q j <> 0 /\ let s := o + synodic xt / 36525 * IZR j + side xt sn * days (station_days xt) in
     Rabs (m j - s) <= days 5 /\ forall n g x, Rabs (x - s) <= days 10 -> fst (pos n g x) = parabola (m j) (r j) (q j) x) ->
  exists j, (forall i, Rabs (t - (o + synodic xt / 36525 * IZR j)) <= Rabs (t - (o + synodic xt / 36525 * IZR i))) /\ xingLiu hd pos Agx xt t sn = m j.
Proof.
  intros H L P. destruct (approach_closest hd 0 o xt t H L) as (j & E & C). exists j. split; [exact C|]. destruct (P j) as (Q & M & F). cbv zeta in M, F. clear P.
  unfold xingLiu. cbv zeta. rewrite E, (station_table xt H). set (O := o + synodic xt / 36525 * IZR j) in *.
  assert (ES : (if sn then if (2 <? xt)%Z then O - station_days xt / 36525 else O + station_days xt / 36525 else if (2 <? xt)%Z then O + station_days xt / 36525 else O - station_days xt / 36525) = O + side xt sn * days (station_days xt)).
  { unfold side, days. destruct sn, (2 <? xt)%Z; lra. }
  rewrite ES. set (s := O + side xt sn * days (station_days xt)) in *. clearbody s. unfold days in M, F. apply Rabs_le_inv in M.
  set (mj := m j) in *. set (rj := r j) in *. set (qj := q j) in *. clearbody mj rj qj.
  assert (V : forall n g y d, 0 < d -> Rabs (y - s) + d <= 10 / 36525 -> vertex (fun x => fst (pos n g x)) y d = mj).
  { intros n g y d D B. apply (vertex_fit _ y d mj rj qj); [lra|exact Q| | |]; apply F; (unfold Rabs in *; repeat destruct Rcase_abs; lra). }
  assert (MS : Rabs (mj - s) <= 5 / 36525) by (apply Rabs_le; lra). assert (SS : Rabs (s - s) = 0) by (replace (s - s) with 0 by ring; apply Rabs_R0).
  rewrite (V 8%Z 0 s) by lra. rewrite (V 8%Z 0 mj (1 / 36525)) by lra. rewrite (V 8%Z 0 mj (0.5 / 36525)) by lra. apply V; lra.
Qed.
(** A loop in right ascension around an opposition (or inferior conjunction) at 0: eastward before -tau, westward until tau, eastward after. *)
Definition loop (tau x : R) : R := if Rlt_dec x 0 then 3 - (x + tau) * (x + tau) else 3 - 2 * tau * tau + (x - tau) * (x - tau).
Lemma loop_motion tau x y : 0 < tau -> x < y ->
  (y <= - tau -> loop tau x < loop tau y) /\ (- tau <= x -> y <= tau -> loop tau y < loop tau x) /\ (tau <= x -> loop tau x < loop tau y).
Proof. intros T H. unfold loop. destruct (Rlt_dec x 0), (Rlt_dec y 0); repeat split; intros; nra. Qed.
Theorem C136_kind xt : (1 <= xt <= 8)%Z -> let tau := days (station_days xt) in
  xingLiu (fun x => speed xt * x) (fun _ _ x => (loop tau x, 1)) 0 xt 0 true = if (2 <? xt)%Z then - tau else tau.
Proof.
  intros H tau. assert (T : 10 / 36525 < tau). { unfold tau, days, station_days. repeat match goal with |- context [(?a =? ?b)%Z] => destruct (a =? b)%Z end; lra. }
  unfold xingLiu. cbv zeta. rewrite (station_table xt H). rewrite (approach_fix _ 0 (speed xt) 6 0 0%Z) by ring. fold (days (station_days xt)). fold tau. cbn [fst snd]. clearbody tau.
  destruct (2 <? xt)%Z.
  - replace (0 - tau) with (- tau) by ring. assert (V : forall d, 0 < d <= 5 / 36525 -> vertex (loop tau) (- tau) d = - tau).
    { intros d D. apply (vertex_fit _ (- tau) d (- tau) 3 (-1)); [lra|lra| | |]; unfold loop, parabola; (destruct Rlt_dec; [ring|lra]). }
    change (fun x => loop tau x) with (loop tau). rewrite !V by lra. reflexivity.
  - replace (0 + tau) with tau by ring. assert (V : forall d, 0 < d <= 5 / 36525 -> vertex (loop tau) tau d = tau).
    { intros d D. apply (vertex_fit _ tau d tau (3 - 2 * tau * tau) 1); [lra|lra| | |]; unfold loop, parabola; (destruct Rlt_dec; [lra|ring]). }
    change (fun x => loop tau x) with (loop tau). rewrite !V by lra. reflexivity.
Qed.
(** With the same argument it is the turn to retrograde motion for the outer planets and the turn back for the inner ones. *)
Theorem C136_kind_refuted : exists f1 f4 s1 s4, (forall x y, x < y -> (y <= - s1 -> f1 x < f1 y) /\ (- s1 <= x -> y <= s1 -> f1 y < f1 x) /\ (s1 <= x -> f1 x < f1 y)) /\
  (forall x y, x < y -> (y <= - s4 -> f4 x < f4 y) /\ (- s4 <= x -> y <= s4 -> f4 y < f4 x) /\ (s4 <= x -> f4 x < f4 y)) /\ 0 < s1 /\ 0 < s4 /\
  xingLiu (fun x => speed 1 * x) (fun _ _ x => (f1 x, 1)) 0 1 0 true = s1 /\ xingLiu (fun x => speed 4 * x) (fun _ _ x => (f4 x, 1)) 0 4 0 true = - s4.
Proof.
  exists (loop (days (station_days 1))), (loop (days (station_days 4))), (days (station_days 1)), (days (station_days 4)).
  assert (0 < days (station_days 1)) by (unfold days, station_days; cbn; lra). assert (0 < days (station_days 4)) by (unfold days, station_days; cbn; lra).
  split; [intros; apply loop_motion; assumption|]. split; [intros; apply loop_motion; assumption|]. split; [assumption|]. split; [assumption|].
  split; [exact (C136_kind 1 ltac:(lia))|exact (C136_kind 4 ltac:(lia))].
Qed.
(** The right ascension is reduced to [0, 2 pi) and its differences are not: a station at right ascension 0 is missed, here by half an hour. *)
Definition near_zero (m x : R) : R := rad2mrad ((x - m) * (x - m) - 0.0000008 * 0.0000008).
Lemma zero_round m x d : 0.0000006 <= x <= 0.0000007 -> 0.000002 <= d <= 5 / 36525 ->
  m + x <= vertex (near_zero m) (m + x) d <= m + x + 0.00000001.
Proof.
  intros X D. pose proof PI_bounds as PB. unfold vertex. cbv zeta.
  assert (Y1 : near_zero m (m + x - d) = (x - d) * (x - d) - 0.0000008 * 0.0000008).
  { unfold near_zero. replace (m + x - d - m) with (x - d) by ring. apply mrad_id. split; nra. }
  assert (Y3 : near_zero m (m + x + d) = (x + d) * (x + d) - 0.0000008 * 0.0000008).
  { unfold near_zero. replace (m + x + d - m) with (x + d) by ring. apply mrad_id. split; nra. }
  assert (Y2 : near_zero m (m + x) = x * x - 0.0000008 * 0.0000008 + 2 * PI).
  { unfold near_zero. replace (m + x - m) with x by ring. destruct (C31_mrad_exact (x * x - 0.0000008 * 0.0000008)) as (B & E). apply (C31_unique (x * x - 0.0000008 * 0.0000008)); [exact E|exists 1%Z; ring|apply Rabs_def1; nra]. }
  rewrite Y1, Y2, Y3.
  replace ((x - d) * (x - d) - 0.0000008 * 0.0000008 - ((x + d) * (x + d) - 0.0000008 * 0.0000008)) with (-4 * x * d) by ring.
  replace ((x - d) * (x - d) - 0.0000008 * 0.0000008 + ((x + d) * (x + d) - 0.0000008 * 0.0000008) - 2 * (x * x - 0.0000008 * 0.0000008 + 2 * PI)) with (- (2 * (2 * PI - d * d))) by ring.
  assert (DD : 0 < d * d <= 0.00000002) by (split; nra). assert (Q : 0 < 2 * PI - d * d) by lra.
  replace (-4 * x * d / - (2 * (2 * PI - d * d)) * d / 2) with (x * (d * d) / (2 * PI - d * d)) by (field; lra).
  set (w := x * (d * d)). assert (W : 0 <= w <= 0.00000001) by (unfold w; split; nra). set (p := 2 * PI - d * d) in *. assert (P1 : 1 <= p) by (unfold p; lra). clearbody w p.
  assert (I : 0 < / p <= 1) by (split; [apply Rinv_0_lt_compat; lra|rewrite <- Rinv_1; apply Rinv_le; lra]). unfold Rdiv. split; nra.
Qed.
Theorem C136_zero_refuted : exists m, (forall x, cos (near_zero m x) = cos ((x - m) * (x - m) - 0.0000008 * 0.0000008) /\ sin (near_zero m x) = sin ((x - m) * (x - m) - 0.0000008 * 0.0000008)) /\
  m + 0.0000006 <= xingLiu (fun x => speed 3 * x) (fun _ _ x => (near_zero m x, 1)) 0 3 0 true.
Proof.
  set (s := - days 52). exists (s - 0.0000006). split.
  { intros x. unfold near_zero. destruct (C31_mrad_exact ((x - (s - 0.0000006)) * (x - (s - 0.0000006)) - 0.0000008 * 0.0000008)) as (_ & k & ->). split; [apply cos_Z|apply sin_Z]. }
  unfold xingLiu. cbv zeta. rewrite (approach_fix _ 0 (speed 3) 6 0 0%Z) by ring. index. change (2 <? 3)%Z with true. cbv iota. cbn [fst snd]. set (m := s - 0.0000006) in *. change (fun x => near_zero m x) with (near_zero m).
  match goal with |- context [vertex (near_zero m) ?a (5 / 36525)] => replace a with (m + 0.0000006) by (unfold m, s, days; lra) end.
  assert (R : forall y d, 0.0000006 <= y - m <= 0.00000069 -> 0.000002 <= d <= 5 / 36525 -> y <= vertex (near_zero m) y d <= y + 0.00000001).
  { intros y d Hy Hd. pose proof (zero_round m (y - m) d ltac:(lra) Hd) as Z. replace (m + (y - m)) with y in Z by ring. exact Z. }
  assert (R1 := R (m + 0.0000006) (5 / 36525) ltac:(lra) ltac:(lra)). set (t1 := vertex (near_zero m) (m + 0.0000006) (5 / 36525)) in *.
  assert (R2 := R t1 (1 / 36525) ltac:(lra) ltac:(lra)). set (t2 := vertex (near_zero m) t1 (1 / 36525)) in *.
  assert (R3 := R t2 (0.5 / 36525) ltac:(lra) ltac:(lra)). set (t3 := vertex (near_zero m) t2 (0.5 / 36525)) in *.
  assert (R4 := R t3 0.000002 ltac:(lra) ltac:(lra)). lra.
Qed.
Definition jupiter (x : R) : R := parabola (mean_time (399 / 36525) (- 82 / 36525) x) 3 (-1) x.
Example C136_witness : xingLiu (fun x => 0 + speed 4 * (x - 0)) (fun _ _ x => (jupiter x, 1)) 0 4 (100 / 36525) true = - 82 / 36525.
Proof.
  destruct (C136_station (fun x => 0 + speed 4 * (x - 0)) (fun _ _ x => (jupiter x, 1)) 0 4 (100 / 36525) true 0 (fun j => - 82 / 36525 + 399 / 36525 * IZR j) (fun _ => 3) (fun _ => -1)) as (j & C & ->); [lia|reflexivity| |].
  - intros j. split; [lra|]. unfold synodic. index. change (side 4 true) with (-1). change (station_days 4) with 82. unfold days. split. { apply Rabs_le. lra. }
    intros n g x Hx. cbn [fst]. unfold jupiter. f_equal. unfold mean_time. apply Rabs_le_inv in Hx.
    assert (F : Zfloor ((x - - 82 / 36525) / (399 / 36525) + 0.5) = j).
    { apply Zfloor_imp. rewrite plus_IZR. set (y := (x - - 82 / 36525) / (399 / 36525)). assert (Y : y * (399 / 36525) = x - - 82 / 36525) by (unfold y; field; lra). clearbody y. split; nra. }
    rewrite F. reflexivity.
  - specialize (C 0%Z). unfold synodic in C. change (Z.to_nat (4 - 1)) with 3%nat in C. cbn [nth] in C. assert (j = 0%Z).
    { destruct (Z_lt_le_dec j 0) as [L|L]; [|destruct (Z.eq_dec j 0); [assumption|]].
      - assert (IZR j <= -1) by (apply IZR_le; lia). rewrite !Rabs_pos_eq in C by lra. lra.
      - assert (1 <= IZR j) by (apply IZR_le; lia). rewrite (Rabs_pos_eq (100 / 36525 - (0 + 399 / 36525 * 0))) in C by lra. rewrite Rabs_left1 in C by lra. lra. }
    subst j. lra.
Qed.
(** ** C137: conjunctions and oppositions *)
(** the elongation in longitude at a conjunction (0) or opposition (pi) *)
Definition aspect (xt : Z) (f : bool) : R := if f then (if (2 <? xt)%Z then PI else 0) else 0.
(** Mean motion around the Sun, and an elongation el that within ten days of the mean moment changes evenly and reaches the aspect within seven days of it: that moment is found. *)
Theorem C137_sun hd sp xt t (f : bool) o el m s : (1 <= xt <= 8)%Z -> (forall x, hd x = (if f then 0 else PI) + speed xt * (x - o)) ->
  (forall n x w ts tp, exists a1 a2 a3, sp n x w ts tp = (rad2rrad (el x - w), a1, a2, a3)) ->
  (forall j, let c := o + synodic xt / 36525 * IZR j in s j <> 0 /\ Rabs (m j - c) <= days 7 /\ Rabs (s j) * days 10 < PI /\
     forall x, Rabs (x - c) <= days 10 -> exists i, el x = aspect xt f + s j * (x - m j) + 2 * PI * IZR i) ->
  exists j, (forall i, Rabs (t - (o + synodic xt / 36525 * IZR j)) <= Rabs (t - (o + synodic xt / 36525 * IZR i))) /\ fst (xingHR hd sp xt t f) = m j.
Proof.
  intros H L SP P. destruct (approach_closest hd _ o xt t H L) as (j & E & C). exists j. split; [exact C|]. destruct (P j) as (S & M & B & F). cbv zeta in *. clear P C L.
  unfold xingHR. cbv zeta. fold (aspect xt f). rewrite E. set (c := o + synodic xt / 36525 * IZR j) in *. clearbody c. clear E.
  set (mj := m j) in *. set (sj := s j) in *. clearbody mj sj. unfold days in *. apply Rabs_le_inv in M.
  assert (V : forall x, Rabs (x - c) <= 10 / 36525 -> Rabs (x - mj) <= 10 / 36525 -> rad2rrad (el x - aspect xt f) = sj * (x - mj)).
  { intros x X1 X2. destruct (F x X1) as (i & ->). destruct (C31_rrad_exact (aspect xt f + sj * (x - mj) + 2 * PI * IZR i - aspect xt f)) as (Q & K). apply (C31_unique _ _ _ K); [exists (- i)%Z; rewrite opp_IZR; ring|].
    assert (A : Rabs (sj * (x - mj)) < PI). { rewrite Rabs_mult. apply Rle_lt_trans with (2 := B). apply Rmult_le_compat_l; [apply Rabs_pos|exact X2]. } apply Rabs_def2 in A. apply Rabs_def1; lra. }
  destruct (SP 8%Z c (aspect xt f) 0 0) as (p1 & p2 & p3 & ->). destruct (SP 8%Z (c + 0.00002) (aspect xt f) 0 0) as (q1 & q2 & q3 & ->).
  destruct (SP 40%Z c (aspect xt f) p2 p3) as (u1 & u2 & u3 & ->). rewrite !V by (apply Rabs_le; lra).
  assert (Z : c - sj * (c - mj) / ((sj * (c + 0.00002 - mj) - sj * (c - mj)) / 0.00002) = mj).
  { replace (sj * (c + 0.00002 - mj) - sj * (c - mj)) with (sj * 0.00002) by ring. field. split; lra. }
  rewrite Z. match goal with |- context [sp (-1)%Z mj ?w ?a ?b] => destruct (SP (-1)%Z mj w a b) as (v1 & v2 & v3 & ->) end.
  cbn [fst]. rewrite V by (apply Rabs_le; lra). replace (sj * (mj - mj)) with 0 by ring. unfold Rdiv. rewrite Rmult_0_l. ring.
Qed.
(** the Moon passing a planet evenly, at up to twice the speed 8192 a century that the first steps assume: the moment is found if it starts within half a turn *)
Theorem C137_moon mp obl nut t m s : 0 < s <= 16384 -> Rabs (s * (t - m)) <= 3 ->
  (forall n x E g, exists d1 d2 d3, mp n x E g = (rad2rrad (s * (x - m)), d1, d2, d3)) -> fst (xingHY mp obl nut t) = m.
Proof.
  intros HS HT MP. pose proof PI_bounds as PB. unfold xingHY.
  assert (V : forall x, Rabs (s * (x - m)) <= 3.1 -> rad2rrad (s * (x - m)) = s * (x - m)). { intros x X. apply rrad_id. apply Rabs_le_inv in X. lra. }
  set (step := fun t => t - (let '(d0, _, _, _) := mp 8%Z t 0.4091 (0, 0, 0, 0) in d0) / 8192). fold (step t). fold (step (step t)). fold (step (step (step t))).
  assert (ST : forall x, Rabs (s * (x - m)) <= 3 -> Rabs (s * (step x - m)) <= 3).
  { intros x X. unfold step. destruct (MP 8%Z x 0.4091 (0, 0, 0, 0)) as (? & ? & ? & ->). rewrite V by lra. replace (s * (x - s * (x - m) / 8192 - m)) with ((1 - s / 8192) * (s * (x - m))) by field.
    rewrite Rabs_mult. assert (Rabs (1 - s / 8192) <= 1) by (apply Rabs_le; lra). pose proof (Rabs_pos (s * (x - m))). pose proof (Rabs_pos (1 - s / 8192)). nra. }
  cbv zeta. destruct (MP 8%Z (step (step t)) 0.4091 (0, 0, 0, 0)) as (? & ? & ? & ->).
  assert (T3 := ST _ (ST _ (ST _ HT))). set (t3 := step (step (step t))) in *. clearbody t3. clear ST HT. apply Rabs_le_inv in T3.
  match goal with |- context [mp 8%Z t3 ?e ?g] => destruct (MP 8%Z t3 e g) as (? & ? & ? & ->); destruct (MP 8%Z (t3 + 0.000001) e g) as (? & ? & ? & ->); destruct (MP 30%Z t3 e g) as (? & ? & ? & ->) end.
  assert (D : s * (t3 + 0.000001 - m) = s * (t3 - m) + s * 0.000001) by ring.
  rewrite (V t3) by (apply Rabs_le; lra). rewrite (V (t3 + 0.000001)) by (rewrite D; apply Rabs_le; lra).
  assert (Z : t3 - s * (t3 - m) / ((s * (t3 + 0.000001 - m) - s * (t3 - m)) / 0.000001) = m).
  { replace (s * (t3 + 0.000001 - m) - s * (t3 - m)) with (s * 0.000001) by ring. field. split; lra. }
  rewrite Z. match goal with |- context [mp (-1)%Z m ?e ?g] => destruct (MP (-1)%Z m e g) as (? & ? & ? & ->) end.
  cbn [fst]. rewrite V by (replace (s * (m - m)) with 0 by ring; rewrite Rabs_R0; lra). replace (s * (m - m)) with 0 by ring. unfold Rdiv. rewrite Rmult_0_l. ring.
Qed.
(** Mars in opposition a day late, and the Moon passing at its mean speed *)
Example C137_witness : fst (xingHR (fun x => 0 + speed 3 * (x - 0)) (fun _ x w _ _ => (rad2rrad (PI + - 100 * (x - mean_time (780 / 36525) 0 x - 1 / 36525) - w), 0, 0, 0)) 3 (30 / 36525) true) = 1 / 36525 /\
  fst (xingHY (fun _ x _ _ => (rad2rrad (8000 * (x - 1 / 3652500)), 0, 0, 0)) (fun _ => 0) (fun _ => (0, 0)) 0) = 1 / 3652500.
Proof.
  pose proof PI_bounds as PB. split.
  - destruct (C137_sun (fun x => 0 + speed 3 * (x - 0)) (fun _ x w _ _ => (rad2rrad (PI + - 100 * (x - mean_time (780 / 36525) 0 x - 1 / 36525) - w), 0, 0, 0)) 3 (30 / 36525) true 0
      (fun x => PI + - 100 * (x - mean_time (780 / 36525) 0 x - 1 / 36525)) (fun j => 780 / 36525 * IZR j + 1 / 36525) (fun _ => -100)) as (j & C & ->); [lia|reflexivity|intros; eexists _, _, _; reflexivity| |].
    + intros j. unfold synodic. index. unfold days, aspect. change (2 <? 3)%Z with true. cbv iota zeta. split; [lra|]. split; [apply Rabs_le; lra|]. split; [rewrite Rabs_left; lra|].
      intros x Hx. apply Rabs_le_inv in Hx. exists 0%Z. unfold mean_time. assert (F : Zfloor ((x - 0) / (780 / 36525) + 0.5) = j).
      { apply Zfloor_imp. rewrite plus_IZR. set (y := (x - 0) / (780 / 36525)). assert (Y : y * (780 / 36525) = x - 0) by (unfold y; field; lra). clearbody y. split; nra. }
      rewrite F. lra.
    + specialize (C 0%Z). unfold synodic in C. change (Z.to_nat (3 - 1)) with 2%nat in C. cbn [nth] in C. assert (j = 0%Z).
      { destruct (Z_lt_le_dec j 0) as [L|L]; [|destruct (Z.eq_dec j 0); [assumption|]].
        - assert (IZR j <= -1) by (apply IZR_le; lia). rewrite !Rabs_pos_eq in C by lra. lra.
        - assert (1 <= IZR j) by (apply IZR_le; lia). rewrite (Rabs_pos_eq (30 / 36525 - (0 + 780 / 36525 * 0))) in C by lra. rewrite Rabs_left1 in C by lra. lra. }
      subst j. lra.
  - apply (C137_moon _ _ _ _ _ 8000); [lra|apply Rabs_le; lra|intros; eexists _, _, _; reflexivity].
Qed.
