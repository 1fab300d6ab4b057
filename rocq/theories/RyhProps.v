(** Property C159: radii, distances, duration and magnitude shown for an eclipse. *)
From Coq Require Import ZArith Reals Lia Lra Bool List Ascii String.
From Coq Require Import Floats.SpecFloat.
From Flocq Require Import Core.
From Verif Require Import F64 F64R F64T F64E AngModel PiBound ErrExpr SerSpec FormModel FormSpec FormProps TermDay IllProps.
From Verif Require Import CalModel Str DecSpec FmtModel DtoaModel DtoaProps FmModel FmProps YearModel RptModel MtxProps RyhModel.
Import ListNotations.
Open Scope R_scope.
Open Scope list_scope.

(** ** Specification *)
(** minutes and seconds of arc with two decimals *)
Definition arc_min (beyond : Z -> option Z) : R -> bytes -> Prop := minutes_shown beyond (B "'") (B """").
(** [t] is [v] seconds as sign, whole minutes and the text with one decimal of the seconds left, less than 60 *)
Definition duration_shown (beyond : Z -> option Z) (v : R) (t : bytes) : Prop := exists w f m tf tm, Rabs (w - v) <= / 10000000 /\ ok m /\ 0 <= R64 m < 60 /\ Rabs w = 60 * IZR f + R64 m /\ int_text f tf /\ to_str_double beyond m 1 0 false = Some tm /\
  t = (if Rlt_dec w 0 then ["-"%char] else []) ++ tf ++ B "分" ++ tm ++ B "秒".
(** the text on the axis of the shadow: its place in degrees, or that it misses the Earth when the latitude is 100 *)
Definition axis_shown (beyond : Z -> option Z) (zxJ zxW : f64) (t : bytes) : Prop := (zxW = fZ 100 -> t = B "此刻月亮本影中心线不经过地球。") /\
  (in_size zxW 17 -> exists j w, t = B "食中心地标：经 " ++ j ++ B " 纬 " ++ w /\ number_shown beyond 5 (R64 zxJ * (180 / PI)) j /\ number_shown beyond 5 (R64 zxW * (180 / PI)) w).

(** ** Proofs *)
Ltac rw E := rewrite E; cbn [obind].
Section Lib.
Variable beyond : Z -> option Z.
Hypothesis HB : forall i, (10 <= i <= 16)%Z -> beyond i <> None.
Lemma arc_near x v : ok x -> Rabs (R64 x - v) <= / 10000000 -> Rabs v <= 10000000 -> exists t, arc beyond x = Some t /\ arc_min beyond v t.
Proof.
  intros O D Bv. apply (minutes_ok beyond HB x 0 (B "'") (B """") v); [split; [exact O|apply Rabs_le_inv in D, Bv; apply Rabs_le; lra]|exact D|left; repeat split].
Qed.
Lemma self x : Rabs (R64 x - R64 x) <= / 10000000. Proof. rewrite Rminus_diag_eq, Rabs_R0 by reflexivity. lra. Qed.
Lemma sum_near x y : in_size x 1000000 -> in_size y 1000000 -> ok (fadd x y) /\ Rabs (R64 (fadd x y) - (R64 x + R64 y)) <= / 1000000000.
Proof.
  intros [Ox Bx] [Oy By]. apply Rabs_le_inv in Bx, By. assert (S : Rabs (R64 x + R64 y) <= bpow radix2 21) by (change (bpow radix2 21) with 2097152; apply Rabs_le; lra).
  destruct (fadd_ok x y Ox Oy) as [O E]; [eapply Rle_trans; [exact S|apply bpow_le; lia]|]. split; [exact O|]. rewrite E. pose proof (rnd_err _ 21 ltac:(lia) S) as R1. change (bpow radix2 (21 - 54)) with (/ 8589934592) in R1. lra.
Qed.
Lemma dif_near x y v : in_size x 1000000 -> ok y -> Rabs (R64 y - v) <= / 1000000000 -> Rabs v <= 2000000 -> ok (fsub x y) /\ Rabs (R64 (fsub x y) - (R64 x - v)) <= / 10000000.
Proof.
  intros [Ox Bx] Oy D Bv. apply Rabs_le_inv in Bx, D, Bv. assert (S : Rabs (R64 x - R64 y) <= bpow radix2 22) by (change (bpow radix2 22) with 4194304; apply Rabs_le; lra).
  destruct (fsub_ok x y Ox Oy) as [O E]; [eapply Rle_trans; [exact S|apply bpow_le; lia]|]. split; [exact O|]. rewrite E. pose proof (rnd_err _ 22 ltac:(lia) S) as R1. change (bpow radix2 (22 - 54)) with (/ 4294967296) in R1. apply Rabs_le_inv in R1. apply Rabs_le. lra.
Qed.
Lemma zx_ok x : in_size x 17 -> exists t, zx_text beyond x = Some t /\ number_shown beyond 5 (R64 x * (180 / PI)) t.
Proof.
  intros [O Bx]. destruct good_lib_exists as (fsin & fcos & _ & Gs & Gc & _). assert (E : env_ok [x] [R64 x] [given 17]) by (constructor; [apply given_ok; assumption|constructor]).
  assert (X : ok (fmul (fdiv x dpi) (fZ 180)) /\ Rabs (R64 (fmul (fdiv x dpi) (fZ 180)) - R64 x / PI * 180) <= IZR 126765060022822940149 * U) by (pose proof PI_RGT_0; formula2 fsin fcos Gs Gc [x] E; lra).
  destruct X as [Ox Dx]. assert (EU : 126765060022822940149 * U <= / 10000000) by (unfold U, one; lra). unfold zx_text. apply (number_ok beyond HB _ 5); [exact Ox| |lia]. replace (R64 x * (180 / PI)) with (R64 x / PI * 180) by (field; pose proof PI_RGT_0; lra). lra.
Qed.
Lemma axis_ok zxJ zxW : zxW = fZ 100 \/ in_size zxJ 17 /\ in_size zxW 17 -> exists t, axis_text beyond zxJ zxW = Some t /\ axis_shown beyond zxJ zxW t.
Proof.
  destruct (fZ_ok 100 ltac:(lia)) as [OZ EZ]. intros H. unfold axis_text.
  assert (N : in_size zxW 17 -> feqb zxW (fZ 100) = false). { intros [OW BW]. rewrite feqb_ok by assumption. rewrite EZ. apply Rabs_le_inv in BW. apply Req_bool_false. lra. }
  destruct H as [->|[HJ HW]].
  - replace (feqb (fZ 100) (fZ 100)) with true by (vm_compute; reflexivity). eexists. split; [reflexivity|]. split; [reflexivity|]. intros [_ K]. rewrite EZ in K. apply Rabs_le_inv in K. lra.
  - rewrite (N HW). destruct (zx_ok _ HJ) as (j & Ej & Tj), (zx_ok _ HW) as (w & Ew & Tw). rw Ej. rw Ew. eexists. split; [reflexivity|]. split.
    + intros ->. destruct HW as [_ K]. rewrite EZ in K. apply Rabs_le_inv in K. lra.
    + intros _. exists j, w. auto.
Qed.
(** solar eclipse: the radii, the place of the axis, the distance of the centers, the sum and difference of the radii, and how far the discs are from touching *)
Theorem C159_solar sr mr d1 zxJ zxW : in_size sr 1000000 -> in_size mr 1000000 -> in_size d1 1000000 -> (zxW = fZ 100 \/ in_size zxJ 17 /\ in_size zxW 17) ->
  exists x a b c d e f, solar_lines beyond sr mr d1 zxJ zxW = Some (B "日月站心视半径 " ++ a ++ B "及" ++ b ++ B " " ++ NL ++ ESC :: B "[31m" ++ x ++ ESC :: B "[0m" ++ NL ++ B "日月中心视距 " ++ c ++ B " 日月半径和 " ++ d ++ NL ++ B "半径差 " ++ e ++ [ascii_of_nat 9] ++ B "距外切 " ++ f) /\
  axis_shown beyond zxJ zxW x /\ arc_min beyond (R64 sr) a /\ arc_min beyond (R64 mr) b /\ arc_min beyond (R64 d1) c /\ arc_min beyond (R64 sr + R64 mr) d /\ arc_min beyond (R64 sr - R64 mr) e /\ arc_min beyond (R64 d1 - (R64 sr + R64 mr)) f.
Proof.
  intros Hs Hm Hd Hz. unfold solar_lines. destruct (axis_ok zxJ zxW Hz) as (x & Ex & Tx). rw Ex. destruct (sum_near mr sr Hm Hs) as [O0 D0]. rewrite (Rplus_comm (R64 mr)) in D0. set (d0 := fadd mr sr) in *. clearbody d0.
  pose proof Hs as [Os Bs]. pose proof Hm as [Om Bm]. pose proof Hd as [Od Bd]. apply Rabs_le_inv in Bs, Bm, Bd.
  destruct (arc_near sr (R64 sr) Os (self _) ltac:(apply Rabs_le; lra)) as (a & Ea & Ta). rw Ea. destruct (arc_near mr (R64 mr) Om (self _) ltac:(apply Rabs_le; lra)) as (b & Eb & Tb). rw Eb.
  destruct (arc_near d1 (R64 d1) Od (self _) ltac:(apply Rabs_le; lra)) as (c & Ec & Tc). rw Ec. destruct (arc_near d0 (R64 sr + R64 mr) O0 ltac:(lra) ltac:(apply Rabs_le; lra)) as (d & Ed & Td). rw Ed.
  destruct (dif_near sr mr (R64 mr) Hs Om ltac:(rewrite Rminus_diag_eq, Rabs_R0 by reflexivity; lra) ltac:(apply Rabs_le; lra)) as [O1 D1]. destruct (arc_near _ _ O1 D1 ltac:(apply Rabs_le; lra)) as (e & Ee & Te). rw Ee.
  destruct (dif_near d1 d0 (R64 sr + R64 mr) Hd O0 D0 ltac:(apply Rabs_le; lra)) as [O2 D2]. destruct (arc_near _ _ O2 D2 ltac:(apply Rabs_le; lra)) as (f & Ef & Tf). rw Ef.
  exists x, a, b, c, d, e, f. split; [reflexivity|]. repeat (split; [assumption|]). assumption.
Qed.
(** lunar eclipse: the radii of umbra, penumbra and Moon, the distance of the centers, the sum of the radii of Moon and umbra, and how far the Moon is from touching umbra and penumbra *)
Theorem C159_lunar er Er mr d1 : in_size er 1000000 -> in_size Er 1000000 -> in_size mr 1000000 -> in_size d1 1000000 ->
  exists a b c d e f g, lunar_lines beyond er Er mr d1 = Some (B "本影半径 " ++ a ++ B " 半影半径 " ++ b ++ B " 月亮地心视半径 " ++ c ++ NL ++ B "影月中心距 " ++ d ++ B " 影月半径和 " ++ e ++ B " " ++ NL ++ B "距相切 " ++ ESC :: B "[31m" ++ f ++ ESC :: B "[0m 距第二相切 " ++ g) /\
  arc_min beyond (R64 er) a /\ arc_min beyond (R64 Er) b /\ arc_min beyond (R64 mr) c /\ arc_min beyond (R64 d1) d /\ arc_min beyond (R64 mr + R64 er) e /\ arc_min beyond (R64 d1 - (R64 mr + R64 er)) f /\ arc_min beyond (R64 d1 - (R64 mr + R64 Er)) g.
Proof.
  intros He HE Hm Hd. unfold lunar_lines. destruct (sum_near mr er Hm He) as [O0 D0]. destruct (sum_near mr Er Hm HE) as [O2 D2]. set (d0 := fadd mr er) in *. clearbody d0. set (d2 := fadd mr Er) in *. clearbody d2.
  pose proof He as [Oe Be]. pose proof HE as [OE BE]. pose proof Hm as [Om Bm]. pose proof Hd as [Od Bd]. apply Rabs_le_inv in Be, BE, Bm, Bd.
  destruct (arc_near er (R64 er) Oe (self _) ltac:(apply Rabs_le; lra)) as (a & Ea & Ta). rw Ea. destruct (arc_near Er (R64 Er) OE (self _) ltac:(apply Rabs_le; lra)) as (b & Eb & Tb). rw Eb.
  destruct (arc_near mr (R64 mr) Om (self _) ltac:(apply Rabs_le; lra)) as (c & Ec & Tc). rw Ec. destruct (arc_near d1 (R64 d1) Od (self _) ltac:(apply Rabs_le; lra)) as (d & Ed & Td). rw Ed.
  destruct (arc_near d0 (R64 mr + R64 er) O0 ltac:(lra) ltac:(apply Rabs_le; lra)) as (e & Ee & Te). rw Ee.
  destruct (dif_near d1 d0 _ Hd O0 D0 ltac:(apply Rabs_le; lra)) as [O3 D3]. destruct (arc_near _ _ O3 D3 ltac:(apply Rabs_le; lra)) as (f & Ef & Tf). rw Ef.
  destruct (dif_near d1 d2 _ Hd O2 D2 ltac:(apply Rabs_le; lra)) as [O4 D4]. destruct (arc_near _ _ O4 D4 ltac:(apply Rabs_le; lra)) as (g & Eg & Tg). rw Eg.
  exists a, b, c, d, e, f, g. split; [reflexivity|]. repeat (split; [assumption|]). assumption.
Qed.
(** solar eclipse: the duration, given in days, the magnitude and the ratio of the radii *)
Theorem C159_solar_tail dur sf b1 nasa : in_size dur 1 -> ok sf -> ok b1 ->
  exists a b c, solar_tail beyond dur sf b1 nasa = Some (B "时长: " ++ a ++ NL ++ B "食分: " ++ b ++ NL ++ B "月日视径比: " ++ c ++ B "(全或环食分)" ++ NL ++ B "是否NASA径比(1是,0否): " ++ nasa ++ NL ++ B "食分指日面直径被遮比例" ++ NL ++ NL) /\
  duration_shown beyond (R64 dur * 86400) a /\ number_shown beyond 5 (R64 sf) b /\ number_shown beyond 5 (R64 b1) c.
Proof.
  intros [Od Bd] Os Ob. apply Rabs_le_inv in Bd. destruct (fZ_ok 86400 ltac:(lia)) as [OZ EZ]. assert (S : Rabs (R64 dur * R64 (fZ 86400)) <= bpow radix2 17) by (rewrite EZ; change (bpow radix2 17) with 131072; apply Rabs_le; lra).
  destruct (fmul_ok dur (fZ 86400) Od OZ) as [O E]; [eapply Rle_trans; [exact S|apply bpow_le; lia]|]. pose proof (rnd_err _ 17 ltac:(lia) S) as R1. change (bpow radix2 (17 - 54)) with (/ 137438953472) in R1. rewrite <- E, EZ in R1.
  unfold solar_tail. set (x := fmul dur (fZ 86400)) in *. clearbody x. assert (Bx : Rabs (R64 x) < 2147483700) by (apply Rabs_le_inv in R1; apply Rabs_def1; lra).
  destruct (C121_minutes_seconds beyond x 1 1 (B "分") (B "秒") HB O Bx ltac:(lia) ltac:(right; left; repeat split)) as (f & m & tf & tm & Om & Bm & EV & Tf & Tm & Ex). rw Ex.
  destruct (exact_ok beyond HB sf 5 Os ltac:(lia)) as (b & Eb & Tb). rw Eb. destruct (exact_ok beyond HB b1 5 Ob ltac:(lia)) as (c & Ec & Tc). rw Ec.
  eexists. exists b, c. split; [reflexivity|]. split; [|split; assumption]. exists (R64 x), f, m, tf, tm. split; [lra|]. repeat (split; [assumption|]). reflexivity.
Qed.
(** lunar eclipse: the magnitude *)
Theorem C159_lunar_tail sf : ok sf -> exists b, lunar_tail beyond sf = Some (B "食分:" ++ b ++ NL ++ B "食分指月面直径被遮比例" ++ NL ++ NL) /\ number_shown beyond 5 (R64 sf) b.
Proof. intros Os. unfold lunar_tail. destruct (exact_ok beyond HB sf 5 Os ltac:(lia)) as (b & Eb & Tb). rw Eb. exists b. auto. Qed.
End Lib.
(** the hypotheses can be met: radii of 945 and 974 seconds of arc, distance 1200, axis misses the Earth *)
Example C159_example : in_size (fZ 945) 1000000 /\ in_size (fZ 974) 1000000 /\ in_size (fZ 1200) 1000000 /\ (fun _ : Z => Some 0%Z) 10%Z <> None /\ exists zxW, zxW = fZ 100.
Proof.
  assert (K : forall n k, (0 <= n <= 1000000)%Z -> IZR n <= k -> in_size (fZ n) k). { intros n k Hn Hk. destruct (fZ_ok n ltac:(lia)) as [O V]. split; [exact O|]. rewrite V, Rabs_pos_eq by (apply IZR_le; lia). exact Hk. }
  split; [apply K; [lia|lra]|]. split; [apply K; [lia|lra]|]. split; [apply K; [lia|lra]|]. split; [discriminate|]. eexists. reflexivity.
Qed.
Print Assumptions C159_solar.
Print Assumptions C159_lunar.
Print Assumptions C159_solar_tail.
