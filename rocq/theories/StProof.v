(** The doubles of SZJ::Scoord, getH and St against the real angles. *)
From Coq Require Import ZArith Reals Lia Lra Bool List.
From Coq Require Import Floats.SpecFloat.
From Flocq Require Import Core IEEE754.BinarySingleNaN.
From Verif Require Import F64 F64R F64T F64E AngModel AngProps PiBound ErrExpr SmTab SerModel SerSpec FormModel FormSpec FormProps WaveF WaveR SmModel SmSpec SmLon SmProps SmSun SunProps IllProps DtModel DtSpec DtProps HighR.
From Verif Require GeoModel GeoProof.
From Verif Require Import StModel StSpec StReal.
Import ListNotations.
Open Scope R_scope.

(** what is asked of tan, asin and acos on [-1, 1], and of atan2: an error of at most two units of 2^-52; atan2 may take either side of the cut *)
Definition close_on (f : f64 -> f64) (g : R -> R) : Prop :=
  forall x, ok x -> Rabs (R64 x) <= 1 -> ok (f x) /\ Rabs (R64 (f x) - g (R64 x)) <= 4 * u53.
Definition close_atan2 (f : f64 -> f64 -> f64) : Prop :=
  forall y x, ok y -> ok x -> (R64 y <> 0 \/ R64 x <> 0) -> ok (f y x) /\ Rabs (R64 (f y x)) <= 4 /\
    exists k : Z, Rabs (R64 (f y x) - (GeoModel.atan2 (R64 y) (R64 x) + IZR k * (2 * PI))) <= 4 * u53.

Lemma turn_cos x (k : Z) : cos (x + IZR k * (2 * PI)) = cos x.
Proof. replace (x + IZR k * (2 * PI)) with (x + 2 * IZR k * PI) by ring. destruct (Z.le_ge_cases 0 k) as [K|K].
  - replace k with (Z.of_nat (Z.to_nat k)) by lia. rewrite <- INR_IZR_INZ. apply cos_period.
  - rewrite <- (cos_period (x + 2 * IZR k * PI) (Z.to_nat (- k))). f_equal. rewrite INR_IZR_INZ, Z2Nat.id, opp_IZR by lia. ring.
Qed.
Lemma turn_sin x (k : Z) : sin (x + IZR k * (2 * PI)) = sin x.
Proof. replace (x + IZR k * (2 * PI)) with (x + 2 * IZR k * PI) by ring. destruct (Z.le_ge_cases 0 k) as [K|K].
  - replace k with (Z.of_nat (Z.to_nat k)) by lia. rewrite <- INR_IZR_INZ. apply sin_period.
  - rewrite <- (sin_period (x + 2 * IZR k * PI) (Z.to_nat (- k))). f_equal. rewrite INR_IZR_INZ, Z2Nat.id, opp_IZR by lia. ring.
Qed.
Lemma dpi_pi : Rabs (R64 dpi - PI) <= 2e-16. Proof. apply dpi_near. Qed.
(** whole turns of the double pi are nearly whole turns *)
Lemma turns (k : Z) x y K : Rabs (IZR k) <= K -> Rabs (y - (x + IZR k * (2 * R64 dpi))) <= 1e-15 -> Rabs (y - (x + IZR k * (2 * PI))) <= 1e-15 + K * 4e-16.
Proof.
  intros HK H. replace (y - (x + IZR k * (2 * PI))) with ((y - (x + IZR k * (2 * R64 dpi))) + IZR k * (2 * (R64 dpi - PI))) by ring.
  apply sum_le; [exact H|]. apply prod_le; [exact HK|]. rewrite Rabs_mult, (Rabs_pos_eq 2) by lra. pose proof dpi_pi. revert H0. decs. lra.
Qed.
Lemma abs_cases k a b : Rabs (a + IZR k * (2 * R64 dpi)) <= b -> Rabs (IZR k) <= (b + Rabs a) / 6.
Proof.
  intros H. pose proof dpi_range as D. assert (X : Rabs (IZR k * (2 * R64 dpi)) <= b + Rabs a). { replace (IZR k * (2 * R64 dpi)) with ((a + IZR k * (2 * R64 dpi)) - a) by ring. apply diff_le; lra. }
  rewrite Rabs_mult, (Rabs_pos_eq (2 * _)) in X by lra. pose proof (Rabs_pos (IZR k)). assert (Rabs (IZR k) * 6 <= Rabs (IZR k) * (2 * R64 dpi)) by (apply Rmult_le_compat_l; lra). lra.
Qed.

Lemma bpow_m51 : bpow radix2 (-51) = / 2251799813685248.
Proof. reflexivity. Qed.

Lemma cos_lb x : 1 - x * x / 2 <= cos x.
Proof.
  assert (cos x = 1 - 2 * sin (x / 2) * sin (x / 2)) as ->. { replace x with (2 * (x / 2)) at 1 by field. rewrite cos_2a_sin. ring. }
  pose proof (sin_abs (x / 2)) as S. pose proof (prod_le _ _ _ _ S S) as Q. rewrite <- !Rabs_mult in Q. rewrite Rabs_pos_eq in Q by (pose proof (Rle_0_sqr (sin (x / 2))) as Y; exact Y).
  rewrite Rabs_pos_eq in Q by (pose proof (Rle_0_sqr (x / 2)) as Y; exact Y). lra.
Qed.
Lemma cos_fa x : Rabs x <= 1.57 -> 0.00079 <= cos x.
Proof.
  intros H. assert (E : cos x = cos (Rabs x)) by (unfold Rabs; destruct (Rcase_abs x); [now rewrite cos_neg|reflexivity]). rewrite E.
  pose proof PI_bounds as PB. pose proof (Rabs_pos x) as P0. revert PB H. decs. intros PB H.
  apply Rle_trans with (cos (157 / 100)); [|apply cos_decr_1; lra].
  rewrite <- sin_shift. set (y := PI / 2 - 157 / 100). assert (Y : 0.00079632 <= y <= 0.00079633) by (unfold y; decs; lra). clearbody y. revert Y. decs. intros Y.
  destruct (MVT_cor2 sin cos 0 y ltac:(lra) (fun c _ => derivable_pt_lim_sin c)) as [c [EC RC]]. rewrite sin_0, !Rminus_0_r in EC. rewrite EC.
  pose proof (cos_lb c) as LB. assert (C2 : c * c <= 0.001 * 0.001) by (apply Rmult_le_compat; decs; lra). revert C2. decs. intros C2.
  assert (C3 : 999 / 1000 <= cos c) by lra. apply Rle_trans with (79632 / 100000000 * (999 / 1000)); [lra|]. rewrite (Rmult_comm (cos c)). apply Rmult_le_compat; lra.
Qed.

Section Lib.
Variables fsin fcos ftan fasin facos : f64 -> f64.
Variable fatan2 : f64 -> f64 -> f64.
Hypothesis Gs : good_lib fsin sin.
Hypothesis Gc : good_lib fcos cos.
Hypothesis Gt : close_on ftan tan.
Hypothesis Ga : close_on fasin asin.
Hypothesis Gac : close_on facos acos.
Hypothesis G2 : close_atan2 fatan2.

Lemma sin_of x : ok x -> near (fsin x) (sin (R64 x)) (2 * u53) 1.
Proof. intros O. destruct (Gs x O) as (P & _ & Q). split; [exact P|]. split; [exact Q|apply one_sin]. Qed.
Lemma cos_of x : ok x -> near (fcos x) (cos (R64 x)) (2 * u53) 1.
Proof. intros O. destruct (Gc x O) as (P & _ & Q). split; [exact P|]. split; [exact Q|apply one_cos]. Qed.
Ltac nn := unfold u53, tiny, big; decs; lra.
(** the two numbers handed to atan2 and the one handed to asin *)
Definition at_y (J E : f64) : f64 := fsub (fmul (fsin J) (fcos E)) (fmul (ftan (fZ 0)) (fsin E)).
Definition as_x (J E : f64) : f64 := fadd (fmul (fcos E) (fsin (fZ 0))) (fmul (fmul (fsin E) (fcos (fZ 0))) (fsin J)).
Lemma tan0 : near (ftan (fZ 0)) 0 (4 * u53) 0.
Proof. destruct (fZ_ok 0 ltac:(lia)) as [O V]. destruct (Gt (fZ 0) O) as [P Q]. { rewrite V, Rabs_R0. lra. } rewrite V, tan_0 in Q. split; [exact P|]. split; [exact Q|rewrite Rabs_R0; lra]. Qed.
Lemma at_y_near J E : ok J -> ok E -> near (at_y J E) (sin (R64 J) * cos (R64 E)) (20 * u53) 1.
Proof.
  intros OJ OE. unfold at_y.
  pose proof (near_mul _ _ _ _ _ _ _ _ (6 * u53) 1 (sin_of J OJ) (cos_of E OE) ltac:(lra) ltac:(nn) ltac:(nn)) as A.
  pose proof (near_mul _ _ _ _ _ _ _ _ (6 * u53) 0 tan0 (sin_of E OE) ltac:(lra) ltac:(nn) ltac:(nn)) as C.
  pose proof (near_sub _ _ _ _ _ _ _ _ (20 * u53) 1 A C ltac:(lra) ltac:(nn) ltac:(nn)) as D. rewrite Rmult_0_l, Rminus_0_r in D. exact D.
Qed.
Lemma as_x_near J E : ok J -> ok E -> near (as_x J E) (sin (R64 E) * sin (R64 J)) (30 * u53) 1.
Proof.
  intros OJ OE. unfold as_x. destruct (fZ_ok 0 ltac:(lia)) as [O V].
  pose proof (sin_of _ O) as S0. pose proof (cos_of _ O) as C0. rewrite V, sin_0 in S0. rewrite V, cos_0 in C0.
  assert (S1 : near (fsin (fZ 0)) 0 (2 * u53) 0). { destruct S0 as (P & Q & _). split; [exact P|]. split; [exact Q|rewrite Rabs_R0; lra]. }
  pose proof (near_mul _ _ _ _ _ _ _ _ (3 * u53) 0 (cos_of E OE) S1 ltac:(lra) ltac:(nn) ltac:(nn)) as A.
  pose proof (near_mul _ _ _ _ _ _ _ _ (6 * u53) 1 (sin_of E OE) C0 ltac:(lra) ltac:(nn) ltac:(nn)) as C. rewrite Rmult_1_r in C.
  pose proof (near_mul _ _ _ _ _ _ _ _ (10 * u53) 1 C (sin_of J OJ) ltac:(lra) ltac:(nn) ltac:(nn)) as D.
  pose proof (near_add _ _ _ _ _ _ _ _ (30 * u53) 1 A D ltac:(lra) ltac:(nn) ltac:(nn)) as F. rewrite Rmult_0_r, Rplus_0_l in F. exact F.
Qed.
Lemma coords J E : ok J -> ok E -> Rabs (R64 E) <= 0.416 ->
  let '(ra, de) := llr_conv fsin fcos ftan fasin fatan2 J (fZ 0) E in
  ok ra /\ ok de /\ 0 <= R64 ra <= 8 /\ 0.9 <= cos (R64 de) /\
  Rabs (sin (R64 de) - sin (R64 E) * sin (R64 J)) <= 1e-14 /\
  Rabs (cos (R64 de) * cos (R64 ra) - cos (R64 J)) <= 3e-14 /\
  Rabs (cos (R64 de) * sin (R64 ra) - cos (R64 E) * sin (R64 J)) <= 3e-14.
Proof.
  intros OJ OE BE. unfold llr_conv. fold (at_y J E). fold (as_x J E).
  destruct (at_y_near J E OJ OE) as (Oy & Dy & _). destruct (as_x_near J E OJ OE) as (Os & Ds & _). destruct (cos_of J OJ) as (Ox & Dx & _).
  set (y := at_y J E) in *. set (s := as_x J E) in *. set (x := fcos J) in *. clearbody y s x.
  set (e := R64 E) in *. set (j := R64 J) in *. clearbody e j.
  assert (SE : Rabs (sin e) <= 0.416) by (pose proof (sin_abs e); lra).
  assert (SS : Rabs (sin e * sin j) <= 0.416 * 1) by (apply prod_le; [exact SE|apply one_sin]).
  assert (Bs : Rabs (R64 s) <= 0.4161). { replace (R64 s) with ((R64 s - sin e * sin j) + sin e * sin j) by ring. apply Rle_trans with (1 := sum_le _ _ _ _ Ds SS). nn. }
  destruct (Ga s Os) as [Od Dd]. { revert Bs. decs. lra. }
  set (de := fasin s) in *. clearbody de.
  assert (Bs' : -1 <= R64 s <= 1) by (apply Rabs_le_inv; revert Bs; decs; lra).
  assert (Dsin : Rabs (sin (R64 de) - sin e * sin j) <= 40 * u53).
  { replace (sin (R64 de) - sin e * sin j) with ((sin (R64 de) - sin (asin (R64 s))) + (R64 s - sin e * sin j)) by (rewrite (sin_asin _ Bs'); ring).
    apply Rle_trans with (4 * u53 + 30 * u53); [|nn]. apply sum_le; [|exact Ds]. apply Rle_trans with (1 := sin_lip _ _). exact Dd. }
  assert (Cde : 0.9 <= cos (R64 de)).
  { pose proof (cos_lip (R64 de) (asin (R64 s))) as X. rewrite (cos_asin _ Bs') in X.
    assert (Y : 0.909 <= sqrt (1 - (R64 s)²)). { rewrite <- (sqrt_Rsqr 0.909) by (decs; lra). apply sqrt_le_1_alt. pose proof (prod_le _ _ _ _ Bs Bs) as Z. apply Rabs_le_inv in Z. unfold Rsqr. revert Z. decs. lra. }
    assert (Z : Rabs (cos (R64 de) - sqrt (1 - (R64 s)²)) <= 4 * u53) by lra. apply Rabs_le_inv in Z. revert Y Z. unfold u53. decs. lra. }
  set (c := cos (R64 de)) in *. set (d := sin (R64 de)) in *.
  assert (CD : c * c + d * d = 1) by (pose proof (sin2_cos2 (R64 de)) as X; unfold Rsqr in X; unfold c, d; lra).
  set (r := sqrt (R64 x * R64 x + R64 y * R64 y)).
  assert (R0 : 0 <= r) by apply sqrt_pos.
  assert (RR : r * r = R64 x * R64 x + R64 y * R64 y). { apply sqrt_sqrt. pose proof (Rle_0_sqr (R64 x)) as X. pose proof (Rle_0_sqr (R64 y)) as Y. unfold Rsqr in X, Y. lra. }
  assert (SQ : forall a b k, Rabs (a - b) <= k -> Rabs b <= 1 -> k <= 0.01 -> Rabs (a * a - b * b) <= 2.01 * k).
  { intros a b k H1 H2 H3. replace (a * a - b * b) with ((a - b) * ((a - b) + 2 * b)) by ring. rewrite (Rmult_comm 2.01). apply prod_le; [exact H1|]. apply Rle_trans with (k + 2 * 1); [apply sum_le; [exact H1|]|revert H3; decs; lra]. rewrite Rabs_mult, (Rabs_pos_eq 2) by lra. lra. }
  assert (B1 : Rabs (cos j) <= 1) by apply one_cos.
  assert (B2 : Rabs (sin j * cos e) <= 1) by (rewrite <- (Rmult_1_r 1); apply prod_le; [apply one_sin|apply one_cos]).
  assert (B3 : Rabs (sin e * sin j) <= 1) by (rewrite <- (Rmult_1_r 1); apply prod_le; apply one_sin).
  pose proof (SQ _ _ _ Dx B1 ltac:(nn)) as Q1. pose proof (SQ _ _ _ Dy B2 ltac:(nn)) as Q2. pose proof (SQ _ _ _ Dsin B3 ltac:(nn)) as Q3. fold d in Q3.
  assert (ID : cos j * cos j + (sin j * cos e) * (sin j * cos e) + (sin e * sin j) * (sin e * sin j) = 1).
  { pose proof (sin2_cos2 j) as X. pose proof (sin2_cos2 e) as Y. unfold Rsqr in X, Y. transitivity (cos j * cos j + sin j * sin j * (sin e * sin e + cos e * cos e)); [ring|]. rewrite Y. lra. }
  assert (RC : Rabs (r * r - c * c) <= 135 * u53).
  { rewrite RR. replace (R64 x * R64 x + R64 y * R64 y - c * c) with ((R64 x * R64 x - cos j * cos j) + (R64 y * R64 y - (sin j * cos e) * (sin j * cos e)) + (d * d - (sin e * sin j) * (sin e * sin j))) by lra.
    apply Rle_trans with (1 := sum_le _ _ _ _ (sum_le _ _ _ _ Q1 Q2) Q3). nn. }
  assert (RC' : Rabs (r - c) <= 150 * u53).
  { assert (P : 0.9 <= r + c) by lra. replace (r - c) with ((r * r - c * c) * / (r + c)) by (field; revert P; decs; lra).
    apply Rle_trans with (135 * u53 * / 0.9); [|nn]. apply prod_le; [exact RC|]. rewrite Rabs_pos_eq by (left; apply Rinv_0_lt_compat; revert P; decs; lra). apply Rinv_le_contravar; [decs; lra|exact P]. }
  assert (NZ : R64 y <> 0 \/ R64 x <> 0).
  { destruct (Req_dec (R64 x) 0) as [X|X]; [|now right]. left. intros Y. rewrite X, Y in RR. assert (r = 0) by nra. rewrite H in RC'. apply Rabs_le_inv in RC'. revert Cde RC'. unfold u53. decs. lra. }
  destruct (G2 y x Oy Ox NZ) as (Oa & Ba & k & Da). set (a := fatan2 y x) in *. clearbody a.
  destruct (GeoProof.polar (R64 y) (R64 x)) as [P1 P2]. fold r in P1, P2. set (th := GeoModel.atan2 (R64 y) (R64 x)) in *. clearbody th.
  destruct (C31_mrad_double a Oa) as (Or & Br & (m & Dm) & _). set (ra := rad2mrad_d a) in *. clearbody ra. pose proof dpi_range as DP.
  split; [exact Or|]. split; [exact Od|]. split; [lra|]. split; [exact Cde|].
  assert (Dm' : Rabs (R64 ra - (R64 a + IZR m * (2 * R64 dpi))) <= 1e-15) by (apply Rle_trans with (1 := Dm); rewrite bpow_m51; decs; lra).
  assert (KM : Rabs (IZR m) <= 3). { apply Rle_trans with ((9 + Rabs (R64 a)) / 6); [apply abs_cases|lra]. revert Dm'. decs. intros Q. apply Rabs_le_inv in Q. apply Rabs_le. lra. }
  pose proof (turns m (R64 a) (R64 ra) 3 KM Dm') as T.
  assert (T' : Rabs (R64 ra - (th + IZR (k + m) * (2 * PI))) <= 4e-15).
  { rewrite plus_IZR. replace (R64 ra - (th + (IZR k + IZR m) * (2 * PI))) with ((R64 ra - (R64 a + IZR m * (2 * PI))) + (R64 a - (th + IZR k * (2 * PI)))) by ring.
    apply Rle_trans with (1 := sum_le _ _ _ _ T Da). nn. }
  assert (C0 : Rabs c <= 1) by apply one_cos.
  split; [apply Rle_trans with (1 := Dsin); nn|]. split.
  - replace (c * cos (R64 ra) - cos j) with (c * (cos (R64 ra) - cos th) - (r - c) * cos th + (R64 x - cos j)) by (rewrite <- P1; ring).
    apply Rle_trans with (1 * 4e-15 + 150 * u53 * 1 + 2 * u53); [|nn]. apply sum_le; [apply diff_le|exact Dx]; apply prod_le; try assumption; try apply one_cos.
    rewrite <- (turn_cos th (k + m)). apply Rle_trans with (1 := cos_lip _ _). exact T'.
  - replace (c * sin (R64 ra) - cos e * sin j) with (c * (sin (R64 ra) - sin th) - (r - c) * sin th + (R64 y - sin j * cos e)) by (rewrite <- P2; ring).
    apply Rle_trans with (1 * 4e-15 + 150 * u53 * 1 + 20 * u53); [|nn]. apply sum_le; [apply diff_le|exact Dy]; apply prod_le; try assumption; try apply one_sin.
    rewrite <- (turn_sin th (k + m)). apply Rle_trans with (1 := sin_lip _ _). exact T'.
Qed.

Lemma sid_abs T dt : Rabs T <= 1000010 -> Rabs dt <= 4 -> Rabs (sidereal_time T dt) <= 6500000.
Proof.
  intros HT Hd. unfold sidereal_time, arcsec. cbv zeta. set (t := (T + dt) / 36525).
  assert (Ht : Rabs t <= 30). { unfold t. apply Rabs_le_inv in HT. apply Rabs_le_inv in Hd. apply Rabs_le. lra. } clearbody t.
  assert (P2 : Rabs (t ^ 2) <= 900) by (rewrite <- RPow_abs; replace 900 with (30 ^ 2) by ring; apply pow_incr; split; [apply Rabs_pos|exact Ht]).
  assert (P3 : Rabs (t ^ 3) <= 27000) by (rewrite <- RPow_abs; replace 27000 with (30 ^ 3) by ring; apply pow_incr; split; [apply Rabs_pos|exact Ht]).
  assert (P4 : Rabs (t ^ 4) <= 810000) by (rewrite <- RPow_abs; replace 810000 with (30 ^ 4) by ring; apply pow_incr; split; [apply Rabs_pos|exact Ht]).
  apply Rabs_le_inv in P2. apply Rabs_le_inv in P3. apply Rabs_le_inv in P4. apply Rabs_le_inv in Ht. apply Rabs_le_inv in HT. pose proof PI_bounds as PB.
  apply Rle_trans with (6.4 * 1002770 + 160000 * 4 / 648000); [|decs; lra]. apply sum_le.
  - apply prod_le; [rewrite Rabs_pos_eq by lra; revert PB; decs; lra|apply Rabs_le; decs; lra].
  - unfold Rdiv. apply Rle_trans with (160000 * 4 * / 648000); [|lra]. apply prod_le; [|rewrite Rabs_pos_eq; lra]. apply prod_le; [apply Rabs_le; decs; lra|rewrite Rabs_pos_eq by lra; revert PB; decs; lra].
Qed.
Ltac formula xs E :=
  lazymatch goal with |- ok ?F /\ Rabs (R64 ?F - ?r) <= IZR ?n * U =>
    let e := reify fsin fcos xs F in apply (formula_ok fsin fcos Gs Gc _ _ _ e F r n E); [cbn [evF nth]; reflexivity| |vm_compute; reflexivity]; cbn [evR nth]; decs; try field end.
Lemma centuries s dt : ok s -> ok dt -> Rabs (R64 s) <= 1000010 -> Rabs (R64 dt) <= 4 ->
  let t := fdiv (fadd s dt) (fZ 36525) in ok t /\ Rabs (R64 t - (R64 s + R64 dt) / 36525) <= 2e-14.
Proof.
  intros Os Od Bs Bd t.
  assert (E : env_ok [s; dt] [R64 s; R64 dt] [given 1000010; given 4]) by (repeat (constructor; [apply given_ok; assumption|]); constructor).
  assert (H : ok t /\ Rabs (R64 t - (R64 s + R64 dt) / 36525) <= IZR 25353012004564588 * U) by (unfold t; formula [s; dt] E).
  destruct H as [O D]. split; [exact O|]. apply Rle_trans with (1 := D). unfold U, one. decs. lra.
Qed.
Lemma lon_near e : ok e -> Rabs (R64 e) <= 64000 -> let J := fsub (fadd e dpi) (fdiv (lit 205 10) rad) in ok J /\ Rabs (R64 J - (R64 e + PI - arcsec 20.5)) <= 1e-10.
Proof.
  intros Oe Be J.
  assert (E : env_ok [e] [R64 e] [given 64000]) by (repeat (constructor; [apply given_ok; assumption|]); constructor).
  assert (H : ok J /\ Rabs (R64 J - (R64 e + PI - arcsec 20.5)) <= IZR 126765060022822940149 * U).
  { unfold J, rad, arcsec. formula [e] E. pose proof PI_bounds. revert H. decs. lra. }
  destruct H as [O D]. split; [exact O|]. apply Rle_trans with (1 := D). unfold U, one. decs. lra.
Qed.
Lemma angle_near g L ra : ok g -> ok L -> ok ra -> Rabs (R64 g) <= 6600000 -> Rabs (R64 L) <= 10 -> Rabs (R64 ra) <= 8 ->
  let v := fsub (fadd g L) ra in ok v /\ Rabs (R64 v - (R64 g + R64 L - R64 ra)) <= 3e-9.
Proof.
  intros Og OL Or Bg BL Br v.
  assert (E : env_ok [g; L; ra] [R64 g; R64 L; R64 ra] [given 6600000; given 10; given 8]) by (repeat (constructor; [apply given_ok; assumption|]); constructor).
  assert (H : ok v /\ Rabs (R64 v - (R64 g + R64 L - R64 ra)) <= IZR 3802951800684688204490 * U) by (unfold v; formula [g; L; ra] E).
  destruct H as [O D]. split; [exact O|]. apply Rle_trans with (1 := D). unfold U, one. decs. lra.
Qed.
Section Tables.
Variables (XL0 : list (list f64)) (rest : list f64).
Hypothesis H0 : nth_error XL0 0 = Some (memory (earth_table rest)).
Hypothesis HR : length rest = 1518%nat.
(** the hour angle and declination of the program: those of a point on the ecliptic close to the Sun *)
Lemma Scoord_ok L E dt s : ok L -> ok E -> ok dt -> ok s -> Rabs (R64 L) <= 10 -> Rabs (R64 E) <= 0.416 -> Rabs (R64 dt) <= 4 -> Rabs (R64 s) <= 1000010 ->
  exists H de l, Scoord fsin fcos ftan fasin fatan2 XL0 L E dt s = Some (H, de) /\ ok H /\ ok de /\ - R64 dpi < R64 H <= R64 dpi /\ 0.9 <= cos (R64 de) /\
    Rabs (l - sun_of_date ((R64 s + R64 dt) / 36525)) <= 3.012e-4 /\
    Rabs (sin (R64 de) - to_pole l (R64 E)) <= 1e-14 /\
    Rabs (cos (R64 de) * cos (R64 H) - to_meridian l (R64 E) (local_time (R64 L) (R64 dt) (R64 s))) <= 5.6e-8 /\
    Rabs (cos (R64 de) * sin (R64 H) - to_west l (R64 E) (local_time (R64 L) (R64 dt) (R64 s))) <= 5.6e-8.
Proof.
  intros OL OE Od Os BL BE Bd Bs. unfold Scoord. destruct (centuries s dt Os Od Bs Bd) as [Ot Dt]. set (t := fdiv (fadd s dt) (fZ 36525)) in *. clearbody t.
  assert (BT : Rabs ((R64 s + R64 dt) / 36525) <= 29). { apply Rabs_le_inv in Bs. apply Rabs_le_inv in Bd. apply Rabs_le. lra. }
  set (T := (R64 s + R64 dt) / 36525) in *. assert (Bt : Rabs (R64 t) <= 30). { replace (R64 t) with (T + (R64 t - T)) by ring. apply Rle_trans with (1 := sum_le _ _ _ _ BT Dt). decs. lra. }
  destruct (earth_n_near fsin fcos Gs Gc XL0 rest H0 HR t Ot ltac:(lra) 5 ltac:(lia)) as (e & Ee & Oe & De & Me). rewrite Ee. cbn [obind].
  assert (Be : Rabs (R64 e) <= 64000). { replace (R64 e) with (earth_n 5 (R64 t) + (R64 e - earth_n 5 (R64 t))) by ring. apply Rle_trans with (1 := sum_le _ _ _ _ Me De). decs. lra. }
  destruct (lon_near e Oe Be) as [OJ DJ]. set (J := fsub (fadd e dpi) (fdiv (lit 205 10) rad)) in *. clearbody J.
  pose proof (coords J E OJ OE BE) as C. destruct (llr_conv fsin fcos ftan fasin fatan2 J (fZ 0) E) as [ra de]. destruct C as (Ora & Ode & Bra & Cde & C1 & C2 & C3).
  destruct (C87_formulas fsin fcos Gs Gc) as (_ & CG & _). destruct (CG s dt Os Od ltac:(lra) ltac:(lra)) as [Og Dg]. set (g := pGST s dt) in *. clearbody g. clear CG.
  set (th := local_time (R64 L) (R64 dt) (R64 s)). pose proof (sid_abs (R64 s) (R64 dt) Bs Bd) as SA.
  assert (Bg : Rabs (R64 g) <= 6600000). { replace (R64 g) with (sidereal_time (R64 s) (R64 dt) + (R64 g - sidereal_time (R64 s) (R64 dt))) by ring. apply Rle_trans with (1 := sum_le _ _ _ _ SA Dg). decs. lra. }
  destruct (angle_near g L ra Og OL Ora Bg BL ltac:(apply Rabs_le; lra)) as [Ov Dv]. set (v := fsub (fadd g L) ra) in *. clearbody v.
  destruct (C31_rrad_double v Ov) as (OH & BH & k & EH). set (H := rad2rrad_d v) in *. clearbody H.
  exists H, de, (R64 J). split; [reflexivity|]. split; [exact OH|]. split; [exact Ode|]. split; [exact BH|]. split; [exact Cde|]. split.
  { pose proof (earth_tail 3 5 (R64 t) ltac:(lra)) as ET. let x := eval vm_compute in (etail 3 5) in change (etail 3 5) with x in ET.
    pose proof (aberr_const (R64 t) Bt) as AC. pose proof (sun_run T (R64 t) ltac:(lra) Bt) as SR.
    assert (SR' : Rabs (sun_of_date (R64 t) - sun_of_date T) <= 1e-10).
    { replace (sun_of_date (R64 t) - sun_of_date T) with ((sun_of_date (R64 t) - sun_of_date T - 628.33196674749 * (R64 t - T)) + 628.33196674749 * (R64 t - T)) by ring.
      apply Rle_trans with (26.641 * 2e-14 + 629 * 2e-14); [|decs; lra]. apply sum_le; [|apply prod_le; [rewrite Rabs_pos_eq; decs; lra|exact Dt]].
      apply Rle_trans with (1 := SR). apply Rmult_le_compat_l; [decs; lra|exact Dt]. }
    replace (R64 J - sun_of_date T) with ((R64 J - (R64 e + PI - arcsec 20.5)) + (R64 e - earth_n 5 (R64 t)) + (earth_n 5 (R64 t) - earth_full (R64 t)) - (sun_aberration (R64 t) + arcsec 20.5) + (sun_of_date (R64 t) - sun_of_date T)) by (unfold sun_of_date; ring).
    apply Rle_trans with (1 := sum_le _ _ _ _ (diff_le _ _ _ _ (sum_le _ _ _ _ (sum_le _ _ _ _ DJ De) ET) AC) SR'). decs. lra. }
  split; [unfold to_pole; exact C1|].
  assert (KM : Rabs (IZR k) <= 1200000).
  { apply Rle_trans with ((4 + Rabs (R64 v)) / 6).
    - apply abs_cases. rewrite <- EH. pose proof dpi_range. apply Rabs_le. lra.
    - assert (Rabs (R64 v) <= 6600100); [|lra]. revert Dv. decs. intros Dv. apply Rabs_le_inv in Dv. apply Rabs_le_inv in Bg. apply Rabs_le_inv in BL. apply Rabs_le. lra. }
  assert (TV : Rabs (R64 H - (R64 v + IZR k * (2 * PI))) <= 1e-15 + 1200000 * 4e-16).
  { apply turns; [exact KM|]. rewrite EH, Rminus_diag_eq, Rabs_R0 by reflexivity. decs. lra. }
  assert (HA : Rabs (R64 H - (th - R64 ra + IZR k * (2 * PI))) <= 5.5e-8).
  { replace (R64 H - (th - R64 ra + IZR k * (2 * PI))) with ((R64 H - (R64 v + IZR k * (2 * PI))) + (R64 v - (R64 g + R64 L - R64 ra)) + (R64 g - sidereal_time (R64 s) (R64 dt))) by (unfold th, local_time; ring).
    apply Rle_trans with (1 := sum_le _ _ _ _ (sum_le _ _ _ _ TV Dv) Dg). decs. lra. }
  set (c := cos (R64 de)) in *. assert (C0 : Rabs c <= 1) by apply one_cos.
  assert (HC : Rabs (cos (R64 H) - cos (th - R64 ra)) <= 5.5e-8) by (rewrite <- (turn_cos (th - R64 ra) k); apply Rle_trans with (1 := cos_lip _ _); exact HA).
  assert (HS : Rabs (sin (R64 H) - sin (th - R64 ra)) <= 5.5e-8) by (rewrite <- (turn_sin (th - R64 ra) k); apply Rle_trans with (1 := sin_lip _ _); exact HA).
  rewrite cos_minus in HC. rewrite sin_minus in HS. split.
  - unfold to_meridian. match goal with |- Rabs ?z <= _ => replace z with (c * (cos (R64 H) - (cos th * cos (R64 ra) + sin th * sin (R64 ra))) + cos th * (c * cos (R64 ra) - cos (R64 J)) + sin th * (c * sin (R64 ra) - cos (R64 E) * sin (R64 J))) by ring end.
    apply Rle_trans with (1 * 5.5e-8 + 1 * 3e-14 + 1 * 3e-14); [|decs; lra]. apply sum_le; [apply sum_le|]; apply prod_le; try assumption; try apply one_cos; try apply one_sin.
  - unfold to_west. match goal with |- Rabs ?z <= _ => replace z with (c * (sin (R64 H) - (sin th * cos (R64 ra) - cos th * sin (R64 ra))) + sin th * (c * cos (R64 ra) - cos (R64 J)) - cos th * (c * sin (R64 ra) - cos (R64 E) * sin (R64 J))) by ring end.
    apply Rle_trans with (1 * 5.5e-8 + 1 * 3e-14 + 1 * 3e-14); [|decs; lra]. apply diff_le; [apply sum_le|]; apply prod_le; try assumption; try apply one_cos; try apply one_sin.
Qed.
End Tables.

Lemma rnd_close z M : Rabs z <= M -> Rabs (rnd z - z) <= M * u53 + tiny.
Proof. intros H. apply Rle_trans with (1 := rnd_rel z). apply Rplus_le_compat_r, Rmult_le_compat_r; [unfold u53; lra|exact H]. Qed.
Lemma small_1000 z M : Rabs z <= M -> M <= big -> Rabs z <= bpow radix2 1000.
Proof. intros H1 H2. pose proof big_1000. lra. Qed.
(** the cosine that getH computes *)
Lemma getH_c fa h w : ok fa -> ok h -> ok w -> Rabs (R64 fa) <= 1.57 -> 0.9 <= cos (R64 w) ->
  let c := fdiv (fdiv (fsub (fsin h) (fmul (fsin fa) (fsin w))) (fcos fa)) (fcos w) in
  ok c /\ Rabs (R64 c * (cos (R64 fa) * cos (R64 w)) - (sin (R64 h) - sin (R64 fa) * sin (R64 w))) <= 5e-12.
Proof.
  intros Of Oh Ow Bf Bw c.
  pose proof (near_mul _ _ _ _ _ _ _ _ (6 * u53) 1 (sin_of fa Of) (sin_of w Ow) ltac:(lra) ltac:(nn) ltac:(nn)) as A.
  destruct (near_sub _ _ _ _ _ _ _ _ (12 * u53) 2 (sin_of h Oh) A ltac:(lra) ltac:(nn) ltac:(nn)) as (On & Dn & Mn).
  set (n := fsub (fsin h) (fmul (fsin fa) (fsin w))) in *. destruct (cos_of fa Of) as (Ocf & Dcf & Mcf). destruct (cos_of w Ow) as (Ocw & Dcw & Mcw).
  set (cf := fcos fa) in *. set (cw := fcos w) in *. clearbody n cf cw. pose proof (cos_fa _ Bf) as LF.
  set (N := sin (R64 h) - sin (R64 fa) * sin (R64 w)) in *. set (x := cos (R64 fa)) in *. set (y := cos (R64 w)) in *. clearbody N x y. clear A.
  assert (Bn : Rabs (R64 n) <= 2.1). { replace (R64 n) with (N + (R64 n - N)) by ring. apply Rle_trans with (1 := sum_le _ _ _ _ Mn Dn). nn. }
  assert (Lf : 0.00078 <= R64 cf) by (apply Rabs_le_inv in Dcf; revert Dcf LF; unfold u53; decs; lra).
  assert (Lw : 0.89 <= R64 cw) by (apply Rabs_le_inv in Dcw; revert Dcw Bw; unfold u53; decs; lra).
  assert (If : Rabs (/ R64 cf) <= / 0.00078). { rewrite Rabs_pos_eq; [apply Rinv_le_contravar; [decs; lra|exact Lf]|]. left. apply Rinv_0_lt_compat. revert Lf. decs. lra. }
  assert (Iw : Rabs (/ R64 cw) <= / 0.89). { rewrite Rabs_pos_eq; [apply Rinv_le_contravar; [decs; lra|exact Lw]|]. left. apply Rinv_0_lt_compat. revert Lw. decs. lra. }
  assert (NF : R64 cf <> 0) by (revert Lf; decs; lra). assert (NW : R64 cw <> 0) by (revert Lw; decs; lra).
  assert (Q1 : Rabs (R64 n / R64 cf) <= 2700). { apply Rle_trans with (2.1 * / 0.00078); [apply prod_le; assumption|decs; lra]. }
  destruct (fdiv_ok n cf On Ocf NF) as [Oq Eq]. { apply (small_1000 _ _ Q1). nn. }
  set (q := fdiv n cf) in *. clearbody q. pose proof (rnd_close _ _ Q1) as D1. rewrite <- Eq in D1.
  assert (Bq : Rabs (R64 q) <= 2701). { replace (R64 q) with ((R64 q - R64 n / R64 cf) + R64 n / R64 cf) by ring. apply Rle_trans with (1 := sum_le _ _ _ _ D1 Q1). nn. }
  assert (Q2 : Rabs (R64 q / R64 cw) <= 3040). { apply Rle_trans with (2701 * / 0.89); [apply prod_le; assumption|decs; lra]. }
  destruct (fdiv_ok q cw Oq Ocw NW) as [Oc Ec]. { apply (small_1000 _ _ Q2). nn. }
  fold c in Oc, Ec. split; [exact Oc|]. pose proof (rnd_close _ _ Q2) as D2. rewrite <- Ec in D2.
  assert (Bc : Rabs (R64 c) <= 3041). { replace (R64 c) with ((R64 c - R64 q / R64 cw) + R64 q / R64 cw) by ring. apply Rle_trans with (1 := sum_le _ _ _ _ D2 Q2). nn. }
  assert (Mcf' : Rabs (R64 cf) <= 1.001). { replace (R64 cf) with (x + (R64 cf - x)) by ring. apply Rle_trans with (1 := sum_le _ _ _ _ Mcf Dcf). nn. }
  assert (Mcw' : Rabs (R64 cw) <= 1.001). { replace (R64 cw) with (y + (R64 cw - y)) by ring. apply Rle_trans with (1 := sum_le _ _ _ _ Mcw Dcw). nn. }
  clearbody c.
  replace (R64 c * (x * y) - N) with ((R64 c - R64 q / R64 cw) * (R64 cf * R64 cw) + (R64 q - R64 n / R64 cf) * R64 cf + (R64 n - N) - (R64 c * ((R64 cf - x) * R64 cw + x * (R64 cw - y)))) by (field; split; assumption).
  apply Rle_trans with ((3040 * u53 + tiny) * (1.001 * 1.001) + (2700 * u53 + tiny) * 1.001 + 12 * u53 + 3041 * (2 * u53 * 1.001 + 1 * (2 * u53))); [|nn].
  apply diff_le; [apply sum_le; [apply sum_le|]|].
  - apply prod_le; [exact D2|apply prod_le; assumption].
  - apply prod_le; assumption.
  - exact Dn.
  - apply prod_le; [exact Bc|]. apply sum_le; apply prod_le; assumption.
Qed.
Lemma fabs_ok x : ok x -> ok (SFabs x) /\ R64 (SFabs x) = Rabs (R64 x).
Proof.
  intros [V F]. destruct x as [s|s| |s m e]; try discriminate F.
  - split; [split; [reflexivity|reflexivity]|]. unfold R64, SF2R. cbn. now rewrite Rabs_R0.
  - split; [split; [exact V|reflexivity]|]. unfold R64, SF2R. cbn [SFabs]. rewrite <- F2R_Zabs. destruct s; reflexivity.
Qed.
Lemma getH_ok fa h w : ok fa -> ok h -> ok w -> Rabs (R64 fa) <= 1.57 -> 0.9 <= cos (R64 w) ->
  let H1 := getH fsin fcos facos fa h w in let N := sin (R64 h) - sin (R64 fa) * sin (R64 w) in let D := cos (R64 fa) * cos (R64 w) in
  ok H1 /\ -1e-15 <= R64 H1 <= PI + 1e-15 /\ (feqb H1 dpi = false -> Rabs (D * cos (R64 H1) - N) <= 1e-11) /\ (feqb H1 dpi = true -> D <= Rabs N + 1e-11).
Proof.
  intros Of Oh Ow Bf Bw H1 N D. destruct (getH_c fa h w Of Oh Ow Bf Bw) as [Oc Dc]. unfold getH in H1. cbv zeta in H1.
  set (c := fdiv (fdiv (fsub (fsin h) (fmul (fsin fa) (fsin w))) (fcos fa)) (fcos w)) in *. fold D in Dc. fold N in Dc.
  assert (D0 : 0 <= D <= 1). { unfold D. pose proof (cos_fa _ Bf). pose proof (COS_bound (R64 fa)). pose proof (COS_bound (R64 w)). split; [apply Rmult_le_pos; revert Bw H; decs; lra|rewrite <- (Rmult_1_r 1); apply Rmult_le_compat; revert Bw H; decs; lra]. }
  destruct (fabs_ok c Oc) as [Oac Eac]. destruct (fZ_ok 1 ltac:(lia)) as [O1 E1]. clearbody c D N. pose proof dpi_pi as DP. destruct dpi_ok as [Op _].
  unfold H1. change (fgtb (SFabs c) (fZ 1)) with (fltb (fZ 1) (SFabs c)). rewrite fltb_ok, Eac, E1 by assumption. clear H1.
  destruct (Rlt_bool_spec 1 (Rabs (R64 c))) as [G|G].
  - split; [exact Op|]. split; [apply Rabs_le_inv in DP; pose proof PI_bounds; revert DP H; decs; lra|]. split.
    + rewrite (feqb_ok dpi dpi Op Op). intros X. exfalso. revert X. now rewrite Req_bool_true.
    + intros _. assert (D * 1 <= D * Rabs (R64 c)) by (apply Rmult_le_compat_l; lra).
      assert (X : Rabs (R64 c * D) <= Rabs N + 5e-12). { replace (R64 c * D) with (N + (R64 c * D - N)) by ring. apply sum_le; [lra|exact Dc]. }
      rewrite Rabs_mult, (Rabs_pos_eq D) in X by lra. revert X. decs. lra.
  - destruct (Gac c Oc G) as [Oh1 Dh]. set (H1 := facos c) in *. clearbody H1. assert (Bc : -1 <= R64 c <= 1) by (apply Rabs_le_inv, G).
    pose proof (acos_bound (R64 c)) as AB. assert (CC : Rabs (cos (R64 H1) - R64 c) <= 4 * u53). { rewrite <- (cos_acos (R64 c) Bc). apply Rle_trans with (1 := cos_lip _ _). exact Dh. }
    split; [exact Oh1|]. split; [apply Rabs_le_inv in Dh; revert Dh; unfold u53; decs; lra|]. split.
    + intros _. replace (D * cos (R64 H1) - N) with (D * (cos (R64 H1) - R64 c) + (R64 c * D - N)) by ring.
      apply Rle_trans with (1 * (4 * u53) + 5e-12); [|nn]. apply sum_le; [apply prod_le; [rewrite Rabs_pos_eq; lra|exact CC]|exact Dc].
    + rewrite (feqb_ok H1 dpi Oh1 Op). destruct (Req_bool_spec (R64 H1) (R64 dpi)) as [E|E]; [intros _|discriminate].
      rewrite E in CC. pose proof (cos_lip (R64 dpi) PI) as X. rewrite cos_PI in X.
      assert (Y : Rabs (R64 c + 1) <= 1e-14). { replace (R64 c + 1) with ((cos (R64 dpi) - -1) - (cos (R64 dpi) - R64 c)) by ring. assert (X' : Rabs (cos (R64 dpi) - -1) <= 2e-16) by lra. apply Rle_trans with (1 := diff_le _ _ _ _ X' CC). nn. }
      assert (Z : Rabs (- D) <= Rabs N + 5e-12 + 1 * 1e-14). { replace (- D) with (N + (R64 c * D - N) - D * (R64 c + 1)) by ring. apply diff_le; [apply sum_le; [lra|exact Dc]|]. apply prod_le; [rewrite Rabs_pos_eq; lra|exact Y]. }
      rewrite Rabs_Ropp, (Rabs_pos_eq D) in Z by lra. revert Z. decs. lra.
Qed.

(** the sky turned on from the moment s0 to s1 *)
Lemma turn_meridian l e th x : to_meridian l e (th + x) = to_meridian l e th * cos x - to_west l e th * sin x.
Proof. unfold to_meridian, to_west. rewrite cos_plus, sin_plus. ring. Qed.
Lemma turn_west l e th x : to_west l e (th + x) = to_west l e th * cos x + to_meridian l e th * sin x.
Proof. unfold to_meridian, to_west. rewrite cos_plus, sin_plus. ring. Qed.
Lemma moved a b c L E dt s0 s1 H de l tau (k : Z) : a * a + b * b + c * c = 1 -> Rabs E <= 0.416 -> Rabs dt <= 4 -> Rabs s0 <= 1000010 -> Rabs s1 <= 1000010 ->
  Rabs (l - sun_of_date ((s0 + dt) / 36525)) <= 3.012e-4 -> Rabs (obliquity ((s1 + dt) / 36525) - E) <= 1e-7 ->
  Rabs (sin de - to_pole l E) <= 1e-14 ->
  Rabs (cos de * cos H - to_meridian l E (local_time L dt s0)) <= 5.6e-8 ->
  Rabs (cos de * sin H - to_west l E (local_time L dt s0)) <= 5.6e-8 ->
  Rabs (H + 2 * PI * (s1 - s0) - (tau + IZR k * (2 * PI))) <= 2e-9 ->
  Rabs (at_sun (along a b c) dt s1 (local_time L dt s1) - (a * sin de + cos de * (b * cos tau + c * sin tau))) <=
    (0.00747 * Rabs a + 0.002252 * (Rabs b + Rabs c)) * Rabs (s1 - s0) + 3.02e-4.
Proof.
  intros N BE Bd B0 B1 DL DE S1 S2 S3 TU.
  assert (SQ : forall x, 0 <= x * x) by (intros x; pose proof (Rle_0_sqr x) as Q; exact Q).
  pose proof (SQ a) as Sa. pose proof (SQ b) as Sb. pose proof (SQ c) as Sc.
  assert (A1 : Rabs a <= 1) by (apply Rabs_le; split; nra). assert (A2 : Rabs b <= 1) by (apply Rabs_le; split; nra). assert (A3 : Rabs c <= 1) by (apply Rabs_le; split; nra).
  set (T0 := (s0 + dt) / 36525) in *. set (T1 := (s1 + dt) / 36525) in *.
  assert (BT0 : Rabs T0 <= 30) by (unfold T0; apply Rabs_le_inv in Bd; apply Rabs_le_inv in B0; apply Rabs_le; lra).
  assert (BT1 : Rabs T1 <= 30) by (unfold T1; apply Rabs_le_inv in Bd; apply Rabs_le_inv in B1; apply Rabs_le; lra).
  unfold at_sun. fold T1. set (D := s1 - s0) in *. set (x := 2 * PI * D) in *.
  set (d := sun_of_date T1 - sun_of_date T0). set (th0 := local_time L dt s0) in *. set (m := local_time L dt s1 - (th0 + x)).
  pose proof (sun_run T0 T1 BT0 BT1) as SR. fold d in SR. pose proof (sid_run dt s0 s1 BT0 BT1) as SD.
  assert (TD : T1 - T0 = D / 36525) by (unfold T0, T1, D; field). rewrite TD in SR.
  assert (TA : Rabs (D / 36525) = Rabs D / 36525) by (unfold Rdiv; rewrite Rabs_mult, (Rabs_pos_eq (/ 36525)) by lra; reflexivity). rewrite TA in SR.
  replace (628.33196674749 * (D / 36525)) with (omega * D) in SR by (unfold omega; field).
  assert (ME : m = sidereal_time s1 dt - sidereal_time s0 dt - x) by (unfold m, th0, local_time; ring). fold D in SD. fold x in SD. rewrite <- ME in SD.
  set (AD := Rabs D) in *. assert (AD0 : 0 <= AD) by apply Rabs_pos.
  assert (OD : Rabs (omega * D) <= 0.0172028 * AD) by (apply prod_le; [unfold omega; rewrite Rabs_pos_eq; decs; lra|apply Rle_refl]).
  assert (Bdd : Rabs d <= 0.017933 * AD). { replace d with ((d - omega * D) + omega * D) by ring. apply Rle_trans with (1 := sum_le _ _ _ _ SR OD). decs. lra. }
  assert (Bm : Rabs m <= 0.017203 * AD). { replace m with ((m - omega * D) + omega * D) by ring. apply Rle_trans with (1 := sum_le _ _ _ _ SD OD). decs. lra. }
  assert (Bdm : Rabs (d - m) <= 0.00072944 * AD). { replace (d - m) with ((d - omega * D) - (m - omega * D)) by ring. apply Rle_trans with (1 := diff_le _ _ _ _ SR SD). decs. lra. }
  pose proof (along_obl a b c E (obliquity T1) (local_time L dt s1) (sun_of_date T1) A1 A2 A3) as X1.
  pose proof (along_lon a b c E (local_time L dt s1) (l + d) (sun_of_date T1) N) as X2. replace (sun_of_date T1 - (l + d)) with (- (l - sun_of_date T0)) in X2 by (unfold d; ring). rewrite Rabs_Ropp in X2.
  pose proof (along_run a b c E l (th0 + x) d m _ A1 A2 A3 BE Bdm) as X3. replace (th0 + x + m) with (local_time L dt s1) in X3 by (unfold m; ring).
  assert (X4 : Rabs (along a b c l E (th0 + x) - (a * sin de + cos de * (b * cos (H + x) + c * sin (H + x)))) <= 2.3e-7).
  { unfold along. rewrite turn_meridian, turn_west, cos_plus, sin_plus. set (M := to_meridian l E th0) in *. set (W := to_west l E th0) in *.
    match goal with |- Rabs ?z <= _ => replace z with (- (b * ((cos de * cos H - M) * cos x - (cos de * sin H - W) * sin x)) - c * ((cos de * sin H - W) * cos x + (cos de * cos H - M) * sin x) - a * (sin de - to_pole l E)) by ring end.
    apply Rle_trans with (1 * (5.6e-8 * 1 + 5.6e-8 * 1) + 1 * (5.6e-8 * 1 + 5.6e-8 * 1) + 1 * 1e-14); [|decs; lra].
    pose proof (one_cos x). pose proof (one_sin x).
    apply diff_le; [apply diff_le|]; [rewrite Rabs_Ropp| |]; apply prod_le; try assumption; [apply diff_le|apply sum_le]; apply prod_le; assumption. }
  assert (X5 : Rabs (cos de * (b * cos (H + x) + c * sin (H + x)) - cos de * (b * cos tau + c * sin tau)) <= 5e-9).
  { rewrite <- (turn_cos tau k), <- (turn_sin tau k). set (t' := tau + IZR k * (2 * PI)) in *.
    replace (cos de * (b * cos (H + x) + c * sin (H + x)) - cos de * (b * cos t' + c * sin t')) with (cos de * (b * (cos (H + x) - cos t') + c * (sin (H + x) - sin t'))) by ring.
    apply Rle_trans with (1 * (1 * 2e-9 + 1 * 2e-9)); [|decs; lra]. apply prod_le; [apply one_cos|]. apply sum_le; apply prod_le; try assumption; [apply Rle_trans with (1 := cos_lip _ _)|apply Rle_trans with (1 := sin_lip _ _)]; exact TU. }
  match goal with |- Rabs ?z <= _ => replace z with ((along a b c (sun_of_date T1) (obliquity T1) (local_time L dt s1) - along a b c (sun_of_date T1) E (local_time L dt s1)) +
    (along a b c (sun_of_date T1) E (local_time L dt s1) - along a b c (l + d) E (local_time L dt s1)) +
    (along a b c (l + d) E (local_time L dt s1) - along a b c l E (th0 + x)) + (along a b c l E (th0 + x) - (a * sin de + cos de * (b * cos (H + x) + c * sin (H + x)))) +
    (cos de * (b * cos (H + x) + c * sin (H + x)) - cos de * (b * cos tau + c * sin tau))) by ring end.
  apply Rle_trans with (1 := sum_le _ _ _ _ (sum_le _ _ _ _ (sum_le _ _ _ _ (sum_le _ _ _ _ X1 X2) X3) X4) X5).
  pose proof (Rabs_pos a) as Pa. pose proof (Rabs_pos b) as Pb. pose proof (Rabs_pos c) as Pc.
  assert (Y1 : Rabs a * (0.416 * Rabs d) <= Rabs a * (0.00747 * AD)) by (apply Rmult_le_compat_l; [lra|revert Bdd; decs; lra]).
  assert (Y2 : (Rabs b + Rabs c) * (0.00072944 * AD + 0.0433 * (Rabs d + Rabs m)) <= (Rabs b + Rabs c) * (0.002252 * AD)) by (apply Rmult_le_compat_l; [lra|revert Bdd Bm; decs; lra]).
  revert Y1 Y2 DL DE. decs. lra.
Qed.

(** one correction of a moment *)
Lemma div_near s x : ok s -> ok x -> Rabs (R64 s) <= 1000010 -> Rabs (R64 x) <= 7 -> let r := fadd s (fdiv x pi2) in ok r /\ Rabs (R64 r - (R64 s + R64 x / (2 * PI))) <= 2e-10.
Proof.
  intros Os Ox Bs Bx r. assert (E : env_ok [s; x] [R64 s; R64 x] [given 1000010; given 7]) by (repeat (constructor; [apply given_ok; assumption|]); constructor).
  assert (H : ok r /\ Rabs (R64 r - (R64 s + R64 x / (2 * PI))) <= IZR 253530120045645880298 * U).
  { unfold r, pi2. formula [s; x] E. pose proof PI_bounds. revert H. decs. lra. }
  destruct H as [O D]. split; [exact O|]. apply Rle_trans with (1 := D). unfold U, one. decs. lra.
Qed.
Lemma minus_near t H : ok t -> ok H -> Rabs (R64 t) <= 4 -> Rabs (R64 H) <= 4 -> let x := fsub t H in ok x /\ Rabs (R64 x - (R64 t - R64 H)) <= 1e-15.
Proof.
  intros Ot OH Bt BH x. assert (E : env_ok [t; H] [R64 t; R64 H] [given 4; given 4]) by (repeat (constructor; [apply given_ok; assumption|]); constructor).
  assert (Q : ok x /\ Rabs (R64 x - (R64 t - R64 H)) <= IZR 1267650600228229 * U) by (unfold x; formula [t; H] E).
  destruct Q as [O D]. split; [exact O|]. apply Rle_trans with (1 := D). unfold U, one. decs. lra.
Qed.
Lemma two_pi x y e : Rabs (y - x / (2 * PI)) <= e -> Rabs (2 * PI * y - x) <= 6.3 * e.
Proof.
  intros H. pose proof PI_bounds as PB. replace (2 * PI * y - x) with (2 * PI * (y - x / (2 * PI))) by (field; revert PB; decs; lra).
  apply prod_le; [rewrite Rabs_pos_eq by (revert PB; decs; lra); revert PB; decs; lra|exact H].
Qed.
Lemma per_turn x b : Rabs x <= b -> Rabs (x / (2 * PI)) <= b * 0.15916.
Proof. intros H. pose proof PI_bounds as PB. assert (P : / (2 * PI) <= 0.15916). { replace 0.15916 with (/ (/ 0.15916)) by (decs; field). apply Rinv_le_contravar; [decs; lra|]. revert PB. decs. lra. }
  apply prod_le; [exact H|]. rewrite Rabs_pos_eq; [exact P|]. left. apply Rinv_0_lt_compat. revert PB. decs. lra. Qed.
Lemma step_plain t H s : ok t -> ok H -> ok s -> Rabs (R64 t) <= 3.15 -> Rabs (R64 H) <= 3.15 -> Rabs (R64 s) <= 1000005 ->
  let s1 := fadd s (fdiv (fsub t H) pi2) in ok s1 /\ Rabs (R64 s1 - R64 s) <= 1.01 /\ Rabs (R64 H + 2 * PI * (R64 s1 - R64 s) - R64 t) <= 1.9e-9.
Proof.
  intros Ot OH Os Bt BH Bs s1. destruct (minus_near t H Ot OH ltac:(revert Bt; decs; lra) ltac:(revert BH; decs; lra)) as [Ox Dx]. set (x := fsub t H) in *.
  assert (Bx : Rabs (R64 x) <= 6.301). { replace (R64 x) with ((R64 x - (R64 t - R64 H)) + (R64 t - R64 H)) by ring. apply Rle_trans with (1 := sum_le _ _ _ _ Dx (diff_le _ _ _ _ Bt BH)). decs. lra. }
  destruct (div_near s x Os Ox ltac:(lra) ltac:(revert Bx; decs; lra)) as [O1 D1]. fold s1 in O1, D1. split; [exact O1|].
  assert (D2 : Rabs (R64 s1 - R64 s - R64 x / (2 * PI)) <= 2e-10) by (replace (R64 s1 - R64 s - R64 x / (2 * PI)) with (R64 s1 - (R64 s + R64 x / (2 * PI))) by ring; exact D1).
  split.
  - replace (R64 s1 - R64 s) with ((R64 s1 - R64 s - R64 x / (2 * PI)) + R64 x / (2 * PI)) by ring. apply Rle_trans with (1 := sum_le _ _ _ _ D2 (per_turn _ _ Bx)). decs. lra.
  - pose proof (two_pi _ _ _ D2) as D3. replace (R64 H + 2 * PI * (R64 s1 - R64 s) - R64 t) with ((2 * PI * (R64 s1 - R64 s) - R64 x) + (R64 x - (R64 t - R64 H))) by ring.
    apply Rle_trans with (1 := sum_le _ _ _ _ D3 Dx). decs. lra.
Qed.
Lemma step_rr t H s : ok t -> ok H -> ok s -> Rabs (R64 t) <= 3.15 -> Rabs (R64 H) <= 3.15 -> Rabs (R64 s) <= 1000008 ->
  let s1 := fadd s (fdiv (rad2rrad_d (fsub t H)) pi2) in ok s1 /\ Rabs (R64 s1 - R64 s) <= 0.51 /\ exists k : Z, Rabs (R64 H + 2 * PI * (R64 s1 - R64 s) - (R64 t + IZR k * (2 * PI))) <= 2e-9.
Proof.
  intros Ot OH Os Bt BH Bs s1. destruct (minus_near t H Ot OH ltac:(revert Bt; decs; lra) ltac:(revert BH; decs; lra)) as [Ox Dx]. set (x := fsub t H) in *.
  assert (Bx : Rabs (R64 x) <= 6.301). { replace (R64 x) with ((R64 x - (R64 t - R64 H)) + (R64 t - R64 H)) by ring. apply Rle_trans with (1 := sum_le _ _ _ _ Dx (diff_le _ _ _ _ Bt BH)). decs. lra. }
  destruct (C31_rrad_double x Ox) as (Oy & By & k & Ey). set (y := rad2rrad_d x) in *. clearbody y. pose proof dpi_pi as DP. pose proof PI_bounds as PB.
  assert (By' : Rabs (R64 y) <= 3.142). { apply Rabs_le_inv in DP. apply Rabs_le. revert DP PB. decs. lra. }
  assert (KM : Rabs (IZR k) <= 3). { apply Rle_trans with ((4 + Rabs (R64 x)) / 6); [apply abs_cases; rewrite <- Ey; revert By'; decs; lra|revert Bx; decs; lra]. }
  pose proof (turns k (R64 x) (R64 y) 3 KM ltac:(rewrite Ey, Rminus_diag_eq, Rabs_R0 by reflexivity; decs; lra)) as T.
  destruct (div_near s y Os Oy ltac:(lra) ltac:(revert By'; decs; lra)) as [O1 D1]. fold s1 in O1, D1. split; [exact O1|].
  assert (D2 : Rabs (R64 s1 - R64 s - R64 y / (2 * PI)) <= 2e-10) by (replace (R64 s1 - R64 s - R64 y / (2 * PI)) with (R64 s1 - (R64 s + R64 y / (2 * PI))) by ring; exact D1).
  split.
  - replace (R64 s1 - R64 s) with ((R64 s1 - R64 s - R64 y / (2 * PI)) + R64 y / (2 * PI)) by ring. apply Rle_trans with (1 := sum_le _ _ _ _ D2 (per_turn _ _ By')). decs. lra.
  - pose proof (two_pi _ _ _ D2) as D3. exists k. replace (R64 H + 2 * PI * (R64 s1 - R64 s) - (R64 t + IZR k * (2 * PI))) with ((2 * PI * (R64 s1 - R64 s) - R64 y) + (R64 y - (R64 x + IZR k * (2 * PI))) + (R64 x - (R64 t - R64 H))) by ring.
    apply Rle_trans with (1 := sum_le _ _ _ _ (sum_le _ _ _ _ D3 T) Dx). decs. lra.
Qed.
(** the four depths *)
Lemma depth_near xm : ok (depth xm) /\ Rabs (R64 (depth xm) - below xm) <= 1e-15.
Proof.
  assert (E : env_ok [] [] []) by constructor. pose proof PI_bounds as PB.
  assert (G : forall n : Z, let F := fdiv (fZ n) rad in ok F /\ Rabs (R64 F - arcsec (IZR n)) <= IZR 1267650600228229 * U -> ok F /\ Rabs (R64 F - arcsec (IZR n)) <= 1e-15).
  { intros n F [O D]. split; [exact O|]. apply Rle_trans with (1 := D). unfold U, one. decs. lra. }
  unfold depth, below. destruct xm as [|[|[|[|xm]]]].
  1, 5: replace (- arcsec 64800) with (arcsec (IZR (-64800))) by (unfold arcsec; field).
  3: replace (- arcsec 3000) with (arcsec (IZR (-3000))) by (unfold arcsec; field).
  4: replace (- arcsec 21600) with (arcsec (IZR (-21600))) by (unfold arcsec; field).
  5: replace (- arcsec 43200) with (arcsec (IZR (-43200))) by (unfold arcsec; field).
  all: apply G; cbv zeta; unfold rad, arcsec; formula (@nil f64) E; revert PB; decs; lra.
Qed.
End Lib.
