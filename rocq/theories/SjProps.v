(** Properties of the quick sunrise and sunset, in exact arithmetic. *)
From Coq Require Import ZArith Reals Lra Lia Psatz List.
From Flocq Require Import Core.
From Verif Require Import PiBound GeoModel GeoSpec GeoProof GeoProps ObsModel ObsSpec ObsProps SecModel SecProps SjModel.
Open Scope R_scope.

(** ** Specification *)
(** the direction of a Sun at ecliptic longitude J, in equatorial axes, the obliquity being E *)
Definition sun_dir (E J : R) : point := rot_x E (cos J, sin J, 0).
(** the zenith and the west point of a place at latitude fa when the local sidereal time is th *)
Definition zenith (fa th : R) : point := (cos fa * cos th, cos fa * sin th, sin fa).
Definition west (th : R) : point := (sin th, - cos th, 0).
(** 50 minutes of arc: the refraction and the radius of the Sun *)
Definition dip : R := 50 / 60 * (PI / 180).
(** at that sidereal time the upper limb is on the horizon, east of the meridian for sj = -1 and west of it for sj = 1 *)
Definition crosses (E J fa : R) (sj : Z) (th : R) : Prop :=
  dot (zenith fa th) (sun_dir E J) = - sin dip /\ 0 < IZR sj * dot (west th) (sun_dir E J).
(** r is the moment closest to s when the Sun of the moment s crosses, its hour angle growing by 6.28 a day *)
Definition next_crossing (L fa : R) (sj : Z) (s r : R) : Prop :=
  let T := s / 36525 in let E := sj_E T in let J := sj_J (sj_t T) in
  let th x := sj_gst s T + L + 6.28 * (x - s) in
  crosses E J fa sj (th r) /\ (forall x, crosses E J fa sj (th x) -> Rabs (r - s) <= Rabs (x - s)) /\ Rabs (r - s) <= PI / 6.28.
(** the Sun of the moment s stays on one side all day: it is always up, or always down *)
Definition always_up (fa s : R) : Prop :=
  forall th, - sin dip <= dot (zenith fa th) (sun_dir (sj_E (s / 36525)) (sj_J (sj_t (s / 36525)))).
Definition always_down (fa s : R) : Prop :=
  forall th, dot (zenith fa th) (sun_dir (sj_E (s / 36525)) (sj_J (sj_t (s / 36525)))) <= - sin dip.

(** ** Proofs *)
Lemma dip_ok : sin (- 3000 / sj_rad) = - sin dip.
Proof. rewrite <- sin_neg. f_equal. unfold sj_rad, dip. pose proof PI_RGT_0. field. lra. Qed.
Lemma E_bounds T : Rabs T <= 1000 -> 0 < sj_E T < PI / 4.
Proof.
  intros H. unfold sj_E, sj_rad. pose proof PI_RGT_0. apply Rabs_le_inv in H.
  replace ((84381.4060 - 46.836769 * T) / (180 * 3600 / PI)) with (((84381.4060 - 46.836769 * T) / 648000) * PI) by (field; lra). nra.
Qed.
Lemma cosE_pos T : Rabs T <= 1000 -> 0 < cos (sj_E T).
Proof. intros H. destruct (E_bounds T H). apply cos_gt_0; lra. Qed.
(** the place of the Sun in right ascension and declination *)
Lemma place E J : 0 < cos E -> let A := sj_A E J in let D := sj_D E J in
  0 < cos D /\ sin D = sin E * sin J /\ cos D * cos A = cos J /\ cos D * sin A = sin J * cos E.
Proof.
  intros H A D. pose proof (sin2_cos2 E) as QE. pose proof (sin2_cos2 J) as QJ. unfold Rsqr in QE, QJ.
  assert (B : (sin E * sin J) * (sin E * sin J) < 1).
  { assert (sin E * sin E < 1) by nra. assert (0 <= sin J * sin J <= 1) by nra. replace (sin E * sin J * (sin E * sin J)) with ((sin E * sin E) * (sin J * sin J)) by ring. nra. }
  assert (SD : sin D = sin E * sin J). { unfold D, sj_D. apply sin_asin. nra. }
  assert (CD : cos D = sqrt (1 - Rsqr (sin E * sin J))). { unfold D, sj_D. apply cos_asin. nra. }
  assert (EQ : 1 - Rsqr (sin E * sin J) = cos J * cos J + (sin J * cos E) * (sin J * cos E)) by (unfold Rsqr; nra).
  split. { rewrite CD. apply sqrt_lt_R0. unfold Rsqr. lra. }
  split; [exact SD|]. rewrite CD, EQ. exact (polar (sin J * cos E) (cos J)).
Qed.
Lemma alt_eq E J fa th : 0 < cos E -> let A := sj_A E J in let D := sj_D E J in
  dot (zenith fa th) (sun_dir E J) = sin fa * sin D + cos fa * cos D * cos (th - A) /\
  dot (west th) (sun_dir E J) = cos D * sin (th - A).
Proof.
  intros H A D. destruct (place E J H) as (_ & S & X & Y). fold A D in S, X, Y. rewrite cos_minus, sin_minus. unfold dot, zenith, west, sun_dir, rot_x. rewrite S. split.
  - replace (sin fa * (sin E * sin J) + cos fa * cos D * (cos th * cos A + sin th * sin A)) with (sin fa * (sin E * sin J) + cos fa * (cos th * (cos D * cos A) + sin th * (cos D * sin A))) by ring. rewrite X, Y. ring.
  - replace (cos D * (sin th * cos A - cos th * sin A)) with (sin th * (cos D * cos A) - cos th * (cos D * sin A)) by ring. rewrite X, Y. ring.
Qed.
Lemma turn x y : cos x = cos y -> sin x = sin y -> exists k, x = y + 2 * PI * IZR k.
Proof.
  intros C S. assert (Q : cos (x - y) = 1). { rewrite cos_minus, C, S. pose proof (sin2_cos2 y) as Q. unfold Rsqr in Q. lra. }
  replace (x - y) with (2 * ((x - y) / 2)) in Q by field. rewrite cos_2a_sin in Q. assert (Z : sin ((x - y) / 2) = 0) by nra.
  destruct (sin_eq_0_0 _ Z) as [k K]. exists k. lra.
Qed.
Lemma nearest_turn d k : - PI < d <= PI -> Rabs d <= Rabs (d + 2 * PI * IZR k).
Proof.
  intros H. destruct (Z.eq_dec k 0) as [->|N]. { right. f_equal. ring. }
  assert (A : Rabs d <= PI) by (apply Rabs_le; lra). apply Rle_trans with (1 := A).
  destruct (Z_lt_le_dec k 0) as [L|L].
  - assert (B : IZR k <= -1) by (apply IZR_le; lia). rewrite Rabs_left1; nra.
  - assert (B : 1 <= IZR k) by (apply IZR_le; lia). rewrite Rabs_pos_eq; nra.
Qed.
Theorem C132_step L fa sj s : 0 < cos fa -> (sj = 1 \/ sj = -1)%Z -> Rabs s <= 36525000 ->
  match sj_step L fa sj s with
  | Some r => next_crossing L fa sj s r /\ ~ always_up fa s /\ ~ always_down fa s
  | None => always_up fa s \/ always_down fa s
  end.
Proof.
  intros HF HS HB. unfold sj_step, next_crossing, always_up, always_down. cbv zeta. set (T := s / 36525).
  assert (HT : Rabs T <= 1000). { unfold T. apply Rabs_le_inv in HB. apply Rabs_le. lra. }
  pose proof (cosE_pos T HT) as HE. set (E := sj_E T) in *. set (J := sj_J (sj_t T)). set (g := sj_gst s T).
  destruct (place E J HE) as (CD & _). pose proof (fun th => alt_eq E J fa th HE) as AL. cbv zeta in AL, CD. set (A := sj_A E J) in *. set (D := sj_D E J) in *.
  assert (P : 0 < cos fa * cos D) by (apply Rmult_lt_0_compat; assumption).
  assert (KE : cos fa * cos D * sj_cosH fa D = - sin dip - sin fa * sin D). { unfold sj_cosH. rewrite dip_ok. field. split; lra. }
  set (c := sj_cosH fa D) in *. clearbody c.
  destruct (Rle_dec 1 (Rabs c)) as [HC|HC].
  - unfold Rabs in HC. destruct (Rcase_abs c).
    + left. intros th. destruct (AL th) as (-> & _). pose proof (COS_bound (th - A)). nra.
    + right. intros th. destruct (AL th) as (-> & _). pose proof (COS_bound (th - A)). nra.
  - apply Rnot_le_lt in HC. apply Rabs_def2 in HC.
    pose proof (acos_bound_lt c ltac:(lra)) as HA. pose proof (cos_acos c ltac:(lra)) as CA. set (H0 := acos c) in *.
    assert (SA : 0 < sin H0) by (apply sin_gt_0; lra).
    assert (CS : cos (IZR sj * H0) = c). { destruct HS as [-> | ->]. { rewrite Rmult_1_l. exact CA. } replace (-1 * H0) with (- H0) by ring. rewrite cos_neg. exact CA. }
    assert (SS : sin (IZR sj * H0) = IZR sj * sin H0). { destruct HS as [-> | ->]. { rewrite !Rmult_1_l. reflexivity. } replace (-1 * H0) with (- H0) by ring. rewrite sin_neg. ring. }
    assert (S2 : IZR sj * IZR sj = 1) by (destruct HS as [-> | ->]; lra).
    destruct (rad2rrad_ok (IZR sj * H0 - (g + L - A))) as (RB & k & RK). set (d := rad2rrad (IZR sj * H0 - (g + L - A))) in *. clearbody d.
    split.
    + split; [|split].
      * replace (g + L + 6.28 * (s + d / 6.28 - s)) with (g + L + d) by lra. destruct (AL (g + L + d)) as (E1 & E2). split.
        -- rewrite E1. replace (g + L + d - A) with (IZR sj * H0 + 2 * PI * IZR k) by lra. rewrite cos_Z, CS. lra.
        -- rewrite E2. replace (g + L + d - A) with (IZR sj * H0 + 2 * PI * IZR k) by lra. rewrite sin_Z, SS. replace (IZR sj * (cos D * (IZR sj * sin H0))) with ((IZR sj * IZR sj) * (cos D * sin H0)) by ring. rewrite S2, Rmult_1_l. apply Rmult_lt_0_compat; assumption.
      * intros x (X1 & X2). destruct (AL (g + L + 6.28 * (x - s))) as (E1 & E2). rewrite E1 in X1. rewrite E2 in X2. set (h := g + L + 6.28 * (x - s) - A) in *.
        assert (CH : cos h = c) by (apply (Rmult_eq_reg_l (cos fa * cos D)); lra).
        assert (SH : sin h = IZR sj * sin H0).
        { pose proof (sin2_cos2 h) as Q1. pose proof (sin2_cos2 H0) as Q2. unfold Rsqr in Q1, Q2. rewrite CH in Q1. rewrite CA in Q2.
          assert (W : 0 < IZR sj * sin h). { apply Rmult_lt_reg_l with (cos D); [lra|]. lra. }
          assert (V : (IZR sj * sin h - sin H0) * (IZR sj * sin h + sin H0) = 0). { replace ((IZR sj * sin h - sin H0) * (IZR sj * sin h + sin H0)) with ((IZR sj * IZR sj) * (sin h * sin h) - sin H0 * sin H0) by ring. rewrite S2. lra. }
          apply Rmult_integral in V. destruct V as [V|V]; [|lra]. replace (sin H0) with (IZR sj * sin h) by lra. replace (IZR sj * (IZR sj * sin h)) with ((IZR sj * IZR sj) * sin h) by ring. rewrite S2. ring. }
        destruct (turn h (IZR sj * H0)) as [m M]; [rewrite CS; exact CH|rewrite SS; exact SH|].
        assert (X : x - s = (d + 2 * PI * IZR (m - k)) / 6.28). { unfold h in M. rewrite minus_IZR. lra. }
        replace (s + d / 6.28 - s) with (d / 6.28) by ring. rewrite X. unfold Rdiv. rewrite !Rabs_mult. apply Rmult_le_compat_r; [apply Rabs_pos|]. apply nearest_turn. exact RB.
      * replace (s + d / 6.28 - s) with (d / 6.28) by ring. pose proof PI_RGT_0. apply Rabs_le. lra.
    + split; intros AU.
      * specialize (AU (A + PI)). destruct (AL (A + PI)) as (E1 & _). rewrite E1 in AU. replace (A + PI - A) with PI in AU by ring. rewrite cos_PI in AU. nra.
      * specialize (AU A). destruct (AL A) as (E1 & _). rewrite E1 in AU. replace (A - A) with 0 in AU by ring. rewrite cos_0 in AU. nra.
Qed.
(** the whole function: from the local mean noon of the day, twice the closest crossing; 0 where there is none *)
Theorem C132_sun jd L fa sj : 0 < cos fa -> (sj = 1 \/ sj = -1)%Z -> Rabs jd <= 36000000 -> Rabs L <= PI ->
  exists n s0, s0 + L / (2 * PI) = IZR n /\ jd - 0.5 < IZR n <= jd + 0.5 /\
  ((exists s1, next_crossing L fa sj s0 s1 /\ next_crossing L fa sj s1 (sunShengJ jd L fa sj)) \/
   (sunShengJ jd L fa sj = 0 /\ (always_up fa s0 \/ always_down fa s0)) \/
   (sunShengJ jd L fa sj = 0 /\ exists s1, next_crossing L fa sj s0 s1 /\ (always_up fa s1 \/ always_down fa s1))).
Proof.
  intros HF HS HJ HL. exists (Zfloor (jd + 0.5)), (IZR (Zfloor (jd + 0.5)) - L / (2 * PI)). pose proof (Zfloor_lb (jd + 0.5)) as B1. pose proof (Zfloor_ub (jd + 0.5)) as B2.
  split; [ring|]. split; [lra|]. unfold sunShengJ. cbv zeta. set (s0 := IZR (Zfloor (jd + 0.5)) - L / (2 * PI)).
  pose proof PI_RGT_0 as PP. assert (LB : - (1 / 2) <= L / (2 * PI) <= 1 / 2).
  { apply Rabs_le_inv in HL. split; [apply Rmult_le_reg_r with (2 * PI)|apply Rmult_le_reg_r with (2 * PI)]; try lra; unfold Rdiv; rewrite Rmult_assoc, Rinv_l; lra. }
  apply Rabs_le_inv in HJ. assert (S0 : Rabs s0 <= 36000002) by (apply Rabs_le; unfold s0; lra).
  pose proof (C132_step L fa sj s0 HF HS ltac:(lra)) as K0. destruct (sj_step L fa sj s0) as [s1|]; [|right; left; split; [reflexivity|exact K0]].
  destruct K0 as (N0 & _). pose proof PI_bounds as PB. assert (S1 : Rabs s1 <= 36525000).
  { destruct N0 as (_ & _ & D). apply Rabs_le_inv in D. apply Rabs_le_inv in S0. apply Rabs_le. assert (PI / 6.28 < 1) by (apply Rmult_lt_reg_r with 6.28; [lra|]; unfold Rdiv; rewrite Rmult_assoc, Rinv_l; lra). lra. }
  pose proof (C132_step L fa sj s1 HF HS S1) as K1. destruct (sj_step L fa sj s1) as [r|].
  - left. exists s1. split; [exact N0|apply K1].
  - right. right. split; [reflexivity|]. exists s1. split; assumption.
Qed.
