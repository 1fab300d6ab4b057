(** The rate of change of the Moon's longitude and of its elongation from the Sun against the speed used in the search. *)
From Coq Require Import ZArith Reals Lia Lra Bool List.
From Flocq Require Import Core.
From Verif Require Import F64E PiBound SmTab FormSpec FormProps WaveF WaveR SmSpec SmF SmProps SmSun SunProps.
Import ListNotations.
Open Scope R_scope.

(** unit of the amplitudes, 1e-8 arc seconds *)
Definition kap : R := PI / 64800000000000.
Lemma kap_range : 4.848136811e-14 <= kap <= 4.848136812e-14.
Proof. unfold kap. pose proof PI_bounds as P. revert P. decs. intros P. lra. Qed.
Definition mw (i : nat) : wave := nth i ML0 (W 0 0 0 0 0 0).
(** the terms of the series that have no partner in the speed *)
Definition mrest : list wave := mw 4 :: mw 6 :: mw 13 :: skipn 15 ML0.
Definition mc (i : nat) (t : R) : R := kap * IZR (wa (mw i)) * cos (ph (mw i) t).
Lemma ml0 t : kap * ws ML0 t = mc 0 t + mc 2 t + mc 1 t + mc 3 t + mc 5 t + mc 8 t + mc 9 t + mc 7 t + mc 14 t + mc 10 t + mc 12 t + mc 11 t + kap * ws mrest t.
Proof.
  rewrite (ws_split 15 ML0 t). unfold mrest. rewrite (ws_app [mw 4; mw 6; mw 13] (skipn 15 ML0) t : ws (mw 4 :: mw 6 :: mw 13 :: skipn 15 ML0) t = _). set (g := ws (skipn 15 ML0) t).
  change (firstn 15 ML0) with [mw 0; mw 1; mw 2; mw 3; mw 4; mw 5; mw 6; mw 7; mw 8; mw 9; mw 10; mw 11; mw 12; mw 13; mw 14].
  cbn [ws fold_right]. unfold mc. ring.
Qed.
Definition mean_rate : R := 8399.684730072 + 5028.792262 * (PI / 648000).
Definition poly_rho (T : Z) : R := 2 * IZR T * 3.319e-5 + 3 * IZR T ^ 2 * 3.11e-8 + 4 * IZR T ^ 3 * 2.033e-10 +
  (2 * IZR T * 1.1124406 + 3 * IZR T ^ 2 * 0.00007699 + 4 * IZR T ^ 3 * 0.000023479 + 5 * IZR T ^ 4 * 0.0000000178) / 206264.
Lemma pow_lip T k t t' c : Rabs t <= IZR T -> Rabs t' <= IZR T -> 0 <= c -> Rabs (c * (t' ^ k - t ^ k)) <= INR k * IZR T ^ (Nat.pred k) * c * Rabs (t' - t).
Proof. intros B B' C. rewrite Rabs_mult, (Rabs_pos_eq c) by exact C. pose proof (pow1 (IZR T) k t t' B B') as P. apply Rle_trans with (1 := Rmult_le_compat_l c _ _ C P). right. ring. Qed.
Lemma mean_step T t t' : (0 <= T <= 100)%Z -> Rabs t <= IZR T -> Rabs t' <= IZR T -> Rabs (moon_mean t' - moon_mean t - mean_rate * (t' - t)) <= poly_rho T * Rabs (t' - t).
Proof.
  intros HT B B'. unfold moon_mean, mean_rate.
  pose proof (pow_lip T 2 t t' 3.319e-5 B B' ltac:(decs; lra)) as A2. pose proof (pow_lip T 3 t t' 3.11e-8 B B' ltac:(decs; lra)) as A3. pose proof (pow_lip T 4 t t' 2.033e-10 B B' ltac:(decs; lra)) as A4.
  pose proof (pow_lip T 2 t t' 1.1124406 B B' ltac:(decs; lra)) as C2. pose proof (pow_lip T 3 t t' 0.00007699 B B' ltac:(decs; lra)) as C3. pose proof (pow_lip T 4 t t' 0.000023479 B B' ltac:(decs; lra)) as C4.
  pose proof (pow_lip T 5 t t' 0.0000000178 B B' ltac:(decs; lra)) as C5.
  assert (C := arcsec_le _ _ (diff_le _ _ _ _ (diff_le _ _ _ _ (sum_le _ _ _ _ C2 C3) C4) C5)). clear C2 C3 C4 C5.
  rewrite <- Rabs_Ropp in A2. assert (Q := sum_le _ _ _ _ (diff_le _ _ _ _ (sum_le _ _ _ _ A2 A3) A4) C).
  match type of Q with Rabs ?x <= _ => match goal with |- Rabs ?z <= _ => replace z with x by (unfold arcsec; field) end end.
  apply Rle_trans with (1 := Q). unfold poly_rho. right. cbn [INR Nat.pred]. unfold Rdiv. ring.
Qed.
Lemma late_step T t t' : (10 <= T <= 100)%Z -> Rabs t <= IZR T -> Rabs t' <= IZR T -> Rabs (late t' - late t) <= (1.43 + 0.108 * (IZR T - 10)) / 206264 * Rabs (t' - t) + 4.2e-6.
Proof.
  intros HT B B'. assert (T1 : 10 <= IZR T <= 100) by (split; apply IZR_le; lia). apply Rabs_le_inv in B. apply Rabs_le_inv in B'.
  assert (W : forall x x', 10 <= x <= IZR T -> 10 <= x' <= IZR T -> Rabs ((1.43 * (x' - 10) + 0.054 * (x' - 10) ^ 2) - (1.43 * (x - 10) + 0.054 * (x - 10) ^ 2)) <= (1.43 + 0.108 * (IZR T - 10)) * Rabs (x' - x)).
  { intros x x' X X'. replace ((1.43 * (x' - 10) + 0.054 * (x' - 10) ^ 2) - (1.43 * (x - 10) + 0.054 * (x - 10) ^ 2)) with ((1.43 + 0.054 * ((x' - 10) + (x - 10))) * (x' - x)) by (decs; field).
    apply prod_le; [|apply Rle_refl]. apply Rabs_le. decs. lra. }
  assert (P0 : 0 <= (1.43 + 0.108 * (IZR T - 10)) / 206264) by (decs; lra). pose proof (Rabs_pos (t' - t)) as PH.
  assert (P1 : 0 <= (1.43 + 0.108 * (IZR T - 10)) / 206264 * Rabs (t' - t)) by (apply Rmult_le_pos; assumption).
  assert (J : 0.866 / 206264 <= 4.2e-6) by (decs; lra).
  assert (One : forall x h, 10 < x <= IZR T -> Rabs (x - 10) <= h -> Rabs (arcsec (- 0.866 + 1.43 * (x - 10) + 0.054 * (x - 10) ^ 2)) <= (1.43 + 0.108 * (IZR T - 10)) / 206264 * h + 4.2e-6).
  { intros x h X Hh. assert (L : Rabs (1.43 * (x - 10) + 0.054 * (x - 10) ^ 2) <= (1.43 + 0.108 * (IZR T - 10)) * h).
    { pose proof (W 10 x ltac:(lra) ltac:(lra)) as Q. replace ((1.43 * (x - 10) + 0.054 * (x - 10) ^ 2) - (1.43 * (10 - 10) + 0.054 * (10 - 10) ^ 2)) with (1.43 * (x - 10) + 0.054 * (x - 10) ^ 2) in Q by ring.
      apply Rle_trans with (1 := Q). apply Rmult_le_compat_l; [decs; lra|exact Hh]. }
    assert (M : Rabs (- 0.866) <= 0.866) by (decs; apply Rabs_le; lra).
    assert (A := arcsec_le _ _ (sum_le _ _ _ _ M L)). replace (- 0.866 + 1.43 * (x - 10) + 0.054 * (x - 10) ^ 2) with (- 0.866 + (1.43 * (x - 10) + 0.054 * (x - 10) ^ 2)) by ring.
    apply Rle_trans with (1 := A). revert J. unfold Rdiv. lra. }
  unfold late. destruct (Rlt_dec 10 t') as [L'|L'], (Rlt_dec 10 t) as [L|L].
  - replace (arcsec (- 0.866 + 1.43 * (t' - 10) + 0.054 * (t' - 10) ^ 2) - arcsec (- 0.866 + 1.43 * (t - 10) + 0.054 * (t - 10) ^ 2)) with
      (arcsec ((1.43 * (t' - 10) + 0.054 * (t' - 10) ^ 2) - (1.43 * (t - 10) + 0.054 * (t - 10) ^ 2))) by (unfold arcsec; field).
    apply Rle_trans with (1 := arcsec_le _ _ (W t t' ltac:(lra) ltac:(lra))). revert P1. decs. lra.
  - rewrite Rminus_0_r. apply One; [lra|]. rewrite !Rabs_pos_eq by lra. lra.
  - rewrite Rminus_0_l, Rabs_Ropp. apply One; [lra|]. rewrite (Rabs_pos_eq (t - 10)), Rabs_minus_sym, Rabs_pos_eq by lra. lra.
  - rewrite Rminus_0_r, Rabs_R0. revert P1. decs. lra.
Qed.

(** how far the angle b + d t + e t^2 can be from the phase (less [off]) *)
Definition msup (T : Z) (w : wave) (off b d e : R) : R :=
  Rabs (IZR (wb w) / 100000000000 - off - b) + IZR T * Rabs (IZR (wd w) / 1000000000 - d) + IZR T ^ 2 * Rabs (IZR (we w) / 100000000000 - e) +
  IZR T ^ 3 * Rabs (IZR (wf w) / 1000000000000) + IZR T ^ 4 * Rabs (IZR (wg w) / 100000000000000).
Lemma msup_ok T w off b d e t : Rabs t <= IZR T -> Rabs (ph w t - off - (b + d * t + e * t ^ 2)) <= msup T w off b d e.
Proof.
  intros B. unfold ph, msup.
  replace (IZR (wb w) / 100000000000 + t * (IZR (wd w) / 1000000000) + t * t / 10000 * (IZR (we w) / 10000000) + t * t * t / 100000000 * (IZR (wf w) / 10000) + t * t * t * t / 100000000 * (IZR (wg w) / 1000000) - off - (b + d * t + e * t ^ 2))
    with ((IZR (wb w) / 100000000000 - off - b) + t * (IZR (wd w) / 1000000000 - d) + t ^ 2 * (IZR (we w) / 100000000000 - e) + t ^ 3 * (IZR (wf w) / 1000000000000) + t ^ 4 * (IZR (wg w) / 100000000000000)) by field.
  repeat apply sum_le; try apply Rle_refl; (apply prod_le; [|apply Rle_refl]); try (apply powk; exact B). exact B.
Qed.
Definition mq (b d e t : R) : R := b + d * t + e * t ^ 2.
(** number of the term, its coefficient in the speed, the angle *)
Definition speed_waves : list (nat * R * R * R * R * R) :=
  [(0%nat, 914, 0, 0.7848, 8328.691425, 0.0001523); (2%nat, 179, 0, 2.543, 15542.7543, 0); (1%nat, 160, 0, 0.1874, 7214.0629, 0); (3%nat, 62, 0, 3.14, 16657.3828, 0); (5%nat, 34, 0, 4.827, 16866.9323, 0); (8%nat, 22, 0, 4.9, 23871.4457, 0);
   (9%nat, 12, 0, 2.59, 14914.4523, 0); (7%nat, 7, 0, 0.23, 6585.7609, 0); (14%nat, 5, 0, 0.9, 25195.624, 0); (10%nat, 5, PI, 2.32, -7700.3895, 0); (12%nat, 5, 0, 3.88, 8956.9934, 0); (11%nat, 5, 0, 0.49, 7771.3771, 0)].
Definition sg (i : nat) : R := if Nat.eqb i 10 then -1 else 1.
Definition mA (i : nat) : R := kap * IZR (wa (mw i)).
Definition sp (x : nat * R * R * R * R * R) (t : R) : R := let '(i, c, off, b, d, e) := x in c * sin (mq b d e t).
Definition se (x : nat * R * R * R * R * R) (t : R) : R := let '(i, c, off, b, d, e) := x in mc i t.
Definition s_rho (T : Z) (x : nat * R * R * R * R * R) : R := let '(i, c, off, b, d, e) := x in item_rho T 0 (mw i) (mA i) c (sg i) (msup T (mw i) off b d e).
Definition s_K (T : Z) (x : nat * R * R * R * R * R) : R := let '(i, c, off, b, d, e) := x in item_K T 0 (mw i) (mA i).
Definition total (f : nat * R * R * R * R * R -> R) (l : list (nat * R * R * R * R * R)) : R := fold_right (fun x s => f x + s) 0 l.
Lemma speed_is t : moon_speed t = 8399.71 - total (fun x => sp x t) speed_waves.
Proof.
  unfold moon_speed, moon_speed_terms, speed_waves, total, sp, mq. cbn [map sum fold_right].
  repeat match goal with |- context [?a + ?b * t + 0 * t ^ 2] => replace (a + b * t + 0 * t ^ 2) with (a + b * t) by ring end. ring.
Qed.
Lemma series_is t : kap * ws ML0 t = total (fun x => se x t) speed_waves + kap * ws mrest t.
Proof. rewrite ml0. unfold total, speed_waves, se. cbn [fold_right]. ring. Qed.
Lemma one_step T x t t' : (0 <= T)%Z -> Rabs t <= IZR T -> Rabs t' <= IZR T -> In x speed_waves -> Rabs (se x t' - se x t + (t' - t) * sp x t) <= s_rho T x * Rabs (t' - t) + s_K T x * (t' - t) ^ 2.
Proof.
  intros T0 B B' I. assert (G : let '(i, c, off, b, d, e) := x in off = 0 /\ sg i = 1 \/ off = PI /\ sg i = -1).
  { cbn [speed_waves In] in I. repeat (destruct I as [<-|I]; [first [left; split; reflexivity|right; split; reflexivity]|]). destruct I. }
  destruct x as [[[[[i c] off] b] d] e]. unfold se, sp, s_rho, s_K.
  assert (SU : Rabs (sg i * sin (ph (mw i) t) - sin (mq b d e t)) <= msup T (mw i) off b d e).
  { pose proof (msup_ok T (mw i) off b d e t B) as M. fold (mq b d e t) in M. destruct G as [[G1 G2]|[G1 G2]]; rewrite G2; subst off.
    - apply Rle_trans with (1 := same_angle _ _). rewrite Rminus_0_r in M. exact M.
    - apply Rle_trans with (1 := minus_pi _ _). exact M. }
  assert (SG : sg i = 1 \/ sg i = -1) by (unfold sg; destruct (Nat.eqb i 10); auto).
  pose proof (pitem T 0 (mw i) t t' (mA i) c _ (sg i) _ T0 B B' SG SU) as P. rewrite !pow_O, !Rmult_1_l in P. unfold mc, mA in *. exact P.
Qed.
Lemma all_steps T l t t' : (0 <= T)%Z -> Rabs t <= IZR T -> Rabs t' <= IZR T -> (forall x, In x l -> In x speed_waves) ->
  Rabs (total (fun x => se x t') l - total (fun x => se x t) l + (t' - t) * total (fun x => sp x t) l) <= total (s_rho T) l * Rabs (t' - t) + total (s_K T) l * (t' - t) ^ 2.
Proof.
  intros T0 B B'. induction l as [|x l IH]; intros I; cbn [total fold_right].
  - rewrite Rminus_0_r, Rmult_0_r, Rplus_0_r, Rabs_R0, !Rmult_0_l, Rplus_0_r. apply Rle_refl.
  - specialize (IH (fun y Y => I y (or_intror Y))). pose proof (one_step T x t t' T0 B B' (I x (or_introl eq_refl))) as P.
    fold (total (fun x => se x t') l) (total (fun x => se x t) l) (total (fun x => sp x t) l) (total (s_rho T) l) (total (s_K T) l).
    replace (se x t' + total (fun x => se x t') l - (se x t + total (fun x => se x t) l) + (t' - t) * (sp x t + total (fun x => sp x t) l)) with
      ((se x t' - se x t + (t' - t) * sp x t) + (total (fun x => se x t') l - total (fun x => se x t) l + (t' - t) * total (fun x => sp x t) l)) by ring.
    apply Rle_trans with (1 := sum_le _ _ _ _ P IH). right. ring.
Qed.
Definition moon_rho (T : Z) : R := total (s_rho T) speed_waves + kap * (group_rho T 0 mrest + group_rho T 1 ML1 + group_rho T 2 ML2 + group_rho T 3 ML3) + poly_rho T + (1.43 + 0.108 * (IZR T - 10)) / 206264 + 0.0009.
Definition moon_K (T : Z) : R := total (s_K T) speed_waves.
Lemma moon_full_is t : moon_full t = moon_mean t + late t + (kap * ws ML0 t + kap * (t * ws ML1 t) + kap * (t ^ 2 * ws ML2 t) + kap * (t ^ 3 * ws ML3 t)).
Proof.
  change (moon_full t) with (moon_mean t + late t + arcsec ((ws ML0 t + t * ws ML1 t + t ^ 2 * ws ML2 t + t ^ 3 * ws ML3 t) / 100000000)). unfold arcsec, kap. field.
Qed.
Lemma moon_step T t t' : (10 <= T <= 100)%Z -> Rabs t <= IZR T -> Rabs t' <= IZR T ->
  Rabs (moon_full t' - moon_full t - moon_speed t * (t' - t)) <= moon_rho T * Rabs (t' - t) + moon_K T * (t' - t) ^ 2 + 4.2e-6.
Proof.
  intros HT B B'. assert (T0 : (0 <= T)%Z) by lia. rewrite !moon_full_is, !series_is, speed_is.
  pose proof (all_steps T speed_waves t t' T0 B B' (fun x X => X)) as A. pose proof (mean_step T t t' ltac:(lia) B B') as M. pose proof (late_step T t t' HT B B') as L.
  pose proof kap_range as KR. assert (KP : Rabs kap <= kap) by (rewrite Rabs_pos_eq; [apply Rle_refl|revert KR; decs; lra]).
  pose proof (prod_le _ _ _ _ KP (pows_lip T 0 mrest t t' T0 B B')) as G0. pose proof (prod_le _ _ _ _ KP (pows_lip T 1 ML1 t t' T0 B B')) as G1.
  pose proof (prod_le _ _ _ _ KP (pows_lip T 2 ML2 t t' T0 B B')) as G2. pose proof (prod_le _ _ _ _ KP (pows_lip T 3 ML3 t t' T0 B B')) as G3.
  fold (group_rho T 0 mrest) in G0. fold (group_rho T 1 ML1) in G1. fold (group_rho T 2 ML2) in G2. fold (group_rho T 3 ML3) in G3.
  rewrite !pow_O, !Rmult_1_l in G0. rewrite !pow_1 in G1. fold (moon_K T) in A.
  assert (D : Rabs ((mean_rate - 8399.71) * (t' - t)) <= 0.0009 * Rabs (t' - t)).
  { apply prod_le; [|apply Rle_refl]. unfold mean_rate. pose proof PI_bounds as P. revert P. decs. intros P. apply Rabs_le. lra. }
  assert (Q := sum_le _ _ _ _ (sum_le _ _ _ _ (sum_le _ _ _ _ (sum_le _ _ _ _ A (sum_le _ _ _ _ (sum_le _ _ _ _ (sum_le _ _ _ _ G0 G1) G2) G3)) M) L) D).
  match type of Q with Rabs ?x <= _ => match goal with |- Rabs ?z <= _ => replace z with x by ring end end.
  apply Rle_trans with (1 := Q). unfold moon_rho. right. ring.
Qed.
Ltac fields :=
  unfold total, speed_waves, s_rho, s_K, sg, mA, msup; cbn [fold_right Nat.eqb];
  unfold item_rho, item_K, group_rho;
  repeat match goal with |- context [amp ?l] => let v := eval vm_compute in (amp l) in change (amp l) with v end;
  repeat match goal with |- context [lip ?T ?l] => let v := eval vm_compute in (lip T l) in change (lip T l) with v end;
  repeat match goal with |- context [(sz ?T ?w - ?x)%Z] => let v := eval vm_compute in (sz T w - x)%Z in change (sz T w - x)%Z with v end;
  repeat match goal with |- context [sz ?T ?w] => let v := eval vm_compute in (sz T w) in change (sz T w) with v end;
  repeat match goal with |- context [wa ?w] => let v := eval vm_compute in (wa w) in change (wa w) with v end;
  repeat match goal with |- context [wb ?w] => let v := eval vm_compute in (wb w) in change (wb w) with v end;
  repeat match goal with |- context [wd ?w] => let v := eval vm_compute in (wd w) in change (wd w) with v end;
  repeat match goal with |- context [we ?w] => let v := eval vm_compute in (we w) in change (we w) with v end;
  repeat match goal with |- context [wf ?w] => let v := eval vm_compute in (wf w) in change (wf w) with v end;
  repeat match goal with |- context [wg ?w] => let v := eval vm_compute in (wg w) in change (wg w) with v end;
  cbn [pow INR Nat.pred]; pose proof kap_range as KR; pose proof PI_bounds as PB; revert KR PB; generalize kap; intro kap; decs; intros KR PB;
  repeat match goal with |- context [Rabs ?x] => first [rewrite (Rabs_pos_eq x) by lra|rewrite (Rabs_left1 x) by lra] end.
Lemma moon_rho20 : moon_rho 20 <= 78.2. Proof. unfold moon_rho, poly_rho. fields. lra. Qed.
Lemma moon_K20 : moon_K 20 <= 7080200. Proof. unfold moon_K. fields. lra. Qed.
Lemma moon_rho60 : moon_rho 60 <= 412.9. Proof. unfold moon_rho, poly_rho. fields. lra. Qed.
Lemma moon_K60 : moon_K 60 <= 7080200. Proof. unfold moon_K. fields. lra. Qed.
