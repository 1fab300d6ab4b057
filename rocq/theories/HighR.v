(** Common part of qi_high and so_high: the quick moment is kept when it is far from midnight, otherwise the accurate one is taken. *)
From Coq Require Import ZArith Reals Lia Lra Bool List.
From Coq Require Import Floats.SpecFloat.
From Flocq Require Import Core IEEE754.BinarySingleNaN.
From Verif Require Import F64 F64R F64T F64E AngModel AngProps PiBound FormProps WaveR DtModel DtSpec DtProof DtProps SmModel SmProps SmSun SmNewton ErrExpr.
Import ListNotations.
Open Scope R_scope.

Lemma cubic_abs c tau : Rabs tau <= 10 -> Rabs (cubic c tau) <= (let '(_, c0, c1, c2, c3) := c in IZR (Z.abs c0 + 10 * Z.abs c1 + 100 * Z.abs c2 + 1000 * Z.abs c3)) / 10000.
Proof.
  intros B. destruct c as [[[[b c0] c1] c2] c3]. unfold cubic. rewrite !plus_IZR, !mult_IZR, !abs_IZR.
  apply Rle_trans with ((Rabs (IZR c0) + Rabs (IZR c1) * 10 + Rabs (IZR c2) * 10 ^ 2 + Rabs (IZR c3) * 10 ^ 3) * / 10000); [|lra].
  apply prod_le; [|rewrite Rabs_pos_eq; lra]. repeat apply sum_le; try (apply prod_le); try apply Rle_refl; try assumption; apply powk, B.
Qed.
Lemma table_abs y : -7000 <= y -> y < 2028 -> Rabs (in_table rows y) <= 280000.
Proof.
  intros L U. unfold rows. cbn [in_table next_first first_year].
  repeat match goal with |- context [Rlt_dec y ?b] => destruct (Rlt_dec y b); [match goal with |- Rabs (cubic ?c ?t) <= _ => apply Rle_trans with (1 := cubic_abs c t ltac:(apply Rabs_le; lra)); cbn -[IZR]; lra end|] end; lra.
Qed.
Lemma sq_le x m : 0 <= m -> Rabs x <= m -> 0 <= x ^ 2 <= m ^ 2.
Proof. intros H B. split; [apply pow2_ge_0|]. rewrite <- pow2_abs. apply pow_incr. split; [apply Rabs_pos|exact B]. Qed.
Lemma delta_T_abs y : -7000 <= y <= 5200 -> Rabs (delta_T y) <= 280000.
Proof.
  intros B. unfold delta_T. destruct (Rlt_dec y 2028); [apply table_abs; lra|].
  assert (P : -20 <= parabola y <= 280000 - 200000). { unfold parabola. pose proof (sq_le ((y - 1820) / 100) 34 ltac:(lra) ltac:(apply Rabs_le; lra)). lra. }
  assert (P2 : 113 <= parabola 2028 <= 115) by (unfold parabola; lra).
  destruct (Rle_dec y 2128); apply Rabs_le; [|lra].
  assert (0 <= (parabola 2028 - 726 / 10) * (2128 - y) / 100 <= 43 * 100 / 100).
  { unfold Rdiv. split; [apply Rmult_le_pos; [apply Rmult_le_pos|]; lra|]. apply Rmult_le_compat_r; [lra|]. apply Rmult_le_compat; lra. } lra.
Qed.

(** days in Beijing time of the moment x centuries after J2000, Delta T being taken at the date y *)
Definition civil (x y : R) : R := 36525 * x - delta_T y / 86400 + 1 / 3.

Section Lib.
Variables fsin fcos : f64 -> f64.
Hypothesis Gs : good_lib fsin sin.
Hypothesis Gc : good_lib fcos cos.
Ltac formula xs E :=
  lazymatch goal with |- ok ?F /\ Rabs (R64 ?F - ?r) <= IZR ?n * U =>
    let e := reify fsin fcos xs F in apply (formula_ok fsin fcos Gs Gc _ _ _ e F r n E); [cbn [evF nth]; reflexivity| |vm_compute; reflexivity]; cbn [evR nth]; decs; field end.
(** t - dt + 8/24 *)
Lemma shift_near t d r y e : ok t -> ok d -> Rabs r <= 5000000 -> Rabs (R64 t - r) <= e -> e <= 1000 -> Rabs (R64 d - delta_T y / 86400) <= / 10000000000 -> Rabs (delta_T y) <= 280000 ->
  ok (fadd (fsub t d) (fdiv (fZ 8) (fZ 24))) /\ Rabs (R64 (fadd (fsub t d) (fdiv (fZ 8) (fZ 24))) - (r - delta_T y / 86400 + 1 / 3)) <= e + 1e-8.
Proof.
  intros Ot Od Br Dt De Dd Dy. assert (Bt : Rabs (R64 t) <= 5002000). { replace (R64 t) with (r + (R64 t - r)) by ring. apply Rle_trans with (1 := sum_le _ _ _ _ Br Dt). lra. }
  assert (Bd : Rabs (R64 d) <= 4). { replace (R64 d) with (delta_T y / 86400 + (R64 d - delta_T y / 86400)) by ring. apply Rle_trans with (1 := Rabs_triang _ _). unfold Rdiv. rewrite Rabs_mult, (Rabs_pos_eq (/ 86400)) by lra. fold (delta_T y / 86400). lra. }
  assert (E : env_ok [t; d] [R64 t; R64 d] [given 5002000; given 4]) by (constructor; [apply given_ok; assumption|constructor; [apply given_ok; assumption|constructor]]).
  set (F := fadd (fsub t d) (fdiv (fZ 8) (fZ 24))).
  assert (H : ok F /\ Rabs (R64 F - (R64 t - R64 d + 1 / 3)) <= IZR 10141204801825835211973 * U) by (unfold F; formula [t; d] E).
  destruct H as [O D]. split; [exact O|].
  replace (R64 F - (r - delta_T y / 86400 + 1 / 3)) with ((R64 t - r) + (R64 F - (R64 t - R64 d + 1 / 3)) - (R64 d - delta_T y / 86400)) by ring.
  apply Rle_trans with (1 := diff_le _ _ _ _ (sum_le _ _ _ _ Dt D) Dd). unfold U, one. decs. lra.
Qed.
Lemma days_near q : ok q -> Rabs (R64 q) <= 100 -> ok (fmul q (fZ 36525)) /\ Rabs (R64 (fmul q (fZ 36525)) - 36525 * R64 q) <= 1e-8.
Proof.
  intros O B. assert (E : env_ok [q] [R64 q] [given 100]) by (constructor; [apply given_ok; assumption|constructor]).
  set (F := fmul q (fZ 36525)). assert (H : ok F /\ Rabs (R64 F - (36525 * R64 q)) <= IZR 12676506002282294014967 * U) by (unfold F; formula [q] E).
  destruct H as [Of D]. split; [exact Of|]. apply Rle_trans with (1 := D). unfold U, one. decs. lra.
Qed.
Lemma half_near t : ok t -> Rabs (R64 t) <= 5000000 -> ok (fadd t (lit 5 10)) /\ Rabs (R64 (fadd t (lit 5 10)) - (R64 t + 1 / 2)) <= 1e-9.
Proof.
  intros O B. assert (E : env_ok [t] [R64 t] [given 5000000]) by (constructor; [apply given_ok; assumption|constructor]).
  set (F := fadd t (lit 5 10)). assert (H : ok F /\ Rabs (R64 F - (R64 t + 1 / 2)) <= IZR 1267650600228229401496 * U) by (unfold F; formula [t] E).
  destruct H as [Of D]. split; [exact Of|]. apply Rle_trans with (1 := D). unfold U, one. decs. lra.
Qed.
Lemma seconds_near m : ok m -> Rabs (R64 m) <= 1 -> ok (fmul m (fZ 86400)) /\ Rabs (R64 (fmul m (fZ 86400)) - 86400 * R64 m) <= 1e-8.
Proof.
  intros O B. assert (E : env_ok [m] [R64 m] [given 1]) by (constructor; [apply given_ok; assumption|constructor]).
  set (F := fmul m (fZ 86400)). assert (H : ok F /\ Rabs (R64 F - (86400 * R64 m)) <= IZR 12676506002282294014967 * U) by (unfold F; formula [m] E).
  destruct H as [Of D]. split; [exact Of|]. apply Rle_trans with (1 := D). unfold U, one. decs. lra.
Qed.
Lemma floor_is x d : ok x -> -5000000 <= R64 x <= 5000000 -> IZR d <= R64 x < IZR d + 1 -> cast_int (ffloor x) = Some d.
Proof.
  intros O B H. destruct (ffloor_ok x O) as [Of Vf]. assert (E : Zfloor (R64 x) = d) by (apply Zfloor_imp; rewrite plus_IZR; exact H).
  rewrite (cast_int_ok _ Of), Vf, E, Ztrunc_IZR. apply mk_int_in. unfold int_min, int_max.
  assert (-5000002 < d < 5000001)%Z by (split; apply lt_IZR; lra). lia.
Qed.
Lemma floor_day v d : ok v -> Rabs (R64 v) <= 4000000 -> IZR d + 2e-9 <= R64 v + 1 / 2 <= IZR d + 1 - 2e-9 -> cast_int (ffloor (fadd v (lit 5 10))) = Some d.
Proof.
  intros O B H. destruct (half_near v O ltac:(lra)) as [Oh Dh]. revert Dh H. decs. intros Dh H. apply Rabs_le_inv in Dh. apply Rabs_le_inv in B. apply floor_is; [exact Oh|lra|lra].
Qed.
Lemma floor_inv x d : ok x -> -5000000 <= R64 x <= 5000000 -> cast_int (ffloor x) = Some d -> IZR d <= R64 x < IZR d + 1.
Proof.
  intros O B H. pose proof (Zfloor_lb (R64 x)) as L1. pose proof (Zfloor_ub (R64 x)) as L2.
  rewrite (floor_is x (Zfloor (R64 x)) O B (conj L1 L2)) in H. injection H as <-. now split.
Qed.
Lemma yr x : x / (3652425 / 10000) = x * (10000 / 3652425).
Proof. field. Qed.
(** the moment r is sought; [Qs] and [As] bound the errors of the quick and the accurate search in seconds *)
Lemma high_day quick accurate qf af margin r Qs As delta : quick = Some qf -> ok qf -> accurate = Some af -> ok af -> (1 <= margin <= 43200)%Z -> -85 <= r <= 31 ->
  Rabs (R64 qf - r) <= / 36525 -> Rabs (R64 af - r) <= As / (36525 * 86400) -> 0 <= As <= 40000 -> As + 0.01 <= delta ->
  (R64 qf <= -0.001 \/ Rabs (R64 qf - r) <= Qs / (36525 * 86400) /\ Qs + 0.01 <= delta + IZR margin) ->
  exists v y, high quick accurate margin = Some v /\ ok v /\ Rabs (365.2425 * (y - 2000) - 36525 * r) <= 6 /\ Rabs (R64 v - civil r y) <= 1.1 /\
    forall d, cast_int (ffloor (fadd v (lit 5 10))) = Some d -> IZR d - delta / 86400 < civil r y + 1 / 2 < IZR d + 1 + delta / 86400.
Proof.
  intros -> Oq -> Oa Hm Br Dq Da HA HD Alt. unfold high. cbn [obind].
  assert (Bq : Rabs (R64 qf) <= 100). { apply Rabs_le_inv in Dq. apply Rabs_le. lra. }
  assert (Ba : Rabs (R64 af) <= 100). { apply Rabs_le_inv in Da. assert (As / (36525 * 86400) <= 40000 / (36525 * 86400)) by (unfold Rdiv; apply Rmult_le_compat_r; lra). apply Rabs_le. lra. }
  destruct (days_near qf Oq Bq) as [Ot Dt]. destruct (days_near af Oa Ba) as [Oat Dat].
  set (t := fmul qf (fZ 36525)) in *. clearbody t. set (at_ := fmul af (fZ 36525)) in *. clearbody at_.
  revert Dt Dat. decs. intros Dt Dat.
  assert (Dt' : Rabs (R64 t - 36525 * r) <= 1.00000001). { replace (R64 t - 36525 * r) with ((R64 t - 36525 * R64 qf) + 36525 * (R64 qf - r)) by ring. apply Rle_trans with (1 := sum_le _ _ _ _ Dt (prod_le _ _ _ _ (Rle_refl _) Dq)). rewrite Rabs_pos_eq by lra. decs. lra. }
  revert Dt'. decs. intros Dt'. assert (Br' : Rabs (36525 * r) <= 3104625) by (apply Rabs_le; lra).
  destruct (C32_dt_T t Ot) as (d & y & Ed & Od & Dy & Dd). { apply Rabs_le_inv in Dt'. lra. }
  rewrite yr in Dy. rewrite Ed. cbn [obind]. assert (By : -7000 <= y <= 5200). { apply Rabs_le_inv in Dy. apply Rabs_le_inv in Dt'. lra. }
  destruct (shift_near t d (36525 * r) y _ Ot Od ltac:(lra) Dt' ltac:(lra) Dd (delta_T_abs y By)) as [Ox Dx].
  set (x := fadd (fsub t d) (fdiv (fZ 8) (fZ 24))) in *.
  assert (DTy := delta_T_abs y By). assert (Dx' : Rabs (R64 x - 36525 * r) <= 5).
  { replace (R64 x - 36525 * r) with ((R64 x - (36525 * r - delta_T y / 86400 + 1 / 3)) + (1 / 3 - delta_T y * / 86400)) by (unfold Rdiv; ring).
    apply Rle_trans with (1 := sum_le _ _ _ _ Dx (diff_le _ _ _ _ (Rle_refl (Rabs (1 / 3))) (prod_le _ _ _ _ DTy (Rle_refl _)))). rewrite !Rabs_pos_eq by lra. decs. lra. }
  assert (Bx : Rabs (R64 x) <= 3104630). { replace (R64 x) with (36525 * r + (R64 x - 36525 * r)) by ring. apply Rle_trans with (1 := sum_le _ _ _ _ Br' Dx'). lra. }
  destruct (half_near x Ox ltac:(lra)) as [Oz Dz]. set (z := fadd x (lit 5 10)) in *.
  destruct (fZ_ok 1 ltac:(lia)) as [O1 E1]. destruct (dfmod_exact z (fZ 1) Oz O1 ltac:(rewrite E1; lra)) as (Om & (k & Ek) & Bm & Sm). rewrite E1 in *. rewrite Rmult_1_r in Ek.
  set (m := dfmod z (fZ 1)) in *. assert (Bm' : Rabs (R64 m) <= 1) by lra. destruct (seconds_near m Om Bm') as [Ov Dv]. set (w := fmul m (fZ 86400)) in *.
  destruct (fZ_ok margin ltac:(lia)) as [Og Eg]. destruct (fZ_ok (86400 - margin) ltac:(lia)) as [Oh Eh]. change (fgtb w (fZ (86400 - margin))) with (fltb (fZ (86400 - margin)) w).
  rewrite (fltb_ok _ _ Ov Og), (fltb_ok _ _ Oh Ov), Eg, Eh, minus_IZR. assert (Mg : 1 <= IZR margin <= 43200) by (split; apply IZR_le; lia).
  revert Dv Dz. decs. intros Dv Dz. revert HD. decs. intros HD. revert Alt. decs. intros Alt.
  destruct (Rlt_bool (R64 w) (IZR margin) || Rlt_bool (86400 - IZR margin) (R64 w)) eqn:C.
  - (* the accurate moment *)
    destruct (C32_dt_T x Ox) as (d' & y' & Ed' & Od' & Dy' & Dd'). { apply Rabs_le_inv in Bx. lra. }
    rewrite yr in Dy'. rewrite Ed'. cbn [obind]. apply Rabs_le_inv in Dx'. assert (By' : -7000 <= y' <= 5200) by (apply Rabs_le_inv in Dy'; lra).
    assert (Dat' : Rabs (R64 at_ - 36525 * r) <= As / 86400 + 1 / 100000000).
    { replace (R64 at_ - 36525 * r) with (36525 * (R64 af - r) + (R64 at_ - 36525 * R64 af)) by ring. apply Rle_trans with (1 := sum_le _ _ _ _ (prod_le _ _ _ _ (Rle_refl _) Da) Dat). rewrite Rabs_pos_eq by lra. lra. }
    destruct (shift_near at_ d' (36525 * r) y' _ Oat Od' ltac:(lra) Dat' ltac:(lra) Dd' (delta_T_abs y' By')) as [OV DV].
    set (V := fadd (fsub at_ d') (fdiv (fZ 8) (fZ 24))) in *. revert DV. decs. intros DV. fold (civil r y') in DV.
    assert (CV : Rabs (civil r y') <= 3104635).
    { unfold civil. apply Rle_trans with (3104625 + 280000 * / 86400 + 1 / 3); [|lra]. apply sum_le; [apply diff_le; [exact Br'|apply prod_le; [apply delta_T_abs, By'|rewrite Rabs_pos_eq; lra]]|rewrite Rabs_pos_eq; lra]. }
    exists V, y'. apply Rabs_le_inv in Dy'. apply Rabs_le_inv in DV. apply Rabs_le_inv in CV. split; [reflexivity|]. split; [exact OV|]. split; [apply Rabs_le; lra|]. split; [apply Rabs_le; lra|].
    intros n Hn. destruct (half_near V OV ltac:(apply Rabs_le; lra)) as [OVh DVh]. revert DVh. decs. intros DVh. apply Rabs_le_inv in DVh.
    apply floor_inv in Hn; [lra|exact OVh|lra].
  - (* the quick moment *)
    apply orb_false_iff in C. destruct C as [C1 C2]. destruct (Rlt_bool_spec (R64 w) (IZR margin)) as [|C1']; [discriminate|]. destruct (Rlt_bool_spec (86400 - IZR margin) (R64 w)) as [|C2']; [discriminate|]. clear C1 C2.
    apply Rabs_le_inv in Dv. apply Rabs_le_inv in Dz. assert (M0 : 0 < R64 m) by lra. apply Rabs_lt_inv in Bm.
    assert (Z0 : 0 <= R64 z) by (apply Rmult_le_reg_l with (R64 m); lra).
    destruct Alt as [Ng|[Dq' HQ]].
    { exfalso. apply Rabs_le_inv in Dt. apply Rabs_le_inv in Dx'. apply Rabs_le_inv in Dq. lra. }
    exists x, y. fold (civil r y) in Dx.
    assert (Dx2 : Rabs (R64 x - civil r y) <= Qs / 86400 + 2 / 100000000).
    { assert (Dt2 : Rabs (R64 t - 36525 * r) <= Qs / 86400 + 1 / 100000000).
      { replace (R64 t - 36525 * r) with (36525 * (R64 qf - r) + (R64 t - 36525 * R64 qf)) by ring. apply Rle_trans with (1 := sum_le _ _ _ _ (prod_le _ _ _ _ (Rle_refl _) Dq') Dt). rewrite Rabs_pos_eq by lra. lra. }
      destruct (Rle_or_lt (Qs / 86400) 900) as [L|L].
      - destruct (shift_near t d (36525 * r) y _ Ot Od ltac:(lra) Dt2 ltac:(lra) Dd DTy) as [_ Dx2]. fold x in Dx2. fold (civil r y) in Dx2. revert Dx2. decs. intros Dx2. lra.
      - revert Dx. decs. intros Dx. lra. }
    apply Rabs_le_inv in Dy. apply Rabs_le_inv in Dt'. revert Dx. decs. intros Dx. apply Rabs_le_inv in Dx. apply Rabs_le_inv in Dx2.
    split; [reflexivity|]. split; [exact Ox|]. split; [apply Rabs_le; lra|]. split; [apply Rabs_le; lra|].
    intros n Hn. fold z in Hn. apply Rabs_le_inv in Bx. apply floor_inv in Hn; [|exact Oz|lra].
    assert (K : (k = n)%Z).
    { assert (L1 : IZR k < IZR n + 1) by lra. assert (L2 : IZR n < IZR k + 1) by lra. rewrite <- plus_IZR in L1, L2. apply lt_IZR in L1. apply lt_IZR in L2. lia. }
    subst n. lra.
Qed.
End Lib.
