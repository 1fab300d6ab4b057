(** One step of the search in doubles, and the parts common to the Sun and the Moon. *)
From Coq Require Import ZArith Reals Lia Lra Bool List.
From Coq Require Import Floats.SpecFloat.
From Flocq Require Import Core IEEE754.BinarySingleNaN.
From Verif Require Import F64 F64R F64T F64E PiBound FormProps WaveR.
Open Scope R_scope.

Lemma big_ok x : Rabs x <= 1000000000000 -> Rabs x <= bpow radix2 1000.
Proof. intros H. apply Rle_trans with (1 := H). apply Rle_trans with (2 := big_1000). unfold big. lra. Qed.
(** t' = t + (W - L) / v, v near V *)
Lemma newton t W L v V : ok t -> ok W -> ok L -> ok v -> Rabs (R64 t) <= 100 -> Rabs (R64 W - R64 L) <= 1 -> Rabs (R64 v - V) <= 1e-6 -> 500 <= V <= 10000 ->
  let t' := fadd t (fdiv (fsub W L) v) in
  ok t' /\ Rabs (V * (R64 t' - R64 t) - (R64 W - R64 L)) <= 3e-9.
Proof.
  intros Ot OW OL Ov Bt BW Bv BV t'. set (x := R64 W - R64 L) in *. unfold t'.
  destruct (fsub_ok W L OW OL) as [Ox Ex]; [apply big_ok; fold x; lra|]. fold x in Ex.
  pose proof (rnd_rel x) as E1. rewrite <- Ex in E1. set (xf := R64 (fsub W L)) in *.
  apply Rabs_le_inv in Bv. revert Bv. decs. intros Bv.
  assert (Vp : 499 <= R64 v <= 10001) by lra.
  assert (U0 : 0 < u53) by (unfold u53; lra). assert (UU : u53 <= 1.2e-16) by (unfold u53; decs; lra). assert (T0 : 0 < tiny <= 1e-50) by (unfold tiny; decs; lra).
  assert (Bx : Rabs xf <= 1.1). { replace xf with (x + (xf - x)) by ring. apply Rle_trans with (1 := Rabs_triang _ _). assert (Rabs x * u53 <= 1 * u53) by (apply Rmult_le_compat_r; lra). revert UU T0. decs. lra. }
  set (q := xf / R64 v). assert (Bq : Rabs q <= 0.0023).
  { unfold q, Rdiv. rewrite Rabs_mult. assert (Rabs (/ R64 v) <= / 499) by (rewrite Rabs_pos_eq; [apply Rinv_le; lra|apply Rlt_le, Rinv_0_lt_compat; lra]).
    apply Rle_trans with (1.1 * / 499); [apply Rmult_le_compat; auto using Rabs_pos|]. decs. lra. }
  destruct (fdiv_ok (fsub W L) v Ox Ov) as [Oq Eq]; [lra|fold xf; fold q; apply big_ok; revert Bq; decs; lra|]. fold xf in Eq. fold q in Eq.
  pose proof (rnd_rel q) as E2. rewrite <- Eq in E2. set (qf := R64 (fdiv (fsub W L) v)) in *.
  assert (Dq : Rabs (qf - q) <= 1e-17). { assert (Rabs q * u53 <= 0.0023 * 1.2e-16) by (apply Rmult_le_compat; auto using Rabs_pos; lra). revert Bq T0 H. decs. lra. }
  assert (Bqf : Rabs qf <= 0.0024). { replace qf with (q + (qf - q)) by ring. apply Rle_trans with (1 := Rabs_triang _ _). revert Bq Dq. decs. lra. }
  assert (Bs : Rabs (R64 t + qf) <= 101) by (apply Rle_trans with (1 := Rabs_triang _ _); revert Bqf; decs; lra).
  destruct (fadd_ok t (fdiv (fsub W L) v) Ot Oq) as [O' E']; [fold qf; apply big_ok; lra|]. fold qf in E'.
  split; [exact O'|]. pose proof (rnd_rel (R64 t + qf)) as E3. rewrite <- E' in E3. set (tf := R64 (fadd t (fdiv (fsub W L) v))) in *.
  assert (D3 : Rabs (tf - (R64 t + qf)) <= 1.3e-14). { assert (Rabs (R64 t + qf) * u53 <= 101 * 1.2e-16) by (apply Rmult_le_compat; auto using Rabs_pos; lra). revert T0 H. decs. lra. }
  assert (D1 : Rabs (xf - x) <= 1.3e-16). { assert (Rabs x * u53 <= 1 * 1.2e-16) by (apply Rmult_le_compat; auto using Rabs_pos; lra). revert T0 H. decs. lra. }
  replace (V * (tf - R64 t) - x) with (V * (tf - (R64 t + qf)) + (V * (qf - q) + ((V - R64 v) * q + (xf - x)))) by (unfold q; field; lra).
  assert (V1 : Rabs V <= 10000) by (rewrite Rabs_pos_eq; lra).
  assert (V2 : Rabs (V - R64 v) <= 1e-6) by (decs; apply Rabs_le; lra).
  apply Rle_trans with (1 := sum_le _ _ _ _ (prod_le _ _ _ _ V1 D3) (sum_le _ _ _ _ (prod_le _ _ _ _ V1 Dq) (sum_le _ _ _ _ (prod_le _ _ _ _ V2 Bq) D1))). decs. lra.
Qed.
(** what a step does to the residual of a function f whose rate of change is near V: L is the value used for f *)
Lemma residual f t t' W L V rho K err a : Rabs (f t' - f t - V * (t' - t)) <= rho * Rabs (t' - t) + K * (t' - t) ^ 2 + a -> 0 < V -> 0 <= rho -> 0 <= K ->
  Rabs (V * (t' - t) - (W - L)) <= 3e-9 -> Rabs (L - f t) <= err ->
  forall h, Rabs (W - L) + 3e-9 <= V * h -> Rabs (t' - t) <= h /\ Rabs (W - f t') <= err + rho * h + K * h ^ 2 + a + 3e-9.
Proof.
  intros H V0 R0 K0 N E h Hh. assert (Bh : Rabs (t' - t) <= h).
  { apply Rmult_le_reg_l with V; [exact V0|]. rewrite <- (Rabs_pos_eq V) at 1 by lra. rewrite <- Rabs_mult. replace (V * (t' - t)) with ((V * (t' - t) - (W - L)) + (W - L)) by ring.
    apply Rle_trans with (1 := Rabs_triang _ _). lra. }
  split; [exact Bh|]. replace (W - f t') with ((L - f t) + - (f t' - f t - V * (t' - t)) + - (V * (t' - t) - (W - L))) by ring.
  assert (H' : Rabs (- (f t' - f t - V * (t' - t))) <= rho * h + K * h ^ 2 + a).
  { rewrite Rabs_Ropp. apply Rle_trans with (1 := H). assert (rho * Rabs (t' - t) <= rho * h) by (apply Rmult_le_compat_l; assumption).
    assert (K * (t' - t) ^ 2 <= K * h ^ 2). { apply Rmult_le_compat_l; [assumption|]. rewrite <- pow2_abs. apply pow_incr. split; [apply Rabs_pos|exact Bh]. } lra. }
  rewrite <- (Rabs_Ropp (V * (t' - t) - (W - L))) in N. apply Rle_trans with (1 := sum_le _ _ _ _ (sum_le _ _ _ _ E H') N). lra.
Qed.
(** one step, as a whole: B bounds the moments for which the rate of change is known *)
Lemma newton_step f B t W L v V Vm rho K a err e h : ok t -> ok W -> ok L -> ok v -> B <= 100 -> Rabs (R64 t) <= B - h -> 0 <= h -> Rabs (R64 v - V) <= 1e-6 -> 500 <= V <= 10000 -> 0 < Vm <= V ->
  (forall t', Rabs t' <= B -> Rabs (f t' - f (R64 t) - V * (t' - R64 t)) <= rho * Rabs (t' - R64 t) + K * (t' - R64 t) ^ 2 + a) -> 0 <= rho -> 0 <= K ->
  Rabs (R64 L - f (R64 t)) <= err -> Rabs (R64 W - f (R64 t)) <= e -> e + err <= 1 -> e + err + 3e-9 <= Vm * h ->
  let t' := fadd t (fdiv (fsub W L) v) in
  ok t' /\ Rabs (R64 t' - R64 t) <= h /\ Rabs (R64 W - f (R64 t')) <= err + rho * h + K * h ^ 2 + a + 3e-9.
Proof.
  intros Ot OW OL Ov HB Bt h0 Nv V5 Vm0 Hf R0 K0 NL NW E1 Eh t'.
  assert (WL : Rabs (R64 W - R64 L) <= e + err) by (replace (R64 W - R64 L) with ((R64 W - f (R64 t)) - (R64 L - f (R64 t))) by ring; apply diff_le; assumption).
  destruct (newton t W L v V Ot OW OL Ov ltac:(lra) ltac:(lra) Nv V5) as [O1 N1]. fold t' in O1, N1. split; [exact O1|]. clearbody t'.
  assert (Vh : Vm * h <= V * h) by (apply Rmult_le_compat_r; lra).
  assert (Ph : Rabs (R64 t' - R64 t) <= h).
  { apply Rmult_le_reg_l with V; [lra|]. rewrite <- (Rabs_pos_eq V) at 1 by lra. rewrite <- Rabs_mult.
    replace (V * (R64 t' - R64 t)) with ((V * (R64 t' - R64 t) - (R64 W - R64 L)) + (R64 W - R64 L)) by ring. apply Rle_trans with (1 := sum_le _ _ _ _ N1 WL). lra. }
  assert (B' : Rabs (R64 t') <= B) by (replace (R64 t') with (R64 t + (R64 t' - R64 t)) by ring; apply Rle_trans with (1 := sum_le _ _ _ _ Bt Ph); lra).
  destruct (residual f (R64 t) (R64 t') (R64 W) (R64 L) V rho K err a (Hf _ B') ltac:(lra) R0 K0 N1 NL h ltac:(lra)) as [_ D]. split; [exact Ph|exact D].
Qed.
