(** C141: the points common to the Earth's outline and the penumbra (cirOvl). *)
From Coq Require Import Reals Lra.
From Flocq Require Import Core.
From Verif Require Import WaveR CirModel.
Open Scope R_scope.

(** the circle with centre (x0, y0) and radius r, and the outline with equatorial radius 1 and polar radius ba *)
Definition on_circle (r x0 y0 : R) (p : R * R) : Prop := (fst p - x0) * (fst p - x0) + (snd p - y0) * (snd p - y0) = r * r.
Definition level (ba : R) (p : R * R) : R := fst p * fst p + snd p * snd p / (ba * ba).
(** twice the area of the triangle of the origin, p and q: positive if q is anticlockwise of p *)
Definition cross (p q : R * R) : R := fst p * snd q - snd p * fst q.

Definition ecc (ba : R) : R := 1 / (ba * ba) - 1.
Lemma ecc_le ba : 0.9966 <= ba <= 1 -> 0 <= ecc ba <= 0.00684.
Proof.
  intros B. unfold ecc. assert (Q : 0.9966 * 0.9966 <= ba * ba <= 1) by nra. split.
  - assert (1 <= 1 / (ba * ba)); [|lra]. apply Rmult_le_reg_r with (ba * ba); [lra|]. replace (1 / (ba * ba) * (ba * ba)) with 1 by (field; nra). lra.
  - assert (1 / (ba * ba) <= 1.00684); [|lra]. apply Rmult_le_reg_r with (ba * ba); [lra|]. replace (1 / (ba * ba) * (ba * ba)) with 1 by (field; nra). lra.
Qed.
Definition sn (c : R) : R := sqrt (1 - c * c).
Lemma sn_ok c : Rabs c <= 1 -> 0 <= sn c /\ sn c * sn c = 1 - c * c.
Proof. intros H. apply Rabs_le_inv in H. split; [apply sqrt_pos|]. unfold sn. apply sqrt_sqrt. nra. Qed.
Lemma turn_unit a b c d k : a * a + b * b = 1 -> c * c + d * d = 1 -> k * k = 1 -> (a * c - b * d * k) * (a * c - b * d * k) + (a * d + b * c * k) * (a * d + b * c * k) = 1.
Proof. intros H1 H2 K. transitivity ((a * a + (k * k) * (b * b)) * (c * c) + (a * a + (k * k) * (b * b)) * (d * d) + (1 - k * k) * 0); [|rewrite K; replace (a * a + 1 * (b * b)) with 1 by lra; lra]. 
  replace ((a * c - b * d * k) * (a * c - b * d * k) + (a * d + b * c * k) * (a * d + b * c * k)) with (a * a * (c * c) + a * a * (d * d) + k * k * (b * b * (c * c) + b * b * (d * d))) by ring. ring. Qed.
(** what one pass of the loop does *)
Definition start (c sB cB k : R) : R := c * sB + sn c * cB * k.
Definition reach (r d g : R) : R := (g * g + d * d - r * r) / (2 * d * g).
Lemma round_eq ba r d sB cB k c : let g := 1 - start c sB cB k * start c sB cB k * ecc ba / 2 in let c' := reach r d g in
  cir_round 1 ba r d sB cB k c = if Rlt_dec 1 (Rabs c') then None else Some (c', (g * (c' * cB - sn c' * sB * k), g * start c' sB cB k)).
Proof. reflexivity. Qed.
Lemma start_le c sB cB k : Rabs c <= 1 -> sB * sB + cB * cB = 1 -> k * k = 1 -> start c sB cB k * start c sB cB k <= 1.
Proof.
  intros H B K. destruct (sn_ok c H) as [_ S]. pose proof (turn_unit c (sn c) cB sB k ltac:(lra) ltac:(lra) K) as T. fold (start c sB cB k) in T.
  pose proof (Rle_0_sqr (c * cB - sn c * sB * k)) as Z. unfold Rsqr in Z. unfold start in *. lra.
Qed.
Lemma round_ok ba r d sB cB k c c' p : 0.9966 <= ba <= 1 -> 0 < d -> sB * sB + cB * cB = 1 -> k * k = 1 -> Rabs c <= 1 ->
  cir_round 1 ba r d sB cB k c = Some (c', p) ->
  let g := 1 - start c sB cB k * start c sB cB k * ecc ba / 2 in
  0.99658 <= g <= 1 /\ c' = reach r d g /\ Rabs c' <= 1 /\ p = (g * (c' * cB - sn c' * sB * k), g * start c' sB cB k) /\
  on_circle r (d * cB) (d * sB) p /\ cross (cB, sB) p = k * g * sn c' /\ level ba p = g * g * (1 + ecc ba * (start c' sB cB k * start c' sB cB k)).
Proof.
  intros HB D B K H E. rewrite round_eq in E. cbv zeta in E |- *. pose proof (start_le c sB cB k H B K) as S0. pose proof (Rle_0_sqr (start c sB cB k)) as S1. unfold Rsqr in S1.
  set (s0 := start c sB cB k * start c sB cB k) in *. set (g := 1 - s0 * ecc ba / 2) in *. pose proof (ecc_le ba HB) as EC.
  assert (BG : 0.99658 <= g <= 1). { unfold g. assert (0 <= s0 * ecc ba <= 1 * 0.00684) by (split; [apply Rmult_le_pos; lra|apply Rmult_le_compat; lra]). lra. }
  destruct (Rlt_dec 1 (Rabs (reach r d g))) as [|N]; [discriminate|]. injection E as E1 E2. rewrite <- E1 in *. subst p. clear E1. assert (H' : Rabs (reach r d g) <= 1) by lra. clear N.
  split; [exact BG|]. split; [reflexivity|]. split; [exact H'|]. split; [reflexivity|].
  assert (RE : 2 * d * g * reach r d g = g * g + d * d - r * r) by (unfold reach; field; lra). set (c1 := reach r d g) in *. clearbody c1.
  destruct (sn_ok c1 H') as [_ SC]. pose proof (turn_unit c1 (sn c1) cB sB k ltac:(lra) ltac:(lra) K) as T. unfold start. split; [|split].
  - unfold on_circle. cbn [fst snd].
    transitivity (g * g * ((c1 * cB - sn c1 * sB * k) * (c1 * cB - sn c1 * sB * k) + (c1 * sB + sn c1 * cB * k) * (c1 * sB + sn c1 * cB * k)) + d * d * (sB * sB + cB * cB) - 2 * d * g * c1 * (sB * sB + cB * cB)); [ring|]. rewrite T, B, Rmult_1_r, Rmult_1_r, RE. ring.
  - unfold cross. cbn [fst snd]. transitivity (k * g * sn c1 * (sB * sB + cB * cB)); [ring|rewrite B; ring].
  - unfold level, ecc. cbn [fst snd]. set (C := c1 * cB - sn c1 * sB * k) in *. set (S := c1 * sB + sn c1 * cB * k) in *. replace (g * C * (g * C)) with (g * g * (C * C)) by ring. replace (C * C) with (1 - S * S) by lra. field. lra.
Qed.
Lemma centre x0 y0 : (x0, y0) <> (0, 0) -> let d := sqrt (x0 * x0 + y0 * y0) in 0 < d /\ y0 / d * (y0 / d) + x0 / d * (x0 / d) = 1 /\ d * (x0 / d) = x0 /\ d * (y0 / d) = y0 /\ d * d = x0 * x0 + y0 * y0.
Proof.
  intros NE. cbv zeta. assert (0 < x0 * x0 + y0 * y0).
  { pose proof (Rle_0_sqr x0) as X. pose proof (Rle_0_sqr y0) as Y. unfold Rsqr in *. destruct (Req_dec x0 0) as [->|D]; [|pose proof (Rlt_0_sqr x0 D) as Z; unfold Rsqr in Z; lra].
    destruct (Req_dec y0 0) as [->|D]; [now contradiction NE|pose proof (Rlt_0_sqr y0 D) as Z; unfold Rsqr in Z; lra]. }
  set (d := sqrt (x0 * x0 + y0 * y0)). assert (D : 0 < d) by (apply sqrt_lt_R0; assumption). assert (Q : d * d = x0 * x0 + y0 * y0) by (apply sqrt_sqrt; lra).
  split; [exact D|]. split; [|split; [field; lra|split; [field; lra|exact Q]]]. transitivity ((x0 * x0 + y0 * y0) / (d * d)); [field; lra|rewrite <- Q; field; lra].
Qed.
Lemma sq_le1 x : Rabs x <= 1 -> 0 <= x * x <= 1.
Proof. intros H. apply Rabs_le_inv in H. nra. Qed.
Lemma sq_abs x : x * x <= 1 -> -1 <= x <= 1.
Proof. intros H. split; nra. Qed.
Lemma one_sq : 1 * 1 = 1 /\ -1 * -1 = 1.
Proof. lra. Qed.

(** If there are two points, both are exactly on the penumbra, A anticlockwise and B clockwise of its centre, and within 0.35% of the Earth's outline. *)
Theorem C141_points ba r x0 y0 A B : 0.9966 <= ba <= 1 -> (x0, y0) <> (0, 0) -> cirOvl 1 ba r x0 y0 = Some (A, B) ->
  on_circle r x0 y0 A /\ on_circle r x0 y0 B /\ 0 <= cross (x0, y0) A /\ cross (x0, y0) B <= 0 /\
  Rabs (level ba A - 1) <= 0.00684 /\ Rabs (level ba B - 1) <= 0.00684.
Proof.
  intros HB NE E. destruct (centre x0 y0 NE) as (D & U & X & Y & Q). unfold cirOvl in E. set (d := sqrt (x0 * x0 + y0 * y0)) in *. clearbody d.
  set (sB := y0 / d) in *. set (cB := x0 / d) in *. clearbody sB cB.
  destruct (Rlt_dec 1 (Rabs ((1 * 1 + d * d - r * r) / (2 * d * 1)))) as [|N]; [discriminate|]. set (c0 := (1 * 1 + d * d - r * r) / (2 * d * 1)) in *. clearbody c0. assert (H0 : Rabs c0 <= 1) by lra.
  destruct (cir_round 1 ba r d sB cB (-1) c0) as [[c1 P1]|] eqn:E1; [|discriminate]. destruct (cir_round 1 ba r d sB cB 1 c1) as [[c2 P2]|] eqn:E2; [|discriminate]. injection E as <- <-.
  destruct (round_ok _ _ _ _ _ _ _ _ _ HB D U (proj2 one_sq) H0 E1) as (G1 & R1 & H1 & _ & K1 & S1 & L1). destruct (round_ok _ _ _ _ _ _ _ _ _ HB D U (proj1 one_sq) H1 E2) as (G2 & R2 & H2 & _ & K2 & S2 & L2).
  cbv zeta in G1, R1, S1, L1, G2, R2, S2, L2. rewrite X, Y in *. split; [exact K2|]. split; [exact K1|].
  assert (CR : forall p, cross (x0, y0) p = d * cross (cB, sB) p). { intros p. unfold cross. cbn [fst snd]. rewrite <- X, <- Y. ring. }
  destruct (sn_ok c1 H1) as [N1 _]. destruct (sn_ok c2 H2) as [N2 _]. pose proof (ecc_le ba HB) as EC.
  split. { rewrite CR, S2. apply Rmult_le_pos; [lra|]. apply Rmult_le_pos; [lra|exact N2]. }
  split. { rewrite CR, S1. assert (0 <= d * ((1 - start c0 sB cB (-1) * start c0 sB cB (-1) * ecc ba / 2) * sn c1)); [|lra]. apply Rmult_le_pos; [lra|]. apply Rmult_le_pos; [lra|exact N1]. }
  assert (F : forall s0 s, 0 <= s0 <= 1 -> 0 <= s <= 1 -> Rabs ((1 - s0 * ecc ba / 2) * (1 - s0 * ecc ba / 2) * (1 + ecc ba * s) - 1) <= 0.00684).
  { intros s0 s B0 Bs. assert (0 <= s0 * ecc ba <= ecc ba) by nra. assert (0 <= ecc ba * s <= ecc ba) by nra. set (u := s0 * ecc ba) in *. set (v := ecc ba * s) in *. clearbody u v.
    assert (1 - ecc ba <= (1 - u / 2) * (1 - u / 2) <= 1) by nra. set (w := (1 - u / 2) * (1 - u / 2)) in *. clearbody w. apply Rabs_le. split; nra. }
  assert (SQ : forall c k, Rabs c <= 1 -> k * k = 1 -> 0 <= start c sB cB k * start c sB cB k <= 1) by (intros c k H K; split; [apply Rle_0_sqr|now apply start_le]).
  split; [rewrite L2|rewrite L1]; apply F; apply SQ; try assumption; try lra.
Qed.

(** Away from grazing the two points are always found, and are within 0.03% of the outline.  Here |a| <= 0.9 says that on a round Earth circle and
    outline would cross at more than 25 degrees from the line of centres. *)
Theorem C141_accurate ba r x0 y0 : 0.9966 <= ba <= 1 -> 0.5 <= r <= 0.6 -> 0.45 * 0.45 <= x0 * x0 + y0 * y0 <= 1.55 * 1.55 ->
  Rabs (1 + (x0 * x0 + y0 * y0) - r * r) <= 1.8 * sqrt (x0 * x0 + y0 * y0) ->
  exists A B, cirOvl 1 ba r x0 y0 = Some (A, B) /\ Rabs (level ba A - 1) <= 0.0005 /\ Rabs (level ba B - 1) <= 0.0005.
Proof.
  intros HB HR HD HA. assert (NE : (x0, y0) <> (0, 0)) by (intros E; injection E as -> ->; lra).
  destruct (centre x0 y0 NE) as (D & U & _ & _ & Q). unfold cirOvl. set (d := sqrt (x0 * x0 + y0 * y0)) in *. clearbody d. rewrite <- Q in HD, HA. assert (BD : 0.45 <= d <= 1.55) by (split; nra).
  set (sB := y0 / d) in *. set (cB := x0 / d) in *. clearbody sB cB. clear x0 y0 Q NE. pose proof (ecc_le ba HB) as EC.
  replace ((1 * 1 + d * d - r * r) / (2 * d * 1)) with (reach r d 1) by (unfold reach; field; lra). set (c0 := reach r d 1). assert (H0 : Rabs c0 <= 0.9).
  { unfold c0, reach. apply Rabs_le_inv in HA. apply Rabs_le. split; (apply Rmult_le_reg_r with (2 * d * 1); [lra|]); replace ((1 * 1 + d * d - r * r) / (2 * d * 1) * (2 * d * 1)) with (1 + d * d - r * r) by (field; lra); lra. }
  (* every shortened radius gives nearly the same angle *)
  assert (CL : forall g, 0.99658 <= g <= 1 -> Rabs (reach r d g - c0) <= 0.0045).
  { intros g G. replace (reach r d g - c0) with ((1 - g) * ((d * d - r * r - g) / (2 * d * g))) by (unfold c0, reach; field; lra).
    assert (Rabs ((d * d - r * r - g) / (2 * d * g)) <= 1.31).
    { assert (M : 0.45 * 0.99658 <= d * g) by (apply Rmult_le_compat; lra). assert (RR : 0.25 <= r * r <= 0.36) by nra. assert (D2 : d * d <= 1.55 * 1.55) by nra. assert (D3 : 0.45 * 0.45 <= d * d) by nra. apply Rabs_le. 
      split; apply Rmult_le_reg_r with (2 * d * g); try lra; replace ((d * d - r * r - g) / (2 * d * g) * (2 * d * g)) with (d * d - r * r - g) by (field; lra); lra. }
    apply Rle_trans with (0.00342 * 1.31); [|lra]. apply prod_le; [apply Rabs_le; lra|assumption]. }
  assert (AB : forall c, Rabs (c - c0) <= 0.0045 -> Rabs c <= 0.9045). { intros c H. apply Rabs_le_inv in H, H0. apply Rabs_le. lra. }
  assert (SNL : forall c, Rabs c <= 0.9045 -> 0.42 <= sn c). { intros c H. unfold sn. rewrite <- (sqrt_square 0.42) by lra. apply Rabs_le_inv in H. apply sqrt_le_1_alt. nra. }
  assert (SB : Rabs sB <= 1 /\ Rabs cB <= 1) by (pose proof (Rle_0_sqr sB); pose proof (Rle_0_sqr cB); unfold Rsqr in *; split; apply Rabs_le; nra). destruct SB as [SB CB].
  assert (ST : forall k c c', k = 1 \/ k = -1 -> Rabs (c - c0) <= 0.0045 -> Rabs (c' - c0) <= 0.0045 -> Rabs (start c sB cB k - start c' sB cB k) <= 0.0289).
  { intros k c c' K C C'. pose proof (SNL c (AB c C)) as N. pose proof (SNL c' (AB c' C')) as N'. destruct (sn_ok c ltac:(pose proof (AB c C); lra)) as [_ S]. destruct (sn_ok c' ltac:(pose proof (AB c' C'); lra)) as [_ S'].
    assert (CC : Rabs (c - c') <= 0.009) by (apply Rabs_le_inv in C, C'; apply Rabs_le; lra).
    assert (SS : Rabs (sn c - sn c') <= 0.0195).
    { assert (E : (sn c - sn c') * (sn c + sn c') = (c' - c) * (c' + c)) by lra. assert (Rabs ((c' - c) * (c' + c)) <= 0.009 * 1.81). { apply prod_le; [rewrite Rabs_minus_sym; exact CC|]. pose proof (AB c C) as X. pose proof (AB c' C') as X'. apply Rabs_le_inv in X, X'. apply Rabs_le. lra. }
      rewrite <- E, Rabs_mult, (Rabs_pos_eq (sn c + sn c')) in H by lra. pose proof (Rabs_pos (sn c - sn c')). assert (Rabs (sn c - sn c') * 0.84 <= Rabs (sn c - sn c') * (sn c + sn c')) by (apply Rmult_le_compat_l; lra). lra. }
    unfold start. replace (c * sB + sn c * cB * k - (c' * sB + sn c' * cB * k)) with ((c - c') * sB + (sn c - sn c') * cB * k) by ring.
    apply Rle_trans with (0.009 * 1 + 0.0195 * 1 * 1); [|lra]. apply sum_le; [apply prod_le; assumption|]. apply prod_le; [apply prod_le; assumption|]. destruct K as [-> | ->]; apply Rabs_le; lra. }
  assert (RD : forall k c, k = 1 \/ k = -1 -> Rabs (c - c0) <= 0.0045 -> exists c' p, cir_round 1 ba r d sB cB k c = Some (c', p) /\ Rabs (c' - c0) <= 0.0045 /\ Rabs (level ba p - 1) <= 0.0005).
  { intros k c K C. assert (KK : k * k = 1) by (destruct K as [-> | ->]; lra). assert (C1 : Rabs c <= 1) by (pose proof (AB c C); lra). pose proof (start_le c sB cB k C1 U KK) as S1. pose proof (Rle_0_sqr (start c sB cB k)) as S0. unfold Rsqr in S0.
    set (g := 1 - start c sB cB k * start c sB cB k * ecc ba / 2). assert (G : 0.99658 <= g <= 1). { unfold g. assert (0 <= start c sB cB k * start c sB cB k * ecc ba <= 1 * 0.00684) by (split; [apply Rmult_le_pos; lra|apply Rmult_le_compat; lra]). lra. }
    pose proof (CL g G) as C'. destruct (cir_round 1 ba r d sB cB k c) as [[c' p]|] eqn:E.
    2: { exfalso. rewrite round_eq in E. cbv zeta in E. fold g in E. pose proof (AB _ C'). destruct (Rlt_dec 1 (Rabs (reach r d g))); [lra|discriminate]. }
    exists c', p. split; [reflexivity|]. destruct (round_ok _ _ _ _ _ _ _ _ _ HB D U KK C1 E) as (_ & R' & H' & _ & _ & _ & L'). cbv zeta in R', L'. fold g in R', L'. rewrite <- R' in C'. split; [exact C'|].
    rewrite L'. pose proof (ST k c' c K C' C) as SD. pose proof (start_le c' sB cB k H' U KK) as T1. pose proof (Rle_0_sqr (start c' sB cB k)) as T0. unfold Rsqr in T0.
    assert (DD : Rabs (start c' sB cB k * start c' sB cB k - start c sB cB k * start c sB cB k) <= 0.0578).
    { replace (start c' sB cB k * start c' sB cB k - start c sB cB k * start c sB cB k) with ((start c' sB cB k - start c sB cB k) * (start c' sB cB k + start c sB cB k)) by ring. apply Rle_trans with (0.0289 * 2); [|lra]. apply prod_le; [exact SD|].
      pose proof (sq_abs _ S1). pose proof (sq_abs _ T1). apply Rabs_le. lra. }
    unfold g. set (u := start c sB cB k * start c sB cB k) in *. set (v := start c' sB cB k * start c' sB cB k) in *. clearbody u v. set (e := ecc ba) in *. clearbody e.
    replace ((1 - u * e / 2) * (1 - u * e / 2) * (1 + e * v) - 1) with (e * (v - u) + e * e * (u * u / 4 * (1 + e * v) - u * v)) by field.
    apply Rle_trans with (0.00684 * 0.0578 + 0.00684 * 0.00684 * 1.3); [|lra]. apply sum_le; [apply prod_le; [apply Rabs_le; lra|exact DD]|]. apply prod_le; [apply prod_le; apply Rabs_le; lra|].
    assert (0 <= u * u <= 1) by nra. assert (0 <= u * v <= 1) by nra. assert (0 <= e * v <= 0.01) by nra. set (w := e * v) in *. set (x := u * u) in *. set (y := u * v) in *. clearbody w x y. assert (0 <= x * w <= 0.01) by nra. apply Rabs_le. lra. }
  destruct (Rlt_dec 1 (Rabs c0)); [lra|]. destruct (RD (-1) c0 (or_intror eq_refl) ltac:(rewrite Rminus_diag_eq, Rabs_R0 by reflexivity; lra)) as (c1 & p1 & -> & C1 & L1).
  destruct (RD 1 c1 (or_introl eq_refl) C1) as (c2 & p2 & -> & _ & L2). now exists p2, p1.
Qed.

(** Near grazing points are lost: the penumbra meets the outline twice, but the code, which compares with the equatorial radius first, finds nothing.
    A realistic case: penumbra radius 0.547, its centre 0.45 Earth radii towards the pole. *)
Theorem C141_complete_refuted : exists ba r x0 y0 p q, 0.9966 <= ba <= 1 /\ 0.5 <= r <= 0.6 /\ (x0, y0) <> (0, 0) /\ p <> q /\
  on_circle r x0 y0 p /\ on_circle r x0 y0 q /\ level ba p = 1 /\ level ba q = 1 /\ cirOvl 1 ba r x0 y0 = None.
Proof.
  set (ba := 0.99664719). set (x := 100 / 2501). set (y := ba * (2499 / 2501)). set (r2 := x * x + (y - 0.45) * (y - 0.45)). assert (BR : 0.2995 <= r2 <= 0.2996) by (unfold r2, x, y, ba; lra).
  assert (QR : sqrt r2 * sqrt r2 = r2) by (apply sqrt_sqrt; lra). assert (R0 : 0 <= sqrt r2) by apply sqrt_pos.
  exists ba, (sqrt r2), 0, 0.45, (x, y), (- x, y). split; [unfold ba; lra|]. split; [split; nra|]. split; [intros E; injection E; lra|]. split; [intros E; injection E; unfold x; lra|].
  unfold on_circle, level. cbn [fst snd]. split; [rewrite QR; unfold r2; ring|]. split; [rewrite QR; unfold r2; ring|]. split; [unfold x, y, ba; field; lra|]. split; [unfold x, y, ba; field; lra|].
  unfold cirOvl. replace (0 * 0 + 0.45 * 0.45) with (0.45 * 0.45) by ring. rewrite sqrt_square by lra. destruct (Rlt_dec 1 _) as [|N]; [reflexivity|]. contradiction N. clear N. rewrite QR.
  rewrite Rabs_pos_eq; [|lra]; lra.
Qed.

(** *** Non-vacuity: the centre at distance 1, penumbra radius 0.55 *)
Example C141_example : 0.9966 <= 0.9967 <= 1 /\ 0.5 <= 0.55 <= 0.6 /\ 0.45 * 0.45 <= 0.6 * 0.6 + 0.8 * 0.8 <= 1.55 * 1.55 /\
  Rabs (1 + (0.6 * 0.6 + 0.8 * 0.8) - 0.55 * 0.55) <= 1.8 * sqrt (0.6 * 0.6 + 0.8 * 0.8) /\ (0.6, 0.8) <> (0, 0).
Proof. replace (0.6 * 0.6 + 0.8 * 0.8) with (1 * 1) by lra. rewrite sqrt_square by lra. repeat split; try lra. - rewrite Rabs_pos_eq; lra. - intros E. injection E. lra. Qed.

Print Assumptions C141_points.
Print Assumptions C141_accurate.
Print Assumptions C141_complete_refuted.
