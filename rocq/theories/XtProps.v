(** Properties of the searches for extreme distances, nodes, elongations, stations and conjunctions, in exact arithmetic. *)
From Coq Require Import ZArith Reals Lra Lia Psatz List.
From Flocq Require Import Core.
From Verif Require Import PiBound GeoModel GeoProof GeoProps SjProps ZbProps XtModel.
Import ListNotations.
Open Scope R_scope.

(** ** The mean times from which the searches start *)
Theorem mean_time_ok a b t : 0 < a -> (exists k, mean_time a b t = b + a * IZR k) /\ - a / 2 <= t - mean_time a b t < a / 2.
Proof.
  intros H. split; [eexists; reflexivity|]. unfold mean_time. pose proof (Zfloor_lb ((t - b) / a + 0.5)) as L. pose proof (Zfloor_ub ((t - b) / a + 0.5)) as U.
  set (k := IZR (Zfloor ((t - b) / a + 0.5))) in *. clearbody k. set (q := (t - b) / a) in *. assert (E : t = b + a * q) by (unfold q; field; lra). clearbody q. subst t. nra.
Qed.
(** ** One round: the vertex of the parabola through the three values *)
Definition parabola (m c k x : R) : R := c + k * (x - m) * (x - m).
Lemma vertex_fit f t dt m c k : dt <> 0 -> k <> 0 -> f (t - dt) = parabola m c k (t - dt) -> f t = parabola m c k t -> f (t + dt) = parabola m c k (t + dt) ->
  vertex f t dt = m /\ vertex_value f t dt = c.
Proof.
  intros D K E1 E2 E3. unfold vertex, vertex_value. cbv zeta. rewrite E1, E2, E3. unfold parabola.
  assert (E : c + k * (t - dt - m) * (t - dt - m) + (c + k * (t + dt - m) * (t + dt - m)) - 2 * (c + k * (t - m) * (t - m)) = 2 * (k * (dt * dt))) by ring. rewrite E.
  split; field; auto.
Qed.
(** three values that do not lie on a line lie on a parabola, so every round goes to the vertex of one *)
Theorem vertex_round f t dt : dt <> 0 -> f (t - dt) + f (t + dt) <> 2 * f t ->
  exists m c k, k <> 0 /\ (forall x, (x = t - dt \/ x = t \/ x = t + dt) -> f x = parabola m c k x) /\ vertex f t dt = m /\ vertex_value f t dt = c.
Proof.
  intros D N. set (k := (f (t - dt) + f (t + dt) - 2 * f t) / (2 * (dt * dt))). assert (K : k <> 0).
  { unfold k. intros Z. apply N. assert (0 < dt * dt) by nra. apply (f_equal (fun z => z * (2 * (dt * dt)))) in Z. unfold Rdiv in Z. rewrite Rmult_assoc, Rinv_l in Z by lra. lra. }
  set (m := vertex f t dt). set (c := vertex_value f t dt). exists m, c, k.
  assert (E : f (t - dt) + f (t + dt) - 2 * f t <> 0) by lra.
  assert (F : forall x, x = t - dt \/ x = t \/ x = t + dt -> f x = parabola m c k x).
  { intros x H. unfold parabola, m, c, vertex, vertex_value, k. cbv zeta. set (r1 := f (t - dt)) in *. set (r3 := f (t + dt)) in *.
    destruct H as [-> |[-> | ->]]; [fold r1|set (r2 := f t) in *|fold r3]; clearbody r1 r3; try (set (r2 := f t) in *); field; auto. }
  auto.
Qed.
(** ** C135: extreme distances and elongations *)
Theorem extreme_rounds f0 f1 f2 d0 d1 d2 t m c k : d0 <> 0 -> d1 <> 0 -> d2 <> 0 -> k <> 0 ->
  (forall x, Rabs (x - t) <= Rabs d0 -> f0 x = parabola m c k x) -> (forall x, Rabs (x - m) <= Rabs d1 -> f1 x = parabola m c k x) -> (forall x, Rabs (x - m) <= Rabs d2 -> f2 x = parabola m c k x) ->
  extreme f0 f1 f2 d0 d1 d2 t = (m, c).
Proof.
  intros D0 D1 D2 K F0 F1 F2. unfold extreme.
  assert (A : forall y d, Rabs (y - d - y) <= Rabs d /\ Rabs (y - y) <= Rabs d /\ Rabs (y + d - y) <= Rabs d).
  { intros y d. replace (y - d - y) with (- d) by ring. replace (y - y) with 0 by ring. replace (y + d - y) with d by ring. rewrite Rabs_Ropp, Rabs_R0. pose proof (Rabs_pos d). lra. }
  assert (E0 : vertex f0 t d0 = m) by (destruct (A t d0) as (?&?&?); apply (vertex_fit f0 t d0 m c k); auto). rewrite E0.
  assert (E1 : vertex f1 m d1 = m) by (destruct (A m d1) as (?&?&?); apply (vertex_fit f1 m d1 m c k); auto). rewrite E1.
  destruct (vertex_fit f2 m d2 m c k) as (-> & ->); auto; apply F2; apply (A m d2).
Qed.
(** days to centuries *)
Definition days (d : R) : R := d / 36525.
(** A quantity f with an extreme in every period: near the mean times b + a k (within w days) it is a parabola, whose vertex (m k, c k) is within w - d days of the mean time. *)
Definition periodic_extremes (f : Z -> R -> R) (a b w d : R) (m c q : Z -> R) : Prop :=
  forall k, q k <> 0 /\ Rabs (m k - days (b + a * IZR k)) <= days (w - d) /\
    forall n x, Rabs (x - days (b + a * IZR k)) <= days w -> f n x = parabola (m k) (c k) (q k) x.
(** the result is the extreme of the period whose mean time is closest to t *)
Definition closest_extreme (a b t : R) (m c : Z -> R) (r : R * R) : Prop :=
  exists k, (forall j, Rabs (t - days (b + a * IZR k)) <= Rabs (t - days (b + a * IZR j))) /\ r = (m k, c k).
Lemma closest a b t k : 0 < a -> - a / 2 <= t - (b + a * IZR k) <= a / 2 -> forall j, Rabs (t - (b + a * IZR k)) <= Rabs (t - (b + a * IZR j)).
Proof.
  intros A H j. destruct (Z.eq_dec j k) as [->|N]; [lra|]. assert (R1 : Rabs (t - (b + a * IZR k)) <= a / 2) by (apply Rabs_le; lra). apply Rle_trans with (1 := R1).
  destruct (Z_lt_le_dec j k) as [L|L].
  - assert (IZR j <= IZR k - 1) by (rewrite <- minus_IZR; apply IZR_le; lia). rewrite Rabs_pos_eq; nra.
  - assert (IZR k + 1 <= IZR j) by (rewrite <- plus_IZR; apply IZR_le; lia). rewrite Rabs_left1; nra.
Qed.
Lemma search_extreme f n0 n1 n2 a b w d d0 d1 d2 t m c q : 0 < a -> 0 < d0 <= d -> 0 < d1 <= d -> 0 < d2 <= d -> d <= w -> periodic_extremes f a b w d m c q ->
  closest_extreme a b t m c (extreme (f n0) (f n1) (f n2) (d0 / 36525) (d1 / 36525) (d2 / 36525) (mean_time (a / 36525) (b / 36525) t)).
Proof.
  intros A D0 D1 D2 W P. destruct (mean_time_ok (a / 36525) (b / 36525) t ltac:(lra)) as ((k & E) & B). exists k.
  assert (EE : mean_time (a / 36525) (b / 36525) t = days (b + a * IZR k)) by (rewrite E; unfold days; field). rewrite EE in *.
  split.
  - intros j. pose proof (closest (a / 36525) (b / 36525) t k ltac:(lra)) as C. assert (F : forall i, days (b + a * IZR i) = b / 36525 + a / 36525 * IZR i) by (intros; unfold days; field). rewrite (F k) in B. rewrite (F k), (F j). apply C. lra.
  - destruct (P k) as (K & M & F). unfold days in *. set (mean := (b + a * IZR k) / 36525) in *.
    apply (extreme_rounds _ _ _ _ _ _ _ _ _ (q k)); [lra|lra|lra|exact K| | |]; intros x Hx; [rewrite (Rabs_pos_eq (d0 / 36525)) in Hx by lra|rewrite (Rabs_pos_eq (d1 / 36525)) in Hx by lra|rewrite (Rabs_pos_eq (d2 / 36525)) in Hx by lra]; apply Rabs_le_inv in Hx; apply Rabs_le_inv in M; apply F; apply Rabs_le; lra.
Qed.
Theorem C135_moon f t (min : bool) m c q : periodic_extremes f 27.55454988 (if min then - 10.3302 else 3.4471) 4 2 m c q ->
  closest_extreme 27.55454988 (if min then - 10.3302 else 3.4471) t m c (moonMinR f t min).
Proof.
  intros P. unfold moonMinR. replace (1200 / 86400 / 36525) with ((1200 / 86400) / 36525) by field.
  destruct min; [replace (- 10.3302 / 36525) with ((- 10.3302) / 36525) by field|]; apply (search_extreme f 10 20 (-1) 27.55454988 _ 4 2 2 0.5 (1200 / 86400) t m c q); try lra; exact P.
Qed.
Theorem C135_earth f t (min : bool) m c q : periodic_extremes f 365.25963586 (if min then 1.7 else 184.5) 6 3 m c q ->
  closest_extreme 365.25963586 (if min then 1.7 else 184.5) t m c (earthMinR f t min).
Proof. intros P. unfold earthMinR. destruct min; apply (search_extreme f 10 80 (-1) 365.25963586 _ 6 3 3 0.2 0.01 t m c q); try lra; exact P. Qed.
Theorem C135_mercury f t (dx : bool) m c q : periodic_extremes f 115.8774777586 (if dx then 46 else 87) 9 2 m c q ->
  closest_extreme 115.8774777586 (if dx then 46 else 87) t m c (daJu f true t dx).
Proof. intros P. unfold daJu. destruct dx; apply (search_extreme f 0 1 2 115.8774777586 _ 9 2 2 0.2 0.01 t m c q); try lra; exact P. Qed.
Theorem C135_venus f t (dx : bool) m c q : periodic_extremes f 583.9213708245 (if dx then 382 else 521) 9 4 m c q ->
  closest_extreme 583.9213708245 (if dx then 382 else 521) t m c (daJu f false t dx).
Proof. intros P. unfold daJu. destruct dx; apply (search_extreme f 0 1 2 583.9213708245 _ 9 4 4 0.2 0.01 t m c q); try lra; exact P. Qed.
(** perigees a day late at 363000 km: a distance that meets the hypothesis, and its perigee closest to J2000 *)
Definition perigees (n : Z) (x : R) : R :=
  let a := 27.55454988 / 36525 in let b := - 10.3302 / 36525 in
  parabola (mean_time a b x + 1 / 36525) 363000 1000000000 x.
Example C135_witness : exists m c q, periodic_extremes perigees 27.55454988 (- 10.3302) 4 2 m c q /\ moonMinR perigees 0 true = (- 9.3302 / 36525, 363000).
Proof.
  set (m := fun k : Z => days (- 9.3302 + 27.55454988 * IZR k)).
  assert (P : periodic_extremes perigees 27.55454988 (- 10.3302) 4 2 m (fun _ => 363000) (fun _ => 1000000000)).
  { intros k. split; [lra|]. split. { unfold m, days. apply Rabs_le. lra. }
    intros n x Hx. unfold perigees. cbv zeta. f_equal. unfold mean_time, m, days in *. apply Rabs_le_inv in Hx.
    assert (F : Zfloor ((x - - 10.3302 / 36525) / (27.55454988 / 36525) + 0.5) = k).
    { apply Zfloor_imp. rewrite plus_IZR. set (y := (x - - 10.3302 / 36525) / (27.55454988 / 36525)). assert (Y : y * (27.55454988 / 36525) = x - - 10.3302 / 36525) by (unfold y; field; lra). clearbody y. split; nra. }
    rewrite F. lra. }
  exists m, (fun _ => 363000), (fun _ => 1000000000). split; [exact P|].
  destruct (C135_moon perigees 0 true m (fun _ => 363000) (fun _ => 1000000000) P) as (k & C & ->). f_equal. unfold m, days. cbn [negb] in C.
  assert (k = 0%Z). { specialize (C 0%Z). unfold days in C. destruct (Z_lt_le_dec k 0) as [L|L]; [|destruct (Z.eq_dec k 0); [assumption|]].
    - assert (IZR k <= -1) by (apply IZR_le; lia). rewrite !Rabs_pos_eq in C by lra. lra.
    - assert (1 <= IZR k) by (apply IZR_le; lia). rewrite (Rabs_pos_eq (0 - (- 10.3302 + 27.55454988 * 0) / 36525)) in C by lra. rewrite Rabs_left1 in C by lra. lra. }
  subst k. lra.
Qed.
(** ** the nodes of the Moon *)
Definition periodic_nodes (w : Z -> R -> R) (a b : R) (m s : Z -> R) : Prop :=
  forall k, s k <> 0 /\ Rabs (m k - days (b + a * IZR k)) <= days 1 /\ forall n x, Rabs (x - days (b + a * IZR k)) <= days 2 -> w n x = s k * (x - m k).
Theorem C135_node w lon t (asc : bool) m s : periodic_nodes w 27.21222082 (if asc then 21 else 35) m s ->
  closest_extreme 27.21222082 (if asc then 21 else 35) t m (fun k => lon (m k)) (moonNode w lon t asc).
Proof.
  intros P. unfold moonNode. set (b := if asc then 21 else 35) in *. assert (EB : (if asc then 21 / 36525 else 35 / 36525) = b / 36525) by (unfold b; destruct asc; reflexivity). rewrite EB. clear EB. cbv zeta.
  destruct (mean_time_ok (27.21222082 / 36525) (b / 36525) t ltac:(lra)) as ((k & E) & B). exists k. clearbody b.
  assert (EE : mean_time (27.21222082 / 36525) (b / 36525) t = days (b + 27.21222082 * IZR k)) by (rewrite E; unfold days; field). rewrite EE in *.
  split.
  - intros j. pose proof (closest (27.21222082 / 36525) (b / 36525) t k ltac:(lra)) as C. assert (F : forall i, days (b + 27.21222082 * IZR i) = b / 36525 + 27.21222082 / 36525 * IZR i) by (intros; unfold days; field). rewrite (F k) in B. rewrite (F k), (F j). apply C. lra.
  - destruct (P k) as (S0 & M & F). unfold days in *. set (mean := (b + 27.21222082 * IZR k) / 36525) in *. apply Rabs_le_inv in M. set (mk := m k) in *. set (sk := s k) in *. clearbody mean mk sk. clear E EE B P.
    rewrite !(F 10%Z) by (apply Rabs_le; lra).
    assert (Z1 : mean - sk * (mean - mk) / ((sk * (mean + 0.5 / 36525 - mk) - sk * (mean - mk)) / (0.5 / 36525)) = mk).
    { replace (sk * (mean + 0.5 / 36525 - mk) - sk * (mean - mk)) with (sk * (0.5 / 36525)) by ring. field. split; lra. }
    rewrite Z1. rewrite !(F 40%Z) by (apply Rabs_le; lra).
    assert (Z2 : mk - sk * (mk - mk) / ((sk * (mk + 0.05 / 36525 - mk) - sk * (mk - mk)) / (0.05 / 36525)) = mk).
    { replace (sk * (mk + 0.05 / 36525 - mk) - sk * (mk - mk)) with (sk * (0.05 / 36525)) by ring. field. split; lra. }
    rewrite Z2. rewrite (F (-1)%Z) by (apply Rabs_le; lra). rewrite Z2. reflexivity.
Qed.
