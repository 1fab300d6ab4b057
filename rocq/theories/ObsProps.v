(** C102: the place of the observer; C103: the contacts of a lunar eclipse. *)
From Coq Require Import ZArith Reals Lra Lia Psatz.
From Flocq Require Import Core.
From Verif Require Import GeoModel GeoSpec GeoProof GeoProps ObsModel ObsSpec.
Open Scope R_scope.

(** ** C102 *)
(** the angle at the body between the pole and the zenith: with H the hour angle and h the altitude, the sine and cosine rules of the astronomical triangle *)
Theorem C102_parallactic_angle gst L fa J W : - (PI / 2) < fa < PI / 2 ->
  let H := gst + L - J in
  let q := shiChaJ gst L fa J W in
  exists h, - (PI / 2) <= h <= PI / 2 /\ 0 <= q < 2 * PI /\
    sin h = sin fa * sin W + cos fa * cos W * cos H /\
    cos h * sin q = cos fa * sin H /\
    cos h * cos q = sin fa * cos W - cos fa * sin W * cos H.
Proof.
  intros Hf H q. set (a := sin fa * cos W - cos fa * sin W * cos H). set (b := cos fa * sin H). set (c := sin fa * sin W + cos fa * cos W * cos H).
  pose proof (cos_in fa Hf) as Cf.
  assert (N : a * a + b * b + c * c = 1).
  { unfold a, b, c. pose proof (cs fa) as E1. pose proof (cs W) as E2. pose proof (cs H) as E3.
    transitivity (sin fa * sin fa * (cos W * cos W + sin W * sin W) + (cos fa * cos fa) * (cos H * cos H * (sin W * sin W + cos W * cos W) + sin H * sin H)); [ring|].
    rewrite E2, E3, E1. ring. }
  destruct (asin_pair a b c N) as (E1 & E2). exists (asin c). split; [apply asin_bound|]. unfold q, shiChaJ. fold H. split; [apply rad2mrad_ok|].
  split; [exact E1|]. rewrite sin_mrad, cos_mrad, E2.
  assert (S : sin H = b * / cos fa) by (unfold b; field; lra).
  assert (K : tan fa * cos W - sin W * cos H = a * / cos fa) by (unfold a, tan; field; lra).
  rewrite S, K. assert (I : 0 < / cos fa) by (apply Rinv_0_lt_compat; exact Cf).
  pose proof (polar_scaled b a (/ cos fa) I) as P. cbv zeta in P. tauto.
Qed.
Example C102_angle_witness : shiChaJ (PI / 2) 0 0 0 0 = PI / 2.
Proof.
  unfold shiChaJ. replace (PI / 2 + 0 - 0) with (PI / 2) by ring. rewrite tan_0, sin_0, cos_PI2, sin_PI2. unfold atan2.
  replace (0 * cos 0 - 0 * 0) with 0 by ring.
  destruct (Rlt_dec 0 0); [lra|]. destruct (Rlt_dec 0 1); [|lra].
  destruct (rad2mrad_ok (PI / 2)) as (R1 & k & R2). pose proof PI_RGT_0.
  assert (k = 0%Z). { assert (IZR k < 1) by nra. assert (-1 < IZR k) by nra. apply lt_IZR in H0. apply lt_IZR in H1. lia. }
  subst k. lra.
Qed.

(** The station: its distance from the axis and its height above the equator are those of the point at the height [high] above the ellipsoid where the
    vertical makes the angle fa with the equator. *)
Lemma station_ok fa high : - (PI / 2) < fa < PI / 2 ->
  let u := atan (cs_ba * tan fa) in
  station cs_ba cs_rEar fa high (cs_rEar * cos u + high * cos fa) (cs_rEar * sin u * cs_ba + high * sin fa).
Proof.
  intros Hf u. pose proof (cos_in fa Hf) as Cf.
  assert (Cu : 0 < cos u) by (pose proof (atan_bound (cs_ba * tan fa)); apply cos_in; fold u in H; lra).
  assert (Su : sin u = cs_ba * tan fa * cos u).
  { assert (T : tan u = cs_ba * tan fa) by apply atan_right_inv. rewrite <- T. unfold tan. field. lra. }
  exists (cs_rEar * cos u), (cs_rEar * sin u * cs_ba), (cs_rEar * cos u / cos fa).
  assert (B : 0 < cs_ba) by (unfold cs_ba; lra). assert (A : 0 < cs_rEar) by (unfold cs_rEar; lra).
  split. { apply Rdiv_lt_0_compat; [apply Rmult_lt_0_compat; assumption|exact Cf]. }
  split. { transitivity (cs_rEar * cs_rEar * (cos u * cos u + sin u * sin u)); [field; lra|]. rewrite cs. ring. }
  split; [field; lra|]. split; [|split; ring].
  rewrite Su. unfold tan. field. lra.
Qed.
(** The body at right ascension J, declination W and distance r (in astronomical units if below 500, else in kilometres), seen from the station with hour
    angle H: the place returned is the geocentric one minus that of the station, whose meridian has right ascension J + H. *)
Theorem C102_topocentric J W r H fa high : - (PI / 2) < fa < PI / 2 ->
  let unit := if Rlt_dec r 500 then cs_AU else 1 in
  exists px pz, station cs_ba cs_rEar fa high px pz /\
    let seen := minus (llr2xyz (J, W, r * unit)) (rot_z (J + H) (px, 0, pz)) in
    (seen <> (0, 0, 0) ->
     exists J' W' r', parallax (J, W, r) H fa high = (J', W', r') /\ 0 <= J' < 2 * PI /\ - (PI / 2) <= W' <= PI / 2 /\ 0 < r' /\
       llr2xyz (J', W', r' * unit) = seen).
Proof.
  intros Hf unit. eexists _, _. split; [apply station_ok; exact Hf|].
  unfold parallax. fold unit. set (u := atan (cs_ba * tan fa)).
  set (r0 := cs_rEar * cos u + high * cos fa). set (z0 := cs_rEar * sin u * cs_ba + high * sin fa). cbv zeta. intros NE.
  assert (HU : 0 < unit) by (unfold unit, cs_AU; destruct (Rlt_dec r 500); lra). clearbody unit u r0 z0.
  destruct (llr2xyz (J, W, r * unit)) as [[s0 s1] s2] eqn:EL.
  assert (ES : minus (s0, s1, s2) (rot_z (J + H) (r0, 0, z0)) = (s0 - r0 * cos (J + H), s1 - r0 * sin (J + H), s2 - z0)).
  { unfold minus, rot_z. apply f_equal2; [apply f_equal2|]; ring. }
  rewrite ES in *. set (a := s0 - r0 * cos (J + H)) in *. set (b := s1 - r0 * sin (J + H)) in *. set (c := s2 - z0) in *. clearbody a b c.
  pose proof (C38_rectangular a b c NE) as RT. pose proof (C38_ranges a b c) as RG.
  destruct (xyz2llr (a, b, c)) as [[J' W'] r'] eqn:EX. destruct RG as (G1 & G2 & G3).
  exists J', W', (r' / unit). split; [reflexivity|]. split; [exact G1|]. split; [exact G2|].
  split. { apply Rdiv_lt_0_compat; [|exact HU]. rewrite G3. unfold norm. apply sqrt_lt_R0.
    destruct (Req_dec a 0) as [->|]; [|nra]. destruct (Req_dec b 0) as [->|]; [|nra]. destruct (Req_dec c 0) as [->|]; [exfalso; apply NE; reflexivity|nra]. }
  replace (r' / unit * unit) with r' by (field; lra). exact RT.
Qed.
(** a moon at 400000 km in the zenith of a station on the equator, 2 km high *)
Example C102_witness : parallax (0, 0, 400000) 0 0 2 = (0, 0, 393619.8634).
Proof.
  unfold parallax. destruct (Rlt_dec 400000 500); [lra|]. rewrite tan_0, Rmult_0_r, atan_0. unfold llr2xyz. replace (0 + 0) with 0 by ring.
  rewrite cos_0, sin_0. unfold cs_rEar.
  replace (400000 * 1 * 1 * 1 - (6378.1366 * 1 + 2 * 1) * 1) with 393619.8634 by lra.
  replace (400000 * 1 * 1 * 0 - (6378.1366 * 1 + 2 * 1) * 0) with 0 by lra.
  replace (400000 * 1 * 0 - (6378.1366 * 0 * cs_ba + 2 * 0)) with 0 by ring.
  unfold xyz2llr. replace (393619.8634 * 393619.8634 + 0 * 0 + 0 * 0) with (393619.8634 * 393619.8634) by ring. rewrite sqrt_square by lra.
  apply f_equal2; [apply f_equal2|].
  - unfold atan2. destruct (Rlt_dec 0 393619.8634); [|lra]. unfold Rdiv. rewrite Rmult_0_l, atan_0.
    destruct (rad2mrad_ok 0) as (R1 & k & R2). pose proof PI_RGT_0.
    assert (k = 0%Z). { assert (A1 : IZR k < 1) by nra. assert (A2 : -1 < IZR k) by nra. apply lt_IZR in A1. apply lt_IZR in A2. lia. }
    subst k. lra.
  - unfold Rdiv. rewrite Rmult_0_l. apply asin_0.
  - field.
Qed.

(** ** C103 *)
(** straight motion: q s is the square of the distance at time s *)
Section Straight.
Variables t x y v u : R.
Hypothesis Hv : 0 < v.
Let q s := (x + v * (s - t)) * (x + v * (s - t)) + (y + u * (s - t)) * (y + u * (s - t)).
Let A := u * u + v * v.
Let m := t - (y * u + x * v) / A.
Lemma A_pos : 0 < A.
Proof. unfold A. nra. Qed.
Lemma q_min s : q s = q m + A * (s - m) * (s - m).
Proof. pose proof A_pos. unfold q, m. change (v * v) with (v * v). unfold A in *. field. lra. Qed.
(** a contact of a straight path with a circle it meets *)
Lemma touch r n : 0 <= r -> (exists s, q s <= r * r) ->
  exists s, lineT t x y v u r n = Some s /\ q s = r * r /\ (if n then m <= s else s <= m) /\ forall s', q s' <= r * r -> if n then s' <= s else s <= s'.
Proof.
  intros Hr (s0 & H0). pose proof A_pos as HA. pose proof (C40_contact t x y v u r n Hv) as C. cbv zeta in C.
  destruct (lineT t x y v u r n) as [s|].
  - destruct C as (C1 & C2). exists s. split; [reflexivity|]. change (q s = r * r) in C1. split; [exact C1|].
    assert (M : q (2 * m - s) = r * r) by (rewrite <- C1, (q_min (2 * m - s)), (q_min s); ring).
    pose proof (C2 (2 * m - s) M) as K. assert (SIDE : if n then m <= s else s <= m) by (destruct n; lra). split; [exact SIDE|].
    intros s' K'. rewrite <- C1, (q_min s'), (q_min s) in K'.
    assert (K2 : A * ((s' - m) * (s' - m)) <= A * ((s - m) * (s - m))) by lra.
    apply Rmult_le_reg_l in K2; [|exact HA].
    destruct n; [destruct (Rle_lt_dec s' s); [assumption|exfalso]|destruct (Rle_lt_dec s s'); [assumption|exfalso]]; nra.
  - exfalso. assert (P : 0 <= (r * r - q m) / A). { apply Rmult_le_pos; [|left; apply Rinv_0_lt_compat; exact HA]. rewrite q_min in H0. assert (0 <= A * (s0 - m) * (s0 - m)) by (rewrite Rmult_assoc; apply Rmult_le_pos; [lra|apply Rle_0_sqr]). lra. }
    apply (C (m + sqrt ((r * r - q m) / A))). change (q (m + sqrt ((r * r - q m) / A)) = r * r). rewrite q_min.
    replace (m + sqrt ((r * r - q m) / A) - m) with (sqrt ((r * r - q m) / A)) by ring. rewrite Rmult_assoc, sqrt_sqrt by exact P. field. lra.
Qed.
End Straight.

Lemma le_sq d r : 0 <= r -> (sqrt d <= r <-> d <= r * r).
Proof.
  intros Hr. split; intros H.
  - destruct (Rle_lt_dec d 0); [nra|]. rewrite <- (sqrt_sqrt d) by lra. pose proof (sqrt_pos d). nra.
  - rewrite <- (sqrt_square r) by exact Hr. apply sqrt_le_1_alt, H.
Qed.

(** the moon passes the shadow on a straight line with constant speed and constant radii *)
Definition straight (x0 y0 v u mr er Er s : R) : re0 := mkRe s (x0 + v * s) (y0 + u * s) mr er Er.
Section Uniform.
Variables x0 y0 v u mr er Er : R.
Hypothesis Hv : 0 < v.
Let XY := straight x0 y0 v u mr er Er.
Let q s := (x0 + v * s) * (x0 + v * s) + (y0 + u * s) * (y0 + u * s).
Let m := - (y0 * u + x0 * v) / (u * u + v * v).
Lemma q_shift j s : (x0 + v * j + v * (s - j)) * (x0 + v * j + v * (s - j)) + (y0 + u * j + u * (s - j)) * (y0 + u * j + u * (s - j)) = q s.
Proof. unfold q. ring. Qed.
Lemma A_pos' : 0 < u * u + v * v.
Proof. nra. Qed.
Lemma m_shift j : j - ((y0 + u * j) * u + (x0 + v * j) * v) / (u * u + v * v) = m.
Proof. pose proof A_pos'. unfold m. field. lra. Qed.
Lemma q_min' s : q s = q m + (u * u + v * v) * (s - m) * (s - m).
Proof. pose proof A_pos'. unfold q, m. field. lra. Qed.
Lemma lineT0_straight j r n : 0 <= r -> (exists s, q s <= r * r) ->
  exists s, lineT0 (XY j) v u r n = s /\ q s = r * r /\ (if n then m <= s else s <= m) /\ forall s', q s' <= r * r -> if n then s' <= s else s <= s'.
Proof.
  intros Hr (s0 & H0). destruct (touch j (x0 + v * j) (y0 + u * j) v u Hv r n Hr) as (s & E & Q & S & F).
  { exists s0. rewrite q_shift. exact H0. }
  rewrite q_shift in Q. rewrite m_shift in S. exists s. unfold lineT0. cbn. rewrite E. split; [reflexivity|]. split; [exact Q|]. split; [exact S|].
  intros s' K. apply F. rewrite q_shift. exact K.
Qed.
Lemma again_straight j rd r n : 0 <= r -> (forall s, rd (XY s) = r) -> (exists s, q s <= r * r) ->
  exists s, again XY (XY j) v u rd n = s /\ q s = r * r /\ (if n then m <= s else s <= m) /\ forall s', q s' <= r * r -> if n then s' <= s else s <= s'.
Proof. intros Hr E H. unfold again. rewrite !E. apply lineT0_straight; assumption. Qed.
Lemma contacts j rd r : 0 <= r -> (forall s, rd (XY s) = r) -> (exists s, q s <= r * r) ->
  let P s := distance (x0 + v * s) (y0 + u * s) <= r in
  first_time P (again XY (XY j) v u rd false) /\ last_time P (again XY (XY j) v u rd true) /\
  again XY (XY j) v u rd false <= m <= again XY (XY j) v u rd true.
Proof.
  intros Hr E H P. assert (PI' : forall s, P s <-> q s <= r * r) by (intros s; apply le_sq; exact Hr).
  destruct (again_straight j rd r false Hr E H) as (a & -> & Q1 & S1 & F1). destruct (again_straight j rd r true Hr E H) as (b & -> & Q2 & S2 & F2).
  split; [split; [apply PI'; lra|intros s' K; apply F1, PI', K]|]. split; [split; [apply PI'; lra|intros s' K; apply F2, PI', K]|split; assumption].
Qed.
End Uniform.

(** For straight motion the result does not depend on the start and is exact: kind, magnitude, and all seven moments. *)
Theorem C103_straight x0 y0 v u mr er Er u0 v0 jd : 0 < v -> 0 < mr -> mr < er -> er < Er ->
  let D s := distance (x0 + v * s) (y0 + u * s) in
  let l := lecMax (straight x0 y0 v u mr er Er) u0 v0 jd in
  let T := l_T l in
  let met r a b := (exists s, D s <= r) -> first_time (fun s => D s <= r) (T a) /\ last_time (fun s => D s <= r) (T b) in
  let unset r a := (forall s, r < D s) -> T a = 0 in
  (l_kind l = lec_none <-> forall s, mr + er < D s) /\
  (l_kind l = lec_total <-> exists s, D s <= er - mr) /\
  ((exists s, D s <= mr + er) -> (forall s, D (T 1%nat) <= D s) /\ l_sf l = (mr + er - D (T 1%nat)) / (2 * mr)) /\
  ((forall s, mr + er < D s) -> l_sf l = 0) /\
  met (mr + er) 0%nat 2%nat /\ met (mr + Er) 3%nat 4%nat /\ met (er - mr) 5%nat 6%nat /\
  unset (mr + er) 0%nat /\ unset (mr + er) 1%nat /\ unset (mr + er) 2%nat /\ unset (mr + Er) 3%nat /\ unset (mr + Er) 4%nat /\ unset (er - mr) 5%nat /\ unset (er - mr) 6%nat.
Proof.
  intros Hv Hm He HE D l T met unset.
  set (XY := straight x0 y0 v u mr er Er) in *.
  set (j := jd - (re_y (XY jd) * u0 + re_x (XY jd) * v0) / (u0 * u0 + v0 * v0)) in *.
  set (m := - (y0 * u + x0 * v) / (u * u + v * v)).
  pose proof (A_pos' v u Hv) as HA.
  assert (EU : (re_y (XY (j + 60 / 86400)) - re_y (XY j)) / (60 / 86400) = u) by (cbn; field).
  assert (EV : (re_x (XY (j + 60 / 86400)) - re_x (XY j)) / (60 / 86400) = v) by (cbn; field).
  assert (EM : j + - (re_y (XY j) * u + re_x (XY j) * v) / (u * u + v * v) = m) by (cbn; unfold m; field; lra).
  assert (MIN : forall s, D m <= D s).
  { intros s. unfold D, distance. apply sqrt_le_1_alt. pose proof (q_min' x0 y0 v u Hv s) as Q. fold m in Q. rewrite Q. rewrite Rmult_assoc.
    pose proof (Rmult_le_pos _ _ (Rlt_le _ _ HA) (Rle_0_sqr (s - m))) as K. unfold Rsqr in K. lra. }
  assert (ER : sqrt ((re_x (XY j) + - (re_y (XY j) * u + re_x (XY j) * v) / (u * u + v * v) * v) * (re_x (XY j) + - (re_y (XY j) * u + re_x (XY j) * v) / (u * u + v * v) * v) +
     (re_y (XY j) + - (re_y (XY j) * u + re_x (XY j) * v) / (u * u + v * v) * u) * (re_y (XY j) + - (re_y (XY j) * u + re_x (XY j) * v) / (u * u + v * v) * u)) = D m).
  { unfold D, distance. f_equal. cbn. unfold m. field. lra. }
  assert (EX : forall r, (exists s, D s <= r) <-> D m <= r).
  { intros r. split; [intros (s & H); pose proof (MIN s); lra|intros H; exists m; exact H]. }
  assert (AL : forall r, (forall s, r < D s) <-> r < D m).
  { intros r. split; [intros H; apply H|intros H s; pose proof (MIN s); lra]. }
  assert (CT : forall rd r, 0 <= r -> (forall s, rd (XY s) = r) -> D m <= r ->
    first_time (fun s => D s <= r) (again XY (XY j) v u rd false) /\ last_time (fun s => D s <= r) (again XY (XY j) v u rd true)).
  { intros rd r Hr E H. destruct (contacts x0 y0 v u mr er Er Hv j rd r Hr E) as (C1 & C2 & _); [|split; [exact C1|exact C2]].
    exists m. apply le_sq in H; [exact H|exact Hr]. }
  pose proof (CT (fun g => re_mr g + re_er g) (mr + er) ltac:(lra) (fun _ => eq_refl)) as CU.
  pose proof (CT (fun g => re_mr g + re_Er g) (mr + Er) ltac:(lra) (fun _ => eq_refl)) as CP.
  pose proof (CT (fun g => re_er g - re_mr g) (er - mr) ltac:(lra) (fun _ => eq_refl)) as CC.
  assert (EL : l =
    let aU := again XY (XY j) v u (fun g => re_mr g + re_er g) in
    let aP := again XY (XY j) v u (fun g => re_mr g + re_Er g) in
    let aC := again XY (XY j) v u (fun g => re_er g - re_mr g) in
    let l := mkLec lec_none 0 (fun _ => 0) in
    let l := if Rle_dec (D m) (mr + er) then mkLec lec_partial ((mr + er - D m) / mr / 2) (upd (upd (upd (l_T l) 1 m) 0 (aU false)) 2 (aU true)) else l in
    let l := if Rle_dec (D m) (mr + Er) then mkLec (l_kind l) (l_sf l) (upd (upd (l_T l) 3 (aP false)) 4 (aP true)) else l in
    if Rle_dec (D m) (er - mr) then mkLec lec_total (l_sf l) (upd (upd (l_T l) 5 (aC false)) 6 (aC true)) else l).
  { unfold l, lecMax. fold j. rewrite EU, EV, EM, ER. reflexivity. }
  clearbody l. cbv zeta in EL. unfold met, unset, T. clear met unset T.
  clear EU EV EM ER CT. rewrite !EX, !AL. unfold first_time, last_time in *.
  destruct (Rle_dec (D m) (mr + er)) as [H1|H1]; destruct (Rle_dec (D m) (mr + Er)) as [H2|H2]; destruct (Rle_dec (D m) (er - mr)) as [H3|H3]; try lra;
    subst l; cbn.
  - specialize (CU H1). specialize (CP H2). specialize (CC H3).
    repeat split; intros; try discriminate; try lra; try tauto; try apply CU; try apply CP; try apply CC; try apply MIN; try (field; lra); assumption.
  - specialize (CU H1). specialize (CP H2).
    repeat split; intros; try discriminate; try lra; try tauto; try apply CU; try apply CP; try apply MIN; try (field; lra); assumption.
  - specialize (CP H2). repeat split; intros; try discriminate; try lra; try tauto; try apply CP; try apply MIN; assumption.
  - repeat split; intros; try discriminate; try lra; try tauto; try apply MIN.
Qed.
(** the moments of a total eclipse are in order *)
Theorem C103_order x0 y0 v u mr er Er u0 v0 jd : 0 < v -> 0 < mr -> mr < er -> er < Er ->
  let l := lecMax (straight x0 y0 v u mr er Er) u0 v0 jd in
  let T := l_T l in
  (l_kind l = lec_none \/ (T 3%nat < T 0%nat /\ T 0%nat <= T 1%nat <= T 2%nat /\ T 2%nat < T 4%nat)) /\
  (l_kind l = lec_total -> T 0%nat < T 5%nat /\ T 5%nat <= T 1%nat <= T 6%nat /\ T 6%nat < T 2%nat).
Proof.
  intros Hv Hm He HE l T. pose proof (C103_straight x0 y0 v u mr er Er u0 v0 jd Hv Hm He HE) as C. cbv zeta in C. fold l in C. fold T in C.
  set (D := fun s => distance (x0 + v * s) (y0 + u * s)) in C.
  destruct C as (K0 & K2 & MX & _ & M0 & M3 & M5 & _).
  (* at the contact with a circle the distance is its radius *)
  assert (ST : forall r r' a a', r < r' -> 0 <= r -> first_time (fun s => D s <= r) a -> first_time (fun s => D s <= r') a' -> a' < a).
  { intros r r' a a' Hr R0 (F1 & F2) (F3 & F4). destruct (F4 a) as [L|E]; [unfold D in *; lra|exact L|]. exfalso. subst a'.
    assert (CO : continuity_pt D a). { unfold D, distance. apply (continuity_pt_comp (fun s => (x0 + v * s) * (x0 + v * s) + (y0 + u * s) * (y0 + u * s)) sqrt); [reg|apply continuity_pt_sqrt; cbv beta; apply Rplus_le_le_0_compat; apply Rle_0_sqr]. }
    destruct (CO (r' - r) ltac:(lra)) as (al & Ha & HC). cbn in HC. unfold D_x, no_cond, R_dist in HC.
    specialize (HC (a - al / 2)). assert (P : True /\ a <> a - al / 2) by (split; [exact I|lra]).
    assert (Q : Rabs (a - al / 2 - a) < al) by (replace (a - al / 2 - a) with (- (al / 2)) by ring; rewrite Rabs_Ropp, Rabs_right by lra; lra).
    specialize (HC (conj P Q)). apply Rabs_def2 in HC. pose proof (F4 (a - al / 2)). lra. }
  assert (SL : forall r r' a a', r < r' -> 0 <= r -> last_time (fun s => D s <= r) a -> last_time (fun s => D s <= r') a' -> a < a').
  { intros r r' a a' Hr R0 (F1 & F2) (F3 & F4). destruct (F4 a) as [L|E]; [lra|exact L|]. exfalso. subst a'.
    assert (CO : continuity_pt D a). { unfold D, distance. apply (continuity_pt_comp (fun s => (x0 + v * s) * (x0 + v * s) + (y0 + u * s) * (y0 + u * s)) sqrt); [reg|apply continuity_pt_sqrt; cbv beta; apply Rplus_le_le_0_compat; apply Rle_0_sqr]. }
    destruct (CO (r' - r) ltac:(lra)) as (al & Ha & HC). cbn in HC. unfold D_x, no_cond, R_dist in HC.
    specialize (HC (a + al / 2)). assert (P : True /\ a <> a + al / 2) by (split; [exact I|lra]).
    assert (Q : Rabs (a + al / 2 - a) < al) by (replace (a + al / 2 - a) with (al / 2) by ring; rewrite Rabs_right by lra; lra).
    specialize (HC (conj P Q)). apply Rabs_def2 in HC. pose proof (F4 (a + al / 2)). lra. }
  assert (CASE : (forall s, mr + er < D s) \/ exists s, D s <= mr + er).
  { destruct (Rle_dec (D (- (y0 * u + x0 * v) / (u * u + v * v))) (mr + er)) as [L|L]; [right; eexists; exact L|].
    left. intros s. apply Rnot_le_lt in L. eapply Rlt_le_trans; [exact L|]. unfold D, distance. apply sqrt_le_1_alt.
    pose proof (A_pos' v u Hv) as HA. pose proof (q_min' x0 y0 v u Hv s) as Q. rewrite Q. rewrite Rmult_assoc. set (m := - (y0 * u + x0 * v) / (u * u + v * v)).
    pose proof (Rmult_le_pos _ _ (Rlt_le _ _ HA) (Rle_0_sqr (s - m))) as K. unfold Rsqr in K. lra. }
  destruct CASE as [N|Y].
  - split; [left; apply K0; exact N|]. intros K. apply K2 in K. destruct K as (s & K). pose proof (N s). unfold D in *. lra.
  - destruct (MX Y) as (MN & _). pose proof (M0 Y) as (F0 & L0).
    assert (Y3 : exists s, D s <= mr + Er) by (destruct Y as (s & Y); exists s; unfold D in *; lra). destruct (M3 Y3) as (F3 & L3).
    assert (W : forall r, (exists s, D s <= r) -> D (T 1%nat) <= r) by (intros r (s & H); pose proof (MN s); unfold D in *; lra).
    split.
    + right. pose proof (ST (mr + er) (mr + Er) _ _ ltac:(lra) ltac:(lra) F0 F3). pose proof (SL (mr + er) (mr + Er) _ _ ltac:(lra) ltac:(lra) L0 L3).
      pose proof (proj2 F0 _ (W _ Y)). pose proof (proj2 L0 _ (W _ Y)). lra.
    + intros K. apply K2 in K. destruct (M5 K) as (F5 & L5).
      pose proof (ST (er - mr) (mr + er) _ _ ltac:(lra) ltac:(lra) F5 F0). pose proof (SL (er - mr) (mr + er) _ _ ltac:(lra) ltac:(lra) L5 L0).
      pose proof (proj2 F5 _ (W _ K)). pose proof (proj2 L5 _ (W _ K)). lra.
Qed.
(** the moon passing the centre of the shadow at time 10 with speed 1: radii 1, 3 and 5 *)
Example C103_witness : let l := lecMax (straight (-10) 0 1 0 1 3 5) 0 1 7 in
  l_kind l = lec_total /\ l_sf l = 2 /\ l_T l 0%nat = 6 /\ l_T l 1%nat = 10 /\ l_T l 6%nat = 12.
Proof.
  pose proof (C103_straight (-10) 0 1 0 1 3 5 0 1 7 ltac:(lra) ltac:(lra) ltac:(lra) ltac:(lra)) as C. cbv zeta in *.
  set (l := lecMax (straight (-10) 0 1 0 1 3 5) 0 1 7) in *. set (T := l_T l) in *.
  assert (DE : forall s, distance (-10 + 1 * s) (0 + 0 * s) = Rabs (s - 10)).
  { intros s. unfold distance. rewrite <- sqrt_Rsqr_abs. f_equal. unfold Rsqr. ring. }
  destruct C as (_ & K2 & MX & _ & M0 & _ & M5 & _).
  assert (Z : Rabs (10 - 10) = 0) by (replace (10 - 10) with 0 by ring; apply Rabs_R0).
  destruct MX as (MN & SF). { exists 10. rewrite DE, Z. lra. }
  assert (T1 : T 1%nat = 10). { pose proof (MN 10) as H. rewrite !DE, Z in H. pose proof (Rabs_pos (T 1%nat - 10)). assert (Rabs (T 1%nat - 10) = 0) by lra. destruct (Req_dec (T 1%nat - 10) 0) as [E|E]; [lra|]. apply Rabs_no_R0 in E. lra. }
  rewrite DE, T1, Z in SF.
  destruct M0 as ((F1 & F2) & _). { exists 10. rewrite DE, Z. lra. }
  destruct M5 as (_ & (L1 & L2)). { exists 10. rewrite DE, Z. lra. }
  pose proof (F2 6) as F3. rewrite DE in F1, F3. pose proof (L2 12) as L3. rewrite DE in L1, L3.
  assert (A6 : Rabs (6 - 10) = 4) by (rewrite Rabs_left; lra).
  assert (A12 : Rabs (12 - 10) = 2) by (rewrite Rabs_right; lra).
  split; [apply K2; exists 10; rewrite DE, Z; lra|]. split; [lra|].
  assert (B1 : -4 <= T 0%nat - 10 <= 4) by (apply Rabs_le_inv; lra). assert (B2 : -2 <= T 6%nat - 10 <= 2) by (apply Rabs_le_inv; lra).
  split; [lra|]. split; lra.
Qed.

(** For any motion: the kind, the magnitude and the moment of greatest eclipse are those of the straight path through the place at some moment j, with the
    speed of the minute after j and the radii at j; each contact is either missing (0) or is the first (last) meeting, with the circle, of the straight path
    through the true place at the estimate s, which is itself such a meeting for the path through the place at j. *)
Definition path (G : re0) (v u s : R) : R := distance (re_x G + v * (s - re_t G)) (re_y G + u * (s - re_t G)).
Definition meets (G : re0) (v u r : R) (n : bool) (c : R) : Prop :=
  path G v u c = r /\ (if n then last_time else first_time) (fun s => path G v u s <= r) c.
Lemma path_sq G v u r s : 0 <= r -> (path G v u s <= r <-> (re_x G + v * (s - re_t G)) * (re_x G + v * (s - re_t G)) + (re_y G + u * (s - re_t G)) * (re_y G + u * (s - re_t G)) <= r * r).
Proof. intros Hr. apply le_sq, Hr. Qed.
Lemma lineT0_meets G v u r n : 0 < v -> 0 <= r -> (exists s, path G v u s <= r) -> meets G v u r n (lineT0 G v u r n).
Proof.
  intros Hv Hr (s0 & H0). apply path_sq in H0; [|exact Hr].
  destruct (touch (re_t G) (re_x G) (re_y G) v u Hv r n Hr (ex_intro _ s0 H0)) as (s & E & Q & _ & F).
  unfold lineT0. rewrite E. unfold meets. split. { unfold path, distance. rewrite Q. apply sqrt_square, Hr. } destruct n; split; try (apply path_sq; [exact Hr|lra]); intros s' K; apply F; apply path_sq in K; assumption.
Qed.
Lemma lineT0_none G v u r n : 0 < v -> 0 <= r -> ~ (exists s, path G v u s <= r) -> lineT0 G v u r n = 0.
Proof.
  intros Hv Hr N. pose proof (C40_contact (re_t G) (re_x G) (re_y G) v u r n Hv) as C. cbv zeta in C. unfold lineT0.
  destruct (lineT (re_t G) (re_x G) (re_y G) v u r n) as [s|]; [|reflexivity]. exfalso. apply N. exists s. apply path_sq; [exact Hr|]. destruct C as (C & _). lra.
Qed.
Lemma path_min G v u : 0 < v -> let dt := - (re_y G * u + re_x G * v) / (u * u + v * v) in
  distance (re_x G + dt * v) (re_y G + dt * u) = path G v u (re_t G + dt) /\ forall s, path G v u (re_t G + dt) <= path G v u s.
Proof.
  intros Hv dt. pose proof (A_pos' v u Hv) as HA. split.
  - unfold path, distance. f_equal. ring.
  - intros s. unfold path, distance. apply sqrt_le_1_alt.
    pose proof (q_min (re_t G) (re_x G) (re_y G) v u Hv s) as Q. cbv zeta in Q. rewrite Q.
    replace (re_t G + dt) with (re_t G - (re_y G * u + re_x G * v) / (u * u + v * v)) by (unfold dt; field; lra).
    set (mm := re_t G - _). rewrite Rmult_assoc. pose proof (Rmult_le_pos _ _ (Rlt_le _ _ HA) (Rle_0_sqr (s - mm))) as K. unfold Rsqr in K. lra.
Qed.
(** a contact of lecMax on the circle of radius rd *)
Definition contact (XY : R -> re0) (G : re0) (v u : R) (rd : re0 -> R) (n : bool) (c : R) : Prop :=
  exists s, meets G v u (rd G) n s /\
    ((exists s', path (XY s) v u s' <= rd (XY s)) -> meets (XY s) v u (rd (XY s)) n c) /\
    (~ (exists s', path (XY s) v u s' <= rd (XY s)) -> c = 0).
Lemma again_contact XY G v u rd n : 0 < v -> (forall s, 0 <= rd (XY s)) -> 0 <= rd G -> (exists s, path G v u s <= rd G) -> contact XY G v u rd n (again XY G v u rd n).
Proof.
  intros Hv Hr Hg E. exists (lineT0 G v u (rd G) n). split; [apply lineT0_meets; assumption|]. unfold again. split; intros H; [apply lineT0_meets|apply lineT0_none]; auto.
Qed.
Theorem C103_general XY u0 v0 jd : (forall s, re_t (XY s) = s) -> (forall s, 0 < re_mr (XY s) < re_er (XY s) /\ re_er (XY s) < re_Er (XY s)) ->
  exists j, let G := XY j in
  let v := (re_x (XY (j + 1 / 1440)) - re_x G) / (1 / 1440) in
  let u := (re_y (XY (j + 1 / 1440)) - re_y G) / (1 / 1440) in
  let D := path G v u in
  let l := lecMax XY u0 v0 jd in
  let T := l_T l in
  let met r := exists s, D s <= r in
  0 < v ->
  (l_kind l = lec_none <-> ~ met (re_mr G + re_er G)) /\
  (l_kind l = lec_total <-> met (re_er G - re_mr G)) /\
  (met (re_mr G + re_er G) -> (forall s, D (T 1%nat) <= D s) /\ l_sf l = (re_mr G + re_er G - D (T 1%nat)) / (2 * re_mr G) /\
     contact XY G v u (fun g => re_mr g + re_er g) false (T 0%nat) /\ contact XY G v u (fun g => re_mr g + re_er g) true (T 2%nat)) /\
  (met (re_mr G + re_Er G) -> contact XY G v u (fun g => re_mr g + re_Er g) false (T 3%nat) /\ contact XY G v u (fun g => re_mr g + re_Er g) true (T 4%nat)) /\
  (met (re_er G - re_mr G) -> contact XY G v u (fun g => re_er g - re_mr g) false (T 5%nat) /\ contact XY G v u (fun g => re_er g - re_mr g) true (T 6%nat)).
Proof.
  intros Ht HR. exists (jd - (re_y (XY jd) * u0 + re_x (XY jd) * v0) / (u0 * u0 + v0 * v0)).
  set (j := jd - (re_y (XY jd) * u0 + re_x (XY jd) * v0) / (u0 * u0 + v0 * v0)). intros G.
  replace (1 / 1440) with (60 / 86400) by lra. intros v u D l T met Hv. unfold met, T. clear met T.
  destruct (path_min G v u Hv) as (P1 & P2). cbv zeta in P1, P2. fold D in P1, P2. set (dt := - (re_y G * u + re_x G * v) / (u * u + v * v)) in *.
  assert (EG : re_t G = j) by apply Ht. rewrite EG in P1, P2.
  assert (EX : forall r, (exists s, D s <= r) <-> D (j + dt) <= r).
  { intros r. split; [intros (s & H); pose proof (P2 s); lra|intros H; eexists; exact H]. }
  pose proof (HR j) as HG. fold G in HG.
  assert (AG : forall rd n, (forall s, 0 <= rd (XY s)) -> D (j + dt) <= rd G -> contact XY G v u rd n (again XY G v u rd n)).
  { intros rd n Hr H. apply again_contact; [exact Hv|exact Hr|apply Hr|]. apply EX, H. }
  assert (R1 : forall s, 0 <= re_mr (XY s) + re_er (XY s)) by (intros s; pose proof (HR s); lra).
  assert (R2 : forall s, 0 <= re_mr (XY s) + re_Er (XY s)) by (intros s; pose proof (HR s); lra).
  assert (R3 : forall s, 0 <= re_er (XY s) - re_mr (XY s)) by (intros s; pose proof (HR s); lra).
  pose proof (fun n => AG (fun g => re_mr g + re_er g) n R1) as A1.
  pose proof (fun n => AG (fun g => re_mr g + re_Er g) n R2) as A2.
  pose proof (fun n => AG (fun g => re_er g - re_mr g) n R3) as A3.
  assert (EL : l =
    let aU := again XY G v u (fun g => re_mr g + re_er g) in
    let aP := again XY G v u (fun g => re_mr g + re_Er g) in
    let aC := again XY G v u (fun g => re_er g - re_mr g) in
    let rmin := D (j + dt) in
    let l := mkLec lec_none 0 (fun _ => 0) in
    let l := if Rle_dec rmin (re_mr G + re_er G) then mkLec lec_partial ((re_mr G + re_er G - rmin) / re_mr G / 2) (upd (upd (upd (l_T l) 1 (j + dt)) 0 (aU false)) 2 (aU true)) else l in
    let l := if Rle_dec rmin (re_mr G + re_Er G) then mkLec (l_kind l) (l_sf l) (upd (upd (l_T l) 3 (aP false)) 4 (aP true)) else l in
    if Rle_dec rmin (re_er G - re_mr G) then mkLec lec_total (l_sf l) (upd (upd (l_T l) 5 (aC false)) 6 (aC true)) else l).
  { rewrite <- P1. reflexivity. }
  clearbody l. cbv zeta in EL. rewrite !EX. clear AG R1 R2 R3.
  destruct (Rle_dec (D (j + dt)) (re_mr G + re_er G)) as [H1|H1]; destruct (Rle_dec (D (j + dt)) (re_mr G + re_Er G)) as [H2|H2]; destruct (Rle_dec (D (j + dt)) (re_er G - re_mr G)) as [H3|H3];
    try (exfalso; lra); subst l; cbn;
    repeat match goal with |- _ /\ _ => split | |- _ <-> _ => split end; intros; try discriminate; try lra; try tauto; try apply P2; try (apply A1; assumption); try (apply A2; assumption); try (apply A3; assumption);
    repeat match goal with |- _ /\ _ => split end; intros; try lra; try apply P2; try (apply A1; assumption); try (apply A2; assumption); try (apply A3; assumption); try (field; lra).
Qed.
(** So a contact is as good as the motion is straight between the estimate and it. *)
Theorem C103_error XY v u (rd : re0 -> R) n s c e1 e2 : (forall s, re_t (XY s) = s) -> meets (XY s) v u (rd (XY s)) n c ->
  distance (re_x (XY c) - re_x (XY s) - v * (c - s)) (re_y (XY c) - re_y (XY s) - u * (c - s)) <= e1 -> Rabs (rd (XY c) - rd (XY s)) <= e2 ->
  Rabs (distance (re_x (XY c)) (re_y (XY c)) - rd (XY c)) <= e1 + e2.
Proof.
  intros Ht (M & _) E1 E2. unfold path in M. rewrite Ht in M.
  set (a := re_x (XY s) + v * (c - s)) in *. set (b := re_y (XY s) + u * (c - s)) in *. set (x := re_x (XY c)) in *. set (y := re_y (XY c)) in *.
  replace (x - re_x (XY s) - v * (c - s)) with (x - a) in E1 by (unfold a; ring). replace (y - re_y (XY s) - u * (c - s)) with (y - b) in E1 by (unfold b; ring).
  clearbody a b x y.
  assert (DE : forall p q, distance p q = dist_euc p q 0 0) by (intros; unfold distance, dist_euc, Rsqr; f_equal; ring).
  assert (E3 : distance (x - a) (y - b) = dist_euc x y a b) by reflexivity.
  pose proof (triangle x y 0 0 a b) as T1. pose proof (triangle a b 0 0 x y) as T2. rewrite (distance_symm a b x y) in T2. rewrite <- !DE in T1, T2. rewrite E3 in E1.
  rewrite M in *. unfold Rabs in *. destruct (Rcase_abs (distance x y - rd (XY c))), (Rcase_abs (rd (XY c) - rd (XY s))); lra.
Qed.
(** When the path is curved, the second estimate can miss the circle; then the moment is given as 0 (noon of 2000 January 1) although the eclipse is
    announced and the moon does enter the umbra. *)
Definition bent (s : R) : re0 := mkRe s (s - 10) (1 - (s - 10) * (s - 10) * (s - 10 - 60 / 86400)) (1 / 4) 1 2.
Theorem C103_contact_refuted : exists XY u0 v0 jd, (forall s, re_t (XY s) = s) /\ (forall s, 0 < re_mr (XY s) < re_er (XY s) /\ re_er (XY s) < re_Er (XY s)) /\
  let l := lecMax XY u0 v0 jd in
  let D s := distance (re_x (XY s)) (re_y (XY s)) - (re_mr (XY s) + re_er (XY s)) in
  l_kind l = lec_partial /\ l_T l 0%nat = 0 /\ l_T l 1%nat = 10 /\ D 9.25 > 0 /\ D 10 < 0.
Proof.
  exists bent, 0, 1, 10. split; [reflexivity|]. split; [intros s; cbn; lra|]. intros l D.
  assert (D1 : D 9.25 > 0). { unfold D. cbn. assert (5 / 4 < distance (9.25 - 10) (1 - (9.25 - 10) * (9.25 - 10) * (9.25 - 10 - 60 / 86400))); [|lra].
    unfold distance. rewrite <- (sqrt_square (5 / 4)) by lra. apply sqrt_lt_1_alt. lra. }
  assert (D2 : D 10 < 0). { unfold D. cbn. assert (distance (10 - 10) (1 - (10 - 10) * (10 - 10) * (10 - 10 - 60 / 86400)) = 1); [|lra].
    unfold distance. transitivity (sqrt (1 * 1)); [f_equal; field|apply sqrt_square; lra]. }
  unfold l, lecMax. cbn [re_x re_y re_mr re_er re_Er bent].
  set (j := 10 - ((1 - (10 - 10) * (10 - 10) * (10 - 10 - 60 / 86400)) * 0 + (10 - 10) * 1) / (0 * 0 + 1 * 1)). assert (Ej : j = 10) by (unfold j; field). rewrite Ej. clear Ej j.
  set (u := (1 - (10 + 60 / 86400 - 10) * (10 + 60 / 86400 - 10) * (10 + 60 / 86400 - 10 - 60 / 86400) - (1 - (10 - 10) * (10 - 10) * (10 - 10 - 60 / 86400))) / (60 / 86400)).
  set (v := (10 + 60 / 86400 - 10 - (10 - 10)) / (60 / 86400)).
  assert (Eu : u = 0) by (unfold u; field). assert (Ev : v = 1) by (unfold v; field). rewrite Eu, Ev. clear Eu Ev u v.
  set (dt := - ((1 - (10 - 10) * (10 - 10) * (10 - 10 - 60 / 86400)) * 0 + (10 - 10) * 1) / (0 * 0 + 1 * 1)). assert (Ed : dt = 0) by (unfold dt; field). rewrite Ed. clear Ed dt.
  set (rmin := sqrt _). assert (Er : rmin = 1). { unfold rmin. transitivity (sqrt (1 * 1)); [f_equal; field|apply sqrt_square; lra]. } rewrite Er. clear Er rmin.
  destruct (Rle_dec 1 (1 / 4 + 1)) as [H1|]; [|lra]. destruct (Rle_dec 1 (1 / 4 + 2)) as [H2|]; [|lra]. destruct (Rle_dec 1 (1 - 1 / 4)) as [H3|H3]; [lra|].
  cbn. split; [reflexivity|]. split; [|split; [lra|split; [exact D1|exact D2]]].
  unfold again. set (c := lineT0 (bent 10) 1 0 (re_mr (bent 10) + re_er (bent 10)) false).
  assert (Ec : c = 9.25).
  { unfold c, lineT0, lineT. cbn.
    match goal with |- context [Rlt_dec ?d 0] => assert (Q : d = 3 / 4 * (3 / 4)) by (field); rewrite Q end.
    destruct (Rlt_dec (3 / 4 * (3 / 4)) 0); [lra|]. rewrite sqrt_square by lra. field_simplify. lra. }
  rewrite Ec. unfold lineT0, lineT. cbn.
  match goal with |- context [Rlt_dec ?d 0] => assert (Q : d < 0) by lra; destruct (Rlt_dec d 0); [|lra] end. reflexivity.
Qed.
