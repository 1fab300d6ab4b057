(** Lemmas for C32. *)
From Coq Require Import ZArith Reals Lia Lra Bool List.
From Coq Require Import Floats.SpecFloat.
From Flocq Require Import Core.
From Verif Require Import F64 F64R F64T SsqModel DtModel DtSpec.
Import ListNotations.
Open Scope R_scope.

Lemma rn k M N x : (0 <= k <= 54)%Z -> (2 ^ k = M)%Z -> (2 ^ (54 - k) = N)%Z -> Rabs x <= IZR M -> Rabs (rnd x - x) <= / IZR N.
Proof.
  intros Hk <- <- H. replace (/ IZR (2 ^ (54 - k))) with (bpow radix2 (k - 54)).
  - apply rnd_err; [lia|]. rewrite <- IZR_Zpower by lia. exact H.
  - replace (k - 54)%Z with (- (54 - k))%Z by lia. rewrite bpow_opp. f_equal. rewrite <- IZR_Zpower by lia. reflexivity.
Qed.
Lemma big x : Rabs x <= 1000000000 -> Rabs x <= bpow radix2 1000.
Proof. intros H. apply Rle_trans with (bpow radix2 30); [|apply bpow_le; lia]. change (bpow radix2 30) with 1073741824. lra. Qed.
Lemma mul_err a b A B ea eb ma mb : Rabs (a - A) <= ea -> Rabs (b - B) <= eb -> Rabs A <= ma -> Rabs B <= mb ->
  Rabs (a * b - A * B) <= ma * eb + mb * ea + ea * eb /\ Rabs (a * b) <= (ma + ea) * (mb + eb).
Proof.
  intros H1 H2 H3 H4. pose proof (Rabs_pos (a - A)). pose proof (Rabs_pos (b - B)). pose proof (Rabs_pos A). pose proof (Rabs_pos B). split.
  - replace (a * b - A * B) with (A * (b - B) + B * (a - A) + (a - A) * (b - B)) by ring.
    eapply Rle_trans; [apply Rabs_triang|]. apply Rplus_le_compat; [eapply Rle_trans; [apply Rabs_triang|]; apply Rplus_le_compat|]; rewrite Rabs_mult; apply Rmult_le_compat; auto.
  - rewrite Rabs_mult. apply Rmult_le_compat; try apply Rabs_pos.
    + replace a with (A + (a - A)) by ring. eapply Rle_trans; [apply Rabs_triang|]. lra.
    + replace b with (B + (b - B)) by ring. eapply Rle_trans; [apply Rabs_triang|]. lra.
Qed.
Lemma near_abs a A e m : Rabs (a - A) <= e -> Rabs A <= m -> Rabs a <= m + e.
Proof. intros H1 H2. replace a with (A + (a - A)) by ring. eapply Rle_trans; [apply Rabs_triang|]. lra. Qed.
Lemma near_tri a b c e f : Rabs (a - b) <= e -> Rabs (b - c) <= f -> Rabs (a - c) <= e + f.
Proof. intros H1 H2. replace (a - c) with ((a - b) + (b - c)) by ring. eapply Rle_trans; [apply Rabs_triang|]. lra. Qed.

(** products and sums of approximate values *)
Lemma fmul_near x y X Y ex ey mx my k M N : ok x -> ok y -> Rabs (R64 x - X) <= ex -> Rabs (R64 y - Y) <= ey -> Rabs X <= mx -> Rabs Y <= my ->
  (0 <= k <= 29)%Z -> (2 ^ k = M)%Z -> (2 ^ (54 - k) = N)%Z -> (mx + ex) * (my + ey) <= IZR M ->
  ok (fmul x y) /\ Rabs (R64 (fmul x y) - X * Y) <= / IZR N + (mx * ey + my * ex + ex * ey).
Proof.
  intros Ox Oy H1 H2 H3 H4 Hk HM HN B. destruct (mul_err _ _ _ _ _ _ _ _ H1 H2 H3 H4) as [E1 E2].
  assert (BM : IZR M <= 1000000000) by (rewrite <- HM; apply IZR_le; apply Z.le_trans with (2 ^ 29)%Z; [apply Z.pow_le_mono_r; lia|vm_compute; discriminate]).
  destruct (fmul_ok x y Ox Oy) as [O E]; [apply big; lra|]. split; [exact O|]. rewrite E.
  apply near_tri with (R64 x * R64 y); [|exact E1]. apply (rn k M N); try assumption; [lia|lra].
Qed.
Lemma fadd_near x y X Y ex ey mx my k M N : ok x -> ok y -> Rabs (R64 x - X) <= ex -> Rabs (R64 y - Y) <= ey -> Rabs X <= mx -> Rabs Y <= my ->
  (0 <= k <= 29)%Z -> (2 ^ k = M)%Z -> (2 ^ (54 - k) = N)%Z -> (mx + ex) + (my + ey) <= IZR M ->
  ok (fadd x y) /\ Rabs (R64 (fadd x y) - (X + Y)) <= / IZR N + (ex + ey).
Proof.
  intros Ox Oy H1 H2 H3 H4 Hk HM HN B.
  assert (BM : IZR M <= 1000000000) by (rewrite <- HM; apply IZR_le; apply Z.le_trans with (2 ^ 29)%Z; [apply Z.pow_le_mono_r; lia|vm_compute; discriminate]).
  assert (A : Rabs (R64 x + R64 y) <= IZR M).
  { pose proof (near_abs _ _ _ _ H1 H3). pose proof (near_abs _ _ _ _ H2 H4). eapply Rle_trans; [apply Rabs_triang|]. lra. }
  destruct (fadd_ok x y Ox Oy) as [O E]; [apply big; lra|]. split; [exact O|]. rewrite E.
  apply near_tri with (R64 x + R64 y); [apply (rn k M N); try assumption; lia|].
  replace (R64 x + R64 y - (X + Y)) with ((R64 x - X) + (R64 y - Y)) by ring. eapply Rle_trans; [apply Rabs_triang|]. lra.
Qed.
Lemma fsub_near x y X Y ex ey mx my k M N : ok x -> ok y -> Rabs (R64 x - X) <= ex -> Rabs (R64 y - Y) <= ey -> Rabs X <= mx -> Rabs Y <= my ->
  (0 <= k <= 29)%Z -> (2 ^ k = M)%Z -> (2 ^ (54 - k) = N)%Z -> (mx + ex) + (my + ey) <= IZR M ->
  ok (fsub x y) /\ Rabs (R64 (fsub x y) - (X - Y)) <= / IZR N + (ex + ey).
Proof.
  intros Ox Oy H1 H2 H3 H4 Hk HM HN B.
  assert (BM : IZR M <= 1000000000) by (rewrite <- HM; apply IZR_le; apply Z.le_trans with (2 ^ 29)%Z; [apply Z.pow_le_mono_r; lia|vm_compute; discriminate]).
  assert (A : Rabs (R64 x - R64 y) <= IZR M).
  { pose proof (near_abs _ _ _ _ H1 H3). pose proof (near_abs _ _ _ _ H2 H4). unfold Rminus. eapply Rle_trans; [apply Rabs_triang|]. rewrite Rabs_Ropp. lra. }
  destruct (fsub_ok x y Ox Oy) as [O E]; [apply big; lra|]. split; [exact O|]. rewrite E.
  apply near_tri with (R64 x - R64 y); [apply (rn k M N); try assumption; lia|].
  replace (R64 x - R64 y - (X - Y)) with ((R64 x - X) - (R64 y - Y)) by ring. unfold Rminus at 1. eapply Rle_trans; [apply Rabs_triang|]. rewrite Rabs_Ropp. lra.
Qed.
(** division by an exactly known positive integer *)
Lemma fdiv_near x y X w ex mx k M N : ok x -> ok y -> Rabs (R64 x - X) <= ex -> R64 y = w -> 1 <= w -> Rabs X <= mx * w ->
  (0 <= k <= 29)%Z -> (2 ^ k = M)%Z -> (2 ^ (54 - k) = N)%Z -> mx + ex / w <= IZR M ->
  ok (fdiv x y) /\ Rabs (R64 (fdiv x y) - X / w) <= / IZR N + ex / w.
Proof.
  intros Ox Oy H1 H2 W H3 Hk HM HN B.
  assert (BM : IZR M <= 1000000000) by (rewrite <- HM; apply IZR_le; apply Z.le_trans with (2 ^ 29)%Z; [apply Z.pow_le_mono_r; lia|vm_compute; discriminate]).
  assert (D : Rabs (R64 x / w - X / w) <= ex / w).
  { replace (R64 x / w - X / w) with ((R64 x - X) * / w) by (field; lra). rewrite Rabs_mult, (Rabs_pos_eq (/ w)) by (apply Rlt_le, Rinv_0_lt_compat; lra).
    apply Rmult_le_compat_r; [apply Rlt_le, Rinv_0_lt_compat; lra|exact H1]. }
  assert (A : Rabs (X / w) <= mx).
  { unfold Rdiv. rewrite Rabs_mult, (Rabs_pos_eq (/ w)) by (apply Rlt_le, Rinv_0_lt_compat; lra).
    apply (Rmult_le_reg_r w); [lra|]. rewrite Rmult_assoc, Rinv_l, Rmult_1_r by lra. exact H3. }
  pose proof (near_abs _ _ _ _ D A) as A2.
  destruct (fdiv_ok x y Ox Oy) as [O E]; [lra|rewrite H2; apply big; lra|]. split; [exact O|]. rewrite E, H2.
  apply near_tri with (R64 x / w); [apply (rn k M N); try assumption; [lia|lra]|exact D].
Qed.

Lemma exact_near x X : R64 x = X -> Rabs (R64 x - X) <= 0.
Proof. intros ->. rewrite Rminus_diag_eq by reflexivity. rewrite Rabs_R0. lra. Qed.
Lemma abs_le x m : - m <= x <= m -> Rabs x <= m. Proof. apply Rabs_le. Qed.
Lemma weaken a e f : Rabs a <= e -> e <= f -> Rabs a <= f. Proof. lra. Qed.
Lemma cubic_ok y a b c1 c2 c3 c4 wa wb C1 C2 C3 C4 :
  ok y -> ok a -> ok b -> ok c1 -> ok c2 -> ok c3 -> ok c4 -> R64 a = IZR wa -> R64 b = IZR wb ->
  (-4000 <= wa <= 2100)%Z -> (wa + 5 <= wb <= wa + 4000)%Z -> (wa = -4000 -> wb = -500)%Z ->
  (-10000 <= R64 y) -> (wa <> -4000)%Z /\ IZR wa <= R64 y \/ (wa = -4000)%Z -> R64 y < IZR wb ->
  Rabs (R64 c1 - C1) <= / 137438953472 -> Rabs (R64 c2 - C2) <= / 1099511627776 -> Rabs (R64 c3 - C3) <= / 35184372088832 -> Rabs (R64 c4 - C4) <= / 18014398509481984 ->
  Rabs C1 <= 131072 -> Rabs C2 <= 16384 -> Rabs C3 <= 512 -> Rabs C4 <= 1 ->
  let tau := 10 * (R64 y - IZR wa) / (IZR wb - IZR wa) in
  let v := dt_cubic y a b c1 c2 c3 c4 in
  ok v /\ Rabs (R64 v - (C1 + C2 * tau + C3 * tau ^ 2 + C4 * tau ^ 3)) <= / 4194304 /\ Rabs (C1 + C2 * tau + C3 * tau ^ 2 + C4 * tau ^ 3) <= 700000.
Proof.
  intros Oy Oa Ob O1 O2 O3 O4 Ea Eb Wa Wb W0 Y1 Y2 Y3 H1 H2 H3 H4 B1 B2 B3 B4 tau v. unfold v, dt_cubic. clear v.
  assert (A1 : -4000 <= IZR wa <= 2100) by (split; apply IZR_le; lia).
  assert (D1 : 5 <= IZR wb - IZR wa <= 4000) by (rewrite <- minus_IZR; split; apply IZR_le; lia).
  assert (Q : -2 * (IZR wb - IZR wa) <= R64 y - IZR wa <= 1 * (IZR wb - IZR wa)).
  { destruct Y2 as [[_ Y2]|E]; [split; lra|]. pose proof (W0 E) as E'. rewrite E, E' in *. split; lra. }
  set (w := IZR wb - IZR wa) in *. set (Qv := (R64 y - IZR wa) / w).
  assert (QB : -2 <= Qv <= 1).
  { unfold Qv. split; apply (Rmult_le_reg_r w); try lra; unfold Rdiv; rewrite Rmult_assoc, Rinv_l, Rmult_1_r by lra; lra. }
  assert (ET : tau = Qv * 10) by (unfold tau, Qv; field; lra). clearbody tau.
  (* y - a *)
  destruct (fsub_near y a (R64 y) (IZR wa) 0 0 10000 4000 14 16384 1099511627776 Oy Oa) as [Od Ed];
    [rewrite Rminus_diag_eq by reflexivity; rewrite Rabs_R0; lra|now apply exact_near| | |lia|reflexivity|reflexivity|lra|].
  { apply Rabs_le. assert (IZR wb <= 6100) by (unfold w in D1; lra). destruct Y2 as [[_ Y2]|E]; [|]; split; try lra. }
  { apply Rabs_le. lra. }
  (* b - a *)
  destruct (fsub_ok b a Ob Oa) as [Ow Ew]; [apply big; rewrite Ea, Eb; apply Rabs_le; fold w; lra|].
  rewrite Ea, Eb, <- minus_IZR, rnd_IZR, minus_IZR in Ew by lia. fold w in Ew.
  (* quotient *)
  destruct (fdiv_near (fsub y a) (fsub b a) (R64 y - IZR wa) w (/ 1099511627776) 2 2 4 4503599627370496 Od Ow) as [Oq Eq];
    [apply (weaken _ _ _ Ed); lra|exact Ew|lra|apply Rabs_le; lra|lia|reflexivity|reflexivity| |].
  { assert (/ 1099511627776 / w <= 1). { apply (Rmult_le_reg_r w); [lra|]. unfold Rdiv. rewrite Rmult_assoc, Rinv_l by lra. lra. } lra. }
  fold Qv in Eq. assert (Eq' : Rabs (R64 (fdiv (fsub y a) (fsub b a)) - Qv) <= / 4398046511104).
  { apply (weaken _ _ _ Eq). assert (/ 1099511627776 / w <= / 1099511627776 / 5); [|lra].
    unfold Rdiv. apply Rmult_le_compat_l; [lra|]. apply Rinv_le; lra. }
  set (q := fdiv (fsub y a) (fsub b a)) in *. clearbody q. clear Eq Ed Od Ew Ow.
  (* t1 *)
  destruct (fZ_ok 10 ltac:(lia)) as [O10 E10].
  destruct (fmul_near q (fZ 10) Qv 10 (/ 4398046511104) 0 2 10 5 32 562949953421312 Oq O10 Eq') as [Ot1 Et1];
    [now apply exact_near|apply Rabs_le; lra|apply Rabs_le; lra|lia|reflexivity|reflexivity|lra|].
  rewrite <- ET in Et1. apply (weaken _ _ (/ 412316860416)) in Et1; [|lra].
  assert (TB : -20 <= tau <= 10) by lra.
  set (t1 := fmul q (fZ 10)) in *. clearbody t1.
  assert (T1 : Rabs tau <= 20) by (apply Rabs_le; lra).
  destruct (fmul_near t1 t1 tau tau (/ 412316860416) (/ 412316860416) 20 20 9 512 35184372088832 Ot1 Ot1 Et1 Et1 T1 T1) as [Ot2 Et2];
    [lia|reflexivity|reflexivity|lra|].
  apply (weaken _ _ (/ 8589934592)) in Et2; [|lra]. set (t2 := fmul t1 t1) in *. clearbody t2.
  assert (T2 : Rabs (tau * tau) <= 400) by (rewrite Rabs_mult; pose proof (Rabs_pos tau); nra).
  destruct (fmul_near t2 t1 (tau * tau) tau (/ 8589934592) (/ 412316860416) 400 20 13 8192 2199023255552 Ot2 Ot1 Et2 Et1 T2 T1) as [Ot3 Et3];
    [lia|reflexivity|reflexivity|lra|].
  apply (weaken _ _ (/ 268435456)) in Et3; [|lra]. set (t3 := fmul t2 t1) in *. clearbody t3.
  assert (T3 : Rabs (tau * tau * tau) <= 8000) by (rewrite Rabs_mult; pose proof (Rabs_pos tau); pose proof (Rabs_pos (tau * tau)); nra).
  (* terms *)
  destruct (fmul_near c2 t1 C2 tau _ _ _ _ 19 524288 34359738368 O2 Ot1 H2 Et1 B2 T1) as [Op1 Ep1]; [lia|reflexivity|reflexivity|lra|].
  apply (weaken _ _ (/ 16777216)) in Ep1; [|lra].
  destruct (fmul_near c3 t2 C3 (tau * tau) _ _ _ _ 18 262144 68719476736 O3 Ot2 H3 Et2 B3 T2) as [Op2 Ep2]; [lia|reflexivity|reflexivity|lra|].
  apply (weaken _ _ (/ 14777216)) in Ep2; [|lra].
  destruct (fmul_near c4 t3 C4 (tau * tau * tau) _ _ _ _ 13 8192 2199023255552 O4 Ot3 H4 Et3 B4 T3) as [Op3 Ep3]; [lia|reflexivity|reflexivity|lra|].
  apply (weaken _ _ (/ 134217728)) in Ep3; [|lra].
  assert (P1 : Rabs (C2 * tau) <= 327680) by (rewrite Rabs_mult; pose proof (Rabs_pos tau); pose proof (Rabs_pos C2); nra).
  assert (P2 : Rabs (C3 * (tau * tau)) <= 204800) by (rewrite Rabs_mult; pose proof (Rabs_pos (tau * tau)); pose proof (Rabs_pos C3); nra).
  assert (P3 : Rabs (C4 * (tau * tau * tau)) <= 8000) by (rewrite Rabs_mult; pose proof (Rabs_pos (tau * tau * tau)); pose proof (Rabs_pos C4); nra).
  destruct (fadd_near _ _ _ _ _ _ _ _ 19 524288 34359738368 O1 Op1 H1 Ep1 B1 P1) as [Os1 Es1]; [lia|reflexivity|reflexivity|lra|].
  apply (weaken _ _ (/ 15000000)) in Es1; [|lra].
  assert (S1 : Rabs (C1 + C2 * tau) <= 458752) by (eapply Rle_trans; [apply Rabs_triang|]; lra).
  destruct (fadd_near _ _ _ _ _ _ _ _ 20 1048576 17179869184 Os1 Op2 Es1 Ep2 S1 P2) as [Os2 Es2]; [lia|reflexivity|reflexivity|lra|].
  apply (weaken _ _ (/ 7000000)) in Es2; [|lra].
  assert (S2 : Rabs (C1 + C2 * tau + C3 * (tau * tau)) <= 663552) by (eapply Rle_trans; [apply Rabs_triang|]; lra).
  destruct (fadd_near _ _ _ _ _ _ _ _ 20 1048576 17179869184 Os2 Op3 Es2 Ep3 S2 P3) as [Os3 Es3]; [lia|reflexivity|reflexivity|lra|].
  split; [exact Os3|]. replace (C1 + C2 * tau + C3 * tau ^ 2 + C4 * tau ^ 3) with (C1 + C2 * tau + C3 * (tau * tau) + C4 * (tau * tau * tau)) by ring.
  split; [apply (weaken _ _ _ Es3); lra|]. eapply Rle_trans; [apply Rabs_triang|]. lra.
Qed.

(** ** the table *)
Lemma at_map {A B} (f : A -> B) l i : at_ (map f l) i = option_map f (at_ l i).
Proof. unfold at_. destruct (0 <=? i)%Z; [|reflexivity]. apply nth_error_map. Qed.
Definition lit_is (p : option (Z * Z)) (c k : Z) : bool :=
  match p with Some (n, d) => (n * 10000 =? c * d)%Z && (0 <? d)%Z && (d <=? 10000)%Z && (Z.abs n <=? d * 2 ^ k)%Z && (Z.abs n <=? 2 ^ 53)%Z | None => false end.
Lemma lit_is_ok i c k M N : (0 <= k <= 54)%Z -> (2 ^ k = M)%Z -> (2 ^ (54 - k) = N)%Z -> lit_is (at_ dt_lits i) c k = true ->
  exists x, at_ dt_at i = Some x /\ ok x /\ Rabs (R64 x - IZR c / 10000) <= / IZR N /\ Rabs (IZR c / 10000) <= IZR M.
Proof.
  intros Hk HM HN H. unfold dt_at. rewrite at_map. destruct (at_ dt_lits i) as [[n d]|]; [|discriminate H]. cbn [lit_is] in H. rewrite !andb_true_iff, Z.eqb_eq, Z.ltb_lt, !Z.leb_le in H.
  destruct H as ((((H1 & H2) & H3) & H4) & H5). exists (lit n d). split; [reflexivity|].
  assert (Hd : (0 < d <= 2 ^ 53)%Z) by (split; [lia|]; apply Z.le_trans with 10000%Z; [lia|vm_compute; discriminate]).
  assert (D : 0 < IZR d) by (apply IZR_lt; lia).
  assert (E : IZR c / 10000 = IZR n / IZR d).
  { apply (f_equal IZR) in H1. rewrite !mult_IZR in H1. apply (Rmult_eq_reg_r (IZR d * 10000)); [|lra]. field_simplify; lra. }
  assert (A : Rabs (IZR n / IZR d) <= IZR M).
  { unfold Rdiv. rewrite Rabs_mult, (Rabs_pos_eq (/ IZR d)) by (apply Rlt_le, Rinv_0_lt_compat; lra). apply (Rmult_le_reg_r (IZR d)); [lra|].
    rewrite Rmult_assoc, Rinv_l, Rmult_1_r by lra. rewrite <- abs_IZR, <- mult_IZR. apply IZR_le. rewrite <- HM. lia. }
  destruct (lit_ok n d H5 Hd) as [O V]. split; [exact O|]. rewrite E. split; [|exact A]. rewrite V. now apply (rn k M N).
Qed.
Definition row_check (k : Z) : bool :=
  match at_ rows k with
  | Some (b, c0, c1, c2, c3) => lit_is (at_ dt_lits (5 * k)) (b * 10000) 13 && lit_is (at_ dt_lits (5 * k + 1)) c0 17 && lit_is (at_ dt_lits (5 * k + 2)) c1 14 &&
      lit_is (at_ dt_lits (5 * k + 3)) c2 9 && lit_is (at_ dt_lits (5 * k + 4)) c3 0
  | None => false
  end.
Definition year (k : Z) : Z := match at_ rows k with Some c => first_year c | None => 2028 end.
Lemma rows_checked : forallb row_check (upto 22) = true.
Proof. vm_compute. reflexivity. Qed.
Lemma years_checked : forallb (fun k => (match at_ dt_lits (5 * k) with Some (n, 1) => (n =? year k) && (Z.abs n <=? 4000) | _ => false end)%Z) (upto 23) = true.
Proof. vm_compute. reflexivity. Qed.
Lemma years_increase : forallb (fun k => (year k + 5 <=? year (k + 1)) && (year (k + 1) <=? year k + 4000))%Z (upto 22) = true.
Proof. vm_compute. reflexivity. Qed.
Lemma upto_in n i : (0 <= i < Z.of_nat n)%Z -> In i (upto n).
Proof. intros H. unfold upto. apply in_map_iff. exists (Z.to_nat i). split; [lia|]. apply in_seq. lia. Qed.
Lemma year_at k : (0 <= k <= 22)%Z -> exists x, at_ dt_at (5 * k) = Some x /\ ok x /\ R64 x = IZR (year k) /\ (-4000 <= year k <= 4000)%Z.
Proof.
  intros Hk. pose proof years_checked as C. rewrite forallb_forall in C. specialize (C k (upto_in 23 k ltac:(lia))). unfold dt_at. rewrite at_map.
  destruct (at_ dt_lits (5 * k)) as [[n [|[]|]]|]; try discriminate C. rewrite andb_true_iff, Z.eqb_eq, Z.leb_le in C. destruct C as [-> C].
  exists (lit (year k) 1). split; [reflexivity|]. destruct (lit_ok (year k) 1) as [O E]; [lia|lia|]. split; [exact O|]. split; [|lia].
  rewrite E. replace (IZR (year k) / 1) with (IZR (year k)) by field. apply rnd_IZR. lia.
Qed.
Lemma year_step k : (0 <= k < 22)%Z -> (year k + 5 <= year (k + 1) <= year k + 4000)%Z.
Proof. intros Hk. pose proof years_increase as C. rewrite forallb_forall in C. specialize (C k (upto_in 22 k ltac:(lia))). rewrite andb_true_iff, !Z.leb_le in C. exact C. Qed.
Lemma year_mono j n : (0 <= j)%Z -> (j + Z.of_nat n <= 22)%Z -> (year j <= year (j + Z.of_nat n))%Z.
Proof.
  intros Hj. induction n as [|n IH]; intros Hn; [rewrite Z.add_0_r; lia|]. specialize (IH ltac:(lia)).
  pose proof (year_step (j + Z.of_nat n) ltac:(lia)). replace (j + Z.of_nat (Datatypes.S n))%Z with (j + Z.of_nat n + 1)%Z by lia. lia.
Qed.

(** ** the search *)
Lemma search_ok y : ok y -> R64 y < 2028 -> forall fuel k, (Z.of_nat fuel + k = 24)%Z -> (0 <= k <= 22)%Z -> (k = 0%Z \/ IZR (year k) <= R64 y) ->
  exists k', (0 <= k' < 22)%Z /\ dt_search fuel y (5 * k) = Some (5 * k')%Z /\ (k' = 0%Z \/ IZR (year k') <= R64 y) /\ R64 y < IZR (year (k' + 1)).
Proof.
  intros Oy Hy fuel. induction fuel as [|fuel IH]; intros k F Hk B; [lia|].
  cbn [dt_search]. destruct (Z.ltb_spec (5 * k) 112); [|lia].
  destruct (Z.eq_dec k 22) as [->|N].
  { destruct B as [B|B]; [discriminate B|]. change (year 22) with 2028%Z in B. lra. }
  destruct (year_at (k + 1) ltac:(lia)) as (x & E1 & O & E2 & _). replace (5 * k + 5)%Z with (5 * (k + 1))%Z by lia. rewrite E1. cbn [obind].
  rewrite (fltb_ok y x Oy O), E2. destruct (Rlt_bool_spec (R64 y) (IZR (year (k + 1)))) as [C|C].
  - exists k. split; [lia|]. split; [reflexivity|]. split; [exact B|exact C].
  - destruct (IH (k + 1)%Z ltac:(lia) ltac:(lia) ltac:(right; exact C)) as (k' & R). exists k'. exact R.
Qed.

(** ** the row of the specification *)
Lemma in_table_row y : forall l k c, nth_error l k = Some c -> (forall j, (j < k)%nat -> IZR (next_first (skipn (Datatypes.S j) l)) <= y) ->
  y < IZR (next_first (skipn (Datatypes.S k) l)) ->
  in_table l y = cubic c (10 * (y - IZR (first_year c)) / (IZR (next_first (skipn (Datatypes.S k) l)) - IZR (first_year c))).
Proof.
  induction l as [|c0 l IH]; intros k c E B L; [destruct k; discriminate E|]. cbn [in_table].
  destruct k as [|k].
  - cbn [skipn] in L. injection E as ->. destruct (Rlt_dec y (IZR (next_first l))); [reflexivity|contradiction].
  - destruct (Rlt_dec y (IZR (next_first l))) as [C|C]; [exfalso; specialize (B 0%nat ltac:(lia)); cbn [skipn] in B; lra|].
    apply IH; [exact E| |exact L]. intros j Hj. apply (B (Datatypes.S j)). lia.
Qed.
Lemma next_year k : (0 <= k)%Z -> next_first (skipn (Datatypes.S (Z.to_nat k)) rows) = year (k + 1).
Proof.
  intros Hk. unfold year, at_. destruct (Z.leb_spec 0 (k + 1)); [|lia]. replace (Z.to_nat (k + 1)) with (Datatypes.S (Z.to_nat k)) by lia.
  generalize (Datatypes.S (Z.to_nat k)). generalize rows. intros l. induction l as [|c l IH]; intros [|n]; try reflexivity. exact (IH n).
Qed.

Lemma table_ok y : ok y -> -10000 <= R64 y < 2028 ->
  exists k i a b c1 c2 c3 c4, (0 <= k < 22)%Z /\ dt_search 24 y 0 = Some i /\ i = (5 * k)%Z /\ (k = 0%Z \/ IZR (year k) <= R64 y) /\ R64 y < IZR (year (k + 1)) /\
  at_ dt_at i = Some a /\ at_ dt_at (i + 5) = Some b /\ at_ dt_at (i + 1) = Some c1 /\ at_ dt_at (i + 2) = Some c2 /\ at_ dt_at (i + 3) = Some c3 /\ at_ dt_at (i + 4) = Some c4 /\
  ok (dt_cubic y a b c1 c2 c3 c4) /\ Rabs (R64 (dt_cubic y a b c1 c2 c3 c4) - in_table rows (R64 y)) <= / 4194304 /\ Rabs (in_table rows (R64 y)) <= 700000.
Proof.
  intros Oy [Y1 Y2]. destruct (search_ok y Oy Y2 24 0 ltac:(lia) ltac:(lia) ltac:(now left)) as (k & Hk & ES & Bk & Lk).
  destruct (year_at k ltac:(lia)) as (a & Ea & Oa & Va & Ra). destruct (year_at (k + 1) ltac:(lia)) as (b & Eb & Ob & Vb & _).
  pose proof rows_checked as RC. rewrite forallb_forall in RC. specialize (RC k (upto_in 22 k ltac:(lia))). unfold row_check in RC.
  destruct (at_ rows k) as [[[[[b0 c0] d1] d2] d3]|] eqn:ER; [|discriminate RC]. rewrite !andb_true_iff in RC. destruct RC as ((((_ & R1) & R2) & R3) & R4).
  destruct (lit_is_ok _ _ 17 131072 137438953472 ltac:(lia) eq_refl eq_refl R1) as (c1 & E1 & O1 & N1 & B1).
  destruct (lit_is_ok _ _ 14 16384 1099511627776 ltac:(lia) eq_refl eq_refl R2) as (c2 & E2 & O2 & N2 & B2).
  destruct (lit_is_ok _ _ 9 512 35184372088832 ltac:(lia) eq_refl eq_refl R3) as (c3 & E3 & O3 & N3 & B3).
  destruct (lit_is_ok _ _ 0 1 18014398509481984 ltac:(lia) eq_refl eq_refl R4) as (c4 & E4 & O4 & N4 & B4).
  exists k, (5 * k)%Z, a, b, c1, c2, c3, c4. split; [exact Hk|]. split; [exact ES|]. split; [reflexivity|]. split; [exact Bk|]. split; [exact Lk|].
  split; [exact Ea|]. split; [replace (5 * k + 5)%Z with (5 * (k + 1))%Z by lia; exact Eb|]. do 4 (split; [assumption|]).
  pose proof (year_step k ltac:(lia)) as YS.
  assert (Y0 : (year k = -4000 -> k = 0)%Z).
  { intros E. destruct (Z.eq_dec k 0) as [|NE]; [assumption|]. pose proof (year_step 0 ltac:(lia)) as S0. pose proof (year_mono 1 (Z.to_nat (k - 1)) ltac:(lia) ltac:(lia)) as M. replace (1 + Z.of_nat (Z.to_nat (k - 1)))%Z with k in M by lia. change (0 + 1)%Z with 1%Z in S0. change (year 0) with (-4000)%Z in S0. lia. }
  assert (Y9 : (year k <= 2100)%Z).
  { pose proof (year_mono k (Z.to_nat (22 - k)) ltac:(lia) ltac:(lia)) as M. replace (k + Z.of_nat (Z.to_nat (22 - k)))%Z with 22%Z in M by lia. change (year 22) with 2028%Z in M. lia. }
  destruct (cubic_ok y a b c1 c2 c3 c4 (year k) (year (k + 1)) _ _ _ _ Oy Oa Ob O1 O2 O3 O4 Va Vb ltac:(lia) ltac:(lia) ltac:(intros E; rewrite (Y0 E); reflexivity) Y1
    ltac:(destruct Bk as [->|Bk]; [right; reflexivity|destruct (Z.eq_dec (year k) (-4000)); [now right|now left]]) Lk N1 N2 N3 N4 B1 B2 B3 B4) as (OV & EV & BV).
  split; [exact OV|]. rewrite (in_table_row (R64 y) rows (Z.to_nat k) (b0, c0, d1, d2, d3)).
  - rewrite next_year by lia. assert (FY : first_year (b0, c0, d1, d2, d3) = year k) by (unfold year; rewrite ER; reflexivity). rewrite FY.
    unfold cubic. revert EV BV. set (tau := 10 * _ / _). clearbody tau. intros EV BV. replace ((IZR c0 + IZR d1 * tau + IZR d2 * tau ^ 2 + IZR d3 * tau ^ 3) / 10000) with (IZR c0 / 10000 + IZR d1 / 10000 * tau + IZR d2 / 10000 * tau ^ 2 + IZR d3 / 10000 * tau ^ 3) by field. exact (conj EV BV).
  - unfold at_ in ER. destruct (Z.leb_spec 0 k); [exact ER|lia].
  - intros j Hj. replace j with (Z.to_nat (Z.of_nat j)) by lia. rewrite next_year by lia.
    destruct Bk as [->|Bk]; [cbn in Hj; lia|]. apply Rle_trans with (IZR (year k)); [|exact Bk]. apply IZR_le.
    pose proof (year_mono (Z.of_nat j + 1) (Z.to_nat (k - Z.of_nat j - 1)) ltac:(lia) ltac:(lia)) as M.
    replace (Z.of_nat j + 1 + Z.of_nat (Z.to_nat (k - Z.of_nat j - 1)))%Z with k in M by lia. exact M.
  - rewrite next_year by lia. exact Lk.
Qed.

(** ** the extrapolation *)
Lemma ext_ok y m : ok y -> 0 <= m <= 1000 -> Rabs (R64 y - 1820) <= 100 * m ->
  ok (dt_ext y (fZ 31)) /\ Rabs (R64 (dt_ext y (fZ 31)) - parabola (R64 y)) <= / 10000000 /\ Rabs (parabola (R64 y)) <= 20 + 31 * m * m.
Proof.
  intros Oy Hm B. unfold dt_ext, parabola. destruct (fZ_ok 1820 ltac:(lia)) as [O1 E1]. destruct (fZ_ok 100 ltac:(lia)) as [O2 E2].
  destruct (fZ_ok (-20) ltac:(lia)) as [O3 E3]. destruct (fZ_ok 31 ltac:(lia)) as [O4 E4].
  assert (Y : Rabs (R64 y) <= 101820).
  { replace (R64 y) with ((R64 y - 1820) + 1820) by ring. eapply Rle_trans; [apply Rabs_triang|]. rewrite (Rabs_pos_eq 1820) by lra. lra. }
  destruct (fsub_ok y (fZ 1820) Oy O1) as [Od Ed]; [apply big; rewrite E1; lra|]. rewrite E1 in Ed.
  assert (Nd : Rabs (R64 (fsub y (fZ 1820)) - (R64 y - 1820)) <= / 137438953472) by (rewrite Ed; apply (rn 17 131072); [lia|reflexivity|reflexivity|lra]).
  destruct (fdiv_near (fsub y (fZ 1820)) (fZ 100) (R64 y - 1820) 100 (/ 137438953472) m 10 1024 17592186044416 Od O2 Nd E2) as [Oq Eq];
    [lra|lra|lia|reflexivity|reflexivity|lra|].
  apply (weaken _ _ (/ 7000000000000)) in Eq; [|lra]. set (dy := fdiv _ _) in *. clearbody dy. set (Q := (R64 y - 1820) / 100) in *.
  assert (QB : Rabs Q <= m). { unfold Q, Rdiv. rewrite Rabs_mult, (Rabs_pos_eq (/ 100)) by lra. lra. }
  clearbody Q. assert (B31 : Rabs 31 <= 31) by (apply Rabs_le; lra).
  destruct (fmul_near (fZ 31) dy 31 Q 0 (/ 7000000000000) 31 m 15 32768 549755813888 O4 Oq ltac:(now apply exact_near) Eq B31 QB) as [Op Ep]; [lia|reflexivity|reflexivity|lra|].
  apply (weaken _ _ (/ 150000000000)) in Ep; [|lra].
  assert (PB : Rabs (31 * Q) <= 31 * m) by (rewrite Rabs_mult, (Rabs_pos_eq 31) by lra; lra).
  destruct (fmul_near (fmul (fZ 31) dy) dy (31 * Q) Q _ _ _ _ 25 33554432 536870912 Op Oq Ep Eq PB QB) as [Or Er]; [lia|reflexivity|reflexivity|nra|].
  apply (weaken _ _ (/ 70000000)) in Er; [|lra].
  assert (RB : Rabs (31 * Q * Q) <= 31 * m * m) by (rewrite Rabs_mult; pose proof (Rabs_pos Q); pose proof (Rabs_pos (31 * Q)); nra).
  assert (mm : 31 * m * m <= 31000000) by nra. assert (B20 : Rabs (-20) <= 20) by (apply Rabs_le; lra).
  destruct (fadd_near (fZ (-20)) _ (-20) _ 0 _ 20 _ 25 33554432 536870912 O3 Or ltac:(now apply exact_near) Er B20 RB) as [Os Es]; [lia|reflexivity|reflexivity|lra|].
  split; [exact Os|]. replace (-20 + 31 * Q ^ 2) with (-20 + 31 * Q * Q) by ring. split; [apply (weaken _ _ _ Es); lra|].
  eapply Rle_trans; [apply Rabs_triang|]. rewrite (Rabs_left (-20)) by lra. lra.
Qed.
Lemma dv_ok : ok (fsub (dt_ext (fZ 2028) (fZ 31)) (lit 726 10)) /\ Rabs (R64 (fsub (dt_ext (fZ 2028) (fZ 31)) (lit 726 10)) - (parabola 2028 - 726 / 10)) <= / 8000000.
Proof.
  destruct (fZ_ok 2028 ltac:(lia)) as [O E]. destruct (ext_ok (fZ 2028) 3 O ltac:(lra)) as (O1 & E1 & B1); [rewrite E; apply Rabs_le; lra|]. rewrite E in E1, B1.
  destruct (lit_ok 726 10 ltac:(lia) ltac:(lia)) as [O2 E2]. assert (B2 : Rabs (726 / 10) <= 73) by (apply Rabs_le; lra).
  assert (N2 : Rabs (R64 (lit 726 10) - 726 / 10) <= / 140737488355328) by (rewrite E2; apply (rn 7 128); [lia|reflexivity|reflexivity|lra]).
  destruct (fsub_near _ _ _ _ _ _ _ _ 9 512 35184372088832 O1 O2 E1 N2 B1 B2) as [O3 E3]; [lia|reflexivity|reflexivity|lra|].
  split; [exact O3|]. apply (weaken _ _ _ E3). lra.
Qed.
Lemma blend_ok y : ok y -> 2028 <= R64 y <= 2128 ->
  let v := fsub (dt_ext y (fZ 31)) (fdiv (fmul (fsub (dt_ext (fZ 2028) (fZ 31)) (lit 726 10)) (fsub (fadd (fZ 2028) (fZ 100)) y)) (fZ 100)) in
  ok v /\ Rabs (R64 v - (parabola (R64 y) - (parabola 2028 - 726 / 10) * (2128 - R64 y) / 100)) <= / 2000000.
Proof.
  intros Oy Hy. destruct (ext_ok y 4 Oy ltac:(lra)) as (O1 & E1 & B1); [apply Rabs_le; lra|].
  destruct dv_ok as [O2 E2]. set (dv := fsub (dt_ext (fZ 2028) (fZ 31)) (lit 726 10)) in *. clearbody dv.
  destruct (fZ_ok 2028 ltac:(lia)) as [O20 E20]. destruct (fZ_ok 100 ltac:(lia)) as [O100 E100].
  destruct (fadd_ok (fZ 2028) (fZ 100) O20 O100) as [Oz Ez]; [apply big; rewrite E20, E100; apply Rabs_le; lra|].
  rewrite E20, E100, <- plus_IZR, rnd_IZR in Ez by lia. change (IZR (2028 + 100)) with 2128 in Ez.
  destruct (fsub_ok (fadd (fZ 2028) (fZ 100)) y Oz Oy) as [Oh Eh]; [apply big; rewrite Ez; apply Rabs_le; lra|]. rewrite Ez in Eh.
  assert (Nh : Rabs (R64 (fsub (fadd (fZ 2028) (fZ 100)) y) - (2128 - R64 y)) <= / 140737488355328) by (rewrite Eh; apply (rn 7 128); [lia|reflexivity|reflexivity|apply Rabs_le; lra]).
  set (h := fsub (fadd (fZ 2028) (fZ 100)) y) in *. clearbody h.
  assert (Hd : Rabs (parabola 2028 - 726 / 10) <= 60) by (unfold parabola; apply Rabs_le; lra). assert (Hh : Rabs (2128 - R64 y) <= 100) by (apply Rabs_le; lra).
  destruct (fmul_near dv h _ _ _ _ _ _ 13 8192 2199023255552 O2 Oh E2 Nh Hd Hh) as [Om Em]; [lia|reflexivity|reflexivity|lra|].
  apply (weaken _ _ (/ 70000)) in Em; [|lra].
  assert (Pm : Rabs ((parabola 2028 - 726 / 10) * (2128 - R64 y)) <= 60 * 100) by (rewrite Rabs_mult; apply Rmult_le_compat; try apply Rabs_pos; lra).
  destruct (fdiv_near (fmul dv h) (fZ 100) _ 100 (/ 70000) 60 6 64 281474976710656 Om O100 Em E100) as [Oq Eq]; [lra|lra|lia|reflexivity|reflexivity|lra|].
  apply (weaken _ _ (/ 6000000)) in Eq; [|lra].
  assert (Pq : Rabs ((parabola 2028 - 726 / 10) * (2128 - R64 y) / 100) <= 60) by (unfold Rdiv at 1; rewrite Rabs_mult, (Rabs_pos_eq (/ 100)) by lra; lra).
  destruct (fsub_near _ _ _ _ _ _ _ _ 10 1024 17592186044416 O1 Oq E1 Eq B1 Pq) as [Os Es]; [lia|reflexivity|reflexivity|lra|].
  cbv zeta. split; [exact Os|]. apply (weaken _ _ _ Es). lra.
Qed.
