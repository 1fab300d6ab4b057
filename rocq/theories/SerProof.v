(** Lemmas for C33-C35. *)
From Coq Require Import ZArith Reals Lia Lra Bool List Ascii String.
From Coq Require Import Floats.SpecFloat.
From Flocq Require Import Core.
From Verif Require Import F64 F64R F64T Str StrModel SsqModel AngModel AngProps DtProof SerModel.
Import ListNotations.
Open Scope R_scope.

(** ** evaluation of a polynomial of degree 3 or 5 *)
Lemma poly_ok t x0 x1 x2 x3 x4 x5 C0 C1 C2 C3 C4 C5 : ok t -> Rabs (R64 t) <= 50 -> ok x0 -> ok x1 -> ok x2 -> ok x3 -> ok x4 -> ok x5 ->
  Rabs (R64 x0 - C0) <= / 17179869184 -> Rabs (R64 x1 - C1) <= / 2199023255552 -> Rabs (R64 x2 - C2) <= / 4503599627370496 -> Rabs (R64 x3 - C3) <= / 18014398509481984 ->
  Rabs (R64 x4 - C4) <= / 18014398509481984 / 4096 -> Rabs (R64 x5 - C5) <= / 18014398509481984 / 1048576 ->
  Rabs C0 <= 1000000 -> Rabs C1 <= 8192 -> Rabs C2 <= 4 -> Rabs C3 <= / 16 -> Rabs C4 <= / 4096 -> Rabs C5 <= / 1048576 ->
  let a := fadd (fadd (fadd (fadd (fZ 0) (fmul x0 (fZ 1))) (fmul x1 (fmul (fZ 1) t))) (fmul x2 (fmul (fmul (fZ 1) t) t))) (fmul x3 (fmul (fmul (fmul (fZ 1) t) t) t)) in
  let b := fadd (fadd a (fmul x4 (fmul (fmul (fmul (fmul (fZ 1) t) t) t) t))) (fmul x5 (fmul (fmul (fmul (fmul (fmul (fZ 1) t) t) t) t) t)) in
  let T := R64 t in
  (ok a /\ Rabs (R64 a - (C0 + C1 * T + C2 * T ^ 2 + C3 * T ^ 3)) <= / 1000000000 /\ Rabs (C0 + C1 * T + C2 * T ^ 2 + C3 * T ^ 3) <= 1500000) /\
  (ok b /\ Rabs (R64 b - (C0 + C1 * T + C2 * T ^ 2 + C3 * T ^ 3 + C4 * T ^ 4 + C5 * T ^ 5)) <= / 500000000 /\ Rabs (C0 + C1 * T + C2 * T ^ 2 + C3 * T ^ 3 + C4 * T ^ 4 + C5 * T ^ 5) <= 1600000).
Proof.
  intros Ot Bt O0 O1 O2 O3 O4 O5 N0' N1 N2 N3 N4 N5 B0 B1 B2 B3 B4 B5 a b T. fold T in Bt.
  destruct (fZ_ok 0 ltac:(lia)) as [Oz Ez]. destruct (fZ_ok 1 ltac:(lia)) as [Ou Eu].
  assert (Nt : Rabs (R64 t - T) <= 0) by (unfold T; rewrite Rminus_diag_eq by reflexivity; rewrite Rabs_R0; lra).
  assert (U1 : Rabs 1 <= 1) by (apply Rabs_le; lra). assert (Z1 : Rabs 0 <= 0) by (apply Rabs_le; lra).
  (* powers *)
  assert (P1 : ok (fmul (fZ 1) t) /\ Rabs (R64 (fmul (fZ 1) t) - T) <= 0).
  { destruct (fmul_ok (fZ 1) t Ou Ot) as [O E]; [apply big; rewrite Eu, Rmult_1_l; fold T; lra|]. split; [exact O|]. rewrite E, Eu, Rmult_1_l, rnd_repr by (now apply repr_R64). exact Nt. }
  destruct P1 as [Op1 Np1]. unfold b. clear b. unfold a. clear a. set (p1 := fmul (fZ 1) t) in *. clearbody p1.
  destruct (fmul_near p1 t T T 0 0 50 50 12 4096 4398046511104 Op1 Ot Np1 Nt Bt Bt) as [Op2 Np2]; [lia|reflexivity|reflexivity|lra|].
  apply (weaken _ _ (/ 4398046511104)) in Np2; [|lra]. set (p2 := fmul p1 t) in *. clearbody p2.
  assert (BT2 : Rabs (T * T) <= 2500) by (rewrite Rabs_mult; pose proof (Rabs_pos T); nra).
  destruct (fmul_near p2 t (T * T) T _ 0 2500 50 17 131072 137438953472 Op2 Ot Np2 Nt BT2 Bt) as [Op3 Np3]; [lia|reflexivity|reflexivity|lra|].
  apply (weaken _ _ (/ 40000000000)) in Np3; [|lra]. set (p3 := fmul p2 t) in *. clearbody p3.
  assert (BT3 : Rabs (T * T * T) <= 125000) by (rewrite Rabs_mult; pose proof (Rabs_pos T); pose proof (Rabs_pos (T * T)); nra).
  destruct (fmul_near p3 t (T * T * T) T _ 0 125000 50 23 8388608 2147483648 Op3 Ot Np3 Nt BT3 Bt) as [Op4 Np4]; [lia|reflexivity|reflexivity|lra|].
  apply (weaken _ _ (/ 500000000)) in Np4; [|lra]. set (p4 := fmul p3 t) in *. clearbody p4.
  assert (BT4 : Rabs (T * T * T * T) <= 6250000) by (rewrite Rabs_mult; pose proof (Rabs_pos T); pose proof (Rabs_pos (T * T * T)); nra).
  destruct (fmul_near p4 t (T * T * T * T) T _ 0 6250000 50 29 536870912 33554432 Op4 Ot Np4 Nt BT4 Bt) as [Op5 Np5]; [lia|reflexivity|reflexivity|lra|].
  apply (weaken _ _ (/ 7000000)) in Np5; [|lra]. set (p5 := fmul p4 t) in *. clearbody p5.
  assert (BT5 : Rabs (T * T * T * T * T) <= 312500000) by (rewrite Rabs_mult; pose proof (Rabs_pos T); pose proof (Rabs_pos (T * T * T * T)); nra).
  (* terms *)
  destruct (fmul_near x0 (fZ 1) C0 1 _ 0 1000000 1 20 1048576 17179869184 O0 Ou N0' ltac:(now apply exact_near) B0 U1) as [Oq0 Nq0]; [lia|reflexivity|reflexivity|lra|].
  apply (weaken _ _ (/ 8000000000)) in Nq0; [|lra].
  destruct (fmul_near x1 p1 C1 T _ 0 8192 50 19 524288 34359738368 O1 Op1 N1 Np1 B1 Bt) as [Oq1 Nq1]; [lia|reflexivity|reflexivity|lra|].
  apply (weaken _ _ (/ 19000000000)) in Nq1; [|lra].
  destruct (fmul_near x2 p2 C2 (T * T) _ _ 4 2500 14 16384 1099511627776 O2 Op2 N2 Np2 B2 BT2) as [Oq2 Nq2]; [lia|reflexivity|reflexivity|lra|].
  apply (weaken _ _ (/ 100000000000)) in Nq2; [|lra].
  destruct (fmul_near x3 p3 C3 (T * T * T) _ _ (/ 16) 125000 13 8192 2199023255552 O3 Op3 N3 Np3 B3 BT3) as [Oq3 Nq3]; [lia|reflexivity|reflexivity|lra|].
  apply (weaken _ _ (/ 100000000000)) in Nq3; [|lra].
  destruct (fmul_near x4 p4 C4 (T * T * T * T) _ _ (/ 4096) 6250000 11 2048 8796093022208 O4 Op4 N4 Np4 B4 BT4) as [Oq4 Nq4]; [lia|reflexivity|reflexivity|lra|].
  apply (weaken _ _ (/ 1000000000000)) in Nq4; [|lra].
  destruct (fmul_near x5 p5 C5 (T * T * T * T * T) _ _ (/ 1048576) 312500000 9 512 35184372088832 O5 Op5 N5 Np5 B5 BT5) as [Oq5 Nq5]; [lia|reflexivity|reflexivity|lra|].
  apply (weaken _ _ (/ 1000000000000)) in Nq5; [|lra].
  (* sums *)
  rewrite Rmult_1_r in Nq0.
  assert (M1 : Rabs (C1 * T) <= 409600) by (rewrite Rabs_mult; pose proof (Rabs_pos T); pose proof (Rabs_pos C1); nra).
  assert (M2 : Rabs (C2 * (T * T)) <= 10000) by (rewrite Rabs_mult; pose proof (Rabs_pos (T * T)); pose proof (Rabs_pos C2); nra).
  assert (M3 : Rabs (C3 * (T * T * T)) <= 7813) by (rewrite Rabs_mult; pose proof (Rabs_pos (T * T * T)); pose proof (Rabs_pos C3); nra).
  assert (M4 : Rabs (C4 * (T * T * T * T)) <= 1526) by (rewrite Rabs_mult; pose proof (Rabs_pos (T * T * T * T)); pose proof (Rabs_pos C4); nra).
  assert (M5 : Rabs (C5 * (T * T * T * T * T)) <= 299) by (rewrite Rabs_mult; pose proof (Rabs_pos (T * T * T * T * T)); pose proof (Rabs_pos C5); nra).
  destruct (fadd_near (fZ 0) _ 0 C0 0 _ 0 _ 20 1048576 17179869184 Oz Oq0 ltac:(now apply exact_near) Nq0 Z1 B0) as [Os0 Ns0]; [lia|reflexivity|reflexivity|lra|].
  rewrite Rplus_0_l in Ns0. apply (weaken _ _ (/ 5000000000)) in Ns0; [|lra].
  destruct (fadd_near _ _ _ _ _ _ _ _ 21 2097152 8589934592 Os0 Oq1 Ns0 Nq1 B0 M1) as [Os1 Ns1]; [lia|reflexivity|reflexivity|lra|].
  apply (weaken _ _ (/ 2500000000)) in Ns1; [|lra].
  assert (S1 : Rabs (C0 + C1 * T) <= 1409600) by (eapply Rle_trans; [apply Rabs_triang|]; lra).
  destruct (fadd_near _ _ _ _ _ _ _ _ 21 2097152 8589934592 Os1 Oq2 Ns1 Nq2 S1 M2) as [Os2 Ns2]; [lia|reflexivity|reflexivity|lra|].
  apply (weaken _ _ (/ 1700000000)) in Ns2; [|lra].
  assert (S2 : Rabs (C0 + C1 * T + C2 * (T * T)) <= 1419600) by (eapply Rle_trans; [apply Rabs_triang|]; lra).
  destruct (fadd_near _ _ _ _ _ _ _ _ 21 2097152 8589934592 Os2 Oq3 Ns2 Nq3 S2 M3) as [Os3 Ns3]; [lia|reflexivity|reflexivity|lra|].
  apply (weaken _ _ (/ 1000000000)) in Ns3; [|lra].
  assert (S3 : Rabs (C0 + C1 * T + C2 * (T * T) + C3 * (T * T * T)) <= 1427413) by (eapply Rle_trans; [apply Rabs_triang|]; lra).
  destruct (fadd_near _ _ _ _ _ _ _ _ 21 2097152 8589934592 Os3 Oq4 Ns3 Nq4 S3 M4) as [Os4 Ns4]; [lia|reflexivity|reflexivity|lra|].
  apply (weaken _ _ (/ 850000000)) in Ns4; [|lra].
  assert (S4 : Rabs (C0 + C1 * T + C2 * (T * T) + C3 * (T * T * T) + C4 * (T * T * T * T)) <= 1428939) by (eapply Rle_trans; [apply Rabs_triang|]; lra).
  destruct (fadd_near _ _ _ _ _ _ _ _ 21 2097152 8589934592 Os4 Oq5 Ns4 Nq5 S4 M5) as [Os5 Ns5]; [lia|reflexivity|reflexivity|lra|].
  apply (weaken _ _ (/ 500000000)) in Ns5; [|lra].
  assert (S5 : Rabs (C0 + C1 * T + C2 * (T * T) + C3 * (T * T * T) + C4 * (T * T * T * T) + C5 * (T * T * T * T * T)) <= 1429238) by (eapply Rle_trans; [apply Rabs_triang|]; lra).
  replace (C0 + C1 * T + C2 * T ^ 2 + C3 * T ^ 3 + C4 * T ^ 4 + C5 * T ^ 5) with (C0 + C1 * T + C2 * (T * T) + C3 * (T * T * T) + C4 * (T * T * T * T) + C5 * (T * T * T * T * T)) by ring.
  replace (C0 + C1 * T + C2 * T ^ 2 + C3 * T ^ 3) with (C0 + C1 * T + C2 * (T * T) + C3 * (T * T * T)) by ring.
  split; [split; [exact Os3|split; [exact Ns3|lra]]|split; [exact Os5|split; [exact Ns5|lra]]].
Qed.

(** ** prece *)
Lemma loop6 p j t x0 x1 x2 x3 x4 x5 : at_ p j = Some x0 -> at_ p (j + 1) = Some x1 -> at_ p (j + 2) = Some x2 -> at_ p (j + 3) = Some x3 -> at_ p (j + 4) = Some x4 -> at_ p (j + 5) = Some x5 ->
  let a := fadd (fadd (fadd (fadd (fZ 0) (fmul x0 (fZ 1))) (fmul x1 (fmul (fZ 1) t))) (fmul x2 (fmul (fmul (fZ 1) t) t))) (fmul x3 (fmul (fmul (fmul (fZ 1) t) t) t)) in
  prece_loop 6 p j t (fZ 1) (fZ 0) = Some (fadd (fadd a (fmul x4 (fmul (fmul (fmul (fmul (fZ 1) t) t) t) t))) (fmul x5 (fmul (fmul (fmul (fmul (fmul (fZ 1) t) t) t) t) t))).
Proof.
  intros E0 E1 E2 E3 E4 E5 a. unfold a. cbn [prece_loop]. rewrite E0. cbn [obind]. rewrite E1. cbn [obind].
  replace (j + 1 + 1)%Z with (j + 2)%Z by lia. rewrite E2. cbn [obind]. replace (j + 2 + 1)%Z with (j + 3)%Z by lia. rewrite E3. cbn [obind].
  replace (j + 3 + 1)%Z with (j + 4)%Z by lia. rewrite E4. cbn [obind]. replace (j + 4 + 1)%Z with (j + 5)%Z by lia. rewrite E5. reflexivity.
Qed.
Lemma loop4 p j t x0 x1 x2 x3 : at_ p j = Some x0 -> at_ p (j + 1) = Some x1 -> at_ p (j + 2) = Some x2 -> at_ p (j + 3) = Some x3 ->
  prece_loop 4 p j t (fZ 1) (fZ 0) = Some (fadd (fadd (fadd (fadd (fZ 0) (fmul x0 (fZ 1))) (fmul x1 (fmul (fZ 1) t))) (fmul x2 (fmul (fmul (fZ 1) t) t))) (fmul x3 (fmul (fmul (fmul (fZ 1) t) t) t))).
Proof.
  intros E0 E1 E2 E3. cbn [prece_loop]. rewrite E0. cbn [obind]. rewrite E1. cbn [obind].
  replace (j + 1 + 1)%Z with (j + 2)%Z by lia. rewrite E2. cbn [obind]. replace (j + 2 + 1)%Z with (j + 3)%Z by lia. rewrite E3. reflexivity.
Qed.
(** any run of reads inside the table succeeds *)
Lemma loop_inside p t : forall n j tn c, (0 <= j)%Z -> (j + Z.of_nat n <= Z.of_nat (List.length p))%Z -> exists v, prece_loop n p j t tn c = Some v.
Proof.
  induction n as [|n IH]; intros j tn c Hj Hn; cbn [prece_loop]; [eauto|].
  assert (exists x, at_ p j = Some x) as (x & ->).
  { unfold at_. destruct (Z.leb_spec 0 j); [|lia]. destruct (nth_error p (Z.to_nat j)) eqn:E; [eauto|]. apply nth_error_None in E. lia. }
  cbn [obind]. apply IH; lia.
Qed.
Lemma prefixb_len pat : forall s, prefixb pat s = true -> (List.length pat <= List.length s)%nat.
Proof. induction pat as [|p pat IH]; intros [|c s] H; cbn in *; try lia; try discriminate. apply andb_prop in H. specialize (IH s (proj2 H)). lia. Qed.
Lemma find_at_bound pat : forall s i r, find_at pat s i = Some r -> (i <= r)%Z /\ (r + Z.of_nat (List.length pat) <= i + Z.of_nat (List.length s))%Z.
Proof.
  induction s as [|c s IH]; intros i r H; cbn [find_at] in H.
  - destruct (prefixb pat []) eqn:P; [|discriminate H]. injection H as <-. apply prefixb_len in P. cbn [List.length] in *. lia.
  - destruct (prefixb pat (c :: s)) eqn:P; [injection H as <-; apply prefixb_len in P; lia|]. apply IH in H. cbn [List.length]. lia.
Qed.
(** a literal is near its decimal *)
Definition lit_in (p : Z * Z) (B D : Z) : bool := (* |n / d| <= B / D *)
  (0 <? snd p)%Z && (snd p <=? 2 ^ 53)%Z && (Z.abs (fst p) <=? 2 ^ 53)%Z && (Z.abs (fst p) * D <=? B * snd p)%Z.
Definition dec (p : Z * Z) : R := IZR (fst p) / IZR (snd p).
Lemma lit_in_abs p Bd D : lit_in p Bd D = true -> (0 < D)%Z -> Rabs (dec p) <= IZR Bd / IZR D /\ ok (lit (fst p) (snd p)) /\ R64 (lit (fst p) (snd p)) = rnd (dec p).
Proof.
  unfold lit_in, dec. rewrite !andb_true_iff, Z.ltb_lt, !Z.leb_le. intros (((H1 & H2) & H3) & H4) HD.
  destruct (lit_ok (fst p) (snd p) H3 (conj H1 H2)) as [O E]. split; [|split; assumption].
  assert (P : 0 < IZR (snd p)) by (apply IZR_lt; lia). assert (Q : 0 < IZR D) by (apply IZR_lt; lia).
  unfold Rdiv. rewrite Rabs_mult, (Rabs_pos_eq (/ IZR (snd p))) by (apply Rlt_le, Rinv_0_lt_compat; lra). rewrite <- abs_IZR.
  apply (Rmult_le_reg_r (IZR (snd p) * IZR D)); [nra|]. replace (IZR (Z.abs (fst p)) * / IZR (snd p) * (IZR (snd p) * IZR D)) with (IZR (Z.abs (fst p)) * IZR D) by (field; lra).
  replace (IZR Bd * / IZR D * (IZR (snd p) * IZR D)) with (IZR Bd * IZR (snd p)) by (field; lra). rewrite <- !mult_IZR. now apply IZR_le.
Qed.
Lemma lit_in_near p k M N : lit_in p M 1 = true -> (0 <= k <= 54)%Z -> (2 ^ k = M)%Z -> (2 ^ (54 - k) = N)%Z ->
  ok (lit (fst p) (snd p)) /\ Rabs (R64 (lit (fst p) (snd p)) - dec p) <= / IZR N.
Proof.
  intros H Hk HM HN. destruct (lit_in_abs _ _ _ H ltac:(lia)) as (A & O & E). split; [exact O|]. rewrite E. apply (rn k M N); try assumption. replace (IZR M / 1) with (IZR M) in A by field. exact A.
Qed.
Lemma small_near x k : (-1021 <= - k)%Z -> Rabs x <= bpow radix2 (- k) -> Rabs (rnd x - x) <= bpow radix2 (-54) * bpow radix2 (- k).
Proof. intros Hk H. rewrite <- bpow_plus. replace (-54 + - k)%Z with (- k - 54)%Z by lia. now apply rnd_err. Qed.
Lemma lit_in_small p k D : lit_in p 1 D = true -> (0 <= k <= 1021)%Z -> (2 ^ k = D)%Z ->
  ok (lit (fst p) (snd p)) /\ Rabs (R64 (lit (fst p) (snd p)) - dec p) <= / 18014398509481984 / IZR D /\ Rabs (dec p) <= / IZR D.
Proof.
  intros H Hk HD. assert (0 < 2 ^ k)%Z by (apply Z.pow_pos_nonneg; lia). destruct (lit_in_abs _ _ _ H ltac:(lia)) as (A & O & E). split; [exact O|].
  assert (BP : bpow radix2 (- k) = / IZR D) by (rewrite bpow_opp, <- HD, <- IZR_Zpower by lia; reflexivity).
  replace (1 / IZR D) with (/ IZR D) in A by (unfold Rdiv; ring). split; [|exact A]. rewrite E.
  pose proof (small_near (dec p) k ltac:(lia) ltac:(rewrite BP; exact A)) as S. rewrite BP in S. change (bpow radix2 (-54)) with (/ 18014398509481984) in S. exact S.
Qed.
(** the row of a table *)
Definition row (n : Z) (l : list (Z * Z)) (k : Z) : list (Z * Z) := firstn (Z.to_nat n) (skipn (Z.to_nat (k * n)) l).
Definition row_ok (r : list (Z * Z)) : bool :=
  match r with
  | [a; b; c; d] => lit_in a 1000000 1 && lit_in b 8192 1 && lit_in c 4 1 && lit_in d 1 16
  | [a; b; c; d; e; f] => lit_in a 1000000 1 && lit_in b 8192 1 && lit_in c 4 1 && lit_in d 1 16 && lit_in e 1 4096 && lit_in f 1 1048576
  | _ => false
  end.
Lemma rows_ok : forallb (fun k => row_ok (row 4 lits_IAU1976 k) && row_ok (row 6 lits_IAU2000 k) && row_ok (row 6 lits_P03 k)) (upto 12) = true.
Proof. vm_compute. reflexivity. Qed.
(** the exact value of the polynomial *)
Fixpoint exact_poly (r : list (Z * Z)) (T : R) : R := match r with [] => 0 | a :: r => dec a + T * exact_poly r T end.
Lemma nth_firstn {A} : forall m (j : nat) (q : list A), (j < m)%nat -> nth_error (firstn m q) j = nth_error q j.
Proof. induction m as [|m IH]; intros j q Hj; [lia|]. destruct q as [|x q]; [destruct j; reflexivity|]. destruct j; [reflexivity|]. cbn. apply IH. lia. Qed.
Lemma nth_skipn {A} : forall u v (l : list A), nth_error (skipn u l) v = nth_error l (u + v).
Proof. induction u as [|u IH]; intros v l; [reflexivity|]. destruct l as [|x l]; [destruct v; reflexivity|]. apply IH. Qed.
Lemma row_at n l k i a : (0 < n)%Z -> (0 <= k)%Z -> (0 <= i < n)%Z -> nth_error (row n l k) (Z.to_nat i) = Some a -> at_ (table_of l) (k * n + i) = Some (lit (fst a) (snd a)).
Proof.
  intros Hn Hk Hi H. unfold table_of. rewrite at_map. unfold at_. destruct (Z.leb_spec 0 (k * n + i)); [|nia].
  assert (nth_error l (Z.to_nat (k * n + i)) = Some a) as ->.
  { unfold row in H. rewrite nth_firstn in H by lia. replace (Z.to_nat (k * n + i)) with (Z.to_nat (k * n) + Z.to_nat i)%nat by nia. now rewrite <- nth_skipn. }
  destruct a as [x y]. reflexivity.
Qed.
Lemma rad_ok : ok rad /\ Rabs (R64 rad - 648000 / R64 dpi) <= / 68719476736 /\ 162000 <= R64 rad <= 216000.
Proof.
  unfold rad. change (180 * 3600)%Z with 648000%Z. destruct (fZ_ok 648000 ltac:(lia)) as [O1 E1]. destruct dpi_ok as [Op _]. pose proof dpi_range as RP.
  assert (Q : 162000 < 648000 / R64 dpi < 216000).
  { split; apply (Rmult_lt_reg_r (R64 dpi)); try lra; unfold Rdiv; rewrite Rmult_assoc, Rinv_l, Rmult_1_r by lra; lra. }
  destruct (fdiv_ok (fZ 648000) dpi O1 Op) as [O E]; [lra|apply big; rewrite E1; apply Rabs_le; lra|]. split; [exact O|]. rewrite E, E1.
  split; [apply (rn 18 262144); [lia|reflexivity|reflexivity|apply Rabs_le; lra]|].
  split; [apply rnd_ge_repr; [apply repr_IZR; lia|lra]|apply rnd_le_repr; [apply repr_IZR; lia|lra]].
Qed.
Lemma div_rad_ok c C e : ok c -> Rabs (R64 c - C) <= e -> Rabs C <= 1600000 -> 0 <= e <= / 500000000 ->
  ok (fdiv c rad) /\ Rabs (R64 (fdiv c rad) - C * R64 dpi / 648000) <= / 30000000000000.
Proof.
  intros Oc Nc Bc He. destruct rad_ok as (Or & Nr & Rr). pose proof dpi_range as RP.
  destruct (fdiv_near c rad C (R64 rad) e 10 4 16 1125899906842624 Oc Or Nc eq_refl) as [O E]; [lra|nra|lia|reflexivity|reflexivity| |].
  { assert (e / R64 rad <= 1); [|lra]. apply (Rmult_le_reg_r (R64 rad)); [lra|]. unfold Rdiv. rewrite Rmult_assoc, Rinv_l by lra. lra. }
  split; [exact O|]. assert (e / R64 rad <= / 500000000 / 162000).
  { unfold Rdiv. apply Rmult_le_compat; try lra; [apply Rlt_le, Rinv_0_lt_compat; lra|apply Rinv_le; lra]. }
  assert (D : Rabs (C / R64 rad - C * R64 dpi / 648000) <= / 1000000000000000).
  { replace (C / R64 rad - C * R64 dpi / 648000) with (C * (648000 / R64 dpi - R64 rad) * (/ R64 rad * (R64 dpi / 648000))) by (field; lra).
    rewrite !Rabs_mult. rewrite (Rabs_pos_eq (/ R64 rad)) by (apply Rlt_le, Rinv_0_lt_compat; lra). rewrite (Rabs_pos_eq (R64 dpi / 648000)) by lra.
    rewrite Rabs_minus_sym in Nr.
    apply Rle_trans with (1600000 * / 68719476736 * (/ 162000 * (4 / 648000))); [|lra].
    apply Rmult_le_compat; [apply Rmult_le_pos; apply Rabs_pos|apply Rmult_le_pos; [apply Rlt_le, Rinv_0_lt_compat; lra|lra]|apply Rmult_le_compat; try apply Rabs_pos; lra|].
    apply Rmult_le_compat; [apply Rlt_le, Rinv_0_lt_compat; lra|lra|apply Rinv_le; lra|lra]. }
  pose proof (near_tri _ _ _ _ _ E D). lra.
Qed.
