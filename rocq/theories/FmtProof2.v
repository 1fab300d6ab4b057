(** Proofs about the angle formatting functions. *)
From Coq Require Import ZArith Reals Lia Lra Bool List Ascii String.
From Coq Require Import Floats.SpecFloat.
From Flocq Require Import Core.
From Verif Require Import F64 F64R F64T CalModel CalSpec CalZ CalZ2 CalProof CalProof2 CalProof3.
From Verif Require Import Str DecSpec ItoaModel ItoaProof StrModel StrSpec StrProof FmtModel FmtSpec FmtProof.
Import ListNotations.
Ltac Zify.zify_post_hook ::= idtac.
Open Scope R_scope.

Lemma floor_int_ok d : ok d -> floor_int d = mk_int (Zfloor (R64 d)).
Proof.
  intros O. unfold floor_int. destruct (ffloor_ok d O) as [O1 E1]. rewrite cast_int_ok by assumption.
  now rewrite E1, Ztrunc_IZR.
Qed.

Lemma floor_frac d : ok d -> 0 <= R64 d < 2147483647 ->
  let a := Zfloor (R64 d) in
  floor_int d = Some a /\ (0 <= a < 2147483647)%Z /\ ok (fsub d (fZ a)) /\
  R64 (fsub d (fZ a)) = R64 d - IZR a /\ 0 <= R64 d - IZR a < 1.
Proof.
  intros O Bd a. pose proof (Zfloor_lb (R64 d)) as L. pose proof (Zfloor_ub (R64 d)) as U. fold a in L, U.
  assert (Ba : (0 <= a < 2147483647)%Z).
  { assert (-1 < a)%Z by (apply lt_IZR; lra). assert (a < 2147483647)%Z by (apply lt_IZR; lra). lia. }
  split. { rewrite floor_int_ok by assumption. fold a. apply mk_int_in. unfold int_min, int_max. lia. }
  split; [exact Ba|]. destruct (fZ_ok a) as [O1 E1]; [lia|].
  destruct (fsub_ok d (fZ a)) as [O2 E2]; try assumption.
  { rewrite E1. apply Rabs_small with 1; [apply Rabs_le; lra | small]. }
  rewrite E1 in E2. rewrite rnd_repr in E2 by (apply frac_repr_nonneg; [now apply repr_R64|lra]).
  split; [assumption|]. split; [assumption|]. lra.
Qed.

Lemma scale60 f : ok f -> 0 <= R64 f < 1 ->
  ok (fmul f (fZ 60)) /\ 0 <= R64 (fmul f (fZ 60)) < 60 /\ Rabs (R64 (fmul f (fZ 60)) - R64 f * 60) <= / 281474976710656.
Proof.
  intros O Bf. destruct (scale_lt f 60 O Bf ltac:(now right)) as (O1 & B1 & E1).
  split; [assumption|]. split; [assumption|]. rewrite E1.
  change (/ 281474976710656) with (bpow radix2 (6 - 54)). apply rnd_err; [lia|].
  change (bpow radix2 6) with 64. apply Rabs_le. lra.
Qed.

(** round to nearest, ties up, of a product with Q *)
Lemma scaleQ f Q : ok f -> 0 <= R64 f < 1 -> (1 <= Q <= 100000)%Z ->
  exists z, ok (fadd (fmul f (fZ Q)) (lit 5 10)) /\ Zfloor (R64 (fadd (fmul f (fZ Q)) (lit 5 10))) = z /\
  (0 <= z <= Q)%Z /\ Rabs (IZR z - R64 f * IZR Q) <= / 2 + / 10000000.
Proof.
  intros O Bf BQ. destruct (fZ_ok Q) as [O1 E1]; [lia|].
  assert (Q1 : 1 <= IZR Q <= 100000) by (split; apply IZR_le; lia).
  assert (P : 0 <= R64 f * IZR Q <= IZR Q) by (split; nra).
  destruct (fmul_ok f (fZ Q)) as [O2 E2]; try assumption.
  { rewrite E1. apply Rabs_small with 100000; [apply Rabs_le; lra | small]. }
  rewrite E1 in E2. set (x := fmul f (fZ Q)) in *.
  assert (R2 : Rabs (R64 x - R64 f * IZR Q) <= bpow radix2 (17 - 54)).
  { rewrite E2. apply rnd_err; [lia|]. change (bpow radix2 17) with 131072. apply Rabs_le. lra. }
  assert (B2 : 0 <= R64 x <= IZR Q).
  { rewrite E2. split; [apply rnd_ge_repr; [apply repr_0|lra]|]. apply rnd_le_repr; [apply repr_IZR; lia|lra]. }
  destruct lit_half as [O3 E3]. destruct (fadd_ok x (lit 5 10)) as [O4 E4]; try assumption.
  { rewrite E3. apply Rabs_small with 100001; [apply Rabs_le; lra | small]. }
  rewrite E3 in E4. set (y := fadd x (lit 5 10)) in *.
  assert (R4 : Rabs (R64 y - (R64 x + 1 / 2)) <= bpow radix2 (17 - 54)).
  { rewrite E4. apply rnd_err; [lia|]. change (bpow radix2 17) with 131072. apply Rabs_le. lra. }
  assert (P4 : 0 <= R64 y). { rewrite E4. apply rnd_ge_repr; [apply repr_0|lra]. }
  change (bpow radix2 (17 - 54)) with (/ 137438953472) in R2, R4. apply Rabs_le_inv in R2, R4.
  exists (Zfloor (R64 y)). split; [exact O4|]. split; [reflexivity|].
  pose proof (Zfloor_lb (R64 y)). pose proof (Zfloor_ub (R64 y)). set (z := Zfloor (R64 y)) in *.
  split.
  - assert (-1 < z)%Z by (apply lt_IZR; lra). assert (z < Q + 1)%Z by (apply lt_IZR; rewrite plus_IZR; lra). lia.
  - apply Rabs_le. lra.
Qed.

Lemma carry_dc z Q c (dq : f64) : ok dq -> R64 dq = IZR z -> (0 <= z <= Q)%Z -> (1 <= Q <= 100000)%Z -> (0 <= c <= 59)%Z ->
  exists x z' c', (if fgeb dq (fZ Q) then let* c := mk_int (c + 1) in Some (fsub dq (fZ Q), c) else Some (dq, c)) = Some (x, c') /\
  ok x /\ R64 x = IZR z' /\ (0 <= z' < Q)%Z /\ (0 <= c' <= 60)%Z /\ (c' * Q + z' = c * Q + z)%Z.
Proof.
  intros O E Bz BQ Bc. destruct (fZ_ok Q) as [O1 E1]; [lia|].
  assert (G : fgeb dq (fZ Q) = (Q <=? z)%Z).
  { change (fgeb dq (fZ Q)) with (fleb (fZ Q) dq). rewrite fleb_ok by assumption. rewrite E, E1.
    destruct (Z.leb_spec Q z); [apply Rle_bool_true; now apply IZR_le|apply Rle_bool_false; now apply IZR_lt]. }
  rewrite G. destruct (Z.leb_spec Q z).
  - rewrite mk_int_in by (unfold int_min, int_max; lia). cbn [obind].
    assert (z = Q) by lia. subst z.
    destruct (fsub_ok dq (fZ Q)) as [O2 E2]; try assumption.
    { rewrite E, E1. apply Rabs_small with 1; [apply Rabs_le; lra | small]. }
    rewrite E, E1 in E2. replace (IZR Q - IZR Q) with 0 in E2 by ring. rewrite rnd_repr in E2 by apply repr_0.
    exists (fsub dq (fZ Q)), 0%Z, (c + 1)%Z. split; [reflexivity|]. split; [assumption|]. split; [assumption|].
    split; [lia|]. split; [lia|]. lia.
  - exists dq, z, c. split; [reflexivity|]. split; [assumption|]. split; [assumption|].
    split; [lia|]. split; lia.
Qed.

Lemma rad2strE_split_ok d ext : ok d -> 0 <= R64 d < 2147483646 -> (0 <= ext <= 5)%Z ->
  exists a b c x z, rad2strE_split d ext = Some (a, b, c, x) /\ ok x /\ R64 x = IZR z /\
  (0 <= a)%Z /\ IZR a <= R64 d + 1 /\ (0 <= b <= 59)%Z /\ (0 <= c <= 59)%Z /\ (0 <= z < 10 ^ ext)%Z /\
  Rabs (IZR (sexagesimal (10 ^ ext) a b c z) - R64 d * IZR (3600 * 10 ^ ext)) <= / 2 + / 1000000.
Proof.
  intros O Bd Be. unfold rad2strE_split.
  assert (BQ : (1 <= 10 ^ ext <= 100000)%Z).
  { split; [change 1%Z with (10 ^ 0)%Z|change 100000%Z with (10 ^ 5)%Z]; apply Z.pow_le_mono_r; lia. }
  set (Q := (10 ^ ext)%Z) in *.
  destruct (floor_frac d O ltac:(lra)) as (Ea & Ba & O1 & E1 & F1).
  set (a := Zfloor (R64 d)) in *. rewrite Ea. cbn [obind].
  destruct (scale60 _ O1 ltac:(rewrite E1; exact F1)) as (O2 & B2 & R2). rewrite E1 in R2.
  set (d2 := fmul (fsub d (fZ a)) (fZ 60)) in *.
  destruct (floor_frac d2 O2 ltac:(lra)) as (Eb & Bb & O3 & E3 & F3).
  pose proof (Zfloor_lb (R64 d2)) as Lb. set (b := Zfloor (R64 d2)) in *. rewrite Eb. cbn [obind].
  assert (Bb' : (b < 60)%Z) by (apply lt_IZR; lra).
  destruct (scale60 _ O3 ltac:(rewrite E3; exact F3)) as (O4 & B4 & R4). rewrite E3 in R4.
  set (d4 := fmul (fsub d2 (fZ b)) (fZ 60)) in *.
  destruct (floor_frac d4 O4 ltac:(lra)) as (Ec & Bc & O5 & E5 & F5).
  pose proof (Zfloor_lb (R64 d4)) as Lc. set (c := Zfloor (R64 d4)) in *. rewrite Ec. cbn [obind].
  assert (Bc' : (c < 60)%Z) by (apply lt_IZR; lra).
  destruct (scaleQ _ Q O5 ltac:(rewrite E5; exact F5) BQ) as (z & O6 & Ez & Bz & Rz). rewrite E5 in Rz.
  set (d6 := fadd (fmul (fsub d4 (fZ c)) (fZ Q)) (lit 5 10)) in *.
  destruct (ffloor_ok d6 O6) as [O7 E7]. rewrite Ez in E7.
  destruct (carry_dc z Q c (ffloor d6) O7 E7 Bz BQ ltac:(lia)) as (x & z' & c' & -> & O8 & E8 & B8 & B9 & S1). cbn [obind].
  assert (TOT : Rabs (IZR (sexagesimal Q a b c z) - R64 d * IZR (3600 * Q)) <= / 2 + / 1000000).
  { unfold sexagesimal. rewrite !plus_IZR, !mult_IZR, !plus_IZR, !mult_IZR, !plus_IZR, !mult_IZR.
    assert (Q1 : 1 <= IZR Q <= 100000) by (split; apply IZR_le; lia).
    apply Rabs_le_inv in R2, R4, Rz.
    set (e2 := R64 d2 - (R64 d - IZR a) * 60) in *. set (e4 := R64 d4 - (R64 d2 - IZR b) * 60) in *.
    set (ez := IZR z - (R64 d4 - IZR c) * IZR Q) in *.
    replace (_ - _) with (ez + IZR Q * (e4 + 60 * e2)) by (unfold ez, e4, e2; ring).
    assert (K : Rabs (IZR Q * (e4 + 60 * e2)) <= 100000 * (61 * / 281474976710656)).
    { rewrite Rabs_mult. apply Rmult_le_compat; try apply Rabs_pos; apply Rabs_le; lra. }
    apply Rabs_le_inv in K. apply Rabs_le. lra. }
  pose proof (Zfloor_lb (R64 d)) as La. fold a in La.
  destruct (Z.leb_spec 60 c') as [C1|C1].
  - rewrite mk_int_in by (unfold int_min, int_max; lia). cbn [obind].
    rewrite mk_int_in by (unfold int_min, int_max; lia). cbn [obind].
    destruct (Z.leb_spec 60 (b + 1)) as [C2|C2].
    + rewrite mk_int_in by (unfold int_min, int_max; lia). cbn [obind].
      rewrite mk_int_in by (unfold int_min, int_max; lia). cbn [obind].
      exists (a + 1)%Z, (b + 1 - 60)%Z, (c' - 60)%Z, x, z'.
      split; [reflexivity|]. split; [exact O8|]. split; [exact E8|]. split; [lia|]. split; [rewrite plus_IZR; lra|].
      split; [lia|]. split; [lia|]. split; [lia|].
      replace (sexagesimal Q (a + 1) (b + 1 - 60) (c' - 60) z') with (sexagesimal Q a b c z) by (unfold sexagesimal; lia).
      exact TOT.
    + cbn [obind]. exists a, (b + 1)%Z, (c' - 60)%Z, x, z'.
      split; [reflexivity|]. split; [exact O8|]. split; [exact E8|]. split; [lia|]. split; [lra|].
      split; [lia|]. split; [lia|]. split; [lia|].
      replace (sexagesimal Q a (b + 1) (c' - 60) z') with (sexagesimal Q a b c z) by (unfold sexagesimal; lia).
      exact TOT.
  - cbn [obind]. destruct (Z.leb_spec 60 b) as [C2|C2]; [lia|]. cbn [obind]. exists a, b, c', x, z'.
    split; [reflexivity|]. split; [exact O8|]. split; [exact E8|]. split; [lia|]. split; [lra|].
    split; [lia|]. split; [lia|]. split; [lia|].
    replace (sexagesimal Q a b c' z') with (sexagesimal Q a b c z) by (unfold sexagesimal; lia).
    exact TOT.
Qed.

Lemma rad2str2_split_ok d : ok d -> 0 <= R64 d < 2147483646 ->
  exists a b, rad2str2_split d = Some (a, b) /\ (0 <= a)%Z /\ IZR a <= R64 d + 1 /\ (0 <= b <= 59)%Z /\
  Rabs (IZR (a * 60 + b) - R64 d * 60) <= / 2 + / 1000000.
Proof.
  intros O Bd. unfold rad2str2_split.
  destruct (floor_frac d O ltac:(lra)) as (Ea & Ba & O1 & E1 & F1).
  pose proof (Zfloor_lb (R64 d)) as La. set (a := Zfloor (R64 d)) in *. rewrite Ea. cbn [obind].
  destruct (scaleQ _ 60 O1 ltac:(rewrite E1; exact F1) ltac:(lia)) as (z & O6 & Ez & Bz & Rz). rewrite E1 in Rz.
  rewrite floor_int_ok by exact O6. rewrite Ez. rewrite mk_int_in by (unfold int_min, int_max; lia). cbn [obind].
  assert (TOT : Rabs (IZR (a * 60 + z) - R64 d * 60) <= / 2 + / 1000000).
  { rewrite plus_IZR, mult_IZR. apply Rabs_le_inv in Rz. apply Rabs_le. lra. }
  destruct (Z.leb_spec 60 z).
  - rewrite mk_int_in by (unfold int_min, int_max; lia). cbn [obind].
    rewrite mk_int_in by (unfold int_min, int_max; lia). cbn [obind].
    exists (a + 1)%Z, (z - 60)%Z. split; [reflexivity|]. split; [lia|]. split; [rewrite plus_IZR; lra|]. split; [lia|].
    replace ((a + 1) * 60 + (z - 60))%Z with (a * 60 + z)%Z by lia. exact TOT.
  - exists a, z. split; [reflexivity|]. split; [lia|]. split; [lra|]. split; [lia|]. exact TOT.
Qed.

(** the doubles 180/pi and 12/pi computed by the code, and the scaled angle *)
Lemma per_ok n : n = 180%Z \/ n = 12%Z -> ok (fdiv (fZ n) M_PI) /\ 0 < R64 (fdiv (fZ n) M_PI) <= 58.
Proof.
  assert (P : ok M_PI /\ R64 M_PI = IZR 884279719003555 / IZR (2 ^ 48)).
  { apply lit_val; [lia|vm]. }
  destruct P as [O E]. assert (EN : 3.14 < R64 M_PI < 3.15).
  { rewrite E. change (2 ^ 48)%Z with 281474976710656%Z. lra. }
  intros H. destruct (fZ_ok n) as [O1 E1]; [lia|].
  assert (Bn : 12 <= IZR n <= 180) by (destruct H; subst n; lra).
  assert (Q : 1 <= IZR n / R64 M_PI <= 58).
  { split; apply (Rmult_le_reg_r (R64 M_PI)); try lra; unfold Rdiv; rewrite Rmult_assoc, Rinv_l by lra; lra. }
  destruct (fdiv_ok (fZ n) M_PI) as [O2 E2]; try assumption; [lra| |].
  { rewrite E1. apply Rabs_small with 58; [apply Rabs_le; lra | small]. }
  split; [assumption|]. rewrite E2, E1. split.
  - apply Rlt_le_trans with 1; [lra|]. apply rnd_ge_repr; [apply (repr_IZR 1); lia|lra].
  - apply rnd_le_repr; [apply (repr_IZR 58); lia|lra].
Qed.

Lemma fltb_neg d : ok d -> fltb d (fZ 0) = Rlt_bool (R64 d) 0.
Proof. intros O. destruct (fZ_ok 0) as [O1 E1]; [lia|]. rewrite fltb_ok by assumption. now rewrite E1. Qed.

(** the absolute value taken by the sign branch, and the sign printed *)
Lemma sign_ok d (sp sn : bytes) : ok d -> exists x, (if fltb d (fZ 0) then (fopp d, sn) else (d, sp)) = (x, if Rlt_bool (R64 d) 0 then sn else sp) /\
  ok x /\ R64 x = Rabs (R64 d).
Proof.
  intros O. rewrite fltb_neg by assumption. destruct (fopp_ok d O) as [O1 E1].
  destruct (Rlt_bool_spec (R64 d) 0) as [N|N].
  - exists (fopp d). split; [reflexivity|]. split; [assumption|]. rewrite E1, Rabs_left by assumption. reflexivity.
  - exists d. split; [reflexivity|]. split; [assumption|]. rewrite Rabs_right by lra. reflexivity.
Qed.

Lemma scaled_ok x n : n = 180%Z \/ n = 12%Z -> ok x -> 0 <= R64 x <= 17 ->
  ok (fmul x (fdiv (fZ n) M_PI)) /\ 0 <= R64 (fmul x (fdiv (fZ n) M_PI)) <= 986 /\
  R64 (fmul x (fdiv (fZ n) M_PI)) = rnd (R64 x * R64 (fdiv (fZ n) M_PI)).
Proof.
  intros H O Bx. destruct (per_ok n H) as [O1 B1]. set (p := fdiv (fZ n) M_PI) in *. clearbody p.
  assert (Q : 0 <= R64 x * R64 p <= 986) by (split; nra).
  destruct (fmul_ok x p) as [O2 E2]; try assumption.
  { apply Rabs_small with 986; [apply Rabs_le; lra | small]. }
  split; [assumption|]. split; [|assumption]. rewrite E2. split.
  - apply rnd_ge_repr; [apply repr_0|lra].
  - apply rnd_le_repr; [apply (repr_IZR 986); lia|lra].
Qed.

Lemma deg_field a : (0 <= a <= 999)%Z -> exists A, to_str a = Some A /\ exists f, lastn (B "   " ++ A) 3 = Some f /\ blank_field 3 a f.
Proof.
  intros H. destruct (to_str_ok a) as (t & E & T); [unfold int_min, int_max; lia|]. exists t. split; [exact E|].
  apply (blank_ok 3 a t T). apply (int_text_length a t 1 T).
  change (10 ^ Z.of_nat 2)%Z with 100%Z. change (10 ^ Z.of_nat 3)%Z with 1000%Z. lia.
Qed.

Lemma rad2strE_ok d (flag : bool) ext : ok d -> Rabs (R64 d) <= 17 -> (0 <= ext <= 5)%Z ->
  let per := fdiv (fZ (if flag then 12 else 180)) M_PI in
  exists t a b c z,
    rad2strE d flag ext = Some t /\
    angle_text (if Rlt_bool (R64 d) 0 then B "-" else B " ")
      (if flag then B "h" else B "°") (if flag then B "m" else B "'") (if flag then B "s" else B """") (Z.to_nat ext) a b c z t /\
    (0 <= a <= 999)%Z /\ (0 <= b <= 59)%Z /\ (0 <= c <= 59)%Z /\ (0 <= z < 10 ^ ext)%Z /\
    Rabs (IZR (sexagesimal (10 ^ ext) a b c z) - rnd (Rabs (R64 d) * R64 per) * IZR (3600 * 10 ^ ext)) <= / 2 + / 1000000.
Proof.
  intros O Bd Be per. unfold rad2strE.
  destruct (sign_ok d (B " ") (B "-") O) as (x & -> & Ox & Ex). cbv iota zeta.
  set (sg := if Rlt_bool (R64 d) 0 then B "-" else B " "). clearbody sg.
  set (w1 := if flag then B "h" else B "°"). set (w2 := if flag then B "m" else B "'").
  set (w3 := if flag then B "s" else B """").
  replace (if flag then (fmul x (fdiv (fZ 12) M_PI), B "h", B "m", B "s") else (fmul x (fdiv (fZ 180) M_PI), B "°", B "'", B """"))
    with (fmul x per, w1, w2, w3) by (unfold per, w1, w2, w3; now destruct flag).
  clearbody w1 w2 w3.
  destruct (scaled_ok x (if flag then 12 else 180)%Z) as (O1 & B1 & E1); [destruct flag; auto|assumption| |].
  { rewrite Ex. split; [apply Rabs_pos|assumption]. }
  rewrite Ex in E1. fold per in O1, B1, E1. rewrite <- E1. set (y := fmul x per) in *. clearbody y. clear per E1 Ex.
  destruct (rad2strE_split_ok y ext O1 ltac:(lra) Be) as (a & b & c & q & z & -> & Oq & Eq & Ba & Ua & Bb & Bc & Bz & T).
  cbn [obind]. rewrite cast_int_ok by assumption. rewrite Eq, Ztrunc_IZR.
  assert (BQ : (10 ^ ext <= 100000)%Z) by (change 100000%Z with (10 ^ 5)%Z; apply Z.pow_le_mono_r; lia).
  rewrite mk_int_in by (unfold int_min, int_max; lia). cbn [obind].
  assert (Ba' : (0 <= a <= 999)%Z) by (split; [exact Ba|apply le_IZR; lra]).
  destruct (deg_field a Ba') as (A & -> & fa & E2 & FA). cbn [obind]. rewrite E2. cbn [obind].
  destruct (two_ok b ltac:(lia)) as (fb & -> & FB). cbn [obind].
  destruct (two_ok c ltac:(lia)) as (fc & -> & FC). cbn [obind].
  destruct (to_str_ok z) as (tz & -> & TZ); [unfold int_min, int_max; lia|]. cbn [obind].
  destruct (Z.eqb_spec ext 0) as [E0|E0].
  - cbn [obind]. eexists _, a, b, c, z. split; [reflexivity|].
    refine (conj _ (conj Ba' (conj Bb (conj Bc (conj Bz T))))).
    exists fa, fb, fc, []. split; [reflexivity|]. refine (conj FA (conj FB (conj FC _))).
    rewrite E0 in *. cbn [Z.to_nat]. split; [reflexivity|]. change (10 ^ 0)%Z with 1%Z in Bz. lia.
  - destruct (Z.to_nat ext) as [|n] eqn:En; [lia|]. assert (Eext : ext = Z.of_nat (S n)) by lia.
    change (B "00000") with (repeat "0"%char 5).
    destruct (zero_field n 5 z tz TZ) as (fz & E3 & FZ); [rewrite <- Eext; exact Bz|lia|].
    rewrite <- Eext in E3. rewrite E3. cbn [obind].
    eexists _, a, b, c, z. split; [reflexivity|].
    refine (conj _ (conj Ba' (conj Bb (conj Bc (conj Bz T))))).
    exists fa, fb, fc, (B "." ++ fz ++ w3). split; [reflexivity|]. refine (conj FA (conj FB (conj FC _))).
    exists fz. split; [reflexivity|exact FZ].
Qed.

Lemma rad2str2_ok d : ok d -> Rabs (R64 d) <= 17 ->
  exists t ta tb a b,
    rad2str2 d = Some t /\ t = (if Rlt_bool (R64 d) 0 then B "-" else B "+") ++ ta ++ B "°" ++ tb ++ B "'" /\
    blank_field 3 a ta /\ digits_field 2 b tb /\ (0 <= a <= 999)%Z /\ (0 <= b <= 59)%Z /\
    Rabs (IZR (a * 60 + b) - rnd (Rabs (R64 d) * R64 (fdiv (fZ 180) M_PI)) * 60) <= / 2 + / 1000000.
Proof.
  intros O Bd. unfold rad2str2.
  destruct (sign_ok d (B "+") (B "-") O) as (x & -> & Ox & Ex). cbv iota zeta.
  destruct (scaled_ok x 180) as (O1 & B1 & E1); [now left|assumption| |].
  { rewrite Ex. split; [apply Rabs_pos|assumption]. }
  rewrite Ex in E1. rewrite <- E1. set (y := fmul x (fdiv (fZ 180) M_PI)) in *. clearbody y.
  destruct (rad2str2_split_ok y O1 ltac:(lra)) as (a & b & -> & Ba & Ua & Bb & T). cbn [obind].
  assert (Ba' : (0 <= a <= 999)%Z) by (split; [exact Ba|apply le_IZR; lra]).
  destruct (deg_field a Ba') as (A & -> & fa & E2 & FA). cbn [obind]. rewrite E2. cbn [obind].
  destruct (two_ok b ltac:(lia)) as (fb & -> & FB). cbn [obind].
  eexists _, fa, fb, a, b. split; [reflexivity|].
  refine (conj eq_refl (conj FA (conj FB (conj Ba' (conj Bb T))))).
Qed.
