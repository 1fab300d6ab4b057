(** Error analysis of formulas by computation.  An expression is evaluated in doubles and in real numbers; [bound] computes, in units of
    2^-100, an interval for the real value and a bound for the distance of the two. *)
From Coq Require Import ZArith Reals Lia Lra Bool List.
From Coq Require Import Floats.SpecFloat.
From Flocq Require Import Core IEEE754.BinarySingleNaN.
From Verif Require Import F64 F64R F64S F64E AngModel AngProps PiBound.
Import ListNotations.

Inductive ex : Set := EV (n : nat) | EZ (n : Z) | EL (n d : Z) | EQ (m p n d : Z) | EPi | EOpp (a : ex) | EAdd (a b : ex) | ESub (a b : ex) | EMul (a b : ex) | EDiv (a b : ex)
  | ESin (a : ex) | ECos (a : ex) | ESqrt (a : ex) | ELet (a b : ex).
Section Ev.
Variables fsin fcos : f64 -> f64.
Fixpoint evF (env : list f64) (e : ex) : f64 :=
  match e with
  | EV n => nth n env S754_nan
  | EZ n => fZ n
  | EL n d => lit n d
  | EQ m p _ _ => lit m p
  | EPi => dpi
  | EOpp a => fopp (evF env a)
  | EAdd a b => fadd (evF env a) (evF env b)
  | ESub a b => fsub (evF env a) (evF env b)
  | EMul a b => fmul (evF env a) (evF env b)
  | EDiv a b => fdiv (evF env a) (evF env b)
  | ESin a => fsin (evF env a)
  | ECos a => fcos (evF env a)
  | ESqrt a => fsqrt (evF env a)
  | ELet a b => evF (evF env a :: env) b
  end.
End Ev.
Fixpoint evR (env : list R) (e : ex) : R :=
  match e with
  | EV n => nth n env 0
  | EZ n => IZR n
  | EL n d => IZR n / IZR d
  | EQ _ _ n d => IZR n / IZR d
  | EPi => PI
  | EOpp a => - evR env a
  | EAdd a b => evR env a + evR env b
  | ESub a b => evR env a - evR env b
  | EMul a b => evR env a * evR env b
  | EDiv a b => evR env a / evR env b
  | ESin a => sin (evR env a)
  | ECos a => cos (evR env a)
  | ESqrt a => sqrt (evR env a)
  | ELet a b => evR (evR env a :: env) b
  end%R.

Open Scope Z_scope.
Definition one : Z := 1267650600228229401496703205376.
Record bnd : Set := mkB { lo : Z; hi : Z; er : Z }.
Definition cdiv (a b : Z) : Z := - ((- a) / b).
Definition mag (b : bnd) : Z := Z.max (Z.abs (lo b)) (Z.abs (hi b)).
Definition top : Z := one * 1606938044258990275541962092341162602522202993782792835301376.
(** one rounding of a result in [l, h] that is already e away *)
Definition rounded (l h e : Z) : option bnd :=
  let m := Z.max (Z.abs l) (Z.abs h) in
  if (m + e <=? top) then Some (mkB l h (e + (m + e) / 9007199254740992 + 2)) else None.
Definition min4 (a b c d : Z) := Z.min (Z.min a b) (Z.min c d).
Definition max4 (a b c d : Z) := Z.max (Z.max a b) (Z.max c d).
Definition ob {A B} (x : option A) (f : A -> option B) : option B := match x with Some a => f a | None => None end.
Definition okint (n : Z) : bool := (Z.abs n <=? 9007199254740992).
Fixpoint bound (env : list bnd) (e : ex) : option bnd :=
  match e with
  | EV n => nth_error env n
  | EZ n => if okint n then Some (mkB (n * one) (n * one) 0) else None
  | EL n d => if okint n && okint d && (0 <? d) then rounded (n * one / d) (cdiv (n * one) d) 0 else None
  | EQ m p n d => if okint m && okint p && (0 <? p) && (0 <? d) then rounded (n * one / d) (cdiv (n * one) d) (cdiv (Z.abs (m * d - n * p) * one) (p * d)) else None
  | EPi => Some (mkB 3982441812995697314931158142773 3982441812995697378313688154186 253530120045646)
  | EOpp a => ob (bound env a) (fun x => Some (mkB (- hi x) (- lo x) (er x)))
  | EAdd a b => ob (bound env a) (fun x => ob (bound env b) (fun y => rounded (lo x + lo y) (hi x + hi y) (er x + er y)))
  | ESub a b => ob (bound env a) (fun x => ob (bound env b) (fun y => rounded (lo x - hi y) (hi x - lo y) (er x + er y)))
  | EMul a b => ob (bound env a) (fun x => ob (bound env b) (fun y =>
      let p := min4 (lo x * lo y) (lo x * hi y) (hi x * lo y) (hi x * hi y) in
      let q := max4 (lo x * lo y) (lo x * hi y) (hi x * lo y) (hi x * hi y) in
      rounded (p / one) (cdiv q one) (cdiv (mag x * er y + mag y * er x + er x * er y) one)))
  | EDiv a b => ob (bound env a) (fun x => ob (bound env b) (fun y =>
      if (er y <? lo y) then
        let p := Z.min (lo x * one / lo y) (lo x * one / hi y) in
        let q := Z.max (cdiv (hi x * one) (lo y)) (cdiv (hi x * one) (hi y)) in
        let m := Z.max (Z.abs p) (Z.abs q) in
        rounded p q (cdiv (er x * one + m * er y) (lo y - er y))
      else None))
  | ESin a => ob (bound env a) (fun x => Some (mkB (- one) one (er x + 281474976710656)))
  | ECos a => ob (bound env a) (fun x => Some (mkB (- one) one (er x + 281474976710656)))
  | ESqrt a => ob (bound env a) (fun x =>
      let g := Z.sqrt (lo x * one) in
      if (er x <? lo x) && (0 <? g) then rounded g (Z.sqrt (hi x * one) + 1) (cdiv (er x * one) g) else None)
  | ELet a b => ob (bound env a) (fun x => bound (x :: env) b)
  end.

Open Scope R_scope.
Definition U : R := / IZR one.
Definition nearB (x : f64) (r : R) (b : bnd) : Prop := ok x /\ IZR (lo b) * U <= r <= IZR (hi b) * U /\ Rabs (R64 x - r) <= IZR (er b) * U.

Lemma U_pos : 0 < U.
Proof. apply Rinv_0_lt_compat, IZR_lt. reflexivity. Qed.
Lemma oneU : IZR one * U = 1.
Proof. apply Rinv_r. apply not_0_IZR. discriminate. Qed.
Lemma er_nonneg x r b : nearB x r b -> (0 <= er b)%Z.
Proof. intros (_ & _ & E). pose proof (Rabs_pos (R64 x - r)) as P. pose proof U_pos. apply le_IZR. nra. Qed.
Lemma lo_hi x r b : nearB x r b -> (lo b <= hi b)%Z.
Proof. intros (_ & [L H] & _). pose proof U_pos. apply le_IZR. nra. Qed.
Lemma in_mag l h r : IZR l * U <= r <= IZR h * U -> Rabs r <= IZR (Z.max (Z.abs l) (Z.abs h)) * U.
Proof.
  intros [L H]. pose proof U_pos as P.
  assert (A : IZR h <= IZR (Z.max (Z.abs l) (Z.abs h))) by (apply IZR_le; lia). assert (B : - IZR (Z.max (Z.abs l) (Z.abs h)) <= IZR l) by (rewrite <- opp_IZR; apply IZR_le; lia).
  apply Rabs_le. nra.
Qed.
Lemma cdiv_ge a b : (0 < b)%Z -> IZR a / IZR b <= IZR (cdiv a b).
Proof.
  intros H. unfold cdiv. assert (P : 0 < IZR b) by (now apply IZR_lt). apply Rmult_le_reg_r with (IZR b); [exact P|]. unfold Rdiv. rewrite Rmult_assoc, Rinv_l, Rmult_1_r by lra.
  rewrite <- mult_IZR. apply IZR_le. pose proof (Z.mul_div_le (- a) b H). lia.
Qed.
Lemma fdiv_le a b : (0 < b)%Z -> IZR (a / b) <= IZR a / IZR b.
Proof.
  intros H. assert (P : 0 < IZR b) by (now apply IZR_lt). apply Rmult_le_reg_r with (IZR b); [exact P|]. unfold Rdiv. rewrite Rmult_assoc, Rinv_l, Rmult_1_r by lra.
  rewrite <- mult_IZR. apply IZR_le. pose proof (Z.mul_div_le a b H). lia.
Qed.
Lemma div_up a : IZR a * u53 <= IZR (a / 9007199254740992) + 1.
Proof.
  unfold u53. assert (H : (a < 9007199254740992 * (a / 9007199254740992 + 1))%Z) by (pose proof (Z.mul_succ_div_gt a 9007199254740992 ltac:(lia)); lia).
  apply IZR_lt in H. rewrite mult_IZR, plus_IZR in H. lra.
Qed.
Lemma rounded_ok x z r l h e b : ok x -> R64 x = rnd z -> Rabs (z - r) <= IZR e * U -> IZR l * U <= r <= IZR h * U -> (0 <= e)%Z -> rounded l h e = Some b -> nearB x r b.
Proof.
  intros O E D B He. unfold rounded. destruct (_ <=? _)%Z; [|discriminate]. intros [= <-]. pose proof (in_mag _ _ _ B) as M. pose proof U_pos as P.
  set (m := Z.max _ _) in *. split; [exact O|]. split; [exact B|]. cbn [er].
  destruct (near_rnd x z r (IZR e * U) (IZR m * U) (IZR (e + (m + e) / 9007199254740992 + 2) * U) O E D M) as (_ & R & _); [|exact R].
  pose proof (div_up (m + e)) as A. rewrite !plus_IZR in *. assert (T : tiny <= 1 * U). { unfold tiny, U, one. rewrite Rmult_1_l. apply Rinv_le; [apply IZR_lt; reflexivity|apply IZR_le; discriminate]. }
  assert (Q : (IZR m * U + IZR e * U) * u53 <= (IZR ((m + e) / 9007199254740992) + 1) * U).
  { replace ((IZR m * U + IZR e * U) * u53) with (((IZR m + IZR e) * u53) * U) by ring. apply Rmult_le_compat_r; lra. }
  lra.
Qed.
Lemma top_big : IZR top * U = big.
Proof. unfold top, big. rewrite mult_IZR. replace (IZR one * _ * U) with ((IZR one * U) * 1606938044258990275541962092341162602522202993782792835301376) by ring. rewrite oneU. ring. Qed.
Lemma rounded_top l h e b r z : rounded l h e = Some b -> IZR l * U <= r <= IZR h * U -> Rabs (z - r) <= IZR e * U -> Rabs z <= bpow radix2 1000.
Proof.
  unfold rounded. destruct (Z.leb_spec (Z.max (Z.abs l) (Z.abs h) + e) top) as [H|]; [|discriminate]. intros _ B D. pose proof (in_mag _ _ _ B) as M. pose proof U_pos as P.
  apply IZR_le in H. rewrite plus_IZR in H. apply Rle_trans with (2 := big_1000). rewrite <- top_big.
  replace z with (r + (z - r)) by ring. apply (Rle_trans _ _ _ (Rabs_triang _ _)). nra.
Qed.
Lemma lin_ge a b c x L : a <= x <= b -> L <= a * c -> L <= b * c -> L <= x * c.
Proof. intros [A B] H1 H2. destruct (Rle_lt_dec 0 c); nra. Qed.
Lemma mul_ge a b c d x y L : a <= x <= b -> c <= y <= d -> L <= a * c -> L <= a * d -> L <= b * c -> L <= b * d -> L <= x * y.
Proof.
  intros X Y H1 H2 H3 H4. rewrite Rmult_comm. apply (lin_ge c d); [exact Y| |]; rewrite Rmult_comm; apply (lin_ge a b); assumption.
Qed.
Lemma mul_le a b c d x y L : a <= x <= b -> c <= y <= d -> a * c <= L -> a * d <= L -> b * c <= L -> b * d <= L -> x * y <= L.
Proof. intros X Y H1 H2 H3 H4. pose proof (mul_ge a b c d x y (a * c) X Y) as G. assert (- L <= - x * y); [|lra]. apply (mul_ge (- b) (- a) c d); lra. Qed.
Lemma scale2 p q : IZR p * U * (IZR q * U) = IZR (p * q) / IZR one * U.
Proof. rewrite mult_IZR. unfold U, Rdiv. ring. Qed.
Lemma one_pos : (0 < one)%Z. Proof. reflexivity. Qed.
Lemma min4_le a b c d : (min4 a b c d <= a /\ min4 a b c d <= b /\ min4 a b c d <= c /\ min4 a b c d <= d)%Z.
Proof. unfold min4. lia. Qed.
Lemma max4_ge a b c d : (a <= max4 a b c d /\ b <= max4 a b c d /\ c <= max4 a b c d /\ d <= max4 a b c d)%Z.
Proof. unfold max4. lia. Qed.
Lemma down p z : (p <= z)%Z -> IZR (p / one) * U <= IZR z / IZR one * U.
Proof.
  intros H. pose proof U_pos. apply Rmult_le_compat_r; [lra|]. apply Rle_trans with (1 := fdiv_le p one one_pos). unfold Rdiv. apply Rmult_le_compat_r; [fold U; lra|]. now apply IZR_le.
Qed.
Lemma upw p z : (z <= p)%Z -> IZR z / IZR one * U <= IZR (cdiv p one) * U.
Proof.
  intros H. pose proof U_pos. apply Rmult_le_compat_r; [lra|]. apply Rle_trans with (2 := cdiv_ge p one one_pos). unfold Rdiv. apply Rmult_le_compat_r; [fold U; lra|]. now apply IZR_le.
Qed.

Lemma B_add x y r s a b c : nearB x r a -> nearB y s b -> rounded (lo a + lo b) (hi a + hi b) (er a + er b) = Some c -> nearB (fadd x y) (r + s) c.
Proof.
  intros X Y Q. pose proof (er_nonneg _ _ _ X). pose proof (er_nonneg _ _ _ Y). destruct X as (OX & BX & EX), Y as (OY & BY & EY). pose proof U_pos as P.
  assert (D : Rabs (R64 x + R64 y - (r + s)) <= IZR (er a + er b) * U).
  { replace (R64 x + R64 y - (r + s)) with ((R64 x - r) + (R64 y - s)) by ring. apply (Rle_trans _ _ _ (Rabs_triang _ _)). rewrite plus_IZR. lra. }
  assert (I : IZR (lo a + lo b) * U <= r + s <= IZR (hi a + hi b) * U) by (rewrite !plus_IZR; lra).
  destruct (fadd_ok x y OX OY) as [O E]; [exact (rounded_top _ _ _ _ _ _ Q I D)|]. apply (rounded_ok _ _ _ _ _ _ _ O E D I); [lia|exact Q].
Qed.
Lemma B_sub x y r s a b c : nearB x r a -> nearB y s b -> rounded (lo a - hi b) (hi a - lo b) (er a + er b) = Some c -> nearB (fsub x y) (r - s) c.
Proof.
  intros X Y Q. pose proof (er_nonneg _ _ _ X). pose proof (er_nonneg _ _ _ Y). destruct X as (OX & BX & EX), Y as (OY & BY & EY). pose proof U_pos as P.
  assert (D : Rabs (R64 x - R64 y - (r - s)) <= IZR (er a + er b) * U).
  { replace (R64 x - R64 y - (r - s)) with ((R64 x - r) + - (R64 y - s)) by ring. apply (Rle_trans _ _ _ (Rabs_triang _ _)). rewrite Rabs_Ropp, plus_IZR. lra. }
  assert (I : IZR (lo a - hi b) * U <= r - s <= IZR (hi a - lo b) * U) by (rewrite !minus_IZR; lra).
  destruct (fsub_ok x y OX OY) as [O E]; [exact (rounded_top _ _ _ _ _ _ Q I D)|]. apply (rounded_ok _ _ _ _ _ _ _ O E D I); [lia|exact Q].
Qed.
Lemma B_mul x y r s a b c : nearB x r a -> nearB y s b ->
  rounded (min4 (lo a * lo b) (lo a * hi b) (hi a * lo b) (hi a * hi b) / one) (cdiv (max4 (lo a * lo b) (lo a * hi b) (hi a * lo b) (hi a * hi b)) one)
    (cdiv (mag a * er b + mag b * er a + er a * er b) one) = Some c -> nearB (fmul x y) (r * s) c.
Proof.
  intros X Y Q. pose proof (er_nonneg _ _ _ X) as NX. pose proof (er_nonneg _ _ _ Y) as NY. destruct X as (OX & BX & EX), Y as (OY & BY & EY). pose proof U_pos as P.
  assert (MX : Rabs r <= IZR (mag a) * U) by (apply in_mag, BX). assert (MY : Rabs s <= IZR (mag b) * U) by (apply in_mag, BY).
  assert (MA : (0 <= mag a)%Z) by (unfold mag; lia). assert (MB : (0 <= mag b)%Z) by (unfold mag; lia).
  set (w := (mag a * er b + mag b * er a + er a * er b)%Z) in *.
  assert (D : Rabs (R64 x * R64 y - r * s) <= IZR (cdiv w one) * U).
  { apply Rle_trans with (2 := upw w w (Z.le_refl _)).
    assert (W : IZR w / IZR one * U = IZR (mag a) * U * (IZR (er b) * U) + (IZR (mag b) * U * (IZR (er a) * U) + IZR (er a) * U * (IZR (er b) * U))).
    { rewrite !scale2. unfold w. rewrite !plus_IZR. unfold Rdiv. ring. }
    rewrite W. replace (R64 x * R64 y - r * s) with (r * (R64 y - s) + (s * (R64 x - r) + (R64 x - r) * (R64 y - s))) by ring.
    apply (Rle_trans _ _ _ (Rabs_triang _ _)). apply Rplus_le_compat; [rewrite Rabs_mult; apply Rmult_le_compat; auto using Rabs_pos|].
    apply (Rle_trans _ _ _ (Rabs_triang _ _)). apply Rplus_le_compat; rewrite Rabs_mult; apply Rmult_le_compat; auto using Rabs_pos. }
  set (m4 := min4 _ _ _ _) in *. set (x4 := max4 _ _ _ _) in *.
  assert (I : IZR (m4 / one) * U <= r * s <= IZR (cdiv x4 one) * U).
  { pose proof (min4_le (lo a * lo b) (lo a * hi b) (hi a * lo b) (hi a * hi b)) as (A1 & A2 & A3 & A4).
    pose proof (max4_ge (lo a * lo b) (lo a * hi b) (hi a * lo b) (hi a * hi b)) as (B1 & B2 & B3 & B4). fold m4 in A1, A2, A3, A4. fold x4 in B1, B2, B3, B4.
    split; [apply (mul_ge (IZR (lo a) * U) (IZR (hi a) * U) (IZR (lo b) * U) (IZR (hi b) * U))|apply (mul_le (IZR (lo a) * U) (IZR (hi a) * U) (IZR (lo b) * U) (IZR (hi b) * U))];
      try assumption; rewrite scale2; (apply down || apply upw); assumption. }
  assert (NW : (0 <= cdiv w one)%Z). { apply le_IZR. apply Rle_trans with (2 := cdiv_ge w one one_pos). unfold Rdiv. apply Rmult_le_pos; [apply IZR_le; unfold w; nia|fold U; lra]. }
  destruct (fmul_ok x y OX OY) as [O E]; [exact (rounded_top _ _ _ _ _ _ Q I D)|]. apply (rounded_ok _ _ _ _ _ _ _ O E D I); [exact NW|exact Q].
Qed.
Lemma quot_ge n p q y L : (0 < p)%Z -> (0 < q)%Z -> IZR p * U <= y <= IZR q * U -> IZR L <= IZR (n * one) / IZR p -> IZR L <= IZR (n * one) / IZR q -> IZR L * U <= IZR n * U / y.
Proof.
  intros Hp Hq [Y1 Y2] L1 L2. pose proof U_pos as P. apply IZR_lt in Hp, Hq. assert (YP : 0 < y) by nra.
  assert (E : forall k, 0 < IZR k -> IZR (n * one) / IZR k = IZR n * (IZR one / IZR k)) by (intros; rewrite mult_IZR; unfold Rdiv; ring).
  rewrite E in L1, L2 by assumption. unfold Rdiv. replace (IZR n * U * / y) with (IZR n * (U * / y)) by ring.
  assert (Z1 : / y <= IZR one / IZR p). { replace (IZR one / IZR p) with (/ (IZR p * U)) by (unfold U; field; split; [lra|apply not_0_IZR; discriminate]). apply Rinv_le; nra. }
  assert (Z2 : IZR one / IZR q <= / y). { replace (IZR one / IZR q) with (/ (IZR q * U)) by (unfold U; field; split; [lra|apply not_0_IZR; discriminate]). apply Rinv_le; nra. }
  replace (IZR n * (U * / y)) with (IZR n * / y * U) by ring. apply Rmult_le_compat_r; [lra|].
  destruct (Rle_lt_dec 0 (IZR n)); nra.
Qed.
Lemma B_div x y r s a b c : nearB x r a -> nearB y s b -> (er b < lo b)%Z ->
  rounded (Z.min (lo a * one / lo b) (lo a * one / hi b)) (Z.max (cdiv (hi a * one) (lo b)) (cdiv (hi a * one) (hi b)))
    (cdiv (er a * one + Z.max (Z.abs (Z.min (lo a * one / lo b) (lo a * one / hi b))) (Z.abs (Z.max (cdiv (hi a * one) (lo b)) (cdiv (hi a * one) (hi b)))) * er b) (lo b - er b)) = Some c ->
  nearB (fdiv x y) (r / s) c.
Proof.
  intros X Y G Q. pose proof (er_nonneg _ _ _ X) as NX. pose proof (er_nonneg _ _ _ Y) as NY. pose proof (lo_hi _ _ _ Y) as LH. destruct X as (OX & BX & EX), Y as (OY & BY & EY). pose proof U_pos as P.
  set (p := Z.min _ _) in *. set (q := Z.max (cdiv _ _) _) in *. set (m := Z.max (Z.abs p) (Z.abs q)) in *.
  assert (SP : 0 < s). { assert (0 < IZR (lo b)) by (apply IZR_lt; lia). nra. }
  assert (IP : 0 < / s) by (apply Rinv_0_lt_compat, SP).
  assert (I : IZR p * U <= r / s <= IZR q * U).
  { split.
    - apply Rle_trans with (IZR (lo a) * U / s); [|unfold Rdiv; apply Rmult_le_compat_r; lra].
      apply (quot_ge (lo a) (lo b) (hi b)); [lia|lia|exact BY| |].
      + apply Rle_trans with (2 := fdiv_le (lo a * one) (lo b) ltac:(lia)). apply IZR_le. unfold p. lia.
      + apply Rle_trans with (2 := fdiv_le (lo a * one) (hi b) ltac:(lia)). apply IZR_le. unfold p. lia.
    - apply Rle_trans with (IZR (hi a) * U / s); [unfold Rdiv; apply Rmult_le_compat_r; lra|].
      assert (X : IZR (- q) * U <= IZR (- hi a) * U / s).
      { apply (quot_ge (- hi a) (lo b) (hi b)); [lia|lia|exact BY| |].
        - pose proof (cdiv_ge (hi a * one) (lo b) ltac:(lia)) as C. assert (IZR (cdiv (hi a * one) (lo b)) <= IZR q) by (apply IZR_le; unfold q; lia).
          rewrite opp_IZR. replace (- hi a * one)%Z with (- (hi a * one))%Z by ring. rewrite opp_IZR. unfold Rdiv in *. rewrite Ropp_mult_distr_l_reverse. lra.
        - pose proof (cdiv_ge (hi a * one) (hi b) ltac:(lia)) as C. assert (IZR (cdiv (hi a * one) (hi b)) <= IZR q) by (apply IZR_le; unfold q; lia).
          rewrite opp_IZR. replace (- hi a * one)%Z with (- (hi a * one))%Z by ring. rewrite opp_IZR. unfold Rdiv in *. rewrite Ropp_mult_distr_l_reverse. lra. }
      rewrite !opp_IZR in X. unfold Rdiv in *. replace (- IZR (hi a) * U * / s) with (- (IZR (hi a) * U * / s)) in X by ring. lra. }
  pose proof (in_mag _ _ _ I) as M. fold m in M.
  set (w := (er a * one + m * er b)%Z) in *.
  assert (GP : 0 < IZR (lo b - er b)) by (apply IZR_lt; lia). assert (YP : IZR (lo b - er b) * U <= R64 y).
  { apply Rabs_le_inv in EY. rewrite minus_IZR. lra. }
  assert (Y0 : 0 < R64 y) by nra.
  assert (D : Rabs (R64 x / R64 y - r / s) <= IZR (cdiv w (lo b - er b)) * U).
  { replace (R64 x / R64 y - r / s) with (((R64 x - r) - (r / s) * (R64 y - s)) * / R64 y) by (field; lra).
    rewrite Rabs_mult, (Rabs_pos_eq (/ R64 y)) by (apply Rlt_le, Rinv_0_lt_compat, Y0).
    apply Rle_trans with ((IZR (er a) * U + IZR m * U * (IZR (er b) * U)) * / (IZR (lo b - er b) * U)).
    - apply Rmult_le_compat; [apply Rabs_pos|apply Rlt_le, Rinv_0_lt_compat, Y0| |apply Rinv_le; nra].
      unfold Rminus at 1. apply (Rle_trans _ _ _ (Rabs_triang _ _)). rewrite Rabs_Ropp. apply Rplus_le_compat; [exact EX|]. rewrite Rabs_mult. apply Rmult_le_compat; auto using Rabs_pos.
    - assert (W : (IZR (er a) * U + IZR m * U * (IZR (er b) * U)) * / (IZR (lo b - er b) * U) = IZR w / IZR (lo b - er b) * U).
      { unfold w. rewrite plus_IZR, !mult_IZR. pose proof oneU as OU. assert (HU : IZR one = / U) by (unfold U; rewrite Rinv_inv; reflexivity). rewrite HU. field. split; lra. }
      rewrite W. apply Rmult_le_compat_r; [lra|]. apply cdiv_ge. lia. }
  assert (NW : (0 <= cdiv w (lo b - er b))%Z).
  { apply le_IZR. apply Rle_trans with (2 := cdiv_ge w (lo b - er b) ltac:(lia)). unfold Rdiv. apply Rmult_le_pos; [|apply Rlt_le, Rinv_0_lt_compat, GP]. apply IZR_le. unfold w.
    assert (0 < one)%Z by reflexivity. assert (0 <= m)%Z by (unfold m; lia). nia. }
  destruct (fdiv_ok x y OX OY) as [O E]; [lra|exact (rounded_top _ _ _ _ _ _ Q I D)|]. apply (rounded_ok _ _ _ _ _ _ _ O E D I); [exact NW|exact Q].
Qed.
Lemma sqrtU z : (0 <= z)%Z -> IZR (Z.sqrt (z * one)) * U <= sqrt (IZR z * U) <= IZR (Z.sqrt (z * one) + 1) * U.
Proof.
  intros Hz. pose proof U_pos as P. pose proof oneU as OU. assert (Hn : (0 <= z * one)%Z) by (pose proof one_pos; nia). pose proof (Z.sqrt_spec (z * one) Hn) as [S1 S2]. cbv zeta in S1, S2.
  set (g := Z.sqrt (z * one)) in *. assert (G0 : (0 <= g)%Z) by apply Z.sqrt_nonneg. apply IZR_le in S1. apply IZR_lt in S2. unfold Z.succ in S2. rewrite !mult_IZR in S1, S2. rewrite plus_IZR in *. apply IZR_le in G0, Hz.
  assert (E : IZR z * U = IZR z * IZR one * (U * U)) by (replace (IZR z * IZR one * (U * U)) with (IZR z * (IZR one * U) * U) by ring; rewrite OU; ring).
  split.
  - rewrite <- (sqrt_square (IZR g * U)) by nra. apply sqrt_le_1_alt. rewrite E. nra.
  - rewrite <- (sqrt_square ((IZR g + 1) * U)) by nra. apply sqrt_le_1_alt. rewrite E. nra.
Qed.
Lemma B_sqrt x r a c : nearB x r a -> (er a < lo a)%Z -> (0 < Z.sqrt (lo a * one))%Z ->
  rounded (Z.sqrt (lo a * one)) (Z.sqrt (hi a * one) + 1) (cdiv (er a * one) (Z.sqrt (lo a * one))) = Some c -> nearB (fsqrt x) (sqrt r) c.
Proof.
  intros X G GP Q. pose proof (er_nonneg _ _ _ X) as NX. pose proof (lo_hi _ _ _ X) as LH. destruct X as (OX & BX & EX). pose proof U_pos as P. pose proof oneU as OU.
  set (g := Z.sqrt (lo a * one)) in *.
  assert (LR : 0 < IZR (lo a) * U) by (assert (0 < IZR (lo a)) by (apply IZR_lt; lia); nra).
  assert (XR : 0 < R64 x). { apply Rabs_le_inv in EX. assert (IZR (er a) < IZR (lo a)) by (apply IZR_lt; lia). nra. }
  assert (I : IZR g * U <= sqrt r <= IZR (Z.sqrt (hi a * one) + 1) * U).
  { split; [apply Rle_trans with (1 := proj1 (sqrtU (lo a) ltac:(lia)))|apply Rle_trans with (2 := proj2 (sqrtU (hi a) ltac:(lia)))]; apply sqrt_le_1_alt; lra. }
  assert (GR : 0 < IZR g * U) by (apply IZR_lt in GP; nra).
  assert (SX : 0 <= sqrt (R64 x)) by apply sqrt_pos. assert (SS : 0 < sqrt r) by lra.
  assert (D : Rabs (sqrt (R64 x) - sqrt r) <= IZR (cdiv (er a * one) g) * U).
  { assert (EQ : sqrt (R64 x) - sqrt r = (R64 x - r) * / (sqrt (R64 x) + sqrt r)).
    { rewrite <- (sqrt_sqrt (R64 x)) at 2 by lra. rewrite <- (sqrt_sqrt r) at 2 by lra. field. lra. }
    rewrite EQ, Rabs_mult, (Rabs_pos_eq (/ _)) by (apply Rlt_le, Rinv_0_lt_compat; lra).
    apply Rle_trans with (IZR (er a) * U * / (IZR g * U)).
    - apply Rmult_le_compat; [apply Rabs_pos|apply Rlt_le, Rinv_0_lt_compat; lra|exact EX|apply Rinv_le; lra].
    - pose proof (cdiv_ge (er a * one) g GP) as C. apply Rle_trans with (IZR (er a * one) / IZR g * U); [|apply Rmult_le_compat_r; lra].
      rewrite mult_IZR. apply IZR_lt in GP. apply Req_le. assert (HU : IZR one = / U) by (unfold U; rewrite Rinv_inv; reflexivity). rewrite HU. field. split; lra. }
  assert (NW : (0 <= cdiv (er a * one) g)%Z).
  { apply le_IZR. apply Rle_trans with (2 := cdiv_ge (er a * one) g GP). unfold Rdiv. apply Rmult_le_pos; [apply IZR_le; pose proof one_pos; nia|apply Rlt_le, Rinv_0_lt_compat, IZR_lt, GP]. }
  destruct (fsqrt_ok x OX (Rlt_le _ _ XR)) as [O E]. apply (rounded_ok _ _ _ _ _ _ _ O E D I); [exact NW|exact Q].
Qed.
Lemma two_u : 2 * u53 = IZR 281474976710656 * U.
Proof. unfold u53, U, one. lra. Qed.

Section Sound.
Variables fsin fcos : f64 -> f64.
Hypothesis Gs : good_lib fsin sin.
Hypothesis Gc : good_lib fcos cos.
Inductive env_ok : list f64 -> list R -> list bnd -> Prop :=
| env_nil : env_ok [] [] []
| env_cons x r b xs rs bs : nearB x r b -> env_ok xs rs bs -> env_ok (x :: xs) (r :: rs) (b :: bs).
Lemma env_nth xs rs bs n b : env_ok xs rs bs -> nth_error bs n = Some b -> nearB (nth n xs S754_nan) (nth n rs 0) b.
Proof. intros E. revert n. induction E as [|x r b0 xs rs bs N E IH]; intros [|n] H; try discriminate H; [injection H as <-; exact N|exact (IH n H)]. Qed.
Theorem bound_ok e : forall xs rs bs b, env_ok xs rs bs -> bound bs e = Some b -> nearB (evF fsin fcos xs e) (evR rs e) b.
Proof.
  induction e as [n|n|n d|m p n d| |a IHa|a IHa c IHc|a IHa c IHc|a IHa c IHc|a IHa c IHc|a IHa|a IHa|a IHa|a IHa c IHc]; intros xs rs bs b E; cbn [bound evF evR].
  - exact (env_nth xs rs bs n b E).
  - destruct (okint n) eqn:K; [|discriminate]. intros [= <-]. apply Z.leb_le in K. destruct (fZ_ok n K) as [O V]. split; [exact O|]. cbn [lo hi er]. rewrite mult_IZR, V.
    replace (IZR n * IZR one * U) with (IZR n * (IZR one * U)) by ring. rewrite oneU. split; [lra|]. unfold Rminus. rewrite Rplus_opp_r, Rabs_R0, Rmult_0_l. lra.
  - destruct (okint n) eqn:K; [|discriminate]. destruct (okint d) eqn:K2; [|discriminate]. destruct (Z.ltb_spec 0 d) as [D|]; [|discriminate]. cbn [andb]. apply Z.leb_le in K, K2. intros Q.
    destruct (lit_ok n d K ltac:(lia)) as [O V]. pose proof U_pos as P. refine (rounded_ok _ _ (IZR n / IZR d) _ _ _ _ O V _ _ _ Q).
    + unfold Rminus. rewrite Rplus_opp_r, Rabs_R0, Rmult_0_l. lra.
    + assert (EQ : IZR n / IZR d = IZR (n * one) / IZR d * U).
      { rewrite mult_IZR. unfold Rdiv. replace (IZR n * IZR one * / IZR d * U) with (IZR n * / IZR d * (IZR one * U)) by ring. rewrite oneU. ring. }
      rewrite EQ. pose proof (fdiv_le (n * one) d D). pose proof (cdiv_ge (n * one) d D). nra.
    + lia.
  - destruct (okint m) eqn:K; [|discriminate]. destruct (okint p) eqn:K2; [|discriminate]. destruct (Z.ltb_spec 0 p) as [D|]; [|discriminate]. destruct (Z.ltb_spec 0 d) as [D'|]; [|discriminate].
    cbn [andb]. apply Z.leb_le in K, K2. intros Q. assert (PD : (0 < p * d)%Z) by nia. pose proof (IZR_lt _ _ D) as RP. pose proof (IZR_lt _ _ D') as RD.
    destruct (lit_ok m p K ltac:(lia)) as [O V]. pose proof U_pos as P. refine (rounded_ok _ _ (IZR n / IZR d) _ _ _ _ O V _ _ _ Q).
    + pose proof (cdiv_ge (Z.abs (m * d - n * p) * one) (p * d) PD) as C. apply Rle_trans with (IZR (Z.abs (m * d - n * p) * one) / IZR (p * d) * U); [|apply Rmult_le_compat_r; lra].
      rewrite !mult_IZR, abs_IZR, minus_IZR, !mult_IZR. replace (IZR m / IZR p - IZR n / IZR d) with ((IZR m * IZR d - IZR n * IZR p) * / (IZR p * IZR d)) by (field; lra).
      rewrite Rabs_mult, (Rabs_pos_eq (/ (IZR p * IZR d))) by (apply Rlt_le, Rinv_0_lt_compat; nra).
      replace (Rabs (IZR m * IZR d - IZR n * IZR p) * IZR one / (IZR p * IZR d) * U) with (Rabs (IZR m * IZR d - IZR n * IZR p) * / (IZR p * IZR d) * (IZR one * U)) by (unfold Rdiv; ring).
      rewrite oneU. lra.
    + assert (EQ0 : IZR n / IZR d = IZR (n * one) / IZR d * U).
      { rewrite mult_IZR. unfold Rdiv. replace (IZR n * IZR one * / IZR d * U) with (IZR n * / IZR d * (IZR one * U)) by ring. rewrite oneU. ring. }
      rewrite EQ0. pose proof (fdiv_le (n * one) d D'). pose proof (cdiv_ge (n * one) d D'). nra.
    + apply le_IZR. apply Rle_trans with (2 := cdiv_ge _ _ PD). unfold Rdiv. apply Rmult_le_pos; [apply IZR_le; pose proof one_pos; nia|apply Rlt_le, Rinv_0_lt_compat, IZR_lt, PD].
  - intros [= <-]. pose proof PI_bounds as PB. destruct dpi_ok as [O V]. split; [exact O|]. cbn [lo hi er]. unfold U, one. split; [lra|]. rewrite V.
    change (-51)%Z with (- (51))%Z. rewrite bpow_opp. change (bpow radix2 51) with 2251799813685248. apply Rabs_le. lra.
  - destruct (bound bs a) as [x|] eqn:A; [|discriminate]. cbn [ob]. intros [= <-]. destruct (IHa _ _ _ _ E A) as (O & B & D). destruct (fopp_ok _ O) as [O' V]. split; [exact O'|]. cbn [lo hi er].
    rewrite !opp_IZR, V. split; [lra|]. replace (- R64 (evF fsin fcos xs a) - - evR rs a) with (- (R64 (evF fsin fcos xs a) - evR rs a)) by ring. rewrite Rabs_Ropp. exact D.
  - destruct (bound bs a) as [x|] eqn:A; [|discriminate]. destruct (bound bs c) as [y|] eqn:C; [|discriminate]. cbn [ob]. exact (B_add _ _ _ _ _ _ _ (IHa _ _ _ _ E A) (IHc _ _ _ _ E C)).
  - destruct (bound bs a) as [x|] eqn:A; [|discriminate]. destruct (bound bs c) as [y|] eqn:C; [|discriminate]. cbn [ob]. exact (B_sub _ _ _ _ _ _ _ (IHa _ _ _ _ E A) (IHc _ _ _ _ E C)).
  - destruct (bound bs a) as [x|] eqn:A; [|discriminate]. destruct (bound bs c) as [y|] eqn:C; [|discriminate]. cbn [ob]. exact (B_mul _ _ _ _ _ _ _ (IHa _ _ _ _ E A) (IHc _ _ _ _ E C)).
  - destruct (bound bs a) as [x|] eqn:A; [|discriminate]. destruct (bound bs c) as [y|] eqn:C; [|discriminate]. cbn [ob].
    destruct (Z.ltb_spec (er y) (lo y)) as [G|]; [|discriminate]. exact (B_div _ _ _ _ _ _ _ (IHa _ _ _ _ E A) (IHc _ _ _ _ E C) G).
  - destruct (bound bs a) as [x|] eqn:A; [|discriminate]. cbn [ob]. intros [= <-]. destruct (IHa _ _ _ _ E A) as (O & B & D). destruct (Gs _ O) as (O' & _ & L). split; [exact O'|]. cbn [lo hi er].
    pose proof oneU as OU. pose proof (SIN_bound (evR rs a)). unfold one in OU |- *. split; [lra|]. rewrite plus_IZR. pose proof (sin_lip (R64 (evF fsin fcos xs a)) (evR rs a)) as SL. pose proof two_u.
    replace (R64 (fsin (evF fsin fcos xs a)) - sin (evR rs a)) with ((R64 (fsin (evF fsin fcos xs a)) - sin (R64 (evF fsin fcos xs a))) + (sin (R64 (evF fsin fcos xs a)) - sin (evR rs a))) by ring.
    apply (Rle_trans _ _ _ (Rabs_triang _ _)). lra.
  - destruct (bound bs a) as [x|] eqn:A; [|discriminate]. cbn [ob]. intros [= <-]. destruct (IHa _ _ _ _ E A) as (O & B & D). destruct (Gc _ O) as (O' & _ & L). split; [exact O'|]. cbn [lo hi er].
    pose proof oneU as OU. pose proof (COS_bound (evR rs a)). unfold one in OU |- *. split; [lra|]. rewrite plus_IZR. pose proof (cos_lip (R64 (evF fsin fcos xs a)) (evR rs a)) as SL. pose proof two_u.
    replace (R64 (fcos (evF fsin fcos xs a)) - cos (evR rs a)) with ((R64 (fcos (evF fsin fcos xs a)) - cos (R64 (evF fsin fcos xs a))) + (cos (R64 (evF fsin fcos xs a)) - cos (evR rs a))) by ring.
    apply (Rle_trans _ _ _ (Rabs_triang _ _)). lra.
  - destruct (bound bs a) as [x|] eqn:A; [|discriminate]. cbn [ob]. destruct (Z.ltb_spec (er x) (lo x)) as [G|]; [|discriminate].
    destruct (Z.ltb_spec 0 (Z.sqrt (lo x * one))) as [G2|]; [|discriminate]. cbn [andb]. exact (B_sqrt _ _ _ _ (IHa _ _ _ _ E A) G G2).
  - destruct (bound bs a) as [x|] eqn:A; [|discriminate]. cbn [ob]. intros Q. apply (IHc _ _ _ _ (env_cons _ _ _ _ _ _ (IHa _ _ _ _ E A) E) Q).
Qed.

(** the bound for a formula F whose real value is r: [eps] in units of 2^-100 *)
Lemma formula_ok xs rs bs e F r eps : env_ok xs rs bs -> evF fsin fcos xs e = F -> evR rs e = r ->
  match bound bs e with Some b => (er b <=? eps)%Z | None => false end = true -> ok F /\ Rabs (R64 F - r) <= IZR eps * U.
Proof.
  intros E <- <- H. destruct (bound bs e) as [b|] eqn:Q; [|discriminate]. apply Z.leb_le in H. destruct (bound_ok e _ _ _ _ E Q) as (O & _ & D). split; [exact O|].
  apply Rle_trans with (1 := D). pose proof U_pos. apply Rmult_le_compat_r; [lra|]. now apply IZR_le.
Qed.
Lemma formula_near xs rs bs e F r b : env_ok xs rs bs -> evF fsin fcos xs e = F -> evR rs e = r -> bound bs e = Some b -> nearB F r b.
Proof. intros E <- <- H. exact (bound_ok e _ _ _ _ E H). Qed.
End Sound.
(** an exact input of at most M *)
Definition given (M : Z) : bnd := mkB (- M * one) (M * one) 0.
Lemma given_ok x M : ok x -> Rabs (R64 x) <= IZR M -> nearB x (R64 x) (given M).
Proof.
  intros O B. apply Rabs_le_inv in B. pose proof oneU as OU. split; [exact O|]. unfold given. cbn [lo hi er]. rewrite !mult_IZR, opp_IZR.
  replace (- IZR M * IZR one * U) with (- IZR M * (IZR one * U)) by ring. replace (IZR M * IZR one * U) with (IZR M * (IZR one * U)) by ring. rewrite OU, Rmult_0_l.
  split; [lra|]. unfold Rminus. rewrite Rplus_opp_r, Rabs_R0. lra.
Qed.

(** reading a formula *)
Ltac find_var xs x k := lazymatch xs with x :: _ => constr:(EV k) | _ :: ?l => find_var l x (S k) end.
Ltac reify fs fc xs t :=
  lazymatch t with
  | fadd ?a ?b => let x := reify fs fc xs a in let y := reify fs fc xs b in constr:(EAdd x y)
  | fsub ?a ?b => let x := reify fs fc xs a in let y := reify fs fc xs b in constr:(ESub x y)
  | fmul ?a ?b => let x := reify fs fc xs a in let y := reify fs fc xs b in constr:(EMul x y)
  | fdiv ?a ?b => let x := reify fs fc xs a in let y := reify fs fc xs b in constr:(EDiv x y)
  | fopp ?a => let x := reify fs fc xs a in constr:(EOpp x)
  | lit ?n ?d => constr:(EL n d)
  | fZ ?n => constr:(EZ n)
  | dpi => constr:(EPi)
  | fs ?a => let x := reify fs fc xs a in constr:(ESin x)
  | fc ?a => let x := reify fs fc xs a in constr:(ECos x)
  | fsqrt ?a => let x := reify fs fc xs a in constr:(ESqrt x)
  | _ => find_var xs t 0%nat
  end.
