(** Proofs about getHuiLi. *)
From Coq Require Import ZArith Lia Lra Bool List Reals.
From Coq Require Import Floats.SpecFloat.
From Flocq Require Import Core BinarySingleNaN.
From Verif Require Import F64 F64R F64T ObSpec HuiModel.
Import ListNotations.
Open Scope Z_scope.
Open Scope opt_scope.

(** two finite doubles with the same non-zero value are the same *)
Lemma ok_inj x y : ok x -> ok y -> R64 x = R64 y -> R64 x <> 0%R -> x = y.
Proof.
  intros Hx Hy E N. destruct (ok_B _ Hx) as (bx & -> & Fx & Rx). destruct (ok_B _ Hy) as (by0 & -> & Fy & Ry).
  f_equal. apply B2R_inj.
  - destruct bx as [s|s| |s m e Bd]; try discriminate Fx; [|reflexivity]. exfalso. apply N. rewrite <- Rx. reflexivity.
  - destruct by0 as [s|s| |s m e Bd]; try discriminate Fy; [|reflexivity]. exfalso. apply N. rewrite E, <- Ry. reflexivity.
  - congruence.
Qed.
Lemma ok_zero x : ok x -> R64 x = 0%R -> exists s, x = S754_zero s.
Proof.
  intros Hx E. destruct x as [s|s| |s m e]; [now exists s|exfalso; destruct Hx as [V F]; discriminate F..|].
  exfalso. unfold R64, SF2R in E. apply eq_0_F2R in E. destruct s; discriminate E.
Qed.
(** the double with the integer value r, up to the sign of zero *)
Lemma ok_int x r : ok x -> R64 x = IZR r -> Z.abs r <= 2 ^ 53 -> x = fZ r \/ (r = 0 /\ x = S754_zero true).
Proof.
  intros Hx E Hr. destruct (fZ_ok r Hr) as [O V]. destruct (Z.eq_dec r 0) as [->|N].
  - destruct (ok_zero x Hx E) as [[|] ->]; [right; now split|left; reflexivity].
  - left. apply ok_inj; try assumption; [congruence|]. rewrite E. now apply not_0_IZR.
Qed.

(** ** from doubles to integers *)
Definition yearZ (r : Z) : Z := (1000 * r + 500) / 354366.
Definition startZ (y : Z) : Z := (354366 * y + 500) / 1000.
Definition monthZ (d : Z) : Z := (100 * d + 11) / 2951.
Definition mstartZ (m : Z) : Z := (295 * m + 5) / 10.
Definition restZ (r : Z) : Z * Z * Z :=
  let y := yearZ r in let d := r - startZ y in let m := monthZ d in (y, m, d - mstartZ m + 1).

Lemma half_ok : ok (lit 5 10) /\ R64 (lit 5 10) = (1 / 2)%R.
Proof. apply (lit_val (lit 5 10) 1 2); [lia|]. vm_compute. reflexivity. Qed.
Lemma year_ok r d : ok d -> R64 d = IZR r -> 0 <= r < 10631 -> int2 (fdiv (fadd d (lit 5 10)) (lit 354366 1000)) = Some (yearZ r).
Proof.
  intros Od Vd Hr. destruct half_ok as [Oh Vh].
  assert (Br : (0 <= IZR r <= 10630)%R) by (split; apply IZR_le; lia).
  assert (S : (Rabs (R64 d + R64 (lit 5 10)) <= bpow radix2 1000)%R).
  { rewrite Vd, Vh. eapply Rabs_small; [apply Rabs_le; split; [|apply Rle_refl]|]; [lra|rewrite bpow100; lra]. }
  destruct (fadd_ok _ _ Od Oh S) as [Oa Va].
  assert (Va' : R64 (fadd d (lit 5 10)) = ((IZR r) + 1 / 2)%R).
  { rewrite Va, Vd, Vh. apply rnd_repr. replace (IZR r + 1 / 2)%R with (IZR (2 * r + 1) / 2)%R by (rewrite plus_IZR, mult_IZR; field).
    apply repr_half. lia. }
  clear Va. set (x := fadd d (lit 5 10)) in *. clearbody x.
  destruct (lit_near 354366 1000 9 ltac:(lia) ltac:(lia) ltac:(lia) ltac:(lia)) as [Oc Vc].
  set (c := lit 354366 1000) in *. clearbody c. change (9 - 54) with (-45) in Vc.
  assert (Bc : (354.3 <= R64 c <= 354.4)%R).
  { apply Rabs_le_inv in Vc. assert (bpow radix2 (-45) <= bpow radix2 (-10))%R by (apply bpow_le; lia).
    change (bpow radix2 (-10)) with (/ 1024)%R in H. lra. }
  assert (Q : (0 <= (IZR r + 1 / 2) / R64 c <= 32)%R).
  { split; [apply Rle_mult_inv_pos; lra|]. apply Rmult_le_reg_r with (R64 c); [lra|]. unfold Rdiv. rewrite Rmult_assoc, Rinv_l by lra. lra. }
  assert (S2 : (Rabs (R64 x / R64 c) <= bpow radix2 1000)%R).
  { rewrite Va'. eapply Rabs_small; [apply Rabs_le; split; [|apply (proj2 Q)]|]; [lra|rewrite bpow100; lra]. }
  destruct (fdiv_ok x c Oa Oc ltac:(lra) S2) as [Oq Vq]. rewrite Va' in Vq.
  assert (RE : (Rabs (rnd ((IZR r + 1 / 2) / R64 c) - (IZR r + 1 / 2) / R64 c) <= bpow radix2 (-45))%R).
  { change (-45) with (9 - 54). apply rnd_err; [lia|]. rewrite Rabs_pos_eq by lra. change (bpow radix2 9) with 512%R. lra. }
  rewrite (int2_ok _ Oq), Vq.
  assert (F : Zfloor (rnd ((IZR r + 1 / 2) / R64 c)) = (250 * (2 * r + 1)) / 177183).
  { apply floor_near; [lia| |].
    - intros Z0. apply Z.mod_divide in Z0; [|lia]. apply Z.gauss in Z0; [|reflexivity].
      destruct Z0 as [k Hk]. assert (k = 0 \/ k <> 0) as [->|] by lia; lia.
    - assert (D : (Rabs ((IZR r + 1 / 2) / R64 c - IZR (250 * (2 * r + 1)) / 177183) <= / 1000000)%R).
      { replace (IZR (250 * (2 * r + 1)) / 177183)%R with ((IZR r + 1 / 2) / (354366 / 1000))%R by (rewrite mult_IZR, plus_IZR, mult_IZR; field).
        replace ((IZR r + 1 / 2) / R64 c - (IZR r + 1 / 2) / (354366 / 1000))%R with ((IZR r + 1 / 2) / R64 c * - ((R64 c - 354366 / 1000) / (354366 / 1000)))%R by (field; lra).
        rewrite Rabs_mult, Rabs_Ropp. rewrite (Rabs_pos_eq ((IZR r + 1 / 2) / R64 c)) by lra.
        apply Rle_trans with (32 * bpow radix2 (-30))%R.
        - apply Rmult_le_compat; [lra|apply Rabs_pos|lra|].
          unfold Rdiv at 1. rewrite Rabs_mult. rewrite (Rabs_pos_eq (/ _)) by lra.
          assert (bpow radix2 (-45) <= bpow radix2 (-30))%R by (apply bpow_le; lia).
          pose proof (Rabs_pos (R64 c - 354366 / 1000)). lra.
        - change (bpow radix2 (-30)) with (/ 1073741824)%R. lra. }
      assert (bpow radix2 (-45) <= / 1000000)%R.
      { apply Rle_trans with (bpow radix2 (-30)); [apply bpow_le; lia|]. change (bpow radix2 (-30)) with (/ 1073741824)%R. lra. }
      apply Rabs_le_inv in RE. apply Rabs_le_inv in D. change (IZR 177183) with 177183%R. apply Rabs_lt. lra. }
  rewrite F. unfold yearZ. replace (250 * (2 * r + 1) / 177183) with ((1000 * r + 500) / 354366) by (Z.div_mod_to_equations; lia).
  apply mk_int_in. unfold int_min, int_max. Z.div_mod_to_equations; lia.
Qed.
(** the rest needs only small tables *)
Definition ozeq (a : option Z) (b : Z) : bool := match a with Some x => x =? b | None => false end.
Lemma ozeq_eq a b : ozeq a b = true -> a = Some b.
Proof. destruct a; [|discriminate]. cbn. rewrite Z.eqb_eq. congruence. Qed.
Lemma start_ok y : 0 <= y < 30 -> int2 (fadd (fmul (fZ y) (lit 354366 1000)) (lit 5 10)) = Some (startZ y).
Proof.
  intros H. apply ozeq_eq.
  assert (S : forallb (fun k => ozeq (int2 (fadd (fmul (fZ (Z.of_nat k)) (lit 354366 1000)) (lit 5 10))) (startZ (Z.of_nat k))) (seq 0 30) = true) by (vm_compute; reflexivity).
  rewrite forallb_forall in S. specialize (S (Z.to_nat y)). rewrite Z2Nat.id in S by lia. apply S. apply in_seq. lia.
Qed.
(** lunar_ob.cpp:184-188 *)
Definition hui_month (d : f64) : option (Z * Z) :=
  let* m := int2 (fdiv (fadd d (lit 11 100)) (lit 2951 100)) in
  let* k := int2 (fadd (fmul (fZ m) (lit 295 10)) (lit 5 10)) in
  let d := fsub d (fZ k) in
  let* day := cast_int (fadd d (fZ 1)) in
  Some (m, day).
Definition month_check (d : Z) : bool :=
  match hui_month (fZ d) with Some (m, day) => (m =? monthZ d) && (day =? d - mstartZ (monthZ d) + 1) | None => false end.
Lemma month_ok d : 0 <= d < 355 -> hui_month (fZ d) = Some (monthZ d, d - mstartZ (monthZ d) + 1).
Proof.
  intros H. assert (S : forallb (fun k => month_check (Z.of_nat k)) (seq 0 355) = true) by (vm_compute; reflexivity).
  rewrite forallb_forall in S. specialize (S (Z.to_nat d)). rewrite Z2Nat.id in S by lia. specialize (S ltac:(apply in_seq; lia)).
  unfold month_check in S. destruct (hui_month (fZ d)) as [[m day]|]; [|discriminate S].
  apply andb_prop in S. destruct S as [S1 S2]. apply Z.eqb_eq in S1, S2. congruence.
Qed.
Lemma month_minus0 : hui_month (S754_zero true) = hui_month (fZ 0).
Proof. vm_compute. reflexivity. Qed.

Lemma year_range r : 0 <= r < 10631 -> 0 <= yearZ r < 30 /\ 0 <= r - startZ (yearZ r) < 355.
Proof. intros H. unfold yearZ, startZ. assert (0 <= (1000 * r + 500) / 354366 < 30) by (Z.div_mod_to_equations; lia). Z.div_mod_to_equations; lia. Qed.

Lemma hui_rest_ok d r : ok d -> R64 d = IZR r -> 0 <= r < 10631 -> hui_rest d = Some (restZ r).
Proof.
  intros Od Vd Hr. unfold hui_rest. rewrite (year_ok r d Od Vd Hr). cbn [obind].
  destruct (year_range r Hr) as [Y1 Y2]. set (y := yearZ r) in *. rewrite (start_ok y Y1). cbn [obind].
  set (k := startZ y) in *.
  assert (Bk : 0 <= k < 11000) by (unfold k, startZ; Z.div_mod_to_equations; lia).
  destruct (fZ_ok k ltac:(lia)) as [Ok Vk].
  assert (S2 : (Rabs (R64 d - R64 (fZ k)) <= bpow radix2 1000)%R).
  { rewrite Vd, Vk, <- minus_IZR. eapply Rle_trans; [apply (Rabs_IZR_bpow _ 40); lia|]. apply bpow_le; lia. }
  destruct (fsub_ok _ _ Od Ok S2) as [Or Vr]. rewrite Vd, Vk, <- minus_IZR, rnd_IZR in Vr by lia.
  set (d2 := fsub d (fZ k)) in *.
  assert (E : hui_month d2 = Some (monthZ (r - k), r - k - mstartZ (monthZ (r - k)) + 1)).
  { rewrite <- (month_ok (r - k) Y2). destruct (ok_int d2 (r - k) Or Vr ltac:(lia)) as [->|[Z0 ->]]; [reflexivity|].
    rewrite Z0. apply month_minus0. }
  unfold hui_month in E. destruct (int2 (fdiv (fadd d2 (lit 11 100)) (lit 2951 100))) as [m|]; [|discriminate E].
  cbn [obind] in *. destruct (int2 (fadd (fmul (fZ m) (lit 295 10)) (lit 5 10))) as [k2|]; [|discriminate E].
  cbn [obind] in *. destruct (cast_int _) as [day|]; [|discriminate E]. cbn [obind] in *.
  injection E as -> ->. unfold restZ. fold y. fold k. reflexivity.
Qed.

(** ** the 30-year cycle, checked day by day *)
Definition cyc (r : Z) : hdate := let '(y, m, d) := restZ r in (y + 1, m + 1, d).
Definition hdate_eqb (a b : hdate) : bool :=
  let '(y, m, d) := a in let '(y', m', d') := b in (y =? y') && (m =? m') && (d =? d').
Lemma hdate_eqb_eq a b : hdate_eqb a b = true -> a = b.
Proof.
  destruct a as [[y m] d], b as [[y' m'] d']. cbn. rewrite !andb_true_iff, !Z.eqb_eq. intros [[-> ->] ->]. reflexivity.
Qed.
Definition cyc_check (r : Z) : bool :=
  let '(y, m, d) := cyc r in
  (1 <=? y) && (y <=? 30) && (1 <=? m) && (m <=? 12) && (1 <=? d) && (d <=? hmonth_length y m) &&
  hdate_eqb (hnext (y, m, d)) (if r =? 10630 then (31, 1, 1) else cyc (r + 1)).
Fixpoint all_below (n : nat) (r : Z) : bool := match n with O => true | S n => cyc_check r && all_below n (r + 1) end.
Lemma all_below_ok n : forall r, all_below n r = true -> forall x, r <= x < r + Z.of_nat n -> cyc_check x = true.
Proof.
  induction n as [|n IH]; intros r H x Hx; [lia|]. cbn [all_below] in H. apply andb_prop in H. destruct H as [H1 H2].
  destruct (Z.eq_dec x r) as [->|N]; [exact H1|]. apply (IH (r + 1) H2). lia.
Qed.
Lemma cyc_sweep : all_below (Z.to_nat 10631) 0 = true.
Proof. vm_compute. reflexivity. Qed.
Lemma cyc_ok r : 0 <= r < 10631 -> cyc_check r = true.
Proof. intros H. apply (all_below_ok _ 0 cyc_sweep). lia. Qed.
Lemma cyc_start : cyc 0 = (1, 1, 1).
Proof. vm_compute. reflexivity. Qed.

(** date of day n *)
Definition hconv (n : Z) : hdate :=
  let '(y, m, d) := cyc ((n + 503105) mod 10631) in (y + 30 * ((n + 503105) / 10631), m, d).

Lemma hleap_30 y z : hleap (y + 30 * z) = hleap y.
Proof. unfold hleap. do 2 f_equal. replace (y + 30 * z - 1) with (y - 1 + z * 30) by ring. now rewrite Z.mod_add. Qed.
Lemma hml_30 y z m : hmonth_length (y + 30 * z) m = hmonth_length y m.
Proof. unfold hmonth_length. now rewrite hleap_30. Qed.
Lemma hnext_30 y z m d : hnext (y + 30 * z, m, d) = (let '(y', m', d') := hnext (y, m, d) in (y' + 30 * z, m', d')).
Proof.
  unfold hnext. rewrite hml_30. destruct (d <? _); [reflexivity|]. destruct (m <? 12); [reflexivity|].
  f_equal. f_equal. lia.
Qed.

Lemma cyc_real r : 0 <= r < 10631 -> hreal (cyc r).
Proof.
  intros H. pose proof (cyc_ok r H) as C. unfold cyc_check in C. destruct (cyc r) as [[y m] d].
  rewrite !andb_true_iff in C. destruct C as [[[[[[C1 C2] C3] C4] C5] C6] _].
  apply Z.leb_le in C1, C2, C3, C4, C5, C6. unfold hreal. lia.
Qed.
Lemma cyc_next r : 0 <= r < 10631 -> hnext (cyc r) = if r =? 10630 then (31, 1, 1) else cyc (r + 1).
Proof.
  intros H. pose proof (cyc_ok r H) as C. unfold cyc_check in C. destruct (cyc r) as [[y m] d].
  rewrite andb_true_iff in C. apply hdate_eqb_eq. apply C.
Qed.
Lemma hconv_real n : hreal (hconv n).
Proof.
  unfold hconv. pose proof (cyc_real ((n + 503105) mod 10631) ltac:(apply Z.mod_pos_bound; lia)) as H.
  destruct (cyc _) as [[y m] d]. unfold hreal in *. rewrite hml_30. exact H.
Qed.
Lemma hconv_next n : hconv (n + 1) = hnext (hconv n).
Proof.
  unfold hconv. set (a := n + 503105). replace (n + 1 + 503105) with (a + 1) by (unfold a; ring).
  pose proof (Z.mod_pos_bound a 10631 ltac:(lia)) as M. pose proof (Z.div_mod a 10631 ltac:(lia)) as D.
  pose proof (cyc_next _ M) as N. set (r := a mod 10631) in *. set (z := a / 10631) in *.
  destruct (cyc r) as [[y m] d]. rewrite hnext_30. rewrite N. destruct (Z.eqb_spec r 10630) as [E|E].
  - replace ((a + 1) mod 10631) with 0 by (apply (Z.mod_unique _ _ (z + 1)); lia).
    replace ((a + 1) / 10631) with (z + 1) by (apply (Z.div_unique _ _ _ 0); lia).
    rewrite cyc_start. f_equal. f_equal. lia.
  - replace ((a + 1) mod 10631) with (r + 1) by (apply (Z.mod_unique _ _ z); lia).
    replace ((a + 1) / 10631) with z by (apply (Z.div_unique _ _ _ (r + 1)); lia).
    reflexivity.
Qed.

Lemma hconv_islamic n : islamic n (hconv n).
Proof.
  replace n with (-503105 + (n + 503105)) by ring. set (k := n + 503105). clearbody k.
  destruct (Z_le_gt_dec 0 k) as [P|P].
  - revert k P. apply (natlike_ind (fun k => islamic (-503105 + k) (hconv (-503105 + k)))).
    + change (-503105 + 0) with (-503105). unfold hconv. change ((-503105 + 503105)) with 0.
      change (0 mod 10631) with 0. rewrite cyc_start. apply isl_epoch.
    + intros j Hj IH. replace (-503105 + Z.succ j) with (-503105 + j + 1) by lia.
      rewrite hconv_next. apply isl_next. exact IH.
  - replace k with (- (- k)) by ring. assert (P' : 0 <= - k) by lia. revert P'. generalize (- k). clear k P.
    intros k. revert k. apply (natlike_ind (fun k => islamic (-503105 + - k) (hconv (-503105 + - k)))).
    + change (-503105 + - 0) with (-503105). unfold hconv. change ((-503105 + 503105)) with 0.
      change (0 mod 10631) with 0. rewrite cyc_start. apply isl_epoch.
    + intros j Hj IH. replace (-503105 + - Z.succ j) with (-503105 + - j - 1) by lia. apply isl_prev; [apply hconv_real|].
      rewrite <- hconv_next. replace (-503105 + - j - 1 + 1) with (-503105 + - j) by lia. exact IH.
Qed.

(** ** uniqueness *)
Lemma hnext_real c : hreal c -> hreal (hnext c).
Proof.
  destruct c as [[y m] d]. unfold hreal, hnext. intros [M D]. destruct (Z.ltb_spec d (hmonth_length y m)) as [L|L]; [lia|].
  assert (P : forall y m, 29 <= hmonth_length y m).
  { intros y0 m0. unfold hmonth_length. destruct (Z.odd m0); [lia|]. destruct ((m0 =? 12) && hleap y0); lia. }
  destruct (Z.ltb_spec m 12).
  - pose proof (P y (m + 1)). lia.
  - pose proof (P (y + 1) 1). lia.
Qed.
Lemma hnext_inj a b : hreal a -> hreal b -> hnext a = hnext b -> a = b.
Proof.
  destruct a as [[y m] d], b as [[y' m'] d']. unfold hreal, hnext. intros [M D] [M' D'].
  destruct (Z.ltb_spec d (hmonth_length y m)) as [L|L], (Z.ltb_spec d' (hmonth_length y' m')) as [L'|L'];
  destruct (Z.ltb_spec m 12), (Z.ltb_spec m' 12); intros E; injection E; intros; subst; try lia.
  all: try (replace d' with d by lia; reflexivity).
  all: try (assert (m' = m) by lia; subst; replace d' with d by lia; reflexivity).
  all: try (assert (m' = m) by lia; assert (y' = y) by lia; subst; replace d' with d by lia; reflexivity).
Qed.
Lemma islamic_hconv n c : islamic n c -> hreal c /\ c = hconv n.
Proof.
  induction 1 as [|n c H [R E]|n c R H [R' E]].
  - split; [unfold hreal; cbn; lia|]. unfold hconv. change ((-503105 + 503105)) with 0. change (0 mod 10631) with 0. rewrite cyc_start. reflexivity.
  - split; [now apply hnext_real|]. rewrite hconv_next. congruence.
  - split; [exact R|]. apply hnext_inj; [exact R|apply hconv_real|]. rewrite <- hconv_next. now replace (n - 1 + 1) with n by ring.
Qed.

(** ** the code *)
Lemma getHuiLi_ok n : Z.abs n < 2 ^ 30 -> getHuiLi (fZ n) = Some (hconv n).
Proof.
  intros H. change (2 ^ 30) with 1073741824 in H. unfold getHuiLi.
  assert (P53 : 2 ^ 53 = 9007199254740992) by reflexivity.
  destruct (fZ_ok n ltac:(lia)) as [On Vn]. destruct (fZ_ok 503105 ltac:(lia)) as [Oe Ve].
  assert (S : (Rabs (R64 (fZ n) + R64 (fZ 503105)) <= bpow radix2 1000)%R).
  { rewrite Vn, Ve, <- plus_IZR. eapply Rle_trans; [apply (Rabs_IZR_bpow _ 40); lia|]. apply bpow_le; lia. }
  destruct (fadd_ok _ _ On Oe S) as [Od Vd]. rewrite Vn, Ve, <- plus_IZR, rnd_IZR in Vd by lia.
  set (d := fadd (fZ n) (fZ 503105)) in *. clearbody d.
  destruct (fZ_ok 10631 ltac:(lia)) as [Oc Vc].
  rewrite (int2_div_Z d (fZ 10631) (n + 503105) 10631 Od Oc Vd Vc ltac:(lia) ltac:(lia)).
  set (a := n + 503105) in *. assert (Ha : -1073741824 <= a <= 1074244929) by (unfold a; lia).
  pose proof (Z.mod_pos_bound a 10631 ltac:(lia)) as M. pose proof (Z.div_mod a 10631 ltac:(lia)) as D.
  unfold hconv. fold a. set (r := a mod 10631) in *. set (z := a / 10631) in *.
  rewrite mk_int_in by (unfold int_min, int_max; lia). cbn [obind].
  rewrite mk_int_in by (unfold int_min, int_max; lia). cbn [obind].
  destruct (fZ_ok (z * 10631) ltac:(lia)) as [Ot Vt].
  assert (S2 : (Rabs (R64 d - R64 (fZ (z * 10631))) <= bpow radix2 1000)%R).
  { rewrite Vd, Vt, <- minus_IZR. eapply Rle_trans; [apply (Rabs_IZR_bpow _ 40); lia|]. apply bpow_le; lia. }
  destruct (fsub_ok _ _ Od Ot S2) as [Or Vr]. rewrite Vd, Vt, <- minus_IZR, rnd_IZR in Vr by lia.
  replace (a - z * 10631) with r in Vr by lia.
  rewrite (hui_rest_ok _ r Or Vr M). pose proof (cyc_ok r M) as C. unfold cyc_check in C. unfold cyc in *.
  destruct (restZ r) as [[y m] dd].
  rewrite !andb_true_iff in C. destruct C as [[[[[[C1 C2] C3] C4] C5] C6] _].
  apply Z.leb_le in C1, C2, C3, C4, C5, C6. cbn [obind].
  rewrite mk_int_in by (unfold int_min, int_max; lia). cbn [obind].
  rewrite mk_int_in by (unfold int_min, int_max; lia). cbn [obind].
  rewrite mk_int_in by (unfold int_min, int_max; lia). cbn [obind].
  rewrite mk_int_in by (unfold int_min, int_max; lia). cbn [obind].
  do 3 f_equal. lia.
Qed.
