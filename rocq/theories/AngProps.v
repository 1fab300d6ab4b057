(** Property C31 on doubles: the two angle normalisations. *)
From Coq Require Import ZArith Reals Lia Lra Bool.
From Coq Require Import Floats.SpecFloat.
From Flocq Require Import Core BinarySingleNaN Sterbenz.
From Verif Require Import F64 F64R AngModel.
Open Scope R_scope.

(** The value of the program's pi and its quality. *)
Lemma dpi_ok : ok dpi /\ R64 dpi = IZR 7074237752028440 * bpow radix2 (-51).
Proof. split; [split; reflexivity|reflexivity]. Qed.
Example dpi_is_the_literal : (2 * Z.abs (7074237752028440 * 10 ^ 20 - 314159265358979323846 * 2 ^ 51) <= 10 ^ 20)%Z.
Proof. vm_compute. discriminate. Qed.
Lemma d2pi_ok : ok d2pi /\ R64 d2pi = 2 * R64 dpi.
Proof.
  replace d2pi with (S754_finite false 7074237752028440 (-50)) by (vm_compute; reflexivity).
  split; [split; reflexivity|]. unfold R64, dpi, SF2R, F2R. cbn [Fnum Fexp cond_Zopp].
  change (-50)%Z with (1 + -51)%Z. rewrite bpow_plus. change (bpow radix2 1) with 2. ring.
Qed.
Lemma dpi_range : 3 < R64 dpi < 4.
Proof.
  destruct dpi_ok as [_ ->]. change (-51)%Z with (- (51))%Z. rewrite bpow_opp. change (bpow radix2 51) with (IZR (2 ^ 51)).
  split; apply (Rmult_lt_reg_r (IZR (2 ^ 51))); try (apply IZR_lt; reflexivity); rewrite Rmult_assoc, Rinv_l, Rmult_1_r by (apply not_0_IZR; discriminate);
    rewrite <- mult_IZR; apply IZR_lt; reflexivity.
Qed.

(** The C library's fmod, as specified, is exact: x minus a whole multiple of y, smaller than y, with the sign of x. *)
Lemma bn_exact m e s : (Z.abs m < 2 ^ 53)%Z -> (-1074 <= e <= 971)%Z ->
  let z := SpecFloat.binary_normalize 53 1024 m e s in ok z /\ R64 z = IZR m * bpow radix2 e.
Proof.
  intros Hm He z. unfold z. rewrite bn_equiv. generalize (binary_normalize_correct 53 1024 Hprec53 Hmax1024 mode_NE m e s). cbv zeta.
  rewrite rnd_eq. change (F2R (Float radix2 m e)) with (IZR m * bpow radix2 e).
  rewrite rnd_repr by (apply repr_scaled; lia). rewrite Rlt_bool_true.
  - intros (R1 & F1 & _). split; [now apply ok_of_B | now rewrite R64_B].
  - rewrite Rabs_mult, <- abs_IZR. rewrite (Rabs_pos_eq (bpow radix2 e)) by apply bpow_ge_0.
    apply Rlt_le_trans with (bpow radix2 53 * bpow radix2 e).
    + apply Rmult_lt_compat_r; [apply bpow_gt_0|]. change (bpow radix2 53) with (IZR (2 ^ 53)). now apply IZR_lt.
    + rewrite <- bpow_plus. apply bpow_le. lia.
Qed.
Lemma bounded_exp m e : SpecFloat.bounded 53 1024 m e = true -> (-1074 <= e <= 971)%Z.
Proof.
  intros H. unfold SpecFloat.bounded in H. apply andb_prop in H. destruct H as [H1 H2]. apply Zle_bool_imp_le in H2.
  unfold SpecFloat.canonical_mantissa in H1. apply Zeq_bool_eq in H1. unfold fexp, emin in H1. lia.
Qed.
Lemma mod_le a b : (0 <= a)%Z -> (0 < b)%Z -> (a mod b <= a)%Z.
Proof. intros. apply Z.mod_le; lia. Qed.
Theorem dfmod_exact x y : ok x -> ok y -> 0 < R64 y ->
  let r := R64 (dfmod x y) in
  ok (dfmod x y) /\ (exists k : Z, r = R64 x - IZR k * R64 y) /\ Rabs r < R64 y /\ 0 <= r * R64 x.
Proof.
  intros Ox Oy Py r.
  destruct y as [sy|sy| |sy my ey]; try (destruct Oy as [_ F]; discriminate F); [unfold R64 in Py; cbn in Py; lra|].
  destruct x as [sx|sx| |sx mx ex]; try (destruct Ox as [_ F]; discriminate F).
  { unfold r. split; [exact Ox|]. change (R64 (dfmod (S754_zero sx) (S754_finite sy my ey))) with 0. change (R64 (S754_zero sx)) with 0.
    split; [exists 0%Z; ring|]. rewrite Rabs_R0. split; [exact Py|lra]. }
  assert (sy = false). { destruct sy; [|reflexivity]. exfalso. unfold R64, SF2R, F2R in Py. cbn [Fnum Fexp cond_Zopp] in Py.
    assert (IZR (- Z.pos my) < 0) by (apply IZR_lt; lia). pose proof (bpow_gt_0 radix2 ey). nra. } subst sy.
  pose proof (bounded_mantissa mx ex (proj1 Ox)) as Mx. pose proof (bounded_mantissa my ey (proj1 Oy)) as My.
  pose proof (bounded_exp mx ex (proj1 Ox)) as Bx. pose proof (bounded_exp my ey (proj1 Oy)) as By.
  unfold r. clear r. cbn [dfmod]. set (e := Z.min ex ey). set (X := (Z.pos mx * 2 ^ (ex - e))%Z). set (Y := (Z.pos my * 2 ^ (ey - e))%Z).
  assert (PX : (0 < 2 ^ (ex - e))%Z) by (apply Z.pow_pos_nonneg; lia).
  assert (PY : (0 < 2 ^ (ey - e))%Z) by (apply Z.pow_pos_nonneg; lia).
  assert (X0 : (0 < X)%Z) by (unfold X; lia). assert (Y0 : (0 < Y)%Z) by (unfold Y; lia).
  pose proof (Z.mod_pos_bound X Y Y0) as MB. pose proof (mod_le X Y ltac:(lia) Y0) as ML.
  assert (SM : (X mod Y < 2 ^ 53)%Z).
  { destruct (Z.le_ge_cases ex ey) as [C|C].
    - assert (E0 : (ex - e = 0)%Z) by (unfold e; lia). unfold X in ML at 2. rewrite E0 in ML. change (2 ^ 0)%Z with 1%Z in ML. lia.
    - assert (E0 : (ey - e = 0)%Z) by (unfold e; lia). unfold Y in MB at 3. rewrite E0 in MB. change (2 ^ 0)%Z with 1%Z in MB. lia. }
  destruct (bn_exact (cond_Zopp sx (X mod Y)) e sx) as [Oz Ez]; [destruct sx; cbn [cond_Zopp]; lia|unfold e; lia|].
  assert (EX : R64 (S754_finite sx mx ex) = IZR (cond_Zopp sx X) * bpow radix2 e).
  { unfold R64, SF2R, F2R. cbn [Fnum Fexp]. replace ex with (e + (ex - e))%Z at 1 by lia. rewrite bpow_plus, <- (IZR_Zpower radix2 (ex - e)) by lia. change (radix2 ^ (ex - e))%Z with (2 ^ (ex - e))%Z.
    unfold X. destruct sx; cbn [cond_Zopp]; rewrite ?opp_IZR, !mult_IZR; ring. }
  assert (EY : R64 (S754_finite false my ey) = IZR Y * bpow radix2 e).
  { unfold R64, SF2R, F2R. cbn [Fnum Fexp cond_Zopp]. replace ey with (e + (ey - e))%Z at 1 by lia. rewrite bpow_plus, <- (IZR_Zpower radix2 (ey - e)) by lia. change (radix2 ^ (ey - e))%Z with (2 ^ (ey - e))%Z.
    unfold Y. rewrite mult_IZR. ring. }
  rewrite Ez, EX, EY. pose proof (bpow_gt_0 radix2 e) as P. split; [exact Oz|].
  assert (DM : IZR X = IZR Y * IZR (X / Y) + IZR (X mod Y)) by (rewrite <- mult_IZR, <- plus_IZR; f_equal; apply Z.div_mod; lia).
  assert (M0 : 0 <= IZR (X mod Y)) by (apply IZR_le; lia). assert (M1 : IZR (X mod Y) < IZR Y) by (apply IZR_lt; lia).
  assert (X1 : 0 < IZR X) by (apply IZR_lt; lia).
  split; [exists (cond_Zopp sx (X / Y)); destruct sx; cbn [cond_Zopp]; rewrite ?opp_IZR, DM; ring|].
  split.
  - rewrite Rabs_mult, (Rabs_pos_eq (bpow radix2 e)) by lra. apply Rmult_lt_compat_r; [exact P|].
    destruct sx; cbn [cond_Zopp]; rewrite ?opp_IZR, ?Rabs_Ropp; rewrite Rabs_pos_eq; lra.
  - replace (IZR (cond_Zopp sx (X mod Y)) * bpow radix2 e * (IZR (cond_Zopp sx X) * bpow radix2 e))
      with ((IZR (X mod Y) * IZR X) * (bpow radix2 e * bpow radix2 e)) by (destruct sx; cbn [cond_Zopp]; rewrite ?opp_IZR; ring).
    apply Rmult_le_pos; apply Rmult_le_pos; lra.
Qed.
Example dfmod_witness : dfmod (fopp (fZ 29)) (fZ 8) = fopp (fZ 5) /\ 0 < R64 (fZ 8).
Proof. split; [vm_compute; reflexivity|]. destruct (fZ_ok 8 ltac:(lia)) as [_ ->]. lra. Qed.

(** [rad2rrad]: no rounding at all. *)
Theorem C31_rrad_double v : ok v ->
  ok (rad2rrad_d v) /\ - R64 dpi < R64 (rad2rrad_d v) <= R64 dpi /\ exists k : Z, R64 (rad2rrad_d v) = R64 v + IZR k * (2 * R64 dpi).
Proof.
  intros Ov. destruct dpi_ok as [Op _]. destruct d2pi_ok as [O2 E2]. pose proof dpi_range as RP.
  destruct (dfmod_exact v d2pi Ov O2 ltac:(lra)) as (Of & (k & Ek) & Ab & _). unfold rad2rrad_d. set (f := dfmod v d2pi) in *. clearbody f.
  destruct (fopp_ok dpi Op) as [On En]. rewrite E2 in *. apply Rabs_lt_inv in Ab.
  rewrite fleb_ok, En by assumption. change (fgtb f dpi) with (fltb dpi f). rewrite (fltb_ok dpi f Op Of).
  assert (R2 : repr (2 * R64 dpi)) by (rewrite <- E2; now apply repr_R64).
  destruct (Rle_bool_spec (R64 f) (- R64 dpi)) as [C|C].
  - destruct (fadd_ok f d2pi Of O2) as [Oa Ea].
    { rewrite E2. apply Rle_trans with (bpow radix2 4); [|apply bpow_le; lia]. change (bpow radix2 4) with 16. apply Rabs_le. lra. }
    rewrite E2 in Ea. rewrite rnd_repr in Ea.
    + split; [exact Oa|]. rewrite Ea. split; [lra|]. exists (1 - k)%Z. rewrite minus_IZR, Ek. ring.
    + replace (R64 f + 2 * R64 dpi) with (2 * R64 dpi - (- R64 f)) by ring. apply sterbenz; [exact fexp_valid|exact (FLT_exp_monotone (-1074) 53)|exact R2| |lra].
      apply generic_format_opp. now apply repr_R64.
  - destruct (Rlt_bool_spec (R64 dpi) (R64 f)) as [D|D].
    + destruct (fsub_ok f d2pi Of O2) as [Oa Ea].
      { rewrite E2. apply Rle_trans with (bpow radix2 4); [|apply bpow_le; lia]. change (bpow radix2 4) with 16. apply Rabs_le. lra. }
      rewrite E2 in Ea. rewrite rnd_repr in Ea.
      * split; [exact Oa|]. rewrite Ea. split; [lra|]. exists (- k - 1)%Z. rewrite minus_IZR, opp_IZR, Ek. ring.
      * apply sterbenz; [exact fexp_valid|exact (FLT_exp_monotone (-1074) 53)|now apply repr_R64|exact R2|lra].
    + split; [exact Of|]. split; [lra|]. exists (- k)%Z. rewrite opp_IZR, Ek. ring.
Qed.
(** [rad2mrad]: one rounding, which may reach 2 pi itself. *)
Theorem C31_mrad_double v : ok v ->
  ok (rad2mrad_d v) /\ 0 <= R64 (rad2mrad_d v) <= 2 * R64 dpi /\
  (exists k : Z, Rabs (R64 (rad2mrad_d v) - (R64 v + IZR k * (2 * R64 dpi))) <= bpow radix2 (-51)) /\
  (0 <= R64 v -> R64 (rad2mrad_d v) < 2 * R64 dpi /\ exists k : Z, R64 (rad2mrad_d v) = R64 v + IZR k * (2 * R64 dpi)).
Proof.
  intros Ov. destruct d2pi_ok as [O2 E2]. pose proof dpi_range as RP.
  destruct (dfmod_exact v d2pi Ov O2 ltac:(lra)) as (Of & (k & Ek) & Ab & Sg). unfold rad2mrad_d. set (f := dfmod v d2pi) in *. clearbody f.
  rewrite E2 in *. apply Rabs_lt_inv in Ab. destruct (fZ_ok 0 ltac:(lia)) as [O0 E0].
  rewrite fltb_ok, E0 by assumption.
  assert (R2 : repr (2 * R64 dpi)) by (rewrite <- E2; now apply repr_R64).
  destruct (Rlt_bool_spec (R64 f) 0) as [C|C].
  - destruct (fadd_ok f d2pi Of O2) as [Oa Ea].
    { rewrite E2. apply Rle_trans with (bpow radix2 4); [|apply bpow_le; lia]. change (bpow radix2 4) with 16. apply Rabs_le. lra. }
    rewrite E2 in Ea. split; [exact Oa|]. rewrite Ea.
    split; [split; [apply rnd_ge_repr; [apply repr_IZR; lia|lra]|apply rnd_le_repr; [exact R2|lra]]|].
    split.
    + exists (1 - k)%Z. replace (R64 v + IZR (1 - k) * (2 * R64 dpi)) with (R64 f + 2 * R64 dpi) by (rewrite minus_IZR, Ek; ring).
      apply (rnd_err _ 3); [lia|]. change (bpow radix2 3) with 8. apply Rabs_le. lra.
    + intros V. exfalso. assert (R64 v < 0 \/ R64 v = 0 \/ 0 < R64 v) as [N|[N|N]] by lra; [lra| |nra].
      rewrite N in Ek. assert (R64 f = - IZR k * (2 * R64 dpi)) as F by (rewrite Ek; ring).
      assert (K : (k = 0)%Z). { assert (-1 < IZR k < 1) as [K1 K2] by (split; nra). apply lt_IZR in K1, K2. lia. }
      rewrite K in F. lra.
  - split; [exact Of|]. split; [lra|]. assert (exists j : Z, R64 f = R64 v + IZR j * (2 * R64 dpi)) as (j & Ej) by (exists (- k)%Z; rewrite opp_IZR, Ek; ring).
    split; [|intros _; split; [lra|now exists j]].
    exists j. rewrite <- Ej, Rminus_diag_eq by reflexivity. rewrite Rabs_R0. apply bpow_ge_0.
Qed.
(** The half-open range is false of the doubles: a small negative angle gives 2 pi, not 0. *)
Theorem C31_mrad_range_refuted : exists v, ok v /\ ~ R64 (rad2mrad_d v) < 2 * R64 dpi.
Proof.
  exists (fdiv (fZ (-1)) (fZ (2 ^ 53))). split; [split; vm_compute; reflexivity|].
  replace (rad2mrad_d (fdiv (fZ (-1)) (fZ (2 ^ 53)))) with d2pi by (vm_compute; reflexivity).
  destruct d2pi_ok as [_ ->]. lra.
Qed.
Example C31_double_witness : ok (fopp (fZ 10)) /\ R64 (fopp (fZ 10)) < 0.
Proof. destruct (fZ_ok 10 ltac:(lia)) as [O E]. destruct (fopp_ok _ O) as [O' E']. split; [exact O'|]. rewrite E', E. lra. Qed.
Print Assumptions dfmod_exact.
Print Assumptions C31_rrad_double.
Print Assumptions C31_mrad_double.
Print Assumptions C31_mrad_range_refuted.
