(** The square root of doubles, correctly rounded, as IEEE 754 requires. *)
From Coq Require Import ZArith Reals Lia Lra Bool.
From Coq Require Import Floats.SpecFloat.
From Flocq Require Import Core IEEE754.BinarySingleNaN.
From Verif Require Import F64 F64R.

(** sqrt of <cmath>, as eph/eph.cpp:506 and others call it *)
Definition fsqrt (x : f64) : f64 := SFsqrt 53 1024 x.

Open Scope R_scope.
Lemma fsqrt_equiv (x : bf) : fsqrt (B2SF x) = B2SF (Bsqrt mode_NE x).
Proof.
  unfold fsqrt. destruct x as [s|[]| |[] m e B]; try reflexivity. simpl. rewrite B2SF_SF2B.
  set (melz := SFsqrt_core_binary _ _ _ _). case melz as [[mz ez] lz]. apply bra_equiv.
Qed.
Lemma fsqrt_ok x : ok x -> 0 <= R64 x -> ok (fsqrt x) /\ R64 (fsqrt x) = rnd (sqrt (R64 x)).
Proof.
  intros Hx P. destruct (ok_B _ Hx) as (bx & -> & Fx & Rx). rewrite fsqrt_equiv.
  destruct (Bsqrt_correct 53 1024 Hprec53 Hmax1024 mode_NE bx) as (E & Fi & _). rewrite Rx, rnd_eq in E.
  assert (F : is_finite (Bsqrt mode_NE bx) = true).
  { rewrite Fi. rewrite <- Rx in P. destruct bx as [s|s| |[] m e B]; try reflexivity; try discriminate Fx.
    exfalso. change (0 <= F2R (Float radix2 (- Z.pos m) e)) in P. pose proof (F2R_lt_0 radix2 (Float radix2 (- Z.pos m) e)) as Q. cbn [Fnum] in Q. specialize (Q ltac:(lia)). lra. }
  split; [now apply ok_of_B|now rewrite R64_B].
Qed.
Lemma fabs_ok x : ok x -> ok (ffabs x) /\ R64 (ffabs x) = Rabs (R64 x).
Proof.
  intros [V Fi]. split.
  - split; destruct x; simpl in *; easy.
  - unfold R64, ffabs. destruct x as [s|s| |s m e]; simpl; rewrite ?Rabs_R0; try reflexivity. unfold F2R; simpl Fnum; simpl Fexp. rewrite Rabs_mult, (Rabs_pos_eq (bpow radix2 e)) by apply bpow_ge_0.
    f_equal. rewrite <- abs_IZR. f_equal. now destruct s.
Qed.
