(** Lemmas for ExProps: what the loops of uninitialized.h do up to the first exception. *)
From Coq Require Import List Arith Bool Lia.
From Verif Require Import F64 VecModel VecSpec VecProof ExModel.
Import ListNotations.

Section Proof.
Variable A : Type.
Variables mv selfmv : A -> A.
Variable thr : nat -> bool.
Notation heap := (heap A). Notation cell := (cell A). Notation ref := (ref A).
Notation Obj := (Obj A). Notation Raw := (Raw A). Notation Free := (Free A).
Notation mem := (mem A). Notation blk := (blk A). Notation next := (next A). Notation lost := (lost A).
Notation same := (same A). Notation livec := (livec A).

Definition keep (h h' : heap) : Prop := blk h' = blk h /\ next h' = next h /\ lost h' = lost h.
Lemma keep_refl h : keep h h. Proof. repeat split. Qed.
Lemma keep_trans h1 h2 h3 : keep h1 h2 -> keep h2 h3 -> keep h1 h3.
Proof. unfold keep. intros (? & ? & ?) (? & ? & ?). repeat split; congruence. Qed.

Lemma build_done (Inv : nat -> heap -> Prop) step m :
  (forall h c i, i < m -> Inv i h -> thr c = false -> exists h', step h c i = Ret h' (S c) tt /\ Inv (S i) h') ->
  forall n i h c, i + n <= m -> Inv i h -> (forall j, j < n -> thr (c + j) = false) ->
  exists h', build A step n i h c = Ret h' (c + n) (i + n, false) /\ Inv (i + n) h'.
Proof.
  intros St. induction n as [|n IH]; intros i h c Hm HI T; cbn [build].
  - exists h. rewrite !Nat.add_0_r. auto.
  - destruct (St h c i) as (h1 & E1 & I1); [lia|exact HI|specialize (T 0); rewrite Nat.add_0_r in T; apply T; lia|].
    rewrite E1. destruct (IH (S i) h1 (S c)) as (h2 & E2 & I2); [lia|exact I1|intros j Hj; replace (S c + j) with (c + S j) by lia; apply T; lia|].
    exists h2. rewrite E2. replace (S c + n) with (c + S n) by lia. replace (S i + n) with (i + S n) in * by lia. auto.
Qed.
Lemma build_throw (Inv : nat -> heap -> Prop) step m :
  (forall h c i, i < m -> Inv i h -> thr c = false -> exists h', step h c i = Ret h' (S c) tt /\ Inv (S i) h') ->
  (forall h c i, i < m -> Inv i h -> thr c = true -> step h c i = Throw h (S c)) ->
  forall k n i h c, i + n <= m -> k < n -> Inv i h -> (forall j, j < k -> thr (c + j) = false) -> thr (c + k) = true ->
  exists h', build A step n i h c = Ret h' (c + k + 1) (i + k, true) /\ Inv (i + k) h'.
Proof.
  intros St Sf. induction k as [|k IH]; intros n i h c Hm Hk HI T F; (destruct n as [|n]; [lia|]); cbn [build].
  - rewrite Nat.add_0_r in F. rewrite (Sf h c i) by (auto; lia). exists h. rewrite !Nat.add_0_r. rewrite Nat.add_1_r. auto.
  - destruct (St h c i) as (h1 & E1 & I1); [lia|exact HI|specialize (T 0); rewrite Nat.add_0_r in T; apply T; lia|].
    rewrite E1. destruct (IH n (S i) h1 (S c)) as (h2 & E2 & I2); [lia|lia|exact I1|intros j Hj; replace (S c + j) with (c + S j) by lia; apply T; lia| |].
    { replace (S c + k) with (c + S k) by lia. exact F. }
    exists h2. rewrite E2. replace (S c + k + 1) with (c + S k + 1) by lia. replace (S i + k) with (i + S k) in * by lia. auto.
Qed.

(** the memory after i elements have been built at dst from the elements at src *)
Definition Icopy (h0 : heap) (src dst : nat) (i : nat) (h : heap) : Prop :=
  keep h0 h /\ forall x, mem h x = if inr x dst i then mem h0 (src + (x - dst)) else mem h0 x.
Definition Imove (h0 : heap) (src dst : nat) (i : nat) (h : heap) : Prop :=
  keep h0 h /\ forall x, mem h x = if inr x dst i then mem h0 (src + (x - dst)) else if inr x src i then mvc A mv (mem h0 x) else mem h0 x.
Definition Ifill (h0 : heap) (a : nat) (v : A) (i : nat) (h : heap) : Prop :=
  keep h0 h /\ forall x, mem h x = if inr x a i then Obj v else mem h0 x.

Ltac bs := repeat first
    [ match goal with
      | |- context [inr ?x ?a ?n] => destruct (inr_spec x a n)
      | |- context [?a =? ?b] => destruct (Nat.eqb_spec a b)
      end; cbn [andb negb orb]; try lia ].

Section From.
Variables (h0 : heap) (src dst m : nat).
Hypothesis L : forall i, i < m -> livec (mem h0 (src + i)).
Hypothesis R : forall i, i < m -> mem h0 (dst + i) = Raw.
Lemma apart i j : i < m -> j < m -> src + i <> dst + j.
Proof. intros Hi Hj E. destruct (L i Hi) as [v Ev]. specialize (R j Hj). rewrite E in Ev. congruence. Qed.
Lemma raw_at x : dst <= x < dst + m -> mem h0 x = Raw.
Proof. intros H. specialize (R (x - dst) ltac:(lia)). replace (dst + (x - dst)) with x in R by lia. exact R. Qed.
Lemma live_at x : src <= x < src + m -> livec (mem h0 x).
Proof. intros H. specialize (L (x - src) ltac:(lia)). replace (src + (x - src)) with x in L by lia. exact L. Qed.
Lemma apart' x : src <= x < src + m -> dst <= x < dst + m -> False.
Proof. intros H1 H2. pose proof (raw_at x H2). destruct (live_at x H1). congruence. Qed.

Lemma copy_step h c i : i < m -> Icopy h0 src dst i h -> thr c = false ->
  exists h', ctor_from A mv selfmv thr false h c (src + i) (dst + i) = Ret h' (S c) tt /\ Icopy h0 src dst (S i) h'.
Proof.
  intros Hi [(K1 & K2 & K3) M] T. unfold ctor_from. rewrite T.
  destruct (L i Hi) as [v Ev].
  assert (Es : mem h (src + i) = Obj v). { rewrite M. bs. exfalso; apply (apart' (src + i)); lia. exact Ev. }
  assert (Ed : mem h (dst + i) = Raw). { rewrite M. bs. apply R; lia. }
  unfold xfer, rd. rewrite Es. cbn [obind andb]. unfold con. rewrite Ed. eexists. split; [reflexivity|].
  split; [repeat split; assumption|]. intros x. cbn. unfold upd. rewrite M. bs; try reflexivity.
  subst x. replace (src + (dst + i - dst)) with (src + i) by lia. now rewrite Ev.
Qed.
Lemma copy_fail h c i : i < m -> Icopy h0 src dst i h -> thr c = true ->
  ctor_from A mv selfmv thr false h c (src + i) (dst + i) = Throw h (S c).
Proof.
  intros Hi [_ M] T. unfold ctor_from. rewrite T.
  destruct (L i Hi) as [v Ev].
  assert (Es : mem h (src + i) = Obj v). { rewrite M. bs. exfalso; apply (apart' (src + i)); lia. exact Ev. }
  assert (Ed : mem h (dst + i) = Raw). { rewrite M. bs. apply R; lia. }
  unfold rd. rewrite Es, Ed. reflexivity.
Qed.
Lemma move_step h c i : i < m -> Imove h0 src dst i h -> thr c = false ->
  exists h', ctor_from A mv selfmv thr true h c (src + i) (dst + i) = Ret h' (S c) tt /\ Imove h0 src dst (S i) h'.
Proof.
  intros Hi [(K1 & K2 & K3) M] T. unfold ctor_from. rewrite T.
  destruct (L i Hi) as [v Ev]. pose proof (apart i i Hi Hi) as Ne.
  assert (Es : mem h (src + i) = Obj v). { rewrite M. bs. exfalso; apply (apart' (src + i)); lia. exact Ev. }
  assert (Ed : mem h (dst + i) = Raw). { rewrite M. bs. exfalso; apply (apart' (dst + i)); lia. apply R; lia. }
  unfold xfer, rd. rewrite Es. cbn [obind andb]. replace (src + i =? dst + i) with false by (symmetry; apply Nat.eqb_neq; exact Ne).
  unfold con, put. cbn. unfold upd at 1. replace (dst + i =? src + i) with false by (symmetry; apply Nat.eqb_neq; auto). rewrite Ed.
  eexists. split; [reflexivity|].
  split; [repeat split; assumption|]. intros x. cbn. unfold upd. rewrite M. bs; try reflexivity.
  all: try (exfalso; apply (apart' x); lia).
  all: subst x; try (replace (src + (dst + i - dst)) with (src + i) by lia); rewrite Ev; reflexivity.
Qed.
Lemma move_fail h c i : i < m -> Imove h0 src dst i h -> thr c = true ->
  ctor_from A mv selfmv thr true h c (src + i) (dst + i) = Throw h (S c).
Proof.
  intros Hi [_ M] T. unfold ctor_from. rewrite T.
  destruct (L i Hi) as [v Ev].
  assert (Es : mem h (src + i) = Obj v). { rewrite M. bs. exfalso; apply (apart' (src + i)); lia. exact Ev. }
  assert (Ed : mem h (dst + i) = Raw). { rewrite M. bs. exfalso; apply (apart' (dst + i)); lia. apply R; lia. }
  unfold rd. rewrite Es, Ed. reflexivity.
Qed.
Lemma Icopy0 : Icopy h0 src dst 0 h0.
Proof. split; [apply keep_refl|]. intros x. bs. reflexivity. Qed.
Lemma Imove0 : Imove h0 src dst 0 h0.
Proof. split; [apply keep_refl|]. intros x. bs; reflexivity. Qed.
End From.

Section Fill.
Variables (h0 : heap) (a m : nat) (r : ref) (v : A).
Hypothesis R : forall i, i < m -> mem h0 (a + i) = Raw.
Hypothesis V : val A h0 r = Some v.
Lemma fill_val h i : i <= m -> Ifill h0 a v i h -> val A h r = Some v.
Proof.
  intros Hi [_ M]. destruct r as [w|p]; cbn in *; [exact V|]. unfold rd in *. rewrite M. bs; [reflexivity|exact V].
Qed.
Lemma fill_step h c i : i < m -> Ifill h0 a v i h -> thr c = false ->
  exists h', ctor_ref A thr h c (a + i) r = Ret h' (S c) tt /\ Ifill h0 a v (S i) h'.
Proof.
  intros Hi HI T. pose proof HI as [(K1 & K2 & K3) M]. unfold ctor_ref. rewrite (fill_val h i) by (auto; lia). unfold ctor. rewrite T.
  assert (Ed : mem h (a + i) = Raw). { rewrite M. bs. apply R; lia. }
  unfold con. rewrite Ed. eexists. split; [reflexivity|].
  split; [repeat split; assumption|]. intros x. cbn. unfold upd. rewrite M. bs; reflexivity.
Qed.
Lemma fill_fail h c i : i < m -> Ifill h0 a v i h -> thr c = true -> ctor_ref A thr h c (a + i) r = Throw h (S c).
Proof.
  intros Hi HI T. pose proof HI as [_ M]. unfold ctor_ref. rewrite (fill_val h i) by (auto; lia). unfold ctor. rewrite T.
  assert (Ed : mem h (a + i) = Raw). { rewrite M. bs. apply R; lia. }
  rewrite Ed. reflexivity.
Qed.
Lemma Ifill0 : Ifill h0 a v 0 h0.
Proof. split; [apply keep_refl|]. intros x. bs; reflexivity. Qed.
End Fill.

Lemma des_undo n h a : (forall i, i < n -> livec (mem h (a + i))) -> exists h', des_range A false n h a = Some h' /\ keep h h'
  /\ forall x, mem h' x = if inr x a n then Raw else mem h x.
Proof.
  intros H. destruct (des_range_ok A false n h a H) as (h' & E & [S1 S2] & L & M). exists h'. repeat split; try assumption.
Qed.
Lemma des_range_raw n h a k : k < n -> mem h (a + k) = Raw -> des_range A false n h a = None.
Proof.
  revert h a k. induction n as [|n IH]; intros h a k Hk R; [lia|]. cbn [des_range].
  destruct k as [|k].
  - rewrite Nat.add_0_r in R. unfold des. rewrite R. reflexivity.
  - unfold des. destruct (mem h a) eqn:E; cbn [obind]; try reflexivity. apply (IH _ _ k); [lia|]. cbn. unfold upd.
    bs. replace (a + S k) with (S (a + k)) in R by lia. exact R.
Qed.
End Proof.
