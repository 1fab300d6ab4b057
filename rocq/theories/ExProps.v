(** C128: what uninitialized.h does when the constructor of an element throws. *)
From Coq Require Import List Arith Bool Lia.
From Verif Require Import F64 VecModel VecSpec VecProof ExModel ExProof.
Import ListNotations.

Section Props.
Variable A : Type.
Variables mv selfmv : A -> A.
Variable thr : nat -> bool.
Notation heap := (heap A). Notation ref := (ref A).
Notation Obj := (Obj A). Notation Raw := (Raw A).
Notation mem := (mem A). Notation blk := (blk A). Notation next := (next A). Notation lost := (lost A).

(** The words of the statements.  [quiet c n]: none of the n constructions from the c-th on throws; [breaks c k]: the k-th of them
    is the first that throws.  [bare]: storage without objects; [stored]: the objects xs, one after the other; [only h h' a n]: the two
    memories differ at most in the n cells from a on, and no object was lost. *)
Definition quiet (c n : nat) : Prop := forall j, j < n -> thr (c + j) = false.
Definition breaks (c k : nat) : Prop := quiet c k /\ thr (c + k) = true.
Definition bare (h : heap) (a n : nat) : Prop := forall i, i < n -> mem h (a + i) = Raw.
Definition stored (h : heap) (a : nat) (xs : list A) : Prop := forall i x, nth_error xs i = Some x -> mem h (a + i) = Obj x.
Definition only (h h' : heap) (a n : nat) : Prop :=
  blk h' = blk h /\ next h' = next h /\ lost h' = lost h /\ forall x, ~ (a <= x < a + n) -> mem h' x = mem h x.
(** the same memory *)
Definition alike (h h' : heap) : Prop := blk h' = blk h /\ next h' = next h /\ lost h' = lost h /\ forall x, mem h' x = mem h x.

Lemma stored_live h a xs : stored h a xs -> forall i, i < length xs -> livec A (mem h (a + i)).
Proof. intros S i Hi. destruct (nth_error xs i) eqn:N; [exists a0; auto|]. apply nth_error_None in N. lia. Qed.
Ltac bs := repeat first
    [ match goal with
      | |- context [inr ?x ?a ?n] => destruct (inr_spec x a n)
      | |- context [?a =? ?b] => destruct (Nat.eqb_spec a b)
      end; cbn [andb negb orb]; try lia ].

(** Without an exception every function stores its values and returns the end. *)
Theorem exc_copy_done h c src dst xs : stored h src xs -> bare h dst (length xs) -> quiet c (length xs) ->
  exists h', uninit_copy A mv selfmv thr (length xs) src dst h c = Ret h' (c + length xs) (dst + length xs)
   /\ stored h' dst xs /\ only h h' dst (length xs).
Proof.
  intros S B Q. unfold uninit_copy.
  destruct (build_done A thr (Icopy A h src dst) (fun h c i => ctor_from A mv selfmv thr false h c (src + i) (dst + i)) (length xs)) with (n := length xs) (i := 0) (h := h) (c := c)
    as (h' & E & (K1 & K2 & K3) & M); auto.
  - intros. apply copy_step with (m := length xs); auto. now apply stored_live.
  - apply Icopy0.
  - rewrite E. cbn. exists h'. split; [reflexivity|]. split.
    + intros i x N. assert (i < length xs) by (apply nth_error_Some; congruence). cbn in M. rewrite M. bs.
      replace (src + (dst + i - dst)) with (src + i) by lia. auto.
    + repeat split; auto. intros x Hx. cbn in M. rewrite M. bs. reflexivity.
Qed.
Theorem exc_fill_done h c n r v a : val A h r = Some v -> bare h a n -> quiet c n ->
  exists h', uninit_fill_n A thr n r a h c = Ret h' (c + n) (a + n) /\ stored h' a (repeat v n) /\ only h h' a n.
Proof.
  intros V B Q. unfold uninit_fill_n.
  destruct (build_done A thr (Ifill A h a v) (fun h c i => ctor_ref A thr h c (a + i) r) n) with (n := n) (i := 0) (h := h) (c := c)
    as (h' & E & (K1 & K2 & K3) & M); auto.
  - intros. apply fill_step with (m := n); auto.
  - apply Ifill0.
  - rewrite E. cbn. exists h'. split; [reflexivity|]. cbn in M. split.
    + intros i x N. assert (i < n) by (rewrite <- (repeat_length v n); apply nth_error_Some; congruence).
      rewrite M. bs. apply nth_error_In, repeat_spec in N. congruence.
    + repeat split; auto. intros x Hx. rewrite M. bs. reflexivity.
Qed.
(** the objects that were moved are left with the value of a moved-from object *)
Lemma move_done h c src dst xs : stored h src xs -> bare h dst (length xs) -> quiet c (length xs) ->
  exists h', build A (fun h c i => ctor_from A mv selfmv thr true h c (src + i) (dst + i)) (length xs) 0 h c = Ret h' (c + length xs) (length xs, false)
   /\ stored h' dst xs /\ stored h' src (map mv xs)
   /\ blk h' = blk h /\ next h' = next h /\ lost h' = lost h
   /\ forall x, ~ (dst <= x < dst + length xs) -> ~ (src <= x < src + length xs) -> mem h' x = mem h x.
Proof.
  intros S B Q.
  destruct (build_done A thr (Imove A mv h src dst) (fun h c i => ctor_from A mv selfmv thr true h c (src + i) (dst + i)) (length xs)) with (n := length xs) (i := 0) (h := h) (c := c)
    as (h' & E & (K1 & K2 & K3) & M); auto.
  - intros. apply move_step with (m := length xs); auto. now apply stored_live.
  - apply Imove0.
  - rewrite E. exists h'. split; [reflexivity|]. cbn in M.
    split; [|split; [|split; [auto|split; [auto|split; [auto|]]]]].
    + intros i x N. assert (i < length xs) by (apply nth_error_Some; congruence). rewrite M. bs.
      replace (src + (dst + i - dst)) with (src + i) by lia. auto.
    + intros i y N. rewrite nth_error_map in N. destruct (nth_error xs i) as [x|] eqn:N'; [|discriminate].
      injection N as <-. assert (i < length xs) by (apply nth_error_Some; congruence). rewrite M. bs.
      * exfalso. specialize (B (src + i - dst) ltac:(lia)). replace (dst + (src + i - dst)) with (src + i) in B by lia. rewrite (S i x N') in B. discriminate.
      * rewrite (S i x N'). reflexivity.
    + intros x H1 H2. rewrite M. bs. reflexivity.
Qed.
Theorem exc_move_done h c src dst xs : stored h src xs -> bare h dst (length xs) -> quiet c (length xs) ->
  exists h', uninit_move A mv selfmv thr (length xs) src dst h c = Ret h' (c + length xs) (dst + length xs)
   /\ uninit_move_n A mv selfmv thr (length xs) src dst h c = Ret h' (c + length xs) (dst + length xs)
   /\ stored h' dst xs /\ stored h' src (map mv xs)
   /\ blk h' = blk h /\ next h' = next h /\ lost h' = lost h
   /\ forall x, ~ (dst <= x < dst + length xs) -> ~ (src <= x < src + length xs) -> mem h' x = mem h x.
Proof.
  intros S B Q. destruct (move_done h c src dst xs S B Q) as (h' & E & R). exists h'. unfold uninit_move, uninit_move_n. rewrite E. cbn.
  split; [reflexivity|]. split; [reflexivity|exact R].
Qed.

(** uninitialized_move_n alone passes the exception on, with the storage as it was; the objects that had been moved before the
    exception stay moved from. *)
Lemma move_throw h c src dst xs k : stored h src xs -> bare h dst (length xs) -> k < length xs -> breaks c k ->
  exists h1 h', build A (fun h c i => ctor_from A mv selfmv thr true h c (src + i) (dst + i)) (length xs) 0 h c = Ret h1 (c + k + 1) (k, true)
   /\ des_range A false k h1 dst = Some h'
   /\ bare h' dst (length xs) /\ stored h' src (map mv (firstn k xs) ++ skipn k xs)
   /\ blk h' = blk h /\ next h' = next h /\ lost h' = lost h
   /\ forall x, ~ (src <= x < src + k) -> mem h' x = mem h x.
Proof.
  intros S B Hk [Q T].
  destruct (build_throw A thr (Imove A mv h src dst) (fun h c i => ctor_from A mv selfmv thr true h c (src + i) (dst + i)) (length xs)) with (k := k) (n := length xs) (i := 0) (h := h) (c := c)
    as (h1 & E & (K1 & K2 & K3) & M); auto.
  - intros. apply move_step with (m := length xs); auto. now apply stored_live.
  - intros. apply move_fail with (h0 := h) (m := length xs); auto. now apply stored_live.
  - apply Imove0.
  - cbn in M. destruct (des_undo A k h1 dst) as (h' & E' & (D1 & D2 & D3) & M').
    { intros i Hi. rewrite M. bs. replace (src + (dst + i - dst)) with (src + i) by lia. apply (stored_live h src xs S). lia. }
    exists h1, h'. split; [exact E|]. split; [exact E'|].
    assert (MM : forall x, mem h' x = if inr x src k then mvc A mv (mem h x) else mem h x).
    { intros x. rewrite M', M. bs; try reflexivity.
      - exfalso. specialize (B (x - dst) ltac:(lia)). replace (dst + (x - dst)) with x in B by lia.
        destruct (stored_live h src xs S (x - src) ltac:(lia)) as [w Ew]. replace (src + (x - src)) with x in Ew by lia. congruence.
      - symmetry. specialize (B (x - dst) ltac:(lia)). replace (dst + (x - dst)) with x in B by lia. exact B. }
    split; [|split; [|split; [congruence|split; [congruence|split; [congruence|]]]]].
    + intros i Hi. rewrite MM, (B i Hi). bs; reflexivity.
    + intros i y N. rewrite MM. destruct (Nat.lt_ge_cases i k) as [C|C].
      * rewrite nth_error_app1 in N by (rewrite map_length, firstn_length; lia). rewrite nth_error_map, ne_firstn in N.
        destruct (Nat.ltb_spec i k); [|lia]. destruct (nth_error xs i) as [x|] eqn:N'; [|discriminate]. injection N as <-. bs. rewrite (S i x N'). reflexivity.
      * rewrite nth_error_app2 in N by (rewrite map_length, firstn_length; lia). rewrite ne_skipn, map_length, firstn_length, Nat.min_l in N by lia.
        replace (k + (i - k)) with i in N by lia. bs. auto.
    + intros x Hx. rewrite MM. bs. reflexivity.
Qed.
Theorem exc_move_n_throw h c src dst xs k : stored h src xs -> bare h dst (length xs) -> k < length xs -> breaks c k ->
  exists h', uninit_move_n A mv selfmv thr (length xs) src dst h c = Throw h' (c + k + 1)
   /\ bare h' dst (length xs) /\ stored h' src (map mv (firstn k xs) ++ skipn k xs)
   /\ blk h' = blk h /\ next h' = next h /\ lost h' = lost h
   /\ forall x, ~ (src <= x < src + k) -> mem h' x = mem h x.
Proof.
  intros S B Hk T. destruct (move_throw h c src dst xs k S B Hk T) as (h1 & h' & E & D & R). exists h'. unfold uninit_move_n. rewrite E. cbn.
  rewrite D. split; [reflexivity|exact R].
Qed.
(** uninitialized_move cleans up in the same way but returns as if nothing had happened ... *)
Theorem exc_move_throw h c src dst xs k : stored h src xs -> bare h dst (length xs) -> k < length xs -> breaks c k ->
  exists h', uninit_move A mv selfmv thr (length xs) src dst h c = Ret h' (c + k + 1) (dst + k)
   /\ bare h' dst (length xs) /\ stored h' src (map mv (firstn k xs) ++ skipn k xs)
   /\ blk h' = blk h /\ next h' = next h /\ lost h' = lost h
   /\ forall x, ~ (src <= x < src + k) -> mem h' x = mem h x.
Proof.
  intros S B Hk T. destruct (move_throw h c src dst xs k S B Hk T) as (h1 & h' & E & D & R). exists h'. unfold uninit_move. rewrite E. cbn.
  rewrite D. split; [reflexivity|exact R].
Qed.
(** ... and so do uninitialized_fill and uninitialized_fill_n; ... *)
Theorem exc_fill_throw h c n r v a k : val A h r = Some v -> bare h a n -> k < n -> breaks c k ->
  exists h', uninit_fill_n A thr n r a h c = Ret h' (c + k + 1) (a + k) /\ alike h h'.
Proof.
  intros V B Hk [Q T]. unfold uninit_fill_n.
  destruct (build_throw A thr (Ifill A h a v) (fun h c i => ctor_ref A thr h c (a + i) r) n) with (k := k) (n := n) (i := 0) (h := h) (c := c)
    as (h1 & E & (K1 & K2 & K3) & M); auto.
  - intros. apply fill_step with (m := n); auto.
  - intros. apply fill_fail with (h0 := h) (m := n) (v := v); auto.
  - apply Ifill0.
  - cbn in M. destruct (des_undo A k h1 a) as (h' & E' & (D1 & D2 & D3) & M').
    { intros i Hi. rewrite M. bs. now exists v. }
    rewrite E. cbn. rewrite E'. exists h'. split; [reflexivity|]. repeat split; try congruence.
    intros x. rewrite M', M. bs; try reflexivity. specialize (B (x - a) ltac:(lia)). replace (a + (x - a)) with x in B by lia. auto.
Qed.
(** ... uninitialized_copy and uninitialized_copy_n destroy the object that was not constructed, unless it is the first. *)
Theorem exc_copy_throw h c src dst xs k : stored h src xs -> bare h dst (length xs) -> k < length xs -> breaks c k ->
  uninit_copy A mv selfmv thr (length xs) src dst h c = match k with O => Ret h (c + 1) dst | S _ => Ub end.
Proof.
  intros St B Hk [Q T]. unfold uninit_copy. destruct k as [|k].
  - destruct (length xs) as [|n] eqn:Len; [lia|]. cbn [build]. rewrite !Nat.add_0_r in *.
    assert (L0 : livec A (mem h src)) by (rewrite <- (Nat.add_0_r src); apply (stored_live h src xs St); lia).
    destruct L0 as [w Ew]. specialize (B 0 ltac:(lia)). rewrite Nat.add_0_r in B. unfold ctor_from. rewrite T. unfold rd. rewrite Ew, B. cbn.
    now rewrite Nat.add_1_r.
  - destruct (build_throw A thr (Icopy A h src dst) (fun h c i => ctor_from A mv selfmv thr false h c (src + i) (dst + i)) (length xs)) with (k := S k) (n := length xs) (i := 0) (h := h) (c := c)
      as (h1 & E & (K1 & K2 & K3) & M); auto.
    + intros. apply copy_step with (m := length xs); auto. now apply stored_live.
    + intros. apply copy_fail with (h0 := h) (m := length xs); auto. now apply stored_live.
    + apply Icopy0.
    + rewrite E. change (0 + S k) with (S k) in *. cbn [bind down]. unfold des. rewrite M. bs. rewrite (B (S k) Hk). reflexivity.
Qed.
End Props.

(** C128 fails: an exception is to reach the caller, and nothing is to be destroyed that was not constructed. *)
Definition once (k : nat) (i : nat) : bool := i =? k.
Definition demo_heap : heap nat :=
  mkH nat (fun x => if x <? 1 then Free nat else if x <? 4 then Obj nat (10 * x) else if x <? 9 then Raw nat else Free nat) (fun p => if p =? 1 then 3 else if p =? 4 then 5 else 0) 9 [].
Lemma demo_src : stored nat demo_heap 1 [10; 20; 30].
Proof. intros i x. destruct i as [|[|[|i]]]; cbn; intros E; try (injection E as <-; reflexivity). destruct i; discriminate. Qed.
Lemma demo_dst : bare nat demo_heap 4 3.
Proof. intros i Hi. destruct i as [|[|[|i]]]; cbn; try reflexivity. lia. Qed.
Theorem C128_swallowed_refuted : exists (thr : nat -> bool) h xs, stored nat h 1 xs /\ bare nat h 4 (length xs) /\ breaks thr 0 1 /\ 1 < length xs
  /\ (exists h' c, uninit_move nat S S thr (length xs) 1 4 h 0 = Ret h' c 5 /\ rd nat h' 4 = None)
  /\ (exists h' c, uninit_fill_n nat thr 3 (Ext nat 7) 4 h 0 = Ret h' c 5 /\ rd nat h' 4 = None).
Proof.
  exists (once 1), demo_heap, [10; 20; 30].
  split; [apply demo_src|]. split; [apply demo_dst|]. split; [split; [intros j Hj; destruct j; [reflexivity|lia]|reflexivity]|]. split; [cbn; lia|].
  split; eexists; eexists; (split; [vm_compute; reflexivity|reflexivity]).
Qed.
Theorem C128_destroyed_refuted : exists (thr : nat -> bool) h xs, stored nat h 1 xs /\ bare nat h 4 (length xs) /\ breaks thr 0 1 /\ 1 < length xs
  /\ uninit_copy nat S S thr (length xs) 1 4 h 0 = Ub.
Proof.
  exists (once 1), demo_heap, [10; 20; 30].
  split; [apply demo_src|]. split; [apply demo_dst|]. split; [split; [intros j Hj; destruct j; [reflexivity|lia]|reflexivity]|]. split; [cbn; lia|]. reflexivity.
Qed.
(** a concrete run that meets the hypotheses of exc_move_n_throw *)
Example exc_ex : exists h', uninit_move_n nat S S (once 2) 3 1 4 demo_heap 0 = Throw h' 3 /\ rd nat h' 1 = Some 11 /\ rd nat h' 2 = Some 21 /\ rd nat h' 3 = Some 30 /\ rd nat h' 4 = None.
Proof. eexists. split; [vm_compute; reflexivity|]. repeat split. Qed.
Example exc_ex_done : exists h', uninit_copy nat S S (once 5) 3 1 4 demo_heap 0 = Ret h' 3 7 /\ rd nat h' 5 = Some 20.
Proof. eexists. split; [vm_compute; reflexivity|]. reflexivity. Qed.

Print Assumptions exc_copy_done.
Print Assumptions exc_fill_done.
Print Assumptions exc_move_done.
Print Assumptions exc_move_n_throw.
Print Assumptions exc_move_throw.
Print Assumptions exc_fill_throw.
Print Assumptions exc_copy_throw.
