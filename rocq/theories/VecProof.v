(** Lemmas about the memory operations and the member functions of vector, one vector at a time. *)
From Coq Require Import List Arith Bool Lia.
From Verif Require Import F64 VecModel VecSpec.
Import ListNotations.
Open Scope opt_scope.

Section Proof.
Variable A : Type.
Variable triv : bool.
Variables mv selfmv : A -> A.
Notation heap := (heap A). Notation cell := (cell A). Notation ref := (ref A).
Notation Obj := (Obj A). Notation Raw := (Raw A). Notation Free := (Free A).
Notation mem := (mem A). Notation blk := (blk A). Notation next := (next A). Notation lost := (lost A).

Definition inr (x a n : nat) : bool := (a <=? x) && (x <? a + n).
Definition livec (c : cell) : Prop := exists v, c = Obj v.
Definition blank (c : cell) : Prop := if triv then c <> Free else c = Raw.
Definition mvc (c : cell) : cell := match c with VecModel.Obj _ v => Obj (mv v) | _ => c end.
Definition same (h h' : heap) : Prop := blk h' = blk h /\ next h' = next h.
Definition wr (cons : bool) (c : cell) : Prop := c <> Free /\ (triv = false -> cons = false -> livec c).

Lemma inr_spec x a n : reflect (a <= x < a + n) (inr x a n).
Proof.
  unfold inr. destruct (Nat.leb_spec0 a x), (Nat.ltb_spec0 x (a + n)); constructor; lia.
Qed.

Ltac bsplit :=
  repeat first
    [ match goal with
      | |- context [inr ?x ?a ?n] => destruct (inr_spec x a n)
      | |- context [?a =? ?b] => destruct (Nat.eqb_spec a b)
      | |- context [?a <=? ?b] => destruct (Nat.leb_spec a b)
      | |- context [?a <? ?b] => destruct (Nat.ltb_spec a b)
      end; cbn [andb negb orb]; try lia ].

Lemma blank_wr c : blank c -> wr true c.
Proof. unfold blank, wr. destruct triv; intros B; (split; [congruence|discriminate]). Qed.
Lemma blank_raw : blank Raw.
Proof. unfold blank. destruct triv; [discriminate|reflexivity]. Qed.
Lemma live_wr cons c : livec c -> wr cons c.
Proof. intros [v E]; subst; split; [discriminate|intros _ _; now exists v]. Qed.

Lemma asg_ok h a v : wr false (mem h a) -> exists h', asg A triv h a v = Some h' /\ same h h' /\ lost h' = lost h
   /\ forall x, mem h' x = if x =? a then Obj v else mem h x.
Proof.
  intros [W1 W2]. unfold asg. destruct (mem h a) eqn:E; [congruence| |].
  - destruct triv; [|destruct W2 as [w W]; [reflexivity|reflexivity|discriminate]]. eexists; repeat split; reflexivity.
  - eexists; repeat split; reflexivity.
Qed.
Lemma con_ok h a v : wr true (mem h a) -> exists h', con A triv h a v = Some h' /\ same h h' /\ (blank (mem h a) -> lost h' = lost h)
   /\ forall x, mem h' x = if x =? a then Obj v else mem h x.
Proof.
  intros [W1 _]. unfold con, blank. destruct (mem h a) eqn:E; [congruence| |].
  - eexists; repeat split; reflexivity.
  - destruct triv; eexists; repeat split; try reflexivity. discriminate.
Qed.
Lemma des_ok h a : livec (mem h a) -> exists h', des A triv h a = Some h' /\ same h h' /\ lost h' = lost h
   /\ forall x, mem h' x = if negb triv && (x =? a) then Raw else mem h x.
Proof.
  intros [v E]. unfold des. destruct triv; [eexists; repeat split; reflexivity|]. rewrite E. eexists; repeat split; reflexivity.
Qed.
Lemma des_range_ok n : forall h a, (forall i, i < n -> livec (mem h (a + i))) -> exists h', des_range A triv n h a = Some h' /\ same h h' /\ lost h' = lost h
   /\ forall x, mem h' x = if negb triv && inr x a n then Raw else mem h x.
Proof.
  induction n as [|n IH]; intros h a L; cbn [des_range].
  - exists h. repeat split; intros. bsplit; destruct triv; reflexivity.
  - destruct (des_ok h a) as (h1 & E1 & S1 & L1 & M1). { specialize (L 0). rewrite Nat.add_0_r in L. apply L; lia. }
    rewrite E1. cbn [obind]. destruct (IH h1 (S a)) as (h2 & E2 & S2 & L2 & M2).
    { intros i Hi. rewrite M1. bsplit; destruct triv; replace (S a + i) with (a + S i) by lia; apply L; lia. }
    exists h2. rewrite E2. split; [reflexivity|]. destruct S1 as [? ?], S2 as [? ?]. repeat split; try congruence.
    intros x. rewrite M2, M1. destruct triv; cbn [negb andb]; [reflexivity|]. bsplit; reflexivity.
Qed.

Lemma forallb_seq f n : (forall i, i < n -> f i = true) -> forallb f (seq 0 n) = true.
Proof. intros H. apply forallb_forall. intros i Hi. apply in_seq in Hi. apply H. lia. Qed.
Lemma memmove_ok n h src dst : (forall i, i < n -> mem h (src + i) <> Free) -> (forall i, i < n -> mem h (dst + i) <> Free)
  -> exists h', memmove A n h src dst = Some h' /\ same h h' /\ lost h' = lost h
   /\ forall x, mem h' x = if inr x dst n then mem h (src + (x - dst)) else mem h x.
Proof.
  intros F1 F2. unfold memmove. rewrite forallb_seq.
  - eexists; repeat split; reflexivity.
  - intros i Hi. specialize (F1 i Hi). specialize (F2 i Hi). destruct (mem h (src + i)), (mem h (dst + i)); congruence.
Qed.

Definition moved (mov : bool) (h : heap) (src dst n x : nat) : cell :=
  if inr x dst n then mem h (src + (x - dst)) else if mov && negb triv && inr x src n then mvc (mem h x) else mem h x.

Lemma if_false (B : Type) (x y : B) : triv = false -> (if triv then x else y) = y.
Proof. intros T; rewrite T; reflexivity. Qed.
Lemma xfer_ok cons mov h src dst : triv = false -> livec (mem h src) -> src <> dst -> wr cons (mem h dst) ->
  exists h', xfer A triv mv selfmv cons mov h src dst = Some h' /\ same h h' /\ (cons = true -> blank (mem h dst) -> lost h' = lost h) /\ (cons = false -> lost h' = lost h)
   /\ forall x, mem h' x = if x =? dst then mem h src else if mov && (x =? src) then mvc (mem h x) else mem h x.
Proof.
  intros T [v E] N W. unfold xfer, rd. rewrite E. cbn [obind].
  replace (src =? dst) with false by (symmetry; apply Nat.eqb_neq; lia). rewrite andb_false_r.
  set (h1 := if mov then put A h src (Obj (mv v)) else h).
  assert (M1 : forall x, mem h1 x = if mov && (x =? src) then mvc (mem h x) else mem h x).
  { intros x. subst h1. destruct mov; [|reflexivity]. cbn [put VecModel.mem]. unfold upd. destruct (Nat.eqb_spec x src); [|reflexivity].
    subst x. rewrite E. reflexivity. }
  assert (S1 : same h h1 /\ lost h1 = lost h) by (subst h1; destruct mov; repeat split; reflexivity).
  destruct S1 as [S1 L1]. clearbody h1.
  assert (D : mem h1 dst = mem h dst) by (rewrite M1; destruct mov; bsplit; reflexivity).
  destruct cons.
  - destruct (con_ok h1 dst v) as (h2 & E2 & S2 & L2 & M2). { rewrite D. exact W. }
    exists h2. rewrite E2. split; [reflexivity|]. destruct S1 as [? ?], S2 as [? ?]. split; [split; congruence|]. split; [intros _ B; rewrite L2, L1; [reflexivity|rewrite D; exact B]|].
    split; [discriminate|]. intros x. rewrite M2, M1. bsplit; reflexivity.
  - destruct (asg_ok h1 dst v) as (h2 & E2 & S2 & L2 & M2). { rewrite D. exact W. }
    exists h2. rewrite E2. split; [reflexivity|]. destruct S1 as [? ?], S2 as [? ?]. split; [split; congruence|]. split; [discriminate|].
    split; [congruence|]. intros x. rewrite M2, M1. bsplit; reflexivity.
Qed.
Lemma livec_mvc c : livec c -> livec (mvc c).
Proof. intros [v E]; subst; now exists (mv v). Qed.

Lemma forward_ok cons mov n h src dst :
  (forall i, i < n -> livec (mem h (src + i))) -> (forall i, i < n -> wr cons (mem h (dst + i))) -> dst < src \/ src + n <= dst \/ n = 0 ->
  exists h', forward A triv mv selfmv cons mov n h src dst = Some h' /\ same h h'
    /\ (cons = false \/ (forall i, i < n -> blank (mem h (dst + i))) -> lost h' = lost h)
    /\ forall x, mem h' x = moved mov h src dst n x.
Proof.
  intros L W D. unfold forward, moved. destruct (Bool.bool_dec triv true) as [T|T].
  - rewrite T. destruct (memmove_ok n h src dst) as (h' & E & S & L' & M).
    { intros i Hi. destruct (L i Hi) as [v V]. rewrite V; discriminate. } { intros i Hi. apply (W i Hi). }
    exists h'. split; [exact E|]. split; [exact S|]. split; [intros _; exact L'|]. intros x. rewrite M, andb_false_r. reflexivity.
  - apply Bool.not_true_is_false in T. rewrite (if_false _ _ _ T). replace (negb triv) with true by (rewrite T; reflexivity). rewrite andb_true_r.
    revert h src dst L W D. induction n as [|n IH]; intros h src dst L W D; cbn [loop_fwd].
    + exists h. repeat split; intros. bsplit; rewrite ?andb_false_r; reflexivity.
    + pose proof (L 0 ltac:(lia)) as L0. pose proof (W 0 ltac:(lia)) as W0. rewrite Nat.add_0_r in L0, W0.
      destruct (xfer_ok cons mov h src dst T L0 ltac:(lia) W0) as (h1 & E1 & S1 & LA & LB & M1).
      rewrite E1. cbn [obind].
      destruct (IH h1 (S src) (S dst)) as (h2 & E2 & S2 & L2 & M2).
      * intros i Hi. rewrite M1. replace (S src + i) with (src + S i) by lia. bsplit; rewrite ?andb_false_r; apply L; lia.
      * intros i Hi. rewrite M1. replace (S dst + i) with (dst + S i) by lia. specialize (W (S i) ltac:(lia)).
        bsplit; rewrite ?andb_false_r; [|assumption]. rewrite andb_true_r. destruct mov; [|assumption].
        apply live_wr, livec_mvc. replace (dst + S i) with (src + 0) by lia. apply L; lia.
      * lia.
      * exists h2. split; [exact E2|]. destruct S1 as [? ?], S2 as [? ?]. split; [split; congruence|]. split.
        { intros [C|B]. { rewrite L2 by (left; exact C). apply LB, C. }
          rewrite L2. { destruct cons; [apply LA; [reflexivity|]|apply LB; reflexivity]. specialize (B 0). rewrite Nat.add_0_r in B. apply B; lia. }
          destruct cons; [right|left; reflexivity]. intros i Hi. rewrite M1. replace (S dst + i) with (dst + S i) by lia. specialize (B (S i) ltac:(lia)).
          bsplit; rewrite ?andb_false_r; [|exact B]. exfalso. unfold blank in B. rewrite T in B.
          assert (Q : dst + S i = src + 0) by lia. rewrite Q in B. destruct (L 0) as [v V]; [lia|congruence]. }
        intros x. rewrite M2, !M1.
        bsplit; rewrite ?andb_true_r, ?andb_false_r; cbn [andb]; try reflexivity;
          try (replace (S src + (x - S dst)) with (src + (x - dst)) by lia; reflexivity);
          try (f_equal; lia).
Qed.

Lemma backward_ok mov n h src dst :
  (forall i, i < n -> livec (mem h (src + i))) -> (forall i, i < n -> wr false (mem h (dst + i))) -> src < dst \/ n = 0 ->
  exists h', backward A triv mv selfmv false mov n h src dst = Some h' /\ same h h' /\ lost h' = lost h
    /\ forall x, mem h' x = moved mov h src dst n x.
Proof.
  intros L W D. unfold backward, moved. destruct (Bool.bool_dec triv true) as [T|T].
  - rewrite T. destruct (memmove_ok n h src dst) as (h' & E & S & L' & M).
    { intros i Hi. destruct (L i Hi) as [v V]. rewrite V; discriminate. } { intros i Hi. apply (W i Hi). }
    exists h'. split; [exact E|]. split; [exact S|]. split; [exact L'|]. intros x. rewrite M, andb_false_r. reflexivity.
  - apply Bool.not_true_is_false in T. rewrite (if_false _ _ _ T). replace (negb triv) with true by (rewrite T; reflexivity). rewrite andb_true_r.
    revert h L W. induction n as [|n IH]; intros h L W; cbn [loop_bwd].
    + exists h. repeat split; intros. bsplit; rewrite ?andb_false_r; reflexivity.
    + destruct (xfer_ok false mov h (src + n) (dst + n) T (L n ltac:(lia)) ltac:(lia) (W n ltac:(lia))) as (h1 & E1 & S1 & _ & LB & M1).
      rewrite E1. cbn [obind].
      destruct IH with (h := h1) as (h2 & E2 & S2 & L2 & M2); [lia| | |].
      * intros i Hi. rewrite M1. bsplit; rewrite ?andb_false_r; apply L; lia.
      * intros i Hi. rewrite M1. specialize (W i ltac:(lia)).
        bsplit; rewrite ?andb_false_r; [|assumption]. rewrite andb_true_r. destruct mov; [|assumption].
        apply live_wr, livec_mvc. replace (dst + i) with (src + n) by lia. apply L; lia.
      * exists h2. split; [exact E2|]. destruct S1 as [? ?], S2 as [? ?]. split; [split; congruence|]. split.
        { rewrite L2. apply LB. reflexivity. }
        intros x. rewrite M2, !M1.
        bsplit; rewrite ?andb_true_r, ?andb_false_r; cbn [andb]; try reflexivity; try (f_equal; lia).
Qed.

Lemma fill_ok cons n x r : forall h a, (forall i, i < n -> wr cons (mem h (a + i))) -> val A h r = Some x ->
  exists h', fill_loop A triv cons n h a r = Some h' /\ same h h'
    /\ (cons = false \/ (forall i, i < n -> blank (mem h (a + i))) -> lost h' = lost h)
    /\ forall y, mem h' y = if inr y a n then Obj x else mem h y.
Proof.
  induction n as [|n IH]; intros h a W V; cbn [fill_loop].
  - exists h. repeat split; intros; bsplit; reflexivity.
  - rewrite V. cbn [obind]. pose proof (W 0 ltac:(lia)) as W0. rewrite Nat.add_0_r in W0.
    assert (exists h1, (if cons then con A triv h a x else asg A triv h a x) = Some h1 /\ same h h1 /\ (cons = false \/ blank (mem h a) -> lost h1 = lost h)
       /\ forall y, mem h1 y = if y =? a then Obj x else mem h y) as (h1 & E1 & S1 & L1 & M1).
    { destruct cons.
      - destruct (con_ok h a x W0) as (h1 & E1 & S1 & L1 & M1). exists h1. repeat split; try assumption; try apply S1. intros [?|B]; [discriminate|auto].
      - destruct (asg_ok h a x W0) as (h1 & E1 & S1 & L1 & M1). exists h1. repeat split; try assumption; try apply S1. intros _; exact L1. }
    rewrite E1. cbn [obind]. destruct (IH h1 (S a)) as (h2 & E2 & S2 & L2 & M2).
    + intros i Hi. rewrite M1. bsplit. replace (S a + i) with (a + S i) by lia. apply W; lia.
    + destruct r as [w|p]; cbn [val] in *; [exact V|]. unfold rd in *. rewrite M1. destruct (p =? a); [reflexivity|exact V].
    + exists h2. split; [exact E2|]. destruct S1 as [? ?], S2 as [? ?]. split; [split; congruence|]. split.
      { intros [C|B].
        - rewrite L2, L1; [reflexivity|left; exact C|left; exact C].
        - rewrite L2, L1; [reflexivity|right; specialize (B 0); rewrite Nat.add_0_r in B; apply B; lia|].
          right. intros i Hi. rewrite M1. bsplit. replace (S a + i) with (a + S i) by lia. apply B; lia. }
      intros y. rewrite M2, M1. bsplit; reflexivity.
Qed.

Lemma alloc_ok n h : 0 < n -> exists h', alloc A n h = (next h, h') /\ next h' = next h + n /\ lost h' = lost h
  /\ (forall p, blk h' p = if p =? next h then n else blk h p)
  /\ forall x, mem h' x = if inr x (next h) n then Raw else mem h x.
Proof.
  intros N. unfold alloc. replace (n =? 0) with false by (symmetry; apply Nat.eqb_neq; lia).
  eexists; repeat split; reflexivity.
Qed.
Lemma live_values_nil h p n : (forall i, i < n -> mem h (p + i) = Raw) -> live_values A h p n = [].
Proof.
  intros R. unfold live_values. induction n as [|n IH]; [reflexivity|].
  rewrite seq_S, flat_map_app, IH by (intros; apply R; lia). cbn. rewrite R by lia. reflexivity.
Qed.
Lemma dealloc_ok p h : p <> 0 -> blk h p <> 0 -> exists h', dealloc A triv p h = Some h' /\ next h' = next h
  /\ ((forall i, i < blk h p -> blank (mem h (p + i))) -> lost h' = lost h)
  /\ (forall q, blk h' q = if q =? p then 0 else blk h q)
  /\ forall x, mem h' x = if inr x p (blk h p) then Free else mem h x.
Proof.
  intros P B. unfold dealloc. replace (p =? 0) with false by (symmetry; apply Nat.eqb_neq; lia).
  replace (blk h p =? 0) with false by (symmetry; apply Nat.eqb_neq; lia).
  eexists; split; [reflexivity|]; cbn. split; [reflexivity|]. split; [|split; reflexivity].
  unfold blank. destruct triv; [reflexivity|]. intros R. rewrite live_values_nil by exact R. reflexivity.
Qed.

Notation vb := vb. Notation ve := ve. Notation vc := vc.
Definition good (c : cell) (o : option A) : Prop := match o with Some x => c = Obj x | None => blank c end.
Definition own (h : heap) (v : vec) (l : list A) : Prop :=
  ve v = vb v + length l /\ ve v <= vc v /\ vc v <= vb v + blk h (vb v) /\ vb v + blk h (vb v) <= next h
  /\ (vb v = 0 <-> blk h (vb v) = 0)
  /\ forall i, i < blk h (vb v) -> good (mem h (vb v + i)) (nth_error l i).
Definition wfh (h : heap) : Prop := blk h 0 = 0 /\ 0 < next h.
Definition frame (h h' : heap) (v v' : vec) : Prop :=
  wfh h' /\ next h <= next h'
  /\ (forall a, a < next h -> inr a (vb v) (blk h (vb v)) = false -> mem h' a = mem h a /\ blk h' a = blk h a)
  /\ (vb v' = vb v /\ blk h' (vb v) = blk h (vb v) \/ next h <= vb v' \/ vb v' = 0).
Definition res (o : option (vec * heap)) (h : heap) (v : vec) (l' : list A) (cap' : nat) (clean : Prop) : Prop :=
  exists v' h', o = Some (v', h') /\ own h' v' l' /\ capacity v' = cap' /\ frame h h' v v' /\ (clean -> lost h' = lost h).

Lemma own_live h v l i : own h v l -> i < length l -> livec (mem h (vb v + i)).
Proof.
  intros (E & C1 & C2 & _ & _ & S) Hi. specialize (S i ltac:(lia)). destruct (nth_error l i) eqn:N; [now exists a|].
  apply nth_error_None in N. lia.
Qed.
Lemma own_blank h v l i : own h v l -> length l <= i -> i < blk h (vb v) -> blank (mem h (vb v + i)).
Proof.
  intros (E & C1 & C2 & _ & _ & S) Hi Hb. specialize (S i Hb). apply nth_error_None in Hi. rewrite Hi in S. exact S.
Qed.
Lemma own_nth h v l i x : own h v l -> nth_error l i = Some x -> mem h (vb v + i) = Obj x.
Proof.
  intros (E & C1 & C2 & _ & _ & S) N. assert (i < length l) by (apply nth_error_Some; congruence).
  specialize (S i ltac:(lia)). rewrite N in S. exact S.
Qed.

Lemma ne_firstn k (l : list A) : forall i, nth_error (firstn k l) i = if i <? k then nth_error l i else None.
Proof.
  revert l. induction k as [|k IH]; intros l i; [now destruct i|]. destruct l as [|x l]; [destruct i; cbn [nth_error firstn]; match goal with |- _ = (if ?b then _ else _) => now destruct b end|].
  destruct i as [|i]; [reflexivity|]. cbn [firstn nth_error]. rewrite IH. reflexivity.
Qed.
Lemma ne_skipn k (l : list A) : forall i, nth_error (skipn k l) i = nth_error l (k + i).
Proof.
  revert l. induction k as [|k IH]; intros l i; [reflexivity|]. destruct l as [|x l]; [now destruct i|]. cbn [skipn Nat.add nth_error]. apply IH.
Qed.
Lemma ne_app (l1 l2 : list A) i : nth_error (l1 ++ l2) i = if i <? length l1 then nth_error l1 i else nth_error l2 (i - length l1).
Proof. destruct (Nat.ltb_spec i (length l1)); [now apply nth_error_app1|now apply nth_error_app2]. Qed.
Lemma ne_ins k (xs l : list A) i : k <= length l ->
  nth_error (firstn k l ++ xs ++ skipn k l) i
  = if i <? k then nth_error l i else if i <? k + length xs then nth_error xs (i - k) else nth_error l (i - length xs).
Proof.
  intros K. rewrite !ne_app, ne_firstn, ne_skipn, firstn_length_le by exact K. bsplit; try reflexivity. f_equal; lia.
Qed.
Lemma ne_del a b (l : list A) i : a <= b -> b <= length l ->
  nth_error (firstn a l ++ skipn b l) i = if i <? a then nth_error l i else nth_error l (i + (b - a)).
Proof.
  intros K1 K2. rewrite !ne_app, ne_firstn, ne_skipn, firstn_length_le by lia. bsplit; try reflexivity. f_equal; lia.
Qed.
Lemma ne_repeat (v : A) n i : nth_error (repeat v n) i = if i <? n then Some v else None.
Proof.
  revert i. induction n as [|n IH]; intros i; [now destruct i|]. destruct i as [|i]; [reflexivity|]. cbn [repeat nth_error]. rewrite IH. reflexivity.
Qed.
Lemma ne_beyond (l : list A) i : length l <= i -> nth_error l i = None.
Proof. apply nth_error_None. Qed.

Lemma dealloc_own p h : wfh h -> (p = 0 <-> blk h p = 0) -> exists h', dealloc A triv p h = Some h' /\ next h' = next h
  /\ ((forall i, i < blk h p -> blank (mem h (p + i))) -> lost h' = lost h)
  /\ (forall q, blk h' q = if q =? p then 0 else blk h q)
  /\ forall x, mem h' x = if inr x p (blk h p) then Free else mem h x.
Proof.
  intros [W _] Z. destruct (Nat.eq_dec p 0) as [->|P].
  - exists h. unfold dealloc. rewrite W. repeat split; try reflexivity; intros; bsplit; subst; auto.
  - apply dealloc_ok; [exact P|tauto].
Qed.

(** a value argument that stays readable: an object elsewhere, or a live cell that is not in the spare room of v *)
Definition argok (h : heap) (v : vec) (r : ref) (x : A) : Prop :=
  match r with Ext _ y => y = x | At _ a => a < next h /\ mem h a = Obj x /\ ~ (ve v <= a < vb v + blk h (vb v)) end.
Lemma argok_val h v r x : argok h v r x -> val A h r = Some x.
Proof. destruct r as [y|a]; cbn; [congruence|]. unfold rd. intros (_ & E & _). rewrite E. reflexivity. Qed.
Lemma val_keep h h' r x : val A h r = Some x -> (forall a, r = At A a -> mem h' a = mem h a) -> val A h' r = Some x.
Proof. destruct r as [y|a]; cbn; [auto|]. unfold rd. intros E K. rewrite (K a eq_refl). exact E. Qed.
(** not an element in front of position k that is going to be moved from *)
Definition notbefore (v : vec) (k : nat) (r : ref) : Prop := triv = true \/ match r with Ext _ _ => True | At _ a => ~ (vb v <= a < vb v + k) end.

Ltac slot S :=
  match goal with
  | |- good (mem _ ?a) (nth_error _ ?j) => let b := fresh in
      match type of S with forall i, i < _ -> good (mem _ (?vb + i)) _ => replace a with (vb + j) by lia; apply S; lia end
  end.
Ltac sizes := unfold size, capacity in *; cbn [VecModel.vb VecModel.ve VecModel.vc] in *.

Lemma push_room h v l r x : wfh h -> own h v l -> ve v < vc v -> argok h v r x ->
  res (let* y := val A h r in let* h := con A triv h (ve v) y in Some (mkV (vb v) (ve v + 1) (vc v), h)) h v (l ++ [x]) (capacity v) True.
Proof.
  intros WF O R AK. pose proof O as (E & C1 & C2 & C3 & C4 & S). rewrite (argok_val _ _ _ _ AK). cbn [obind].
  pose proof (own_blank h v l (length l) O (le_n _) ltac:(lia)) as B. rewrite <- E in B.
  destruct (con_ok h (ve v) x (blank_wr _ B)) as (h1 & E1 & [S1 S2] & L1 & M1).
  rewrite E1. cbn [obind]. eexists _, h1. split; [reflexivity|]. unfold own, frame, wfh in *. cbn [VecModel.vb VecModel.ve VecModel.vc].
  rewrite S1, S2, app_length. cbn [length].
  split; [|split; [unfold capacity; cbn; reflexivity|split; [|auto]]].
  - refine (conj _ (conj _ (conj _ (conj _ (conj _ _))))); try lia; try tauto. intros i Hi. rewrite M1. rewrite ne_app. cbn [length].
    bsplit.
    + replace (i - length l) with 0 by lia. reflexivity.
    + slot S.
    + rewrite ne_beyond by (cbn; lia). replace i with (length l + (i - length l)) in * by lia. apply (own_blank h v l); [exact O|lia|lia].
  - refine (conj (conj _ _) (conj _ (conj _ _))); try lia; try tauto. intros a Ha Hb. rewrite M1. destruct (inr_spec a (vb v) (blk h (vb v))); [discriminate|]. bsplit; auto.
Qed.

Lemma inplace h v l h' e' c' l' : wfh h -> own h v l -> same h h' ->
  (forall a, inr a (vb v) (blk h (vb v)) = false -> mem h' a = mem h a) ->
  e' = vb v + length l' -> e' <= c' -> c' <= vb v + blk h (vb v) ->
  (forall i, i < blk h (vb v) -> good (mem h' (vb v + i)) (nth_error l' i)) ->
  own h' (mkV (vb v) e' c') l' /\ frame h h' v (mkV (vb v) e' c').
Proof.
  intros WF (E & C1 & C2 & C3 & C4 & S) [S1 S2] K E' D1 D2 G. unfold own, frame, wfh in *. cbn [VecModel.vb VecModel.ve VecModel.vc].
  rewrite S1, S2. split.
  - refine (conj _ (conj _ (conj _ (conj _ (conj _ _))))); try lia; try tauto.
  - refine (conj (conj _ _) (conj _ (conj _ _))); try lia; try tauto. intros a _ Ha. rewrite K by exact Ha. auto.
Qed.
Lemma moved_away h v l h' n c' l' : wfh h -> own h v l -> 0 < n -> next h' = next h + n ->
  (forall q, blk h' q = if q =? vb v then 0 else if q =? next h then n else blk h q) ->
  (forall a, a < next h -> inr a (vb v) (blk h (vb v)) = false -> mem h' a = mem h a) ->
  length l' <= c' -> c' <= n ->
  (forall i, i < n -> good (mem h' (next h + i)) (nth_error l' i)) ->
  own h' (mkV (next h) (next h + length l') (next h + c')) l' /\ frame h h' v (mkV (next h) (next h + length l') (next h + c')).
Proof.
  intros WF (E & C1 & C2 & C3 & C4 & S) N NX B K D1 D2 G. unfold own, frame, wfh in *. cbn [VecModel.vb VecModel.ve VecModel.vc].
  assert (Bn : blk h' (next h) = n).
  { rewrite B. bsplit. }
  rewrite Bn, NX. split.
  - refine (conj _ (conj _ (conj _ (conj _ (conj _ _))))); try lia; try tauto.
  - refine (conj (conj _ _) (conj _ (conj _ _))); try lia; try tauto.
    + rewrite B. bsplit.
    + intros a Ha Hb. split; [now apply K|]. rewrite B. bsplit; try reflexivity. subst a.
      destruct (inr_spec (vb v) (vb v) (blk h (vb v))); [discriminate|]. lia.
Qed.

Lemma room_same len cap add : len + add <= cap -> room len cap add = cap.
Proof. unfold room. intros. bsplit; reflexivity. Qed.
Lemma room_grown len cap add : cap < len + add -> room len cap add = grown cap add.
Proof. unfold room. intros. bsplit; reflexivity. Qed.
Lemma grown_ge cap add : cap + add <= grown cap add.
Proof. unfold grown. bsplit; lia. Qed.
Lemma new_cap add v : get_new_cap add v = grown (capacity v) add.
Proof. reflexivity. Qed.

Lemma inr_out h v x : inr x (vb v) (blk h (vb v)) = false -> ~ (vb v <= x < vb v + blk h (vb v)).
Proof. destruct (inr_spec x (vb v) (blk h (vb v))); [discriminate|auto]. Qed.

Lemma reallocate_ok h v l r x k : wfh h -> own h v l -> k <= length l -> argok h v r x -> notbefore v k r ->
  res (reallocate_insert A triv mv selfmv (vb v + k) r v h) h v (firstn k l ++ [x] ++ skipn k l) (grown (capacity v) 1) True.
Proof.
  intros WF O K AK NB. pose proof WF as [WF1 WF2]. pose proof O as (E & C1 & C2 & C3 & C4 & S). unfold reallocate_insert. rewrite new_cap.
  pose proof (grown_ge (capacity v) 1) as GE. set (n := grown (capacity v) 1) in *. clearbody n. sizes.
  destruct (alloc_ok n h ltac:(lia)) as (h1 & E1 & N1 & L1 & B1 & M1). rewrite E1.
  replace (vb v + k - vb v) with k by lia. unfold umove.
  assert (P1 : forall i, i < length l -> mem h1 (vb v + i) = mem h (vb v + i)) by (intros i Hi; rewrite !M1; bsplit; reflexivity).
  destruct (forward_ok true true k h1 (vb v) (next h)) as (h2 & E2 & [SB2 SN2] & L2 & M2).
  { intros i Hi. rewrite P1 by lia. apply (own_live h v l); [exact O|lia]. }
  { intros i Hi. rewrite !M1. bsplit. split; discriminate. }
  { lia. }
  rewrite E2. cbn [obind].
  assert (V2 : val A h2 r = Some x).
  { apply (val_keep h); [exact (argok_val _ _ _ _ AK)|]. intros a ->. destruct AK as (A1 & A2 & A3). rewrite M2. unfold moved.
    destruct NB as [NB|NB]; [rewrite NB; cbn [negb andb]|]; rewrite ?M1; bsplit; rewrite ?andb_false_r; reflexivity. }
  rewrite V2. cbn [obind].
  assert (R2 : mem h2 (next h + k) = Raw).
  { rewrite M2. unfold moved. rewrite !M1. bsplit; rewrite ?andb_false_r; reflexivity. }
  destruct (con_ok h2 (next h + k) x) as (h3 & E3 & [SB3 SN3] & L3 & M3).
  { rewrite R2. split; discriminate. }
  rewrite E3. cbn [obind].
  assert (P3 : forall i, k <= i -> i < length l -> mem h3 (vb v + i) = mem h (vb v + i)).
  { intros i Hi Hj. rewrite !M3, !M2. unfold moved. rewrite !M1. bsplit; rewrite ?andb_false_r; reflexivity. }
  assert (R3 : forall i, k < i -> i < n -> mem h3 (next h + i) = Raw).
  { intros i Hi Hj. rewrite !M3, !M2. unfold moved. rewrite !M1. bsplit; rewrite ?andb_false_r; reflexivity. }
  destruct (forward_ok true true (ve v - (vb v + k)) h3 (vb v + k) (next h + k + 1)) as (h4 & E4 & [SB4 SN4] & L4 & M4).
  { intros i Hi. replace (vb v + k + i) with (vb v + (k + i)) by lia. rewrite P3 by lia. apply (own_live h v l); [exact O|lia]. }
  { intros i Hi. replace (next h + k + 1 + i) with (next h + (k + 1 + i)) by lia. rewrite R3 by lia. split; discriminate. }
  { lia. }
  rewrite E4. cbn [obind].
  assert (LV4 : forall i, i < length l -> livec (mem h4 (vb v + i))).
  { intros i Hi. rewrite M4. unfold moved. bsplit.
    - apply (own_live h v l) in Hi; [|exact O]. rewrite andb_true_r. destruct (negb triv); rewrite P3 by lia; [apply livec_mvc|]; exact Hi.
    - rewrite andb_false_r. rewrite !M3, !M2. unfold moved. bsplit. apply (own_live h v l) in Hi; [|exact O]. rewrite andb_true_r.
      destruct (negb triv); rewrite P1 by lia; [apply livec_mvc|]; exact Hi. }
  unfold destroy_and_recover.
  destruct (des_range_ok (ve v - vb v) h4 (vb v)) as (h5 & E5 & [SB5 SN5] & L5 & M5).
  { intros i Hi. apply LV4. lia. }
  rewrite E5. cbn [obind].
  assert (BB : blk h5 (vb v) = blk h (vb v)).
  { rewrite SB5, SB4, SB3, SB2, B1. bsplit; reflexivity. }
  assert (W5 : wfh h5).
  { split; [rewrite SB5, SB4, SB3, SB2, B1; destruct WF; bsplit; assumption|rewrite SN5, SN4, SN3, SN2, N1; lia]. }
  destruct (dealloc_own (vb v) h5 W5) as (h6 & E6 & N6 & L6 & B6 & M6). { rewrite BB. exact C4. }
  rewrite E6. cbn [obind]. rewrite BB in *.
  assert (LEN : length (firstn k l ++ [x] ++ skipn k l) = length l + 1).
  { rewrite !app_length, firstn_length_le, skipn_length by lia. cbn [length]. lia. }
  pose proof (moved_away h v l h6 n n (firstn k l ++ [x] ++ skipn k l) WF O ltac:(lia)) as MA. rewrite LEN in MA.
  destruct MA as [OWN FR].
  - lia.
  - intros q. rewrite B6, SB5, SB4, SB3, SB2, B1. reflexivity.
  - intros a Ha Hb. apply inr_out in Hb. rewrite M6, M5, M4. unfold moved. rewrite !M3, !M2. unfold moved. rewrite !M1.
    bsplit; rewrite ?andb_false_r; reflexivity.
  - lia.
  - lia.
  - intros i Hi. rewrite M6. bsplit. rewrite M5. bsplit. rewrite andb_false_r, ne_ins by lia. cbn [length]. rewrite M4. unfold moved. rewrite !M3.
    bsplit; rewrite ?andb_false_r.
    + rewrite M2. unfold moved. rewrite !M1. bsplit; rewrite ?andb_false_r. slot S.
    + replace (i - k) with 0 by lia. reflexivity.
    + rewrite M2. unfold moved. rewrite !M1. bsplit; rewrite ?andb_false_r. slot S.
    + rewrite M2. unfold moved. rewrite !M1. bsplit; rewrite ?andb_false_r. rewrite ne_beyond by lia. apply blank_raw.
  - eexists _, h6. split; [reflexivity|].
    replace (next h + (ve v - vb v) + 1) with (next h + (length l + 1)) by lia.
    split; [exact OWN|]. split; [unfold capacity; cbn; lia|]. split; [exact FR|]. intros _.
    rewrite L6, L5, L4, L3, L2, L1; try reflexivity.
    + right. intros i Hi. rewrite !M1. bsplit. apply blank_raw.
    + rewrite R2. apply blank_raw.
    + right. intros i Hi. replace (next h + k + 1 + i) with (next h + (k + 1 + i)) by lia. rewrite R3 by lia. apply blank_raw.
    + intros i Hi. rewrite M5. unfold blank. destruct (Bool.bool_dec triv true) as [T|T].
      * rewrite T. cbn [negb andb]. destruct (Nat.lt_ge_cases i (length l)) as [H|H]; [destruct (LV4 i H) as [w Ew]; rewrite Ew; discriminate|].
        pose proof (own_blank h v l i O H ltac:(lia)) as BL. unfold blank in BL. rewrite T in BL.
        rewrite M4. unfold moved. rewrite !M3, !M2. unfold moved. rewrite !M1. bsplit; rewrite ?andb_false_r; exact BL.
      * apply Bool.not_true_is_false in T. rewrite T. cbn [negb]. bsplit; [reflexivity|].
        pose proof (own_blank h v l i O ltac:(lia) ltac:(lia)) as BL. unfold blank in BL. rewrite T in BL.
        rewrite M4. unfold moved. rewrite !M3, !M2. unfold moved. rewrite !M1. bsplit; rewrite ?andb_false_r; exact BL.
Qed.

Lemma ins_end (l xs : list A) : firstn (length l) l ++ xs ++ skipn (length l) l = l ++ xs.
Proof. rewrite firstn_all, skipn_all, app_nil_r. reflexivity. Qed.
Lemma push_back_ok h v l r x : wfh h -> own h v l -> argok h v r x -> (length l < capacity v \/ notbefore v (length l) r) ->
  res (push_back A triv mv selfmv r v h) h v (l ++ [x]) (room (length l) (capacity v) 1) True.
Proof.
  intros WF O AK NB. pose proof O as (E & C1 & C2 & C3 & C4 & S). unfold push_back. sizes.
  destruct (Nat.eqb_spec (ve v) (vc v)) as [Q|Q]; cbn [negb].
  - rewrite room_grown by (unfold capacity; lia). rewrite E, <- (ins_end l [x]) at 1. apply reallocate_ok; auto. destruct NB as [NB|NB]; [lia|exact NB].
  - rewrite room_same by lia. apply push_room; auto. lia.
Qed.
End Proof.
