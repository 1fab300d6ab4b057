(** C118: queue and stack; C119: priority_queue; C120: the algorithms of numeric.h. *)
From Coq Require Import ZArith List Bool Lia ZifyBool Permutation Sorted.
From Verif Require Import F64 ArrModel ArrLib SortModel SortSpec SortProps AdModel.
From Verif Require DeqModel DeqSpec DeqProof DeqOps DeqProps.
Import ListNotations.
Open Scope Z_scope.

(** ** C118: what a queue and a stack are: lists with the new values at the end; the operations and what they return *)
Inductive op (T : Type) := Push (v : T) | Pop | Front | Back | Size | Empty | Clear.
Arguments Push {T}. Arguments Pop {T}. Arguments Front {T}. Arguments Back {T}. Arguments Size {T}. Arguments Empty {T}. Arguments Clear {T}.
Inductive out (T : Type) := Val (v : T) | Num (n : Z) | Bit (b : bool).
Arguments Val {T}. Arguments Num {T}. Arguments Bit {T}.
Definition fifo {T} (o : op T) (xs : list T) : option (list (out T) * list T) :=
  match o, xs with
  | Push v, _ => Some ([], xs ++ [v])
  | Pop, _ :: r => Some ([], r)
  | Pop, [] => None
  | Front, x :: _ => Some ([Val x], xs)
  | Front, [] => None
  | Back, _ => match rev xs with x :: _ => Some ([Val x], xs) | [] => None end
  | Size, _ => Some ([Num (Z.of_nat (length xs))], xs)
  | Empty, _ => Some ([Bit (match xs with [] => true | _ => false end)], xs)
  | Clear, _ => Some ([], [])
  end.
(** a stack is a list with the top as its head; it has no front *)
Definition lifo {T} (o : op T) (xs : list T) : option (list (out T) * list T) :=
  match o, xs with
  | Push v, _ => Some ([], v :: xs)
  | Pop, _ :: r => Some ([], r)
  | Pop, [] => None
  | Back, x :: _ => Some ([Val x], xs)
  | Back, [] => None
  | Front, _ => None
  | Size, _ => Some ([Num (Z.of_nat (length xs))], xs)
  | Empty, _ => Some ([Bit (match xs with [] => true | _ => false end)], xs)
  | Clear, _ => Some ([], [])
  end.
(** a history of operations and all that they return *)
Fixpoint history {O S R : Type} (step : O -> S -> option (list R * S)) (os : list O) (s : S) : option (list R * S) :=
  match os with
  | [] => Some ([], s)
  | o :: os => match step o s with
               | None => None
               | Some (r, s) => match history step os s with None => None | Some (rs, s) => Some (r ++ rs, s) end
               end
  end.

(** the operations of the code *)
Section Code.
Context {T : Type} (bs : Z) (triv : bool) (Hbs : 0 < bs).
Notation memory := (@DeqModel.memory T). Notation deque := DeqModel.deque.
Definition quiet {A B} (x : option A) : option (list B * A) := match x with Some a => Some ([], a) | None => None end.
Definition says (x : option T) (md : memory * deque) : option (list (out T) * (memory * deque)) :=
  match x with Some v => Some ([Val v], md) | None => None end.
Definition q_op (o : op T) (md : memory * deque) : option (list (out T) * (memory * deque)) :=
  let (m, d) := md in
  match o with
  | Push v => quiet (a_push bs m d v)
  | Pop => quiet (q_pop bs triv m d)
  | Front => says (q_front bs m d) md
  | Back => says (q_back bs m d) md
  | Size => Some ([Num (a_size bs d)], md)
  | Empty => Some ([Bit (a_empty d)], md)
  | Clear => quiet (q_clear bs triv m d)
  end.
Definition s_op (o : op T) (md : memory * deque) : option (list (out T) * (memory * deque)) :=
  let (m, d) := md in
  match o with
  | Push v => quiet (a_push bs m d v)
  | Pop => quiet (s_pop bs triv m d)
  | Front => None
  | Back => says (s_top bs m d) md
  | Size => Some ([Num (a_size bs d)], md)
  | Empty => Some ([Bit (a_empty d)], md)
  | Clear => quiet (s_clear bs triv m d)
  end.
Notation rep := (@DeqSpec.rep T bs triv).
Notation others := DeqSpec.others. Notation lost := DeqSpec.nothing_lost. Notation tight := DeqSpec.tight.
Definition keeps (m : memory) (d : deque) (m' : memory) (d' : deque) : Prop := others m d m' d' /\ (1 < bs -> tight d -> tight d' /\ lost m d m' d').
Lemma keeps_refl m d xs : rep m d xs -> keeps m d m d.
Proof.
  intros R. pose proof (DeqSpec.r_base _ _ _ _ _ R) as B. split; [apply DeqOps.others_shape; auto; apply DeqProof.shape_refl|]. intros _ Tt. split; [exact Tt|].
  apply DeqOps.lost_shape; auto; [apply DeqProof.shape_refl|]. eapply DeqOps.holds_dec; eauto.
Qed.
Lemma keeps_trans m d m1 d1 m2 d2 : keeps m d m1 d1 -> keeps m1 d1 m2 d2 -> keeps m d m2 d2.
Proof.
  intros [O1 K1] [O2 K2]. split; [eapply DeqOps.others_trans; eauto|]. intros B Tt. destruct (K1 B Tt) as [T1 L1]. destruct (K2 B T1) as [T2 L2].
  split; [exact T2|]. eapply DeqOps.lost_trans; eauto.
Qed.
(** one pop at the front and one at the back *)
Lemma pop_first m d v xs : rep m d (v :: xs) -> exists m' d', DeqModel.pop_front bs triv m d = Some (m', d') /\ rep m' d' xs /\ keeps m d m' d'.
Proof.
  intros R. destruct (DeqProps.deque_pop_front bs triv Hbs m d v xs R) as (m' & d' & E & R' & O & Tt & L). exists m', d'. split; [exact E|].
  split; [exact R'|]. split; [exact O|]. intros _ H. split; [now apply Tt|exact L].
Qed.
Lemma pop_last m d v xs : rep m d (xs ++ [v]) -> exists m' d', DeqModel.pop_back bs triv m d = Some (m', d') /\ rep m' d' xs /\ keeps m d m' d'.
Proof.
  intros R. destruct (DeqProps.deque_pop_back bs triv Hbs m d v xs R) as (m' & d' & E & R' & O & Tt & L). exists m', d'. split; [exact E|].
  split; [exact R'|]. split; [exact O|]. intros _ H. split; [now apply Tt|exact L].
Qed.
Lemma empty_is m d xs : rep m d xs -> DeqModel.empty d = match xs with [] => true | _ => false end.
Proof. intros R. apply (DeqProps.deque_access bs triv Hbs m d xs R). Qed.
Lemma size_is m d xs : rep m d xs -> DeqModel.size bs d = Z.of_nat (length xs).
Proof. intros R. apply (DeqProps.deque_access bs triv Hbs m d xs R). Qed.
Lemma pops_first fuel : forall m d xs, rep m d xs -> (length xs < fuel)%nat ->
  exists m' d', pops (DeqModel.pop_front bs triv) fuel m d = Some (m', d') /\ rep m' d' [] /\ keeps m d m' d'.
Proof.
  induction fuel as [|fuel IH]; intros m d xs R Hl; [lia|]. cbn [pops]. unfold a_empty. rewrite (empty_is m d xs R). destruct xs as [|v xs].
  - exists m, d. split; [reflexivity|]. split; [exact R|]. eapply keeps_refl; eauto.
  - destruct (pop_first m d v xs R) as (m1 & d1 & E1 & R1 & K1). rewrite E1. cbn [obind fst snd].
    destruct (IH m1 d1 xs R1) as (m2 & d2 & E2 & R2 & K2); [cbn in Hl; lia|]. exists m2, d2. split; [exact E2|]. split; [exact R2|]. eapply keeps_trans; eauto.
Qed.
Lemma pops_last fuel : forall m d xs, rep m d xs -> (length xs < fuel)%nat ->
  exists m' d', pops (DeqModel.pop_back bs triv) fuel m d = Some (m', d') /\ rep m' d' [] /\ keeps m d m' d'.
Proof.
  induction fuel as [|fuel IH]; intros m d xs R Hl; [lia|]. cbn [pops]. unfold a_empty. rewrite (empty_is m d xs R). destruct xs as [|v xs _] using rev_ind.
  - exists m, d. split; [reflexivity|]. split; [exact R|]. eapply keeps_refl; eauto.
  - destruct (pop_last m d v xs R) as (m1 & d1 & E1 & R1 & K1). rewrite app_length in Hl. cbn in Hl.
    destruct (IH m1 d1 xs R1) as (m2 & d2 & E2 & R2 & K2); [lia|]. rewrite E1. cbn [obind fst snd].
    exists m2, d2. split; [destruct xs; exact E2|]. split; [exact R2|]. eapply keeps_trans; eauto.
Qed.
Lemma push_last m d xs v : rep m d xs -> exists m' d', DeqModel.push_back bs m d v = Some (m', d') /\ rep m' d' (xs ++ [v]) /\ keeps m d m' d'.
Proof.
  intros R. destruct (DeqProps.deque_push_back bs triv Hbs m d xs v R) as (m' & d' & E & R' & O & K). exists m', d'. split; [exact E|].
  split; [exact R'|]. split; [exact O|exact K].
Qed.

Definition refines (step : op T -> memory * deque -> option (list (out T) * (memory * deque))) (spec : op T -> list T -> option (list (out T) * list T))
  (h : list T -> list T) : Prop := forall o m d xs, rep m d (h xs) ->
  match spec o xs with
  | None => step o (m, d) = None
  | Some (r, ys) => exists m' d', step o (m, d) = Some (r, (m', d')) /\ rep m' d' (h ys) /\ keeps m d m' d'
  end.
Lemma history_refines step spec h : refines step spec h -> forall os m d xs, rep m d (h xs) ->
  match history spec os xs with
  | None => history step os (m, d) = None
  | Some (r, ys) => exists m' d', history step os (m, d) = Some (r, (m', d')) /\ rep m' d' (h ys) /\ keeps m d m' d'
  end.
Proof.
  intros H. induction os as [|o os IH]; intros m d xs R; cbn [history].
  - exists m, d. split; [reflexivity|]. split; [exact R|]. eapply keeps_refl; eauto.
  - specialize (H o m d xs R). destruct (spec o xs) as [[r ys]|].
    + destruct H as (m1 & d1 & E1 & R1 & K1). rewrite E1. specialize (IH m1 d1 ys R1). destruct (history spec os ys) as [[rs zs]|].
      * destruct IH as (m2 & d2 & E2 & R2 & K2). exists m2, d2. rewrite E2. split; [reflexivity|]. split; [exact R2|]. eapply keeps_trans; eauto.
      * now rewrite IH.
    + now rewrite H.
Qed.
Lemma queue_step : refines q_op fifo (fun xs => xs).
Proof.
  intros o m d xs R. destruct (DeqProps.deque_access bs triv Hbs m d xs R) as (_ & _ & _ & Hf & Hb). unfold q_op. destruct o; cbn [fifo].
  - destruct (push_last m d xs v R) as (m' & d' & E & R' & K). exists m', d'. unfold a_push. rewrite E. auto.
  - destruct xs as [|x xs].
    + unfold q_pop, DeqModel.pop_front. now rewrite (empty_is m d [] R).
    + destruct (pop_first m d x xs R) as (m' & d' & E & R' & K). exists m', d'. unfold q_pop. rewrite E. auto.
  - unfold q_front. rewrite Hf. destruct xs; cbn; [reflexivity|]. exists m, d. split; [reflexivity|]. split; [exact R|]. eapply keeps_refl; eauto.
  - unfold q_back. rewrite Hb. destruct (rev xs); cbn; [now destruct xs|]. destruct xs; exists m, d; (split; [reflexivity|]); (split; [exact R|]); eapply keeps_refl; eauto.
  - destruct xs; (exists m, d; unfold a_size; rewrite (size_is m d _ R); split; [reflexivity|]; split; [exact R|]; eapply keeps_refl; eauto).
  - exists m, d. unfold a_empty. rewrite (empty_is m d _ R). destruct xs; (split; [reflexivity|]; split; [exact R|]; eapply keeps_refl; eauto).
  - destruct (pops_first (S (Z.to_nat (a_size bs d))) m d xs R) as (m' & d' & E & R' & K).
    + unfold a_size. rewrite (size_is m d xs R). lia.
    + exists m', d'. change (q_clear bs triv m d) with (pops (DeqModel.pop_front bs triv) (S (Z.to_nat (a_size bs d))) m d). rewrite E. destruct xs; auto.
Qed.
Lemma stack_step : refines s_op lifo (fun xs => rev xs).
Proof.
  intros o m d xs R. destruct (DeqProps.deque_access bs triv Hbs m d _ R) as (_ & _ & _ & _ & Hb). rewrite rev_involutive in Hb. unfold s_op.
  assert (K0 : keeps m d m d) by (eapply keeps_refl; eauto).
  destruct o; cbn [lifo].
  - destruct (push_last m d _ v R) as (m' & d' & E & R' & K). exists m', d'. unfold a_push. rewrite E. cbn [rev]. auto.
  - destruct xs as [|x xs].
    + unfold s_pop, DeqModel.pop_back. now rewrite (empty_is m d [] R).
    + destruct (pop_last m d x (rev xs) R) as (m' & d' & E & R' & K). exists m', d'. unfold s_pop. rewrite E. auto.
  - now destruct xs.
  - unfold s_top. rewrite Hb. destruct xs; cbn; [reflexivity|]. exists m, d. auto.
  - destruct xs; (exists m, d; unfold a_size; rewrite (size_is m d _ R), rev_length; auto).
  - exists m, d. unfold a_empty. rewrite (empty_is m d _ R). destruct xs as [|x xs]; [auto|]. cbn [rev]. split; [now destruct (rev xs)|]. auto.
  - destruct (pops_last (S (Z.to_nat (a_size bs d))) m d _ R) as (m' & d' & E & R' & K).
    + unfold a_size. rewrite (size_is m d _ R). lia.
    + exists m', d'. change (s_clear bs triv m d) with (pops (DeqModel.pop_back bs triv) (S (Z.to_nat (a_size bs d))) m d). rewrite E. destruct xs; auto.
Qed.

(** C118: any history of operations on a queue returns what a list with new values at its end does; an operation that needs a value (pop, front, back)
    fails exactly when there is none; and no block is lost *)
Theorem queue_history os m d xs : rep m d xs ->
  match history fifo os xs with
  | None => history q_op os (m, d) = None
  | Some (r, ys) => exists m' d', history q_op os (m, d) = Some (r, (m', d')) /\ rep m' d' ys /\
      others m d m' d' /\ (1 < bs -> tight d -> tight d' /\ lost m d m' d')
  end.
Proof. exact (history_refines q_op fifo (fun xs => xs) queue_step os m d xs). Qed.
(** and on a stack, what a list with new values at its head does *)
Theorem stack_history os m d xs : rep m d (rev xs) ->
  match history lifo os xs with
  | None => history s_op os (m, d) = None
  | Some (r, ys) => exists m' d', history s_op os (m, d) = Some (r, (m', d')) /\ rep m' d' (rev ys) /\
      others m d m' d' /\ (1 < bs -> tight d -> tight d' /\ lost m d m' d')
  end.
Proof. exact (history_refines s_op lifo (fun xs => rev xs) stack_step os m d xs). Qed.
End Code.

(** ** C119: priority_queue *)
Section Prio.
Context {T : Type} (lt : T -> T -> bool) (SW : strict_weak lt).
(** no value of the bag is greater *)
Definition greatest (x : T) (xs : list T) : Prop := In x xs /\ forall y, In y xs -> lt x y = false.
Inductive pop_ := PPush (v : T) | PPop | PTop | PSize | PEmpty | PClear | PCopy.
(** what a bag of values does; which one of several greatest values is taken is left open *)
Definition bag (o : pop_) (xs : list T) (r : list (out T)) (ys : list T) : Prop :=
  match o with
  | PPush v => r = [] /\ Permutation ys (v :: xs)
  | PPop => r = [] /\ exists x, greatest x xs /\ Permutation xs (x :: ys)
  | PTop => Permutation ys xs /\ exists x, r = [Val x] /\ greatest x xs
  | PSize => r = [Num (Z.of_nat (length xs))] /\ Permutation ys xs
  | PEmpty => r = [Bit (match xs with [] => true | _ => false end)] /\ Permutation ys xs
  | PClear => r = [] /\ ys = []
  | PCopy => r = [] /\ Permutation ys xs
  end.
(** pop and top need a value *)
Definition needs (o : pop_) : bool := match o with PPop | PTop => true | _ => false end.
Definition p_op (o : pop_) (c : list T) : option (list (out T) * list T) :=
  match o with
  | PPush v => quiet (p_push lt c v)
  | PPop => quiet (p_pop lt c)
  | PTop => match p_top c with Some x => Some ([Val x], c) | None => None end
  | PSize => Some ([Num (p_size c)], c)
  | PEmpty => Some ([Bit (p_empty c)], c)
  | PClear => quiet (p_clear lt c)
  | PCopy => quiet (p_make lt c)
  end.

Lemma top_greatest x l : heap lt (x :: l) -> greatest x (x :: l).
Proof.
  intros H. destruct (C68_pop_heap lt SW [] l [] x H) as (l' & _ & _ & _ & M). split; [now left|]. intros y [->|Hy]; [|now apply M].
  apply (sw_irr lt SW).
Qed.
(** C119: pop removes the value that top returns, a greatest one, and keeps the others *)
Theorem prio_pop x l : heap lt (x :: l) -> p_top (x :: l) = Some x /\ greatest x (x :: l) /\
  exists l', p_pop lt (x :: l) = Some l' /\ Permutation l l' /\ heap lt l'.
Proof.
  intros H. split; [reflexivity|]. split; [now apply top_greatest|]. destruct (C68_pop_heap lt SW [] l [] x H) as (l' & E & P & H' & _).
  exists l'. unfold p_pop. cbn [app] in E. rewrite !app_nil_r in E. change (len (@nil T)) with 0 in E. rewrite Z.add_0_l in E.
  rewrite E. cbn [obind]. replace (p_empty (l' ++ [x])) with false by now destruct l'. rewrite removelast_last. auto.
Qed.
(** C119: push adds the value *)
Theorem prio_push c v : heap lt c -> exists c', p_push lt c v = Some c' /\ Permutation c' (v :: c) /\ heap lt c'.
Proof.
  intros H. destruct (C68_push_heap lt SW [] c [] v H) as (l' & E & P & H'). exists l'. unfold p_push. cbn [app] in E. rewrite !app_nil_r in E.
  change (len (@nil T)) with 0 in E. rewrite Z.add_0_l in E. split; [exact E|]. split; [|exact H']. rewrite <- P. symmetry. apply Permutation_cons_append.
Qed.
(** C119: the constructors and the assignments *)
Theorem prio_make xs : exists c, p_make lt xs = Some c /\ Permutation c xs /\ heap lt c.
Proof.
  destruct (C68_make_heap lt SW [] xs []) as (l' & E & P & H'). exists l'. unfold p_make. cbn [app] in E. rewrite !app_nil_r in E.
  change (len (@nil T)) with 0 in E. rewrite Z.add_0_l in E. split; [exact E|]. split; [now symmetry|exact H'].
Qed.
Lemma nil_heap : heap lt [].
Proof. intros i j x y _ E. now destruct i. Qed.
Lemma clear_loop_ok fuel : forall c, heap lt c -> (length c < fuel)%nat -> p_clear_loop lt fuel c = Some [].
Proof.
  induction fuel as [|fuel IH]; intros c H Hl; [lia|]. cbn [p_clear_loop]. destruct c as [|x c]; [reflexivity|]. cbn [p_empty].
  destruct (prio_pop x c H) as (_ & _ & l' & E & P & H'). rewrite E. cbn [obind]. apply IH; [exact H'|]. apply Permutation_length in P. cbn in Hl. lia.
Qed.
Lemma greatest_perm x xs ys : Permutation xs ys -> greatest x xs -> greatest x ys.
Proof. intros P [I G]. split; [now rewrite <- P|]. intros y Hy. apply G. now rewrite P. Qed.
Lemma prio_step o c xs : heap lt c -> Permutation c xs ->
  if needs o && p_empty xs then p_op o c = None
  else exists r c' ys, p_op o c = Some (r, c') /\ heap lt c' /\ Permutation c' ys /\ bag o xs r ys.
Proof.
  intros H P. assert (Ep : p_empty xs = p_empty c).
  { destruct c, xs; try reflexivity; [|symmetry in P]; exfalso; eapply Permutation_nil_cons; eauto. }
  destruct o; cbn [needs andb p_op].
  - destruct (prio_push c v H) as (c' & E & P' & H'). exists [], c', c'. rewrite E. split; [reflexivity|]. split; [exact H'|]. split; [reflexivity|].
    split; [reflexivity|]. now rewrite P', P.
  - rewrite Ep. destruct c as [|x c]; cbn [p_empty]; [reflexivity|]. destruct (prio_pop x c H) as (_ & G & l' & E & P' & H').
    exists [], l', l'. rewrite E. split; [reflexivity|]. split; [exact H'|]. split; [reflexivity|]. split; [reflexivity|]. exists x.
    split; [eapply greatest_perm; eauto|]. rewrite <- P. now constructor.
  - rewrite Ep. destruct c as [|x c]; cbn [p_empty]; [reflexivity|]. exists [Val x], (x :: c), (x :: c). split; [reflexivity|]. split; [exact H|].
    split; [reflexivity|]. split; [exact P|]. exists x. split; [reflexivity|]. eapply greatest_perm; [exact P|]. now apply top_greatest.
  - exists [Num (p_size c)], c, c. split; [reflexivity|]. split; [exact H|]. split; [reflexivity|]. split; [|exact P]. unfold p_size. now rewrite (Permutation_length P).
  - exists [Bit (p_empty c)], c, c. split; [reflexivity|]. split; [exact H|]. split; [reflexivity|]. split; [|exact P]. now rewrite <- Ep.
  - exists [], [], []. unfold p_clear. rewrite clear_loop_ok by (exact H || lia). split; [reflexivity|]. split; [apply nil_heap|]. split; [reflexivity|]. now split.
  - destruct (prio_make c) as (c' & E & P' & H'). exists [], c', c'. rewrite E. split; [reflexivity|]. split; [exact H'|]. split; [reflexivity|].
    split; [reflexivity|]. now rewrite P', P.
Qed.
(** a history of a bag: the state may be any arrangement of the values *)
Inductive bags : list pop_ -> list T -> list (out T) -> list T -> Prop :=
  | bags_nil xs : bags [] xs [] xs
  | bags_cons o os xs r ys rs zs : needs o && p_empty xs = false -> bag o xs r ys -> bags os ys rs zs -> bags (o :: os) xs (r ++ rs) zs.
(** how many values there are after a history; [None] when a pop or top comes while there is none *)
Fixpoint level (os : list pop_) (n : nat) : option nat :=
  match os with
  | [] => Some n
  | o :: os =>
    match o, n with
    | PPush _, _ => level os (S n)
    | PPop, S n => level os n
    | PTop, S _ => level os n
    | PPop, O | PTop, O => None
    | PClear, _ => level os O
    | _, _ => level os n
    end
  end.
Lemma bag_level o os xs r ys : needs o && p_empty xs = false -> bag o xs r ys -> level (o :: os) (length xs) = level os (length ys).
Proof.
  intros N B. destruct o; cbn [bag] in B; cbn [level].
  - destruct B as [_ P]. now rewrite (Permutation_length P).
  - destruct B as [_ (x & _ & P)]. now rewrite (Permutation_length P).
  - destruct B as [P _]. rewrite (Permutation_length P). now destruct xs.
  - destruct B as [_ P]. rewrite (Permutation_length P). now destruct xs.
  - destruct B as [_ P]. rewrite (Permutation_length P). now destruct xs.
  - destruct B as [_ ->]. now destruct xs.
  - destruct B as [_ P]. rewrite (Permutation_length P). now destruct xs.
Qed.
(** C119: every history of operations behaves as a bag, and fails exactly when pop or top come while there is no value *)
Theorem prio_history os : forall c xs, heap lt c -> Permutation c xs ->
  match level os (length xs) with
  | None => history p_op os c = None
  | Some n => exists r c' ys, history p_op os c = Some (r, c') /\ heap lt c' /\ Permutation c' ys /\ bags os xs r ys /\ length ys = n
  end.
Proof.
  induction os as [|o os IH]; intros c xs H P; cbn [history].
  - cbn. exists [], c, xs. repeat split; auto. constructor.
  - pose proof (prio_step o c xs H P) as S. destruct (needs o && p_empty xs) eqn:N.
    + rewrite S. destruct o; try discriminate; destruct xs; try discriminate; reflexivity.
    + destruct S as (r & c1 & ys & E & H1 & P1 & B). rewrite E, (bag_level o os xs r ys N B). specialize (IH c1 ys H1 P1).
      destruct (level os (length ys)) as [n|].
      * destruct IH as (rs & c2 & zs & E2 & H2 & P2 & B2 & L). exists (r ++ rs), c2, zs. rewrite E2. repeat split; auto. econstructor; eauto.
      * now rewrite IH.
Qed.
(** C119: taking top and pop until it is empty gives the values in descending order *)
Fixpoint drain (n : nat) (c : list T) : option (list T) :=
  match n with
  | O => Some []
  | S n => match p_top c, p_pop lt c with Some x, Some c => match drain n c with Some r => Some (x :: r) | None => None end | _, _ => None end
  end.
Theorem prio_drain c : heap lt c -> exists r, drain (length c) c = Some r /\ Permutation r c /\ StronglySorted (fun x y => lt x y = false) r.
Proof.
  remember (length c) as n eqn:En. revert c En. induction n as [|n IH]; intros c En H.
  - destruct c; [|discriminate]. exists []. repeat split; constructor.
  - destruct c as [|x c]; [discriminate|]. destruct (prio_pop x c H) as (Et & [_ G] & l' & E & P & H'). cbn [drain]. rewrite Et, E.
    destruct (IH l') as (r & Er & Pr & Sr); [rewrite <- (Permutation_length P); cbn in En; lia|exact H'|]. rewrite Er. exists (x :: r).
    split; [reflexivity|]. assert (Pc : Permutation r c) by (rewrite Pr; now symmetry). split; [now constructor|]. constructor; [exact Sr|].
    apply Forall_forall. intros y Hy. apply G. right. now rewrite <- Pc.
Qed.
End Prio.

(** ** C120: numeric.h.  The source is the part [first, last) of the storage and the destination begins at [r] *)
Section NumSpec.
Context {T : Type}.
(** every value combined with the sum of those before it, and with the value before it *)
Fixpoint sums_from (add : T -> T -> T) (v : T) (l : list T) : list T := match l with [] => [] | x :: l => add v x :: sums_from add (add v x) l end.
Definition sums (add : T -> T -> T) (l : list T) : list T := match l with [] => [] | x :: l => x :: sums_from add x l end.
Fixpoint diffs_from (sub : T -> T -> T) (v : T) (l : list T) : list T := match l with [] => [] | x :: l => sub x v :: diffs_from sub x l end.
Definition diffs (sub : T -> T -> T) (l : list T) : list T := match l with [] => [] | x :: l => x :: diffs_from sub x l end.
(** storage [a] with the values [l] from position [r] on *)
Definition placed (a : list T) (r : Z) (l a' : list T) : Prop := forall i, rd a' i = if (r <=? i) && (i <? r + len l) then rd l (i - r) else rd a i.

Lemma rd_neg (a : list T) i : i < 0 -> rd a i = None.
Proof. intros. apply rd_out. lia. Qed.
Lemma rd_cons (x : T) l i : rd (x :: l) i = if i =? 0 then Some x else rd l (i - 1).
Proof.
  unfold rd. destruct (Z.eqb_spec i 0) as [->|N]; [reflexivity|]. destruct (Z.ltb_spec i 0), (Z.ltb_spec (i - 1) 0); try lia; [reflexivity|].
  replace (Z.to_nat i) with (S (Z.to_nat (i - 1))) by lia. reflexivity.
Qed.
Lemma slice_ext lo hi (a b : list T) : 0 <= lo -> (forall i, lo <= i < hi -> rd a i = rd b i) -> slice lo hi a = slice lo hi b.
Proof.
  intros H E. apply list_ext. intros i. destruct (Z.ltb_spec i 0); [now rewrite !rd_neg|]. rewrite !slice_rd by lia.
  destruct (Z.ltb_spec i (hi - lo)); [|reflexivity]. apply E. lia.
Qed.
Lemma slice_cons lo hi (a : list T) x : 0 <= lo < hi -> rd a lo = Some x -> slice lo hi a = x :: slice (lo + 1) hi a.
Proof.
  intros H E. apply list_ext. intros i. rewrite rd_cons. destruct (Z.ltb_spec i 0).
  - rewrite !rd_neg by lia. destruct (Z.eqb_spec i 0); [lia|reflexivity].
  - rewrite slice_rd by lia. destruct (Z.eqb_spec i 0) as [->|N].
    + rewrite Z.add_0_r. destruct (Z.ltb_spec 0 (hi - lo)); [exact E|lia].
    + rewrite slice_rd by lia. replace (lo + 1 + (i - 1)) with (lo + i) by lia. destruct (Z.ltb_spec i (hi - lo)), (Z.ltb_spec (i - 1) (hi - (lo + 1))); lia || reflexivity.
Qed.
Lemma slice_none lo (a : list T) : 0 <= lo -> slice lo lo a = [].
Proof.
  intros H. apply list_ext. intros i. destruct (Z.ltb_spec i 0); [now rewrite !rd_neg|]. rewrite slice_rd by lia.
  destruct (Z.ltb_spec i (lo - lo)); [lia|]. symmetry. apply rd_out. cbn. lia.
Qed.
Lemma placed_none a r : placed a r [] a.
Proof. intros i. cbn. destruct ((r <=? i) && (i <? r + 0)) eqn:E; [lia|reflexivity]. Qed.
Lemma placed_cons (a : list T) r x l a' : 0 <= r < len a -> placed (up a r x) (r + 1) l a' -> placed a r (x :: l) a'.
Proof.
  intros Hr P i. rewrite P, rd_cons. cbn [length]. rewrite Nat2Z.inj_succ.
  destruct (Z.eqb_spec (i - r) 0) as [Ei|Ei].
  - replace i with r by lia. rewrite rd_up_eq by lia. destruct ((r + 1 <=? r) && (r <? r + 1 + len l)) eqn:E1; [lia|].
    destruct ((r <=? r) && (r <? r + Z.succ (len l))) eqn:E2; [reflexivity|lia].
  - rewrite rd_up_ne by lia. replace (i - (r + 1)) with (i - r - 1) by lia.
    destruct ((r + 1 <=? i) && (i <? r + 1 + len l)) eqn:E1, ((r <=? i) && (i <? r + Z.succ (len l))) eqn:E2; lia || reflexivity.
Qed.
Lemma sums_from_len add l : forall v, length (sums_from add v l) = length l.
Proof. induction l; intros v; cbn; congruence. Qed.
Lemma diffs_from_len add l : forall v, length (diffs_from add v l) = length l.
Proof. induction l; intros v; cbn; congruence. Qed.

Lemma ps_loop_ok add fuel : forall a first last r v, 0 <= first < last -> last <= len a -> 0 <= r -> r + (last - first) <= len a -> r <= first \/ last <= r ->
  (Z.to_nat (last - first) < fuel)%nat ->
  exists a', ps_loop fuel add a first last r v = Some (a', r + (last - first)) /\ placed a (r + 1) (sums_from add v (slice (first + 1) last a)) a'.
Proof.
  induction fuel as [|fuel IH]; intros a first last r v Hf Hl Hr Hn Ho Hfu; [lia|]. cbn [ps_loop]. destruct (Z.eqb_spec (first + 1) last) as [E|N].
  - subst last. exists a. rewrite slice_none by lia. split; [f_equal; f_equal; lia|]. apply placed_none.
  - destruct (rd_ex a (first + 1) ltac:(lia)) as [x Ex]. rewrite Ex. cbn [obind]. rewrite wr_up by lia. cbn [obind].
    destruct (IH (up a (r + 1) (add v x)) (first + 1) last (r + 1) (add v x)) as (a' & E' & P); rewrite ?up_length; try lia.
    exists a'. rewrite E'. split; [f_equal; f_equal; lia|]. rewrite (slice_cons (first + 1) last a x) by (lia || exact Ex). cbn [sums_from].
    apply placed_cons; [lia|]. rewrite (slice_ext (first + 1 + 1) last a (up a (r + 1) (add v x))); [exact P|lia|].
    intros i Hi. rewrite rd_up_ne by lia. reflexivity.
Qed.
Lemma ad_loop_ok sub fuel : forall a first last r v, 0 <= first < last -> last <= len a -> 0 <= r -> r + (last - first) <= len a -> r <= first \/ last <= r ->
  (Z.to_nat (last - first) < fuel)%nat ->
  exists a', ad_loop fuel sub a first last r v = Some (a', r + (last - first)) /\ placed a (r + 1) (diffs_from sub v (slice (first + 1) last a)) a'.
Proof.
  induction fuel as [|fuel IH]; intros a first last r v Hf Hl Hr Hn Ho Hfu; [lia|]. cbn [ad_loop]. destruct (Z.eqb_spec (first + 1) last) as [E|N].
  - subst last. exists a. rewrite slice_none by lia. split; [f_equal; f_equal; lia|]. apply placed_none.
  - destruct (rd_ex a (first + 1) ltac:(lia)) as [x Ex]. rewrite Ex. cbn [obind]. rewrite wr_up by lia. cbn [obind].
    destruct (IH (up a (r + 1) (sub x v)) (first + 1) last (r + 1) x) as (a' & E' & P); rewrite ?up_length; try lia.
    exists a'. rewrite E'. split; [f_equal; f_equal; lia|]. rewrite (slice_cons (first + 1) last a x) by (lia || exact Ex). cbn [diffs_from].
    apply placed_cons; [lia|]. rewrite (slice_ext (first + 1 + 1) last a (up a (r + 1) (sub x v))); [exact P|lia|].
    intros i Hi. rewrite rd_up_ne by lia. reflexivity.
Qed.
(** C120: partial_sum and adjacent_difference write their results, return the end of them and leave all else alone; source and destination may overlap as
    long as the destination does not begin inside of the source *)
Theorem numeric_partial_sum add a first last r : 0 <= first <= last -> last <= len a -> 0 <= r -> r + (last - first) <= len a -> r <= first \/ last <= r ->
  exists a', partial_sum add a first last r = Some (a', r + (last - first)) /\ placed a r (sums add (slice first last a)) a'.
Proof.
  intros Hf Hl Hr Hn Ho. unfold partial_sum. destruct (Z.eqb_spec first last) as [->|N].
  - exists a. split; [f_equal; f_equal; lia|]. rewrite slice_none by lia. apply placed_none.
  - destruct (rd_ex a first ltac:(lia)) as [x Ex]. rewrite Ex. cbn [obind]. rewrite wr_up by lia. cbn [obind].
    assert (Ex' : rd (up a r x) first = Some x) by (destruct (Z.eq_dec r first) as [->|]; [apply rd_up_eq; lia|rewrite rd_up_ne by lia; exact Ex]).
    rewrite Ex'. cbn [obind]. destruct (ps_loop_ok add (S (Z.to_nat (last - first))) (up a r x) first last r x) as (a' & E & P); rewrite ?up_length; try lia.
    exists a'. split; [exact E|]. rewrite (slice_cons first last a x) by (lia || exact Ex). cbn [sums]. apply placed_cons; [lia|].
    rewrite (slice_ext (first + 1) last a (up a r x)); [exact P|lia|]. intros i Hi. now rewrite rd_up_ne by lia.
Qed.
Theorem numeric_adjacent_difference sub a first last r : 0 <= first <= last -> last <= len a -> 0 <= r -> r + (last - first) <= len a -> r <= first \/ last <= r ->
  exists a', adjacent_difference sub a first last r = Some (a', r + (last - first)) /\ placed a r (diffs sub (slice first last a)) a'.
Proof.
  intros Hf Hl Hr Hn Ho. unfold adjacent_difference. destruct (Z.eqb_spec first last) as [->|N].
  - exists a. split; [f_equal; f_equal; lia|]. rewrite slice_none by lia. apply placed_none.
  - destruct (rd_ex a first ltac:(lia)) as [x Ex]. rewrite Ex. cbn [obind]. rewrite wr_up by lia. cbn [obind].
    assert (Ex' : rd (up a r x) first = Some x) by (destruct (Z.eq_dec r first) as [->|]; [apply rd_up_eq; lia|rewrite rd_up_ne by lia; exact Ex]).
    rewrite Ex'. cbn [obind]. destruct (ad_loop_ok sub (S (Z.to_nat (last - first))) (up a r x) first last r x) as (a' & E & P); rewrite ?up_length; try lia.
    exists a'. split; [exact E|]. rewrite (slice_cons first last a x) by (lia || exact Ex). cbn [diffs]. apply placed_cons; [lia|].
    rewrite (slice_ext (first + 1) last a (up a r x)); [exact P|lia|]. intros i Hi. now rewrite rd_up_ne by lia.
Qed.
Lemma sums_diffs (add sub : T -> T -> T) : (forall x y, add x (sub y x) = y) -> forall l, sums add (diffs sub l) = l.
Proof.
  intros H l. destruct l as [|x l]; [reflexivity|]. cbn. f_equal. revert x. induction l as [|y l IH]; intros x; [reflexivity|]. cbn. now rewrite H, IH.
Qed.
Lemma diffs_sums (add sub : T -> T -> T) : (forall x y, sub (add x y) x = y) -> forall l, diffs sub (sums add l) = l.
Proof.
  intros H l. destruct l as [|x l]; [reflexivity|]. cbn. f_equal. revert x. induction l as [|y l IH]; intros x; [reflexivity|]. cbn. now rewrite H, IH.
Qed.
Lemma placed_self (a : list T) r l a' : 0 <= r -> r + len l <= len a -> placed a r l a' -> slice r (r + len l) a' = l.
Proof.
  intros Hr Hl P. apply list_ext. intros i. destruct (Z.ltb_spec i 0); [now rewrite !rd_neg|]. rewrite slice_rd, P by lia.
  replace (r + i - r) with i by lia. destruct (Z.ltb_spec i (r + len l - r)).
  - destruct ((r <=? r + i) && (r + i <? r + len l)) eqn:E; [reflexivity|lia].
  - symmetry. apply rd_out. lia.
Qed.
Lemma placed_len (a : list T) r l a' : 0 <= r -> r + len l <= len a -> placed a r l a' -> len a' = len a.
Proof.
  intros Hr Hl P. assert (R : forall i, rd a' i = None <-> rd a i = None).
  { intros i. rewrite P. destruct ((r <=? i) && (i <? r + len l)) eqn:E; [|reflexivity].
    destruct (rd_ex l (i - r) ltac:(lia)) as [x Ex]. destruct (rd_ex a i ltac:(lia)) as [y Ey]. rewrite Ex, Ey. split; discriminate. }
  assert (U : forall (b c : list T), (forall i, rd b i = None -> rd c i = None) -> len c <= len b).
  { intros b c H. destruct (Z.ltb_spec (len b) (len c)); [|lia]. exfalso. destruct (rd_ex c (len b) ltac:(lia)) as [x Ex].
    specialize (H (len b)). rewrite rd_out in H by lia. rewrite H in Ex by reflexivity. discriminate. }
  pose proof (U a a' (fun i => proj2 (R i))). pose proof (U a' a (fun i => proj1 (R i))). lia.
Qed.
(** C120: in place each one undoes the other, when the subtraction undoes the addition *)
Theorem numeric_inverse (add sub : T -> T -> T) a first last : (forall x y, sub (add x y) x = y) -> (forall x y, add x (sub y x) = y) -> 0 <= first <= last -> last <= len a ->
  (exists a', partial_sum add a first last first = Some (a', last) /\ adjacent_difference sub a' first last first = Some (a, last)) /\
  (exists a', adjacent_difference sub a first last first = Some (a', last) /\ partial_sum add a' first last first = Some (a, last)).
Proof.
  intros H1 H2 Hf Hl. assert (Ln : len (slice first last a) = last - first) by (apply slice_length; lia).
  assert (Ls : length (sums add (slice first last a)) = length (slice first last a)) by (destruct (slice first last a); cbn; [reflexivity|now rewrite sums_from_len]).
  assert (Ld : length (diffs sub (slice first last a)) = length (slice first last a)) by (destruct (slice first last a); cbn; [reflexivity|now rewrite diffs_from_len]).
  assert (Back : forall l a' a'', length l = length (slice first last a) -> placed a first l a' -> placed a' first (slice first last a) a'' -> a'' = a).
  { intros l a' a'' L P1 P2. apply list_ext. intros i. rewrite P2, P1. rewrite L. destruct ((first <=? i) && (i <? first + len (slice first last a))) eqn:E; [|reflexivity].
    rewrite slice_rd by lia. replace (first + (i - first)) with i by lia. destruct (Z.ltb_spec (i - first) (last - first)); [reflexivity|lia]. }
  split.
  - destruct (numeric_partial_sum add a first last first) as (a' & E & P); try lia. exists a'. replace (first + (last - first)) with last in E by lia.
    split; [exact E|]. pose proof (placed_len a first _ a' ltac:(lia) ltac:(rewrite Ls; lia) P) as La. pose proof (placed_self a first _ a' ltac:(lia) ltac:(rewrite Ls; lia) P) as Sl.
    rewrite Ls, Ln in Sl. replace (first + (last - first)) with last in Sl by lia.
    destruct (numeric_adjacent_difference sub a' first last first) as (a'' & E' & P'); try lia. rewrite Sl in P'. rewrite (diffs_sums add sub H1) in P'.
    rewrite E'. replace (first + (last - first)) with last by lia. replace a'' with a; [reflexivity|]. symmetry. eapply Back; [|exact P|exact P']. assumption.
  - destruct (numeric_adjacent_difference sub a first last first) as (a' & E & P); try lia. exists a'. replace (first + (last - first)) with last in E by lia.
    split; [exact E|]. pose proof (placed_len a first _ a' ltac:(lia) ltac:(rewrite Ld; lia) P) as La. pose proof (placed_self a first _ a' ltac:(lia) ltac:(rewrite Ld; lia) P) as Sl.
    rewrite Ld, Ln in Sl. replace (first + (last - first)) with last in Sl by lia.
    destruct (numeric_partial_sum add a' first last first) as (a'' & E' & P'); try lia. rewrite Sl in P'. rewrite (sums_diffs add sub H2) in P'.
    rewrite E'. replace (first + (last - first)) with last by lia. replace a'' with a; [reflexivity|]. symmetry. eapply Back; [|exact P|exact P']. assumption.
Qed.
(** C120: accumulate and inner_product combine the values from left to right, iota counts up *)
Theorem numeric_accumulate {U} (op : U -> T -> U) a first last init : 0 <= first <= last -> last <= len a ->
  accumulate (S (Z.to_nat (last - first))) op a first last init = Some (fold_left op (slice first last a) init).
Proof.
  intros Hf Hl. remember (S (Z.to_nat (last - first))) as fuel eqn:Ef. assert (Hfu : (Z.to_nat (last - first) < fuel)%nat) by lia. clear Ef. revert first init Hf Hfu.
  induction fuel as [|fuel IH]; intros first init Hf Hfu; [lia|]. cbn [accumulate]. destruct (Z.eqb_spec first last) as [->|N]; [now rewrite slice_none by lia|].
  destruct (rd_ex a first ltac:(lia)) as [x Ex]. rewrite Ex. cbn [obind]. rewrite IH by lia. now rewrite (slice_cons first last a x) by (lia || exact Ex).
Qed.
Theorem numeric_inner_product {U V W} (op1 : W -> V -> W) (op2 : T -> U -> V) a (b : list U) first last g init :
  0 <= first <= last -> last <= len a -> 0 <= g -> g + (last - first) <= len b ->
  inner_product (S (Z.to_nat (last - first))) op1 op2 a b first last g init =
  Some (fold_left (fun s xy => op1 s (op2 (fst xy) (snd xy))) (combine (slice first last a) (skipn (Z.to_nat g) b)) init).
Proof.
  intros Hf Hl Hg Hb. remember (S (Z.to_nat (last - first))) as fuel eqn:Ef. assert (Hfu : (Z.to_nat (last - first) < fuel)%nat) by lia. clear Ef.
  revert first g init Hf Hg Hb Hfu.
  induction fuel as [|fuel IH]; intros first g init Hf Hg Hb Hfu; [lia|]. cbn [inner_product]. destruct (Z.eqb_spec first last) as [->|N]; [now rewrite slice_none by lia|].
  destruct (rd_ex a first ltac:(lia)) as [x Ex]. rewrite Ex. cbn [obind]. destruct (rd_ex b g ltac:(lia)) as [y Ey]. rewrite Ey. cbn [obind].
  rewrite IH by lia. rewrite (slice_cons first last a x) by (lia || exact Ex).
  assert (Es : skipn (Z.to_nat g) b = y :: skipn (Z.to_nat (g + 1)) b).
  { apply nth_error_ext. intros n. rewrite skipn_nth. destruct n as [|n].
    - unfold rd in Ey. destruct (Z.ltb_spec g 0); [lia|]. now rewrite Nat.add_0_r.
    - cbn. rewrite skipn_nth. f_equal. lia. }
  now rewrite Es.
Qed.
Fixpoint counted (succ : T -> T) (n : nat) (v : T) : list T := match n with O => [] | S n => v :: counted succ n (succ v) end.
Lemma counted_len succ n : forall v, length (counted succ n v) = n.
Proof. induction n; intros v; cbn; congruence. Qed.
Theorem numeric_iota succ a first last value : 0 <= first <= last -> last <= len a ->
  exists a', iota (S (Z.to_nat (last - first))) succ a first last value = Some a' /\ placed a first (counted succ (Z.to_nat (last - first)) value) a'.
Proof.
  intros Hf Hl. remember (S (Z.to_nat (last - first))) as fuel eqn:Ef. assert (Hfu : (Z.to_nat (last - first) < fuel)%nat) by lia. clear Ef. revert a first value Hf Hl Hfu.
  induction fuel as [|fuel IH]; intros a first value Hf Hl Hfu; [lia|]. cbn [iota]. destruct (Z.eqb_spec first last) as [->|N].
  - exists a. split; [reflexivity|]. replace (Z.to_nat (last - last)) with O by lia. apply placed_none.
  - rewrite wr_up by lia. cbn [obind]. destruct (IH (up a first value) (first + 1) (succ value)) as (a' & E & P); rewrite ?up_length; try lia.
    exists a'. split; [exact E|]. replace (Z.to_nat (last - first)) with (S (Z.to_nat (last - (first + 1)))) by lia. cbn [counted]. apply placed_cons; [lia|exact P].
Qed.
End NumSpec.

(** ** concrete cases *)
Example queue_history_ex : history fifo [Push 1; Push 2; Push 3; Pop; Front; Back; Size; Clear; Empty] [] = Some ([Val 2; Val 3; Num 2; Bit true], []) /\
  history fifo [Push 1; Pop; Front] [] = None /\ exists m d, DeqSpec.rep 16 false m d ([] : list Z) /\ DeqSpec.tight d /\
  exists s, history (q_op 16 false) [Push 1; Push 2; Push 3; Pop; Front; Back; Size; Clear; Empty] (m, d) = Some ([Val 2; Val 3; Num 2; Bit true], s).
Proof.
  split; [reflexivity|]. split; [reflexivity|]. destruct (DeqProps.some_deque false 0) as (m & d & _ & R & Tt). exists m, d. split; [exact R|]. split; [exact Tt|].
  destruct (queue_history 16 false ltac:(lia) [Push 1; Push 2; Push 3; Pop; Front; Back; Size; Clear; Empty] m d [] R) as (m' & d' & E & _). exists (m', d'). exact E.
Qed.
Example stack_history_ex : history lifo [Push 1; Push 2; Push 3; Pop; Back; Size; Clear; Empty] [] = Some ([Val 2; Num 2; Bit true], []) /\
  exists m d, DeqSpec.rep 16 false m d ([] : list Z) /\ DeqSpec.tight d /\
  exists s, history (s_op 16 false) [Push 1; Push 2; Push 3; Pop; Back; Size; Clear; Empty] (m, d) = Some ([Val 2; Num 2; Bit true], s).
Proof.
  split; [reflexivity|]. destruct (DeqProps.some_deque false 0) as (m & d & _ & R & Tt). exists m, d. split; [exact R|]. split; [exact Tt|].
  destruct (stack_history 16 false ltac:(lia) [Push 1; Push 2; Push 3; Pop; Back; Size; Clear; Empty] m d [] R) as (m' & d' & E & _). exists (m', d'). exact E.
Qed.
Lemma ltb_weak : strict_weak Z.ltb.
Proof. split; intros; rewrite ?Z.ltb_lt, ?Z.ltb_ge in *; lia. Qed.
Example prio_history_ex : strict_weak Z.ltb /\ heap Z.ltb [] /\
  history (p_op Z.ltb) [PPush 3; PPush 9; PPush 5; PTop; PPop; PTop; PSize; PCopy; PPush 7; PTop; PClear; PEmpty] [] =
    Some ([Val 9; Val 5; Num 2; Val 7; Bit true], []) /\
  history (p_op Z.ltb) [PPush 3; PPop; PTop] [] = None /\ level [PPush 3; PPop; @PTop Z] 0 = None /\
  p_make Z.ltb [1; 4; 2; 8; 5] = Some [8; 5; 2; 4; 1] /\ drain Z.ltb 5 [8; 5; 2; 4; 1] = Some [8; 5; 4; 2; 1].
Proof. split; [exact ltb_weak|]. split; [apply nil_heap|]. repeat split. Qed.
Example numeric_ex : partial_sum Z.add [7; 1; 2; 3; 4; 9] 1 5 1 = Some ([7; 1; 3; 6; 10; 9], 5) /\
  adjacent_difference Z.sub [7; 1; 3; 6; 10; 9] 1 5 1 = Some ([7; 1; 2; 3; 4; 9], 5) /\
  accumulate 4 Z.add [1; 2; 3] 0 3 10 = Some 16 /\ inner_product 4 Z.add Z.mul [1; 2; 3] [9; 4; 5; 6] 0 3 1 0 = Some 32 /\
  iota 4 Z.succ [0; 0; 0; 9] 0 3 5 = Some [5; 6; 7; 9].
Proof. repeat split. Qed.
(** the condition on the overlap is needed: the sums of 1, 1, 1 are 1, 2, 3 *)
Example numeric_overlap_ex : partial_sum Z.add [1; 1; 1; 0] 0 3 1 = Some ([1; 1; 2; 4], 4).
Proof. reflexivity. Qed.
