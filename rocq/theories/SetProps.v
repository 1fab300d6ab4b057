(** Merging and set algorithms (C73).  For every value v the elements equivalent to v in the output are stated exactly
    (which ones and in which order); together with the order of the output this fixes it completely. *)
From Coq Require Import List Bool Lia Sorted Arith ZArith Permutation.
From Verif Require Import SortSpec SetModel.
Import ListNotations.

(** the elements equivalent to v, in their order *)
Definition alike {A} (lt : A -> A -> bool) (v : A) (l : list A) : list A := filter (fun x => negb (lt v x) && negb (lt x v)) l.

Section Proof.
Context {A : Type} (lt : A -> A -> bool) (SW : strict_weak lt).
Implicit Types (l : list A) (x y v : A).
Notation alike := (alike lt).

Lemma lt_asym x y : lt x y = true -> lt y x = false.
Proof. intros H. destruct (lt y x) eqn:E; [|reflexivity]. pose proof (sw_trans _ SW _ _ _ H E) as C. rewrite (sw_irr _ SW) in C. discriminate. Qed.
Lemma le_tr x y z : lt y x = false -> lt z y = false -> lt z x = false.
Proof. intros H1 H2. destruct (lt z x) eqn:E; [|reflexivity]. destruct (sw_neg _ SW _ y _ E); congruence. Qed.
Lemma lt_le_tr x y z : lt x y = true -> lt z y = false -> lt x z = true.
Proof. intros H1 H2. destruct (sw_neg _ SW _ z _ H1); congruence. Qed.
Lemma le_lt_tr x y z : lt y x = false -> lt y z = true -> lt x z = true.
Proof. intros H1 H2. destruct (sw_neg _ SW _ x _ H2); congruence. Qed.

Lemma ordered_inv x l : ordered lt (x :: l) -> ordered lt l /\ Forall (fun y => lt y x = false) l.
Proof. apply StronglySorted_inv. Qed.
Lemma ordered_mk x l : ordered lt l -> Forall (fun y => lt y x = false) l -> ordered lt (x :: l).
Proof. intros O F. constructor; assumption. Qed.

Lemma alike_cons v x l : alike v (x :: l) = if negb (lt v x) && negb (lt x v) then x :: alike v l else alike v l.
Proof. reflexivity. Qed.
Lemma alike_app v l1 l2 : alike v (l1 ++ l2) = alike v l1 ++ alike v l2.
Proof. apply filter_app. Qed.
(** no element of a sorted range headed by y is equivalent to anything alike to a smaller x *)
Lemma alike_none v x y l : ordered lt (y :: l) -> lt x y = true -> negb (lt v x) && negb (lt x v) = true -> alike v (y :: l) = [].
Proof.
  intros O L E. apply andb_true_iff in E as [E1 E2]. apply negb_true_iff in E1, E2.
  apply ordered_inv in O as [O F]. rewrite Forall_forall in F.
  assert (H : forall z, In z (y :: l) -> negb (lt v z) && negb (lt z v) = false).
  { intros z I. apply andb_false_iff. left. apply negb_false_iff.
    assert (L2 : lt x z = true). { destruct I as [<-|I]; [exact L|]. apply lt_le_tr with y; auto. }
    destruct (sw_neg _ SW _ v _ L2); [congruence|assumption]. }
  revert H. generalize (y :: l). intros m. induction m as [|z m IH]; intros H; [reflexivity|].
  rewrite alike_cons, H by (left; reflexivity). apply IH. intros w I. apply H. right; exact I.
Qed.
Lemma alike_same v x y : lt x y = false -> lt y x = false -> negb (lt v x) && negb (lt x v) = negb (lt v y) && negb (lt y v).
Proof.
  intros H1 H2.
  assert (E1 : lt v x = lt v y).
  { destruct (lt v x) eqn:E, (lt v y) eqn:E'; auto.
    - destruct (sw_neg _ SW _ y _ E); congruence.
    - destruct (sw_neg _ SW _ x _ E'); congruence. }
  assert (E2 : lt x v = lt y v).
  { destruct (lt x v) eqn:E, (lt y v) eqn:E'; auto.
    - destruct (sw_neg _ SW _ y _ E); congruence.
    - destruct (sw_neg _ SW _ x _ E'); congruence. }
  now rewrite E1, E2.
Qed.

(** the double recursion *)
Lemma two_ind (P : list A -> list A -> Prop) :
  (forall l2, P [] l2) -> (forall x l1, P (x :: l1) []) ->
  (forall x l1 y l2, P l1 (y :: l2) -> P (x :: l1) l2 -> P l1 l2 -> P (x :: l1) (y :: l2)) -> forall l1 l2, P l1 l2.
Proof.
  intros H1 H2 H3. induction l1 as [|x l1 IH]; [exact H1|]. induction l2 as [|y l2 IH2]; [apply H2|]. apply H3; auto.
Qed.

(** heads of two sorted ranges, ordered output *)
Lemma head_le (f : list A -> list A -> list A) l1 l2 x :
  (forall z, In z (f l1 l2) -> In z l1 \/ In z l2) ->
  Forall (fun y => lt y x = false) l1 -> Forall (fun y => lt y x = false) l2 -> Forall (fun y => lt y x = false) (f l1 l2).
Proof. intros H F1 F2. rewrite Forall_forall in *. intros z I. destruct (H z I); auto. Qed.
Lemma tail_le x y l : ordered lt (y :: l) -> lt y x = false -> Forall (fun z => lt z x = false) (y :: l).
Proof.
  intros O L. apply ordered_inv in O as [_ F]. constructor; [exact L|]. eapply Forall_impl; [|exact F]. intros z B. simpl in B.
  exact (le_tr x y z L B).
Qed.

(** ** merge *)
Lemma merge_in l1 l2 : forall z, In z (merge lt l1 l2) -> In z l1 \/ In z l2.
Proof.
  revert l1 l2. apply (two_ind (fun l1 l2 => forall z, In z (merge lt l1 l2) -> In z l1 \/ In z l2)).
  - intros l2 z I. right. destruct l2; exact I.
  - intros x l1 z I. left. change (In z ((x :: l1) ++ [])) in I. now rewrite app_nil_r in I.
  - intros x l1 y l2 I1 I2 _ z I. cbn [merge] in I. destruct (lt y x).
    + destruct I as [<-|I]; [right; left; reflexivity|]. apply I2 in I. simpl; tauto.
    + destruct I as [<-|I]; [left; left; reflexivity|]. apply I1 in I. simpl in *; tauto.
Qed.
Theorem C73_merge l1 l2 : ordered lt l1 -> ordered lt l2 ->
  Permutation (l1 ++ l2) (merge lt l1 l2) /\ ordered lt (merge lt l1 l2) /\
  forall v, alike v (merge lt l1 l2) = alike v l1 ++ alike v l2.
Proof.
  revert l1 l2. apply (two_ind (fun l1 l2 => ordered lt l1 -> ordered lt l2 -> Permutation (l1 ++ l2) (merge lt l1 l2) /\
    ordered lt (merge lt l1 l2) /\ forall v, alike v (merge lt l1 l2) = alike v l1 ++ alike v l2)).
  - intros l2 O1 O2. replace (merge lt [] l2) with l2 by (destruct l2; reflexivity). auto.
  - intros x l1 O1 O2. change (merge lt (x :: l1) []) with ((x :: l1) ++ []). rewrite app_nil_r.
    split; [reflexivity|]. split; [exact O1|]. intros v. symmetry. apply app_nil_r.
  - intros x l1 y l2 I1 I2 _ O1 O2. pose proof (ordered_inv _ _ O1) as [O1' F1]. pose proof (ordered_inv _ _ O2) as [O2' F2].
    cbn [merge]. destruct (lt y x) eqn:L.
    + destruct (I2 O1 O2') as (P & O & E). change ((fix inner (l0 : list A) : list A :=
        match l0 with [] => (x :: l1) ++ l0 | y0 :: r2 => if lt y0 x then y0 :: inner r2 else x :: merge lt l1 l0 end) l2) with (merge lt (x :: l1) l2) in *.
      split; [|split].
      * apply perm_trans with (y :: (x :: l1) ++ l2); [symmetry; apply Permutation_middle|]. now constructor.
      * apply ordered_mk; [exact O|]. apply head_le; [apply merge_in| |exact F2]. apply tail_le; [exact O1|]. now apply lt_asym.
      * intros v. specialize (E v). rewrite (alike_cons v y). destruct (negb (lt v y) && negb (lt y v)) eqn:Ev; rewrite E;
          rewrite (alike_cons v y), Ev; [|reflexivity]. now rewrite (alike_none v y x l1 O1 L Ev).
    + destruct (I1 O1' O2) as (P & O & E). split; [|split].
      * simpl. now constructor.
      * apply ordered_mk; [exact O|]. apply head_le; [apply merge_in|exact F1|]. now apply tail_le.
      * intros v. rewrite !(alike_cons v x). destruct (negb (lt v x) && negb (lt x v)); rewrite E; reflexivity.
Qed.

Ltac base1 := intros l2; destruct l2; reflexivity.

(** ** set_union: m elements alike in the first range and n in the second give all m and then the last n - m *)
Lemma union_nil l2 : set_union lt [] l2 = l2. Proof. destruct l2; reflexivity. Qed.
Lemma union_in : forall l1 l2 z, In z (set_union lt l1 l2) -> In z l1 \/ In z l2.
Proof.
  apply (two_ind (fun l1 l2 => forall z, In z (set_union lt l1 l2) -> In z l1 \/ In z l2)).
  - intros l2 z I. rewrite union_nil in I. auto.
  - intros x l1 z I. left. change (In z ((x :: l1) ++ [])) in I. now rewrite app_nil_r in I.
  - intros x l1 y l2 I1 I2 I3 z I. cbn [set_union] in I. destruct (lt x y); [|destruct (lt y x)]; destruct I as [<-|I];
      try (left; left; reflexivity); try (right; left; reflexivity);
      [apply I1 in I|apply I2 in I|apply I3 in I]; simpl in *; tauto.
Qed.
Theorem C73_set_union l1 l2 : ordered lt l1 -> ordered lt l2 ->
  ordered lt (set_union lt l1 l2) /\
  forall v, alike v (set_union lt l1 l2) = alike v l1 ++ skipn (length (alike v l1)) (alike v l2).
Proof.
  revert l1 l2. apply (two_ind (fun l1 l2 => ordered lt l1 -> ordered lt l2 -> ordered lt (set_union lt l1 l2) /\
    forall v, alike v (set_union lt l1 l2) = alike v l1 ++ skipn (length (alike v l1)) (alike v l2))).
  - intros l2 O1 O2. rewrite union_nil. auto.
  - intros x l1 O1 O2. change (set_union lt (x :: l1) []) with ((x :: l1) ++ []). rewrite app_nil_r.
    split; [exact O1|]. intros v. change (alike v []) with (@nil A). rewrite skipn_nil, app_nil_r. reflexivity.
  - intros x l1 y l2 I1 I2 I3 O1 O2. pose proof (ordered_inv _ _ O1) as [O1' F1]. pose proof (ordered_inv _ _ O2) as [O2' F2].
    cbn [set_union]. destruct (lt x y) eqn:L; [|destruct (lt y x) eqn:L'].
    + destruct (I1 O1' O2) as (O & E). split.
      * apply ordered_mk; [exact O|]. apply head_le; [apply union_in|exact F1|]. apply tail_le; [exact O2|]. now apply lt_asym.
      * intros v. rewrite !(alike_cons v x). destruct (negb (lt v x) && negb (lt x v)) eqn:Ev; rewrite E; [|reflexivity].
        rewrite (alike_none v x y l2 O2 L Ev). now rewrite !skipn_nil.
    + destruct (I2 O1 O2') as (O & E). cbn [set_union] in O, E. split.
      * apply ordered_mk; [exact O|]. apply (head_le (set_union lt) (x :: l1) l2); [apply union_in| |exact F2]. now apply tail_le.
      * intros v. specialize (E v). rewrite (alike_cons v y). destruct (negb (lt v y) && negb (lt y v)) eqn:Ev; rewrite E.
        -- rewrite (alike_cons v y), Ev, (alike_none v y x l1 O1 L' Ev). reflexivity.
        -- rewrite (alike_cons v y), Ev. reflexivity.
    + destruct (I3 O1' O2') as (O & E). split.
      * apply ordered_mk; [exact O|]. apply head_le; [apply union_in|exact F1|]. pose proof (tail_le x y l2 O2 L') as T. now inversion T.
      * intros v. rewrite !(alike_cons v x), (alike_cons v y), <- (alike_same v x y L L').
        destruct (negb (lt v x) && negb (lt x v)) eqn:Ev; rewrite E; reflexivity.
Qed.

(** ** set_intersection: the first min(m,n) alike elements of the first range *)
Lemma inter_nil l2 : set_intersection lt [] l2 = []. Proof. destruct l2; reflexivity. Qed.
Lemma inter_in : forall l1 l2 z, In z (set_intersection lt l1 l2) -> In z l1 \/ In z l2.
Proof.
  apply (two_ind (fun l1 l2 => forall z, In z (set_intersection lt l1 l2) -> In z l1 \/ In z l2)).
  - intros l2 z I. rewrite inter_nil in I. destruct I.
  - intros x l1 z I. destruct I.
  - intros x l1 y l2 I1 I2 I3 z I. cbn [set_intersection] in I. destruct (lt x y); [|destruct (lt y x)].
    + apply I1 in I. simpl in *; tauto.
    + apply I2 in I. simpl in *; tauto.
    + destruct I as [<-|I]; [left; left; reflexivity|]. apply I3 in I. simpl; tauto.
Qed.
Theorem C73_set_intersection l1 l2 : ordered lt l1 -> ordered lt l2 ->
  ordered lt (set_intersection lt l1 l2) /\
  forall v, alike v (set_intersection lt l1 l2) = firstn (length (alike v l2)) (alike v l1).
Proof.
  revert l1 l2. apply (two_ind (fun l1 l2 => ordered lt l1 -> ordered lt l2 -> ordered lt (set_intersection lt l1 l2) /\
    forall v, alike v (set_intersection lt l1 l2) = firstn (length (alike v l2)) (alike v l1))).
  - intros l2 O1 O2. rewrite inter_nil. split; [exact O1|]. intros v. now rewrite firstn_nil.
  - intros x l1 O1 O2. split; [exact O2|]. reflexivity.
  - intros x l1 y l2 I1 I2 I3 O1 O2. pose proof (ordered_inv _ _ O1) as [O1' F1]. pose proof (ordered_inv _ _ O2) as [O2' F2].
    cbn [set_intersection]. destruct (lt x y) eqn:L; [|destruct (lt y x) eqn:L'].
    + destruct (I1 O1' O2) as (O & E). split; [exact O|].
      intros v. rewrite (alike_cons v x), E. destruct (negb (lt v x) && negb (lt x v)) eqn:Ev; [|reflexivity].
      rewrite (alike_none v x y l2 O2 L Ev). reflexivity.
    + destruct (I2 O1 O2') as (O & E). cbn [set_intersection] in O, E. split; [exact O|].
      intros v. rewrite (alike_cons v y). specialize (E v). rewrite E. destruct (negb (lt v y) && negb (lt y v)) eqn:Ev; [|reflexivity].
      rewrite (alike_none v y x l1 O1 L' Ev). now rewrite !firstn_nil.
    + destruct (I3 O1' O2') as (O & E). split.
      * apply ordered_mk; [exact O|]. apply head_le; [apply inter_in|exact F1|]. pose proof (tail_le x y l2 O2 L') as T. now inversion T.
      * intros v. rewrite !(alike_cons v x), (alike_cons v y), <- (alike_same v x y L L').
        destruct (negb (lt v x) && negb (lt x v)) eqn:Ev; rewrite E; reflexivity.
Qed.

(** ** set_difference: the last m - n alike elements of the first range *)
Lemma diff_nil l2 : set_difference lt [] l2 = []. Proof. destruct l2; reflexivity. Qed.
Lemma diff_in : forall l1 l2 z, In z (set_difference lt l1 l2) -> In z l1 \/ In z l2.
Proof.
  apply (two_ind (fun l1 l2 => forall z, In z (set_difference lt l1 l2) -> In z l1 \/ In z l2)).
  - intros l2 z I. rewrite diff_nil in I. destruct I.
  - intros x l1 z I. left. exact I.
  - intros x l1 y l2 I1 I2 I3 z I. cbn [set_difference] in I. destruct (lt x y); [|destruct (lt y x)].
    + destruct I as [<-|I]; [left; left; reflexivity|]. apply I1 in I. simpl in *; tauto.
    + apply I2 in I. simpl in *; tauto.
    + apply I3 in I. simpl; tauto.
Qed.
Theorem C73_set_difference l1 l2 : ordered lt l1 -> ordered lt l2 ->
  ordered lt (set_difference lt l1 l2) /\
  forall v, alike v (set_difference lt l1 l2) = skipn (length (alike v l2)) (alike v l1).
Proof.
  revert l1 l2. apply (two_ind (fun l1 l2 => ordered lt l1 -> ordered lt l2 -> ordered lt (set_difference lt l1 l2) /\
    forall v, alike v (set_difference lt l1 l2) = skipn (length (alike v l2)) (alike v l1))).
  - intros l2 O1 O2. rewrite diff_nil. split; [exact O1|]. intros v. now rewrite skipn_nil.
  - intros x l1 O1 O2. split; [exact O1|]. reflexivity.
  - intros x l1 y l2 I1 I2 I3 O1 O2. pose proof (ordered_inv _ _ O1) as [O1' F1]. pose proof (ordered_inv _ _ O2) as [O2' F2].
    cbn [set_difference]. destruct (lt x y) eqn:L; [|destruct (lt y x) eqn:L'].
    + destruct (I1 O1' O2) as (O & E). split.
      * apply ordered_mk; [exact O|]. apply head_le; [apply diff_in|exact F1|]. apply tail_le; [exact O2|]. now apply lt_asym.
      * intros v. rewrite !(alike_cons v x), E. destruct (negb (lt v x) && negb (lt x v)) eqn:Ev; [|reflexivity].
        rewrite (alike_none v x y l2 O2 L Ev). reflexivity.
    + destruct (I2 O1 O2') as (O & E). cbn [set_difference] in O, E. split; [exact O|].
      intros v. rewrite (alike_cons v y). specialize (E v). rewrite E. destruct (negb (lt v y) && negb (lt y v)) eqn:Ev; [|reflexivity].
      rewrite (alike_none v y x l1 O1 L' Ev). now rewrite !skipn_nil.
    + destruct (I3 O1' O2') as (O & E). split; [exact O|].
      intros v. rewrite !(alike_cons v x), (alike_cons v y), <- (alike_same v x y L L').
      destruct (negb (lt v x) && negb (lt x v)) eqn:Ev; rewrite E; reflexivity.
Qed.

(** ** set_symmetric_difference: the surplus of either range *)
Lemma sdiff_nil l2 : set_symmetric_difference lt [] l2 = l2. Proof. destruct l2; reflexivity. Qed.
Lemma sdiff_in : forall l1 l2 z, In z (set_symmetric_difference lt l1 l2) -> In z l1 \/ In z l2.
Proof.
  apply (two_ind (fun l1 l2 => forall z, In z (set_symmetric_difference lt l1 l2) -> In z l1 \/ In z l2)).
  - intros l2 z I. rewrite sdiff_nil in I. auto.
  - intros x l1 z I. left. change (In z ((x :: l1) ++ [])) in I. now rewrite app_nil_r in I.
  - intros x l1 y l2 I1 I2 I3 z I. cbn [set_symmetric_difference] in I. destruct (lt x y); [|destruct (lt y x)].
    + destruct I as [<-|I]; [left; left; reflexivity|]. apply I1 in I. simpl in *; tauto.
    + destruct I as [<-|I]; [right; left; reflexivity|]. apply I2 in I. simpl in *; tauto.
    + apply I3 in I. simpl; tauto.
Qed.
Theorem C73_set_symmetric_difference l1 l2 : ordered lt l1 -> ordered lt l2 ->
  ordered lt (set_symmetric_difference lt l1 l2) /\
  forall v, alike v (set_symmetric_difference lt l1 l2) = skipn (length (alike v l2)) (alike v l1) ++ skipn (length (alike v l1)) (alike v l2).
Proof.
  revert l1 l2. apply (two_ind (fun l1 l2 => ordered lt l1 -> ordered lt l2 -> ordered lt (set_symmetric_difference lt l1 l2) /\
    forall v, alike v (set_symmetric_difference lt l1 l2) = skipn (length (alike v l2)) (alike v l1) ++ skipn (length (alike v l1)) (alike v l2))).
  - intros l2 O1 O2. rewrite sdiff_nil. split; [exact O2|]. intros v. change (alike v []) with (@nil A). now rewrite skipn_nil.
  - intros x l1 O1 O2. change (set_symmetric_difference lt (x :: l1) []) with ((x :: l1) ++ []). rewrite app_nil_r.
    split; [exact O1|]. intros v. change (alike v []) with (@nil A). rewrite skipn_nil, app_nil_r. reflexivity.
  - intros x l1 y l2 I1 I2 I3 O1 O2. pose proof (ordered_inv _ _ O1) as [O1' F1]. pose proof (ordered_inv _ _ O2) as [O2' F2].
    cbn [set_symmetric_difference]. destruct (lt x y) eqn:L; [|destruct (lt y x) eqn:L'].
    + destruct (I1 O1' O2) as (O & E). split.
      * apply ordered_mk; [exact O|]. apply head_le; [apply sdiff_in|exact F1|]. apply tail_le; [exact O2|]. now apply lt_asym.
      * intros v. rewrite !(alike_cons v x), E. destruct (negb (lt v x) && negb (lt x v)) eqn:Ev; [|reflexivity].
        rewrite (alike_none v x y l2 O2 L Ev). now rewrite !skipn_nil.
    + destruct (I2 O1 O2') as (O & E). cbn [set_symmetric_difference] in O, E. split.
      * apply ordered_mk; [exact O|]. apply (head_le (set_symmetric_difference lt) (x :: l1) l2); [apply sdiff_in| |exact F2]. now apply tail_le.
      * intros v. specialize (E v). rewrite !(alike_cons v y). destruct (negb (lt v y) && negb (lt y v)) eqn:Ev; rewrite E; [|reflexivity].
        rewrite (alike_none v y x l1 O1 L' Ev). now rewrite !skipn_nil.
    + destruct (I3 O1' O2') as (O & E). split; [exact O|].
      intros v. rewrite !(alike_cons v x), (alike_cons v y), <- (alike_same v x y L L').
      destruct (negb (lt v x) && negb (lt x v)) eqn:Ev; rewrite E; reflexivity.
Qed.

(** ** includes *)
Theorem C73_includes l1 l2 : ordered lt l1 -> ordered lt l2 ->
  (includes lt l1 l2 = true <-> forall v, (length (alike v l2) <= length (alike v l1))%nat).
Proof.
  revert l1 l2. apply (two_ind (fun l1 l2 => ordered lt l1 -> ordered lt l2 ->
    (includes lt l1 l2 = true <-> forall v, (length (alike v l2) <= length (alike v l1))%nat))).
  - intros l2 O1 O2. destruct l2 as [|y l2].
    + split; [intros _ v; apply le_n|reflexivity].
    + split; [discriminate|]. intros H. specialize (H y). rewrite alike_cons, (sw_irr _ SW) in H. simpl in H. lia.
  - intros x l1 O1 O2. split; [intros _ v; simpl; lia|reflexivity].
  - intros x l1 y l2 I1 I2 I3 O1 O2. pose proof (ordered_inv _ _ O1) as [O1' F1]. pose proof (ordered_inv _ _ O2) as [O2' F2].
    cbn [includes]. destruct (lt y x) eqn:L'; [|destruct (lt x y) eqn:L].
    + split; [discriminate|]. intros H. specialize (H y). assert (Ev : negb (lt y y) && negb (lt y y) = true) by now rewrite (sw_irr _ SW).
      rewrite (alike_none y y x l1 O1 L' Ev), alike_cons, Ev in H. simpl in H. lia.
    + rewrite (I1 O1' O2). split; intros H v; specialize (H v); rewrite (alike_cons v x) in *;
        destruct (negb (lt v x) && negb (lt x v)) eqn:Ev; auto; rewrite (alike_none v x y l2 O2 L Ev) in *; simpl; lia.
    + rewrite (I3 O1' O2'). split; intros H v; specialize (H v); rewrite (alike_cons v x), (alike_cons v y), <- (alike_same v x y L L') in *;
        destruct (negb (lt v x) && negb (lt x v)) eqn:Ev; simpl in *; lia.
Qed.
End Proof.

(** a range of (key, mark) sorted by key: the marks show which elements are taken *)
Open Scope Z_scope.
Definition by_key (x y : Z * Z) : bool := fst x <? fst y.
Lemma by_key_sw : strict_weak by_key.
Proof.
  unfold by_key. constructor.
  - intros x. apply Z.ltb_irrefl.
  - intros x y z. rewrite !Z.ltb_lt. lia.
  - intros x y z. rewrite !Z.ltb_lt. lia.
Qed.
Example C73_example :
  let l1 := [(1, 10); (2, 10); (2, 11); (5, 10)] in let l2 := [(2, 20); (2, 21); (2, 22); (3, 20)] in
  ordered by_key l1 /\ ordered by_key l2 /\
  merge by_key l1 l2 = [(1, 10); (2, 10); (2, 11); (2, 20); (2, 21); (2, 22); (3, 20); (5, 10)] /\
  set_union by_key l1 l2 = [(1, 10); (2, 10); (2, 11); (2, 22); (3, 20); (5, 10)] /\
  set_intersection by_key l1 l2 = [(2, 10); (2, 11)] /\
  set_difference by_key l2 l1 = [(2, 22); (3, 20)] /\
  set_symmetric_difference by_key l1 l2 = [(1, 10); (2, 22); (3, 20); (5, 10)] /\
  includes by_key l1 l2 = false /\ includes by_key l2 [(2, 0); (2, 0); (2, 0)] = true.
Proof. cbv zeta. split; [repeat constructor|]. split; [repeat constructor|]. vm_compute. repeat split. Qed.

Print Assumptions C73_merge.
Print Assumptions C73_set_union.
Print Assumptions C73_set_intersection.
Print Assumptions C73_set_difference.
Print Assumptions C73_set_symmetric_difference.
Print Assumptions C73_includes.
