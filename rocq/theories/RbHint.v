(** Red-black trees in memory: insertion with a hint, and order. *)
From Coq Require Import ZArith List Bool Lia Sorted.
From Verif Require Import F64 SortSpec RbModel RbProof RbErase RbUnlink RbClass RbHold RbSpec RbOps.
Import ListNotations.
Open Scope Z_scope.
Open Scope opt_scope.

Section Proof.
Context {V : Type}.
Notation mem := (@memory V).
Notation nd := (@nd V).
Notation tree := (@tree V).
Notation frame := (@frame V).
Implicit Types (m R : mem) (h p q x y z a : Z) (s c : bool) (v : V) (t l r b : tree) (k : list frame) (e : list (Z * V)) (o : obj).
Context {K : Type} (lt : K -> K -> bool) (key : V -> K).
Hypothesis SW : strict_weak lt.
Notation weakly := (weakly lt key).
Notation strictly := (strictly lt key).
Notation keyof := (keyof key).
Notation added := (added lt key).
Notation has := (has lt key).
Implicit Types (kk : K).

(** ** order *)
Lemma sorted_app {A} (P : A -> A -> Prop) (f1 f2 : list A) : StronglySorted P (f1 ++ f2) <-> StronglySorted P f1 /\ StronglySorted P f2 /\ Forall (fun u => Forall (P u) f2) f1.
Proof.
  induction f1 as [|u f1 IH]; simpl; [split; [intros H; repeat split; auto; constructor|tauto]|]. split.
  - intros H. inversion H as [|? ? H1 H2]; subst. apply IH in H1 as (H3 & H4 & H5). apply Forall_app in H2 as [H6 H7]. split; [constructor; auto|]. split; [auto|]. constructor; auto.
  - intros (H1 & H2 & H3). inversion H1 as [|? ? H4 H5]; subst. inversion H3 as [|? ? H6 H7]; subst. constructor; [apply IH; auto|]. apply Forall_app. auto.
Qed.
Lemma sorted_ins {A} (P : A -> A -> Prop) (f1 f2 : list A) w : StronglySorted P (f1 ++ f2) -> Forall (fun u => P u w) f1 -> Forall (P w) f2 -> StronglySorted P (f1 ++ w :: f2).
Proof.
  intros H F1 F2. apply sorted_app in H as (H1 & H2 & H3). apply sorted_app. split; [exact H1|]. split; [constructor; auto|]. rewrite Forall_forall in *. intros u Hu. constructor; auto.
Qed.
Lemma sorted_del {A} (P : A -> A -> Prop) (f1 f2 : list A) w : StronglySorted P (f1 ++ w :: f2) -> StronglySorted P (f1 ++ f2).
Proof.
  intros H. apply sorted_app in H as (H1 & H2 & H3). apply sorted_app. inversion H2; subst. split; [exact H1|]. split; [auto|]. revert H3. apply Forall_impl. intros u Hu. now inversion Hu.
Qed.
Lemma lt_asym kk1 kk2 : lt kk1 kk2 = true -> lt kk2 kk1 = false.
Proof. intros H. destruct (lt kk2 kk1) eqn:Q; [|reflexivity]. pose proof (sw_trans _ SW _ _ _ H Q) as X. rewrite (sw_irr _ SW) in X. discriminate. Qed.
Lemma le_trans kk1 kk2 kk3 : lt kk2 kk1 = false -> lt kk3 kk2 = false -> lt kk3 kk1 = false.
Proof. intros H1 H2. destruct (lt kk3 kk1) eqn:Q; [|reflexivity]. destruct (sw_neg _ SW _ kk2 _ Q); congruence. Qed.
Lemma lt_le kk1 kk2 kk3 : lt kk1 kk2 = true -> lt kk3 kk2 = false -> lt kk1 kk3 = true.
Proof. intros H1 H2. destruct (sw_neg _ SW _ kk3 _ H1); congruence. Qed.
Lemma le_lt kk1 kk2 kk3 : lt kk2 kk1 = false -> lt kk2 kk3 = true -> lt kk1 kk3 = true.
Proof. intros H1 H2. destruct (sw_neg _ SW _ kk1 _ H2); congruence. Qed.
Lemma split_weak kk e : weakly e -> e = upto lt key kk e ++ above lt key kk e.
Proof.
  unfold upto, above. induction 1 as [|u e H IH F]; simpl; [reflexivity|]. destruct (lt kk (keyof u)) eqn:Q; simpl; [|now rewrite <- IH].
  assert (A : Forall (fun u => lt kk (keyof u) = true) e). { revert F. apply Forall_impl. intros w Q2. exact (lt_le _ _ _ Q Q2). }
  rewrite (filter_none (fun u => negb (lt kk (keyof u)))); [simpl; f_equal; symmetry; now apply filter_all|]. revert A. apply Forall_impl. intros w Q2. now rewrite Q2.
Qed.
Theorem added_weakly a v e : weakly e -> weakly (added a v e).
Proof.
  intros H. unfold RbSpec.added. apply sorted_ins; [rewrite <- split_weak; exact H| |]; apply Forall_forall; intros u Hu; apply filter_In in Hu as [_ Hu].
  - change (lt (key v) (keyof u) = false). now destruct (lt (key v) (keyof u)).
  - apply lt_asym. exact Hu.
Qed.
Theorem added_strictly a v e : strictly e -> has (key v) e = false -> strictly (added a v e).
Proof.
  intros H Q. unfold RbSpec.added. apply sorted_ins; [rewrite <- split_weak by (now apply strictly_weakly); exact H| |]; apply Forall_forall; intros u Hu; apply filter_In in Hu as [Hu1 Hu].
  - apply has_false in Q. rewrite Forall_forall in Q. specialize (Q u Hu1). unfold equiv in Q. rewrite Hu, andb_true_r in Q. change (lt (keyof u) (key v) = true). now destruct (lt (keyof u) (key v)).
  - exact Hu.
Qed.
Lemma added_at a v f1 f2 : Forall (fun u => lt (keyof u) (key v) = true) f1 -> Forall (fun u => lt (key v) (keyof u) = true) f2 ->
  added a v (f1 ++ f2) = f1 ++ (a, v) :: f2 /\ has (key v) (f1 ++ f2) = false.
Proof.
  intros F1 F2. split.
  - unfold RbSpec.added, upto, above. rewrite !filter_app. rewrite (filter_all _ f1), (filter_none _ f2), (filter_none _ f1), (filter_all _ f2); [now rewrite app_nil_r|exact F2| | |]; [revert F1|revert F2|revert F1]; apply Forall_impl; intros u Q.
    + now apply lt_asym.
    + now rewrite Q.
    + now rewrite (lt_asym _ _ Q).
  - apply has_false. apply Forall_app. split; [revert F1|revert F2]; apply Forall_impl; intros u Q; unfold equiv; rewrite Q; [reflexivity|]. apply andb_false_r.
Qed.
Lemma below_last kk f1 u : strictly (f1 ++ [u]) -> lt (keyof u) kk = true -> Forall (fun u => lt (keyof u) kk = true) (f1 ++ [u]).
Proof.
  intros H Q. apply sorted_app in H as (_ & _ & H). apply Forall_app. split; [|auto]. revert H. apply Forall_impl. intros w Hw. inversion Hw; subst. now apply (sw_trans _ SW _ (keyof u)).
Qed.
Lemma above_first kk f2 u : strictly (u :: f2) -> lt kk (keyof u) = true -> Forall (fun u => lt kk (keyof u) = true) (u :: f2).
Proof.
  intros H Q. inversion H; subst. constructor; [exact Q|]. revert H3. apply Forall_impl. intros w Hw. now apply (sw_trans _ SW _ (keyof u)).
Qed.
Lemma upto_last kk f1 u : weakly (f1 ++ [u]) -> lt kk (keyof u) = false -> Forall (fun u => lt kk (keyof u) = false) (f1 ++ [u]).
Proof.
  intros H Q. apply sorted_app in H as (_ & _ & H). apply Forall_app. split; [|auto]. revert H. apply Forall_impl. intros w Hw. inversion Hw; subst. now apply (le_trans _ (keyof u)).
Qed.
Lemma since_first kk f2 u : weakly (u :: f2) -> lt (keyof u) kk = false -> Forall (fun u => lt (keyof u) kk = false) (u :: f2).
Proof.
  intros H Q. inversion H; subst. constructor; [exact Q|]. revert H3. apply Forall_impl. intros w Hw. now apply (le_trans _ (keyof u)).
Qed.

(** ** the places beside a node *)
Lemma place_before m R h lm rm t e1 x v e2 : W m R h lm rm [] t -> nodes t = e1 ++ (x, v) :: e2 ->
  exists n, get m x = Some n /\ (lft n = 0 -> exists k, plug k E = t /\ up h k = x /\ side k = true /\ lefts k = e1 /\ rights k = (x, v) :: e2) /\ (e1 = [] -> lft n = 0).
Proof.
  intros H Hn. destruct (find_ctx x v t e1 e2 Hn) as (k & c & l & r & Ht & -> & ->). subst t. apply W_plug in H. destruct (W_node _ _ _ _ _ _ H) as (G & _). eexists. split; [exact G|]. cbn [lft].
  assert (T0 : rt l = 0 -> l = E). { intros Q. destruct l as [|a' c' l' v' r']; [reflexivity|]. cbn [rt] in Q. subst a'. pose proof (W_1 _ _ _ _ _ _ _ H 0) as D. cbn [tc] in D. rewrite one_refl in D. lia. }
  split.
  - intros Q. apply T0 in Q. subst l. exists (F true x c v r :: k). cbn [plug mk up side lefts rights nodes]. rewrite app_nil_r. auto.
  - intros Q. apply app_eq_nil in Q as [_ Q]. apply nodes_nil in Q. subst l. reflexivity.
Qed.
Lemma place_after m R h lm rm t e1 x v e2 : W m R h lm rm [] t -> nodes t = e1 ++ (x, v) :: e2 ->
  exists n, get m x = Some n /\ (rgt n = 0 -> exists k, plug k E = t /\ up h k = x /\ side k = false /\ lefts k = e1 ++ [(x, v)] /\ rights k = e2) /\ (e2 = [] -> rgt n = 0).
Proof.
  intros H Hn. destruct (find_ctx x v t e1 e2 Hn) as (k & c & l & r & Ht & -> & ->). subst t. apply W_plug in H. destruct (W_node _ _ _ _ _ _ H) as (G & _). eexists. split; [exact G|]. cbn [rgt].
  assert (T0 : rt r = 0 -> r = E). { intros Q. destruct r as [|a' c' l' v' r']; [reflexivity|]. cbn [rt] in Q. subst a'. pose proof (W_1 _ _ _ _ _ _ _ H 0) as D. cbn [tc] in D. rewrite one_refl in D. lia. }
  split.
  - intros Q. apply T0 in Q. subst r. exists (F false x c v l :: k). cbn [plug mk up side lefts rights nodes app]. rewrite <- app_assoc. auto.
  - intros Q. apply app_eq_nil in Q as [Q _]. apply nodes_nil in Q. subst r. reflexivity.
Qed.
Lemma dec_at m R o e t e1 x v e2 : W m R (hdr o) (first (hdr o) e) (final (hdr o) e) [] t -> nodes t = e -> rbtree t -> cnt o = length e -> e = e1 ++ (x, v) :: e2 -> e1 <> [] ->
  dec (fuel_of o) m x = Some (final (hdr o) e1).
Proof.
  intros H Hn B Hc Ee E1. destruct (find_ctx x v t e1 e2 (eq_trans Hn Ee)) as (k & c & l & r & Ht & L1 & L2). subst t. rewrite L1. pose proof H as H'. apply W_plug in H'. apply (dec_ok (fuel_of o) m k x c l v r H').
  - intros ->. simpl in B. destruct B as [B _]. destruct c; [reflexivity|discriminate].
  - now rewrite <- L1.
  - rewrite Hn. unfold fuel_of. rewrite Hc. lia.
Qed.
(** no address occurs twice *)
Lemma W_distinct m R h lm rm t z : W m R h lm rm [] t -> (one h z + ac z (nodes t) <= 1)%nat.
Proof. intros H. pose proof (W_1 _ _ _ _ _ _ _ H z) as D. rewrite ac_tc. cbn [kc] in D. lia. Qed.

Theorem emplace_unique_hint_ok m R o e1 e2 a v : let e := e1 ++ e2 in holds m R o e -> strictly e -> a <> 0 -> m a = None ->
  exists m' o' p, emplace_unique_hint lt key m o a v (head (hdr o) e2) = Some (m', o', p) /\ hdr o' = hdr o /\
    holds m' R o' (if has (key v) e then e else added a v e) /\ (has (key v) e = false -> p = a).
Proof.
  intros e (t & H & Hn & B & Hc & HR) S A0 Ha. unfold emplace_unique_hint. rewrite create_eq by assumption. cbn [obind]. cbv zeta.
  pose proof (W_create _ _ _ _ _ _ a (fresh_node v) H Ha) as H1. set (m1 := put m a (fresh_node v)) in *.
  assert (BP : exists m' o' p, (let* (p, ok) := unique_pos lt key m1 o (key v) in
    if ok then let* (m, o) := insert_node_at m1 o (fst p) a (snd p) in Some (m, o, a) else let* m := destroy m1 a in Some (m, o, fst p)) = Some (m', o', p) /\ hdr o' = hdr o /\
    holds m' R o' (if has (key v) e then e else added a v e) /\ (has (key v) e = false -> p = a)).
  { destruct (unique_pos_ok lt key SW _ _ o e t (key v) H1 Hn B Hc S) as (k & b & E1 & Hk & Hb & L1 & L2). rewrite E1. cbn [obind fst snd]. destruct (has (key v) e) eqn:Q; cbn [negb].
    - destruct (destroy_back _ _ _ _ _ _ a v H A0 Ha) as (m' & E2 & H2). unfold m1. rewrite E2. cbn [obind]. exists m', o, (up (hdr o) k). split; [reflexivity|]. split; [reflexivity|]. split; [|discriminate]. exists t. auto.
    - destruct (insert_core m R o e k a v b t) as (m' & o' & E2 & Ho & H2); auto. unfold m1. rewrite E2. cbn [obind]. exists m', o', a. split; [reflexivity|]. split; [exact Ho|]. split; [|auto]. unfold RbSpec.added. rewrite <- L1, <- L2. exact H2. }
  assert (PL : forall k left_, plug k E = t -> (k <> [] -> left_ = side k) -> Forall (fun u => lt (keyof u) (key v) = true) (lefts k) -> Forall (fun u => lt (key v) (keyof u) = true) (rights k) ->
    exists m' o' p, (let* (m, o) := insert_node_at m1 o (up (hdr o) k) a left_ in Some (m, o, a)) = Some (m', o', p) /\ hdr o' = hdr o /\
    holds m' R o' (if has (key v) e then e else added a v e) /\ (has (key v) e = false -> p = a)).
  { intros k left_ Hk Hs F1 F2. destruct (insert_core m R o e k a v left_ t) as (m' & o' & E2 & Ho & H2); auto. unfold m1. rewrite E2. cbn [obind]. exists m', o', a. split; [reflexivity|]. split; [exact Ho|]. split; [|auto].
    assert (Ee : e = lefts k ++ rights k) by (rewrite <- Hn, <- Hk, plug_nodes; reflexivity). rewrite Ee. destruct (added_at a v _ _ F1 F2) as [-> ->]. exact H2. }
  rewrite Hc. destruct e2 as [|[x w] e2].
  - cbn [head]. unfold e in *. rewrite app_nil_r in *. assert (C : e1 = [] \/ e1 <> []) by (destruct e1; [auto|right; discriminate]). destruct C as [->|N0].
    + cbn [length Nat.eqb]. apply nodes_nil in Hn. subst t. apply (PL [] true); [reflexivity|congruence|constructor|constructor].
    + replace (length e1 =? 0)%nat with false by (destruct e1; [congruence|reflexivity]).
      unfold begin. rewrite (W_hdr _ _ H1). cbn [obind lft rgt]. pose proof (W_distinct _ _ _ _ _ _ (hdr o) H) as D. rewrite Hn, one_refl in D. pose proof (@first_in V (hdr o) e1 N0) as I.
      assert (Qf : hdr o <> first (hdr o) e1) by (intros Q; rewrite <- Q in I; lia). rewrite (proj2 (Z.eqb_neq _ _) Qf). unfold end_. rewrite Z.eqb_refl.
      destruct (final_split (hdr o) e1 N0) as (d & w & Ed). set (j := final (hdr o) e1) in *. 
      rewrite (keyat_in key _ _ _ _ _ _ d j w [] H1) by (rewrite Hn; exact Ed). cbn [obind]. destruct (lt (key w) (key v)) eqn:Q; [|exact BP].
      destruct (place_after _ _ _ _ _ _ d j w [] H1) as (n & Gn & P1 & P2); [rewrite Hn; exact Ed|]. destruct (P1 (P2 eq_refl)) as (k & K1 & K2 & K3 & K4 & K5). assert (X := PL k (side k) K1 (fun _ => eq_refl)). rewrite K2, K3, K4, K5 in X. apply X.
      * apply (below_last (key v) d (j, w)); [rewrite <- Ed; exact S|exact Q].
      * constructor.
  - cbn [head]. replace (length e =? 0)%nat with false by (unfold e; rewrite app_length; simpl; symmetry; apply Nat.eqb_neq; lia).
    unfold begin. rewrite (W_hdr _ _ H1). cbn [obind lft].
    pose proof (W_distinct _ _ _ _ _ _ x H) as D. rewrite Hn in D. unfold e in D. rewrite ac_app in D. cbn [ac] in D. rewrite one_refl in D.
    assert (XH : x <> hdr o) by (intros Q; rewrite Q, one_refl in D; lia).
    rewrite (keyat_in key _ _ _ _ _ _ e1 x w e2 H1) by (rewrite Hn; reflexivity). cbn [obind].
    assert (S1 : strictly e1 /\ strictly ((x, w) :: e2)) by (apply sorted_app in S as (S1 & S2 & _); auto). destruct S1 as [S1 S2].
    assert (C : e1 = [] \/ e1 <> []) by (destruct e1; [auto|right; discriminate]). destruct C as [->|N0].
    + unfold e. cbn [app first]. rewrite Z.eqb_refl. destruct (lt (key v) (key w)) eqn:Q; [|exact BP].
      destruct (place_before _ _ _ _ _ _ [] x w e2 H1) as (n & Gn & P1 & P2); [rewrite Hn; reflexivity|]. destruct (P1 (P2 eq_refl)) as (k & K1 & K2 & K3 & K4 & K5). assert (X := PL k (side k) K1 (fun _ => eq_refl)). rewrite K2, K3, K4, K5 in X. apply X.
      * constructor.
      * now apply above_first.
    + 
            assert (Qf : x <> first (hdr o) e). { unfold e. rewrite (first_app _ (hdr o)) by exact N0. pose proof (@first_in V (hdr o) e1 N0) as I. intros Q. rewrite <- Q in I. lia. }
      rewrite (proj2 (Z.eqb_neq _ _) Qf). unfold end_. rewrite (proj2 (Z.eqb_neq _ _) XH).
      rewrite (dec_at _ _ o e t e1 x w e2 H1 Hn B Hc eq_refl N0). cbn [obind].
      destruct (final_split (hdr o) e1 N0) as (d & u1 & Ed). set (j := final (hdr o) e1) in *.
      assert (Ej : e = d ++ (j, u1) :: (x, w) :: e2) by (unfold e; rewrite Ed, <- app_assoc; reflexivity).
      rewrite (keyat_in key _ _ _ _ _ _ d j u1 _ H1) by (rewrite Hn; exact Ej). cbn [obind].
      destruct (place_after _ _ _ _ _ _ d j u1 _ H1 (eq_trans Hn Ej)) as (nb & Gb & P1 & _). destruct (place_before _ _ _ _ _ _ e1 x w e2 H1 Hn) as (nh & Gh & P2 & _). rewrite Gb. cbn [obind]. rewrite Gh. cbn [obind].
      destruct (lt (key u1) (key v)) eqn:Q1; cbn [andb]; [|exact BP]. destruct (lt (key v) (key w)) eqn:Q2; [|exact BP].
      assert (F1 : Forall (fun u => lt (keyof u) (key v) = true) e1) by (rewrite Ed; apply (below_last (key v) d (j, u1)); [rewrite <- Ed; exact S1|exact Q1]).
      assert (F2 : Forall (fun u => lt (key v) (keyof u) = true) ((x, w) :: e2)) by (now apply above_first).
      destruct (Z.eqb_spec (rgt nb) 0) as [C1|C1]; [|destruct (Z.eqb_spec (lft nh) 0) as [C2|C2]; [|exact BP]].
      * destruct (P1 C1) as (k & K1 & K2 & K3 & K4 & K5). assert (X := PL k (side k) K1 (fun _ => eq_refl)). rewrite K2, K3, K4, K5 in X. apply X; [rewrite <- Ed; exact F1|exact F2].
      * destruct (P2 C2) as (k & K1 & K2 & K3 & K4 & K5). assert (X := PL k (side k) K1 (fun _ => eq_refl)). rewrite K2, K3, K4, K5 in X. apply X; [exact F1|exact F2].
Qed.

(** equal keys are allowed: somewhere, and the order is kept *)
Theorem emplace_multi_hint_ok m R o e1 e2 a v : let e := e1 ++ e2 in holds m R o e -> weakly e -> a <> 0 -> m a = None ->
  exists m' o' f1 f2, emplace_multi_hint lt key m o a v (head (hdr o) e2) = Some (m', o', a) /\ hdr o' = hdr o /\
    e = f1 ++ f2 /\ holds m' R o' (f1 ++ (a, v) :: f2) /\ weakly (f1 ++ (a, v) :: f2).
Proof.
  intros e (t & H & Hn & B & Hc & HR) S A0 Ha. unfold emplace_multi_hint. rewrite create_eq by assumption. cbn [obind]. cbv zeta.
  pose proof (W_create _ _ _ _ _ _ a (fresh_node v) H Ha) as H1. set (m1 := put m a (fresh_node v)) in *.
  assert (PL : forall k left_, plug k E = t -> (k <> [] -> left_ = side k) -> Forall (fun u => lt (key v) (keyof u) = false) (lefts k) -> Forall (fun u => lt (keyof u) (key v) = false) (rights k) ->
    exists m' o' f1 f2, (let* (m, o) := insert_node_at m1 o (up (hdr o) k) a left_ in Some (m, o, a)) = Some (m', o', a) /\ hdr o' = hdr o /\
    e = f1 ++ f2 /\ holds m' R o' (f1 ++ (a, v) :: f2) /\ weakly (f1 ++ (a, v) :: f2)).
  { intros k left_ Hk Hs F1 F2. destruct (insert_core m R o e k a v left_ t) as (m' & o' & E2 & Ho & H2); auto. unfold m1. rewrite E2. cbn [obind]. exists m', o', (lefts k), (rights k). split; [reflexivity|]. split; [exact Ho|].
    assert (Ee : e = lefts k ++ rights k) by (rewrite <- Hn, <- Hk, plug_nodes; reflexivity). split; [exact Ee|]. split; [exact H2|]. rewrite Ee in S. apply sorted_ins; assumption. }
  assert (BP : exists m' o' f1 f2, (let* (y, l) := multi_pos lt key m1 o (key v) in let* (m, o) := insert_node_at m1 o y a l in Some (m, o, a)) = Some (m', o', a) /\ hdr o' = hdr o /\
    e = f1 ++ f2 /\ holds m' R o' (f1 ++ (a, v) :: f2) /\ weakly (f1 ++ (a, v) :: f2)).
  { destruct (multi_pos_ok lt key SW _ _ o e t (key v) H1 Hn Hc S) as (k & E1 & Hk & L1 & L2). rewrite E1. cbn [obind]. apply (PL k (side k) Hk); [auto| |].
    - rewrite L1. apply Forall_forall. intros u Hu. apply filter_In in Hu as [_ Hu]. apply negb_true_iff in Hu. exact Hu.
    - rewrite L2. apply Forall_forall. intros u Hu. apply filter_In in Hu as [_ Hu]. now apply lt_asym. }
  rewrite Hc. destruct e2 as [|[x w] e2].
  - cbn [head]. unfold e in *. rewrite app_nil_r in *. assert (C : e1 = [] \/ e1 <> []) by (destruct e1; [auto|right; discriminate]). destruct C as [->|N0].
    + cbn [length Nat.eqb]. apply nodes_nil in Hn. subst t. apply (PL [] true); [reflexivity|congruence|constructor|constructor].
    + replace (length e1 =? 0)%nat with false by (destruct e1; [congruence|reflexivity]).
      unfold begin. rewrite (W_hdr _ _ H1). cbn [obind lft rgt]. pose proof (W_distinct _ _ _ _ _ _ (hdr o) H) as D. rewrite Hn, one_refl in D. pose proof (@first_in V (hdr o) e1 N0) as I.
      assert (Qf : hdr o <> first (hdr o) e1) by (intros Q; rewrite <- Q in I; lia). rewrite (proj2 (Z.eqb_neq _ _) Qf). unfold end_. rewrite Z.eqb_refl.
      destruct (final_split (hdr o) e1 N0) as (d & w & Ed). set (j := final (hdr o) e1) in *. 
      rewrite (keyat_in key _ _ _ _ _ _ d j w [] H1) by (rewrite Hn; exact Ed). cbn [obind]. destruct (lt (key v) (key w)) eqn:Q; cbn [negb]; [exact BP|].
      destruct (place_after _ _ _ _ _ _ d j w [] H1) as (n & Gn & P1 & P2); [rewrite Hn; exact Ed|]. destruct (P1 (P2 eq_refl)) as (k & K1 & K2 & K3 & K4 & K5). assert (X := PL k (side k) K1 (fun _ => eq_refl)). rewrite K2, K3, K4, K5 in X. apply X.
      * apply (upto_last (key v) d (j, w)); [rewrite <- Ed; exact S|exact Q].
      * constructor.
  - cbn [head]. replace (length e =? 0)%nat with false by (unfold e; rewrite app_length; simpl; symmetry; apply Nat.eqb_neq; lia).
    unfold begin. rewrite (W_hdr _ _ H1). cbn [obind lft].
    pose proof (W_distinct _ _ _ _ _ _ x H) as D. rewrite Hn in D. unfold e in D. rewrite ac_app in D. cbn [ac] in D. rewrite one_refl in D.
    assert (XH : x <> hdr o) by (intros Q; rewrite Q, one_refl in D; lia).
    rewrite (keyat_in key _ _ _ _ _ _ e1 x w e2 H1) by (rewrite Hn; reflexivity). cbn [obind].
    assert (S1 : weakly e1 /\ weakly ((x, w) :: e2)) by (apply sorted_app in S as (S1 & S2 & _); auto). destruct S1 as [S1 S2].
    assert (C : e1 = [] \/ e1 <> []) by (destruct e1; [auto|right; discriminate]). destruct C as [->|N0].
    + unfold e. cbn [app first]. rewrite Z.eqb_refl. destruct (lt (key v) (key w)) eqn:Q; [|exact BP].
      destruct (place_before _ _ _ _ _ _ [] x w e2 H1) as (n & Gn & P1 & P2); [rewrite Hn; reflexivity|]. destruct (P1 (P2 eq_refl)) as (k & K1 & K2 & K3 & K4 & K5). assert (X := PL k (side k) K1 (fun _ => eq_refl)). rewrite K2, K3, K4, K5 in X. apply X.
      * constructor.
      * apply since_first; [exact S2|now apply lt_asym].
    + assert (Qf : x <> first (hdr o) e). { unfold e. rewrite (first_app _ (hdr o)) by exact N0. pose proof (@first_in V (hdr o) e1 N0) as I. intros Q. rewrite <- Q in I. lia. }
      rewrite (proj2 (Z.eqb_neq _ _) Qf). unfold end_. rewrite (proj2 (Z.eqb_neq _ _) XH).
      rewrite (dec_at _ _ o e t e1 x w e2 H1 Hn B Hc eq_refl N0). cbn [obind].
      destruct (final_split (hdr o) e1 N0) as (d & u1 & Ed). set (j := final (hdr o) e1) in *.
      assert (Ej : e = d ++ (j, u1) :: (x, w) :: e2) by (unfold e; rewrite Ed, <- app_assoc; reflexivity).
      rewrite (keyat_in key _ _ _ _ _ _ d j u1 _ H1) by (rewrite Hn; exact Ej). cbn [obind].
      destruct (place_after _ _ _ _ _ _ d j u1 _ H1 (eq_trans Hn Ej)) as (nb & Gb & P1 & _). destruct (place_before _ _ _ _ _ _ e1 x w e2 H1 Hn) as (nh & Gh & P2 & _). rewrite Gb. cbn [obind]. rewrite Gh. cbn [obind].
      destruct (lt (key v) (key u1)) eqn:Q1; cbn [andb negb]; [exact BP|]. destruct (lt (key w) (key v)) eqn:Q2; cbn [negb]; [exact BP|].
      assert (F1 : Forall (fun u => lt (key v) (keyof u) = false) e1) by (rewrite Ed; apply (upto_last (key v) d (j, u1)); [rewrite <- Ed; exact S1|exact Q1]).
      assert (F2 : Forall (fun u => lt (keyof u) (key v) = false) ((x, w) :: e2)) by (now apply since_first).
      destruct (Z.eqb_spec (rgt nb) 0) as [C1|C1]; [|destruct (Z.eqb_spec (lft nh) 0) as [C2|C2]; [|exact BP]].
      * destruct (P1 C1) as (k & K1 & K2 & K3 & K4 & K5). assert (X := PL k (side k) K1 (fun _ => eq_refl)). rewrite K2, K3, K4, K5 in X. apply X; [rewrite <- Ed; exact F1|exact F2].
      * destruct (P2 C2) as (k & K1 & K2 & K3 & K4 & K5). assert (X := PL k (side k) K1 (fun _ => eq_refl)). rewrite K2, K3, K4, K5 in X. apply X; [exact F1|exact F2].
Qed.
End Proof.
