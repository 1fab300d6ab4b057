(** Permutations in lexicographic order (C76) *)
From Coq Require Import ZArith List Bool Lia Permutation Sorted.
From Verif Require Import F64 ArrModel ArrLib SortSpec RotModel RotProof SetProps PermModel MergeProps.
Import ListNotations.
Open Scope Z_scope.

(** lexicographic order: the sequences agree (up to equivalence) before the place that decides *)
Inductive lexlt {A} (lt : A -> A -> bool) : list A -> list A -> Prop :=
| lex_end y r : lexlt lt [] (y :: r)
| lex_lt x y r1 r2 : lt x y = true -> lexlt lt (x :: r1) (y :: r2)
| lex_eq x y r1 r2 : lt x y = false -> lt y x = false -> lexlt lt r1 r2 -> lexlt lt (x :: r1) (y :: r2).

Definition flip {A} (lt : A -> A -> bool) (x y : A) := lt y x.

Section Proof.
Context {A : Type} (lt : A -> A -> bool) (SW : strict_weak lt).
Implicit Types (a p l s d e r : list A) (x y v u w z : A).
Notation alike := (alike lt).
Notation lexlt := (lexlt lt).

(** C76: lexicographical_compare decides this order *)
Theorem C76_lexicographical_compare l1 l2 : lexicographical_compare lt l1 l2 = true <-> lexlt l1 l2.
Proof.
  revert l2. induction l1 as [|x l1 IH]; intros [|y l2]; simpl.
  - split; [discriminate|intros H; inversion H].
  - split; [constructor|reflexivity].
  - split; [discriminate|intros H; inversion H].
  - destruct (lt x y) eqn:E1; [split; [now constructor|reflexivity]|]. destruct (lt y x) eqn:E2.
    + split; [discriminate|]. intros H; inversion H; congruence.
    + rewrite IH. split; [now constructor|]. intros H; inversion H; subst; [congruence|assumption].
Qed.
(** C76: it is a strict weak order again, so that sequences can be sorted and searched in turn *)
Theorem C76_lexicographical_compare_strict_weak : strict_weak (lexicographical_compare lt).
Proof.
  constructor.
  - induction x as [|x l IH]; simpl; [reflexivity|]. now rewrite (sw_irr _ SW).
  - induction x as [|x l IH]; intros [|y m] [|z k]; simpl; try discriminate; auto.
    destruct (lt x y) eqn:E1.
    + intros _. destruct (lt y z) eqn:E2.
      * now rewrite (sw_trans _ SW _ _ _ E1 E2).
      * destruct (lt z y) eqn:E3; [discriminate|]. now rewrite (lt_le_tr lt SW x y z E1 E3).
    + destruct (lt y x) eqn:E1'; [discriminate|]. intros H1. destruct (lt y z) eqn:E2.
      * intros _. now rewrite (le_lt_tr lt SW x y z E1' E2).
      * destruct (lt z y) eqn:E2'; [discriminate|]. intros H2.
        rewrite (le_tr lt SW z y x E2 E1), (le_tr lt SW x y z E1' E2'). now apply IH with m.
  - induction x as [|x l IH]; intros [|y m] [|z k]; simpl; try discriminate; auto.
    destruct (lt x z) eqn:E.
    + intros _. destruct (sw_neg _ SW _ y _ E) as [->| ->]; auto.
    + destruct (lt z x) eqn:E'; [discriminate|]. intros H. destruct (lt x y) eqn:E1; [now left|]. destruct (lt y x) eqn:E1'.
      * right. now rewrite (lt_le_tr lt SW y x z E1' E').
      * destruct (lt y z) eqn:E2; [now right|]. rewrite (le_tr lt SW y x z E1 E'). auto.
Qed.

(** how many elements are equivalent to v *)
Definition cnt v l : nat := length (alike v l).
Lemma cnt_cons v x l : cnt v (x :: l) = ((if negb (lt v x) && negb (lt x v) then 1 else 0) + cnt v l)%nat.
Proof. unfold cnt. rewrite alike_cons. destruct (negb (lt v x) && negb (lt x v)); reflexivity. Qed.
Lemma cnt_app v l1 l2 : cnt v (l1 ++ l2) = (cnt v l1 + cnt v l2)%nat.
Proof. unfold cnt. now rewrite alike_app, app_length. Qed.
Lemma cnt_perm v l1 l2 : Permutation l1 l2 -> cnt v l1 = cnt v l2.
Proof. induction 1; rewrite ?cnt_cons; lia. Qed.
Lemma cnt_in z l : In z l -> (1 <= cnt z l)%nat.
Proof.
  intros I. unfold cnt. assert (J : In z (alike z l)) by (apply alike_in; split; [exact I|]; split; apply (sw_irr _ SW)).
  destruct (alike z l); [destruct J|simpl; lia].
Qed.
Lemma cnt_ex z l : (1 <= cnt z l)%nat -> exists w, In w l /\ lt z w = false /\ lt w z = false.
Proof. unfold cnt. intros H. destruct (alike z l) as [|w m] eqn:E; [simpl in H; lia|]. exists w. apply alike_in. rewrite E. left; reflexivity. Qed.
Definition eqs l l' : Prop := forall v, cnt v l = cnt v l'.
Lemma eqs_cons x y l l' : lt x y = false -> lt y x = false -> (eqs (x :: l) (y :: l') <-> eqs l l').
Proof.
  intros H1 H2. unfold eqs. split; intros H v; specialize (H v); rewrite !cnt_cons in *; rewrite (alike_same lt SW v x y H1 H2) in *; lia.
Qed.
Lemma eqs_ex l l' z : eqs l l' -> In z l -> exists w, In w l' /\ lt z w = false /\ lt w z = false.
Proof. intros E I. apply cnt_ex. rewrite <- E. now apply cnt_in. Qed.
Lemma eqs_nil l : eqs [] l -> l = [].
Proof. intros E. destruct l as [|z l]; [reflexivity|]. specialize (E z). pose proof (cnt_in z (z :: l) (or_introl eq_refl)). unfold cnt at 1 in E. simpl in E. lia. Qed.
Lemma eqs_sym l l' : eqs l l' -> eqs l' l.
Proof. intros E v. symmetry. apply E. Qed.

(** no element is greater than an earlier one *)
Definition desc l : Prop := StronglySorted (fun x y => lt x y = false) l.
(** a descending sequence is the greatest of its arrangements, an ascending one the least *)
Lemma desc_max d : forall e, desc d -> eqs d e -> ~ lexlt d e.
Proof.
  induction d as [|u d IH]; intros e D E L.
  - rewrite (eqs_nil _ E) in L. inversion L.
  - inversion D as [|? ? D' F]; subst. rewrite Forall_forall in F. inversion L as [|? z ? e' G|? z ? e' G1 G2 L']; subst.
    + destruct (eqs_ex _ _ z (eqs_sym _ _ E)) as (w & [<-|I] & W1 & W2); [left; reflexivity|congruence|].
      specialize (F w I). assert (lt u z = false) by exact (le_tr lt SW z w u W2 F). congruence.
    + apply (IH e' D'); [|exact L']. now apply (eqs_cons u z).
Qed.
Lemma asc_min d : forall e, ordered lt d -> eqs d e -> ~ lexlt e d.
Proof.
  induction d as [|u d IH]; intros e D E L.
  - inversion L.
  - inversion D as [|? ? D' F]; subst. rewrite Forall_forall in F. inversion L as [|z ? e' ? G|z ? e' ? G1 G2 L']; subst.
    + apply eqs_sym in E. apply eqs_nil in E. discriminate E.
    + destruct (eqs_ex _ _ z (eqs_sym _ _ E)) as (w & [<-|I] & W1 & W2); [left; reflexivity|congruence|].
      specialize (F w I). assert (lt z u = false) by exact (le_tr lt SW u w z F W1). congruence.
    + apply (IH e' D'); [|exact L']. now apply (eqs_cons u z).
Qed.

Lemma desc_app l1 l2 : desc (l1 ++ l2) <-> desc l1 /\ desc l2 /\ forall x y, In x l1 -> In y l2 -> lt x y = false.
Proof.
  induction l1 as [|u l1 IH]; simpl.
  - split; [intros O; split; [constructor|split; [exact O|tauto]]|tauto].
  - split.
    + intros O. inversion O as [|? ? O' F]; subst. apply IH in O' as (O1 & O2 & C). rewrite Forall_forall in F. split.
      * constructor; [exact O1|]. rewrite Forall_forall. intros z I. apply F. apply in_or_app; auto.
      * split; [exact O2|]. intros x y [<-|I] J; [apply F; apply in_or_app; auto|auto].
    + intros (O1 & O2 & C). inversion O1 as [|? ? O1' F]; subst. rewrite Forall_forall in F. constructor.
      * apply IH. split; [exact O1'|]. split; [exact O2|]. auto.
      * rewrite Forall_forall. intros z I. apply in_app_or in I as [I|I]; auto.
Qed.
Lemma desc_rev d : desc d -> ordered lt (rev d).
Proof.
  induction d as [|u d IH]; intros D; simpl; [constructor|]. inversion D as [|? ? D' F]; subst. rewrite Forall_forall in F.
  apply ordered_app. split; [now apply IH|]. split; [constructor; constructor|]. intros x y I [<-|[]]. apply F. now apply in_rev.
Qed.

(** r is the next arrangement of l: greater, and no arrangement lies between *)
Definition next_of l r : Prop := lexlt l r /\ Permutation l r /\ forall m, Permutation l m -> lexlt l m -> ~ lexlt m r.

Lemma lex_app a0 l1 l2 : lexlt l1 l2 -> lexlt (a0 ++ l1) (a0 ++ l2).
Proof. induction a0 as [|u a0 IH]; intros H; simpl; [exact H|]. apply lex_eq; auto; apply (sw_irr _ SW). Qed.

Lemma next_core a0 x d1 y d2 : desc (d1 ++ y :: d2) -> lt x y = true -> (forall z, In z d2 -> lt x z = false) ->
  next_of (a0 ++ x :: d1 ++ y :: d2) (a0 ++ y :: rev (d1 ++ x :: d2)).
Proof.
  intros D L H2. pose proof D as D'. apply desc_app in D' as (Dd1 & Dy & C). inversion Dy as [|? ? Dd2 Fy]; subst. rewrite Forall_forall in Fy.
  assert (De : desc (d1 ++ x :: d2)).
  { apply desc_app. split; [exact Dd1|]. split.
    - constructor; [exact Dd2|]. rewrite Forall_forall. exact H2.
    - intros u z Iu [<-|Iz]; [|apply C; [exact Iu|right; exact Iz]].
      assert (B : lt u y = false) by (apply C; [exact Iu|left; reflexivity]).
      destruct (lt u x) eqn:E; [|reflexivity]. pose proof (sw_trans _ SW _ _ _ E L). congruence. }
  assert (PP : Permutation (x :: d1 ++ y :: d2) (y :: rev (d1 ++ x :: d2))).
  { apply perm_trans with (y :: x :: d1 ++ d2).
    - apply perm_trans with (x :: y :: d1 ++ d2); [|apply perm_swap]. constructor. symmetry. apply Permutation_middle.
    - constructor. apply perm_trans with (d1 ++ x :: d2); [apply Permutation_middle|apply Permutation_rev]. }
  split; [|split].
  - apply lex_app. now apply lex_lt.
  - now apply Permutation_app_head.
  - intros m Pm L1 L2.
    assert (E : eqs (a0 ++ x :: d1 ++ y :: d2) m) by (intros v; now apply cnt_perm). clear Pm.
    revert m E L1 L2. induction a0 as [|u a0 IH]; intros m E L1 L2; simpl in *.
    + assert (Em : exists z e, m = z :: e). { inversion L1; eauto. }
      destruct Em as (z & e & ->).
      inversion L1 as [|? ? ? ? G|? ? ? ? G1 G2 L1']; subst.
      * (* x < z *) inversion L2 as [|? ? ? ? G'|? ? ? ? G1' G2' L2']; subst.
        -- (* z < y: no element lies strictly between *)
           destruct (eqs_ex _ _ z (eqs_sym _ _ E)) as (w & I & W1 & W2); [left; reflexivity|].
           assert (Xw : lt x w = true) by exact (lt_le_tr lt SW x z w G W2).
           assert (Wy : lt w y = true) by exact (le_lt_tr lt SW w z y W1 G').
           destruct I as [<-|I]; [rewrite (sw_irr _ SW) in Xw; discriminate|]. apply in_app_or in I as [I|[<-|I]].
           ++ rewrite (C w y I (or_introl eq_refl)) in Wy. discriminate.
           ++ rewrite (sw_irr _ SW) in Wy. discriminate.
           ++ rewrite (H2 w I) in Xw. discriminate.
        -- (* z like y *)
           refine (asc_min (rev (d1 ++ x :: d2)) e (desc_rev _ De) _ L2').
           apply (eqs_cons y z); [exact G2'|exact G1'|]. intros v. rewrite <- E. apply cnt_perm. now apply Permutation_sym.
      * (* z like x *)
        refine (desc_max (d1 ++ y :: d2) e D _ L1'). now apply (eqs_cons x z).
    + assert (Em : exists z e, m = z :: e). { inversion L1; eauto. }
      destruct Em as (z & e & ->).
      assert (Q : lt u z = false /\ lt z u = false).
      { inversion L1; inversion L2; subst; try (split; congruence). exfalso.
        match goal with X : lt u z = true, Y : lt z u = true |- _ => pose proof (lt_asym lt SW _ _ X); congruence end. }
      destruct Q as [Q1 Q2]. apply (IH e).
      * now apply (eqs_cons u z).
      * inversion L1; subst; [congruence|assumption].
      * inversion L2; subst; [congruence|assumption].
Qed.

(** ** the loops *)
Lemma next_scan_ok d2 : forall fuel p x d1 y s i j, i = len p -> j = i + 2 + len d1 + len d2 -> (length d2 < fuel)%nat ->
  lt x y = true -> (forall z, In z d2 -> lt x z = false) ->
  next_scan lt fuel (p ++ x :: d1 ++ y :: d2 ++ s) i j = Some (i + 1 + len d1).
Proof.
  induction d2 as [|z d2 IH] using rev_ind; intros fuel p x d1 y s i j Ei Ej Hf L H2; (destruct fuel as [|fuel]; [lia|]); cbn [next_scan].
  - rewrite rd_at by exact Ei. cbn [obind].
    replace (p ++ x :: d1 ++ y :: [] ++ s) with ((p ++ x :: d1) ++ y :: s) by (rewrite <- app_assoc; reflexivity).
    simpl length in *. rewrite rd_at by (rewrite app_length; simpl length; lia). cbn [obind]. rewrite L. f_equal. lia.
  - rewrite rd_at by exact Ei. cbn [obind]. rewrite app_length in *. simpl length in *.
    replace (p ++ x :: d1 ++ y :: (d2 ++ [z]) ++ s) with ((p ++ x :: d1 ++ y :: d2) ++ z :: s) at 1 by (rewrite <- !app_assoc; simpl; rewrite <- !app_assoc; simpl; rewrite <- ?app_assoc; reflexivity).
    rewrite rd_at by (rewrite !app_length; simpl length; rewrite app_length; simpl length; lia). cbn [obind].
    rewrite (H2 z) by (apply in_or_app; right; left; reflexivity). rewrite <- app_assoc.
    apply IH; try lia; auto. intros w I. apply H2. apply in_or_app; auto.
Qed.
(** a descending tail splits at the last element greater than x *)
Lemma desc_split x d : desc d -> d <> [] -> (exists u t, d = u :: t /\ lt x u = true) ->
  exists d1 y d2, d = d1 ++ y :: d2 /\ lt x y = true /\ forall z, In z d2 -> lt x z = false.
Proof.
  intros D _ (u & t & -> & L). revert u L D. induction t as [|w t IH]; intros u L D.
  - exists [], u, []. split; [reflexivity|]. split; [exact L|intros z []].
  - inversion D as [|? ? D' F]; subst. destruct (lt x w) eqn:E.
    + destruct (IH w E D') as (d1 & y & d2 & -> & Ly & H). exists (u :: d1), y, d2. auto.
    + exists [], u, (w :: t). split; [reflexivity|]. split; [exact L|]. inversion D' as [|? ? _ F']; subst. rewrite Forall_forall in F'.
      intros z [<-|I]; [exact E|]. exact (le_tr lt SW z w x (F' z I) E).
Qed.

Lemma next_loop_ok l0 : forall fuel ran p u d s first last i, first = len p -> i = first + len l0 -> last = i + len (u :: d) -> (length l0 <= fuel)%nat -> l0 <> [] ->
  desc (u :: d) ->
  exists r b, next_loop lt fuel ran (p ++ (l0 ++ u :: d) ++ s) first last i = Some (p ++ r ++ s, b) /\
    if b then next_of (l0 ++ u :: d) r else desc (l0 ++ u :: d) /\ r = rev (l0 ++ u :: d).
Proof.
  induction l0 as [|x l0 IH] using rev_ind; intros fuel ran p u d s first last i Ef Ei El Hf N D; [congruence|].
  rewrite app_length in *. simpl length in *. destruct fuel as [|fuel]; [lia|]. cbn [next_loop]. cbv zeta.
  replace (p ++ ((l0 ++ [x]) ++ u :: d) ++ s) with ((p ++ l0) ++ x :: (u :: d) ++ s) by (rewrite <- !app_assoc; reflexivity).
  rewrite rd_at by (rewrite app_length; lia). cbn [obind].
  assert (R2 : rd ((p ++ l0) ++ x :: (u :: d) ++ s) i = Some u).
  { replace ((p ++ l0) ++ x :: (u :: d) ++ s) with (((p ++ l0) ++ [x]) ++ u :: d ++ s) by (rewrite <- !app_assoc; reflexivity).
    apply rd_at. rewrite !app_length. simpl length. lia. }
  rewrite R2. cbn [obind].
  replace ((l0 ++ [x]) ++ u :: d) with (l0 ++ x :: u :: d) by (rewrite <- app_assoc; reflexivity).
  destruct (lt x u) eqn:L.
  - destruct (desc_split x (u :: d) D) as (d1 & y & d2 & Ed & Ly & H2); [discriminate|eauto|]. rewrite Ed in *.
    assert (Ld : S (length d) = (length d1 + S (length d2))%nat). { apply (f_equal (@length A)) in Ed. rewrite app_length in Ed. simpl in Ed. exact Ed. }
    rewrite <- !app_assoc. simpl app. rewrite (app_assoc p l0).
    rewrite (next_scan_ok d2) with (d1 := d1) by (auto; rewrite ?app_length; lia). cbn [obind].
    rewrite (iter_swap_at (p ++ l0) x d1 y (d2 ++ s)) by (rewrite ?app_length; lia). cbn [obind].
    replace ((p ++ l0) ++ y :: d1 ++ x :: d2 ++ s) with ((p ++ l0 ++ [y]) ++ (d1 ++ x :: d2) ++ s) by (rewrite <- !app_assoc; simpl; rewrite <- ?app_assoc; reflexivity).
    rewrite reverse_ok by (rewrite ?app_length; simpl length; rewrite ?app_length; simpl length; lia). cbn [obind].
    exists (l0 ++ y :: rev (d1 ++ x :: d2)), true. split; [rewrite <- !app_assoc; reflexivity|]. now apply next_core.
  - assert (D' : desc (x :: u :: d)).
    { constructor; [exact D|]. inversion D as [|? ? _ F]; subst. rewrite Forall_forall in *. intros z [<-|I]; [exact L|].
      exact (le_tr lt SW z u x (F z I) L). }
    replace ((p ++ l0) ++ x :: (u :: d) ++ s) with (p ++ (l0 ++ x :: u :: d) ++ s) by (rewrite <- !app_assoc; reflexivity).
    destruct (Z.eqb_spec (i - 1) first) as [Q|Q].
    + assert (l0 = []) by (destruct l0; [reflexivity|simpl length in Ei; lia]). subst l0. simpl app in *.
      rewrite (reverse_ok ran p (x :: u :: d) s) by (simpl length in *; lia). cbn [obind].
      exists (rev (x :: u :: d)), false. split; [reflexivity|]. split; [exact D'|reflexivity].
    + apply IH; auto; try (simpl length; lia). intros ->. simpl length in Ei. lia.
Qed.

(** C76: next_permutation *)
Theorem C76_next_permutation ran p l s :
  exists r b, next_permutation lt ran (p ++ l ++ s) (len p) (len p + len l) = Some (p ++ r ++ s, b) /\ Permutation l r /\
    (b = true -> lexlt l r /\ forall m, Permutation l m -> lexlt l m -> ~ lexlt m r) /\
    (b = false -> ordered lt r /\ forall m, Permutation l m -> ~ lexlt l m).
Proof.
  unfold next_permutation. destruct l as [|x [|x' t]].
  - replace (len p =? len p + len []) with true by (symmetry; apply Z.eqb_eq; simpl; lia). exists [], false. split; [reflexivity|].
    split; [reflexivity|]. split; [discriminate|]. intros _. split; [constructor|]. intros m Pm L. apply Permutation_nil in Pm. subst. inversion L.
  - replace (len p =? len p + len [x]) with false by (symmetry; apply Z.eqb_neq; simpl; lia).
    replace (len p =? len p + len [x] - 1) with true by (symmetry; apply Z.eqb_eq; simpl; lia). exists [x], false. split; [reflexivity|].
    split; [reflexivity|]. split; [discriminate|]. intros _. split; [constructor; constructor|]. intros m Pm L.
    apply Permutation_length_1_inv in Pm. subst. inversion L; [|match goal with H : lexlt [] [] |- _ => inversion H end].
    rewrite (sw_irr _ SW) in *. discriminate.
  - destruct (@exists_last _ (x :: x' :: t)) as (l0 & u & El); [discriminate|]. rewrite El.
    assert (N : l0 <> []) by (intros ->; discriminate El). clear x x' t El.
    assert (Hl : 0 < len l0) by (destruct l0; [congruence|simpl length; lia]). rewrite app_length. simpl length.
    replace (len p =? len p + Z.of_nat (length l0 + 1)) with false by (symmetry; apply Z.eqb_neq; lia).
    replace (len p =? len p + Z.of_nat (length l0 + 1) - 1) with false by (symmetry; apply Z.eqb_neq; lia).
    destruct (next_loop_ok l0 (S (Z.to_nat (len p + Z.of_nat (length l0 + 1) - len p))) ran p u [] s (len p) (len p + Z.of_nat (length l0 + 1)) (len p + Z.of_nat (length l0 + 1) - 1))
      as (r & b & E & H); try (simpl length; lia); auto.
    { constructor; constructor. }
    exists r, b. rewrite E. split; [reflexivity|]. destruct b.
    + destruct H as (L & Pm & M). split; [exact Pm|]. split; [auto|discriminate].
    + destruct H as (D & ->). split; [apply Permutation_rev|]. split; [discriminate|]. intros _. split; [now apply desc_rev|].
      intros m Pm. apply desc_max; [exact D|]. intros v. now apply cnt_perm.
Qed.
End Proof.

(** ** prev_permutation is next_permutation for the reversed order *)
Lemma flip_sw {A} (lt : A -> A -> bool) : strict_weak lt -> strict_weak (flip lt).
Proof.
  intros SW. unfold flip. constructor; [apply (sw_irr _ SW)| |].
  - intros x y z H1 H2. exact (sw_trans _ SW _ _ _ H2 H1).
  - intros x y z H. destruct (sw_neg _ SW _ y _ H); auto.
Qed.
Lemma prev_flip {A} (lt : A -> A -> bool) ran a first last : prev_permutation lt ran a first last = next_permutation (flip lt) ran a first last.
Proof. reflexivity. Qed.
Lemma lexlt_flip {A} (lt : A -> A -> bool) l : forall r, length l = length r -> (lexlt (flip lt) l r <-> lexlt lt r l).
Proof.
  induction l as [|x l IH]; intros [|y r] E; try discriminate E; simpl in E.
  - split; intros H; inversion H.
  - split; intros H; inversion H; subst; try (now constructor); apply lex_eq; auto; apply IH; auto.
Qed.
Theorem C76_prev_permutation {A} (lt : A -> A -> bool) (SW : strict_weak lt) ran p l s :
  exists r b, prev_permutation lt ran (p ++ l ++ s) (len p) (len p + len l) = Some (p ++ r ++ s, b) /\ Permutation l r /\
    (b = true -> lexlt lt r l /\ forall m, Permutation l m -> lexlt lt m l -> ~ lexlt lt r m) /\
    (b = false -> ordered (fun x y => lt y x) r /\ forall m, Permutation l m -> ~ lexlt lt m l).
Proof.
  rewrite prev_flip. destruct (C76_next_permutation (flip lt) (flip_sw lt SW) ran p l s) as (r & b & E & Pm & H1 & H2).
  exists r, b. split; [exact E|]. split; [exact Pm|]. pose proof (Permutation_length Pm) as Lr. split; intros Eb.
  - destruct (H1 Eb) as [L M]. split; [now apply lexlt_flip|]. intros m Pm' L'. pose proof (Permutation_length Pm') as Lm.
    rewrite <- lexlt_flip by congruence. apply M; auto. now apply lexlt_flip.
  - destruct (H2 Eb) as [O M]. split; [exact O|]. intros m Pm'. pose proof (Permutation_length Pm') as Lm.
    rewrite <- lexlt_flip by congruence. now apply M.
Qed.

Example C76_example : strict_weak Z.ltb /\
  next_permutation Z.ltb true ([7] ++ [1; 3; 3; 2] ++ [0]) 1 5 = Some ([7; 2; 1; 3; 3; 0], true) /\
  prev_permutation Z.ltb false ([7] ++ [2; 1; 3; 3] ++ [0]) 1 5 = Some ([7; 1; 3; 3; 2; 0], true) /\
  next_permutation Z.ltb true [3; 2; 1] 0 3 = Some ([1; 2; 3], false) /\
  lexicographical_compare Z.ltb [1; 2] [1; 2; 0] = true /\ lexicographical_compare Z.ltb [1; 3] [1; 2; 0] = false.
Proof.
  split; [|vm_compute; repeat split]. constructor.
  - intros x. apply Z.ltb_irrefl.
  - intros x y z. rewrite !Z.ltb_lt. lia.
  - intros x y z. rewrite !Z.ltb_lt. lia.
Qed.

Print Assumptions C76_lexicographical_compare.
Print Assumptions C76_lexicographical_compare_strict_weak.
Print Assumptions C76_next_permutation.
Print Assumptions C76_prev_permutation.
