(** Red-black trees in memory: walking, searching, inserting and erasing, in terms of the sequence of nodes. *)
From Coq Require Import ZArith List Bool Lia.
From Verif Require Import F64 RbModel RbProof RbErase RbUnlink.
Import ListNotations.
Open Scope Z_scope.
Open Scope opt_scope.

Section Proof.
Context {V : Type}.
Notation mem := (@memory V).
Notation nd := (@nd V).
Notation tree := (@tree V).
Notation frame := (@frame V).
Implicit Types (m R : mem) (h p q x y z a : Z) (s c : bool) (v : V) (t l r b : tree) (k : list frame) (e : list (Z * V)).
Ltac dist D z := let DD := fresh in pose proof (D z) as DD; cbn [tc kc] in DD; rewrite ?tc_mk, ?one_refl in DD; lia.

(** ** a node by its place in the sequence *)
Lemma lefts_app k2 : forall k1, lefts (k1 ++ k2) = lefts k2 ++ lefts k1.
Proof. induction k1 as [|[[|] a c v b] k1 IH]; simpl; [now rewrite app_nil_r|exact IH|]. rewrite IH. now rewrite <- !app_assoc. Qed.
Lemma rights_app k2 : forall k1, rights (k1 ++ k2) = rights k1 ++ rights k2.
Proof. induction k1 as [|[[|] a c v b] k1 IH]; simpl; [reflexivity| |exact IH]. rewrite IH. now rewrite <- !app_assoc. Qed.
Lemma find_ctx a v : forall t e1 e2, nodes t = e1 ++ (a, v) :: e2 ->
  exists k c l r, t = plug k (N a c l v r) /\ e1 = lefts k ++ nodes l /\ e2 = nodes r ++ rights k.
Proof.
  induction t as [|x c l IHl w r IHr]; intros e1 e2 H; simpl in H; [destruct e1; discriminate|].
  apply app_eq_app in H as (q & [[H1 H2]|[H1 H2]]); destruct q as [|[x' w'] q]; simpl in H2.
  - injection H2 as -> -> ->. exists [], c, l, r. rewrite app_nil_r in H1. simpl. rewrite app_nil_r. auto.
  - injection H2 as <- <- ->. destruct (IHl _ _ H1) as (k & c' & l' & r' & -> & -> & ->). exists (k ++ [F true x c w r]), c', l', r'. rewrite plug_app, lefts_app, rights_app. simpl. rewrite <- !app_assoc, app_nil_r. auto.
  - injection H2 as -> -> <-. exists [], c, l, r. rewrite app_nil_r in H1. simpl. rewrite app_nil_r. auto.
  - injection H2 as <- <- H2. destruct (IHr _ _ H2) as (k & c' & l' & r' & -> & -> & ->). exists (k ++ [F false x c w l]), c', l', r'. rewrite plug_app, lefts_app, rights_app, H1. simpl. rewrite <- !app_assoc, app_nil_r. auto.
Qed.
Lemma nodes_nil t : nodes t = [] -> t = E.
Proof. destruct t as [|x c l v r]; [reflexivity|]. simpl. destruct (nodes l); discriminate. Qed.
(** ** one step forward *)
Section Walk.
Context {R : mem} {h lm rm : Z}.
Notation W m := (W m R h lm rm).
Lemma final_app e1 e2 : e2 <> [] -> final h (e1 ++ e2) = final h e2.
Proof. intros H. unfold final. rewrite rev_app_distr. apply first_app. intros Q. apply H. rewrite <- (rev_involutive e2), Q. reflexivity. Qed.
Lemma final_in e : e <> [] -> (1 <= ac (final h e) e)%nat.
Proof. intros H. unfold final. rewrite <- ac_rev. apply first_in. intros Q. apply H. rewrite <- (rev_involutive e), Q. reflexivity. Qed.
Lemma inc_up_ok : forall k fuel m t, W m k t -> t <> E -> rm = final h (nodes (plug k t)) -> (k = [] -> rm <> rt t) -> (length k < fuel)%nat -> inc_up fuel m (rt t) (up h k) = Some (first h (rights k)).
Proof.
  assert (X : forall k m t, W m k t -> t <> E -> exists n, get m (rt t) = Some n /\ rgt n <> up h k).
  { intros k m [|x c l v r] H T; [congruence|]. destruct (W_node _ _ _ _ _ _ H) as (G & _). eexists. split; [exact G|]. simpl. pose proof (W_1 _ _ _ _ _ _ _ H) as D. cbn [tc] in D. intros Q.
    destruct r as [|x' c' l' v' r']; cbn [rt tc] in *.
    - destruct k as [|[s' a' c' v' b'] k]; cbn [up kc] in *; [pose proof (W_h0 _ _ H); congruence|]. subst a'. dist D 0.
    - subst x'. destruct k as [|[s1 a1 c1 v1 b1] k]; cbn [up kc] in *; [dist D h|dist D a1]. }
  induction k as [|[s y c v b] k IH]; intros fuel m t H T HR K Hf; (destruct fuel as [|fuel]; [simpl in Hf; lia|]); cbn [inc_up up].
  - rewrite (W_hdr _ _ H). cbn [obind rgt]. rewrite (proj2 (Z.eqb_neq rm (rt t)) (K eq_refl)). destruct (X _ _ _ H T) as (n & G & Q). rewrite G. cbn [obind]. cbn [up] in Q. rewrite (proj2 (Z.eqb_neq _ _) Q). reflexivity.
  - destruct (W_par _ _ _ _ _ _ _ H) as (G & _). rewrite G. cbn [obind]. destruct s.
    + cbn [cell rgt]. assert (Q : rt b <> rt t). { pose proof H as H'. rewrite W_up in H'. apply W_sib in H'; [congruence|auto]. }
      rewrite (proj2 (Z.eqb_neq _ _) Q). destruct (X _ _ _ H T) as (n & G' & Q'). rewrite G'. cbn [obind]. cbn [up] in Q'. rewrite (proj2 (Z.eqb_neq _ _) Q'). reflexivity.
    + cbn [cell rgt par]. rewrite Z.eqb_refl. pose proof H as H'. rewrite W_up in H'. cbn [mk] in H'. change y with (rt (N y c b v t)) at 1. apply (IH fuel m _ H'); [discriminate|exact HR| |simpl in Hf; lia].
      intros ->. cbn [plug mk] in HR. cbn [nodes] in HR. change ((y, v) :: nodes t) with ([(y, v)] ++ nodes t) in HR. rewrite app_assoc in HR. cbn [rt].
      assert (N0 : nodes t <> []) by (intros Q; apply T, nodes_nil, Q). rewrite final_app in HR by exact N0. pose proof (final_in _ N0) as I. rewrite <- HR in I. rewrite ac_tc in I.
      intros Q. rewrite Q in I. pose proof (W_1 _ _ _ _ _ _ _ H') as D. cbn [tc] in D. dist D y.
Qed.
Lemma inc_ok fuel m k x c l v r : W m k (N x c l v r) -> rm = final h (nodes (plug k (N x c l v r))) -> (length (nodes (plug k (N x c l v r))) + 2 <= fuel)%nat ->
  inc fuel m x = Some (first h (nodes r ++ rights k)).
Proof.
  intros H HR Hf. pose proof (len_ctx k (N x c l v r)) as LC. simpl nodes in LC at 1. rewrite app_length in LC. simpl in LC.
  unfold inc. destruct (W_node _ _ _ _ _ _ H) as (G & X0 & Xh). rewrite G. cbn [obind rgt par]. destruct r as [|x' c' l' v' r'].
  - cbn [rt negb]. rewrite Z.eqb_refl. cbn [negb nodes app]. destruct k as [|f k].
    + cbn [plug nodes] in HR. rewrite final_last in HR. cbn [up rights first]. destruct fuel as [|[|fuel]]; [lia|lia|]. cbn [inc_up].
      rewrite (W_hdr _ _ H). cbn [obind rgt par]. rewrite HR, Z.eqb_refl. cbn [top rt]. rewrite G. cbn [obind rgt]. pose proof (W_h0 _ _ H) as H0. cbn [rt].
      rewrite (proj2 (Z.eqb_neq 0 h)) by congruence. rewrite ?(W_hdr _ _ H). cbn [obind rgt]. rewrite ?HR, Z.eqb_refl. reflexivity.
    + apply (inc_up_ok (f :: k) fuel m _ H); [discriminate|exact HR|discriminate|lia].
  - rewrite (first_app h h (nodes (N x' c' l' v' r')) (rights k)); [|simpl; destruct (nodes l'); discriminate].
    destruct H as [_ _ (_ & _ & Hr) D _]. cbn [rt]. assert (X1 : x' <> 0) by (intros ->; dist D 0). rewrite (proj2 (Z.eqb_neq _ _) X1). cbn [negb].
    apply (tmin_first fuel m x (N x' c' l' v' r')); [discriminate|exact Hr|intros w; specialize (D w); cbn [tc] in D |- *; lia|lia].
Qed.
(** ** one step back *)
Lemma dec_up_ok : forall k fuel m t, W m k t -> t <> E -> lefts k <> [] -> (length k < fuel)%nat -> dec_up fuel m (rt t) (up h k) = Some (final h (lefts k)).
Proof.
  induction k as [|[s y c v b] k IH]; intros fuel m t H T L Hf; [simpl in L; congruence|]. destruct fuel as [|fuel]; [lia|]. cbn [dec_up up].
  destruct (W_par _ _ _ _ _ _ _ H) as (G & _). rewrite G. cbn [obind]. destruct s; cbn [cell lft par].
  - rewrite Z.eqb_refl. pose proof H as H'. rewrite W_up in H'. cbn [mk] in H'. change y with (rt (N y c t v b)) at 1. apply (IH fuel m _ H'); [discriminate|exact L|simpl in Hf; lia].
  - assert (Q : rt t <> rt b). { pose proof H as H'. rewrite W_up in H'. apply W_sib in H'; [congruence|auto]. }
    rewrite (proj2 (Z.eqb_neq _ _) Q). simpl lefts. now rewrite app_assoc, final_last.
Qed.
Lemma dec_ok fuel m k x c l v r : W m k (N x c l v r) -> (k = [] -> c = true) -> lefts k ++ nodes l <> [] -> (length (nodes (plug k (N x c l v r))) + 2 <= fuel)%nat ->
  dec fuel m x = Some (final h (lefts k ++ nodes l)).
Proof.
  intros H C L Hf. pose proof (len_ctx k (N x c l v r)) as LC. simpl nodes in LC at 1. rewrite app_length in LC. simpl in LC.
  unfold dec. destruct (W_node _ _ _ _ _ _ H) as (G & X0 & Xh). rewrite G. cbn [obind par].
  assert (Q : exists n : nd, get m (up h k) = Some n /\ (if par n =? x then red m x else Some false) = Some false).
  { destruct k as [|[s y cy vy b] k]; cbn [up].
    - rewrite (W_hdr _ _ H). eexists. split; [reflexivity|]. cbn [par top rt]. rewrite Z.eqb_refl. unfold red. rewrite G. cbn [obind col]. now rewrite (C eq_refl).
    - destruct (W_par _ _ _ _ _ _ _ H) as (Gy & _). rewrite Gy. eexists. split; [reflexivity|]. rewrite par_cell. rewrite (proj2 (Z.eqb_neq (up h k) x)); [reflexivity|]. intros Q.
      pose proof (W_1 _ _ _ _ _ _ _ H) as D. cbn [tc kc] in D. destruct k as [|[s1 a1 c1 v1 b1] k]; cbn [up kc] in *; [congruence|]. subst a1. dist D x. }
  destruct Q as (p & G2 & Q). rewrite G2. cbn [obind]. rewrite Q. cbn [obind lft]. destruct l as [|x' c' l' v' r'].
  - cbn [rt nodes] in *. rewrite Z.eqb_refl. cbn [negb]. rewrite app_nil_r in *. apply (dec_up_ok k fuel m _ H); [discriminate|exact L|lia].
  - rewrite (final_app (lefts k) (nodes (N x' c' l' v' r'))); [|simpl; destruct (nodes l'); discriminate].
    destruct H as [_ _ (_ & Hl & _) D _]. cbn [rt]. assert (X1 : x' <> 0) by (intros ->; dist D 0). rewrite (proj2 (Z.eqb_neq _ _) X1). cbn [negb].
    apply (tmax_final fuel m x (N x' c' l' v' r')); [discriminate|exact Hl|intros w; specialize (D w); cbn [tc] in D |- *; lia|lia].
Qed.
Lemma dec_end fuel m t : W m [] t -> t <> E -> dec fuel m h = Some rm.
Proof.
  intros H T. unfold dec. rewrite (W_hdr _ _ H). cbn [obind par top rgt]. destruct t as [|x c l v r]; [congruence|]. cbn [rt]. destruct (W_node _ _ _ _ _ _ H) as (G & _). rewrite G. cbn [obind par up].
  rewrite Z.eqb_refl. unfold red. rewrite (W_hdr _ _ H). reflexivity.
Qed.
(** ** going down to the border between two kinds of elements *)
Definition part (f : V -> bool) e : Prop := exists e1 e2, e = e1 ++ e2 /\ Forall (fun u => f (snd u) = true) e1 /\ Forall (fun u => f (snd u) = false) e2.
Lemma part_split f e1 a v e2 : part f (e1 ++ (a, v) :: e2) -> if f v then Forall (fun u => f (snd u) = true) e1 /\ part f e2 else part f e1 /\ Forall (fun u => f (snd u) = false) e2.
Proof.
  intros (d1 & d2 & H & F1 & F2). apply app_eq_app in H as (q & [[H1 H2]|[H1 H2]]); destruct q as [|[a' v'] q]; simpl in H2; subst.
  - inversion F2 as [|? ? Q F3]; subst. simpl in Q. rewrite Q, app_nil_r. split; [|exact F3]. exists d1, []. rewrite app_nil_r. auto.
  - apply (Forall_app _ ((a', v') :: q)) in F2 as [F2 F3]. inversion F3 as [|? ? Q F4]; subst. simpl in Q. rewrite Q. split; [|exact F4]. exists d1, ((a', v') :: q). auto.
  - rewrite app_nil_r in F1. inversion F2 as [|? ? Q F3]; subst. simpl in Q. rewrite Q. split; [|exact F3]. exists e1, []. rewrite app_nil_r. auto.
  - injection H2 as <- <- ->. apply Forall_app in F1 as [F1 F3]. inversion F3 as [|? ? Q F4]; subst. simpl in Q. rewrite Q. split; [exact F1|]. exists q, d2. auto.
Qed.
(** the place between the elements with [f] and the others *)
Definition border (f : V -> bool) k : Prop := Forall (fun u => f (snd u) = true) (lefts k) /\ Forall (fun u => f (snd u) = false) (rights k).
Lemma border_left f k x c l v r : border f k -> f v = false -> Forall (fun u => f (snd u) = false) (nodes r) -> border f (F true x c v r :: k).
Proof. intros [B1 B2] F1 F2. split; [exact B1|]. simpl. constructor; [exact F1|]. apply Forall_app. auto. Qed.
Lemma border_right f k x c l v r : border f k -> f v = true -> Forall (fun u => f (snd u) = true) (nodes l) -> border f (F false x c v l :: k).
Proof. intros [B1 B2] F1 F2. split; [|exact B2]. simpl. apply Forall_app. split; [exact B1|]. apply Forall_app. auto. Qed.
Definition side k : bool := match k with F s _ _ _ _ :: _ => s | [] => true end.
Lemma W_left m k x c l v r : W m k (N x c l v r) -> W m (F true x c v r :: k) l.
Proof. intros H. apply W_up. exact H. Qed.
Lemma W_right m k x c l v r : W m k (N x c l v r) -> W m (F false x c v l :: k) r.
Proof. intros H. apply W_up. exact H. Qed.
Fixpoint height t : nat := match t with E => 0 | N _ _ l _ r => S (Nat.max (height l) (height r)) end.
Context {K : Type} (lt : K -> K -> bool) (key : V -> K).
Lemma W_keyat m k x c l v r : W m k (N x c l v r) -> keyat key m x = Some (key v).
Proof. intros H. destruct (W_node _ _ _ _ _ _ H) as (G & _). unfold keyat. rewrite G. reflexivity. Qed.
Lemma low_ok kk m : forall fuel t k, W m k t -> part (fun v => lt (key v) kk) (nodes t) -> border (fun v => lt (key v) kk) k -> (height t < fuel)%nat ->
  exists k', low_loop lt key fuel m kk (rt t) (first h (rights k)) = Some (first h (rights k')) /\ plug k' E = plug k t /\ border (fun v => lt (key v) kk) k'.
Proof.
  induction fuel as [|fuel IH]; intros t k H P B Hf; [lia|]. cbn [low_loop]. destruct t as [|x c l v r]; [cbn [rt]; rewrite Z.eqb_refl; exists k; auto|].
  destruct (W_node _ _ _ _ _ _ H) as (G & X0 & _). cbn [rt]. rewrite (proj2 (Z.eqb_neq _ _) X0), (W_keyat _ _ _ _ _ _ _ H). cbn [obind]. rewrite G. cbn [obind lft rgt]. simpl in Hf.
  cbn [nodes] in P. apply part_split in P. destruct (lt (key v) kk) eqn:Q; cbn [negb]; destruct P as [P1 P2].
  - exact (IH r (F false x c v l :: k) (W_right _ _ _ _ _ _ _ H) P2 (border_right _ _ _ _ _ _ E B Q P1) ltac:(lia)).
  - exact (IH l (F true x c v r :: k) (W_left _ _ _ _ _ _ _ H) P1 (border_left _ _ _ _ E _ _ B Q P2) ltac:(lia)).
Qed.
Lemma upp_ok kk m : forall fuel t k, W m k t -> part (fun v => negb (lt kk (key v))) (nodes t) -> border (fun v => negb (lt kk (key v))) k -> (height t < fuel)%nat ->
  exists k', upp_loop lt key fuel m kk (rt t) (first h (rights k)) = Some (first h (rights k')) /\ plug k' E = plug k t /\ border (fun v => negb (lt kk (key v))) k'.
Proof.
  induction fuel as [|fuel IH]; intros t k H P B Hf; [lia|]. cbn [upp_loop]. destruct t as [|x c l v r]; [cbn [rt]; rewrite Z.eqb_refl; exists k; auto|].
  destruct (W_node _ _ _ _ _ _ H) as (G & X0 & _). cbn [rt]. rewrite (proj2 (Z.eqb_neq _ _) X0), (W_keyat _ _ _ _ _ _ _ H). cbn [obind]. rewrite G. cbn [obind lft rgt]. simpl in Hf.
  cbn [nodes] in P. apply part_split in P. destruct (lt kk (key v)) eqn:Q; cbn [negb] in P; destruct P as [P1 P2].
  - assert (Q' : negb (lt kk (key v)) = false) by now rewrite Q. exact (IH l (F true x c v r :: k) (W_left _ _ _ _ _ _ _ H) P1 (border_left _ _ _ _ E _ _ B Q' P2) ltac:(lia)).
  - assert (Q' : negb (lt kk (key v)) = true) by now rewrite Q. exact (IH r (F false x c v l :: k) (W_right _ _ _ _ _ _ _ H) P2 (border_right _ _ _ _ _ _ E B Q' P1) ltac:(lia)).
Qed.
Lemma pos_ok kk m : forall fuel t k, W m k t -> part (fun v => negb (lt kk (key v))) (nodes t) -> border (fun v => negb (lt kk (key v))) k -> (height t < fuel)%nat ->
  exists k', pos_loop lt key fuel m kk (rt t) (up h k) (side k) = Some (up h k', side k') /\ plug k' E = plug k t /\ border (fun v => negb (lt kk (key v))) k'.
Proof.
  induction fuel as [|fuel IH]; intros t k H P B Hf; [lia|]. cbn [pos_loop]. destruct t as [|x c l v r]; [cbn [rt]; rewrite Z.eqb_refl; exists k; auto|].
  destruct (W_node _ _ _ _ _ _ H) as (G & X0 & _). cbn [rt]. rewrite (proj2 (Z.eqb_neq _ _) X0), (W_keyat _ _ _ _ _ _ _ H). cbn [obind]. rewrite G. cbn [obind lft rgt]. cbv zeta. simpl in Hf.
  cbn [nodes] in P. apply part_split in P. destruct (lt kk (key v)) eqn:Q; cbn [negb] in P; destruct P as [P1 P2].
  - assert (Q' : negb (lt kk (key v)) = false) by now rewrite Q. exact (IH l (F true x c v r :: k) (W_left _ _ _ _ _ _ _ H) P1 (border_left _ _ _ _ E _ _ B Q' P2) ltac:(lia)).
  - assert (Q' : negb (lt kk (key v)) = true) by now rewrite Q. exact (IH r (F false x c v l :: k) (W_right _ _ _ _ _ _ _ H) P2 (border_right _ _ _ _ _ _ E B Q' P1) ltac:(lia)).
Qed.
End Walk.
End Proof.
