(** Red-black trees in memory: shape predicates, rotations and rebalancing. *)
From Coq Require Import ZArith List Bool Lia.
From Verif Require Import F64 RbModel.
Import ListNotations.
Open Scope Z_scope.
Open Scope opt_scope.

Section Proof.
Context {V : Type}.
Notation mem := (@memory V).
Notation nd := (@nd V).
Implicit Types (m : mem) (h p q x y z a : Z) (s c : bool) (v : V).

(** a tree with the addresses of its nodes; [c] true: black *)
Inductive tree := E | N (a : Z) (c : bool) (l : tree) (v : V) (r : tree).
Implicit Types (t l r b : tree).
Definition rt t : Z := match t with E => 0 | N a _ _ _ _ => a end.
(** the subtree [t1] on side [s] *)
Definition mk s a c t1 v t2 : tree := if s then N a c t1 v t2 else N a c t2 v t1.
(** a step on the way from the root to a subtree, which hangs on side [s] *)
Inductive frame := F (s : bool) (a : Z) (c : bool) (v : V) (t : tree).
Implicit Types (k : list frame).
Fixpoint plug k t : tree := match k with [] => t | F s a c v b :: k => plug k (mk s a c t v b) end.
Fixpoint nodes t : list (Z * V) := match t with E => [] | N a _ l v r => nodes l ++ (a, v) :: nodes r end.

(** occurrences of addresses *)
Definition one a z : nat := if a =? z then 1 else 0.
Fixpoint tc z t : nat := match t with E => 0 | N a _ l _ r => one a z + tc z l + tc z r end.
Fixpoint kc z k : nat := match k with [] => 0 | F _ a _ _ b :: k => one a z + tc z b + kc z k end.
Lemma one_refl a : one a a = 1%nat.
Proof. unfold one. now rewrite Z.eqb_refl. Qed.
Lemma one_eq a z : a = z -> one a z = 1%nat.
Proof. intros ->. apply one_refl. Qed.
Lemma one_ne a z : a <> z -> one a z = 0%nat.
Proof. intros H. unfold one. now rewrite (proj2 (Z.eqb_neq _ _) H). Qed.
Lemma tc_mk z s a c t1 v t2 : tc z (mk s a c t1 v t2) = (one a z + tc z t1 + tc z t2)%nat.
Proof. destruct s; simpl; lia. Qed.
Lemma mk_flip s a c t1 v t2 : mk (negb s) a c t1 v t2 = mk s a c t2 v t1.
Proof. now destruct s. Qed.
Lemma rt_mk s a c t1 v t2 : rt (mk s a c t1 v t2) = a.
Proof. now destruct s. Qed.

(** the node of a tree in memory *)
Definition cell p s x y c v : nd := if s then mkNd p x y (Some c) (Some v) else mkNd p y x (Some c) (Some v).
Fixpoint rep m p t : Prop :=
  match t with E => True | N a c l v r => m a = Some (mkNd p (rt l) (rt r) (Some c) (Some v)) /\ rep m a l /\ rep m a r end.
Definition up h k : Z := match k with [] => h | F _ a _ _ _ :: _ => a end.
Fixpoint top k x : Z := match k with [] => x | F _ a _ _ _ :: k => top k a end.
(** the steps of [k] in memory below [h], with the pointer [x] at the open end *)
Fixpoint seg m h k x : Prop :=
  match k with [] => True | F s a c v b :: k => m a = Some (cell (up h k) s x (rt b) c v) /\ rep m a b /\ seg m h k a end.
(** the memory holds the tree [plug k t] below the header [h]; elsewhere it is [R] *)
Record W m R h lm rm k t : Prop := mkW {
  W_h : m h = Some (mkNd (top k (rt t)) lm rm (Some false) None);
  W_k : seg m h k (rt t);
  W_t : rep m (up h k) t;
  W_1 : forall z, (one 0 z + one h z + kc z k + tc z t <= 1)%nat;
  W_R : forall z, (one 0 z + one h z + kc z k + tc z t)%nat = 0%nat -> m z = R z }.

Lemma rep_frame m m' p t : (forall z, (1 <= tc z t)%nat -> m' z = m z) -> rep m p t -> rep m' p t.
Proof.
  revert p. induction t as [|a c l IHl v r IHr]; intros p H; simpl; [auto|]. intros (H1 & H2 & H3). split; [|split].
  - rewrite H; [exact H1|]. simpl. rewrite one_refl. lia.
  - apply IHl; [|exact H2]. intros z Hz. apply H. simpl. lia.
  - apply IHr; [|exact H3]. intros z Hz. apply H. simpl. lia.
Qed.
Lemma seg_frame m m' h k x : (forall z, (1 <= kc z k)%nat -> m' z = m z) -> seg m h k x -> seg m' h k x.
Proof.
  revert x. induction k as [|[s a c v b] k IH]; intros x H; simpl; [auto|]. intros (H1 & H2 & H3). split; [|split].
  - rewrite H; [exact H1|]. simpl. rewrite one_refl. lia.
  - apply (rep_frame m); [|exact H2]. intros z Hz. apply H. simpl. lia.
  - apply IH; [|exact H3]. intros z Hz. apply H. simpl. lia.
Qed.
Lemma rep_mk m p s a c t1 v t2 : rep m p (mk s a c t1 v t2) <-> m a = Some (cell p s (rt t1) (rt t2) c v) /\ rep m a t1 /\ rep m a t2.
Proof. destruct s; simpl; tauto. Qed.
(** one step up *)
Lemma W_up m R h lm rm s a c v b k t : W m R h lm rm (F s a c v b :: k) t <-> W m R h lm rm k (mk s a c t v b).
Proof.
  split; intros [H1 H2 H3 H4 H5]; constructor; rewrite ?rt_mk in *; simpl in *; auto.
  - tauto.
  - apply rep_mk. tauto.
  - intros z. rewrite tc_mk. specialize (H4 z). lia.
  - intros z Hz. rewrite tc_mk in Hz. apply H5. lia.
  - apply rep_mk in H3. tauto.
  - apply rep_mk in H3. tauto.
  - intros z. specialize (H4 z). rewrite tc_mk in H4. lia.
  - intros z Hz. apply H5. rewrite tc_mk. lia.
Qed.
Lemma W_plug m R h lm rm k t : W m R h lm rm k t <-> W m R h lm rm [] (plug k t).
Proof. revert t. induction k as [|[s a c v b] k IH]; intros t; [reflexivity|]. simpl plug. rewrite <- IH. apply W_up. Qed.

(** ** access *)
Lemma put_eq m a n : put m a n a = Some n.
Proof. unfold put. now rewrite Z.eqb_refl. Qed.
Lemma put_ne m a n z : z <> a -> put m a n z = m z.
Proof. intros H. unfold put. now rewrite (proj2 (Z.eqb_neq _ _) H). Qed.
Lemma get_eq m a n : a <> 0 -> m a = Some n -> get m a = Some n.
Proof. intros H E. unfold get. now rewrite (proj2 (Z.eqb_neq _ _) H). Qed.

Section State.
Context {m : mem} {R : mem} {h lm rm : Z}.
Lemma W_h0 k t : W m R h lm rm k t -> h <> 0.
Proof. intros [_ _ _ D _] Q. specialize (D 0). rewrite (one_eq h 0 Q), one_refl in D. lia. Qed.
Lemma W_hdr k t : W m R h lm rm k t -> get m h = Some (mkNd (top k (rt t)) lm rm (Some false) None).
Proof. intros H. apply get_eq; [now apply W_h0 in H|]. exact (W_h _ _ _ _ _ _ _ H). Qed.
Lemma W_node k a c l v r : W m R h lm rm k (N a c l v r) -> get m a = Some (mkNd (up h k) (rt l) (rt r) (Some c) (Some v)) /\ a <> 0 /\ a <> h.
Proof.
  intros [_ _ (H & _) D _]. assert (a <> 0). { intros ->. specialize (D 0). cbn [tc kc] in D. rewrite !one_refl in D. lia. }
  split; [now apply get_eq|]. split; [assumption|]. intros ->. specialize (D h). cbn [tc kc] in D. rewrite !one_refl in D. lia.
Qed.
Lemma W_mk k s a c t1 v t2 : W m R h lm rm k (mk s a c t1 v t2) -> get m a = Some (cell (up h k) s (rt t1) (rt t2) c v) /\ a <> 0 /\ a <> h.
Proof. destruct s; intros H; apply W_node in H; exact H. Qed.
Lemma W_par k s a c v b t : W m R h lm rm (F s a c v b :: k) t -> get m a = Some (cell (up h k) s (rt t) (rt b) c v) /\ a <> 0 /\ a <> h.
Proof. intros H. apply W_up in H. now apply W_mk in H. Qed.
Lemma top_in k x : k <> [] -> (1 <= kc (top k x) k)%nat.
Proof.
  revert x. induction k as [|[s a c v b] k IH]; intros x; [congruence|]. intros _. simpl. destruct k as [|f k].
  - simpl. rewrite one_refl. lia.
  - assert (f :: k <> []) by discriminate. specialize (IH a H). lia.
Qed.
(** the pointer at the open end is the root exactly if there is nothing above it *)
Lemma W_root k t : W m R h lm rm k t -> (rt t =? top k (rt t)) = match k with [] => true | _ => false end.
Proof.
  intros [_ _ _ D _]. destruct k as [|f k]; [apply Z.eqb_refl|]. apply Z.eqb_neq. intros Q.
  assert (T : (1 <= kc (top (f :: k) (rt t)) (f :: k))%nat) by (apply top_in; discriminate). rewrite <- Q in T.
  specialize (D (rt t)). destruct t as [|a c l v r]; simpl rt in *; [rewrite one_refl in D; lia|]. cbn [tc] in D. rewrite one_refl in D. lia.
Qed.
Lemma rt_0 k t : W m R h lm rm k t -> t <> E -> rt t <> 0.
Proof. intros H. destruct t; [congruence|]. intros _. now apply W_node in H. Qed.
(** two subtrees at different places have different roots *)
Lemma W_sib k s a c t1 v t2 : W m R h lm rm k (mk s a c t1 v t2) -> (t1 <> E \/ t2 <> E) -> rt t1 <> rt t2.
Proof.
  intros [_ _ _ D _] T Q. destruct t1 as [|a1 c1 l1 v1 r1].
  - destruct t2 as [|a2 c2 l2 v2 r2]; [destruct T; congruence|]. simpl in Q. subst a2. specialize (D 0). rewrite tc_mk in D. cbn [tc kc] in D. rewrite !one_refl in D. lia.
  - destruct t2 as [|a2 c2 l2 v2 r2]; simpl in Q; subst a1.
    + specialize (D 0). rewrite tc_mk in D. cbn [tc kc] in D. rewrite !one_refl in D. lia.
    + specialize (D a2). rewrite tc_mk in D. cbn [tc kc] in D. rewrite !one_refl in D. lia.
Qed.
End State.

Lemma W_lchild m R h lm rm k s a c v b t : W m R h lm rm (F s a c v b :: k) t -> t <> E -> lchild m (rt t) = Some s.
Proof.
  intros H T. unfold lchild. destruct t as [|x cx l vx r]; [congruence|]. simpl rt. destruct (W_node _ _ _ _ _ _ H) as (G & X0 & _). rewrite G. cbn [obind par].
  destruct (W_par _ _ _ _ _ _ _ H) as (Ga & A0 & _). simpl up. rewrite Ga. cbn [obind]. f_equal. apply W_up in H.
  pose proof (W_sib _ _ _ _ _ _ _ H (or_introl T)) as Q. destruct s; simpl in *; [apply Z.eqb_refl|]. now apply Z.eqb_neq.
Qed.

(** ** changing a colour *)
Ltac dist D z := let DD := fresh in pose proof (D z) as DD; cbn [tc kc] in DD; rewrite ?tc_mk, ?one_refl in DD; lia.
Lemma W_setcol m R h lm rm k a c c' l v r : W m R h lm rm k (N a c l v r) ->
  exists m', set_col m a (Some c') = Some m' /\ W m' R h lm rm k (N a c' l v r).
Proof.
  intros H. destruct (W_node _ _ _ _ _ _ H) as (G & A0 & Ah). unfold set_col. rewrite G. cbn [obind]. eexists. split; [reflexivity|].
  destruct H as [H1 H2 (H3 & H4 & H5) D HR]. constructor.
  - rewrite put_ne by congruence. exact H1.
  - apply (seg_frame m); [|exact H2]. intros z Hz. apply put_ne. intros ->. dist D a.
  - simpl. split; [apply put_eq|]. split; (apply (rep_frame m); [|assumption]; intros z Hz; apply put_ne; intros ->; dist D a).
  - exact D.
  - intros z Hz. rewrite put_ne; [now apply HR|]. intros ->. simpl in Hz. rewrite one_refl in Hz. lia.
Qed.
Lemma W_setcol_mk m R h lm rm k s a c c' t1 v t2 : W m R h lm rm k (mk s a c t1 v t2) ->
  exists m', set_col m a (Some c') = Some m' /\ W m' R h lm rm k (mk s a c' t1 v t2).
Proof. destruct s; apply W_setcol. Qed.
Lemma W_setcol_par m R h lm rm k s a c c' v b t : W m R h lm rm (F s a c v b :: k) t ->
  exists m', set_col m a (Some c') = Some m' /\ W m' R h lm rm (F s a c' v b :: k) t.
Proof. intros H. apply W_up, (W_setcol_mk _ _ _ _ _ _ _ _ _ c') in H as (m' & Q & H). exists m'. split; [exact Q|]. now apply W_up. Qed.

(** ** putting another pointer into the parent *)
Lemma relink_ok m h lm rm k x y pr n :
  h <> 0 -> x <> 0 -> m h = Some (mkNd (top k x) lm rm (Some false) None) -> seg m h k x -> m x = Some n -> par n = up h k ->
  (forall z, (one 0 z + one h z + one x z + kc z k <= 1)%nat) -> pr = up h k ->
  exists m', relink m h x y = Some m' /\ m' h = Some (mkNd (top k y) lm rm (Some false) None) /\ seg m' h k y /\ (forall z, z <> pr -> m' z = m z).
Proof.
  intros H0 X0 Hh Hs Hx Hp D ->. unfold relink. rewrite (get_eq m h _ H0 Hh). cbn [obind par]. destruct k as [|[s a c v b] k].
  - simpl top. rewrite Z.eqb_refl. unfold set_par. rewrite (get_eq m h _ H0 Hh). cbn [obind lft rgt col val]. eexists. split; [reflexivity|]. split; [apply put_eq|]. split; [exact I|].
    intros z Hz. now apply put_ne.
  - assert (T : (1 <= kc (top (F s a c v b :: k) x) (F s a c v b :: k))%nat) by (apply top_in; discriminate).
    rewrite (proj2 (Z.eqb_neq x (top (F s a c v b :: k) x))).
    2:{ intros Q. rewrite <- Q in T. specialize (D x). rewrite one_refl in D. lia. }
    unfold lchild. rewrite (get_eq m x n X0 Hx). cbn [obind]. rewrite Hp. simpl up. destruct Hs as (Ha & Hb & Hs).
    assert (A0 : a <> 0) by (intros ->; dist D 0). rewrite (get_eq m a _ A0 Ha). cbn [obind].
    assert (Xb : x <> rt b). { intros Q. destruct b as [|b cb bl vb br]; [exact (X0 Q)|]. simpl in Q. subst b. dist D x. }
    assert (Q : (x =? lft (cell (up h k) s x (rt b) c v)) = s). { destruct s; simpl; [apply Z.eqb_refl|]. now apply Z.eqb_neq. }
    rewrite Q. cbn [obind]. unfold set_lft, set_rgt. rewrite (get_eq m a _ A0 Ha). cbn [obind].
    destruct s; cbn [cell par lft rgt col val]; (eexists; split; [reflexivity|]; split; [|split; [|intros z Hz; now apply put_ne]]).
    + rewrite put_ne; [exact Hh|]. intros ->. dist D a.
    + simpl. split; [apply put_eq|]. split; [apply (rep_frame m); [|exact Hb]|apply (seg_frame m); [|exact Hs]]; intros z Hz; apply put_ne; intros ->; dist D a.
    + rewrite put_ne; [exact Hh|]. intros ->. dist D a.
    + simpl. split; [apply put_eq|]. split; [apply (rep_frame m); [|exact Hb]|apply (seg_frame m); [|exact Hs]]; intros z Hz; apply put_ne; intros ->; dist D a.
Qed.

(** ** rotations *)
Ltac pne := repeat (rewrite put_eq || (rewrite put_ne by (try assumption; try congruence))).
Lemma set_kid_cell s m a p x y c v x' : a <> 0 -> m a = Some (cell p s x y c v) -> set_kid s m a x' = Some (put m a (cell p s x' y c v)).
Proof. intros A0 H. destruct s; unfold set_kid, set_lft, set_rgt; rewrite (get_eq _ _ _ A0 H); reflexivity. Qed.
Lemma set_kid_cell' s m a p x y c v y' : a <> 0 -> m a = Some (cell p s x y c v) -> set_kid (negb s) m a y' = Some (put m a (cell p s x y' c v)).
Proof. intros A0 H. destruct s; unfold set_kid, set_lft, set_rgt; cbn [negb]; rewrite (get_eq _ _ _ A0 H); reflexivity. Qed.
Lemma set_par_cell s m a p x y c v p' : a <> 0 -> m a = Some (cell p s x y c v) -> set_par m a p' = Some (put m a (cell p' s x y c v)).
Proof. intros A0 H. destruct s; unfold set_par; rewrite (get_eq _ _ _ A0 H); reflexivity. Qed.
Lemma kid_cell s p x y c v : kid s (cell p s x y c v) = x.
Proof. now destruct s. Qed.
Lemma kid_cell' s p x y c v : kid (negb s) (cell p s x y c v) = y.
Proof. now destruct s. Qed.
Lemma par_cell s p x y c v : par (cell p s x y c v) = p.
Proof. now destruct s. Qed.
Lemma col_cell s p x y c v : col (cell p s x y c v) = Some c.
Proof. now destruct s. Qed.
Lemma val_cell s p x y c v : val (cell p s x y c v) = Some v.
Proof. now destruct s. Qed.

(** the new parent of a subtree *)
Lemma rep_set_par m p p' t : rep m p t -> (forall z, (one 0 z + tc z t <= 1)%nat) ->
  exists m', (if rt t =? 0 then Some m else set_par m (rt t) p') = Some m' /\ rep m' p' t /\ (forall z, z <> rt t -> m' z = m z) /\ (t = E -> m' = m).
Proof.
  intros H D. destruct t as [|a c l v r].
  - exists m. simpl. auto.
  - simpl rt. destruct H as (Ha & Hl & Hr). assert (A0 : a <> 0) by (intros ->; dist D 0). rewrite (proj2 (Z.eqb_neq a 0) A0). unfold set_par. rewrite (get_eq _ _ _ A0 Ha). cbn [obind lft rgt col val].
    eexists. split; [reflexivity|]. split; [|split; [intros z Hz; now apply put_ne|discriminate]]. simpl. split; [apply put_eq|].
    split; (apply (rep_frame m); [|assumption]; intros z Hz; apply put_ne; intros ->; dist D a).
Qed.

Lemma rotate_ok m R h lm rm k s x cx ta vx y cy tb vy td :
  W m R h lm rm k (mk s x cx ta vx (mk s y cy tb vy td)) ->
  exists m', rotate s m h x = Some m' /\ W m' R h lm rm k (mk s y cy (mk s x cx ta vx tb) vy td).
Proof.
  intros H. destruct (W_mk _ _ _ _ _ _ _ H) as (Gx & X0 & Xh). pose proof (W_h0 _ _ H) as H0. destruct H as [Hh Hs Ht D HR].
  rewrite rt_mk in *. apply rep_mk in Ht as (Hx & Ha & Ht). rewrite rt_mk in *. apply rep_mk in Ht as (Hy & Hb & Hd).
  assert (D' : forall z, (one 0 z + one h z + kc z k + (one x z + tc z ta + (one y z + tc z tb + tc z td)) <= 1)%nat) by (intros z; specialize (D z); rewrite !tc_mk in D; exact D). clear D.
  rename D' into D.
  assert (Y0 : y <> 0) by (intros ->; dist D 0). assert (Yh : y <> h) by (intros ->; dist D h). assert (XY : x <> y) by (intros ->; dist D y).
  unfold rotate. rewrite Gx. cbn [obind]. cbv zeta. rewrite kid_cell'. rewrite (get_eq _ _ _ Y0 Hy). cbn [obind]. rewrite kid_cell.
  rewrite (set_kid_cell' _ _ _ _ _ _ _ _ (rt tb) X0 Hx). cbn [obind].
  set (m1 := put m x _).
  assert (Hb1 : rep m1 y tb). { apply (rep_frame m); [|exact Hb]. intros z Hz. apply put_ne. intros ->. dist D x. }
  destruct (rep_set_par m1 y x tb Hb1) as (m2 & E2 & Hb2 & F2 & _). { intros z. specialize (D z). lia. }
  rewrite E2. cbn [obind].
  assert (Bx : x <> rt tb). { destruct tb as [|b cb bl vb br]; [exact X0|]. simpl. intros ->. dist D b. }
  assert (By : y <> rt tb). { destruct tb as [|b cb bl vb br]; [exact Y0|]. simpl. intros ->. dist D b. }
  assert (M2x : m2 x = Some (cell (up h k) s (rt ta) (rt tb) cx vx)) by (rewrite F2 by exact Bx; apply put_eq).
  rewrite (get_eq _ _ _ X0 M2x). cbn [obind]. rewrite par_cell.
  assert (M2y : m2 y = Some (cell x s (rt tb) (rt td) cy vy)). { rewrite F2 by exact By. unfold m1. rewrite put_ne by congruence. exact Hy. }
  rewrite (set_par_cell _ _ _ _ _ _ _ _ (up h k) Y0 M2y). cbn [obind].
  set (m3 := put m2 y _).
  assert (F3 : forall z, z <> x -> z <> y -> z <> rt tb -> m3 z = m z). { intros z Zx Zy Zb. unfold m3. rewrite put_ne by exact Zy. rewrite F2 by exact Zb. unfold m1. now apply put_ne. }
  assert (Zb' : forall z, (1 <= one h z + kc z k + tc z ta + tc z td)%nat -> z <> rt tb).
  { intros z Hz ->. destruct tb as [|b cb bl vb br]; cbn [rt] in *; [|dist D b]. pose proof (D 0) as DD. rewrite one_refl in DD. lia. }
  assert (Hk3 : seg m3 h k x).
  { apply (seg_frame m); [|exact Hs]. intros z Hz. apply F3; [intros ->; dist D x|intros ->; dist D y|]. apply Zb'. lia. }
  assert (Hh3 : m3 h = Some (mkNd (top k x) lm rm (Some false) None)). { rewrite F3; [exact Hh|congruence|congruence|]. apply Zb'. rewrite one_refl. lia. }
  assert (M3x : m3 x = Some (cell (up h k) s (rt ta) (rt tb) cx vx)) by (unfold m3; rewrite put_ne by exact XY; exact M2x).
  destruct (relink_ok m3 h lm rm k x y (up h k) _ H0 X0 Hh3 Hk3 M3x (par_cell _ _ _ _ _ _)) as (m4 & E4 & Hh4 & Hk4 & F4); [intros z; specialize (D z); lia|reflexivity|].
  rewrite E4. cbn [obind].
  assert (Ux : forall z, (1 <= one x z + one y z + tc z ta + tc z tb + tc z td)%nat -> z <> up h k).
  { intros z Hz ->. destruct k as [|[s' a c v b] k]; simpl up in *; [dist D h|dist D a]. }
  assert (M4y : m4 y = Some (cell (up h k) s (rt tb) (rt td) cy vy)). { rewrite F4; [apply put_eq|]. apply Ux. rewrite one_refl. lia. }
  rewrite (set_kid_cell _ _ _ _ _ _ _ _ x Y0 M4y). cbn [obind].
  assert (M4x : m4 x = Some (cell (up h k) s (rt ta) (rt tb) cx vx)). { rewrite F4; [exact M3x|]. apply Ux. rewrite one_refl. lia. }
  rewrite (set_par_cell s _ x (up h k) (rt ta) (rt tb) cx vx y X0) by (rewrite put_ne by exact XY; exact M4x).
  eexists. split; [reflexivity|].
  assert (F6 : forall z, z <> x -> z <> y -> put (put m4 y (cell (up h k) s x (rt td) cy vy)) x (cell y s (rt ta) (rt tb) cx vx) z = m4 z).
  { intros z Zx Zy. rewrite put_ne by exact Zx. now apply put_ne. }
  constructor.
  - rewrite rt_mk. rewrite F6 by congruence. exact Hh4.
  - rewrite rt_mk. apply (seg_frame m4); [|exact Hk4]. intros z Hz. apply F6; intros ->; [dist D x|dist D y].
  - apply rep_mk. rewrite rt_mk. split; [rewrite put_ne by congruence; apply put_eq|]. split.
    + apply rep_mk. split; [apply put_eq|]. split.
      * apply (rep_frame m); [|exact Ha]. intros z Hz. rewrite F6 by (intros ->; first [dist D x|dist D y]). rewrite F4 by (apply Ux; lia). apply F3; [intros ->; dist D x|intros ->; dist D y|]. apply Zb'. lia.
      * apply (rep_frame m2); [|exact Hb2]. intros z Hz. rewrite F6 by (intros ->; first [dist D x|dist D y]). rewrite F4 by (apply Ux; lia). unfold m3. apply put_ne. intros ->. dist D y.
    + apply (rep_frame m); [|exact Hd]. intros z Hz. rewrite F6 by (intros ->; first [dist D x|dist D y]). rewrite F4 by (apply Ux; lia). apply F3; [intros ->; dist D x|intros ->; dist D y|]. apply Zb'. lia.
  - intros z. rewrite !tc_mk. specialize (D z). lia.
  - intros z Hz. rewrite !tc_mk in Hz. rewrite <- HR by (rewrite !tc_mk; lia).
    assert (Zx : z <> x) by (intros ->; rewrite one_refl in Hz; lia). assert (Zy : z <> y) by (intros ->; rewrite one_refl in Hz; lia).
    rewrite F6 by assumption. rewrite F4; [apply F3; auto|].
    + intros ->. destruct tb as [|b cb bl vb br]; simpl rt in *; simpl tc in *; rewrite one_refl in Hz; lia.
    + intros ->. destruct k as [|[s' a c v b] k]; simpl in *; rewrite one_refl in Hz; lia.
Qed.

(** ** balance *)
Definition blk t : bool := match t with N _ false _ _ _ => false | _ => true end.
(** [n] black nodes on every way down, no red node with a red child *)
Fixpoint bal t (n : nat) : Prop :=
  match t with
  | E => n = O
  | N _ true l _ r => match n with O => False | S n => bal l n /\ bal r n end
  | N _ false l _ r => blk l = true /\ blk r = true /\ bal l n /\ bal r n
  end.
Definition rbtree t : Prop := blk t = true /\ exists n, bal t n.
Definition kblk k : bool := match k with F _ _ c _ _ :: _ => c | [] => false end.
(** a subtree of black height [n] fits into [k] *)
Fixpoint balc k (n : nat) : Prop :=
  match k with
  | [] => True
  | F _ _ true _ b :: k => bal b n /\ balc k (S n)
  | F _ _ false _ b :: k => bal b n /\ blk b = true /\ kblk k = true /\ balc k n
  end.
Lemma blk_mk s a c t1 v t2 : blk (mk s a c t1 v t2) = c.
Proof. destruct s, c; reflexivity. Qed.
Lemma bal_mk_t s a t1 v t2 n : bal (mk s a true t1 v t2) (S n) <-> bal t1 n /\ bal t2 n.
Proof. destruct s; simpl; tauto. Qed.
Lemma bal_mk_f s a t1 v t2 n : bal (mk s a false t1 v t2) n <-> blk t1 = true /\ blk t2 = true /\ bal t1 n /\ bal t2 n.
Proof. destruct s; simpl; tauto. Qed.
Lemma plug_bal k : forall t n, bal t n -> balc k n -> (kblk k = false -> blk t = true) -> rbtree (plug k t).
Proof.
  induction k as [|[s a c v b] k IH]; intros t n B K C.
  - split; [apply C; reflexivity|]. exists n. exact B.
  - simpl plug. simpl kblk in C. destruct c; simpl balc in K.
    + apply (IH _ (S n)); [apply bal_mk_t; tauto|tauto|]. intros _. apply blk_mk.
    + destruct K as (K1 & K2 & K3 & K4). apply (IH _ n); [|exact K4|congruence]. apply bal_mk_f. auto.
Qed.
Lemma nodes_plug k : forall t t', nodes t = nodes t' -> nodes (plug k t) = nodes (plug k t').
Proof. induction k as [|[s a c v b] k IH]; intros t t' H; [exact H|]. simpl plug. apply IH. destruct s; simpl; rewrite H; reflexivity. Qed.
Lemma nodes_rot s x cx ta vx y cy tb vy td cx' cy' : nodes (mk s x cx ta vx (mk s y cy tb vy td)) = nodes (mk s y cy' (mk s x cx' ta vx tb) vy td).
Proof. destruct s; simpl; rewrite <- !app_assoc; reflexivity. Qed.
Lemma nodes_col s x c c' ta v tb : nodes (mk s x c ta v tb) = nodes (mk s x c' ta v tb).
Proof. destruct s; reflexivity. Qed.
Lemma nodes_mk s x c c' ta ta' v tb tb' : nodes ta = nodes ta' -> nodes tb = nodes tb' -> nodes (mk s x c ta v tb) = nodes (mk s x c' ta' v tb').
Proof. intros H1 H2. destruct s; simpl; rewrite H1, H2; reflexivity. Qed.
Definition paint t : tree := match t with E => E | N a _ l v r => N a true l v r end.
Lemma paint_blk t : blk t = true -> paint t = t.
Proof. destruct t as [|a [|] l v r]; simpl; congruence. Qed.
Lemma nodes_paint t : nodes (paint t) = nodes t.
Proof. destruct t; reflexivity. Qed.
Lemma bal_paint t n : bal t n -> blk t = false -> bal (paint t) (S n).
Proof. destruct t as [|a [|] l v r]; simpl; try discriminate. tauto. Qed.
Lemma plug_E k t : t <> E -> plug k t <> E.
Proof. revert t. induction k as [|[s a c v b] k IH]; intros t H; [exact H|]. simpl. apply IH. destruct s; discriminate. Qed.
Lemma mk_E s a c t1 v t2 : mk s a c t1 v t2 <> E.
Proof. destruct s; discriminate. Qed.
Lemma tree_mk s t : t <> E -> exists a c t1 v t2, t = mk s a c t1 v t2.
Proof. destruct t as [|a c l v r]; [congruence|]. intros _. destruct s; [exists a, c, l, v, r|exists a, c, r, v, l]; reflexivity. Qed.

Lemma W_red m R h lm rm k s a c t1 v t2 : W m R h lm rm k (mk s a c t1 v t2) -> red m a = Some (negb c).
Proof. intros H. unfold red. destruct (W_mk _ _ _ _ _ _ _ H) as (G & _). rewrite G. cbn [obind]. rewrite col_cell. reflexivity. Qed.
Lemma W_red' m R h lm rm k t : W m R h lm rm k t -> (if rt t =? 0 then Some false else red m (rt t)) = Some (negb (blk t)).
Proof.
  intros H. destruct t as [|a c l v r]; [reflexivity|]. simpl rt. destruct (W_node _ _ _ _ _ _ H) as (G & A0 & _). rewrite (proj2 (Z.eqb_neq a 0) A0). unfold red. rewrite G. cbn [obind col]. destruct c; reflexivity.
Qed.
Lemma W_nored m R h lm rm k t : W m R h lm rm k t -> nored m (rt t) = Some (blk t).
Proof.
  intros H. apply W_red' in H. unfold nored. destruct (rt t =? 0); [injection H as H; rewrite <- (negb_involutive (blk t)), <- H; reflexivity|]. rewrite H. cbn [obind]. now rewrite negb_involutive.
Qed.
(** down to the other side *)
Lemma W_down2 m R h lm rm k s a c t1 v t2 : W m R h lm rm k (mk s a c t1 v t2) <-> W m R h lm rm (F (negb s) a c v t1 :: k) t2.
Proof. rewrite W_up. now rewrite mk_flip. Qed.

(** ** insertion *)
Section Ins.
Context {R : mem} {h lm rm : Z}.
Notation W m := (W m R h lm rm).
Lemma ins_far_end m k s g q A vq B vg u n : W m k (mk s g true (mk s q false A vq B) vg u) -> A <> E -> bal A n -> bal B n -> blk B = true -> bal u n -> blk u = true -> balc k (S n) ->
  exists m' T, (let* nx := get m (rt A) in
    let p := par nx in
    let* m := set_col m p (Some true) in
    let* np := get m p in
    let g := par np in
    let* m := set_col m g (Some false) in
    rotate (negb s) m h g) = Some m' /\ W m' [] T /\ nodes T = nodes (plug k (mk s g true (mk s q false A vq B) vg u)) /\ rbtree T.
Proof.
  intros H AE BA BB CB BU CU K. rewrite <- W_up in H. rewrite <- W_up in H. destruct A as [|x cx l v r]; [congruence|]. simpl rt.
  destruct (W_node _ _ _ _ _ _ H) as (G & _). rewrite G. cbn [obind par up]. cbv zeta.
  destruct (W_setcol_par _ _ _ _ _ _ _ _ _ true _ _ _ H) as (m1 & E1 & H1). rewrite E1. cbn [obind].
  destruct (W_par _ _ _ _ _ _ _ H1) as (Gq & _). rewrite Gq. cbn [obind]. rewrite par_cell. cbn [up].
  rewrite W_up in H1. destruct (W_setcol_par _ _ _ _ _ _ _ _ _ false _ _ _ H1) as (m2 & E2 & H2). rewrite E2. cbn [obind].
  rewrite W_up in H2. rewrite <- (mk_flip s g), <- (mk_flip s q) in H2.
  destruct (rotate_ok _ _ _ _ _ _ _ _ _ _ _ _ _ _ _ _ H2) as (m3 & E3 & H3). rewrite E3. exists m3. eexists. split; [reflexivity|]. split; [exact (proj1 (W_plug _ _ _ _ _ _ _) H3)|]. split.
  - apply nodes_plug. rewrite !mk_flip. rewrite <- (mk_flip s g true), <- (mk_flip s q false). rewrite (nodes_rot (negb s) g true u vg q false B vq _ false true). now rewrite !mk_flip.
  - apply (plug_bal k _ (S n)); [|exact K|intros _; apply blk_mk]. apply bal_mk_t. split; [|exact BA]. apply bal_mk_f. auto.
Qed.
Lemma ins_far_ok m k s s1 g p vp b vg u x l v r n : W m k (mk s g true (mk s1 p false (N x false l v r) vp b) vg u) ->
  bal l n -> bal r n -> blk l = true -> blk r = true -> bal b n -> blk b = true -> bal u n -> blk u = true -> balc k (S n) ->
  exists m' T, ins_far s m h x p = Some m' /\ W m' [] T /\ nodes T = nodes (plug k (mk s g true (mk s1 p false (N x false l v r) vp b) vg u)) /\ rbtree T.
Proof.
  intros H BL BR CL CR BB CB BU CU K. unfold ins_far. pose proof H as H'. rewrite <- W_up in H'. rewrite <- W_up in H'.
  pose proof (W_lchild _ _ _ _ _ _ _ _ _ _ _ _ H' ltac:(discriminate)) as Lx. simpl rt in Lx. rewrite Lx. cbn [obind].
  destruct (Bool.eqb s1 s) eqn:Es.
  - apply eqb_prop in Es. subst s1. cbn [obind]. change x with (rt (N x false l v r)) at 1. apply (ins_far_end m k s g p _ vp b vg u n); auto; [discriminate|simpl; auto].
  - apply eqb_false_iff in Es. assert (s1 = negb s) by (destruct s, s1; simpl; congruence). subst s1. rewrite mk_flip in H. rewrite <- W_up in H.
    assert (X : exists xs xn, N x false l v r = mk s x false xs v xn /\ bal xs n /\ bal xn n /\ blk xs = true /\ blk xn = true) by (destruct s; [exists l, r|exists r, l]; auto).
    destruct X as (xs & xn & X & BS & BN & CS & CN). rewrite X in *. destruct (rotate_ok _ _ _ _ _ _ _ _ _ _ _ _ _ _ _ _ H) as (m1 & E1 & H1). rewrite E1. cbn [obind].
    rewrite W_up in H1. change p with (rt (N p false E v E)) at 1. replace (rt (N p false E v E)) with (rt (mk s p false b vp xs)) by now rewrite rt_mk.
    destruct (ins_far_end m1 k s g x (mk s p false b vp xs) v xn vg u n H1) as (m' & T & E2 & H2 & N2 & B2); auto; [apply mk_E|apply bal_mk_f; auto|].
    exists m', T. split; [exact E2|]. split; [exact H2|]. split; [|exact B2]. rewrite N2. apply nodes_plug. apply nodes_mk; [|reflexivity]. rewrite mk_flip. symmetry. apply nodes_rot.
Qed.
Lemma ins_loop_ok : forall fuel k m x l v r n, (length k < fuel)%nat -> W m k (N x false l v r) -> bal l n -> bal r n -> blk l = true -> blk r = true -> balc k n ->
  exists m' T, ins_loop fuel m h x = Some m' /\ W m' [] T /\ nodes T = nodes (plug k (N x false l v r)) /\ T <> E /\ exists n', bal (paint T) n'.
Proof.
  induction fuel as [|fuel IH]; intros k m x l v r n Hf H BL BR CL CR K; [lia|]. cbn [ins_loop].
  rewrite (W_hdr _ _ H). cbn [obind par]. pose proof (W_root _ _ H) as Q. simpl rt in Q. simpl rt. rewrite Q. destruct k as [|[s1 p c vp b] k].
  - exists m, (N x false l v r). split; [reflexivity|]. split; [exact H|]. split; [reflexivity|]. split; [discriminate|]. exists (S n). simpl. auto.
  - destruct (W_node _ _ _ _ _ _ H) as (G & _). rewrite G. cbn [obind par up]. cbv zeta. pose proof H as Hp. rewrite W_up in Hp. rewrite (W_red _ _ _ _ _ _ _ _ _ _ _ _ Hp). cbn [obind]. rewrite negb_involutive.
    destruct c.
    + exists m. eexists. split; [reflexivity|]. split; [exact (proj1 (W_plug _ _ _ _ _ _ _) H)|]. split; [reflexivity|]. split; [apply plug_E; discriminate|].
      destruct (plug_bal (F s1 p true vp b :: k) (N x false l v r) n) as (C & n' & B); [simpl; auto|exact K|discriminate|]. exists n'. now rewrite paint_blk.
    + destruct K as (BB & CB & KB & K). destruct k as [|[s g c vg u] k]; [discriminate|]. simpl in KB. subst c. destruct K as (BU & K).
      pose proof (W_lchild _ _ _ _ _ _ _ _ _ _ _ _ Hp (mk_E _ _ _ _ _ _)) as Ls. rewrite rt_mk in Ls. rewrite Ls. cbn [obind].
      destruct (W_mk _ _ _ _ _ _ _ Hp) as (Gp & _). rewrite Gp. cbn [obind]. rewrite par_cell. cbn [up]. destruct (W_par _ _ _ _ _ _ _ Hp) as (Gg & _). rewrite Gg. cbn [obind]. rewrite kid_cell'.
      pose proof Hp as Hg. rewrite W_up in Hg. pose proof Hg as Hu. rewrite W_down2 in Hu. rewrite (W_red' _ _ _ _ _ _ _ Hu). cbn [obind].
      destruct (blk u) eqn:CU; cbn [negb].
      * destruct (ins_far_ok m k s s1 g p vp b vg u x l v r n Hg) as (m' & T & E' & H' & N' & C' & n' & B'); auto.
        exists m', T. split; [exact E'|]. split; [exact H'|]. split; [rewrite N'; reflexivity|]. split.
        -- intros ->. assert (X : nodes (plug k (mk s g true (mk s1 p false (N x false l v r) vp b) vg u)) = []) by (rewrite <- N'; reflexivity).
           revert X. clear. intros X. assert (Y : plug k (mk s g true (mk s1 p false (N x false l v r) vp b) vg u) <> E) by (apply plug_E, mk_E).
           destruct (plug k _); [congruence|]. simpl in X. destruct (nodes t1); discriminate.
        -- exists n'. now rewrite paint_blk.
      * destruct (W_setcol_par _ _ _ _ _ _ _ _ _ true _ _ _ H) as (m1 & E1 & H1). rewrite E1. cbn [obind]. rewrite W_up, W_up, W_down2 in H1.
        destruct u as [|au [|] ul vu ur]; [discriminate|discriminate|]. destruct (W_setcol _ _ _ _ _ _ _ _ true _ _ _ H1) as (m2 & E2 & H2). simpl rt. rewrite E2. cbn [obind].
        rewrite <- W_down2 in H2. destruct (W_setcol_mk _ _ _ _ _ _ _ _ _ false _ _ _ H2) as (m3 & E3 & H3). rewrite E3. cbn [obind].
        assert (Y : exists l' r', mk s g false (mk s1 p true (N x false l v r) vp b) vg (N au true ul vu ur) = N g false l' vg r' /\ bal l' (S n) /\ bal r' (S n) /\ blk l' = true /\ blk r' = true).
        { assert (B1 : bal (mk s1 p true (N x false l v r) vp b) (S n)) by (apply bal_mk_t; split; [simpl; auto|exact BB]).
          assert (B2 : bal (N au true ul vu ur) (S n)) by (destruct BU as (_ & _ & U1 & U2); simpl; auto).
          assert (B3 : blk (mk s1 p true (N x false l v r) vp b) = true) by apply blk_mk.
          destruct s; [eexists; eexists; split; [reflexivity|auto]|eexists; eexists; split; [reflexivity|auto]]. }
        destruct Y as (l' & r' & Y & B1 & B2 & C1 & C2). rewrite Y in H3. simpl length in Hf.
        destruct (IH k m3 g l' vg r' (S n) ltac:(lia) H3 B1 B2 C1 C2 K) as (m' & T & E' & H' & N' & X').
        exists m', T. split; [exact E'|]. split; [exact H'|]. split; [|exact X']. rewrite N', <- Y. simpl plug. apply nodes_plug. apply nodes_mk; [apply nodes_mk; reflexivity|reflexivity].
Qed.
(** the new node is already linked *)
Lemma ins_rebalance_ok fuel k m x c v : (length k < fuel)%nat -> W m k (N x c E v E) -> balc k 0 ->
  exists m' T, ins_rebalance fuel m h x = Some m' /\ W m' [] T /\ nodes T = nodes (plug k (N x c E v E)) /\ rbtree T.
Proof.
  intros Hf H K. unfold ins_rebalance. destruct (W_setcol _ _ _ _ _ _ _ _ false _ _ _ H) as (m1 & E1 & H1). rewrite E1. cbn [obind].
  destruct (ins_loop_ok fuel k m1 x E v E 0%nat Hf H1) as (m2 & T & E2 & H2 & N2 & TE & n & B2); try reflexivity; [exact K|]. rewrite E2. cbn [obind].
  rewrite (W_hdr _ _ H2). cbn [obind par top]. destruct T as [|a ca l w r]; [congruence|]. simpl rt.
  destruct (W_setcol _ _ _ _ _ _ _ _ true _ _ _ H2) as (m3 & E3 & H3). exists m3, (N a true l w r). split; [exact E3|]. split; [exact H3|]. split.
  - rewrite <- (nodes_paint (N a ca l w r)) in N2. simpl paint in N2. rewrite N2. apply nodes_plug. reflexivity.
  - split; [reflexivity|]. exists n. exact B2.
Qed.
End Ins.
End Proof.
