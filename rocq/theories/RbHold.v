(** Red-black trees in memory: what an object holds, and the operations that change it. *)
From Coq Require Import ZArith List Bool Lia.
From Verif Require Import F64 RbModel RbProof RbErase RbUnlink RbClass.
Import ListNotations.
Open Scope Z_scope.
Open Scope opt_scope.

Section Proof.
Context {V : Type}.
Notation mem := (@memory V).
Notation nd := (@nd V).
Notation tree := (@tree V).
Notation frame := (@frame V).
Implicit Types (m R : mem) (h p q x y z a : Z) (s c : bool) (v : V) (t l r b : tree) (k : list frame) (e : list (Z * V)) (o : obj).
Ltac dist D z := let DD := fresh in pose proof (D z) as DD; cbn [tc kc] in DD; rewrite ?tc_mk, ?one_refl in DD; lia.

(** The memory [m] is the tree of [o], with the nodes [e] in order, and beside it the memory [R]. *)
Definition holds m R o e : Prop := exists t, W m R (hdr o) (first (hdr o) e) (final (hdr o) e) [] t /\ nodes t = e /\ rbtree t /\ cnt o = length e /\
  forall z, (1 <= one (hdr o) z + ac z e)%nat -> R z = None.

Lemma W_frame m m' R R' h lm rm k t : W m R h lm rm k t -> (forall z, (1 <= one h z + kc z k + tc z t)%nat -> m' z = m z) ->
  (forall z, (one 0 z + one h z + kc z k + tc z t)%nat = 0%nat -> m' z = R' z) -> W m' R' h lm rm k t.
Proof.
  intros [Hh Hk Ht D HR] F1 F2. constructor; [|apply (seg_frame m); [|exact Hk]; intros w Hw; apply F1; lia|apply (rep_frame m); [|exact Ht]; intros w Hw; apply F1; lia|exact D|exact F2].
  rewrite F1; [exact Hh|rewrite one_refl; lia].
Qed.
Lemma ins_rebalance_ok' R h lm rm fuel k m m1 x v : (length k < fuel)%nat -> set_col m x (Some false) = Some m1 -> W m1 R h lm rm k (N x false E v E) -> balc k 0 ->
  exists m' T, ins_rebalance fuel m h x = Some m' /\ W m' R h lm rm [] T /\ nodes T = nodes (plug k (N x false E v E)) /\ rbtree T.
Proof.
  intros Hf E1 H1 K. unfold ins_rebalance. rewrite E1. cbn [obind].
  destruct (ins_loop_ok fuel k m1 x E v E 0%nat Hf H1) as (m2 & T & E2 & H2 & N2 & TE & n & B2); try reflexivity; [exact K|]. rewrite E2. cbn [obind].
  rewrite (W_hdr _ _ H2). cbn [obind par top]. destruct T as [|a ca l w r]; [congruence|]. simpl rt.
  destruct (W_setcol _ _ _ _ _ _ _ _ true _ _ _ H2) as (m3 & E3 & H3). exists m3, (N a true l w r). split; [exact E3|]. split; [exact H3|]. split.
  - rewrite <- (nodes_paint (N a ca l w r)) in N2. simpl paint in N2. rewrite N2. apply nodes_plug. reflexivity.
  - split; [reflexivity|]. exists n. exact B2.
Qed.

(** ** insertion at an open place *)
Lemma insert_at_ok m R o k a v left_ n0 : let h := hdr o in
  W m R h (first h (lefts k ++ rights k)) (final h (lefts k ++ rights k)) k E -> balc k 0 -> (length k < fuel_of o)%nat ->
  m a = Some (mkNd 0 0 0 n0 (Some v)) -> a <> 0 -> a <> h -> kc a k = 0%nat -> (k <> [] -> left_ = side k) ->
  exists m' T, insert_node_at m o (up h k) a left_ = Some (m', mkObj h (S (cnt o))) /\
    W m' R h (first h (lefts k ++ (a, v) :: rights k)) (final h (lefts k ++ (a, v) :: rights k)) [] T /\ nodes T = lefts k ++ (a, v) :: rights k /\ rbtree T.
Proof.
  intros h H B Hf Ha A0 Ah Ak Hs. unfold insert_node_at. fold h. unfold set_par at 1. rewrite (get_eq _ _ _ A0 Ha). cbn [obind lft rgt col val].
  set (m1 := put m a _). pose proof (W_h0 _ _ H) as H0. pose proof (W_hdr _ _ H) as Gh. pose proof (W_1 _ _ _ _ _ _ _ H) as D.
  assert (X : exists m3, (if up h k =? h then
      let* m := set_par m1 h a in let* m := set_lft m h a in set_rgt m h a
    else if left_ then
      let* m := set_lft m1 (up h k) a in let* hd := get m h in if lft hd =? up h k then set_lft m h a else Some m
    else
      let* m := set_rgt m1 (up h k) a in let* hd := get m h in if rgt hd =? up h k then set_rgt m h a else Some m) = Some m3 /\
    m3 a = Some (mkNd (up h k) 0 0 n0 (Some v)) /\
    m3 h = Some (mkNd (top k a) (first h (lefts k ++ (a, v) :: rights k)) (final h (lefts k ++ (a, v) :: rights k)) (Some false) None) /\
    seg m3 h k a /\ forall w, w <> a -> w <> h -> w <> up h k -> m3 w = m w).
  { destruct H as [Hh Hk Ht _ HR]. cbn [rt] in *. destruct k as [|[s x c w b] k]; cbn [up].
    - rewrite Z.eqb_refl. unfold set_par. assert (Hh1 : m1 h = m h) by (unfold m1; apply put_ne; congruence). rewrite Hh in Hh1. rewrite (get_eq m1 h _ H0 Hh1). cbn [obind lft rgt col val].
      unfold set_lft. rewrite (get_eq _ h _ H0 (put_eq _ _ _)). cbn [obind par rgt col val]. unfold set_rgt. rewrite (get_eq _ h _ H0 (put_eq _ _ _)). cbn [obind par lft col val].
      eexists. split; [reflexivity|]. split; [rewrite !put_ne by congruence; apply put_eq|]. split; [rewrite put_eq; reflexivity|]. split; [exact I|].
      intros w W1 W2 _. unfold m1. now rewrite !put_ne by congruence.
    - assert (X0 : x <> 0) by (intros ->; dist D 0). assert (Xh : x <> h) by (intros ->; dist D h). assert (XA : x <> a) by (intros ->; cbn [kc] in Ak; rewrite one_refl in Ak; lia).
      rewrite (proj2 (Z.eqb_neq _ _) Xh). rewrite (Hs ltac:(discriminate)). cbn [side]. clear Hs. destruct Hk as (Hx & Hb & Hk). cbn [rt] in *.
      assert (Hx1 : m1 x = Some (cell (up h k) s 0 (rt b) c w)) by (unfold m1; rewrite put_ne by congruence; exact Hx).
      set (m2 := put m1 x (cell (up h k) s a (rt b) c w)).
      assert (Hh2 : m2 h = Some (mkNd (top (F s x c w b :: k) 0) (first h (lefts (F s x c w b :: k) ++ rights (F s x c w b :: k))) (final h (lefts (F s x c w b :: k) ++ rights (F s x c w b :: k))) (Some false) None)) by (unfold m2, m1; rewrite !put_ne by congruence; exact Hh).
      assert (Y : exists m3, (if s then let* m := set_lft m1 x a in let* hd := get m h in if lft hd =? x then set_lft m h a else Some m
         else let* m := set_rgt m1 x a in let* hd := get m h in if rgt hd =? x then set_rgt m h a else Some m) = Some m3 /\
         m3 h = Some (mkNd (top k x) (first h (lefts (F s x c w b :: k) ++ (a, v) :: rights (F s x c w b :: k))) (final h (lefts (F s x c w b :: k) ++ (a, v) :: rights (F s x c w b :: k))) (Some false) None) /\
         forall w, w <> h -> m3 w = m2 w).
      { pose proof (set_kid_cell s m1 x _ _ _ _ _ a X0 Hx1) as E2. fold m2 in E2. cbn [top] in Hh2.
        assert (Dx : (ac x (lefts k) + ac x (rights k))%nat = 0%nat) by (pose proof (ac_kc x k); dist D x).
        destruct s; unfold set_kid in E2; rewrite E2; cbn [obind]; rewrite (get_eq _ _ _ H0 Hh2); cbn [obind lft rgt].
        - cbn [lefts rights] in *. destruct (lefts k) as [|[al vl] ll] eqn:EL.
          + cbn [app first] in *. rewrite Z.eqb_refl. unfold set_lft. rewrite (get_eq _ _ _ H0 Hh2). cbn [obind par lft rgt col val]. eexists. split; [reflexivity|]. split; [|intros w' W'; now apply put_ne].
            rewrite put_eq. do 2 f_equal. change ((a, v) :: (x, w) :: nodes b ++ rights k) with ([(a, v)] ++ ((x, w) :: nodes b ++ rights k)). symmetry. apply final_app. discriminate.
          + cbn [app first] in *. cbn [ac] in Dx. rewrite (proj2 (Z.eqb_neq al x)) by (intros ->; rewrite one_refl in Dx; lia). exists m2. split; [reflexivity|]. split; [|auto]. rewrite Hh2. do 2 f_equal.
            change ((al, vl) :: ll ++ (x, w) :: nodes b ++ rights k) with (((al, vl) :: ll) ++ ((x, w) :: nodes b ++ rights k)). 
            change ((al, vl) :: ll ++ (a, v) :: (x, w) :: nodes b ++ rights k) with (((al, vl) :: ll) ++ ([(a, v)] ++ ((x, w) :: nodes b ++ rights k))). rewrite !final_app by discriminate. reflexivity.
        - cbn [lefts rights] in *. destruct (rev (rights k)) as [|[al vl] ll] eqn:EL.
          + assert (ER : rights k = []) by (rewrite <- (rev_involutive (rights k)), EL; reflexivity). rewrite ER in *. rewrite app_nil_r in *.
            assert (EF : final h (lefts k ++ nodes b ++ [(x, w)]) = x) by (rewrite app_assoc; apply final_last). rewrite EF in *. rewrite Z.eqb_refl.
            unfold set_rgt. rewrite (get_eq _ _ _ H0 Hh2). cbn [obind par lft rgt col val]. eexists. split; [reflexivity|]. split; [|intros w' W'; now apply put_ne].
            rewrite put_eq, final_last. do 2 f_equal. symmetry. apply first_app. intros Q. apply app_eq_nil in Q as [_ Q]. apply app_eq_nil in Q as [_ Q]. discriminate.
          + assert (ER : rights k <> []) by (intros Q; rewrite Q in EL; discriminate). rewrite final_app in * by exact ER.
            assert (EF : final h (rights k) <> x) by (pose proof (@final_in _ h (rights k) ER) as I; intros Q; rewrite Q in I; lia). rewrite (proj2 (Z.eqb_neq _ _) EF).
            exists m2. split; [reflexivity|]. split; [|auto]. rewrite Hh2. do 2 f_equal.
            * set (q := lefts k ++ nodes b ++ [(x, w)]). assert (Q0 : q <> []) by (intros Q; apply app_eq_nil in Q as [_ Q]; apply app_eq_nil in Q as [_ Q]; discriminate). now rewrite !(first_app h h q).
            * change ((a, v) :: rights k) with ([(a, v)] ++ rights k). rewrite app_assoc. symmetry. now apply final_app. }
      destruct Y as (m3 & E3 & Hh3 & F3). exists m3. split; [exact E3|]. split; [rewrite F3 by congruence; unfold m2; rewrite put_ne by congruence; apply put_eq|]. split; [exact Hh3|]. split.
      + cbn [seg]. split; [|split].
        * rewrite F3 by congruence. apply put_eq.
        * apply (rep_frame m); [|exact Hb]. intros z Hz. rewrite F3 by (intros ->; dist D h). unfold m2, m1. rewrite !put_ne; [reflexivity|intros ->; cbn [kc] in Ak; lia|intros ->; dist D x].
        * apply (seg_frame m); [|exact Hk]. intros z Hz. rewrite F3 by (intros ->; dist D h). unfold m2, m1. rewrite !put_ne; [reflexivity|intros ->; cbn [kc] in Ak; lia|intros ->; dist D x].
      + intros z Z1 Z2 Z3. rewrite F3 by exact Z2. unfold m2, m1. now rewrite !put_ne by congruence. }
  destruct X as (m3 & E3 & Ha3 & Hh3 & Hk3 & F3). rewrite E3. cbn [obind].
  destruct (ins_rebalance_ok' R h (first h (lefts k ++ (a, v) :: rights k)) (final h (lefts k ++ (a, v) :: rights k)) (fuel_of o) k m3 (put m3 a (mkNd (up h k) 0 0 (Some false) (Some v))) a v Hf) as (m' & T & E4 & H4 & N4 & B4).
  - unfold set_col. rewrite (get_eq _ _ _ A0 Ha3). reflexivity.
  - constructor; cbn [rt].
    + rewrite put_ne by congruence. exact Hh3.
    + apply (seg_frame m3); [|exact Hk3]. intros w Hw. apply put_ne. intros ->. lia.
    + cbn [rep rt]. rewrite put_eq. auto.
    + intros w. cbn [tc]. specialize (D w). cbn [tc] in D. unfold one at 3. destruct (Z.eqb_spec a w) as [<-|]; [|lia]. rewrite (one_ne 0 a), (one_ne h a) by congruence. lia.
    + intros w Hw. cbn [tc] in Hw. assert (WA : w <> a) by (intros ->; rewrite one_refl in Hw; lia). rewrite put_ne by exact WA. rewrite F3.
      * apply (W_R _ _ _ _ _ _ _ H). cbn [tc]. lia.
      * exact WA.
      * intros ->. rewrite one_refl in Hw. lia.
      * intros ->. destruct k as [|[s x c w b] k]; cbn [up kc] in *; rewrite one_refl in Hw; lia.
  - exact B.
  - rewrite E4. cbn [obind]. exists m', T. split; [reflexivity|]. split; [exact H4|]. split; [|exact B4]. rewrite N4, plug_nodes. reflexivity.
Qed.
End Proof.
