(** Red-black trees in memory: removal of a node. *)
From Coq Require Import ZArith List Bool Lia.
From Verif Require Import F64 RbModel RbProof.
Import ListNotations.
Open Scope Z_scope.
Open Scope opt_scope.

Section Proof.
Context {V : Type}.
Notation mem := (@memory V).
Notation nd := (@nd V).
Notation tree := (@tree V).
Notation frame := (@frame V).
Implicit Types (m : mem) (h p q x y z a : Z) (s c : bool) (v : V) (t l r b : tree) (k : list frame).
Ltac dist D z := let DD := fresh in pose proof (D z) as DD; cbn [tc kc] in DD; rewrite ?tc_mk, ?one_refl in DD; lia.

(** ** the loop *)
Section Loop.
Context {R : mem} {h lm rm : Z}.
Notation W m := (W m R h lm rm).
(** the black height that the rest needs *)
Definition fits c k (n : nat) : Prop := if c then balc k (S n) else kblk k = true /\ balc k n.
Lemma era_case4_ok m k s xp c vp t ab d1 vb d2 n : W m (F s xp c vp (mk s ab true d1 vb d2) :: k) t ->
  blk d2 = false -> bal t n -> blk t = true -> bal d1 n -> bal d2 n -> fits c k (S n) ->
  exists m', era_case4 s m h xp ab = Some m' /\ W m' (F s xp true vp d1 :: F s ab c vb (paint d2) :: k) t.
Proof.
  intros H C2 BT CT B1 B2 K. unfold era_case4. destruct (W_par _ _ _ _ _ _ _ H) as (Gp & _). rewrite Gp. cbn [obind]. rewrite col_cell.
  rewrite W_up, W_down2 in H. destruct (W_setcol_mk _ _ _ _ _ _ _ _ _ c _ _ _ H) as (m1 & E1 & H1). rewrite E1. cbn [obind].
  destruct (W_setcol_par _ _ _ _ _ _ _ _ _ true _ _ _ H1) as (m2 & E2 & H2). rewrite E2. cbn [obind].
  destruct (W_mk _ _ _ _ _ _ _ H2) as (Gb & _). rewrite Gb. cbn [obind]. rewrite kid_cell'. rewrite W_down2 in H2.
  destruct d2 as [|a2 [|] l2 v2 r2]; [discriminate|discriminate|]. destruct (W_node _ _ _ _ _ _ H2) as (_ & A0 & _). simpl rt. rewrite (proj2 (Z.eqb_neq a2 0) A0).
  destruct (W_setcol _ _ _ _ _ _ _ _ true _ _ _ H2) as (m3 & E3 & H3). rewrite E3. cbn [obind]. rewrite <- W_down2, <- W_down2 in H3.
  destruct (rotate_ok _ _ _ _ _ _ _ _ _ _ _ _ _ _ _ _ H3) as (m4 & E4 & H4). exists m4. split; [exact E4|]. rewrite <- W_up, <- W_up in H4. exact H4.
Qed.
Lemma case4_bal k s xp c vp t ab d1 vb d2 n : blk d2 = false -> bal t n -> blk t = true -> bal d1 n -> bal d2 n -> fits c k (S n) ->
  rbtree (plug (F s xp true vp d1 :: F s ab c vb (paint d2) :: k) t).
Proof.
  intros C2 BT CT B1 B2 K. pose proof (bal_paint _ _ B2 C2) as B2'. apply (plug_bal _ t n); [exact BT| |discriminate]. simpl. split; [exact B1|].
  destruct c; simpl in K.
  - auto.
  - destruct K as [K1 K2]. assert (blk (paint d2) = true) by (destruct d2; reflexivity). auto.
Qed.
Lemma era_far_ok m k s xp c vp t ab b1 vb b2 n : W m (F s xp c vp (mk s ab true b1 vb b2) :: k) t ->
  (blk b1 = false \/ blk b2 = false) -> bal t n -> blk t = true -> bal b1 n -> bal b2 n -> fits c k (S n) ->
  exists m' k', era_far s m h xp ab = Some m' /\ W m' k' t /\ nodes (plug k' t) = nodes (plug (F s xp c vp (mk s ab true b1 vb b2) :: k) t) /\ rbtree (plug k' t) /\ k' <> [].
Proof.
  intros H C12 BT CT B1 B2 K. unfold era_far. pose proof H as Hb. rewrite W_up, W_down2 in Hb. destruct (W_mk _ _ _ _ _ _ _ Hb) as (Gb & _). rewrite Gb. cbn [obind]. rewrite kid_cell', kid_cell.
  pose proof Hb as H2. rewrite W_down2 in H2. rewrite (W_nored _ _ _ _ _ _ _ H2). cbn [obind]. clear H2.
  destruct (blk b2) eqn:C2.
  - destruct C12 as [C1|C1]; [|discriminate]. rewrite <- W_up in Hb. assert (X : b1 <> E) by (intros ->; discriminate). destruct (tree_mk s b1 X) as (a1 & ca & c1 & v1 & c2 & ->). rewrite blk_mk in C1. subst ca. clear X.
    apply bal_mk_f in B1 as (C11 & C12 & B11 & B12). destruct (W_mk _ _ _ _ _ _ _ Hb) as (_ & A0 & _). rewrite rt_mk. rewrite (proj2 (Z.eqb_neq a1 0) A0).
    destruct (W_setcol_mk _ _ _ _ _ _ _ _ _ true _ _ _ Hb) as (m1 & E1 & H1). rewrite E1. cbn [obind].
    destruct (W_setcol_par _ _ _ _ _ _ _ _ _ false _ _ _ H1) as (m2 & E2 & H2). rewrite E2. cbn [obind].
    rewrite W_up in H2. rewrite <- (mk_flip s ab), <- (mk_flip s a1) in H2.
    destruct (rotate_ok _ _ _ _ _ _ _ _ _ _ _ _ _ _ _ _ H2) as (m3 & E3 & H3). rewrite E3. cbn [obind]. rewrite !mk_flip in H3. rewrite <- W_down2 in H3.
    destruct (W_mk _ _ _ _ _ _ _ H3) as (Gx & _). rewrite Gx. cbn [obind]. rewrite kid_cell', rt_mk. rewrite <- W_up in H3.
    destruct (era_case4_ok _ _ _ _ _ _ _ _ _ _ _ n H3) as (m4 & E4 & H4); auto; [apply blk_mk|apply bal_mk_f; auto|].
    exists m4. eexists. split; [exact E4|]. split; [exact H4|]. split; [|split; [|discriminate]].
    + simpl plug. apply nodes_plug. rewrite <- (nodes_rot s xp c t vp a1 c c1 v1 _ true c). apply nodes_mk; [reflexivity|].
      rewrite <- (mk_flip s ab true), <- (mk_flip s a1 false). rewrite (nodes_rot (negb s) ab true b2 vb a1 false c2 v1 c1 false true). rewrite !mk_flip. apply nodes_mk; [reflexivity|]. apply nodes_paint.
    + apply (case4_bal k s xp c vp t a1 c1 v1 _ n); auto; [apply blk_mk|apply bal_mk_f; auto].
  - destruct (era_case4_ok _ _ _ _ _ _ _ _ _ _ _ n H) as (m4 & E4 & H4); auto. exists m4. eexists. split; [exact E4|]. split; [exact H4|]. split; [|split; [|discriminate]].
    + simpl plug. apply nodes_plug. rewrite <- (nodes_rot s xp c t vp ab c b1 vb _ true c). apply nodes_mk; [reflexivity|]. apply nodes_mk; [reflexivity|]. apply nodes_paint.
    + now apply (case4_bal k s xp c vp t ab b1 vb _ n).
Qed.
(** the black height of [t] is one too small for its place *)
Definition deficit t (n : nat) : Prop := (blk t = true /\ bal t n) \/ exists a l v r, t = N a false l v r /\ bal l n /\ bal r n.
Definition finish m x : option mem := if negb (x =? 0) then set_col m x (Some true) else Some m.
Lemma finish_ok m k t : W m k t -> exists m', finish m (rt t) = Some m' /\ W m' k (paint t).
Proof.
  intros H. unfold finish. destruct t as [|a c l v r]; [exists m; auto|]. destruct (W_node _ _ _ _ _ _ H) as (_ & A0 & _). simpl rt. rewrite (proj2 (Z.eqb_neq a 0) A0). exact (W_setcol _ _ _ _ _ _ _ _ true _ _ _ H).
Qed.
Lemma era_exit m k t n : W m k t -> deficit t n -> balc k (S n) -> (k = [] \/ blk t = false) ->
  exists m' T, finish m (rt t) = Some m' /\ W m' [] T /\ nodes T = nodes (plug k t) /\ rbtree T.
Proof.
  intros H Df K C. destruct (finish_ok m k t H) as (m' & E' & H'). exists m', (plug k (paint t)). split; [exact E'|]. split; [apply W_plug in H'; exact H'|]. split; [apply nodes_plug, nodes_paint|].
  destruct Df as [[C1 B]|(a & l & v & r & -> & B1 & B2)].
  - destruct C as [->|C]; [|congruence]. simpl. rewrite paint_blk by exact C1. split; [exact C1|]. exists n. exact B.
  - apply (plug_bal k _ (S n)); [simpl; auto|exact K|reflexivity].
Qed.
Lemma era_loop_ok : forall fuel k m t n, (S (length k) < fuel)%nat -> W m k t -> deficit t n -> balc k (S n) ->
  exists m' T, (let* (m, x) := era_loop fuel m h (rt t) (up h k) in finish m x) = Some m' /\ W m' [] T /\ nodes T = nodes (plug k t) /\ rbtree T.
Proof.
  assert (RED : forall fuel k m t n, (0 < fuel)%nat -> W m k t -> deficit t n -> balc k (S n) -> (k = [] \/ blk t = false) ->
    exists m' T, (let* (m, x) := era_loop fuel m h (rt t) (up h k) in finish m x) = Some m' /\ W m' [] T /\ nodes T = nodes (plug k t) /\ rbtree T).
  { intros fuel k m t n Hf H Df K C. destruct fuel as [|fuel]; [lia|]. cbn [era_loop]. rewrite (W_hdr _ _ H). cbn [obind par]. rewrite (W_root _ _ H).
    destruct k as [|f k]; [cbn [obind]; now apply (era_exit m [] t n)|]. destruct C as [C|C]; [discriminate|]. rewrite (W_nored _ _ _ _ _ _ _ H), C. cbn [obind negb]. apply (era_exit m _ t n); auto. }
  induction fuel as [|fuel IH]; intros k m t n Hf H Df K; [lia|]. destruct (blk t) eqn:CT; [|apply (RED _ _ _ _ n); auto; lia].
  destruct k as [|[s xp c vp b] k]; [apply (RED _ _ _ _ n); auto; lia|].
  assert (BT : bal t n). { destruct Df as [[_ B]|(a & l & v & r & -> & _)]; [exact B|discriminate]. }
  cbn [era_loop]. rewrite (W_hdr _ _ H). cbn [obind par]. rewrite (W_root _ _ H). rewrite (W_nored _ _ _ _ _ _ _ H), CT. cbn [obind negb up].
  destruct (W_par _ _ _ _ _ _ _ H) as (Gx & _). rewrite Gx. cbn [obind]. cbv zeta.
  assert (BB : bal b (S n)) by (destruct c; simpl in K; tauto). assert (bE : b <> E) by (intros ->; discriminate).
  pose proof H as Hb. rewrite W_up in Hb. pose proof (W_sib _ _ _ _ _ _ _ Hb (or_intror bE)) as Sb.
  assert (Q : (rt t =? lft (cell (up h k) s (rt t) (rt b) c vp)) = s) by (destruct s; simpl; [apply Z.eqb_refl|now apply Z.eqb_neq]). rewrite Q, kid_cell'. clear Q.
  destruct (tree_mk s b bE) as (ab & cb & b1 & vb & b2 & ->). rewrite rt_mk.
  (* the rest with a black brother *)
  assert (BLACK : forall m k' c' ab b1 vb b2, W m (F s xp c' vp (mk s ab true b1 vb b2) :: k') t -> bal b1 n -> bal b2 n -> fits c' k' (S n) -> ((length k' < length (F s xp c vp b1 :: k))%nat \/ c' = false) ->
    exists m' T, (let* (m, x) := (let* nb := get m ab in
        let* bl := nored m (lft nb) in
        let* both := if bl then nored m (rgt nb) else Some false in
        if both then
          let* m := set_col m ab (Some false) in
          let* nxp := get m xp in
          era_loop fuel m h xp (par nxp)
        else let* m := era_far s m h xp ab in Some (m, rt t)) in finish m x) = Some m' /\ W m' [] T /\ nodes T = nodes (plug (F s xp c' vp (mk s ab true b1 vb b2) :: k') t) /\ rbtree T).
  { clear m H Gx Hb Sb. intros m k' c' ab' d1 vb' d2 H B1 B2 Fk Lk. pose proof H as Hb. rewrite W_up, W_down2 in Hb. destruct (W_mk _ _ _ _ _ _ _ Hb) as (Gb & _). rewrite Gb. cbn [obind].
    assert (C1 : nored m (rt d1) = Some (blk d1)) by (rewrite <- W_up in Hb; exact (W_nored _ _ _ _ _ _ _ Hb)).
    assert (C2 : nored m (rt d2) = Some (blk d2)) by (rewrite W_down2 in Hb; exact (W_nored _ _ _ _ _ _ _ Hb)).
    set (cl := cell _ s (rt d1) (rt d2) true vb').
    assert (Cb : (let* bl := nored m (lft cl) in if bl then nored m (rgt cl) else Some false) = Some (blk d1 && blk d2)).
    { unfold cl. destruct s; cbn [cell lft rgt]; rewrite ?C1, ?C2; cbn [obind]; [destruct (blk d1); rewrite ?C2; reflexivity|destruct (blk d2); rewrite ?C1, ?andb_true_r, ?andb_false_r; reflexivity]. }
    replace (let* bl := nored m (lft cl) in let* both := if bl then nored m (rgt cl) else Some false in
        if both then let* m := set_col m ab' (Some false) in let* nxp := get m xp in era_loop fuel m h xp (par nxp)
        else let* m := era_far s m h xp ab' in Some (m, rt t))
      with (let* both := (let* bl := nored m (lft cl) in if bl then nored m (rgt cl) else Some false) in
        if both then let* m := set_col m ab' (Some false) in let* nxp := get m xp in era_loop fuel m h xp (par nxp)
        else let* m := era_far s m h xp ab' in Some (m, rt t)) by (destruct (nored m (lft cl)); reflexivity).
    rewrite Cb. cbn [obind]. destruct (blk d1 && blk d2) eqn:C12.
    - apply andb_prop in C12 as [C3 C4]. destruct (W_setcol_mk _ _ _ _ _ _ _ _ _ false _ _ _ Hb) as (m1 & E1 & H1). rewrite E1. cbn [obind].
      destruct (W_par _ _ _ _ _ _ _ H1) as (Gx & _). rewrite Gx. cbn [obind]. rewrite par_cell. rewrite <- W_down2 in H1.
      assert (Rt : xp = rt (mk s xp c' t vp (mk s ab' false d1 vb' d2))) by now rewrite rt_mk.
      assert (Bb : bal (mk s ab' false d1 vb' d2) n) by (apply bal_mk_f; auto).
      replace (era_loop fuel m1 h xp (up h k')) with (era_loop fuel m1 h (rt (mk s xp c' t vp (mk s ab' false d1 vb' d2))) (up h k')) by now rewrite <- Rt.
      destruct c'.
      + destruct Lk as [Lk|Lk]; [|discriminate]. simpl length in *. destruct (IH k' m1 _ (S n) ltac:(lia) H1) as (m' & T & E' & H' & N' & T').
        * left. split; [apply blk_mk|]. apply bal_mk_t. auto.
        * exact Fk.
        * exists m', T. split; [exact E'|]. split; [exact H'|]. split; [|exact T']. rewrite N'. simpl plug. apply nodes_plug. apply nodes_mk; [reflexivity|]. apply nodes_mk; reflexivity.
      + destruct Fk as [F1 F2]. simpl length in *. destruct (RED fuel k' m1 _ n ltac:(lia) H1) as (m' & T & E' & H' & N' & T').
        * right. destruct s; [exists xp, t, vp, (mk true ab' false d1 vb' d2)|exists xp, (mk false ab' false d1 vb' d2), vp, t]; auto.
        * exact F2.
        * right. apply blk_mk.
        * exists m', T. split; [exact E'|]. split; [exact H'|]. split; [|exact T']. rewrite N'. simpl plug. apply nodes_plug. apply nodes_mk; [reflexivity|]. apply nodes_mk; reflexivity.
    - destruct (era_far_ok m k' s xp c' vp t ab' d1 vb' d2 n H) as (m1 & k1 & E1 & H1 & N1 & T1 & K1); auto; [now apply andb_false_iff in C12|]. rewrite E1. cbn [obind].
      destruct (finish_ok m1 k1 t H1) as (m2 & E2 & H2). rewrite E2. rewrite paint_blk in H2 by exact CT. exists m2, (plug k1 t). split; [reflexivity|]. split; [apply W_plug in H2; exact H2|]. auto. }
  unfold era_case1. rewrite W_down2 in Hb. rewrite (W_red _ _ _ _ _ _ _ _ _ _ _ _ Hb). cbn [obind]. destruct cb; cbn [negb].
  - cbn [obind]. apply BLACK; [exact H|apply bal_mk_t in BB; tauto|apply bal_mk_t in BB; tauto| |left; simpl; lia].
    destruct c; simpl in K |- *; tauto.
  - apply bal_mk_f in BB as (C1 & C2 & B1 & B2). destruct c; [|exfalso; simpl in K; rewrite blk_mk in K; destruct K as (_ & K & _); discriminate].
    destruct K as (_ & K). destruct (W_setcol_mk _ _ _ _ _ _ _ _ _ true _ _ _ Hb) as (m1 & E1 & H1). rewrite E1. cbn [obind].
    destruct (W_setcol_par _ _ _ _ _ _ _ _ _ false _ _ _ H1) as (m2 & E2 & H2). rewrite E2. cbn [obind]. rewrite <- W_down2 in H2.
    destruct (rotate_ok _ _ _ _ _ _ _ _ _ _ _ _ _ _ _ _ H2) as (m3 & E3 & H3). rewrite E3. cbn [obind]. rewrite <- W_up, <- W_up in H3.
    destruct (W_par _ _ _ _ _ _ _ H3) as (G3 & _). rewrite G3. cbn [obind]. rewrite kid_cell'.
    assert (b1E : b1 <> E) by (intros ->; discriminate). destruct (tree_mk s b1 b1E) as (a1 & ca & d1 & v1 & d2 & ->). rewrite blk_mk in C1. subst ca. rewrite rt_mk. apply bal_mk_t in B1 as (B11 & B12).
    destruct (BLACK m3 (F s ab true vb b2 :: k) false a1 d1 v1 d2 H3 B11 B12) as (m' & T & E' & H' & N' & T'); [split; [reflexivity|]; simpl; auto|now right|].
    exists m', T. split; [exact E'|]. split; [exact H'|]. split; [|exact T']. rewrite N'. simpl plug. apply nodes_plug. symmetry. apply nodes_rot.
Qed.
End Loop.
End Proof.
