(** Red-black trees in memory: copying. *)
From Coq Require Import ZArith List Bool Lia.
From Verif Require Import F64 RbModel RbProof RbErase RbUnlink RbClass RbHold RbSpec RbOps RbDel RbFind.
Import ListNotations.
Open Scope Z_scope.
Open Scope opt_scope.

Section Proof.
Context {V : Type}.
Notation mem := (@memory V).
Notation nd := (@nd V).
Notation tree := (@tree V).
Notation frame := (@frame V).
Implicit Types (m R : mem) (h p q x y z a : Z) (s c : bool) (v : V) (t l r b : tree) (k : list frame) (e : list (Z * V)) (o : obj) (al : list Z).

(** how often an address is in a list; new addresses *)
Fixpoint lc z al : nat := match al with [] => 0 | a :: al => one a z + lc z al end.
Lemma lc_app z al1 al2 : lc z (al1 ++ al2) = (lc z al1 + lc z al2)%nat.
Proof. induction al1 as [|a al1 IH]; simpl; [reflexivity|lia]. Qed.
Definition new m al : Prop := (forall z, (one 0 z + lc z al <= 1)%nat) /\ forall z, (1 <= lc z al)%nat -> m z = None.
(** the same tree at other addresses *)
Fixpoint like t t' : Prop :=
  match t, t' with
  | E, E => True
  | N _ c l v r, N _ c' l' v' r' => c = c' /\ v = v' /\ like l l' /\ like r r'
  | _, _ => False
  end.
Lemma like_nodes : forall t t', like t t' -> map snd (nodes t') = map snd (nodes t).
Proof. induction t as [|x c l IHl v r IHr]; intros [|x' c' l' v' r'] H; simpl in *; try tauto. destruct H as (_ & -> & H1 & H2). rewrite !map_app. simpl. now rewrite (IHl _ H1), (IHr _ H2). Qed.
Lemma like_blk t t' : like t t' -> blk t' = blk t.
Proof. destruct t as [|x c l v r], t' as [|x' c' l' v' r']; simpl; try tauto. now intros (-> & _). Qed.
Lemma like_bal : forall t t' n, like t t' -> bal t n -> bal t' n.
Proof.
  induction t as [|x c l IHl v r IHr]; intros [|x' c' l' v' r'] n H; simpl in H; try tauto. destruct H as (-> & _ & H1 & H2). simpl. destruct c'.
  - destruct n as [|n]; [tauto|]. intros [B1 B2]. auto.
  - rewrite (like_blk _ _ H1), (like_blk _ _ H2). intros (Q1 & Q2 & B1 & B2). auto 6.
Qed.
Lemma like_rb t t' : like t t' -> rbtree t -> rbtree t'.
Proof. intros H (Q & n & B). split; [now rewrite (like_blk _ _ H)|]. exists n. now apply (like_bal t). Qed.
Lemma like_height : forall t t', like t t' -> height t' = height t.
Proof. induction t as [|x c l IHl v r IHr]; intros [|x' c' l' v' r'] H; simpl in *; try tauto. destruct H as (_ & _ & H1 & H2). now rewrite (IHl _ H1), (IHr _ H2). Qed.
Lemma like_0 t t' : like t t' -> (t = E <-> t' = E).
Proof. destruct t, t'; simpl; try tauto; intuition discriminate. Qed.

Lemma clone_ok m a al x q xl xr c v : x <> 0 -> m x = Some (mkNd q xl xr (Some c) (Some v)) -> a <> 0 -> m a = None ->
  exists m1, clone m (a :: al) x = Some (m1, al, a) /\ m1 a = Some (mkNd 0 0 0 (Some c) (Some v)) /\ forall z, z <> a -> m1 z = m z.
Proof.
  intros X0 Hx A0 Ha. unfold clone. rewrite (get_eq _ _ _ X0 Hx). cbn [obind val col]. rewrite create_eq by assumption. cbn [obind]. unfold fresh_node.
  unfold set_col. rewrite (get_eq _ _ _ A0 (put_eq _ _ _)). cbn [obind par lft rgt col val]. unfold set_lft. rewrite (get_eq _ _ _ A0 (put_eq _ _ _)). cbn [obind par lft rgt col val]. unfold set_rgt. rewrite (get_eq _ _ _ A0 (put_eq _ _ _)). cbn [obind par lft rgt col val].
  eexists. split; [reflexivity|]. split; [apply put_eq|]. intros z Hz. now rewrite !put_ne.
Qed.
Lemma rt_0 m p t : rep m p t -> (forall z, (one 0 z + tc z t <= 1)%nat) -> (rt t =? 0) = match t with E => true | _ => false end.
Proof. destruct t as [|x c l v r]; intros H D; [reflexivity|]. cbn [rt]. apply Z.eqb_neq. intros ->. specialize (D 0). cbn [tc] in D. rewrite one_refl in D. lia. Qed.

Lemma copy_from_S fuel m al x p : copy_from (S fuel) m al x p =
    (let* (m, al, t) := clone m al x in
    let* m := set_par m t p in
    let* n := get m x in
    let* (m, al) := if negb (rgt n =? 0) then
        let* (m, al, r) := copy_from fuel m al (rgt n) t in let* m := set_rgt m t r in Some (m, al)
      else Some (m, al) in
    let* n := get m x in
    let* (m, al) := copy_left fuel m al (lft n) t in
    Some (m, al, t)).
Proof. reflexivity. Qed.
Lemma copy_left_S fuel m al x p : copy_left (S fuel) m al x p =
    (if x =? 0 then Some (m, al)
    else
      let* (m, al, y) := clone m al x in
      let* m := set_lft m p y in
      let* m := set_par m y p in
      let* n := get m x in
      let* (m, al) := if negb (rgt n =? 0) then
          let* (m, al, r) := copy_from fuel m al (rgt n) y in let* m := set_rgt m y r in Some (m, al)
        else Some (m, al) in
      let* n := get m x in
      copy_left fuel m al (lft n) y).
Proof. reflexivity. Qed.

(** what the two functions do: [t] is copied to the addresses at the head of [al] *)
Definition copies (fuel : nat) : Prop := forall t m q p al, t <> E -> rep m q t -> (forall z, (one 0 z + tc z t <= 1)%nat) -> (height t < fuel)%nat -> new m al -> (length (nodes t) <= length al)%nat ->
  exists m' t' al1 al2, al = al1 ++ al2 /\ copy_from fuel m al (rt t) p = Some (m', al2, rt t') /\ rep m' p t' /\ like t t' /\
    length al1 = length (nodes t) /\ (forall z, tc z t' = lc z al1) /\ forall z, lc z al1 = 0%nat -> m' z = m z.
Definition copies_left (fuel : nat) : Prop := forall t m q p al np, rep m q t -> (forall z, (one 0 z + tc z t <= 1)%nat) -> (height t < fuel)%nat -> new m al -> (length (nodes t) <= length al)%nat ->
  p <> 0 -> m p = Some np -> lft np = 0 -> lc p al = 0%nat -> tc p t = 0%nat ->
  exists m' t' al1 al2, al = al1 ++ al2 /\ copy_left fuel m al (rt t) p = Some (m', al2) /\ rep m' p t' /\ like t t' /\
    m' p = Some (mkNd (par np) (rt t') (rgt np) (col np) (val np)) /\
    length al1 = length (nodes t) /\ (forall z, tc z t' = lc z al1) /\ forall z, z <> p -> lc z al1 = 0%nat -> m' z = m z.
Lemma new_more m m' al1 al2 : new m (al1 ++ al2) -> (forall z, (1 <= lc z al2)%nat -> m' z = m z) -> new m' al2.
Proof. intros [H1 H2] F. split; intros z; [specialize (H1 z); rewrite lc_app in H1; lia|]. intros L. rewrite F by exact L. apply H2. rewrite lc_app. lia. Qed.

Lemma copy_tail fuel : copies fuel -> copies_left fuel -> forall x c l v r m q p a al, rep m q (N x c l v r) -> (forall z, (one 0 z + tc z (N x c l v r) <= 1)%nat) ->
  (height l < fuel)%nat -> (height r < fuel)%nat -> new m al -> (length (nodes l) + length (nodes r) <= length al)%nat ->
  a <> 0 -> m a = Some (mkNd p 0 0 (Some c) (Some v)) -> lc a al = 0%nat -> tc a (N x c l v r) = 0%nat ->
  exists m2 al' m' al1 al2 l' r',
    (if negb (rt r =? 0) then let* (m, al, y) := copy_from fuel m al (rt r) a in let* m := set_rgt m a y in Some (m, al) else Some (m, al)) = Some (m2, al') /\
    get m2 x = Some (mkNd q (rt l) (rt r) (Some c) (Some v)) /\ copy_left fuel m2 al' (rt l) a = Some (m', al2) /\ al = al1 ++ al2 /\
    rep m' p (N a c l' v r') /\ like l l' /\ like r r' /\ length al1 = (length (nodes l) + length (nodes r))%nat /\ (forall z, (tc z l' + tc z r' = lc z al1)%nat) /\
    forall z, z <> a -> lc z al1 = 0%nat -> m' z = m z.
Proof.
  intros CA CB x c l v r m q p a al (Hx & Hl & Hr) D HL HR NW LN A0 Ha Na Ta.
  assert (X0 : x <> 0) by (intros ->; specialize (D 0); cbn [tc] in D; rewrite one_refl in D; lia).
  assert (XA : x <> a) by (intros ->; cbn [tc] in Ta; rewrite one_refl in Ta; lia).
  assert (Dr : forall z, (one 0 z + tc z r <= 1)%nat) by (intros z; specialize (D z); cbn [tc] in D; lia).
  assert (Dl : forall z, (one 0 z + tc z l <= 1)%nat) by (intros z; specialize (D z); cbn [tc] in D; lia).
  assert (ST : exists m2 al1 al' r', (if negb (rt r =? 0) then let* (m, al, y) := copy_from fuel m al (rt r) a in let* m := set_rgt m a y in Some (m, al) else Some (m, al)) = Some (m2, al') /\
     al = al1 ++ al' /\ m2 a = Some (mkNd p 0 (rt r') (Some c) (Some v)) /\ rep m2 a r' /\ like r r' /\ length al1 = length (nodes r) /\ (forall z, tc z r' = lc z al1) /\ forall z, z <> a -> lc z al1 = 0%nat -> m2 z = m z).
  { rewrite (rt_0 m x r Hr Dr). assert (C : r = E \/ r <> E) by (destruct r; [auto|right; discriminate]). destruct C as [->|C].
    - cbn [negb]. exists m, [], al, E. repeat split; try reflexivity. exact Ha.
    - destruct (CA r m x a al C Hr Dr HR NW ltac:(lia)) as (m1 & r' & al1 & al2 & -> & E1 & R1 & L1 & N1 & T1 & F1).
      replace (negb _) with true by (destruct r; [congruence|reflexivity]). rewrite E1. cbn [obind]. rewrite lc_app in Na. assert (Ha1 : m1 a = Some (mkNd p 0 0 (Some c) (Some v))) by (rewrite F1 by lia; exact Ha).
      unfold set_rgt. rewrite (get_eq _ _ _ A0 Ha1). cbn [obind par lft col val]. do 4 eexists. split; [reflexivity|]. split; [reflexivity|]. split; [apply put_eq|]. split; [|split; [exact L1|split; [exact N1|split; [exact T1|]]]].
      + apply (rep_frame m1); [|exact R1]. intros z Hz. apply put_ne. intros ->. rewrite T1 in Hz. lia.
      + intros z Hz Lz. rewrite put_ne by exact Hz. now apply F1. }
  destruct ST as (m2 & al1 & al' & r' & E1 & -> & Ha2 & R2 & L2 & N2 & T2 & F2). rewrite lc_app in Na.
  assert (SRC : forall z, (1 <= tc z (N x c l v r))%nat -> m2 z = m z).
  { intros z Hz. apply F2; [intros ->; lia|]. destruct (lc z al1) as [|j] eqn:Q; [reflexivity|]. exfalso. destruct NW as [_ NW]. specialize (NW z). rewrite lc_app in NW. apply (rep_some m z (N x c l v r) q); [cbn [rep]; auto|exact Hz|apply NW; lia]. }
  destruct (CB l m2 x a al' (mkNd p 0 (rt r') (Some c) (Some v))) as (m3 & l' & al3 & al4 & -> & E3 & R3 & L3 & C3 & N3 & T3 & F3); try assumption; try reflexivity.
  - apply (rep_frame m); [|exact Hl]. intros z Hz. apply SRC. cbn [tc]. lia.
  - apply (new_more m _ al1); [exact NW|]. intros z Hz. destruct NW as [NW _]. specialize (NW z). rewrite lc_app in NW. apply F2; [intros ->; lia|lia].
  - rewrite app_length in LN. lia.
  - lia.
  - cbn [tc] in Ta. lia.
  - exists m2, (al3 ++ al4), m3, (al1 ++ al3), al4, l', r'. split; [exact E1|]. split; [apply get_eq; [exact X0|]; rewrite SRC; [exact Hx|cbn [tc]; rewrite one_refl; lia]|]. split; [exact E3|]. split; [now rewrite <- app_assoc|]. split; [|split; [exact L3|split; [exact L2|split; [rewrite app_length; lia|split; [intros z; rewrite lc_app, T2, T3; lia|]]]]].
    + cbn [rep]. split; [exact C3|]. split; [exact R3|]. apply (rep_frame m2); [|exact R2]. intros z Hz. rewrite T2 in Hz. destruct NW as [NW _]. specialize (NW z). rewrite !lc_app in NW. apply F3; [intros ->; lia|lia].
    + intros z Hz Lz. rewrite lc_app in Lz. rewrite F3 by (auto || lia). apply F2; [exact Hz|lia].
Qed.

(** one node is cloned, then its subtrees *)
Lemma copies_both : forall fuel, copies fuel /\ copies_left fuel.
Proof.
  induction fuel as [|fuel [CA CB]]; split; [intros t m q p al T H D Hf; lia|intros t m q p al np H D Hf; lia| |].
  - intros t m q p al T H D Hf NW LN. destruct t as [|x c l v r]; [congruence|]. clear T. cbn [height] in Hf. cbn [nodes] in LN. rewrite app_length in LN. cbn [length] in LN.
    destruct al as [|a al]; [simpl in LN; lia|]. simpl in LN. pose proof NW as [NW1 NW2].
    assert (A0 : a <> 0) by (intros ->; specialize (NW1 0); cbn [lc] in NW1; rewrite one_refl in NW1; lia). assert (Ha : m a = None) by (apply NW2; cbn [lc]; rewrite one_refl; lia).
    assert (La : lc a al = 0%nat) by (specialize (NW1 a); cbn [lc] in NW1; rewrite one_refl in NW1; lia).
    assert (Ta : tc a (N x c l v r) = 0%nat) by (destruct (tc a (N x c l v r)) as [|j] eqn:Q; [reflexivity|exfalso; apply (rep_some m a _ q H); [lia|exact Ha]]).
    assert (X0 : x <> 0) by (intros ->; specialize (D 0); cbn [tc] in D; rewrite one_refl in D; lia).
    pose proof H as (Hx & _ & _). cbn [rt]. rewrite copy_from_S. destruct (clone_ok m a al x _ _ _ _ _ X0 Hx A0 Ha) as (m1 & E1 & Ha1 & F1). rewrite E1. cbn [obind].
    unfold set_par. rewrite (get_eq _ _ _ A0 Ha1). cbn [obind lft rgt col val]. set (m2 := put m1 a _).
    assert (H2 : rep m2 q (N x c l v r)). { apply (rep_frame m); [|exact H]. intros z Hz. assert (z <> a) by (intros ->; lia). unfold m2. rewrite put_ne by assumption. now apply F1. }
    assert (N2 : new m2 al). { apply (new_more m _ [a]); [exact NW|]. intros z Hz. assert (z <> a) by (intros ->; lia). unfold m2. rewrite put_ne by assumption. now apply F1. }
    destruct (copy_tail fuel CA CB x c l v r m2 q p a al H2 D ltac:(lia) ltac:(lia) N2 ltac:(lia) A0 (put_eq _ _ _) La Ta) as (m3 & al' & m' & al1 & al2 & l' & r' & E3 & G3 & E4 & -> & R4 & L1 & L2 & N4 & T4 & F4).
    pose proof H2 as (Hx2 & _ & _). rewrite (get_eq _ _ _ X0 Hx2). cbn [obind rgt]. rewrite E3. cbn [obind]. rewrite G3. cbn [obind lft]. rewrite E4. cbn [obind].
    exists m', (N a c l' v r'), (a :: al1), al2. split; [reflexivity|]. split; [reflexivity|]. split; [exact R4|]. split; [cbn [like]; auto|]. split; [cbn [nodes length]; rewrite app_length; cbn [length]; lia|]. split.
    + intros z. cbn [tc lc]. specialize (T4 z). lia.
    + intros z Lz. cbn [lc] in Lz. assert (z <> a) by (intros ->; rewrite one_refl in Lz; lia). rewrite F4 by (auto; lia). unfold m2. rewrite put_ne by assumption. now apply F1.
  - intros t m q p al np H D Hf NW LN P0 Hp P1 Np Tp. rewrite copy_left_S. rewrite (rt_0 m q t H D). destruct t as [|x c l v r].
    + exists m, E, [], al. split; [reflexivity|]. split; [reflexivity|]. split; [exact I|]. split; [exact I|]. split; [rewrite Hp; destruct np; simpl in *; subst; reflexivity|]. split; [reflexivity|]. split; [reflexivity|]. auto.
    + cbn [height] in Hf. cbn [nodes] in LN. rewrite app_length in LN. cbn [length] in LN.
      destruct al as [|a al]; [simpl in LN; lia|]. simpl in LN. pose proof NW as [NW1 NW2].
      assert (A0 : a <> 0) by (intros ->; specialize (NW1 0); cbn [lc] in NW1; rewrite one_refl in NW1; lia). assert (Ha : m a = None) by (apply NW2; cbn [lc]; rewrite one_refl; lia).
      assert (La : lc a al = 0%nat) by (specialize (NW1 a); cbn [lc] in NW1; rewrite one_refl in NW1; lia).
      assert (Ta : tc a (N x c l v r) = 0%nat) by (destruct (tc a (N x c l v r)) as [|j] eqn:Q; [reflexivity|exfalso; apply (rep_some m a _ q H); [lia|exact Ha]]).
      assert (X0 : x <> 0) by (intros ->; specialize (D 0); cbn [tc] in D; rewrite one_refl in D; lia).
      assert (PA : p <> a) by (intros ->; congruence). assert (PX : p <> x) by (intros ->; cbn [tc] in Tp; rewrite one_refl in Tp; lia). cbn [lc] in Np.
      pose proof H as (Hx & _ & _). cbn [rt]. destruct (clone_ok m a al x _ _ _ _ _ X0 Hx A0 Ha) as (m1 & E1 & Ha1 & F1). rewrite E1. cbn [obind].
      assert (Hp1 : m1 p = Some np) by (rewrite F1 by exact PA; exact Hp). unfold set_lft. rewrite (get_eq _ _ _ P0 Hp1). cbn [obind].
      unfold set_par. rewrite (get_eq (put m1 p _) a (mkNd 0 0 0 (Some c) (Some v)) A0) by (rewrite put_ne by congruence; exact Ha1). cbn [obind lft rgt col val]. set (m2 := put (put m1 p _) a _).
      assert (F2 : forall z, z <> a -> z <> p -> m2 z = m z) by (intros z Z1 Z2; unfold m2; rewrite !put_ne by assumption; now apply F1).
      assert (H2 : rep m2 q (N x c l v r)). { apply (rep_frame m); [|exact H]. intros z Hz. apply F2; intros ->; lia. }
      assert (N2 : new m2 al). { apply (new_more m _ [a]); [exact NW|]. intros z Hz. apply F2; intros ->; lia. }
      destruct (copy_tail fuel CA CB x c l v r m2 q p a al H2 D ltac:(lia) ltac:(lia) N2 ltac:(lia) A0 (put_eq _ _ _) La Ta) as (m3 & al' & m' & al1 & al2 & l' & r' & E3 & G3 & E4 & -> & R4 & L1 & L2 & N4 & T4 & F4).
      pose proof H2 as (Hx2 & _ & _). rewrite (get_eq _ _ _ X0 Hx2). cbn [obind rgt]. rewrite E3. cbn [obind]. rewrite G3. cbn [obind lft]. rewrite E4. rewrite lc_app in *.
      exists m', (N a c l' v r'), (a :: al1), al2. split; [reflexivity|]. split; [reflexivity|]. split; [exact R4|]. split; [cbn [like]; auto|]. split; [|split; [cbn [nodes length]; rewrite app_length; cbn [length]; lia|split]].
      * rewrite F4 by (auto; lia). unfold m2. rewrite put_ne by exact PA. rewrite put_eq. reflexivity.
      * intros z. cbn [tc lc]. specialize (T4 z). lia.
      * intros z Zp Lz. cbn [lc] in Lz. assert (Za : z <> a) by (intros ->; rewrite one_refl in Lz; lia). rewrite F4 by (auto; lia). now apply F2.
Qed.

(** ** copy constructor and copy assignment *)
Lemma lc_in z al : (1 <= lc z al)%nat <-> In z al.
Proof. induction al as [|a al IH]; cbn [lc]; [split; [lia|intros []]|]. unfold one. destruct (Z.eqb_spec a z) as [->|Q]; simpl; [split; [auto|lia]|]. rewrite IH. intuition congruence. Qed.
Lemma new_list m al : NoDup al -> ~ In 0 al -> Forall (fun a => m a = None) al -> new m al.
Proof.
  intros D N0 F. split; [|intros z Hz; apply lc_in in Hz; rewrite Forall_forall in F; auto].
  assert (L : forall z, (lc z al <= 1)%nat). { clear N0 F. induction D as [|a al N1 D IH]; intros z; cbn [lc]; [lia|]. unfold one. destruct (Z.eqb_spec a z) as [->|Q]; [|specialize (IH z); lia]. destruct (lc z al) as [|j] eqn:Q; [lia|]. exfalso. apply N1, lc_in. lia. }
  intros z. specialize (L z). unfold one. destruct (Z.eqb_spec 0 z) as [<-|Q]; [|lia]. destruct (lc 0 al) as [|j] eqn:Q; [lia|]. exfalso. apply N0, lc_in. lia.
Qed.
(** the target is an empty tree, the source any tree beside it *)
Lemma copy_into_ok m R o o2 e al R2 : holds m R o [] -> holds m R2 o2 e -> hdr o <> hdr o2 -> ac (hdr o) e = 0%nat -> new m al -> (length e <= length al)%nat ->
  exists m' o' e', copy_into m o o2 al = Some (m', o') /\ hdr o' = hdr o /\ holds m' R o' e' /\ map snd e' = map snd e /\ (forall z, (ac z e' <= lc z al)%nat) /\
    forall z, z <> hdr o -> lc z al = 0%nat -> m' z = m z.
Proof.
  intros (t0 & H0 & N0 & B0 & C0 & HR0) (t & H & Hn & B & Hc & HR) Hd Ho NW LN. apply nodes_nil in N0. subst t0. unfold copy_into. rewrite Hc. destruct e as [|u e1] eqn:Ee.
  - cbn [length Nat.eqb negb obind]. exists m, (mkObj (hdr o) 0), []. split; [reflexivity|]. split; [reflexivity|]. split; [|split; [reflexivity|split; [intros z; cbn [ac]; lia|auto]]]. exists E. simpl. auto.
  - rewrite <- Ee in *. assert (NE : e <> []) by (rewrite Ee; discriminate). clear u e1 Ee. replace (length e =? 0)%nat with false by (destruct e; [congruence|reflexivity]). cbn [negb].
    rewrite (W_hdr _ _ H). cbn [obind par top]. pose proof (W_1 _ _ _ _ _ _ _ H) as D. pose proof (W_1 _ _ _ _ _ _ _ H0) as D0. cbn [kc] in D, D0. pose proof (W_h0 _ _ H0) as HH0. pose proof (W_h _ _ _ _ _ _ _ H0) as Hh. cbn [top rt] in Hh.
    assert (TE : t <> E) by (intros ->; simpl in Hn; congruence).
    assert (Dt : forall z, (one 0 z + tc z t <= 1)%nat) by (intros z; specialize (D z); lia).
    destruct (proj1 (copies_both (fuel_of o2)) t m (hdr o2) (hdr o) al TE (W_t _ _ _ _ _ _ _ H) Dt) as (m1 & t' & al1 & al2 & -> & E1 & R1 & L1 & N1 & T1 & F1); [pose proof (height_le t); unfold fuel_of; rewrite Hc, <- Hn; lia|exact NW|now rewrite Hn|].
    rewrite E1. cbn [obind]. pose proof NW as [NW1 NW2].
    assert (HN : (lc (hdr o) (al1 ++ al2) = 0)%nat) by (destruct (lc (hdr o) (al1 ++ al2)) as [|j] eqn:Q; [reflexivity|]; exfalso; rewrite NW2 in Hh by lia; discriminate). rewrite lc_app in HN.
    assert (Hh1 : m1 (hdr o) = m (hdr o)) by (apply F1; lia). rewrite Hh in Hh1. cbn [first final rev] in Hh1.
    unfold set_par. rewrite (get_eq _ _ _ HH0 Hh1). cbn [obind lft rgt col val]. set (m2 := put m1 (hdr o) _). rewrite (get_eq m2 (hdr o) _ HH0 (put_eq _ _ _)). cbn [obind par].
    assert (T0 : tc (hdr o) t' = 0%nat) by (rewrite T1; lia).
    assert (R2' : rep m2 (hdr o) t') by (apply (rep_frame m1); [|exact R1]; intros z Hz; apply put_ne; intros ->; lia).
    assert (TE' : t' <> E) by (intros Q; apply TE; now apply (like_0 _ _ L1)).
    assert (Dt' : forall z, (one 0 z + tc z t' <= 1)%nat) by (intros z; rewrite T1; specialize (NW1 z); rewrite lc_app in NW1; lia).
    pose proof (like_nodes _ _ L1) as NV. assert (NL : length (nodes t') = length e) by (rewrite <- (map_length snd (nodes t')), NV, map_length, Hn; reflexivity).
    rewrite (tmin_first _ _ _ _ (hdr o) TE' R2' Dt') by (unfold fuel_of; rewrite NL, Hc; lia). cbn [obind]. unfold set_lft. rewrite (get_eq m2 (hdr o) _ HH0 (put_eq _ _ _)). cbn [obind par rgt col val]. set (m3 := put m2 (hdr o) _).
    rewrite (get_eq m3 (hdr o) _ HH0 (put_eq _ _ _)). cbn [obind par].
    assert (R3 : rep m3 (hdr o) t') by (apply (rep_frame m2); [|exact R2']; intros z Hz; apply put_ne; intros ->; lia).
    rewrite (tmax_final _ _ _ _ (hdr o) TE' R3 Dt') by (unfold fuel_of; rewrite NL, Hc; lia). cbn [obind]. unfold set_rgt. rewrite (get_eq m3 (hdr o) _ HH0 (put_eq _ _ _)). cbn [obind par lft col val].
    assert (FR : forall z n, z <> hdr o -> put m3 (hdr o) n z = m1 z) by (intros z n Hz; unfold m3, m2; now rewrite !put_ne).
    do 2 eexists. exists (nodes t'). split; [reflexivity|]. split; [reflexivity|]. split; [|split; [congruence|split; [intros z; rewrite ac_tc, T1, lc_app; lia|]]].
    + exists t'. cbn [hdr cnt]. split; [|split; [reflexivity|split; [exact (like_rb _ _ L1 B)|split; [now rewrite NL|]]]].
      * constructor.
        -- rewrite put_eq. reflexivity.
        -- exact I.
        -- apply (rep_frame m3); [|exact R3]. intros z Hz. apply put_ne. intros ->. lia.
        -- intros z. cbn [kc]. pose proof (D0 z) as X1. pose proof (Dt' z) as X2. cbn [kc tc] in X1. destruct (Z.eq_dec z (hdr o)) as [Q|Q]; [rewrite Q in *; lia|rewrite (one_ne (hdr o) z) by congruence; lia].
        -- intros z Hz. cbn [kc] in Hz. assert (Zh : z <> hdr o) by (intros ->; rewrite one_refl in Hz; lia). rewrite FR by exact Zh. rewrite T1 in Hz. rewrite F1 by lia. apply (W_R _ _ _ _ _ _ _ H0). cbn [kc tc]. lia.
      * intros z Hz. rewrite ac_tc, T1 in Hz. destruct (Z.eq_dec z (hdr o)) as [->|Zh]; [apply HR0; rewrite one_refl; lia|]. rewrite one_ne in Hz by congruence.
        assert (Z0 : one 0 z = 0%nat) by (specialize (NW1 z); rewrite lc_app in NW1; lia). rewrite <- (W_R _ _ _ _ _ _ _ H0); [apply NW2; rewrite lc_app; lia|]. rewrite (one_ne (hdr o) z) by congruence. cbn [kc tc]. lia.
    + intros z Zh Lz. rewrite lc_app in Lz. rewrite FR by exact Zh. apply F1. lia.
Qed.
(** a tree stays where memory at its nodes and header stays *)
Lemma holds_stay m m' R o e : holds m R o e -> (forall z, (1 <= one (hdr o) z + ac z e)%nat -> m' z = m z) -> exists R', holds m' R' o e /\ forall z, R' z = if ((1 <=? one (hdr o) z + ac z e)%nat) then None else m' z.
Proof.
  intros (t & H & Hn & B & Hc & HR) F. exists (fun z => if ((1 <=? one (hdr o) z + ac z e)%nat) then None else m' z). split; [|reflexivity]. exists t. split; [|split; [exact Hn|split; [exact B|split; [exact Hc|]]]].
  - apply (W_frame m m' R); [exact H| |].
    + intros z Hz. cbn [kc] in Hz. apply F. rewrite <- Hn, ac_tc. lia.
    + intros z Hz. cbn [kc] in Hz. rewrite <- Hn, ac_tc. destruct (Nat.leb_spec 1 (one (hdr o) z + tc z t)); [lia|reflexivity].
  - intros z Hz. destruct (Nat.leb_spec 1 (one (hdr o) z + ac z e)); [reflexivity|lia].
Qed.
Theorem copy_of_ok m R o e a al : holds m R o e -> a <> 0 -> m a = None -> ~ In a al -> NoDup al -> ~ In 0 al -> Forall (fun a => m a = None) al -> (length e <= length al)%nat ->
  exists m' o' e', copy_of m o a al = Some (m', o') /\ hdr o' = a /\ holds m' m o' e' /\ map snd e' = map snd e /\ exists R', holds m' R' o e.
Proof.
  intros H A0 Ha NA ND N0 F LN. unfold copy_of. destruct (init_ok m a A0 Ha) as (m1 & E1 & H1). rewrite E1. cbn [obind].
  assert (F1 : forall z, z <> a -> m1 z = m z). { unfold init in E1. rewrite (proj2 (Z.eqb_neq _ _) A0), Ha in E1. injection E1 as <-. intros z Hz. now apply put_ne. }
  assert (SRC : forall z, (1 <= one (hdr o) z + ac z e)%nat -> m z <> None).
  { intros z Hz. destruct H as (t & H & Hn & _). rewrite <- Hn, ac_tc in Hz. destruct (Z.eq_dec z (hdr o)) as [Q|Q]; [rewrite Q, (W_h _ _ _ _ _ _ _ H); discriminate|]. rewrite one_ne in Hz by congruence. apply (rep_some m z t _ (W_t _ _ _ _ _ _ _ H)). lia. }
  destruct (holds_stay _ m1 _ _ _ H) as (R1 & H2 & _); [intros z Hz; apply F1; intros ->; now apply (SRC a)|].
  destruct (copy_into_ok m1 m (mkObj a 0) o e al R1 H1 H2) as (m' & o' & e' & E2 & O2 & H3 & M3 & C3 & F3).
  - cbn [hdr]. intros ->. apply (SRC (hdr o)); [rewrite one_refl; lia|exact Ha].
  - cbn [hdr]. destruct (ac a e) as [|j] eqn:Q; [reflexivity|]. exfalso. apply (SRC a); [lia|exact Ha].
  - apply new_list; [exact ND|exact N0|]. rewrite Forall_forall in *. intros z Hz. rewrite F1 by (intros ->; contradiction). auto.
  - exact LN.
  - exists m', o', e'. split; [exact E2|]. split; [exact O2|]. split; [exact H3|]. split; [exact M3|]. destruct (holds_stay _ m' _ _ _ H2) as (R3 & H4 & _).
    + intros z Hz. pose proof (SRC z Hz) as S1. apply F3; [cbn [hdr]; intros ->; contradiction|]. destruct (lc z al) as [|j] eqn:Q; [reflexivity|]. exfalso. apply S1. rewrite Forall_forall in F. apply F, lc_in. lia.
    + exists R3. exact H4.
Qed.
Theorem copy_assign_ok m R R2 o e o2 e2 al : holds m R o e -> holds m R2 o2 e2 -> (forall z, (one (hdr o) z + ac z e + one (hdr o2) z + ac z e2 <= 1)%nat) ->
  NoDup al -> ~ In 0 al -> Forall (fun a => m a = None \/ In a (map fst e)) al -> (length e2 <= length al)%nat ->
  exists m' o' e', copy_assign m o o2 al = Some (m', o') /\ hdr o' = hdr o /\ holds m' R o' e' /\ map snd e' = map snd e2 /\ exists R', holds m' R' o2 e2.
Proof.
  intros H H2 DJ ND N0 F LN. unfold copy_assign. destruct (clear_ok m R o e H) as (m1 & o1 & E1 & O1 & H1). rewrite E1. cbn [obind].
  assert (F1 : forall z, z <> 0 -> (one (hdr o) z + ac z e = 0)%nat -> m1 z = m z).
  { intros z Z0 Hz. destruct H as (t & H & Hn & _). destruct H1 as (t1 & H1 & Hn1 & _). apply nodes_nil in Hn1. subst t1. rewrite (W_R _ _ _ _ _ _ _ H1), (W_R _ _ _ _ _ _ _ H); [reflexivity| |]; cbn [kc tc]; rewrite ?O1, <- ?ac_tc, ?Hn, ?(one_ne 0 z) by congruence; lia. }
  assert (SRC : forall z, (1 <= one (hdr o2) z + ac z e2)%nat -> z <> 0 /\ m z <> None).
  { intros z Hz. split; [intros ->; pose proof (holds_distinct _ _ _ _ 0 H2) as D; rewrite one_refl in D; lia|]. destruct H2 as (t & H2 & Hn & _). rewrite <- Hn, ac_tc in Hz. destruct (Z.eq_dec z (hdr o2)) as [Q|Q]; [rewrite Q, (W_h _ _ _ _ _ _ _ H2); discriminate|]. rewrite one_ne in Hz by congruence. apply (rep_some m z t _ (W_t _ _ _ _ _ _ _ H2)). lia. }
  destruct (holds_stay _ m1 _ _ _ H2) as (R3 & H3 & _); [intros z Hz; apply F1; [now apply SRC|specialize (DJ z); lia]|].
  assert (NA : Forall (fun a => m1 a = None) al).
  { rewrite Forall_forall in *. intros z Hz. assert (Z0 : z <> 0) by (intros ->; contradiction). destruct (F z Hz) as [Q|Q].
    - destruct (holds_fresh _ _ _ _ _ H Q Z0) as (Q1 & Q2 & Q3). apply (holds_free _ _ _ _ _ H1 Q1 Z0); [congruence|reflexivity].
    - assert (A1 : (1 <= ac z e)%nat). { clear - Q. induction e as [|[x v] e IH]; simpl in *; [contradiction|]. destruct Q as [->|Q]; [rewrite one_refl; lia|]. specialize (IH Q). lia. }
      pose proof (holds_distinct _ _ _ _ z H) as D. apply (holds_free _ _ _ _ _ H1); [|exact Z0| |reflexivity].
      + destruct H as (t & _ & _ & _ & _ & HR). apply HR. lia.
      + rewrite O1. intros ->. rewrite one_refl in D. lia. }
  destruct (copy_into_ok m1 R o1 o2 e2 al R3 H1 H3) as (m' & o' & e' & E2 & O2 & H4 & M4 & C4 & F4).
  - rewrite O1. intros Q. specialize (DJ (hdr o)). rewrite <- Q, !one_refl in DJ. lia.
  - rewrite O1. specialize (DJ (hdr o)). rewrite one_refl in DJ. lia.
  - apply new_list; assumption.
  - exact LN.
  - exists m', o', e'. split; [exact E2|]. split; [congruence|]. split; [exact H4|]. split; [exact M4|]. destruct (holds_stay _ m' _ _ _ H3) as (R4 & H5 & _).
    + intros z Hz. destruct (SRC z Hz) as [Z0 S1]. apply F4; [rewrite O1; intros ->; specialize (DJ (hdr o)); rewrite one_refl in DJ; lia|]. destruct (lc z al) as [|j] eqn:Q; [reflexivity|]. exfalso. apply S1. rewrite <- F1; [|exact Z0|specialize (DJ z); lia]. rewrite Forall_forall in NA. apply NA, lc_in. lia.
    + exists R4. exact H5.
Qed.
End Proof.
