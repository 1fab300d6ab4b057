(** Red-black trees in memory: the operations of the class against the sequence of elements. *)
From Coq Require Import ZArith List Bool Lia Sorted.
From Verif Require Import F64 SortSpec RbModel RbProof RbErase RbUnlink RbClass RbHold RbSpec.
Import ListNotations.
Open Scope Z_scope.
Open Scope opt_scope.

Section Proof.
Context {V : Type}.
Notation mem := (@memory V).
Notation nd := (@nd V).
Notation tree := (@tree V).
Notation frame := (@frame V).
Implicit Types (m R : mem) (h p q x y z a : Z) (s c : bool) (v : V) (t l r b : tree) (k : list frame) (e : list (Z * V)) (o : obj).
Ltac dist D z := let DD := fresh in pose proof (D z) as DD; cbn [tc kc] in DD; rewrite ?tc_mk, ?one_refl in DD; lia.

(** ** what follows from [holds] *)
Lemma rep_some m a : forall t p, rep m p t -> (1 <= tc a t)%nat -> m a <> None.
Proof.
  induction t as [|x c l IHl v r IHr]; intros p H T; cbn [tc] in T; [lia|]. destruct H as (Hx & Hl & Hr). unfold one in T. destruct (Z.eqb_spec x a) as [->|]; [rewrite Hx; discriminate|].
  destruct (tc a l) as [|n'] eqn:Ql; [apply (IHr x Hr); lia|apply (IHl x Hl); lia].
Qed.
Lemma W_out m R h lm rm t a : W m R h lm rm [] t -> m a = None -> a <> h /\ tc a t = 0%nat.
Proof.
  intros [Hh _ Ht _ _] Ha. split; [intros ->; rewrite Hh in Ha; discriminate|]. destruct (tc a t) as [|n] eqn:Q; [reflexivity|]. exfalso. apply (rep_some m a t h Ht); [lia|exact Ha].
Qed.
Lemma height_le t : (height t <= length (nodes t))%nat.
Proof. induction t as [|x c l IHl v r IHr]; simpl; [lia|]. rewrite app_length. simpl. lia. Qed.
Lemma open_place m R h e k : W m R h (first h e) (final h e) [] (plug k E) -> nodes (plug k E) = e -> rbtree (plug k E) ->
  W m R h (first h (lefts k ++ rights k)) (final h (lefts k ++ rights k)) k E /\ e = lefts k ++ rights k /\ balc k 0 /\ (length k <= length e)%nat.
Proof.
  intros H Hn B. rewrite plug_nodes in Hn. simpl in Hn. subst e. split; [exact (proj2 (W_plug _ _ _ _ _ _ _) H)|]. split; [reflexivity|]. split.
  - apply bal_plug in B as (n & B1 & B2 & _). simpl in B1. subst n. exact B2.
  - pose proof (len_ctx k E) as L. rewrite plug_nodes in L. simpl in L. lia.
Qed.

(** ** construction *)
Lemma init_ok m a : a <> 0 -> m a = None -> exists m', init m a = Some (m', mkObj a 0) /\ holds m' m (mkObj a 0) [].
Proof.
  intros A0 Ha. unfold init. rewrite (proj2 (Z.eqb_neq _ _) A0), Ha. eexists. split; [reflexivity|]. exists E. split; [|split; [reflexivity|split; [split; [reflexivity|exists 0%nat; reflexivity]|split; [reflexivity|]]]].
  - constructor; cbn [hdr rt top up rep seg tc kc].
    + rewrite put_eq. reflexivity.
    + exact I.
    + exact I.
    + intros z. unfold one. destruct (Z.eqb_spec 0 z), (Z.eqb_spec a z); lia.
    + intros z Hz. apply put_ne. intros ->. rewrite one_refl in Hz. lia.
  - cbn [hdr ac]. intros z Hz. unfold one in Hz. destruct (Z.eqb_spec a z) as [Q|Q]; [rewrite <- Q; exact Ha|lia].
Qed.

(** ** insertion *)
Definition fresh_node v : nd := mkNd 0 0 0 None (Some v).
Lemma create_eq m a v : a <> 0 -> m a = None -> create m a v = Some (put m a (fresh_node v)).
Proof. intros A0 Ha. unfold create. now rewrite (proj2 (Z.eqb_neq _ _) A0), Ha. Qed.
Lemma W_create m R h lm rm t a n : W m R h lm rm [] t -> m a = None -> W (put m a n) (put R a n) h lm rm [] t.
Proof.
  intros H Ha. destruct (W_out _ _ _ _ _ _ _ H Ha) as [Ah At]. apply (W_frame m _ R); [exact H| |].
  - intros z Hz. apply put_ne. intros ->. cbn [kc] in Hz. rewrite (one_ne h a) in Hz by congruence. lia.
  - intros z Hz. destruct (Z.eq_dec z a) as [->|Q]; [now rewrite !put_eq|]. rewrite !put_ne by exact Q. now apply (W_R _ _ _ _ _ _ _ H).
Qed.
Lemma insert_core m R o e k a v left_ t : W m R (hdr o) (first (hdr o) e) (final (hdr o) e) [] t -> nodes t = e -> rbtree t -> cnt o = length e ->
  (forall z, (1 <= one (hdr o) z + ac z e)%nat -> R z = None) -> plug k E = t ->
  a <> 0 -> m a = None -> (k <> [] -> left_ = side k) ->
  exists m' o', insert_node_at (put m a (fresh_node v)) o (up (hdr o) k) a left_ = Some (m', o') /\ hdr o' = hdr o /\ holds m' R o' (lefts k ++ (a, v) :: rights k).
Proof.
  intros H Hn B Hc HR <- A0 Ha Hs. destruct (W_out _ _ _ _ _ _ _ H Ha) as [Ah At]. rewrite tc_plug in At. cbn [tc] in At.
  assert (Ra : R a = None). { rewrite <- (W_R _ _ _ _ _ _ _ H); [exact Ha|]. rewrite tc_plug. cbn [tc kc]. rewrite (one_ne 0 a), (one_ne (hdr o) a) by congruence. lia. }
  pose proof (W_create _ _ _ _ _ _ a (fresh_node v) H Ha) as H1. destruct (open_place _ _ _ _ _ H1 Hn B) as (H2 & Ee & Bk & Lk).
  destruct (insert_at_ok (put m a (fresh_node v)) (put R a (fresh_node v)) o k a v left_ None H2 Bk) as (m' & T & E3 & H3 & N3 & B3); auto.
  { unfold fuel_of. rewrite Hc. lia. }
  { apply put_eq. }
  { lia. }
  exists m', (mkObj (hdr o) (S (cnt o))). split; [exact E3|]. split; [reflexivity|]. exists T. cbn [hdr cnt]. split; [|split; [exact N3|split; [exact B3|split]]].
  - apply (W_frame m' _ (put R a (fresh_node v))); [exact H3|reflexivity|]. intros z Hz. rewrite (W_R _ _ _ _ _ _ _ H3) by exact Hz. apply put_ne. intros ->.
    rewrite <- (ac_tc a T), N3, ac_app in Hz. cbn [ac] in Hz. rewrite one_refl in Hz. lia.
  - rewrite Hc, Ee, !app_length. simpl. lia.
  - intros z Hz. rewrite ac_app in Hz. cbn [ac] in Hz. destruct (Z.eq_dec z a) as [->|Q]; [exact Ra|]. apply HR. rewrite Ee, ac_app. rewrite (one_ne a z) in Hz by congruence. lia.
Qed.

Section Keys.
Context {K : Type} (lt : K -> K -> bool) (key : V -> K).
Hypothesis SW : strict_weak lt.
Notation weakly := (weakly lt key).
Notation strictly := (strictly lt key).
Notation keyof := (keyof key).
Implicit Types (kk : K).

Lemma strictly_weakly e : strictly e -> weakly e.
Proof.
  unfold RbSpec.strictly, RbSpec.weakly. induction 1 as [|x e H IH F]; constructor; [exact IH|]. revert F. apply Forall_impl. intros y Q.
  destruct (lt (keyof y) (keyof x)) eqn:Q2; [|reflexivity]. pose proof (sw_trans _ SW _ _ _ Q Q2). rewrite (sw_irr _ SW) in H0. discriminate.
Qed.
Lemma weak_below kk e : weakly e -> part (fun v => lt (key v) kk) e.
Proof.
  induction 1 as [|x e H IH F]; [exists [], []; auto|]. destruct (lt (keyof x) kk) eqn:Q.
  - destruct IH as (e1 & e2 & -> & F1 & F2). exists (x :: e1), e2. auto.
  - exists [], (x :: e). split; [reflexivity|]. split; [constructor|]. constructor; [exact Q|]. revert F. apply Forall_impl. intros y Q1.
    change (lt (keyof y) kk = false). destruct (lt (keyof y) kk) eqn:Q2; [|reflexivity]. destruct (sw_neg _ SW _ (keyof x) _ Q2); congruence.
Qed.
Lemma weak_upto kk e : weakly e -> part (fun v => negb (lt kk (key v))) e.
Proof.
  induction 1 as [|x e H IH F]; [exists [], []; auto|]. destruct (lt kk (keyof x)) eqn:Q.
  - exists [], (x :: e). split; [reflexivity|]. split; [constructor|]. constructor; [unfold RbSpec.keyof in Q; now rewrite Q|]. revert F. apply Forall_impl. intros y Q1.
    change (negb (lt kk (keyof y)) = false). destruct (sw_neg _ SW _ (keyof y) _ Q) as [Q2|Q2]; [now rewrite Q2|congruence].
  - destruct IH as (e1 & e2 & -> & F1 & F2). exists (x :: e1), e2. split; [reflexivity|]. split; [constructor; [unfold RbSpec.keyof in Q; now rewrite Q|exact F1]|exact F2].
Qed.
Lemma filter_all {A} (f : A -> bool) (l : list A) : Forall (fun u => f u = true) l -> filter f l = l.
Proof. induction 1 as [|x l H _ IH]; simpl; [reflexivity|]. now rewrite H, IH. Qed.
Lemma filter_none {A} (f : A -> bool) (l : list A) : Forall (fun u => f u = false) l -> filter f l = [].
Proof. induction 1 as [|x l H _ IH]; simpl; [reflexivity|]. now rewrite H. Qed.
Lemma border_upto kk k : border (fun v => negb (lt kk (key v))) k -> lefts k = upto lt key kk (lefts k ++ rights k) /\ rights k = above lt key kk (lefts k ++ rights k).
Proof.
  intros [B1 B2]. unfold upto, above. rewrite !filter_app. rewrite (filter_all (fun u => negb (lt kk (keyof u))) (lefts k)) by exact B1. rewrite (filter_none (fun u => negb (lt kk (keyof u))) (rights k)) by exact B2.
  rewrite (filter_none (fun u => lt kk (keyof u)) (lefts k)), (filter_all (fun u => lt kk (keyof u)) (rights k)); [now rewrite app_nil_r|revert B2|revert B1]; apply Forall_impl; intros y Q.
  - change (negb (lt kk (keyof y)) = false) in Q. now destruct (lt kk (keyof y)).
  - change (negb (lt kk (keyof y)) = true) in Q. now destruct (lt kk (keyof y)).
Qed.
Lemma border_below kk k : border (fun v => lt (key v) kk) k -> lefts k = below lt key kk (lefts k ++ rights k) /\ rights k = since lt key kk (lefts k ++ rights k).
Proof.
  intros [B1 B2]. unfold below, since. rewrite !filter_app. rewrite (filter_all (fun u => lt (keyof u) kk) (lefts k)) by exact B1. rewrite (filter_none (fun u => lt (keyof u) kk) (rights k)) by exact B2.
  rewrite (filter_none (fun u => negb (lt (keyof u) kk)) (lefts k)), (filter_all (fun u => negb (lt (keyof u) kk)) (rights k)); [now rewrite app_nil_r|revert B2|revert B1]; apply Forall_impl; intros y Q.
  - change (lt (keyof y) kk = false) in Q. now rewrite Q.
  - change (lt (keyof y) kk = true) in Q. now rewrite Q.
Qed.
Lemma border_nil f : border (V := V) f [].
Proof. split; constructor. Qed.

Lemma multi_pos_ok m R o e t kk : W m R (hdr o) (first (hdr o) e) (final (hdr o) e) [] t -> nodes t = e -> cnt o = length e -> weakly e ->
  exists k, multi_pos lt key m o kk = Some (up (hdr o) k, side k) /\ plug k E = t /\ lefts k = upto lt key kk e /\ rights k = above lt key kk e.
Proof.
  intros H Hn Hc S. unfold multi_pos. rewrite (W_hdr _ _ H). cbn [obind par top]. subst e.
  destruct (pos_ok lt key kk m (fuel_of o) t [] H (weak_upto kk _ S) (border_nil _)) as (k & E1 & Hk & B).
  { pose proof (height_le t). unfold fuel_of. lia. }
  cbn [plug] in Hk. subst t. exists k. split; [exact E1|]. split; [reflexivity|]. rewrite plug_nodes. simpl. now apply border_upto.
Qed.
Theorem insert_multi_ok m R o e a v : holds m R o e -> weakly e -> a <> 0 -> m a = None ->
  exists m' o', insert_multi lt key m o a v = Some (m', o', a) /\ hdr o' = hdr o /\ holds m' R o' (added lt key a v e).
Proof.
  intros (t & H & Hn & B & Hc & HR) S A0 Ha. unfold insert_multi. destruct (multi_pos_ok m R o e t (key v) H Hn Hc S) as (k & E1 & Hk & L1 & L2). rewrite E1. cbn [obind]. unfold insert_value_at. rewrite create_eq by assumption. cbn [obind].
  destruct (insert_core m R o e k a v (side k) t) as (m' & o' & E2 & Ho & H2); auto. rewrite E2. cbn [obind]. exists m', o'. split; [reflexivity|]. split; [exact Ho|]. unfold added. rewrite <- L1, <- L2. exact H2.
Qed.
Theorem emplace_multi_ok m R o e a v : holds m R o e -> weakly e -> a <> 0 -> m a = None ->
  exists m' o', emplace_multi lt key m o a v = Some (m', o', a) /\ hdr o' = hdr o /\ holds m' R o' (added lt key a v e).
Proof.
  intros (t & H & Hn & B & Hc & HR) S A0 Ha. unfold emplace_multi. rewrite create_eq by assumption. cbn [obind].
  destruct (multi_pos_ok _ _ o e t (key v) (W_create _ _ _ _ _ _ a (fresh_node v) H Ha) Hn Hc S) as (k & E1 & Hk & L1 & L2). rewrite E1. cbn [obind].
  destruct (insert_core m R o e k a v (side k) t) as (m' & o' & E2 & Ho & H2); auto. rewrite E2. cbn [obind]. exists m', o'. split; [reflexivity|]. split; [exact Ho|]. unfold added. rewrite <- L1, <- L2. exact H2.
Qed.

(** a node of the tree *)
Lemma keyat_in m R h lm rm t e1 j w e2 : W m R h lm rm [] t -> nodes t = e1 ++ (j, w) :: e2 -> keyat key m j = Some (key w).
Proof.
  intros H Hn. destruct (find_ctx j w t e1 e2 Hn) as (k & c & l & r & -> & _ & _). apply W_plug in H. exact (W_keyat key _ _ _ _ _ _ _ H).
Qed.
Lemma final_split h e : e <> [] -> exists d w, e = d ++ [(final h e, w)].
Proof.
  intros H. destruct (exists_last H) as (d & [j w] & ->). exists d, w. now rewrite final_last.
Qed.
Lemma has_false kk e : has lt key kk e = false <-> Forall (fun u => equiv lt key kk u = false) e.
Proof.
  unfold has. induction e as [|x e IH]; simpl; [split; auto|]. rewrite orb_false_iff, IH. split; [intros [H1 H2]; constructor; assumption|]. intros H. inversion H; auto.
Qed.
Lemma unique_pos_ok m R o e t kk : W m R (hdr o) (first (hdr o) e) (final (hdr o) e) [] t -> nodes t = e -> rbtree t -> cnt o = length e -> strictly e ->
  exists k (b : bool), unique_pos lt key m o kk = Some (up (hdr o) k, b, negb (has lt key kk e)) /\ plug k E = t /\ (k <> [] -> b = side k) /\ lefts k = upto lt key kk e /\ rights k = above lt key kk e.
Proof.
  intros H Hn B Hc S. unfold unique_pos. destruct (multi_pos_ok m R o e t kk H Hn Hc (strictly_weakly e S)) as (k & E1 & Hk & L1 & L2). rewrite E1. cbn [obind].
  assert (Ee : e = lefts k ++ rights k) by (rewrite <- Hn, <- Hk, plug_nodes; reflexivity).
  assert (AB : forall x : Z * V, In x (rights k) -> equiv lt key kk x = false). { intros x Hx. rewrite L2 in Hx. apply filter_In in Hx as [_ Hx]. unfold equiv. rewrite Hx. apply andb_false_r. }
  unfold begin. rewrite (W_hdr _ _ H). cbn [obind lft]. pose proof (W_1 _ _ _ _ _ _ _ H) as D. cbn [kc] in D.
  assert (HE : W m R (hdr o) (first (hdr o) e) (final (hdr o) e) k E) by (apply W_plug; rewrite Hk; exact H).
  assert (X : (k = [] \/ side k = true /\ lefts k = []) /\ side k && ((up (hdr o) k =? hdr o) || (up (hdr o) k =? first (hdr o) e)) = true \/
    (lefts k <> [] /\ side k && ((up (hdr o) k =? hdr o) || (up (hdr o) k =? first (hdr o) e)) = false /\ (if side k then dec (fuel_of o) m (up (hdr o) k) else Some (up (hdr o) k)) = Some (final (hdr o) (lefts k)))).
  { destruct k as [|[[|] y c v b] k0].
    - left. split; [auto|]. cbn [side up andb]. now rewrite Z.eqb_refl.
    - cbn [side up andb]. destruct (W_par _ _ _ _ _ _ _ HE) as (_ & _ & Yh). rewrite (proj2 (Z.eqb_neq _ _) Yh). cbn [orb]. cbn [lefts rights] in *. destruct (lefts k0) as [|[j w] d] eqn:EL.
      + left. split; [auto|]. rewrite Ee. cbn [app first]. apply Z.eqb_refl.
      + right. split; [discriminate|]. split.
        * rewrite Ee. cbn [app first]. apply Z.eqb_neq. rewrite <- Hk in D. specialize (D y). rewrite tc_plug in D. cbn [kc tc] in D. rewrite one_refl in D. pose proof (ac_kc y k0) as Q. rewrite EL in Q. cbn [ac] in Q. intros ->. rewrite one_refl in Q. lia.
        * rewrite <- EL. replace (lefts k0) with (lefts k0 ++ nodes (@E V)) by (simpl; apply app_nil_r). rewrite W_up in HE. apply (dec_ok (fuel_of o) m k0 y c E v b HE).
          -- intros ->. simpl in Hk. subst t. destruct B as [B _]. destruct c; [reflexivity|discriminate].
          -- simpl. rewrite ?app_nil_r, EL. discriminate.
          -- cbn [plug mk] in Hk. rewrite Hk, Hn. unfold fuel_of. rewrite Hc. lia.
    - right. cbn [side up andb]. split; [|split; [reflexivity|]].
      + simpl. intros Q. apply app_eq_nil in Q as [_ Q]. apply app_eq_nil in Q as [_ Q]. discriminate.
      + simpl lefts. now rewrite app_assoc, final_last. }
  destruct X as [[X ->]|(X & -> & ->)].
  - exists k, true. assert (L0 : lefts k = []) by (destruct X as [->|[_ X]]; [reflexivity|exact X]). split; [|split; [exact Hk|split; [destruct X as [->|[X _]]; [congruence|now rewrite X]|auto]]].
    replace (has lt key kk e) with false; [reflexivity|]. symmetry. apply has_false. rewrite Ee, L0. apply Forall_forall. exact AB.
  - cbn [obind]. destruct (final_split (hdr o) (lefts k) X) as (d & w & Ed). set (j := final (hdr o) (lefts k)) in *. clearbody j.
    assert (Ee2 : e = d ++ (j, w) :: rights k) by (rewrite Ee, Ed, <- app_assoc; reflexivity).
    rewrite (keyat_in _ _ _ _ _ _ _ _ _ _ H (eq_trans Hn Ee2)). cbn [obind].
    exists k, (side k). assert (Q : lt (key w) kk = negb (has lt key kk e)); [|rewrite <- Q; split; [destruct (lt (key w) kk); reflexivity|auto]].
    assert (Jw : negb (lt kk (key w)) = true). { assert (I : In (j, w) (upto lt key kk e)) by (rewrite <- L1, Ed; apply in_or_app; simpl; auto). apply filter_In in I as [_ I]. exact I. }
    destruct (lt (key w) kk) eqn:Q.
    + symmetry. apply negb_true_iff. apply has_false. rewrite Ee2. apply Forall_forall. intros x Hx. apply in_app_iff in Hx as [Hx|[<-|Hx]].
      * assert (Q2 : lt (keyof x) (key w) = true). { clear -S Ee2 Hx. subst e. induction d as [|u d IH]; [destruct Hx|]. simpl in S. inversion S as [|? ? S1 S2]; subst. destruct Hx as [->|Hx]; [|auto]. rewrite Forall_forall in S2. apply (S2 (j, w)). apply in_or_app. simpl; auto. }
        unfold equiv. now rewrite (sw_trans _ SW _ _ _ Q2 Q).
      * unfold equiv. change (keyof (j, w)) with (key w). now rewrite Q.
      * now apply AB.
    + symmetry. apply negb_false_iff. unfold has. apply existsb_exists. exists (j, w). split; [rewrite Ee2; apply in_or_app; simpl; auto|]. unfold equiv. change (keyof (j, w)) with (key w). now rewrite Q, Jw.
Qed.
Lemma destroy_back m R h lm rm t a v : W m R h lm rm [] t -> a <> 0 -> m a = None -> exists m', destroy (put m a (fresh_node v)) a = Some m' /\ W m' R h lm rm [] t.
Proof.
  intros H A0 Ha. unfold destroy. rewrite (get_eq _ _ _ A0 (put_eq _ _ _)). cbn [obind val fresh_node]. eexists. split; [reflexivity|].
  destruct (W_out _ _ _ _ _ _ _ H Ha) as [Ah At]. apply (W_frame m _ R); [exact H| |].
  - intros z Hz. unfold free, put. destruct (Z.eqb_spec z a) as [->|]; [|reflexivity]. cbn [kc] in Hz. rewrite (one_ne h a) in Hz by congruence. lia.
  - intros z Hz. rewrite <- (W_R _ _ _ _ _ _ _ H) by exact Hz. unfold free, put. destruct (Z.eqb_spec z a) as [->|]; [now rewrite Ha|reflexivity].
Qed.
Theorem insert_unique_ok m R o e a v : holds m R o e -> strictly e -> a <> 0 -> m a = None ->
  exists m' o' p, insert_unique lt key m o a v = Some (m', o', (p, negb (has lt key (key v) e))) /\ hdr o' = hdr o /\
    holds m' R o' (if has lt key (key v) e then e else added lt key a v e) /\ (has lt key (key v) e = false -> p = a).
Proof.
  intros (t & H & Hn & B & Hc & HR) S A0 Ha. unfold insert_unique. destruct (unique_pos_ok m R o e t (key v) H Hn B Hc S) as (k & b & E1 & Hk & Hb & L1 & L2). rewrite E1. cbn [obind fst snd].
  destruct (has lt key (key v) e) eqn:Q; cbn [negb].
  - exists m, o, (up (hdr o) k). split; [reflexivity|]. split; [reflexivity|]. split; [|discriminate]. exists t. auto.
  - unfold insert_value_at. rewrite create_eq by assumption. cbn [obind]. destruct (insert_core m R o e k a v b t) as (m' & o' & E2 & Ho & H2); auto. rewrite E2. cbn [obind]. exists m', o', a. split; [reflexivity|]. split; [exact Ho|]. split; [|auto]. unfold added. rewrite <- L1, <- L2. exact H2.
Qed.
Theorem emplace_unique_ok m R o e a v : holds m R o e -> strictly e -> a <> 0 -> m a = None ->
  exists m' o' p, emplace_unique lt key m o a v = Some (m', o', (p, negb (has lt key (key v) e))) /\ hdr o' = hdr o /\
    holds m' R o' (if has lt key (key v) e then e else added lt key a v e) /\ (has lt key (key v) e = false -> p = a).
Proof.
  intros (t & H & Hn & B & Hc & HR) S A0 Ha. unfold emplace_unique. rewrite create_eq by assumption. cbn [obind].
  destruct (unique_pos_ok _ _ o e t (key v) (W_create _ _ _ _ _ _ a (fresh_node v) H Ha) Hn B Hc S) as (k & b & E1 & Hk & Hb & L1 & L2). rewrite E1. cbn [obind fst snd].
  destruct (has lt key (key v) e) eqn:Q; cbn [negb].
  - destruct (destroy_back _ _ _ _ _ _ a v H A0 Ha) as (m' & E2 & H2). rewrite E2. cbn [obind]. exists m', o, (up (hdr o) k). split; [reflexivity|]. split; [reflexivity|]. split; [|discriminate]. exists t. auto.
  - destruct (insert_core m R o e k a v b t) as (m' & o' & E2 & Ho & H2); auto. rewrite E2. cbn [obind]. exists m', o', a. split; [reflexivity|]. split; [exact Ho|]. split; [|auto]. unfold added. rewrite <- L1, <- L2. exact H2.
Qed.
End Keys.
End Proof.
