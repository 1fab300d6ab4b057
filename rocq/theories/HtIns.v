(** The hash table: insertion and new arrays of buckets. *)
From Coq Require Import ZArith List Bool Lia Permutation.
From Verif Require Import F64 ArrModel BsModel HtModel HtSpec HtProof HtLook.
Import ListNotations.
Open Scope Z_scope.

Section HtIns.
Context {K T : Type} (key : T -> K) (hashf : K -> Z) (eqb : K -> K -> bool).
Hypothesis KO : key_ok hashf eqb.
Notation memory := (@memory T).
Notation same := (same key eqb).
Notation haskey := (haskey key eqb).
Notation grouped := (grouped key eqb).
Notation distinct := (distinct key eqb).
Notation rep := (rep key hashf eqb).
Notation from := (from key eqb).
Notation len := HtSpec.len.
Implicit Types (m : memory) (t : tab) (a p b : Z) (v x y : T) (k : K) (l A B : list (Z * T)) (L : list (list (Z * T))).

Lemma rep_ext m m' t L : rep m t L -> wf m' -> (forall a, In a (addrs L) -> cell m' a = cell m a) -> rep m' t L.
Proof.
  intros R W O. destruct R as [R1 R2 R3 R4 R5 R6 R7]. constructor; auto. intros i l E. destruct (R7 i l E) as (Q1 & Q2 & Q3 & Q4). repeat split; auto.
  eapply seg_ext; [|exact Q2]. intros a Ha. apply O. unfold addrs. apply in_map_iff in Ha as [e [E1 I]]. apply in_map_iff. exists e. split; [exact E1|].
  apply in_concat. exists l. split; [|exact I]. eapply nth_error_In; eauto.
Qed.
Lemma rep_in m t L a : rep m t L -> In a (addrs L) -> a <> 0 /\ cell m a <> None /\ 0 < a < brk m.
Proof.
  intros R I. unfold addrs in I. apply in_map_iff in I as [[a' v] [E I]]. cbn in E. subst a'. apply in_concat in I as [l [I1 I2]]. apply In_nth_error in I1 as [i Hi].
  destruct (r_b _ _ _ _ _ _ R i l Hi) as (_ & S & _). destruct (seg_in m l 0 a v S I2) as [N [r C]]. repeat split; try congruence; apply (r_wf _ _ _ _ _ _ R); congruence.
Qed.
(** [mlf_] has no part in the form of the table *)
Lemma rep_tab m t t' L : rep m t L -> (forall j, 0 <= j < bsz t -> bk t' j = bk t j) -> bl t' = bl t -> bsz t' = bsz t -> cnt t' = cnt t -> rep m t' L.
Proof.
  intros [R1 R2 R3 R4 R5 R6 R7] HB HL HS HC. constructor; auto; try lia. intros i l E. assert (Hi : (i < length L)%nat) by (apply nth_error_Some; congruence).
  unfold HtSpec.len in R3. rewrite HB by lia. rewrite HS. auto.
Qed.

Lemma addrs_mid L1 l L2 a : In a (addrs (L1 ++ l :: L2)) <-> In a (map fst l) \/ In a (addrs (L1 ++ L2)).
Proof. rewrite !addrs_app, addrs_cons, !in_app_iff. tauto. Qed.

(** a node linked in at the front of a chain *)
Lemma link_front m t L1 l L2 a v q ml : rep m t (L1 ++ l :: L2) -> a <> 0 -> ~ In a (addrs (L1 ++ l :: L2)) -> cell m a = Some (mkNd q v) ->
  hashf (key v) mod bsz t = len L1 -> Forall (fun e => haskey (key v) e = false) l ->
  exists m', set_nxt m a (hd l 0) = Some m' /\ rep m' (mkTab (upd (bk t) (len L1) a) (bl t) (bsz t) (cnt t + 1) ml) (L1 ++ ((a, v) :: l) :: L2) /\
    brk m' = brk m /\ (forall b, b <> a -> cell m' b = cell m b).
Proof.
  intros R N I C H F. destruct (rep_at key hashf eqb m t L1 l L2 R) as (Q1 & Q2 & Q3 & Q4 & Q5 & Q6 & Q7 & Q8). rewrite addrs_mid in I.
  destruct (set_last m [] a v q (hd l 0)) as (m' & E & S & Bm & O & Ca); [cbn [app seg hd]; auto|auto|]. exists m'. split; [exact E|].
  split; [|auto]. apply rep_upd with (m := m) (t := t) (l := l); cbn [bk bl bsz cnt hd]; auto.
  - unfold HtSpec.len. cbn [length]. lia.
  - apply (wf_set m m' a); auto; [apply (r_wf _ _ _ _ _ _ R)|congruence].
  - cbn [seg]. repeat split; auto. eapply seg_ext; [|exact Q2]. intros b Hb. apply O. intros ->. tauto.
  - cbn [map]. cbn [HtSpec.grouped snd]. split; [|exact Q4]. exists [], (map snd l). repeat split; auto. apply Forall_forall. intros y Iy. apply in_map_iff in Iy as [e [Ee Ie]].
    rewrite Forall_forall in F. specialize (F e Ie). unfold HtSpec.haskey in F. rewrite Ee in F. intros Sy. apply (k_sym _ _ KO) in Sy. congruence.
  - cbn [map fst]. constructor; tauto.
  - cbn [map fst]. intros b [<-|Hb]; [tauto|auto].
  - intros b Hb. apply O. intros ->. tauto.
Qed.
(** a node linked in behind a node with the same key *)
Lemma link_after m t L1 A c x B L2 a v q ml : rep m t (L1 ++ (A ++ (c, x) :: B) :: L2) -> a <> 0 -> ~ In a (addrs (L1 ++ (A ++ (c, x) :: B) :: L2)) ->
  cell m a = Some (mkNd q v) -> same x v ->
  get m c = Some (mkNd (hd B 0) x) /\ exists m1 m2, set_nxt m a (hd B 0) = Some m1 /\ set_nxt m1 c a = Some m2 /\
    rep m2 (mkTab (bk t) (bl t) (bsz t) (cnt t + 1) ml) (L1 ++ (A ++ (c, x) :: (a, v) :: B) :: L2) /\
    brk m2 = brk m /\ (forall b, b <> a -> b <> c -> cell m2 b = cell m b).
Proof.
  intros R N I C S. destruct (rep_at key hashf eqb m t L1 _ L2 R) as (Q1 & Q2 & Q3 & Q4 & Q5 & Q6 & Q7 & Q8). rewrite addrs_mid in I.
  pose proof Q2 as Q2'. apply seg_app in Q2' as [SA SC]. split; [exact (seg_get m c x B 0 SC)|].
  rewrite map_app in Q5, I, Q7. cbn [map fst] in Q5, I, Q7.
  assert (Ac : a <> c) by (intros ->; apply I; left; apply in_elt).
  destruct (set_last m [] a v q (hd B 0)) as (m1 & E1 & S1 & B1 & O1 & C1); [cbn [app seg hd]; auto|auto|].
  assert (SAc : seg m1 (A ++ [(c, x)]) (hd B 0)).
  { eapply seg_ext; [|apply seg_app; split; [exact SA|]]. 2:{ cbn [seg hd]. destruct SC as (U1 & U2 & _). auto. }
    intros b Hb. apply O1. intros ->. apply I. left. rewrite map_app in Hb. cbn [map fst] in Hb. rewrite in_app_iff in Hb |- *. cbn [In] in *. tauto. }
  destruct (set_last m1 A c x (hd B 0) a SAc) as (m2 & E2 & S2 & B2 & O2 & C2).
  { apply NoDup_remove_2 in Q5. rewrite in_app_iff in Q5. tauto. }
  exists m1, m2. split; [exact E1|]. split; [exact E2|]. split; [|split; [lia|intros b H1 H2; now rewrite O2, O1]].
  assert (Hv : hashf (key v) mod bsz t = len L1).
  { apply Forall_app in Q3 as [_ Q3]. inversion Q3 as [|? ? Hx _]; subst. cbn [snd] in Hx. rewrite <- (k_hash _ _ KO _ _ S). exact Hx. }
  apply rep_upd with (m := m) (t := t) (l := A ++ (c, x) :: B); cbn [bk bl bsz cnt]; auto.
  - intros j Hj. destruct (Z.eqb_spec j (len L1)) as [->|_]; [|reflexivity].
    unfold rdb in Q1. destruct ((0 <=? len L1) && (len L1 <? bl t)); [injection Q1 as ->|discriminate]. now rewrite !hd_app.
  - unfold HtSpec.len. rewrite !app_length. cbn [length]. lia.
  - apply (wf_set m1 m2 c); auto; [|now rewrite O1 by congruence; destruct SC as (_ & U & _); rewrite U].
    apply (wf_set m m1 a); auto; [apply (r_wf _ _ _ _ _ _ R)|congruence].
  - replace (A ++ (c, x) :: (a, v) :: B) with ((A ++ [(c, x)]) ++ (a, v) :: B) by now rewrite <- app_assoc. apply seg_app. cbn [hd]. split; [exact S2|].
    cbn [seg]. repeat split; auto; [rewrite O2 by congruence; exact C1|]. eapply seg_ext; [|apply SC]. intros b Hb. rewrite O2, O1; [reflexivity| |].
    + intros ->. apply I. left. rewrite in_app_iff. cbn [In]. tauto.
    + intros ->. apply NoDup_remove_2 in Q5. rewrite in_app_iff in Q5. tauto.
  - apply Forall_app in Q3 as [F1 F2]. inversion F2; subst. apply Forall_app. split; [assumption|]. constructor; [assumption|]. constructor; [exact Hv|assumption].
  - rewrite map_app in Q4 |- *. cbn [map snd] in Q4 |- *. now apply (grouped_ins key hashf eqb KO).
  - rewrite map_app. cbn [map fst]. apply Permutation_NoDup with (a :: map fst A ++ c :: map fst B); [|constructor; tauto].
    apply Permutation_trans with (map fst A ++ a :: c :: map fst B); [apply Permutation_middle|]. apply Permutation_app_head. apply perm_swap.
  - intros b Hb. rewrite map_app in Hb. cbn [map fst] in Hb. rewrite in_app_iff in Hb. cbn [In] in Hb. destruct (Z.eq_dec a b) as [<-|Nab]; [tauto|].
    apply Q7. rewrite in_app_iff. cbn [In]. tauto.
  - intros b Hb. assert (b <> a) by (intros ->; tauto). assert (b <> c) by (intros ->; revert Hb; apply Q7; apply in_elt). now rewrite O2, O1.
Qed.
Lemma perm_ins1 L1 l L2 a v : Permutation (concat (L1 ++ ((a, v) :: l) :: L2)) ((a, v) :: concat (L1 ++ l :: L2)).
Proof. rewrite !concat_mid. cbn [app]. symmetry. apply Permutation_middle. Qed.
Lemma perm_ins2 L1 A c x B L2 a v : Permutation (concat (L1 ++ (A ++ (c, x) :: (a, v) :: B) :: L2)) ((a, v) :: concat (L1 ++ (A ++ (c, x) :: B) :: L2)).
Proof.
  rewrite !concat_mid. symmetry. rewrite <- !app_assoc. cbn [app]. rewrite !app_assoc.
  apply Permutation_trans with ((concat L1 ++ A) ++ (a, v) :: (c, x) :: B ++ concat L2); [apply Permutation_middle|]. apply Permutation_app_head, perm_swap.
Qed.
Lemma frame_ins m L m' L' a v : ~ In a (addrs L) -> Permutation (concat L') ((a, v) :: concat L) -> (forall b, ~ In b (addrs L') -> cell m' b = cell m b) -> frame m L m' L'.
Proof.
  intros I P O b Hb. assert (Ib : In b (addrs L) -> False).
  { intros Q. apply Hb. unfold addrs in *. apply (Permutation_in b (Permutation_sym (Permutation_map fst P))). now right. }
  split; [intros Q; now destruct (Ib Q)|]. intros _. now apply O.
Qed.
Lemma addrs_new L L' a v b : Permutation (concat L') ((a, v) :: concat L) -> (In b (addrs L') <-> b = a \/ In b (addrs L)).
Proof.
  intros P. unfold addrs. pose proof (Permutation_map fst P) as Q. cbn [map fst] in Q. split; intros H.
  - apply (Permutation_in b Q) in H. destruct H as [H|H]; auto.
  - apply (Permutation_in b (Permutation_sym Q)). destruct H as [->|H]; [now left|now right].
Qed.

(** the two ways of linking a new node in, as all the insertions of the multi kind do it *)
Lemma core m t L1 l L2 a v q ml : rep m t (L1 ++ l :: L2) -> a <> 0 -> ~ In a (addrs (L1 ++ l :: L2)) -> cell m a = Some (mkNd q v) ->
  hashf (key v) mod bsz t = len L1 ->
  (Forall (fun e => haskey (key v) e = false) l /\ hd (from (key v) l) 0 = 0 /\
     exists m' L', set_nxt m a (hd l 0) = Some m' /\ rep m' (mkTab (upd (bk t) (len L1) a) (bl t) (bsz t) (cnt t + 1) ml) L' /\
     Permutation (concat L') ((a, v) :: concat (L1 ++ l :: L2)) /\ brk m' = brk m /\ (forall b, ~ In b (addrs L') -> cell m' b = cell m b)) \/
  (exists c n m1 m2 L' x, hd (from (key v) l) 0 = c /\ c <> 0 /\ In (c, x) l /\ eqb (key x) (key v) = true /\
     get m c = Some n /\ set_nxt m a (nxt n) = Some m1 /\ set_nxt m1 c a = Some m2 /\
     rep m2 (mkTab (bk t) (bl t) (bsz t) (cnt t + 1) ml) L' /\
     Permutation (concat L') ((a, v) :: concat (L1 ++ l :: L2)) /\ brk m2 = brk m /\ (forall b, ~ In b (addrs L') -> cell m2 b = cell m b)).
Proof.
  intros R N I C H. destruct (rep_at key hashf eqb m t L1 _ L2 R) as (Q1 & Q2 & _). destruct (from_split key eqb (key v) l) as [X [EX FX]]. destruct (from (key v) l) as [|[c x] B] eqn:E.
  - left. apply from_nil in E. split; [exact E|]. split; [reflexivity|]. destruct (link_front m t L1 l L2 a v q ml R N I C H E) as (m' & E1 & R' & Bm & O).
    exists m', (L1 ++ ((a, v) :: l) :: L2). repeat (split; [first [assumption|apply perm_ins1]|]). intros b Hb. apply O. intros ->. apply Hb. apply (addrs_new _ _ a v a (perm_ins1 L1 l L2 a v)). now left.
  - right. pose proof (from_hd key eqb _ _ _ _ _ E) as Hk. rewrite EX in R, I, Q2. destruct (link_after m t L1 X c x B L2 a v q ml R N I C Hk) as (G & m1 & m2 & E1 & E2 & R' & Bm & O).
    apply seg_app in Q2 as [_ Q2]. exists c, (mkNd (hd B 0) x), m1, m2, (L1 ++ (X ++ (c, x) :: (a, v) :: B) :: L2), x. rewrite EX. cbn [hd nxt].
    repeat (split; [first [assumption|apply perm_ins2|reflexivity|apply Q2|apply in_elt]|]).
    intros b Hb. assert (NI : ~ (b = a \/ In b (addrs (L1 ++ (X ++ (c, x) :: B) :: L2)))) by (rewrite <- (addrs_new _ _ a v b (perm_ins2 L1 X c x B L2 a v)); exact Hb).
    apply O; [tauto|]. intros ->. apply NI. right. rewrite addrs_mid, map_app. left. cbn [map fst]. apply in_elt.
Qed.

(** ** insertion without a new array *)
Theorem insert_multi_noresize_ok m t L v : rep m t L -> exists m' t' L', insert_multi_noresize key hashf eqb m t v = Some (m', t', brk m) /\
  rep m' t' L' /\ Permutation (concat L') ((brk m, v) :: concat L) /\ frame m L m' L' /\ brk m' = brk m + 1 /\ bsz t' = bsz t /\ mlf t' = mlf t.
Proof.
  intros R. destruct (rep_bucket key hashf eqb m t L (key v) R) as (L1 & l & L2 & EL & H & E & Q1 & Q2 & _). subst L. unfold insert_multi_noresize. rewrite H. cbn [obind]. rewrite Q1. cbn [obind].
  pose proof (create_ok m v (r_wf _ _ _ _ _ _ R)) as C. destruct (create_node m v) as [m1 a]. destruct C as (Ea & Na & C0 & C1 & O1 & B1 & W1).
  assert (I : ~ In a (addrs (L1 ++ l :: L2))) by (intros Q; apply (rep_in m t _ a R) in Q; lia).
  assert (R1 : rep m1 t (L1 ++ l :: L2)) by (apply (rep_ext m); auto; intros b Hb; apply O1; intros ->; contradiction).
  destruct (rep_at key hashf eqb m1 t L1 l L2 R1) as (_ & Q2' & _ & _ & _ & _ & _ & Q8). rewrite find_loop_ok by assumption. cbn [obind]. symmetry in E.
  destruct (core m1 t L1 l L2 a v 0 (mlf t) R1 Na I C1 E) as [(F & Ef & m' & L' & E1 & R' & P & Bm & O)|(c & n & m2 & m3 & L' & x & Ec & Nc & _ & _ & G & E1 & E2 & R' & P & Bm & O)].
  - rewrite Ef, Z.eqb_refl, E1. cbn [obind]. unfold wrb. rewrite Q1. cbn [obind]. rewrite <- Ea. eexists m', _, L'. split; [reflexivity|]. unfold set_cnt. cbn [bk bl bsz cnt mlf].
    repeat (split; [first [assumption|lia]|]). split; [|auto with zarith]. eapply frame_ins; [exact I|exact P|]. intros b Hb. rewrite O by assumption. apply O1. intros ->.
    apply Hb. apply (addrs_new _ _ a v a P). now left.
  - rewrite Ec, (proj2 (Z.eqb_neq c 0) Nc), G. cbn [obind]. rewrite E1. cbn [obind]. rewrite E2. cbn [obind]. rewrite <- Ea. eexists m3, _, L'. split; [reflexivity|]. unfold set_cnt. cbn [bk bl bsz cnt mlf].
    repeat (split; [first [assumption|lia]|]). split; [|auto with zarith]. eapply frame_ins; [exact I|exact P|]. intros b Hb. rewrite O by assumption. apply O1. intros ->.
    apply Hb. apply (addrs_new _ _ a v a P). now left.
Qed.
Theorem insert_unique_noresize_ok m t L v : rep m t L -> exists m' t' L' p (b : bool), insert_unique_noresize key hashf eqb m t v = Some (m', t', (p, b)) /\
  rep m' t' L' /\ frame m L m' L' /\ bsz t' = bsz t /\ mlf t' = mlf t /\
  (if b then p = brk m /\ Forall (fun e => haskey (key v) e = false) (concat L) /\ Permutation (concat L') ((p, v) :: concat L)
   else m' = m /\ t' = t /\ L' = L /\ exists w, In (p, w) (concat L) /\ eqb (key w) (key v) = true).
Proof.
  intros R. destruct (rep_bucket key hashf eqb m t L (key v) R) as (L1 & l & L2 & EL & H & E & Q1 & Q2 & _). subst L. unfold insert_unique_noresize. rewrite H. cbn [obind]. rewrite Q1. cbn [obind].
  destruct (rep_at key hashf eqb m t L1 l L2 R) as (_ & _ & _ & _ & _ & _ & _ & Q8). rewrite find_loop_ok by assumption. cbn [obind].
  destruct (other_bucket2 key hashf eqb KO m t L1 l L2 (key v) R E) as [O1' O2'].
  pose proof (create_ok m v (r_wf _ _ _ _ _ _ R)) as C. destruct (create_node m v) as [m1 a]. destruct C as (Ea & Na & C0 & C1 & O1 & B1 & W1).
  assert (I : ~ In a (addrs (L1 ++ l :: L2))) by (intros Q; apply (rep_in m t _ a R) in Q; lia).
  assert (R1 : rep m1 t (L1 ++ l :: L2)) by (apply (rep_ext m); auto; intros b Hb; apply O1; intros ->; contradiction). symmetry in E.
  destruct (core m1 t L1 l L2 a v 0 (mlf t) R1 Na I C1 E) as [(F & Ef & m' & L' & E1 & R' & P & Bm & O)|(c & n & m2 & m3 & L' & x & Ec & Nc & Ic & Hx & _)].
  - rewrite Ef, Z.eqb_refl, E1. cbn [obind]. unfold wrb. rewrite Q1. cbn [obind]. eexists m', _, L', a, true. split; [reflexivity|]. unfold set_cnt. cbn [bk bl bsz cnt mlf].
    split; [assumption|]. split; [|repeat split; auto].
    + eapply frame_ins; [exact I|exact P|]. intros b Hb. rewrite O by assumption. apply O1. intros ->. apply Hb. apply (addrs_new _ _ a v a P). now left.
    + rewrite concat_mid. repeat (apply Forall_app; split); assumption.
  - rewrite Ec, (proj2 (Z.eqb_neq c 0) Nc). exists m, t, (L1 ++ l :: L2), c, false. split; [reflexivity|]. split; [assumption|]. split; [|repeat split; auto].
    + intros b Hb. split; [intros Q; contradiction|auto].
    + exists x. split; [|exact Hx]. rewrite concat_mid. apply in_or_app. right. apply in_or_app. now left.
Qed.

(** a node that is already there is linked in *)
Lemma insert_node_multi_ok m t L a v : rep m t L -> a <> 0 -> ~ In a (addrs L) -> cell m a = Some (mkNd 0 v) ->
  exists m' t' L', insert_node_multi key hashf eqb m t a = Some (m', t', a) /\ rep m' t' L' /\ Permutation (concat L') ((a, v) :: concat L) /\
  frame m L m' L' /\ brk m' = brk m /\ bsz t' = bsz t /\ mlf t' = mlf t.
Proof.
  intros R Na I C. unfold insert_node_multi. assert (G : get m a = Some (mkNd 0 v)) by (unfold get; now rewrite (proj2 (Z.eqb_neq a 0) Na)). rewrite G. cbn [obind val].
  destruct (rep_bucket key hashf eqb m t L (key v) R) as (L1 & l & L2 & EL & H & E & Q1 & Q2 & _). subst L. rewrite H. cbn [obind]. rewrite Q1. cbn [obind].
  destruct (rep_at key hashf eqb m t L1 l L2 R) as (_ & _ & _ & _ & _ & _ & _ & Q8). symmetry in E.
  assert (FI : forall m' L', Permutation (concat L') ((a, v) :: concat (L1 ++ l :: L2)) -> (forall b, ~ In b (addrs L') -> cell m' b = cell m b) -> frame m (L1 ++ l :: L2) m' L')
    by (intros m' L' P O; eapply frame_ins; eauto).
  destruct (Z.eqb_spec (hd l 0) 0) as [Z0|NZ].
  - apply (seg_hd0 m l Q2) in Z0. subst l. destruct (core m t L1 [] L2 a v 0 (mlf t) R Na I C E) as [(F & Ef & m' & L' & E1 & R' & P & Bm & O)|(c & n & m2 & m3 & L' & x & Ec & Nc & [] & _)].
    unfold wrb. rewrite Q1. cbn [obind]. exists m, (mkTab (upd (bk t) (len L1) a) (bl t) (bsz t) (cnt t + 1) (mlf t)), L'. split; [reflexivity|].
    cbn [hd] in E1. unfold set_nxt in E1. rewrite G in E1. cbn [obind val] in E1. injection E1 as E1. subst m'. cbn [brk bsz mlf] in *.
    assert (X : forall b, upd (cell m) a (Some (mkNd 0 v)) b = cell m b) by (intros b; unfold upd; destruct (Z.eqb_spec b a) as [->|_]; congruence).
    split; [|split; [exact P|split; [|auto]]].
    + eapply rep_ext; [exact R'|apply (r_wf _ _ _ _ _ _ R)|]. intros b _. symmetry. apply X.
    + apply FI; [exact P|]. auto.
  - rewrite find_loop_ok by assumption. cbn [obind].
    destruct (core m t L1 l L2 a v 0 (mlf t) R Na I C E) as [(F & Ef & m' & L' & E1 & R' & P & Bm & O)|(c & n & m2 & m3 & L' & x & Ec & Nc & _ & _ & G' & E1 & E2 & R' & P & Bm & O)].
    + rewrite Ef, Z.eqb_refl. cbn [obind]. rewrite E1. cbn [obind]. unfold wrb. rewrite Q1. cbn [obind]. eexists m', _, L'. split; [reflexivity|]. unfold set_cnt. cbn [bk bl bsz cnt mlf]. auto 10.
    + rewrite Ec, (proj2 (Z.eqb_neq c 0) Nc), G'. cbn [obind]. rewrite E1. cbn [obind]. rewrite E2. cbn [obind]. eexists m3, _, L'. split; [reflexivity|]. unfold set_cnt. cbn [bk bl bsz cnt mlf]. auto 10.
Qed.
Lemma insert_node_unique_ok m t L a v : rep m t L -> a <> 0 -> ~ In a (addrs L) -> cell m a = Some (mkNd 0 v) ->
  exists m' t' L' p (b : bool), insert_node_unique key hashf eqb m t a = Some (m', t', (p, b)) /\ rep m' t' L' /\ frame m L m' L' /\ brk m' = brk m /\ bsz t' = bsz t /\ mlf t' = mlf t /\
  (if b then p = a /\ Forall (fun e => haskey (key v) e = false) (concat L) /\ Permutation (concat L') ((p, v) :: concat L)
   else m' = m /\ t' = t /\ L' = L /\ exists w, In (p, w) (concat L) /\ eqb (key w) (key v) = true).
Proof.
  intros R Na I C. unfold insert_node_unique. assert (G : get m a = Some (mkNd 0 v)) by (unfold get; now rewrite (proj2 (Z.eqb_neq a 0) Na)). rewrite G. cbn [obind val].
  destruct (rep_bucket key hashf eqb m t L (key v) R) as (L1 & l & L2 & EL & H & E & Q1 & Q2 & _). subst L. rewrite H. cbn [obind]. rewrite Q1. cbn [obind].
  destruct (rep_at key hashf eqb m t L1 l L2 R) as (_ & _ & _ & _ & _ & _ & _ & Q8). destruct (other_bucket2 key hashf eqb KO m t L1 l L2 (key v) R E) as [O1' O2']. symmetry in E.
  assert (FI : forall m' L', Permutation (concat L') ((a, v) :: concat (L1 ++ l :: L2)) -> (forall b, ~ In b (addrs L') -> cell m' b = cell m b) -> frame m (L1 ++ l :: L2) m' L')
    by (intros m' L' P O; eapply frame_ins; eauto).
  assert (FA : Forall (fun e => haskey (key v) e = false) l -> Forall (fun e => haskey (key v) e = false) (concat (L1 ++ l :: L2)))
    by (intros; rewrite concat_mid; repeat (apply Forall_app; split); assumption).
  destruct (Z.eqb_spec (hd l 0) 0) as [Z0|NZ].
  - apply (seg_hd0 m l Q2) in Z0. subst l. destruct (core m t L1 [] L2 a v 0 (mlf t) R Na I C E) as [(F & Ef & m' & L' & E1 & R' & P & Bm & O)|(c & n & m2 & m3 & L' & x & Ec & Nc & [] & _)].
    unfold wrb. rewrite Q1. cbn [obind]. exists m, (mkTab (upd (bk t) (len L1) a) (bl t) (bsz t) (cnt t + 1) (mlf t)), L', a, true. split; [reflexivity|].
    cbn [hd] in E1. unfold set_nxt in E1. rewrite G in E1. cbn [obind val] in E1. injection E1 as E1. subst m'. cbn [brk bsz mlf] in *.
    assert (X : forall b, upd (cell m) a (Some (mkNd 0 v)) b = cell m b) by (intros b; unfold upd; destruct (Z.eqb_spec b a) as [->|_]; congruence).
    split; [|split; [|auto 10]].
    + eapply rep_ext; [exact R'|apply (r_wf _ _ _ _ _ _ R)|]. intros b _. symmetry. apply X.
    + apply FI; [exact P|]. auto.
  - rewrite find_loop_ok by assumption. cbn [obind].
    destruct (core m t L1 l L2 a v 0 (mlf t) R Na I C E) as [(F & Ef & m' & L' & E1 & R' & P & Bm & O)|(c & n & m2 & m3 & L' & x & Ec & Nc & Ic & Hx & _)].
    + rewrite Ef, Z.eqb_refl. cbn [obind]. rewrite E1. cbn [obind]. unfold wrb. rewrite Q1. cbn [obind]. eexists m', _, L', a, true. split; [reflexivity|]. unfold set_cnt. cbn [bk bl bsz cnt mlf]. auto 10.
    + rewrite Ec, (proj2 (Z.eqb_neq c 0) Nc). exists m, t, (L1 ++ l :: L2), c, false. split; [reflexivity|]. split; [assumption|]. split; [intros b Hb; split; [intros Q; contradiction|auto]|].
      repeat split; auto. exists x. split; [|exact Hx]. rewrite concat_mid. apply in_or_app. right. apply in_or_app. now left.
Qed.
End HtIns.
