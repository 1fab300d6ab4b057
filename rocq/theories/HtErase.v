(** The hash table: erasing. *)
From Coq Require Import ZArith List Bool Lia Permutation.
From Verif Require Import F64 HtModel HtSpec HtProof HtLook HtIns HtRehash.
Import ListNotations.
Open Scope Z_scope.

Section HtErase.
Context {K T : Type} (key : T -> K) (hashf : K -> Z) (eqb : K -> K -> bool).
Notation memory := (@memory T).
Notation haskey := (haskey key eqb).
Notation rep := (rep key hashf eqb).
Notation len := HtSpec.len.
Implicit Types (m : memory) (t : tab) (a p b c : Z) (v x y : T) (k : K) (l A B X : list (Z * T)) (L : list (list (Z * T))).

(** a table before and after an erasure *)
Definition less m t L m' t' L' : Prop := rep m' t' L' /\ frame m L m' L' /\ incl (addrs L') (addrs L) /\ brk m' = brk m /\ bsz t' = bsz t /\ mlf t' = mlf t.
Lemma less_refl m t L : rep m t L -> less m t L m t L.
Proof. intros R. split; [exact R|]. split; [intros b Hb; split; [contradiction|reflexivity]|]. split; [intros b Hb; exact Hb|]. auto. Qed.
Lemma less_trans m t L m1 t1 L1 m' t' L' : less m t L m1 t1 L1 -> less m1 t1 L1 m' t' L' -> less m t L m' t' L'.
Proof.
  intros (R1 & F1 & I1 & B1 & S1 & M1) (R & F & I & B & S & M). split; [exact R|]. split; [|split; [intros b Hb; auto|repeat split; congruence]].
  intros b Hb. destruct (F b Hb) as [F2 F3]. destruct (in_dec Z.eq_dec b (addrs L1)) as [J|J].
  - split; [auto|]. intros N. exfalso. auto.
  - destruct (F1 b J) as [G1 G2]. rewrite F3 by exact J. auto.
Qed.
Lemma bk_at m t L1 l L2 : rep m t (L1 ++ l :: L2) -> bk t (len L1) = hd l 0.
Proof. intros R. apply (r_b _ _ _ _ _ _ R (length L1) l (nth_mid L1 l L2)). Qed.
Lemma hash_at m t L1 l L2 a v : rep m t (L1 ++ l :: L2) -> In (a, v) l -> hash hashf t (key v) = Some (len L1).
Proof.
  intros R I. destruct (rep_at key hashf eqb m t L1 l L2 R) as (_ & _ & Q3 & _). pose proof (r_pos _ _ _ _ _ _ R) as P. unfold hash, hash_n.
  destruct (Z.eqb_spec (bsz t) 0); [lia|]. rewrite Forall_forall in Q3. specialize (Q3 _ I). cbn [snd] in Q3. now rewrite Q3.
Qed.
(** a block [X] of a chain was cut out *)
Lemma rep_cut m t L1 A X B L2 m' t' : rep m t (L1 ++ (A ++ X ++ B) :: L2) -> wf m' -> brk m' = brk m -> seg m' (A ++ B) 0 ->
  (forall j, 0 <= j < bsz t -> bk t' j = if j =? len L1 then hd (A ++ B) 0 else bk t j) -> bl t' = bl t -> bsz t' = bsz t -> cnt t' = cnt t - len X -> mlf t' = mlf t ->
  (forall b, In b (map fst X) -> cell m' b = None) -> (forall b, ~ In b (map fst (A ++ X ++ B)) -> cell m' b = cell m b) ->
  less m t (L1 ++ (A ++ X ++ B) :: L2) m' t' (L1 ++ (A ++ B) :: L2).
Proof.
  intros R W Bm S HB HL HS HC HM HX O. destruct (rep_at key hashf eqb m t L1 _ L2 R) as (Q1 & Q2 & Q3 & Q4 & Q5 & Q6 & Q7 & Q8).
  assert (Sub : forall b, In b (map fst (A ++ X ++ B)) <-> In b (map fst X) \/ In b (map fst (A ++ B))) by (intros b; rewrite !map_app, !in_app_iff; tauto).
  assert (Nd : NoDup (map fst X ++ map fst (A ++ B))).
  { apply Permutation_NoDup with (map fst (A ++ X ++ B)); [|exact Q5]. rewrite !map_app. rewrite app_assoc, (Permutation_app_comm (map fst A)), <- app_assoc. reflexivity. }
  split; [|split; [|split; [|auto]]].
  - apply rep_upd with (m := m) (t := t) (l := A ++ X ++ B); auto.
    + unfold HtSpec.len in *. rewrite !app_length. lia.
    + apply Forall_app in Q3 as [F1 F2]. apply Forall_app in F2 as [_ F2]. apply Forall_app. auto.
    + rewrite !map_app in Q4. rewrite map_app. eapply grouped_dels. exact Q4.
    + eapply nodup_r. exact Nd.
    + intros b Hb. apply Q7. apply Sub. auto.
    + intros b Hb. apply O. intros C. exact (Q7 b C Hb).
  - intros b Hb. rewrite addrs_mid in Hb. split; intros Q; rewrite addrs_mid in Q.
    + destruct Q as [Q|Q]; [|tauto]. apply Sub in Q as [Q|Q]; [auto|tauto].
    + apply O. tauto.
  - intros b Hb. rewrite addrs_mid in *. rewrite Sub. tauto.
Qed.

(** ** the loops that free nodes *)
Lemma cut_loop_ok B X : forall fuel m c, wf m -> seg m (X ++ B) 0 -> NoDup (map fst (X ++ B)) -> (length X < fuel)%nat ->
  exists m', cut_loop fuel m (hd (X ++ B) 0) (hd B 0) c = Some (m', c - len X) /\ wf m' /\ brk m' = brk m /\
    (forall b, In b (map fst X) -> cell m' b = None) /\ (forall b, ~ In b (map fst X) -> cell m' b = cell m b).
Proof.
  induction X as [|[a v] X IH]; intros fuel m c W S N F; (destruct fuel as [|fuel]; [cbn in F; lia|]); cbn [cut_loop app].
  - rewrite Z.eqb_refl. exists m. unfold HtSpec.len. cbn. rewrite Z.sub_0_r. split; [reflexivity|]. split; [exact W|]. split; [reflexivity|]. split; [intros b []|auto].
  - cbn [app] in S. pose proof S as (Na & Ca & S'). cbn [map app fst] in N. inversion N as [|? ? N1 N2]; subst. cbn [hd app].
    destruct (Z.eqb_spec a (hd B 0)) as [E|NE].
    { exfalso. destruct B as [|[b w] B]; [contradiction|]. cbn [hd] in E. subst b. apply N1. rewrite map_app. apply in_elt. }
    rewrite (seg_get m a v (X ++ B) 0 S). cbn [obind]. destruct (destroy_ok m a Na) as (m1 & E1 & B1 & C1 & O1); [congruence|]. rewrite E1. cbn [obind nxt].
    destruct (IH fuel m1 (c - 1)) as (m' & E' & W' & B' & C' & O').
    + eapply wf_destroy; eauto.
    + eapply seg_ext; [|exact S']. intros b Hb. apply O1. intros ->. contradiction.
    + exact N2.
    + cbn in F. lia.
    + exists m'. rewrite E'. split; [unfold HtSpec.len; cbn [length]; f_equal; f_equal; lia|]. split; [exact W'|]. split; [lia|]. split.
      * intros b [<-|Hb]; [|auto]. cbn [fst]. rewrite O'; [exact C1|]. intros Q. apply N1. rewrite map_app, in_app_iff. auto.
      * intros b Hb. cbn [map fst In] in Hb. rewrite O'; [apply O1|]; intros Q; apply Hb; auto.
Qed.
Lemma fuel_part m (X B : list (Z * T)) : (length (X ++ B) < fu m)%nat -> (length X < fu m)%nat.
Proof. rewrite app_length. lia. Qed.
Lemma erase_bucket_to_ok m t L1 X B L2 : rep m t (L1 ++ (X ++ B) :: L2) -> exists m' t', erase_bucket_to m t (len L1) (hd B 0) = Some (m', t') /\
  less m t (L1 ++ (X ++ B) :: L2) m' t' (L1 ++ B :: L2).
Proof.
  intros R. destruct (rep_at key hashf eqb m t L1 _ L2 R) as (Q1 & Q2 & Q3 & Q4 & Q5 & Q6 & Q7 & Q8). unfold erase_bucket_to. rewrite Q1. cbn [obind].
  destruct (cut_loop_ok B X (fu m) m (cnt t) (r_wf _ _ _ _ _ _ R) Q2 Q5 (fuel_part m X B Q8)) as (m' & E & W & Bm & C & O). rewrite E. cbn [obind]. unfold wrb. rewrite Q1. cbn [obind].
  eexists m', _. split; [reflexivity|]. apply (rep_cut m t L1 [] X B L2); cbn [app set_cnt bk bl bsz cnt mlf]; auto.
  - apply seg_app in Q2 as [_ Q2]. eapply seg_ext; [|exact Q2]. intros b Hb. apply O. rewrite map_app in Q5. intros Q. clear - Q5 Hb Q. induction (map fst X) as [|z Z IH]; [exact Q|].
    cbn [app] in Q5. inversion Q5; subst. destruct Q as [->|Q]; [|auto]. apply H1. apply in_or_app. auto.
  - intros b Hb. apply O. rewrite map_app, in_app_iff in Hb. tauto.
Qed.
Lemma seek_loop_ok m p v R A : forall fuel c x, seg m ((c, x) :: A ++ (p, v) :: R) 0 -> NoDup (map fst ((c, x) :: A ++ (p, v) :: R)) -> (length A < fuel)%nat ->
  exists A' c' x', (c, x) :: A = A' ++ [(c', x')] /\ seek_loop fuel m c (hd (A ++ (p, v) :: R) 0) p = Some (c', p).
Proof.
  induction A as [|[a w] A IH]; intros fuel c x S N F; (destruct fuel as [|fuel]; [cbn in F; lia|]); cbn [seek_loop app hd].
  - rewrite Z.eqb_refl. exists [], c, x. auto.
  - cbn [app] in S. pose proof S as (_ & _ & S'). cbn [map app fst] in N. inversion N as [|? ? N1 N2]; subst. inversion N2 as [|? ? N3 N4]; subst.
    destruct (Z.eqb_spec a p) as [->|NE]; [exfalso; apply N3; rewrite map_app; apply in_elt|]. rewrite (seg_get m a w (A ++ (p, v) :: R) 0 S'). cbn [obind nxt].
    destruct (IH fuel a w S' N2) as (A' & c' & x' & E & H); [cbn in F; lia|]. exists ((c, x) :: A'), c', x'. split; [cbn [app]; now rewrite <- E|exact H].
Qed.
(** a node behind another is unlinked *)
Lemma del_after m t L1 A c x p v B L2 : rep m t (L1 ++ (A ++ (c, x) :: (p, v) :: B) :: L2) -> get m p = Some (mkNd (hd B 0) v) /\ exists m1 m2, set_nxt m c (hd B 0) = Some m1 /\
  destroy_node m1 p = Some m2 /\ get m2 c = Some (mkNd (hd B 0) x) /\
  less m t (L1 ++ (A ++ (c, x) :: (p, v) :: B) :: L2) m2 (set_cnt t (cnt t - 1)) (L1 ++ (A ++ (c, x) :: B) :: L2).
Proof.
  intros R. destruct (rep_at key hashf eqb m t L1 _ L2 R) as (Q1 & Q2 & Q3 & Q4 & Q5 & Q6 & Q7 & Q8). pose proof (bk_at m t L1 _ L2 R) as Eb.
  pose proof Q2 as Q2'. apply seg_app in Q2' as [SA SC]. cbn [hd] in SA. pose proof SC as (Nc & Cc & Sp). pose proof Sp as (Np & Cp & SB). cbn [hd] in Cc.
  split; [exact (seg_get m p v B 0 Sp)|].
  assert (Nd : NoDup (map fst (A ++ (c, x) :: (p, v) :: B))) by exact Q5. rewrite map_app in Nd. cbn [map fst] in Nd.
  assert (Hc : ~ In c (map fst A ++ p :: map fst B)) by now apply NoDup_remove_2 in Nd.
  assert (Hp : ~ In p (map fst A ++ c :: map fst B)).
  { change (c :: p :: map fst B) with ([c] ++ p :: map fst B) in Nd. rewrite app_assoc in Nd. apply NoDup_remove_2 in Nd. rewrite <- app_assoc in Nd. exact Nd. }
  rewrite in_app_iff in Hc, Hp. cbn [In] in Hc, Hp.
  destruct (set_last m A c x p (hd B 0)) as (m1 & E1 & S1 & B1 & O1 & C1).
  { apply seg_app. cbn [hd seg]. auto. } { tauto. }
  destruct (destroy_ok m1 p Np) as (m2 & E2 & B2 & C2 & O2); [rewrite O1 by (intros ->; tauto); congruence|].
  exists m1, m2. split; [exact E1|]. split; [exact E2|]. split; [unfold get; rewrite (proj2 (Z.eqb_neq c 0) Nc), O2; [exact C1|intros ->; tauto]|].
  replace (A ++ (c, x) :: (p, v) :: B) with ((A ++ [(c, x)]) ++ [(p, v)] ++ B) in * by (rewrite <- app_assoc; reflexivity).
  replace (A ++ (c, x) :: B) with ((A ++ [(c, x)]) ++ B) by (rewrite <- app_assoc; reflexivity).
  apply (rep_cut m t L1 (A ++ [(c, x)]) [(p, v)] B L2); cbn [set_cnt bk bl bsz cnt mlf]; auto.
  - apply (wf_destroy m1 m2 p); auto. apply (wf_set m m1 c); auto; [apply (r_wf _ _ _ _ _ _ R)|congruence].
  - lia.
  - apply seg_app. split.
    + eapply seg_ext; [|exact S1]. intros b Hb. apply O2. intros ->. rewrite map_app, in_app_iff in Hb. cbn [map fst In] in Hb. tauto.
    + eapply seg_ext; [|exact SB]. intros b Hb. rewrite O2, O1; [reflexivity| |]; intros ->; tauto.
  - intros j Hj. destruct (Z.eqb_spec j (len L1)) as [->|_]; [|reflexivity]. rewrite Eb, !hd_app. reflexivity.
  - intros b [<-|[]]. exact C2.
  - intros b Hb. rewrite !map_app, !in_app_iff in Hb. cbn [map fst In] in Hb. rewrite O2, O1; [reflexivity| |]; intros ->; tauto.
Qed.
Lemma del_front m t L1 p v B L2 : rep m t (L1 ++ ((p, v) :: B) :: L2) -> get m p = Some (mkNd (hd B 0) v) /\ exists t1 m2, wrb t (len L1) (hd B 0) = Some t1 /\ cnt t1 = cnt t /\
  destroy_node m p = Some m2 /\ less m t (L1 ++ ((p, v) :: B) :: L2) m2 (set_cnt t1 (cnt t - 1)) (L1 ++ B :: L2).
Proof.
  intros R. destruct (rep_at key hashf eqb m t L1 _ L2 R) as (Q1 & Q2 & Q3 & Q4 & Q5 & Q6 & Q7 & Q8). pose proof Q2 as (Np & Cp & SB). split; [exact (seg_get m p v B 0 Q2)|].
  unfold wrb. rewrite Q1. cbn [obind]. destruct (destroy_ok m p Np) as (m2 & E2 & B2 & C2 & O2); [congruence|]. eexists _, m2. split; [reflexivity|]. split; [reflexivity|]. split; [exact E2|].
  cbn [map fst] in Q5. inversion Q5 as [|? ? N1 N2]; subst.
  apply (rep_cut m t L1 [] [(p, v)] B L2); cbn [app set_cnt bk bl bsz cnt mlf]; auto.
  - apply (wf_destroy m m2 p); auto. apply (r_wf _ _ _ _ _ _ R).
  - eapply seg_ext; [|exact SB]. intros b Hb. apply O2. intros ->. contradiction.
  - intros b [<-|[]]. exact C2.
  - intros b Hb. cbn [map fst In] in Hb. apply O2. intros ->. tauto.
Qed.
Lemma drop_loop_ok A c x B L1 L2 X : forall fuel m t, rep m t (L1 ++ (A ++ (c, x) :: X ++ B) :: L2) -> (length X < fuel)%nat ->
  exists m' t', drop_loop fuel m c (hd (X ++ B) 0) (hd B 0) (cnt t) = Some (m', cnt t') /\ t' = set_cnt t (cnt t') /\
    less m t (L1 ++ (A ++ (c, x) :: X ++ B) :: L2) m' t' (L1 ++ (A ++ (c, x) :: B) :: L2).
Proof.
  induction X as [|[p v] X IH]; intros fuel m t R F; (destruct fuel as [|fuel]; [cbn in F; lia|]); cbn [drop_loop app].
  - rewrite Z.eqb_refl. exists m, t. split; [reflexivity|]. split; [now destruct t|]. now apply less_refl.
  - destruct (del_after m t L1 A c x p v (X ++ B) L2 R) as (G & m1 & m2 & E1 & E2 & G2 & H).
    destruct (rep_at key hashf eqb m t L1 _ L2 R) as (_ & Q2 & _ & _ & Q5 & _). cbn [app hd] in *.
    destruct (Z.eqb_spec p (hd B 0)) as [E|NE].
    { exfalso. destruct B as [|[b w] B]; cbn [hd] in E; subst p.
      - apply seg_app in Q2 as [_ (_ & _ & Np & _)]. contradiction.
      - rewrite map_app in Q5. apply nodup_r in Q5. cbn [map fst] in Q5. inversion Q5 as [|? ? _ N]; subst. inversion N as [|? ? N1 _]; subst. apply N1. rewrite map_app. apply in_elt. }
    rewrite G. cbn [obind nxt]. rewrite E1. cbn [obind]. rewrite E2. cbn [obind]. rewrite G2. cbn [obind nxt].
    destruct (IH fuel m2 (set_cnt t (cnt t - 1)) (proj1 H)) as (m' & t' & E' & Et & H'); [cbn in F; lia|]. cbn [set_cnt cnt] in E'. exists m', t'. split; [exact E'|].
    split; [rewrite Et; reflexivity|]. eapply less_trans; eauto.
Qed.
Lemma erase_bucket_ok m t L1 A p v X B L2 : rep m t (L1 ++ (A ++ ((p, v) :: X) ++ B) :: L2) -> exists m' t', erase_bucket m t (len L1) p (hd B 0) = Some (m', t') /\
  less m t (L1 ++ (A ++ ((p, v) :: X) ++ B) :: L2) m' t' (L1 ++ (A ++ B) :: L2).
Proof.
  intros R. destruct (rep_at key hashf eqb m t L1 _ L2 R) as (Q1 & Q2 & Q3 & Q4 & Q5 & Q6 & Q7 & Q8). unfold erase_bucket. rewrite Q1. cbn [obind]. destruct A as [|[c x] A].
  - cbn [app hd]. rewrite Z.eqb_refl. exact (erase_bucket_to_ok m t L1 ((p, v) :: X) B L2 R).
  - cbn [app hd] in *. destruct (Z.eqb_spec c p) as [->|NE]; [exfalso; cbn [map fst] in Q5; inversion Q5 as [|? ? N _]; subst; apply N; rewrite map_app; apply in_elt|].
    rewrite (seg_get m c x (A ++ (p, v) :: X ++ B) 0 Q2). cbn [obind nxt].
    destruct (seek_loop_ok m p v (X ++ B) A (fu m) c x Q2 Q5) as (A' & c' & x' & E & H); [cbn [length] in Q8; rewrite app_length in Q8; cbn [length] in Q8; lia|]. rewrite H. cbn [obind].
    assert (EL : (c, x) :: A ++ (p, v) :: X ++ B = A' ++ (c', x') :: ((p, v) :: X) ++ B).
    { change ((c, x) :: A ++ (p, v) :: X ++ B) with (((c, x) :: A) ++ (p, v) :: X ++ B). rewrite E, <- app_assoc. reflexivity. }
    rewrite EL in *. destruct (drop_loop_ok A' c' x' B L1 L2 ((p, v) :: X) (fu m) m t R) as (m' & t' & E' & Et & H').
    { rewrite !app_length in Q8. cbn [length] in Q8. rewrite app_length in Q8. cbn [length] in *. lia. }
    cbn [app hd] in E'. rewrite E'. cbn [obind]. exists m', t'. rewrite <- Et. split; [reflexivity|].
    replace ((c, x) :: A ++ B) with (A' ++ (c', x') :: B) by (change ((c, x) :: A ++ B) with (((c, x) :: A) ++ B); rewrite E, <- app_assoc; reflexivity). exact H'.
Qed.
Lemma mid_loop_ok M : forall L1 L2 m t, rep m t (L1 ++ M ++ L2) -> exists m' t', mid_loop (length M) m t (len L1) = Some (m', t') /\
  less m t (L1 ++ M ++ L2) m' t' (L1 ++ repeat [] (length M) ++ L2).
Proof.
  induction M as [|l M IH]; intros L1 L2 m t R; cbn [length mid_loop repeat app].
  - exists m, t. split; [reflexivity|]. now apply less_refl.
  - cbn [app] in R. destruct (rep_at key hashf eqb m t L1 _ (M ++ L2) R) as (Q1 & Q2 & _). rewrite Q1. cbn [obind].
    assert (ST : exists m1 t1, (if hd l 0 =? 0 then Some (m, t) else erase_bucket_to m t (len L1) 0) = Some (m1, t1) /\ less m t (L1 ++ l :: M ++ L2) m1 t1 (L1 ++ [] :: M ++ L2)).
    { destruct (Z.eqb_spec (hd l 0) 0) as [E|E].
      - apply (seg_hd0 m l Q2) in E. subst l. exists m, t. split; [reflexivity|]. now apply less_refl.
      - pose proof (erase_bucket_to_ok m t L1 l [] (M ++ L2)) as H. rewrite app_nil_r in H. exact (H R). }
    destruct ST as (m1 & t1 & E1 & H1). rewrite E1. cbn [obind]. assert (EL : len L1 + 1 = len (L1 ++ [[]])) by (unfold HtSpec.len; rewrite app_length; cbn; lia). rewrite EL.
    destruct (IH (L1 ++ [[]]) L2 m1 t1) as (m' & t' & E' & H'); [rewrite <- app_assoc; exact (proj1 H1)|]. rewrite <- !app_assoc in H'. cbn [app] in H'.
    exists m', t'. split; [exact E'|]. eapply less_trans; eauto.
Qed.
Lemma concat_nils {U : Type} n : concat (repeat (@nil U) n) = [].
Proof. induction n; auto. Qed.
Theorem erase_range_ok m t L A X B : rep m t L -> concat L = A ++ X ++ B -> exists m' t' L', erase_range key hashf m t (hd (X ++ B) 0) (hd B 0) = Some (m', t') /\
  less m t L m' t' L' /\ concat L' = A ++ B.
Proof.
  intros R EC. destruct X as [|[p v] X].
  { exists m, t, L. unfold erase_range. cbn [app]. rewrite Z.eqb_refl. split; [reflexivity|]. split; [now apply less_refl|exact EC]. }
  cbn [app hd] in *. pose proof EC as EC'. apply concat_split in EC' as (L1 & A1 & B1 & L2 & EL & EA & EB). subst A.
  pose proof (r_nd _ _ _ _ _ _ R) as ND. unfold addrs in ND. rewrite EC, map_app in ND. apply nodup_r in ND. cbn [map fst] in ND. inversion ND as [|? ? NP ND']; subst.
  destruct (rep_in key hashf eqb m t (L1 ++ (A1 ++ (p, v) :: B1) :: L2) p R) as (Np & _ & _); [unfold addrs; rewrite EC, map_app; apply in_elt|].
  unfold erase_range. destruct (rep_at key hashf eqb m t L1 _ L2 R) as (Q1 & Q2 & Q3 & Q4 & Q5 & Q6 & Q7 & Q8).
  assert (Fb : bucket_of key hashf m t p = Some (len L1)).
  { unfold bucket_of. rewrite (proj2 (Z.eqb_neq p 0) Np). apply seg_app in Q2 as [_ Q2]. rewrite (seg_get m p v B1 0 Q2). cbn [obind val]. eapply hash_at; [exact R|apply in_elt]. }
  pose proof (r_len _ _ _ _ _ _ R) as EN.
  destruct B as [|[q w] B].
  - cbn [hd]. rewrite (proj2 (Z.eqb_neq p 0) Np). rewrite Fb. cbn [obind]. unfold bucket_of at 1. rewrite Z.eqb_refl. cbn [obind].
    destruct (Z.eqb_spec (len L1) (bsz t)) as [C|_]; [lia|]. assert (EW : (p, v) :: B1 = ((p, v) :: B1) ++ []) by (now rewrite app_nil_r).
    rewrite EW in R. destruct (erase_bucket_ok m t L1 A1 p v B1 [] L2 R) as (m1 & t1 & E1 & H1). rewrite <- EW in *. cbn [hd] in E1. rewrite E1. cbn [obind]. rewrite app_nil_r in H1.
    pose proof (mid_loop_ok L2 (L1 ++ [A1]) [] m1 t1) as H2. rewrite <- !app_assoc, !app_nil_r in H2. cbn [app] in H2. destruct (H2 (proj1 H1)) as (m' & t' & E' & H').
    assert (ES : len L1 + 1 = len (L1 ++ [A1])) by (unfold HtSpec.len; rewrite app_length; cbn; lia).
    assert (EM : Z.to_nat (bsz t - (len L1 + 1)) = length L2) by (unfold HtSpec.len in *; rewrite app_length in EN; cbn [length] in EN; lia). rewrite EM, ES, E'. cbn [obind].
    assert (Eb : bsz t' = bsz t) by (destruct H1 as (_ & _ & _ & _ & S1 & _), H' as (_ & _ & _ & _ & S2 & _); congruence). rewrite Eb, Z.eqb_refl.
    eexists m', t', _. split; [reflexivity|]. split; [eapply less_trans; eauto|]. rewrite concat_mid, concat_nils, !app_nil_r. reflexivity.
  - cbn [hd]. assert (Nq : p <> q) by (intros ->; apply NP; rewrite map_app; apply in_elt). rewrite (proj2 (Z.eqb_neq p q) Nq). rewrite Fb. cbn [obind].
    destruct (concat_split (B1 :: L2) X (q, w) B) as (M & A2 & B2 & N & EM & EX & EB'); [cbn [concat]; now symmetry|].
    destruct M as [|B1' M]; cbn [app] in EM; injection EM as EM1 EM2.
    + subst B1 N. assert (Lb : bucket_of key hashf m t q = Some (len L1)).
      { unfold bucket_of. assert (Iq : In (q, w) (A1 ++ (p, v) :: A2 ++ (q, w) :: B2)) by (apply in_or_app; right; right; apply in_elt). destruct (seg_in m _ 0 q w Q2 Iq) as (Nq0 & r & Cq).
        unfold get. rewrite (proj2 (Z.eqb_neq q 0) Nq0), Cq. cbn [obind val]. eapply hash_at; [exact R|exact Iq]. }
      rewrite Lb. cbn [obind]. rewrite Z.eqb_refl. destruct (erase_bucket_ok m t L1 A1 p v A2 ((q, w) :: B2) L2 R) as (m' & t' & E' & H'). cbn [hd] in E'. rewrite E'.
      eexists m', t', _. split; [reflexivity|]. split; [exact H'|]. rewrite concat_mid, EB', <- !app_assoc. reflexivity.
    + subst B1' L2. assert (EQ : L1 ++ (A1 ++ (p, v) :: B1) :: M ++ (A2 ++ (q, w) :: B2) :: N = (L1 ++ (A1 ++ (p, v) :: B1) :: M) ++ (A2 ++ (q, w) :: B2) :: N) by (rewrite <- app_assoc; reflexivity).
      assert (Lb : bucket_of key hashf m t q = Some (len L1 + 1 + len M)).
      { pose proof R as R2. rewrite EQ in R2. destruct (rep_at key hashf eqb m t _ _ N R2) as (_ & S2 & _). unfold bucket_of. assert (Iq : In (q, w) (A2 ++ (q, w) :: B2)) by apply in_elt.
        destruct (seg_in m _ 0 q w S2 Iq) as (Nq0 & r & Cq). unfold get. rewrite (proj2 (Z.eqb_neq q 0) Nq0), Cq. cbn [obind val]. rewrite (hash_at _ _ _ _ _ _ _ R2 Iq). f_equal.
        unfold HtSpec.len. rewrite app_length. cbn [length]. lia. }
      rewrite Lb. cbn [obind]. destruct (Z.eqb_spec (len L1) (len L1 + 1 + len M)) as [C|_]; [unfold HtSpec.len in C; lia|].
      assert (EW : (p, v) :: B1 = ((p, v) :: B1) ++ []) by (now rewrite app_nil_r).
      rewrite EW in R. destruct (erase_bucket_ok m t L1 A1 p v B1 [] _ R) as (m1 & t1 & E1 & H1). rewrite <- EW in *. cbn [hd] in E1. rewrite E1. cbn [obind]. rewrite app_nil_r in H1.
      pose proof (mid_loop_ok M (L1 ++ [A1]) ((A2 ++ (q, w) :: B2) :: N) m1 t1) as H2. rewrite <- !app_assoc in H2. cbn [app] in H2. destruct (H2 (proj1 H1)) as (m2 & t2 & E2 & H3).
      assert (ES : len L1 + 1 = len (L1 ++ [A1])) by (unfold HtSpec.len; rewrite app_length; cbn; lia).
      assert (EM : Z.to_nat (len L1 + 1 + len M - (len L1 + 1)) = length M) by (unfold HtSpec.len in *; lia). rewrite EM, ES, E2. cbn [obind].
      assert (Eb : bsz t2 = bsz t) by (destruct H1 as (_ & _ & _ & _ & S1 & _), H3 as (_ & _ & _ & _ & S2 & _); congruence). rewrite Eb.
      destruct (Z.eqb_spec (len (L1 ++ [A1]) + len M) (bsz t)) as [C|_]; [unfold HtSpec.len in *; rewrite !app_length in *; cbn [length] in *; rewrite app_length in EN; cbn [length] in EN; lia|].
      assert (EQ2 : L1 ++ A1 :: repeat [] (length M) ++ (A2 ++ (q, w) :: B2) :: N = (L1 ++ A1 :: repeat [] (length M)) ++ (A2 ++ (q, w) :: B2) :: N) by (rewrite <- app_assoc; reflexivity).
      rewrite EQ2 in H3. destruct (erase_bucket_to_ok m2 t2 _ A2 ((q, w) :: B2) N (proj1 H3)) as (m' & t' & E' & H').
      assert (EI : len (L1 ++ A1 :: repeat [] (length M)) = len (L1 ++ [A1]) + len M) by (unfold HtSpec.len; rewrite !app_length; cbn [length]; rewrite repeat_length; lia).
      rewrite EI in E'. cbn [hd] in E'. rewrite E'. eexists m', t', _. split; [reflexivity|]. split; [eapply less_trans; [exact H1|]; eapply less_trans; eauto|].
      rewrite concat_mid, concat_app. cbn [concat]. rewrite concat_nils, app_nil_r, EB'. reflexivity.
Qed.

(** ** one element *)
Lemma erase_walk_ok m t p v B L1 L2 A2 : forall fuel A c x, rep m t (L1 ++ (A ++ (c, x) :: A2 ++ (p, v) :: B) :: L2) -> (length A2 < fuel)%nat ->
  exists m' t', erase_walk fuel m t p c (hd (A2 ++ (p, v) :: B) 0) = Some (m', t') /\
    less m t (L1 ++ (A ++ (c, x) :: A2 ++ (p, v) :: B) :: L2) m' t' (L1 ++ (A ++ (c, x) :: A2 ++ B) :: L2).
Proof.
  induction A2 as [|[a w] A2 IH]; intros fuel A c x R F; (destruct fuel as [|fuel]; [cbn in F; lia|]); cbn [erase_walk app hd].
  - cbn [app] in R. destruct (del_after m t L1 A c x p v B L2 R) as (G & m1 & m2 & E1 & E2 & _ & H).
    destruct (Z.eqb_spec p 0) as [->|_]; [cbn in G; discriminate|]. rewrite Z.eqb_refl, G. cbn [obind nxt]. rewrite E1. cbn [obind]. rewrite E2. cbn [obind]. eauto.
  - cbn [app] in R. destruct (rep_at key hashf eqb m t L1 _ L2 R) as (_ & Q2 & _ & _ & Q5 & _). apply seg_app in Q2 as (_ & _ & _ & Sa).
    assert (Na : a <> 0) by apply Sa. rewrite (proj2 (Z.eqb_neq a 0) Na). rewrite map_app in Q5. apply nodup_r in Q5. cbn [map fst] in Q5. inversion Q5 as [|? ? _ N]; subst. inversion N as [|? ? N1 _]; subst.
    destruct (Z.eqb_spec a p) as [->|_]; [exfalso; apply N1; rewrite map_app; apply in_elt|]. rewrite (seg_get m a w _ 0 Sa). cbn [obind nxt].
    destruct (IH fuel (A ++ [(c, x)]) a w) as (m' & t' & E' & H'); [rewrite <- app_assoc; exact R|cbn in F; lia|]. rewrite <- !app_assoc in H'. cbn [app] in H'. eauto.
Qed.
Theorem erase_ok m t L A p v B : rep m t L -> concat L = A ++ (p, v) :: B -> exists m' t' L', erase key hashf m t p = Some (m', t') /\ less m t L m' t' L' /\ concat L' = A ++ B.
Proof.
  intros R EC. apply concat_split in EC as (L1 & A1 & B1 & L2 & -> & -> & ->). destruct (rep_at key hashf eqb m t L1 _ L2 R) as (Q1 & Q2 & Q3 & Q4 & Q5 & Q6 & Q7 & Q8).
  unfold erase. pose proof Q2 as Sp. apply seg_app in Sp as [_ Sp]. assert (Np : p <> 0) by apply Sp. rewrite (proj2 (Z.eqb_neq p 0) Np), (seg_get m p v B1 0 Sp). cbn [obind val].
  rewrite (hash_at m t L1 _ L2 p v R) by apply in_elt. cbn [obind]. rewrite Q1. cbn [obind]. destruct A1 as [|[c x] A1].
  - cbn [app hd] in *. destruct (del_front m t L1 p v B1 L2 R) as (G & t1 & m2 & E1 & Ec & E2 & H). rewrite G. cbn [obind]. rewrite Z.eqb_refl. cbn [nxt]. rewrite E1. cbn [obind]. rewrite E2. cbn [obind].
    rewrite Ec. eexists _, _, _. split; [reflexivity|]. split; [exact H|]. rewrite concat_mid, app_nil_r. reflexivity.
  - cbn [app hd] in *. rewrite (seg_get m c x _ 0 Q2). cbn [obind nxt]. cbn [map fst] in Q5. inversion Q5 as [|? ? N _]; subst.
    destruct (Z.eqb_spec c p) as [->|_]; [exfalso; apply N; rewrite map_app; apply in_elt|].
    destruct (erase_walk_ok m t p v B1 L1 L2 A1 (fu m) [] c x R) as (m' & t' & E' & H'); [cbn [length] in Q8; rewrite app_length in Q8; cbn [length] in Q8; lia|]. rewrite E'.
    eexists _, _, _. split; [reflexivity|]. split; [exact H'|]. rewrite concat_mid. cbn [app]. rewrite <- !app_assoc. reflexivity.
Qed.
Lemma unique_walk_ok m t k L1 L2 l : forall fuel A c x, rep m t (L1 ++ (A ++ (c, x) :: l) :: L2) -> (length l < fuel)%nat ->
  (Forall (fun e => haskey k e = false) l /\ unique_walk key eqb fuel m t k c (hd l 0) = Some (m, t, 0)) \/
  (exists A2 p v B m' t', l = A2 ++ (p, v) :: B /\ Forall (fun e => haskey k e = false) A2 /\ eqb (key v) k = true /\
    unique_walk key eqb fuel m t k c (hd l 0) = Some (m', t', 1) /\ less m t (L1 ++ (A ++ (c, x) :: l) :: L2) m' t' (L1 ++ (A ++ (c, x) :: A2 ++ B) :: L2)).
Proof.
  induction l as [|[a w] l IH]; intros fuel A c x R F; (destruct fuel as [|fuel]; [cbn in F; lia|]); cbn [unique_walk app hd].
  - left. split; [constructor|reflexivity].
  - destruct (rep_at key hashf eqb m t L1 _ L2 R) as (_ & Q2 & _). apply seg_app in Q2 as (_ & _ & _ & Sa).
    assert (Na : a <> 0) by apply Sa. rewrite (proj2 (Z.eqb_neq a 0) Na), (seg_get m a w _ 0 Sa). cbn [obind val nxt]. destruct (eqb (key w) k) eqn:Ek.
    + right. destruct (del_after m t L1 A c x a w l L2 R) as (G & m1 & m2 & E1 & E2 & _ & H). rewrite E1. cbn [obind]. rewrite E2. cbn [obind].
      exists [], a, w, l, m2, (set_cnt t (cnt t - 1)). auto.
    + destruct (IH fuel (A ++ [(c, x)]) a w) as [[H1 H2]|(A2 & p & v & B & m' & t' & El & FA & Hk & E' & H')]; [rewrite <- app_assoc; exact R|cbn in F; lia| |].
      * left. split; [constructor; [exact Ek|exact H1]|exact H2].
      * right. rewrite <- !app_assoc in H'. cbn [app] in H'. exists ((a, w) :: A2), p, v, B, m', t'. subst l. split; [reflexivity|]. split; [constructor; [exact Ek|exact FA]|]. auto.
Qed.
Hypothesis KO : key_ok hashf eqb.
Theorem erase_unique_ok m t L k : rep m t L ->
  (Forall (fun e => haskey k e = false) (concat L) /\ erase_unique key hashf eqb m t k = Some (m, t, 0)) \/
  (exists A p v B m' t' L', concat L = A ++ (p, v) :: B /\ Forall (fun e => haskey k e = false) A /\ eqb (key v) k = true /\
    erase_unique key hashf eqb m t k = Some (m', t', 1) /\ less m t L m' t' L' /\ concat L' = A ++ B).
Proof.
  intros R. destruct (rep_bucket key hashf eqb m t L k R) as (L1 & l & L2 & EL & H & E & Q1 & Q2 & _). subst L. unfold erase_unique. rewrite H. cbn [obind]. rewrite Q1. cbn [obind].
  destruct (other_bucket2 key hashf eqb KO m t L1 l L2 k R E) as [F1 F2]. destruct (rep_at key hashf eqb m t L1 l L2 R) as (_ & _ & _ & _ & _ & _ & _ & Q8). destruct l as [|[a w] l].
  - left. cbn [hd]. rewrite Z.eqb_refl. split; [|reflexivity]. rewrite concat_mid. apply Forall_app. auto.
  - cbn [hd]. assert (Na : a <> 0) by apply Q2. rewrite (proj2 (Z.eqb_neq a 0) Na), (seg_get m a w _ 0 Q2). cbn [obind val nxt]. destruct (eqb (key w) k) eqn:Ek.
    + right. destruct (del_front m t L1 a w l L2 R) as (G & t1 & m2 & E1 & Ec & E2 & HL). rewrite E1. cbn [obind]. rewrite E2. cbn [obind]. rewrite Ec.
      exists (concat L1), a, w, (l ++ concat L2). eexists _, _, _. rewrite concat_mid. split; [reflexivity|]. split; [exact F1|]. split; [exact Ek|]. split; [reflexivity|].
      split; [exact HL|]. now rewrite concat_mid.
    + destruct (unique_walk_ok m t k L1 L2 l (fu m) [] a w R) as [[H1 H2]|(A2 & p & v & B & m' & t' & El & FA & Hk & E' & H')]; [cbn [length] in Q8; lia| |].
      * left. split; [|exact H2]. rewrite concat_mid. apply Forall_app. split; [exact F1|]. apply Forall_app. split; [constructor; [exact Ek|exact H1]|exact F2].
      * right. subst l. exists (concat L1 ++ (a, w) :: A2), p, v, (B ++ concat L2), m', t'. eexists. split; [rewrite concat_mid; cbn [app]; rewrite <- !app_assoc; reflexivity|].
        split; [apply Forall_app; split; [exact F1|]; constructor; [exact Ek|exact FA]|]. split; [exact Hk|]. split; [exact E'|]. split; [exact H'|].
        rewrite concat_mid. cbn [app]. rewrite <- !app_assoc. cbn [app]. reflexivity.
Qed.
(** the nodes with the key are given back and then walked over *)
Theorem erase_multi_ok m t L k : rep m t L ->
  erase_multi key hashf eqb m t k = if existsb (haskey k) (concat L) then None else Some (m, t, 0).
Proof.
  intros R. destruct (equal_range_multi_ok key hashf eqb KO m t L k R) as (A & X & B & EC & FX & FAB & E). unfold erase_multi. rewrite E. cbn [obind]. destruct X as [|[p v] X].
  - cbn [app] in EC. rewrite EC. assert (Ex : existsb (haskey k) (A ++ B) = false).
    { apply not_true_is_false. intros C. apply existsb_exists in C as (e & I & He). rewrite Forall_forall in FAB. rewrite (FAB e I) in He. discriminate. }
    rewrite Ex. cbn. reflexivity.
  - assert (Ex : existsb (haskey k) (concat L) = true).
    { apply existsb_exists. exists (p, v). split; [rewrite EC; apply in_elt|]. now inversion FX. }
    rewrite Ex. cbn [hd]. destruct (rep_in key hashf eqb m t L p R) as (Np & _ & _); [unfold addrs; rewrite EC, map_app; apply in_elt|]. rewrite (proj2 (Z.eqb_neq p 0) Np).
    destruct (erase_range_ok m t L A ((p, v) :: X) B R EC) as (m' & t' & L' & E' & (R' & F & _) & EC'). cbn [app hd] in E'. rewrite E'. cbn [obind].
    pose proof (r_nd _ _ _ _ _ _ R) as ND. unfold addrs in ND. rewrite EC, map_app in ND. cbn [app map fst] in ND. apply NoDup_remove_2 in ND. rewrite map_app in ND.
    assert (NI : ~ In p (addrs L')) by (unfold addrs; rewrite EC', map_app, in_app_iff; rewrite !in_app_iff in ND; tauto).
    destruct (F p NI) as [G _]. assert (Ip : In p (addrs L)) by (unfold addrs; rewrite EC, map_app; apply in_elt). specialize (G Ip).
    unfold fu. cbn [distance]. destruct (Z.eqb_spec p (hd B 0)) as [C|_].
    { destruct B as [|[q w] B]; [contradiction|]. cbn [hd] in C. subst q. exfalso. apply ND. rewrite !in_app_iff. right. right. now left. }
    unfold inc, get. rewrite (proj2 (Z.eqb_neq p 0) Np), G. reflexivity.
Qed.

(** ** all elements *)
Lemma free_chain_ok X : forall fuel m, wf m -> seg m X 0 -> NoDup (map fst X) -> (length X < fuel)%nat ->
  exists m', free_chain fuel m (hd X 0) = Some m' /\ wf m' /\ brk m' = brk m /\ (forall b, In b (map fst X) -> cell m' b = None) /\ (forall b, ~ In b (map fst X) -> cell m' b = cell m b).
Proof.
  induction X as [|[a v] X IH]; intros fuel m W S N F; (destruct fuel as [|fuel]; [cbn in F; lia|]); cbn [free_chain hd].
  - exists m. split; [reflexivity|]. split; [exact W|]. split; [reflexivity|]. split; [intros b []|auto].
  - pose proof S as (Na & Ca & S'). cbn [map fst] in N. inversion N as [|? ? N1 N2]; subst. rewrite (proj2 (Z.eqb_neq a 0) Na), (seg_get m a v X 0 S). cbn [obind].
    destruct (destroy_ok m a Na) as (m1 & E1 & B1 & C1 & O1); [congruence|]. rewrite E1. cbn [obind nxt]. destruct (IH fuel m1) as (m' & E' & W' & B' & C' & O').
    + eapply wf_destroy; eauto.
    + eapply seg_ext; [|exact S']. intros b Hb. apply O1. intros ->. contradiction.
    + exact N2.
    + cbn in F. lia.
    + exists m'. split; [exact E'|]. split; [exact W'|]. split; [lia|]. split.
      * intros b [<-|Hb]; [|auto]. cbn [fst]. rewrite O'; [exact C1|]. intros Q. contradiction.
      * intros b Hb. cbn [map fst In] in Hb. rewrite O'; [apply O1|]; intros Q; apply Hb; auto.
Qed.
Lemma clear_loop_ok M : forall L1 m t c, rep m (set_cnt t c) (L1 ++ M) -> exists m' t' c', clear_loop (length M) m t (len L1) = Some (m', t') /\
  less m (set_cnt t c) (L1 ++ M) m' (set_cnt t' c') (L1 ++ repeat [] (length M)).
Proof.
  induction M as [|l M IH]; intros L1 m t c R; cbn [length clear_loop repeat].
  - exists m, t, c. split; [reflexivity|]. now apply less_refl.
  - destruct (rep_at key hashf eqb m (set_cnt t c) L1 l M R) as (Q1 & Q2 & Q3 & Q4 & Q5 & Q6 & Q7 & Q8). change (rdb (set_cnt t c) (len L1)) with (rdb t (len L1)) in Q1. rewrite Q1. cbn [obind].
    destruct (free_chain_ok l (fu m) m (r_wf _ _ _ _ _ _ R) Q2 Q5 Q8) as (m1 & E1 & W1 & B1 & C1 & O1). rewrite E1. cbn [obind]. unfold wrb. rewrite Q1. cbn [obind].
    set (t1 := mkTab (upd (bk t) (len L1) 0) (bl t) (bsz t) (cnt t) (mlf t)).
    assert (H1 : less m (set_cnt t c) (L1 ++ l :: M) m1 (set_cnt t1 (c - len l)) (L1 ++ [] :: M)).
    { pose proof (rep_cut m (set_cnt t c) L1 [] l [] M m1 (set_cnt t1 (c - len l))) as H. rewrite app_nil_r in H. cbn [app] in H. apply H; cbn [set_cnt t1 bk bl bsz cnt mlf seg hd]; auto. }
    assert (EL : len L1 + 1 = len (L1 ++ [[]])) by (unfold HtSpec.len; rewrite app_length; cbn; lia). rewrite EL.
    destruct (IH (L1 ++ [[]]) m1 t1 (c - len l)) as (m' & t' & c' & E' & H'); [rewrite <- app_assoc; exact (proj1 H1)|]. rewrite <- !app_assoc in H'. cbn [app] in H'.
    exists m', t', c'. split; [exact E'|]. eapply less_trans; eauto.
Qed.
Theorem clear_ok m t L : rep m t L -> exists m' t' L', clear m t = Some (m', t') /\ less m t L m' t' L' /\ concat L' = [].
Proof.
  intros R. unfold clear. pose proof (r_cnt _ _ _ _ _ _ R) as Ec. pose proof (r_len _ _ _ _ _ _ R) as EN. destruct (Z.eqb_spec (cnt t) 0) as [E|N].
  - exists m, t, L. split; [reflexivity|]. split; [now apply less_refl|]. unfold HtSpec.len in Ec. destruct (concat L); [reflexivity|cbn [length] in Ec; lia].
  - assert (ET : t = set_cnt t (cnt t)) by now destruct t. pose proof R as R0. rewrite ET in R0. destruct (clear_loop_ok L [] m t (cnt t) R0) as (m' & t' & c' & E' & H').
    replace (Z.to_nat (bsz t)) with (length L) by (unfold HtSpec.len in EN; lia). change 0 with (len (@nil (list (Z * T)))) at 1. rewrite E'. cbn [obind].
    cbn [app] in H'. rewrite <- ET in H'. assert (Z0 : c' = 0). { pose proof (r_cnt _ _ _ _ _ _ (proj1 H')) as Q. rewrite concat_nils in Q. exact Q. }
    subst c'. eexists _, _, _. split; [reflexivity|]. split; [exact H'|apply concat_nils].
Qed.
End HtErase.
