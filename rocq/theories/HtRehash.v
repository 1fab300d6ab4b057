(** The hash table: new arrays of buckets, and the insertions that may need one. *)
From Coq Require Import ZArith List Bool Lia Permutation.
From Verif Require Import F64 ArrModel BsModel HtModel HtSpec HtProof HtLook HtIns.
Import ListNotations.
Open Scope Z_scope.

Section HtRehash.
Context {K T : Type} (key : T -> K) (hashf : K -> Z) (eqb : K -> K -> bool).
Hypothesis KO : key_ok hashf eqb.
Notation memory := (@memory T).
Notation haskey := (haskey key eqb).
Notation distinct := (distinct key eqb).
Notation rep := (rep key hashf eqb).
Notation from := (from key eqb).
Notation len := HtSpec.len.
Implicit Types (m : memory) (t : tab) (a p b : Z) (v x y : T) (k : K) (l A B : list (Z * T)) (L : list (list (Z * T))).

Definition empties (n : Z) : list (list (Z * T)) := repeat [] (Z.to_nat n).
Lemma concat_empties n : concat (empties n) = [].
Proof. unfold empties. induction (Z.to_nat n); auto. Qed.
Lemma rep_empty m n ml : wf m -> 0 < n -> rep m (mkTab (fun _ => 0) n n 0 ml) (empties n).
Proof.
  intros W P. constructor; cbn [bsz bl cnt bk]; auto.
  - unfold HtSpec.len, empties. rewrite repeat_length. lia.
  - now rewrite concat_empties.
  - unfold addrs. rewrite concat_empties. constructor.
  - intros i l E. apply nth_error_In in E. apply repeat_spec in E. subst l. cbn. auto.
Qed.

Lemma rb_chain_ok bn ml m0 : 0 < bn -> forall l fuel m nb c L', seg m0 l 0 -> (forall a, In a (map fst l) -> a < brk m0) -> (length l < fuel)%nat ->
  rep m (mkTab nb bn bn c ml) L' -> brk m0 <= brk m -> (forall b, b < brk m0 -> cell m b = cell m0 b) -> (forall b, In b (addrs L') -> brk m0 <= b) ->
  exists m' nb' L'', rb_chain key hashf eqb fuel m nb bn (hd l 0) = Some (m', nb') /\ rep m' (mkTab nb' bn bn (c + len l) ml) L'' /\
    Permutation (vals L'') (map snd l ++ vals L') /\ brk m' = brk m + len l /\ (forall b, b < brk m0 -> cell m' b = cell m0 b) /\ (forall b, In b (addrs L'') -> brk m0 <= b).
Proof.
  intros Pn. induction l as [|[f x] l IH]; intros fuel m nb c L' S BL F R Bm Old New; (destruct fuel as [|fuel]; [cbn in F; lia|]); cbn [rb_chain hd].
  - rewrite Z.eqb_refl. exists m, nb, L'. cbn [map app]. change (len (@nil (Z * T))) with 0. rewrite !Z.add_0_r. split; [reflexivity|]. split; [exact R|]. split; [reflexivity|]. auto.
  - destruct (Z.eqb_spec f 0) as [C|Nf]; [now destruct S|]. assert (Bf : f < brk m0) by (apply BL; now left).
    assert (Gf : forall m1, (forall b, b < brk m0 -> cell m1 b = cell m0 b) -> get m1 f = Some (mkNd (hd l 0) x)).
    { intros m1 H1. unfold get. rewrite (proj2 (Z.eqb_neq f 0) Nf), H1 by assumption. apply S. }
    rewrite (Gf m Old). cbn [obind val nxt].
    pose proof (create_ok m x (r_wf _ _ _ _ _ _ R)) as Cr. destruct (create_node m x) as [m1 a]. destruct Cr as (Ea & Na & C0 & C1 & O1 & B1 & W1).
    assert (I : ~ In a (addrs L')) by (intros Q; apply (rep_in key hashf eqb m _ L' a R) in Q; lia).
    assert (R1 : rep m1 (mkTab nb bn bn c ml) L') by (apply (rep_ext key hashf eqb m); auto; intros b Hb; apply O1; intros ->; contradiction).
    destruct (rep_bucket key hashf eqb m1 _ L' (key x) R1) as (L1 & l1 & L2 & EL & H & E & Q1 & Q2 & _). subst L'. cbn [bsz] in E. unfold hash in H. cbn [bsz] in H. rewrite H. cbn [obind].
    destruct (rep_at key hashf eqb m1 _ L1 l1 L2 R1) as (_ & _ & _ & _ & _ & Q6 & _ & Q8). cbn [bsz] in Q6.
    assert (En : nb (len L1) = hd l1 0).
    { unfold rdb in Q1. cbn [bl bk] in Q1. destruct ((0 <=? len L1) && (len L1 <? bn)); [now injection Q1|discriminate]. }
    rewrite En. rewrite find_loop_ok by assumption. cbn [obind]. symmetry in E.
    assert (STEP : forall m2 nb2 L2', rep m2 (mkTab nb2 bn bn (c + 1) ml) L2' -> Permutation (concat L2') ((a, x) :: concat (L1 ++ l1 :: L2)) -> brk m2 = brk m1 ->
      (forall b, ~ In b (addrs L2') -> cell m2 b = cell m1 b) -> exists m' nb' L'',
      (let* nn := get m2 f in rb_chain key hashf eqb fuel m2 nb2 bn (nxt nn)) = Some (m', nb') /\ rep m' (mkTab nb' bn bn (c + len ((f, x) :: l)) ml) L'' /\
      Permutation (vals L'') (map snd ((f, x) :: l) ++ vals (L1 ++ l1 :: L2)) /\ brk m' = brk m + len ((f, x) :: l) /\ (forall b, b < brk m0 -> cell m' b = cell m0 b) /\ (forall b, In b (addrs L'') -> brk m0 <= b)).
    { intros m2 nb2 L2' R2 P2 B2 O2. assert (New2 : forall b, In b (addrs L2') -> brk m0 <= b).
      { intros b Hb. apply (addrs_new _ _ a x b P2) in Hb as [->|Hb]; [lia|auto]. }
      assert (Old2 : forall b, b < brk m0 -> cell m2 b = cell m0 b).
      { intros b Hb. rewrite O2 by (intros Q; apply New2 in Q; lia). rewrite O1 by lia. auto. }
      rewrite (Gf m2 Old2). cbn [obind nxt].
      destruct (IH fuel m2 nb2 (c + 1) L2') as (m' & nb' & L'' & E' & R' & P' & B' & Old' & New'); auto; try lia.
      { apply S. } { intros b Hb. apply BL. now right. } { cbn in F. lia. }
      exists m', nb', L''. split; [exact E'|]. unfold HtSpec.len in *. cbn [length map snd] in *. split; [|split; [|split; [lia|auto]]].
      - replace (c + Z.of_nat (Datatypes.S (length l))) with (c + 1 + Z.of_nat (length l)) by lia. exact R'.
      - rewrite P'. unfold vals. rewrite P2. cbn [map snd]. symmetry. apply Permutation_middle. }
    destruct (core key hashf eqb KO m1 _ L1 l1 L2 a x 0 ml R1 Na I C1 E) as [(_ & Ef & m2 & L2' & E1 & R2 & P2 & B2 & O2)|(c' & n & m2 & m3 & L2' & y & Ec & Nc & _ & _ & G & E1 & E2 & R2 & P2 & B2 & O2)].
    + rewrite Ef, Z.eqb_refl, E1. cbn [obind]. apply (STEP m2 _ L2'); auto.
    + rewrite Ec, (proj2 (Z.eqb_neq c' 0) Nc), G. cbn [obind]. rewrite E1. cbn [obind]. rewrite E2. cbn [obind]. apply (STEP m3 _ L2'); auto.
Qed.

Lemma rb_loop_ok bn ml m0 t : 0 < bn -> forall L2 L1 m nb c L', rep m0 t (L1 ++ L2) ->
  rep m (mkTab nb bn bn c ml) L' -> brk m0 <= brk m -> (forall b, b < brk m0 -> cell m b = cell m0 b) -> (forall b, In b (addrs L') -> brk m0 <= b) ->
  exists m' nb' L'', rb_loop key hashf eqb (length L2) m t nb bn (len L1) = Some (m', nb') /\ rep m' (mkTab nb' bn bn (c + len (concat L2)) ml) L'' /\
    Permutation (vals L'') (vals L2 ++ vals L') /\ brk m' = brk m + len (concat L2) /\ (forall b, b < brk m0 -> cell m' b = cell m0 b) /\ (forall b, In b (addrs L'') -> brk m0 <= b).
Proof.
  intros Pn. induction L2 as [|l L2 IH]; intros L1 m nb c L' R0 R Bm Old New; cbn [length rb_loop].
  - exists m, nb, L'. cbn [concat]. change (len (@nil (Z * T))) with 0. rewrite !Z.add_0_r. split; [reflexivity|]. split; [exact R|]. split; [reflexivity|]. auto.
  - destruct (rep_at key hashf eqb m0 t L1 l L2 R0) as (Q1 & Q2 & _ & _ & _ & _ & _ & Q8). rewrite Q1. cbn [obind].
    destruct (rb_chain_ok bn ml m0 Pn l (fu m) m nb c L') as (m1 & nb1 & L1' & E1 & R1 & P1 & B1 & Old1 & New1); auto.
    { intros a Ha. eapply seg_bound; [apply (r_wf _ _ _ _ _ _ R0)|exact Q2|exact Ha]. } { unfold fu in *. lia. }
    rewrite E1. cbn [obind]. replace (len L1 + 1) with (len (L1 ++ [l])) by (unfold HtSpec.len; rewrite app_length; cbn [length]; lia).
    destruct (IH (L1 ++ [l]) m1 nb1 (c + len l) L1') as (m' & nb' & L'' & E' & R' & P' & B' & Old' & New'); auto.
    { now rewrite <- app_assoc. } { unfold HtSpec.len in B1. lia. }
    exists m', nb', L''. split; [exact E'|]. unfold HtSpec.len in *. cbn [concat]. rewrite app_length. split; [|split; [|split; [lia|auto]]].
    + replace (c + Z.of_nat (length l + length (concat L2))) with (c + Z.of_nat (length l) + Z.of_nat (length (concat L2))) by lia. exact R'.
    + rewrite P', P1. unfold vals. cbn [concat]. rewrite map_app. rewrite !app_assoc. apply Permutation_app_tail. apply Permutation_app_comm.
Qed.
(** the elements go into the new array; the old nodes all stay where they are *)
Theorem replace_bucket_ok m t L bn : rep m t L -> 0 < bn -> exists m' t' L', replace_bucket key hashf eqb m t bn = Some (m', t') /\ rep m' t' L' /\
  Permutation (vals L') (vals L) /\ bsz t' = bn /\ mlf t' = mlf t /\ brk m' = brk m + cnt t /\ (forall b, b < brk m -> cell m' b = cell m b) /\ (forall b, In b (addrs L') -> brk m <= b).
Proof.
  intros R Pn. unfold replace_bucket. pose proof (r_cnt _ _ _ _ _ _ R) as Ec. pose proof (r_len _ _ _ _ _ _ R) as El. destruct (Z.eqb_spec (cnt t) 0) as [Z0|NZ].
  - cbn [obind]. exists m, (mkTab (fun _ => 0) bn bn (cnt t) (mlf t)), (empties bn). split; [reflexivity|]. cbn [bsz mlf]. rewrite Z0. split; [apply rep_empty; [apply (r_wf _ _ _ _ _ _ R)|exact Pn]|].
    assert (concat L = []) by (destruct (concat L); [reflexivity|unfold HtSpec.len in Ec; cbn [length] in Ec; lia]).
    unfold vals, addrs. rewrite concat_empties, H. repeat split; auto; [lia|intros b []].
  - destruct (rb_loop_ok bn (mlf t) m t Pn L [] m (fun _ => 0) 0 (empties bn) R) as (m' & nb' & L' & E & R' & P & B & Old & New); auto; try lia.
    { apply rep_empty; [apply (r_wf _ _ _ _ _ _ R)|exact Pn]. } { intros b Hb. unfold addrs in Hb. rewrite concat_empties in Hb. destruct Hb. }
    replace (Z.to_nat (bsz t)) with (length L) by (unfold HtSpec.len in El; lia). cbn [HtSpec.len length] in E. change (len (@nil (list (Z * T)))) with 0 in E. rewrite E. cbn [obind].
    exists m', (mkTab nb' bn bn (cnt t) (mlf t)), L'. split; [reflexivity|]. cbn [bsz mlf]. rewrite Ec. split; [exact R'|]. split; [|auto].
    rewrite P. unfold vals at 2. rewrite concat_empties, app_nil_r. reflexivity.
Qed.
End HtRehash.
