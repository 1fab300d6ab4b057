(** The hash table: chains, groups of equal keys, one bucket replaced. *)
From Coq Require Import ZArith List Bool Lia Permutation.
From Verif Require Import F64 HtModel HtSpec.
Import ListNotations.
Open Scope Z_scope.

Section HtSeg.
Context {T : Type}.
Notation memory := (@memory T).
Implicit Types (m : memory) (a p : Z) (v x y : T) (l : list (Z * T)).
Lemma split_ins (P : T -> Prop) A : forall x v B E R, (P x <-> P v) -> A ++ x :: B = E ++ R -> Forall P E -> Forall (fun y => ~ P y) R ->
  exists E' R', A ++ x :: v :: B = E' ++ R' /\ Forall P E' /\ Forall (fun y => ~ P y) R'.
Proof.
  induction A as [|b A IH]; intros x v B E R Q H FE FR; cbn [app] in H.
  - destruct E as [|e E]; cbn [app] in H.
    + subst R. exists [], (x :: v :: B). inversion FR; subst. repeat split; auto. constructor; [assumption|]. constructor; [tauto|assumption].
    + injection H as H1 H2. subst e B. inversion FE; subst. exists (x :: v :: E), R. repeat split; auto. constructor; [assumption|]. constructor; [tauto|assumption].
  - destruct E as [|e E]; cbn [app] in H.
    + subst R. exists [], (b :: A ++ x :: v :: B). repeat split; auto. inversion FR as [|? ? Hb FR']; subst. constructor; [assumption|].
      apply Forall_app in FR' as [F1 F2]. inversion F2; subst. apply Forall_app; split; [assumption|]. constructor; [assumption|]. constructor; [tauto|assumption].
    + injection H as H1 H2. subst e. inversion FE; subst. destruct (IH x v B E R Q H2 H3 FR) as (E' & R' & E1 & F1 & F2).
      exists (b :: E'), R'. cbn [app]. rewrite E1. repeat split; auto.
Qed.
Lemma split_del (P : T -> Prop) A : forall x B E R, A ++ x :: B = E ++ R -> Forall P E -> Forall (fun y => ~ P y) R ->
  exists E' R', A ++ B = E' ++ R' /\ Forall P E' /\ Forall (fun y => ~ P y) R'.
Proof.
  induction A as [|b A IH]; intros x B E R H FE FR; cbn [app] in H.
  - destruct E as [|e E]; cbn [app] in H.
    + subst R. exists [], B. inversion FR; subst. auto.
    + injection H as H1 H2. subst. inversion FE; subst. exists E, R. auto.
  - destruct E as [|e E]; cbn [app] in H.
    + subst R. exists [], (b :: A ++ B). repeat split; auto. inversion FR as [|? ? Hb FR']; subst. constructor; [assumption|].
      apply Forall_app in FR' as [F1 F2]. inversion F2; subst. apply Forall_app; auto.
    + injection H as H1 H2. subst e. inversion FE; subst. destruct (IH x B E R H2 H3 FR) as (E' & R' & E1 & F1 & F2).
      exists (b :: E'), R'. cbn [app]. rewrite E1. repeat split; auto.
Qed.
Lemma seg_app m A B q : seg m (A ++ B) q <-> seg m A (hd B q) /\ seg m B q.
Proof.
  induction A as [|[a v] A IH]; cbn [app seg]; [tauto|]. rewrite IH.
  assert (E : hd (A ++ B) q = hd A (hd B q)) by (destruct A as [|[b w] A]; reflexivity). rewrite E. tauto.
Qed.
Lemma hd_app (A B : list (Z * T)) q : hd (A ++ B) q = hd A (hd B q).
Proof. destruct A as [|[b w] A]; reflexivity. Qed.
Lemma seg_ext m m' l q : (forall a, In a (map fst l) -> cell m' a = cell m a) -> seg m l q -> seg m' l q.
Proof.
  induction l as [|[a v] l IH]; cbn [seg map]; [auto|]. intros H (N & C & S). repeat split; auto.
  - rewrite H; [exact C|now left].
  - apply IH; [|exact S]. intros b Hb. apply H. now right.
Qed.
Lemma seg_in m l q a v : seg m l q -> In (a, v) l -> a <> 0 /\ exists r, cell m a = Some (mkNd r v).
Proof.
  induction l as [|[b w] l IH]; cbn [seg]; [intros _ []|]. intros (N & C & S) [E|I]; [|auto]. injection E as E1 E2. subst. eauto.
Qed.
Lemma seg_get m a v l q : seg m ((a, v) :: l) q -> get m a = Some (mkNd (hd l q) v).
Proof. intros (N & C & S). unfold get. destruct (Z.eqb_spec a 0); [contradiction|exact C]. Qed.
Lemma seg_hd0 m l : seg m l 0 -> (hd l 0 = 0 <-> l = []).
Proof. destruct l as [|[a v] l]; cbn [seg hd]; [tauto|]. intros (N & _). split; [contradiction|discriminate]. Qed.
Lemma bounded_len (l : list Z) n : NoDup l -> (forall a, In a l -> 0 < a < n) -> (length l <= Z.to_nat n)%nat.
Proof.
  intros N B. replace (Z.to_nat n) with (length (map Z.of_nat (seq 0 (Z.to_nat n)))) by now rewrite map_length, seq_length.
  apply NoDup_incl_length; [exact N|]. intros a Ha. apply B in Ha. apply in_map_iff. exists (Z.to_nat a). split; [lia|]. apply in_seq. lia.
Qed.
Lemma seg_bound m l q a : wf m -> seg m l q -> In a (map fst l) -> 0 < a < brk m.
Proof.
  intros [_ W] S I. apply in_map_iff in I as [[b v] [E I]]. cbn in E. subst b. destruct (seg_in m l q a v S I) as [_ [r C]]. apply W. congruence.
Qed.
Lemma seg_fuel m l q : wf m -> seg m l q -> NoDup (map fst l) -> (length l < fu m)%nat.
Proof.
  intros W S N. unfold fu. rewrite <- (map_length fst l). pose proof (bounded_len (map fst l) (brk m) N ltac:(intros; eapply seg_bound; eauto)). lia.
Qed.
Lemma length_loop_ok m l : forall fuel r, seg m l 0 -> (length l < fuel)%nat -> length_loop fuel m (hd l 0) r = Some (r + len l).
Proof.
  induction l as [|[a v] l IH]; intros fuel r S F; (destruct fuel as [|fuel]; [cbn in F; lia|]); cbn [length_loop hd]; [cbn; f_equal; lia|].
  destruct (Z.eqb_spec a 0) as [E|N]; [destruct S; contradiction|]. rewrite (seg_get m a v l 0 S). cbn [obind val nxt].
  rewrite IH; [|apply S|cbn in F; lia]. unfold len; cbn [length]; f_equal; lia.
Qed.
Lemma set_last m A c x q q' : seg m (A ++ [(c, x)]) q -> ~ In c (map fst A) ->
  exists m', set_nxt m c q' = Some m' /\ seg m' (A ++ [(c, x)]) q' /\ brk m' = brk m /\ (forall a, a <> c -> cell m' a = cell m a) /\ cell m' c = Some (mkNd q' x).
Proof.
  intros S N. pose proof S as S0. apply seg_app in S as [SA SC]. unfold set_nxt. rewrite (seg_get m c x [] q SC). cbn [obind val].
  eexists. split; [reflexivity|]. cbn [brk cell]. assert (O : forall a, a <> c -> upd (cell m) c (Some (mkNd q' x)) a = cell m a).
  { intros a Ha. unfold upd. now rewrite (proj2 (Z.eqb_neq a c) Ha). }
  assert (C : upd (cell m) c (Some (mkNd q' x)) c = Some (mkNd q' x)) by (unfold upd; now rewrite Z.eqb_refl).
  split; [|auto]. apply seg_app. split.
  - eapply seg_ext; [|exact SA]. intros a Ha. cbn [cell]. apply O. intros ->. contradiction.
  - cbn [seg hd cell]. repeat split; auto. apply SC.
Qed.
Lemma wf_set m m' c : wf m -> cell m c <> None -> brk m' = brk m -> (forall a, a <> c -> cell m' a = cell m a) -> wf m'.
Proof. intros [B W] C E O. split; [lia|]. intros a Ha. rewrite E. destruct (Z.eq_dec a c) as [->|N]; [now apply W|]. apply W. now rewrite <- O. Qed.
Lemma destroy_ok m a : a <> 0 -> cell m a <> None -> exists m', destroy_node m a = Some m' /\ brk m' = brk m /\ cell m' a = None /\ (forall b, b <> a -> cell m' b = cell m b).
Proof.
  intros N C. unfold destroy_node, get. rewrite (proj2 (Z.eqb_neq a 0) N). destruct (cell m a) as [n|]; [|congruence]. cbn [obind].
  eexists. split; [reflexivity|]. cbn [brk cell]. unfold upd. repeat split; [now rewrite Z.eqb_refl|]. intros b Hb. now rewrite (proj2 (Z.eqb_neq b a) Hb).
Qed.
Lemma wf_destroy m m' a : wf m -> brk m' = brk m -> cell m' a = None -> (forall b, b <> a -> cell m' b = cell m b) -> wf m'.
Proof. intros [B W] E C O. split; [lia|]. intros b Hb. rewrite E. destruct (Z.eq_dec b a) as [->|N]; [congruence|]. apply W. now rewrite <- O. Qed.
Lemma create_ok m v : wf m -> let (m', a) := create_node m v in
  a = brk m /\ a <> 0 /\ cell m a = None /\ cell m' a = Some (mkNd 0 v) /\ (forall b, b <> a -> cell m' b = cell m b) /\ brk m' = brk m + 1 /\ wf m'.
Proof.
  intros [B W]. unfold create_node. cbn [cell brk]. unfold upd.
  assert (N : cell m (brk m) = None) by (destruct (cell m (brk m)) eqn:E; [exfalso; assert (0 < brk m < brk m) by (apply W; congruence); lia|reflexivity]).
  split; [reflexivity|]. split; [lia|]. split; [exact N|]. split; [now rewrite Z.eqb_refl|].
  split; [intros b Hb; now rewrite (proj2 (Z.eqb_neq b (brk m)) Hb)|]. split; [reflexivity|]. split; cbn [brk cell]; [lia|].
  intros a. destruct (Z.eqb_spec a (brk m)); [lia|]. intros Ha. apply W in Ha. lia.
Qed.
End HtSeg.

Section HtChain.
Context {K T : Type} (key : T -> K) (eqb : K -> K -> bool).
Notation memory := (@memory T).
Notation same := (same key eqb).
Notation haskey := (haskey key eqb).
Notation grouped := (grouped key eqb).
Notation distinct := (distinct key eqb).
Implicit Types (m : memory) (t : tab) (a p : Z) (v x y : T) (k : K) (l : list (Z * T)) (L : list (list (Z * T))).


(** ** groups *)
Lemma grouped_del A x B : grouped (A ++ x :: B) -> grouped (A ++ B).
Proof.
  induction A as [|a A IH]; cbn [app HtSpec.grouped]; [tauto|]. intros [(E & R & H & FE & FR) G]. split; [|auto].
  apply (split_del (same a) A x B E R); auto.
Qed.
Lemma grouped_dels A X B : grouped (A ++ X ++ B) -> grouped (A ++ B).
Proof. induction X as [|x X IH]; cbn [app]; [auto|]. intros H. apply IH. now apply grouped_del in H. Qed.
Lemma distinct_grouped (l : list T) : distinct l -> grouped l.
Proof. induction l as [|x l IH]; cbn; [auto|]. intros [F D]. split; [|auto]. exists [], l. auto. Qed.

(** ** chains *)

(** addresses below the counter: a chain has fewer nodes than it *)

(** the part of a chain from the first node with the key on, and from the first node without it on *)
Fixpoint from k l : list (Z * T) := match l with [] => [] | e :: r => if haskey k e then l else from k r end.
Fixpoint past k l : list (Z * T) := match l with [] => [] | e :: r => if haskey k e then past k r else l end.
Lemma from_split k l : exists A, l = A ++ from k l /\ Forall (fun e => haskey k e = false) A.
Proof.
  induction l as [|e l [A [E F]]]; [exists []; auto|]. cbn [from]. destruct (haskey k e) eqn:H; [exists []; auto|].
  exists (e :: A). cbn [app]. rewrite <- E. auto.
Qed.
Lemma from_hd k l a v r : from k l = (a, v) :: r -> eqb (key v) k = true.
Proof. induction l as [|[b w] l IH]; cbn [from]; [discriminate|]. unfold HtSpec.haskey at 1. cbn [snd]. destruct (eqb (key w) k) eqn:H; [intros E; injection E as E1 E2 E3; now subst|auto]. Qed.
Lemma from_nil k l : from k l = [] <-> Forall (fun e => haskey k e = false) l.
Proof.
  induction l as [|e l IH]; cbn [from]; [split; auto|]. destruct (haskey k e) eqn:H; split; intros Q; try discriminate.
  - inversion Q; congruence.
  - constructor; tauto.
  - inversion Q; tauto.
Qed.
Lemma past_split k l : exists A, l = A ++ past k l /\ Forall (fun e => haskey k e = true) A.
Proof.
  induction l as [|e l [A [E F]]]; [exists []; auto|]. cbn [past]. destruct (haskey k e) eqn:H; [|exists []; auto].
  exists (e :: A). cbn [app]. rewrite <- E. auto.
Qed.
Lemma past_hd k l e r : past k l = e :: r -> haskey k e = false.
Proof. induction l as [|b l IH]; cbn [past]; [discriminate|]. destruct (haskey k b) eqn:H; [auto|]. intros E. now injection E as -> ->. Qed.

Lemma find_loop_ok m k l : forall fuel, seg m l 0 -> (length l < fuel)%nat -> find_loop key eqb fuel m (hd l 0) k = Some (hd (from k l) 0).
Proof.
  induction l as [|[a v] l IH]; intros fuel S F; (destruct fuel as [|fuel]; [cbn in F; lia|]); cbn [find_loop hd]; [reflexivity|].
  destruct (Z.eqb_spec a 0) as [E|N]; [destruct S; contradiction|]. rewrite (seg_get m a v l 0 S). cbn [obind val nxt from]. unfold HtSpec.haskey at 1. cbn [snd].
  destruct (eqb (key v) k); [reflexivity|]. apply IH; [apply S|cbn in F; lia].
Qed.
Lemma skip_loop_ok m k l : forall fuel, seg m l 0 -> (length l < fuel)%nat -> skip_loop key eqb fuel m (hd l 0) k = Some (hd (past k l) 0).
Proof.
  induction l as [|[a v] l IH]; intros fuel S F; (destruct fuel as [|fuel]; [cbn in F; lia|]); cbn [skip_loop hd]; [reflexivity|].
  destruct (Z.eqb_spec a 0) as [E|N]; [destruct S; contradiction|]. rewrite (seg_get m a v l 0 S). cbn [obind val nxt past]. unfold HtSpec.haskey at 1. cbn [snd].
  destruct (eqb (key v) k); [|reflexivity]. apply IH; [apply S|cbn in F; lia].
Qed.
Lemma count_loop_ok m k l : forall fuel r, seg m l 0 -> (length l < fuel)%nat -> count_loop key eqb fuel m (hd l 0) k r = Some (r + len (filter (haskey k) l)).
Proof.
  induction l as [|[a v] l IH]; intros fuel r S F; (destruct fuel as [|fuel]; [cbn in F; lia|]); cbn [count_loop hd]; [cbn; f_equal; lia|].
  destruct (Z.eqb_spec a 0) as [E|N]; [destruct S; contradiction|]. rewrite (seg_get m a v l 0 S). cbn [obind val nxt filter]. unfold HtSpec.haskey at 1. cbn [snd].
  rewrite IH; [|apply S|cbn in F; lia]. destruct (eqb (key v) k); unfold len; cbn [length]; f_equal; lia.
Qed.

(** the link of the last node of a chain changed *)

End HtChain.

Section HtProof.
Context {K T : Type} (key : T -> K) (hashf : K -> Z) (eqb : K -> K -> bool).
Notation memory := (@memory T).
Notation same := (same key eqb).
Notation haskey := (haskey key eqb).
Notation grouped := (grouped key eqb).
Notation distinct := (distinct key eqb).
Notation rep := (rep key hashf eqb).
Implicit Types (m : memory) (t : tab) (a p : Z) (v x y : T) (k : K) (l : list (Z * T)) (L : list (list (Z * T))).
(** ** the buckets *)
Lemma nodup_r {A} (X Y : list A) : NoDup (X ++ Y) -> NoDup Y.
Proof. induction X as [|x X IH]; [auto|]. cbn [app]. intros N. inversion N; auto. Qed.
Lemma nodup_l {A} (X Y : list A) : NoDup (X ++ Y) -> NoDup X.
Proof. intros N. eapply nodup_r. eapply Permutation_NoDup; [apply Permutation_app_comm|exact N]. Qed.
Lemma addrs_app L1 L2 : addrs (L1 ++ L2) = addrs L1 ++ addrs L2.
Proof. unfold addrs. now rewrite concat_app, map_app. Qed.
Lemma addrs_cons l L : addrs (l :: L) = map fst l ++ addrs L.
Proof. unfold addrs. cbn [concat]. now rewrite map_app. Qed.
Lemma nth_mid {A} (L1 : list A) (x : A) (L2 : list A) : nth_error (L1 ++ x :: L2) (length L1) = Some x.
Proof. rewrite nth_error_app2 by lia. now rewrite Nat.sub_diag. Qed.
Lemma nth_other {A} (L1 : list A) (x y : A) (L2 : list A) i : i <> length L1 -> nth_error (L1 ++ x :: L2) i = nth_error (L1 ++ y :: L2) i.
Proof.
  intros H. destruct (Nat.lt_ge_cases i (length L1)); [now rewrite !nth_error_app1 by lia|].
  rewrite !nth_error_app2 by lia. destruct (i - length L1)%nat eqn:E; [lia|reflexivity].
Qed.
Lemma nth_in_other L1 L2 (y : list (Z * T)) i l a : i <> length L1 -> nth_error (L1 ++ y :: L2) i = Some l -> In a (map fst l) -> In a (addrs (L1 ++ L2)).
Proof.
  intros H E I. rewrite addrs_app. apply in_or_app. destruct (Nat.lt_ge_cases i (length L1)).
  - rewrite nth_error_app1 in E by lia. apply nth_error_In in E. left. unfold addrs. apply in_map_iff in I as [e [E1 I]]. apply in_map_iff. exists e. split; [assumption|].
    apply in_concat. eauto.
  - rewrite nth_error_app2 in E by lia. destruct (i - length L1)%nat eqn:Q; [lia|]. cbn in E. apply nth_error_In in E. right. unfold addrs.
    apply in_map_iff in I as [e [E1 I]]. apply in_map_iff. exists e. split; [assumption|]. apply in_concat. eauto.
Qed.

(** the bucket of a key *)
Lemma rep_bucket m t L k : rep m t L -> exists L1 l L2, L = L1 ++ l :: L2 /\ hash hashf t k = Some (len L1) /\ len L1 = hashf k mod bsz t /\
  rdb t (len L1) = Some (hd l 0) /\ seg m l 0 /\ Forall (fun e => hashf (key (snd e)) mod bsz t = len L1) l /\ grouped (map snd l).
Proof.
  intros R. pose proof (r_pos _ _ _ _ _ _ R) as P. pose proof (r_len _ _ _ _ _ _ R) as E.
  assert (B : 0 <= hashf k mod bsz t < bsz t) by (apply Z.mod_pos_bound; lia).
  destruct (nth_error L (Z.to_nat (hashf k mod bsz t))) as [l|] eqn:N.
  2:{ apply nth_error_None in N. unfold len in E. lia. }
  apply nth_error_split in N as (L1 & L2 & EL & E1). exists L1, l, L2. split; [exact EL|]. assert (EI : len L1 = hashf k mod bsz t) by (unfold len; lia).
  destruct (r_b _ _ _ _ _ _ R (length L1) l) as (Q1 & Q2 & Q3 & Q4); [rewrite EL; apply nth_mid|].
  repeat split; auto.
  - unfold hash, hash_n. destruct (Z.eqb_spec (bsz t) 0); [lia|]. now rewrite EI.
  - unfold rdb. rewrite (r_bl _ _ _ _ _ _ R). destruct (Z.leb_spec 0 (len L1)); [|lia]. destruct (Z.ltb_spec (len L1) (bsz t)); [|lia]. cbn [andb]. now rewrite <- Q1.
Qed.
Lemma rep_at m t L1 l L2 : rep m t (L1 ++ l :: L2) -> rdb t (len L1) = Some (hd l 0) /\ seg m l 0 /\
  Forall (fun e => hashf (key (snd e)) mod bsz t = len L1) l /\ grouped (map snd l) /\ NoDup (map fst l) /\ 0 <= len L1 < bsz t /\
  (forall a, In a (map fst l) -> ~ In a (addrs (L1 ++ L2))) /\ (length l < fu m)%nat.
Proof.
  intros R. destruct (r_b _ _ _ _ _ _ R (length L1) l (nth_mid L1 l L2)) as (Q1 & Q2 & Q3 & Q4).
  pose proof (r_len _ _ _ _ _ _ R) as E. unfold len in E. rewrite app_length in E. cbn [length] in E.
  pose proof (r_nd _ _ _ _ _ _ R) as N. rewrite addrs_app, addrs_cons in N.
  assert (N2 : NoDup (map fst l)) by (apply nodup_r, nodup_l in N; exact N).
  repeat split; auto; unfold len; try lia.
  - unfold rdb. rewrite (r_bl _ _ _ _ _ _ R). destruct (Z.leb_spec 0 (Z.of_nat (length L1))); [|lia]. destruct (Z.ltb_spec (Z.of_nat (length L1)) (bsz t)); [|lia]. cbn [andb]. now rewrite <- Q1.
  - intros a Ha. rewrite addrs_app. intros C.
    assert (N3 : NoDup (map fst l ++ addrs L1 ++ addrs L2)).
    { eapply Permutation_NoDup; [|exact N]. rewrite !app_assoc. apply Permutation_app_tail. apply Permutation_app_comm. }
    apply in_split in Ha as (X & Y & Ha). rewrite Ha, <- app_assoc in N3. cbn [app] in N3. apply NoDup_remove_2 in N3. apply N3. rewrite !in_app_iff in *. tauto.
  - eapply seg_fuel; eauto. apply (r_wf _ _ _ _ _ _ R).
Qed.
(** one bucket replaced *)
Lemma rep_upd m t L1 l L2 m' t' l' : rep m t (L1 ++ l :: L2) ->
  (forall j, 0 <= j < bsz t -> bk t' j = if j =? len L1 then hd l' 0 else bk t j) -> bl t' = bl t -> bsz t' = bsz t -> cnt t' = cnt t + len l' - len l ->
  wf m' -> seg m' l' 0 -> Forall (fun e => hashf (key (snd e)) mod bsz t = len L1) l' -> grouped (map snd l') -> NoDup (map fst l') ->
  (forall a, In a (map fst l') -> ~ In a (addrs (L1 ++ L2))) -> (forall a, In a (addrs (L1 ++ L2)) -> cell m' a = cell m a) ->
  rep m' t' (L1 ++ l' :: L2).
Proof.
  intros R HB HL HS HC W S F G N D O. pose proof (r_len _ _ _ _ _ _ R) as E. unfold len in E. rewrite app_length in E. cbn [length] in E. constructor.
  - exact W.
  - rewrite HS. apply (r_pos _ _ _ _ _ _ R).
  - unfold len. rewrite app_length. cbn [length]. lia.
  - rewrite HL, HS. apply (r_bl _ _ _ _ _ _ R).
  - rewrite HC, (r_cnt _ _ _ _ _ _ R). unfold len. rewrite !concat_app. cbn [concat]. rewrite !app_length. lia.
  - pose proof (r_nd _ _ _ _ _ _ R) as N0. rewrite addrs_app, addrs_cons in N0.
    assert (N1 : NoDup (addrs L1 ++ addrs L2)).
    { assert (N3 : NoDup (map fst l ++ addrs L1 ++ addrs L2)).
      { eapply Permutation_NoDup; [|exact N0]. rewrite !app_assoc. apply Permutation_app_tail. apply Permutation_app_comm. }
      now apply nodup_r in N3. }
    rewrite addrs_app, addrs_cons. apply Permutation_NoDup with (map fst l' ++ addrs L1 ++ addrs L2).
    { rewrite !app_assoc. apply Permutation_app_tail. apply Permutation_app_comm. }
    clear - N D N1. rewrite addrs_app in D. revert N D. generalize (map fst l') as X, (addrs L1 ++ addrs L2) as Y, N1. intros X Y NY. induction X as [|x X IH]; [auto|].
    intros NX DX. inversion NX; subst. cbn [app]. constructor.
    + rewrite in_app_iff. intros [I|I]; [contradiction|]. apply (DX x); [now left|exact I].
    + apply IH; [assumption|]. intros a Ha. apply DX. now right.
  - intros i l0 E0. destruct (Nat.eq_dec i (length L1)) as [->|Ni].
    + rewrite nth_mid in E0. injection E0 as <-. rewrite HB by lia. unfold len. rewrite Z.eqb_refl. rewrite HS. auto.
    + rewrite (nth_other L1 l' l L2 i Ni) in E0. destruct (r_b _ _ _ _ _ _ R i l0 E0) as (Q1 & Q2 & Q3 & Q4).
      assert (Hi : (i < length (L1 ++ l :: L2))%nat) by (apply nth_error_Some; congruence). rewrite app_length in Hi. cbn [length] in Hi.
      rewrite HB by lia. destruct (Z.eqb_spec (Z.of_nat i) (len L1)) as [C|_]; [unfold len in C; lia|]. rewrite HS. repeat split; auto.
      eapply seg_ext; [|exact Q2]. intros a Ha. apply O. eapply nth_in_other; eauto.
Qed.

(** ** groups and the equivalence of keys *)
Hypothesis KO : key_ok hashf eqb.
Lemma same_refl x : same x x. Proof. apply (k_refl _ _ KO). Qed.
Lemma same_sym x y : same x y -> same y x. Proof. apply (k_sym _ _ KO). Qed.
Lemma same_trans x y z : same x y -> same y z -> same x z. Proof. apply (k_trans _ _ KO). Qed.
Lemma eqb_f_sym k k' : eqb k k' = false -> eqb k' k = false.
Proof. intros H. destruct (eqb k' k) eqn:E; [|reflexivity]. now rewrite (k_sym _ _ KO _ _ E) in H. Qed.
Lemma grouped_ins A x v B : same x v -> grouped (A ++ x :: B) -> grouped (A ++ x :: v :: B).
Proof.
  intros S. induction A as [|a A IH]; cbn [app HtSpec.grouped].
  - intros [(E & R & H & FE & FR) G]. split; [|split; [|assumption]].
    + exists (v :: E), R. rewrite H. repeat split; auto.
    + exists E, R. repeat split; auto.
      * eapply Forall_impl; [|exact FE]. intros y Hy. eapply same_trans; [apply same_sym; exact S|exact Hy].
      * eapply Forall_impl; [|exact FR]. intros y Hy C. apply Hy. eapply same_trans; [exact S|exact C].
  - intros [(E & R & H & FE & FR) G]. split; [|auto]. apply (split_ins (same a) A x v B E R); auto.
    split; intros Q; (eapply same_trans; [exact Q|]); [exact S|apply same_sym; exact S].
Qed.
Lemma distinct_perm (l l' : list T) : Permutation l l' -> distinct l -> distinct l'.
Proof.
  induction 1 as [| x l l' P IH | x y l | l l' l'' P1 IH1 P2 IH2]; cbn; auto.
  - intros [F D]. split; [|auto]. now rewrite <- P.
  - intros [F1 [F2 D]]. inversion F1; subst. repeat split; auto. constructor; [|assumption]. intros C. apply H1. now apply same_sym.
Qed.
End HtProof.
