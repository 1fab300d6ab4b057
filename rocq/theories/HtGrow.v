(** The hash table: sizes of the array, rehash, insertion with growth. *)
From Coq Require Import ZArith List Bool Lia Permutation Sorted.
From Verif Require Import F64 ArrModel BsModel SortSpec SortProps BsProps HtModel HtSpec HtProof HtLook HtIns HtRehash.
Import ListNotations.
Open Scope Z_scope.

Definition max_prime : Z := 18446744073709551557.
Lemma primes_sorted : StronglySorted Z.lt prime_list.
Proof. apply Sorted_StronglySorted; [intros x y z; lia|]. unfold prime_list. repeat (apply Sorted_cons; [|apply HdRel_cons || apply HdRel_nil; reflexivity]). apply Sorted_nil. Qed.
Lemma primes_ordered : ordered Z.ltb prime_list.
Proof.
  unfold ordered. pose proof primes_sorted as H. induction H as [|a l H IH F]; constructor; [exact IH|]. eapply Forall_impl; [|exact F].
  intros b Hb. cbn in *. apply Z.ltb_ge. lia.
Qed.
Lemma primes_max r : In r prime_list -> 0 < r <= max_prime.
Proof.
  assert (H : forallb (fun r => (0 <? r) && (r <=? max_prime)) prime_list = true) by reflexivity. rewrite forallb_forall in H. intros I. specialize (H r I).
  apply andb_true_iff in H as [H1 H2]. lia.
Qed.
Theorem next_prime_ok n : exists q, next_prime n = Some q /\ In q prime_list /\
  (n <= max_prime -> n <= q /\ forall r, In r prime_list -> n <= r -> q <= r) /\ (max_prime < n -> q = max_prime).
Proof.
  destruct (C72_lower_bound Z.ltb Zltb_sw [] prime_list [] n primes_ordered) as (i & E & l1 & l2 & EL & Ei & F1 & F2).
  rewrite app_nil_r in E. cbn [app length] in E. change (Z.of_nat 0) with 0 in E. rewrite !Z.add_0_l in E. change (Z.of_nat (length prime_list)) with prime_num in E.
  unfold next_prime. rewrite E. cbn [obind]. assert (Len : (length l1 + length l2 = 99)%nat) by (rewrite <- app_length, <- EL; reflexivity).
  destruct l2 as [|q l2].
  - rewrite Nat.add_0_r in Len. rewrite Ei, Len. cbn. change (Z.of_nat 99 =? prime_num) with true. exists max_prime. split; [reflexivity|].
    split; [unfold max_prime, prime_list; cbn [In]; tauto|]. split; [|reflexivity]. intros Hn. exfalso. rewrite app_nil_r in EL. rewrite Forall_forall in F1.
    assert (I : In max_prime l1) by (rewrite <- EL; unfold max_prime, prime_list; cbn [In]; tauto). apply F1 in I. lia.
  - cbn [length] in Len. destruct (Z.eqb_spec i prime_num) as [C|_]; [unfold prime_num in C; lia|]. exists q.
    assert (Eq : rd prime_list i = Some q).
    { unfold rd. destruct (Z.ltb_spec i 0); [lia|]. rewrite Ei, Nat2Z.id, EL. rewrite nth_error_app2 by lia. now rewrite Nat.sub_diag. }
    assert (Iq : In q prime_list) by (rewrite EL; apply in_elt). inversion F2 as [|? ? Hq F2']; subst. split; [exact Eq|]. split; [exact Iq|]. split.
    + intros _. split; [lia|]. intros r Ir Hr. rewrite EL in Ir. apply in_app_iff in Ir as [Ir|[->|Ir]]; [|lia|].
      * rewrite Forall_forall in F1. apply F1 in Ir. lia.
      * pose proof primes_sorted as S. rewrite EL in S. clear - S Ir. induction l1 as [|x l1 IH]; cbn [app] in S; inversion S as [|? ? S' F]; subst; [|auto].
        rewrite Forall_forall in F. apply F in Ir. lia.
    + intros Hn. apply primes_max in Iq. lia.
Qed.

Section HtGrow.
Context {K T : Type} (key : T -> K) (hashf : K -> Z) (eqb : K -> K -> bool).
Hypothesis KO : key_ok hashf eqb.
Notation memory := (@memory T).
Notation haskey := (haskey key eqb).
Notation distinct := (distinct key eqb).
Notation rep := (rep key hashf eqb).
Notation len := HtSpec.len.
Implicit Types (m : memory) (t : tab) (a p b : Z) (v x y : T) (k : K) (l A B : list (Z * T)) (L : list (list (Z * T))).

(** a table before and after a change of the array *)
Definition grown m t L m' t' L' : Prop := rep m' t' L' /\ Permutation (vals L') (vals L) /\ mlf t' = mlf t /\ brk m <= brk m' /\
  (forall b, b < brk m -> ~ In b (addrs L) -> cell m' b = cell m b /\ ~ In b (addrs L')).
Lemma grown_refl m t L : rep m t L -> grown m t L m t L.
Proof. intros R. repeat (split; [first [assumption|reflexivity|lia]|]). auto. Qed.
Lemma replace_grown m t L bn : rep m t L -> 0 < bn -> exists m' t' L', replace_bucket key hashf eqb m t bn = Some (m', t') /\ grown m t L m' t' L' /\ bsz t' = bn.
Proof.
  intros R P. destruct (replace_bucket_ok key hashf eqb KO m t L bn R P) as (m' & t' & L' & E & R' & Pv & Eb & Em & Bm & Old & New). exists m', t', L'. split; [exact E|].
  split; [|exact Eb]. split; [exact R'|]. split; [exact Pv|]. split; [exact Em|]. pose proof (r_cnt _ _ _ _ _ _ R) as Ec. unfold HtSpec.len in Ec. split; [lia|].
  intros b Hb _. split; [auto|]. intros Q. apply New in Q. lia.
Qed.
Theorem rehash_ok m t L count : rep m t L -> exists m' t' L', rehash key hashf eqb m t count = Some (m', t') /\ grown m t L m' t' L' /\
  (count <= max_prime -> count <= bsz t') /\ (bsz t' = bsz t \/ In (bsz t') prime_list).
Proof.
  intros R. unfold rehash. destruct (next_prime_ok count) as (q & E & I & Hle & _). rewrite E. cbn [obind]. pose proof (primes_max q I) as Bq.
  destruct (replace_grown m t L q R ltac:(lia)) as (m' & t' & L' & E' & G & Eb). destruct (Z.ltb_spec (bsz t) q) as [Lt|Ge].
  - exists m', t', L'. split; [exact E'|]. split; [exact G|]. rewrite Eb. split; [|auto]. intros Hc. now apply Hle.
  - destruct (worth t q).
    + exists m', t', L'. split; [exact E'|]. split; [exact G|]. rewrite Eb. split; [|auto]. intros Hc. now apply Hle.
    + exists m, t, L. split; [reflexivity|]. split; [now apply grown_refl|]. split; [|auto]. intros Hc. apply Hle in Hc. lia.
Qed.
Lemma rehash_if_need_ok m t L n : rep m t L -> exists m' t' L', rehash_if_need key hashf eqb m t n = Some (m', t') /\ grown m t L m' t' L' /\
  (crowded t n = false -> m' = m /\ t' = t /\ L' = L).
Proof.
  intros R. unfold rehash_if_need. destruct (crowded t n).
  - destruct (rehash_ok m t L (cnt t + n) R) as (m' & t' & L' & E & G & _). exists m', t', L'. split; [exact E|]. split; [exact G|discriminate].
  - exists m, t, L. split; [reflexivity|]. split; [now apply grown_refl|auto].
Qed.
Lemma perm_vals L L' a v : Permutation (concat L') ((a, v) :: concat L) -> Permutation (vals L') (v :: vals L).
Proof. intros P. unfold vals. rewrite P. reflexivity. Qed.
Lemma perm_in L L' a v : Permutation (concat L') ((a, v) :: concat L) -> In (a, v) (concat L').
Proof. intros P. apply (Permutation_in _ (Permutation_sym P)). now left. Qed.
Lemma others_trans m L m1 L1 m' L' : wf m -> (forall b, b < brk m -> ~ In b (addrs L) -> cell m1 b = cell m b /\ ~ In b (addrs L1)) ->
  (forall b, In b (addrs L') -> In b (addrs L1) \/ brk m <= b) -> frame m1 L1 m' L' -> others m L m'.
Proof.
  intros [_ W] H N F b Hb Ib. pose proof (W b Hb) as Bb. destruct (H b ltac:(lia) Ib) as [E I1]. destruct (F b) as [_ F2].
  - intros Q. apply N in Q as [Q|Q]; [contradiction|lia].
  - rewrite F2 by assumption. exact E.
Qed.

Theorem insert_multi_ok m t L v : rep m t L -> exists m' t' L' p, insert_multi key hashf eqb m t v = Some (m', t', p) /\ rep m' t' L' /\
  Permutation (vals L') (v :: vals L) /\ In (p, v) (concat L') /\ brk m <= p /\ others m L m' /\ mlf t' = mlf t /\
  (crowded t 1 = false -> Permutation (concat L') ((p, v) :: concat L)).
Proof.
  intros R. unfold insert_multi. destruct (rehash_if_need_ok m t L 1 R) as (m1 & t1 & L1 & E & (R1 & P1 & M1 & B1 & O1) & NC). rewrite E. cbn [obind].
  destruct (insert_multi_noresize_ok key hashf eqb KO m1 t1 L1 v R1) as (m' & t' & L' & E' & R' & P' & F' & B' & _ & M'). rewrite E'.
  exists m', t', L', (brk m1). split; [reflexivity|]. split; [exact R'|]. split; [rewrite (perm_vals _ _ _ _ P'); now constructor|]. split; [exact (perm_in _ _ _ _ P')|]. split; [exact B1|].
  split; [|split; [congruence|]].
  - apply (others_trans m L m1 L1 m' L'); auto; [apply (r_wf _ _ _ _ _ _ R)|]. intros b Hb. apply (addrs_new _ _ _ _ b P') in Hb as [->|Hb]; auto.
  - intros C. destruct (NC C) as (-> & -> & ->). exact P'.
Qed.
Theorem insert_unique_ok m t L v : rep m t L -> exists m' t' L' p (b : bool), insert_unique key hashf eqb m t v = Some (m', t', (p, b)) /\ rep m' t' L' /\
  others m L m' /\ mlf t' = mlf t /\
  (if b then Forall (fun w => eqb (key w) (key v) = false) (vals L) /\ Permutation (vals L') (v :: vals L) /\ In (p, v) (concat L') /\ brk m <= p /\
     (crowded t 1 = false -> Permutation (concat L') ((p, v) :: concat L))
   else Permutation (vals L') (vals L) /\ (exists w, In (p, w) (concat L') /\ eqb (key w) (key v) = true) /\ (crowded t 1 = false -> m' = m /\ t' = t /\ L' = L)).
Proof.
  intros R. unfold insert_unique. destruct (rehash_if_need_ok m t L 1 R) as (m1 & t1 & L1 & E & (R1 & P1 & M1 & B1 & O1) & NC). rewrite E. cbn [obind].
  destruct (insert_unique_noresize_ok key hashf eqb KO m1 t1 L1 v R1) as (m' & t' & L' & p & b & E' & R' & F' & _ & M' & H). rewrite E'.
  exists m', t', L', p, b. split; [reflexivity|]. split; [exact R'|]. destruct b.
  - destruct H as (Ep & Fa & P'). subst p. split; [|split; [congruence|]].
    + apply (others_trans m L m1 L1 m' L'); auto; [apply (r_wf _ _ _ _ _ _ R)|]. intros b Hb. apply (addrs_new _ _ _ _ b P') in Hb as [->|Hb]; auto.
    + split; [|split; [rewrite (perm_vals _ _ _ _ P'); now constructor|split; [exact (perm_in _ _ _ _ P')|split; [exact B1|]]]].
      * apply Forall_forall. intros w Iw. apply (Permutation_in _ (Permutation_sym P1)) in Iw. unfold vals in Iw. apply in_map_iff in Iw as [e [<- Ie]]. rewrite Forall_forall in Fa. exact (Fa e Ie).
      * intros C. destruct (NC C) as (-> & -> & ->). exact P'.
  - destruct H as (-> & -> & -> & w & Iw & Hw). split; [|split; [congruence|]].
    + intros b Hb Ib. apply O1; [|exact Ib]. apply (r_wf _ _ _ _ _ _ R). exact Hb.
    + split; [exact P1|]. split; [eauto|exact NC].
Qed.
Theorem emplace_multi_ok m t L v : rep m t L -> exists m' t' L', emplace_multi key hashf eqb m t v = Some (m', t', brk m) /\ rep m' t' L' /\
  Permutation (vals L') (v :: vals L) /\ In (brk m, v) (concat L') /\ others m L m' /\ mlf t' = mlf t /\
  (crowded t 1 = false -> Permutation (concat L') ((brk m, v) :: concat L)).
Proof.
  intros R. unfold emplace_multi. pose proof (create_ok m v (r_wf _ _ _ _ _ _ R)) as C. destruct (create_node m v) as [m0 a]. destruct C as (Ea & Na & C0 & C1 & O0 & B0 & W0).
  assert (I : ~ In a (addrs L)) by (intros Q; apply (rep_in key hashf eqb m t _ a R) in Q; lia).
  assert (R0 : rep m0 t L) by (apply (rep_ext key hashf eqb m); auto; intros b Hb; apply O0; intros ->; contradiction).
  destruct (rehash_if_need_ok m0 t L 1 R0) as (m1 & t1 & L1 & E & (R1 & P1 & M1 & B1 & O1) & NC). rewrite E. cbn [obind].
  destruct (O1 a ltac:(lia) I) as [Ca Ia]. rewrite C1 in Ca.
  destruct (insert_node_multi_ok key hashf eqb KO m1 t1 L1 a v R1 Na Ia Ca) as (m' & t' & L' & E' & R' & P' & F' & B' & _ & M'). rewrite E'.
  rewrite <- Ea. exists m', t', L'. split; [reflexivity|]. split; [exact R'|]. split; [rewrite (perm_vals _ _ _ _ P'); now constructor|]. split; [exact (perm_in _ _ _ _ P')|].
  split; [|split; [congruence|]].
  - apply (others_trans m L m1 L1 m' L'); auto; [apply (r_wf _ _ _ _ _ _ R)| |].
    + intros b Hb Ib. destruct (O1 b ltac:(lia) Ib) as [H1 H2]. split; [|exact H2]. rewrite H1. apply O0. lia.
    + intros b Hb. apply (addrs_new _ _ _ _ b P') in Hb as [->|Hb]; [right; lia|auto].
  - intros Cr. destruct (NC Cr) as (-> & -> & ->). exact P'.
Qed.
(** with a key that is there already, the new node is neither linked in nor given back *)
Theorem emplace_unique_ok m t L v : rep m t L -> exists m' t' L' p (b : bool), emplace_unique key hashf eqb m t v = Some (m', t', (p, b)) /\ rep m' t' L' /\
  others m L m' /\ mlf t' = mlf t /\
  (if b then Forall (fun w => eqb (key w) (key v) = false) (vals L) /\ Permutation (vals L') (v :: vals L) /\ p = brk m /\ In (p, v) (concat L') /\
     (crowded t 1 = false -> Permutation (concat L') ((p, v) :: concat L))
   else Permutation (vals L') (vals L) /\ (exists w, In (p, w) (concat L') /\ eqb (key w) (key v) = true) /\ (crowded t 1 = false -> t' = t /\ L' = L) /\
     ~ In (brk m) (addrs L') /\ cell m' (brk m) = Some (mkNd 0 v)).
Proof.
  intros R. unfold emplace_unique. pose proof (create_ok m v (r_wf _ _ _ _ _ _ R)) as C. destruct (create_node m v) as [m0 a]. destruct C as (Ea & Na & C0 & C1 & O0 & B0 & W0).
  assert (I : ~ In a (addrs L)) by (intros Q; apply (rep_in key hashf eqb m t _ a R) in Q; lia).
  assert (R0 : rep m0 t L) by (apply (rep_ext key hashf eqb m); auto; intros b Hb; apply O0; intros ->; contradiction).
  destruct (rehash_if_need_ok m0 t L 1 R0) as (m1 & t1 & L1 & E & (R1 & P1 & M1 & B1 & O1) & NC). rewrite E. cbn [obind].
  destruct (O1 a ltac:(lia) I) as [Ca Ia]. rewrite C1 in Ca.
  assert (O2 : forall b, b < brk m -> ~ In b (addrs L) -> cell m1 b = cell m b /\ ~ In b (addrs L1)).
  { intros b Hb Ib. destruct (O1 b ltac:(lia) Ib) as [H1 H2]. split; [|exact H2]. rewrite H1. apply O0. lia. }
  destruct (insert_node_unique_ok key hashf eqb KO m1 t1 L1 a v R1 Na Ia Ca) as (m' & t' & L' & p & b & E' & R' & F' & B' & _ & M' & H). rewrite E'.
  rewrite <- Ea. exists m', t', L', p, b. split; [reflexivity|]. split; [exact R'|]. destruct b.
  - destruct H as (-> & Fa & P'). split; [|split; [congruence|]].
    + apply (others_trans m L m1 L1 m' L'); auto; [apply (r_wf _ _ _ _ _ _ R)|]. intros b Hb. apply (addrs_new _ _ _ _ b P') in Hb as [->|Hb]; [right; lia|auto].
    + split; [|split; [rewrite (perm_vals _ _ _ _ P'); now constructor|split; [reflexivity|split; [exact (perm_in _ _ _ _ P')|]]]].
      * apply Forall_forall. intros w Iw. apply (Permutation_in _ (Permutation_sym P1)) in Iw. unfold vals in Iw. apply in_map_iff in Iw as [e [<- Ie]]. rewrite Forall_forall in Fa. exact (Fa e Ie).
      * intros Cr. destruct (NC Cr) as (-> & -> & ->). exact P'.
  - destruct H as (-> & -> & -> & w & Iw & Hw). split; [|split; [congruence|]].
    + intros b Hb Ib. apply O2; [|exact Ib]. apply (r_wf _ _ _ _ _ _ R). exact Hb.
    + split; [exact P1|]. split; [eauto|]. split; [|auto]. intros Cr. now destruct (NC Cr).
Qed.

(** ** ranges *)
Lemma others_refl m L : others m L m. Proof. now intros b _ _. Qed.
Lemma addrs_more L L' X b : Permutation (concat L') (X ++ concat L) -> (In b (addrs L') <-> In b (map fst X) \/ In b (addrs L)).
Proof.
  intros P. unfold addrs. pose proof (Permutation_map fst P) as Q. rewrite map_app in Q. rewrite <- in_app_iff. split; apply Permutation_in; [exact Q|now symmetry].
Qed.
Lemma vals_more L L' X : Permutation (concat L') (X ++ concat L) -> Permutation (vals L') (map snd X ++ vals L).
Proof. intros P. unfold vals. rewrite P, map_app. reflexivity. Qed.
Lemma frame_trans m L m1 L1 m' L' : (forall b, In b (addrs L) -> In b (addrs L1)) -> (forall b, In b (addrs L1) -> In b (addrs L')) ->
  frame m L m1 L1 -> frame m1 L1 m' L' -> frame m L m' L'.
Proof.
  intros H1 H2 F1 F2 b Hb. assert (N1 : ~ In b (addrs L1)) by auto. assert (N0 : ~ In b (addrs L)) by auto. split; [contradiction|]. intros _.
  destruct (F2 b Hb) as [_ G2]. destruct (F1 b N1) as [_ G1]. rewrite G2, G1 by assumption. reflexivity.
Qed.
Lemma frame_refl m L : frame m L m L. Proof. intros b Hb. split; [contradiction|reflexivity]. Qed.
(** the values there are after those of [vs] were offered one after another *)
Fixpoint adds (ws vs : list T) : list T :=
  match vs with [] => ws | v :: vs => if existsb (fun w => eqb (key w) (key v)) ws then adds ws vs else adds (v :: ws) vs end.
Lemma existsb_perm (f : T -> bool) (a b : list T) : Permutation a b -> existsb f a = existsb f b.
Proof. intros P. apply eq_iff_eq_true. rewrite !existsb_exists. split; intros (x & I & E); exists x; split; auto; [apply (Permutation_in _ P)|apply (Permutation_in _ (Permutation_sym P))]; exact I. Qed.
Lemma adds_perm (vs : list T) : forall a b : list T, Permutation a b -> Permutation (adds a vs) (adds b vs).
Proof.
  induction vs as [|v vs IH]; intros a b P; cbn [adds]; [exact P|]. rewrite (existsb_perm _ a b P). destruct (existsb _ b); apply IH; auto.
Qed.
Definition more m t L m' t' L' X : Prop := rep m' t' L' /\ Permutation (concat L') (X ++ concat L) /\ (forall b, In b (map fst X) -> brk m <= b) /\
  frame m L m' L' /\ bsz t' = bsz t /\ mlf t' = mlf t /\ brk m <= brk m'.
Lemma more_refl m t L : rep m t L -> more m t L m t L [].
Proof. intros R. split; [exact R|]. split; [reflexivity|]. split; [intros b []|]. split; [apply frame_refl|]. repeat split; auto. lia. Qed.
Lemma more_step m t L m1 t1 L1 X m' t' L' Y : more m t L m1 t1 L1 X -> more m1 t1 L1 m' t' L' Y -> more m t L m' t' L' (Y ++ X).
Proof.
  intros (R1 & P1 & N1 & F1 & S1 & M1 & B1) (R & P & N & F & S & M & B). split; [exact R|]. split; [rewrite P, P1; now rewrite app_assoc|].
  split; [intros b Hb; rewrite map_app in Hb; apply in_app_iff in Hb as [Hb|Hb]; [apply N in Hb; lia|auto]|].
  split; [|repeat split; (congruence || lia)]. apply (frame_trans m L m1 L1); auto; intros b Hb; [apply (addrs_more _ _ _ b P1)|apply (addrs_more _ _ _ b P)]; auto.
Qed.
Lemma one_more m t L v : rep m t L -> exists m' t' L', insert_multi_noresize key hashf eqb m t v = Some (m', t', brk m) /\ more m t L m' t' L' [(brk m, v)].
Proof.
  intros R. destruct (insert_multi_noresize_ok key hashf eqb KO m t L v R) as (m1 & t1 & L1 & E & R1 & P & F & B & S1 & M1). exists m1, t1, L1. split; [exact E|].
  split; [exact R1|]. split; [exact P|]. split; [intros b [<-|[]]; cbn; lia|]. split; [exact F|]. repeat split; auto. lia.
Qed.
Lemma multi_loop_ok vs : forall m t L, rep m t L -> exists m' t' L' X, multi_loop key hashf eqb m t vs = Some (m', t') /\ more m t L m' t' L' X /\ map snd X = rev vs.
Proof.
  induction vs as [|v vs IH]; intros m t L R; cbn [multi_loop].
  - exists m, t, L, []. split; [reflexivity|]. split; [now apply more_refl|reflexivity].
  - destruct (one_more m t L v R) as (m1 & t1 & L1 & E & H1). rewrite E. cbn [obind].
    destruct (IH m1 t1 L1 (proj1 H1)) as (m' & t' & L' & X & E' & H & EX). exists m', t', L', (X ++ [(brk m, v)]). split; [exact E'|]. split; [eapply more_step; eauto|].
    rewrite map_app, EX. reflexivity.
Qed.
Lemma unique_loop_ok vs : forall m t L, rep m t L -> exists m' t' L' X, unique_loop key hashf eqb m t vs = Some (m', t') /\ more m t L m' t' L' X /\
  Permutation (map snd X ++ vals L) (adds (vals L) vs).
Proof.
  induction vs as [|v vs IH]; intros m t L R; cbn [unique_loop adds].
  - exists m, t, L, []. split; [reflexivity|]. split; [now apply more_refl|reflexivity].
  - destruct (insert_unique_noresize_ok key hashf eqb KO m t L v R) as (m1 & t1 & L1 & p & b & E & R1 & F & S1 & M1 & H1). rewrite E. cbn [obind]. destruct b.
    + destruct H1 as (-> & Fa & P). assert (H1 : more m t L m1 t1 L1 [(brk m, v)]).
      { split; [exact R1|]. split; [exact P|]. split; [intros b [<-|[]]; cbn; lia|]. split; [exact F|]. repeat split; auto.
        assert (I : In (brk m) (addrs L1)) by (apply (addrs_more L L1 [(brk m, v)] (brk m) P); left; now left). apply (rep_in key hashf eqb m1 t1 L1 _ R1) in I. lia. }
      destruct (IH m1 t1 L1 R1) as (m' & t' & L' & X & E' & H & EX). exists m', t', L', (X ++ [(brk m, v)]). split; [exact E'|]. split; [eapply more_step; eauto|].
      assert (Ex : existsb (fun w => eqb (key w) (key v)) (vals L) = false).
      { apply not_true_is_false. intros C. apply existsb_exists in C as (w & Iw & Ew). unfold vals in Iw. apply in_map_iff in Iw as [e [<- Ie]]. rewrite Forall_forall in Fa.
        specialize (Fa e Ie). unfold HtSpec.haskey in Fa. congruence. }
      rewrite Ex, map_app, <- app_assoc. cbn [map snd app]. pose proof (perm_vals _ _ _ _ P) as Pv. rewrite <- (adds_perm vs _ _ Pv), <- EX. now rewrite Pv.
    + destruct H1 as (-> & -> & -> & w & Iw & Hw). destruct (IH m t L R) as (m' & t' & L' & X & E' & H & EX). exists m', t', L', X. split; [exact E'|]. split; [exact H|].
      assert (Ex : existsb (fun w => eqb (key w) (key v)) (vals L) = true) by (apply existsb_exists; exists w; split; [unfold vals; apply in_map_iff; exists (p, w); auto|exact Hw]).
      rewrite Ex. exact EX.
Qed.
Lemma more_others m t L m1 t1 L1 m' t' L' X : rep m t L -> grown m t L m1 t1 L1 -> more m1 t1 L1 m' t' L' X -> others m L m'.
Proof.
  intros R (R1 & P1 & M1 & B1 & O1) (R' & P' & N & F & _). apply (others_trans m L m1 L1 m' L'); auto; [apply (r_wf _ _ _ _ _ _ R)|].
  intros b Hb. apply (addrs_more _ _ _ b P') in Hb as [Hb|Hb]; auto. apply N in Hb. right. lia.
Qed.
Theorem insert_range_multi_ok m t L vs : rep m t L -> exists m' t' L', insert_range_multi key hashf eqb m t vs = Some (m', t') /\ rep m' t' L' /\
  Permutation (vals L') (vs ++ vals L) /\ others m L m' /\ mlf t' = mlf t.
Proof.
  intros R. unfold insert_range_multi. destruct (rehash_if_need_ok m t L (Z.of_nat (length vs)) R) as (m1 & t1 & L1 & E & G & NC). rewrite E. cbn [obind].
  destruct (multi_loop_ok vs m1 t1 L1 (proj1 G)) as (m' & t' & L' & X & E' & H & EX). exists m', t', L'. split; [exact E'|]. split; [apply H|]. split.
  - destruct H as (_ & P & _). destruct G as (_ & P1 & _). rewrite (vals_more _ _ _ P), EX, P1. now rewrite <- Permutation_rev.
  - split; [eapply more_others; eauto|]. destruct H as (_ & _ & _ & _ & _ & M & _), G as (_ & _ & M1 & _). congruence.
Qed.
Theorem insert_range_unique_ok m t L vs : rep m t L -> exists m' t' L', insert_range_unique key hashf eqb m t vs = Some (m', t') /\ rep m' t' L' /\
  Permutation (vals L') (adds (vals L) vs) /\ others m L m' /\ mlf t' = mlf t.
Proof.
  intros R. unfold insert_range_unique. destruct (rehash_if_need_ok m t L (Z.of_nat (length vs)) R) as (m1 & t1 & L1 & E & G & NC). rewrite E. cbn [obind].
  destruct (unique_loop_ok vs m1 t1 L1 (proj1 G)) as (m' & t' & L' & X & E' & H & EX). exists m', t', L'. split; [exact E'|]. split; [apply H|]. split.
  - destruct H as (_ & P & _). destruct G as (_ & P1 & _). rewrite (vals_more _ _ _ P), EX. now apply adds_perm.
  - split; [eapply more_others; eauto|]. destruct H as (_ & _ & _ & _ & _ & M & _), G as (_ & _ & M1 & _). congruence.
Qed.
End HtGrow.
