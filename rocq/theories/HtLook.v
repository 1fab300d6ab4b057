(** The hash table: looking up and walking through it. *)
From Coq Require Import ZArith List Bool Lia Permutation.
From Verif Require Import F64 HtModel HtSpec HtProof.
Import ListNotations.
Open Scope Z_scope.

Section HtLook.
Context {K T : Type} (key : T -> K) (hashf : K -> Z) (eqb : K -> K -> bool).
Hypothesis KO : key_ok hashf eqb.
Notation memory := (@memory T).
Notation same := (same key eqb).
Notation haskey := (haskey key eqb).
Notation grouped := (grouped key eqb).
Notation distinct := (distinct key eqb).
Notation rep := (rep key hashf eqb).
Notation from := (from key eqb).
Notation past := (past key eqb).
Implicit Types (m : memory) (t : tab) (a p : Z) (v x y : T) (k : K) (l A B : list (Z * T)) (L : list (list (Z * T))).

(** the buckets of other keys have no element with the key *)
Lemma other_bucket m t L1 l L2 k : rep m t (L1 ++ l :: L2) -> len L1 = hashf k mod bsz t -> Forall (fun e => haskey k e = false) (concat (L1 ++ L2)).
Proof.
  intros R E. apply Forall_forall. intros [a v] I. destruct (haskey k (a, v)) eqn:H; [exfalso|reflexivity]. unfold HtSpec.haskey in H. cbn [snd] in H.
  apply in_concat in I as [l' [I1 I2]]. apply in_app_iff in I1.
  assert (X : exists i, i <> length L1 /\ nth_error (L1 ++ l :: L2) i = Some l').
  { destruct I1 as [I1|I1]; apply In_nth_error in I1 as [i Hi].
    - assert (i < length L1)%nat by (apply nth_error_Some; congruence). exists i. split; [lia|]. now rewrite nth_error_app1 by lia.
    - exists (S (length L1 + i)). split; [lia|]. rewrite nth_error_app2 by lia. replace (S (length L1 + i) - length L1)%nat with (S i) by lia. exact Hi. }
  destruct X as (i & Ni & Hi). destruct (r_b _ _ _ _ _ _ R i l' Hi) as (_ & _ & F & _). rewrite Forall_forall in F. specialize (F (a, v) I2). cbn [snd] in F.
  rewrite (k_hash _ _ KO _ _ H) in F. unfold len in E. lia.
Qed.
Lemma concat_mid {U : Type} (L1 : list (list U)) (l : list U) (L2 : list (list U)) : concat (L1 ++ l :: L2) = concat L1 ++ l ++ concat L2.
Proof. now rewrite concat_app. Qed.
Lemma other_bucket2 m t L1 l L2 k : rep m t (L1 ++ l :: L2) -> len L1 = hashf k mod bsz t ->
  Forall (fun e => haskey k e = false) (concat L1) /\ Forall (fun e => haskey k e = false) (concat L2).
Proof. intros R E. pose proof (other_bucket m t L1 l L2 k R E) as H. rewrite concat_app in H. now apply Forall_app in H. Qed.

Lemma find_at m t L1 l L2 k : rep m t (L1 ++ l :: L2) -> hash hashf t k = Some (len L1) -> find key hashf eqb m t k = Some (hd (from k l) 0).
Proof.
  intros R H. destruct (rep_at key hashf eqb m t L1 l L2 R) as (Q1 & Q2 & _ & _ & _ & _ & _ & Q8). unfold find. rewrite H. cbn [obind]. rewrite Q1. cbn [obind].
  now apply find_loop_ok.
Qed.
Theorem find_ok m t L k : rep m t L -> exists p, find key hashf eqb m t k = Some p /\
  ((p = 0 /\ Forall (fun e => haskey k e = false) (concat L)) \/ (p <> 0 /\ exists v, In (p, v) (concat L) /\ eqb (key v) k = true)).
Proof.
  intros R. destruct (rep_bucket key hashf eqb m t L k R) as (L1 & l & L2 & EL & H & E & Q1 & Q2 & Q3 & Q4). subst L.
  rewrite (find_at m t L1 l L2 k R H). eexists. split; [reflexivity|]. destruct (from k l) as [|[a v] r] eqn:F.
  - left. split; [reflexivity|]. apply from_nil in F. destruct (other_bucket2 m t L1 l L2 k R E). rewrite concat_mid. apply Forall_app; split; [assumption|]. now apply Forall_app.
  - right. cbn [hd]. pose proof (from_hd key eqb k l a v r F) as Hk. destruct (from_split key eqb k l) as [X [EX _]]. rewrite F in EX.
    assert (I : In (a, v) l) by (rewrite EX; apply in_elt). split.
    + now destruct (seg_in m l 0 a v Q2 I).
    + exists v. split; [|exact Hk]. rewrite concat_mid. apply in_or_app. right. apply in_or_app. now left.
Qed.
Lemma filter_none {U : Type} (f : U -> bool) (l : list U) : Forall (fun e => f e = false) l -> filter f l = [].
Proof. induction 1 as [|e l H F IH]; [reflexivity|]. cbn [filter]. now rewrite H. Qed.
Theorem count_ok m t L k : rep m t L -> count key hashf eqb m t k = Some (len (filter (haskey k) (concat L))).
Proof.
  intros R. destruct (rep_bucket key hashf eqb m t L k R) as (L1 & l & L2 & EL & H & E & Q1 & Q2 & Q3 & Q4). subst L.
  destruct (rep_at key hashf eqb m t L1 l L2 R) as (_ & _ & _ & _ & _ & _ & _ & Q8).
  unfold count. rewrite H. cbn [obind]. rewrite Q1. cbn [obind]. rewrite count_loop_ok by assumption. f_equal.
  destruct (other_bucket2 m t L1 l L2 k R E) as [O1 O2]. rewrite concat_mid, !filter_app. rewrite (filter_none _ _ O1), (filter_none _ _ O2), app_nil_r. cbn [app]. lia.
Qed.
Theorem bucket_size_ok m t L i l : rep m t L -> nth_error L i = Some l -> bucket_size m t (Z.of_nat i) = Some (len l).
Proof.
  intros R H. apply nth_error_split in H as (L1 & L2 & -> & <-). destruct (rep_at key hashf eqb m t L1 l L2 R) as (Q1 & Q2 & _ & _ & _ & _ & _ & Q8).
  unfold bucket_size. unfold len in Q1. rewrite Q1. cbn [obind]. rewrite length_loop_ok by assumption. reflexivity.
Qed.

(** ** walking *)
Lemma scan_ok m t L2 : forall L1 fuel, rep m t (L1 ++ L2) -> (length L2 < fuel)%nat -> scan fuel t (len L1) = Some (hd (concat L2) 0).
Proof.
  induction L2 as [|l L2 IH]; intros L1 fuel R F; (destruct fuel as [|fuel]; [cbn in F; lia|]); cbn [scan].
  - pose proof (r_len _ _ _ _ _ _ R) as E. rewrite app_nil_r in E. destruct (Z.ltb_spec (len L1) (bsz t)); [lia|reflexivity].
  - destruct (rep_at key hashf eqb m t L1 l L2 R) as (Q1 & Q2 & _ & _ & _ & Q6 & _ & _). destruct (Z.ltb_spec (len L1) (bsz t)); [|lia]. rewrite Q1. cbn [obind concat].
    destruct l as [|[a v] l]; cbn [hd app].
    + rewrite Z.eqb_refl. replace (len L1 + 1) with (len (L1 ++ [[]])) by (unfold len; rewrite app_length; cbn [length]; lia). apply IH; [|cbn in F; lia].
      now rewrite <- app_assoc.
    + destruct (Z.eqb_spec a 0) as [C|_]; [now destruct Q2|reflexivity].
Qed.
Lemma scan_from_ok m t L1 L2 : rep m t (L1 ++ L2) -> scan_from t (len L1) = Some (hd (concat L2) 0).
Proof.
  intros R. unfold scan_from. eapply scan_ok; [exact R|]. pose proof (r_len _ _ _ _ _ _ R) as E. unfold len in *. rewrite app_length in E. lia.
Qed.
Theorem begin_ok m t L : rep m t L -> begin t = Some (hd (concat L) 0).
Proof. intros R. apply (scan_from_ok m t [] L R). Qed.

Lemma concat_split {U : Type} (L : list (list U)) : forall (P : list U) (e : U) (Q : list U), concat L = P ++ e :: Q ->
  exists (M : list (list U)) (A B : list U) (N : list (list U)), L = M ++ (A ++ e :: B) :: N /\ P = concat M ++ A /\ Q = B ++ concat N.
Proof.
  induction L as [|l L IH]; intros P e Q H; cbn [concat] in H; [now destruct P|].
  apply app_eq_app in H as [Z [[H1 H2]|[H1 H2]]].
  - destruct Z as [|z Z]; cbn [app] in H2.
    + destruct (IH [] e Q) as (M & A & B & N & E1 & E2 & E3); [now rewrite <- H2|]. exists (l :: M), A, B, N. cbn [app concat]. rewrite app_nil_r in H1. subst l.
      repeat split; [now rewrite E1| |exact E3]. rewrite <- app_assoc, <- E2. now rewrite app_nil_r.
    + injection H2 as H2 H3. subst z. exists [], P, Z, L. cbn [app concat]. repeat split; [now rewrite H1|exact H3].
  - destruct (IH Z e Q H2) as (M & A & B & N & E1 & E2 & E3). exists (l :: M), A, B, N. cbn [app concat]. repeat split; [now rewrite E1| |exact E3].
    now rewrite H1, E2, app_assoc.
Qed.

Theorem inc_ok m t L p v A B : rep m t L -> concat L = A ++ (p, v) :: B -> inc key hashf m t p = Some (hd B 0).
Proof.
  intros R H. apply concat_split in H as (L1 & A1 & B1 & L2 & -> & -> & ->). destruct (rep_at key hashf eqb m t L1 _ L2 R) as (Q1 & Q2 & Q3 & _ & _ & Q6 & _ & _).
  apply seg_app in Q2 as [_ Q2]. unfold inc. rewrite (seg_get m p v B1 0 Q2). cbn [obind nxt val].
  assert (Eh : hash hashf t (key v) = Some (len L1)).
  { apply Forall_app in Q3 as [_ Q3]. inversion Q3 as [|? ? Hv _]; subst. cbn [snd] in Hv. unfold hash, hash_n. destruct (Z.eqb_spec (bsz t) 0); [lia|]. now rewrite Hv. }
  destruct B1 as [|[b w] B1]; cbn [hd app].
  - rewrite Z.eqb_refl, Eh. cbn [obind]. replace (len L1 + 1) with (len (L1 ++ [A1 ++ [(p, v)]])) by (unfold len; rewrite app_length; cbn [length]; lia).
    eapply scan_from_ok. rewrite <- app_assoc. exact R.
  - destruct Q2 as (_ & _ & (N & _)). destruct (Z.eqb_spec b 0); [contradiction|reflexivity].
Qed.

(** ** ranges of equal keys *)
Lemma past_app k E R : Forall (fun e => haskey k e = true) E -> Forall (fun e => haskey k e = false) R -> past k (E ++ R) = R.
Proof.
  induction 1 as [|e E H F IH]; cbn [app HtProof.past]; intros FR; [|rewrite H; auto]. destruct R as [|r R]; [reflexivity|]. cbn [HtProof.past].
  inversion FR as [|? ? Hr _]. now rewrite Hr.
Qed.
Lemma haskey_same k a v : eqb (key v) k = true -> forall e, haskey k e = true <-> same v (snd e).
Proof.
  intros H [b w]. unfold HtSpec.haskey, HtSpec.same. cbn [snd]. split; intros Q.
  - apply (k_trans _ _ KO _ k); [exact H|]. now apply (k_sym _ _ KO).
  - apply (k_trans _ _ KO _ (key v)); [now apply (k_sym _ _ KO)|exact H].
Qed.
Theorem equal_range_multi_ok m t L k : rep m t L -> exists A X B, concat L = A ++ X ++ B /\ Forall (fun e => haskey k e = true) X /\
  Forall (fun e => haskey k e = false) (A ++ B) /\
  equal_range_multi key hashf eqb m t k = Some (if X then 0 else hd X 0, if X then 0 else hd B 0).
Proof.
  intros R. destruct (rep_bucket key hashf eqb m t L k R) as (L1 & l & L2 & EL & H & E & Q1 & Q2 & Q3 & Q4). subst L.
  destruct (rep_at key hashf eqb m t L1 l L2 R) as (_ & _ & _ & _ & _ & _ & _ & Q8). destruct (other_bucket2 m t L1 l L2 k R E) as [O1 O2].
  unfold equal_range_multi. rewrite H. cbn [obind]. rewrite Q1. cbn [obind]. rewrite find_loop_ok by assumption. cbn [obind].
  destruct (from_split key eqb k l) as [X0 [EX F0]]. destruct (from k l) as [|[a v] r] eqn:F.
  - exists (concat (L1 ++ l :: L2)), [], []. rewrite !app_nil_r. cbn [hd]. rewrite Z.eqb_refl. repeat split; auto. rewrite concat_mid. rewrite app_nil_r in EX. subst X0. repeat (apply Forall_app; split); assumption.
  - pose proof (from_hd key eqb k l a v r F) as Hk. cbn [hd]. rewrite EX in Q2, Q4, Q8. apply seg_app in Q2 as [_ Q2].
    destruct (Z.eqb_spec a 0) as [C|_]; [now destruct Q2|]. rewrite (seg_get m a v r 0 Q2). cbn [obind nxt].
    rewrite skip_loop_ok; [|apply Q2|rewrite app_length in Q8; cbn [length] in Q8; lia]. cbn [obind].
    rewrite map_app in Q4. cbn [map snd] in Q4. assert (G : grouped (v :: map snd r)).
    { clear - Q4 KO. induction (map snd X0) as [|x X IH]; [exact Q4|]. cbn [app HtSpec.grouped] in Q4. apply IH. tauto. }
    destruct G as [(E' & R' & EE & FE & FR) _]. assert (S : exists Er Rr, r = Er ++ Rr /\ map snd Er = E' /\ map snd Rr = R').
    { exists (firstn (length E') r), (skipn (length E') r). rewrite firstn_skipn. split; [reflexivity|]. rewrite <- firstn_map, <- skipn_map, EE. split.
      - rewrite firstn_app, firstn_all, Nat.sub_diag, firstn_O. now rewrite app_nil_r.
      - rewrite skipn_app, skipn_all, Nat.sub_diag. reflexivity. }
    destruct S as (Er & Rr & -> & S1 & S2). assert (FE' : Forall (fun e => haskey k e = true) Er).
    { apply Forall_forall. intros e I. apply (haskey_same k a v Hk). rewrite Forall_forall in FE. apply FE. rewrite <- S1. now apply in_map. }
    assert (FR' : Forall (fun e => haskey k e = false) Rr).
    { apply Forall_forall. intros e I. destruct (haskey k e) eqn:Q; [|reflexivity]. exfalso. apply (haskey_same k a v Hk) in Q. rewrite Forall_forall in FR.
      apply (FR (snd e)); [|exact Q]. rewrite <- S2. now apply in_map. }
    rewrite past_app by assumption. exists (concat L1 ++ X0), ((a, v) :: Er), (Rr ++ concat L2). split; [|split; [|split]].
    + rewrite concat_mid, EX. repeat (rewrite <- app_assoc; cbn [app]). reflexivity.
    + constructor; [exact Hk|exact FE'].
    + repeat (apply Forall_app; split); assumption.
    + cbn [hd]. destruct Rr as [|[b w] Rr]; cbn [hd app].
      * rewrite Z.eqb_refl. replace (len L1 + 1) with (len (L1 ++ [l])) by (unfold len; rewrite app_length; cbn [length]; lia).
        rewrite (scan_from_ok m t (L1 ++ [l]) L2); [reflexivity|]. now rewrite <- app_assoc.
      * assert (b <> 0). { destruct Q2 as (_ & _ & S). apply seg_app in S as [_ S]. now destruct S. }
        destruct (Z.eqb_spec b 0); [contradiction|reflexivity].
Qed.
Theorem equal_range_unique_ok m t L k : rep m t L -> distinct (vals L) -> exists A X B, concat L = A ++ X ++ B /\ Forall (fun e => haskey k e = true) X /\
  Forall (fun e => haskey k e = false) (A ++ B) /\
  equal_range_unique key hashf eqb m t k = Some (if X then 0 else hd X 0, if X then 0 else hd B 0).
Proof.
  intros R D. destruct (rep_bucket key hashf eqb m t L k R) as (L1 & l & L2 & EL & H & E & Q1 & Q2 & Q3 & Q4). subst L.
  destruct (rep_at key hashf eqb m t L1 l L2 R) as (_ & _ & _ & _ & _ & _ & _ & Q8). destruct (other_bucket2 m t L1 l L2 k R E) as [O1 O2].
  unfold equal_range_unique. rewrite H. cbn [obind]. rewrite Q1. cbn [obind]. rewrite find_loop_ok by assumption. cbn [obind].
  destruct (from_split key eqb k l) as [X0 [EX F0]]. destruct (from k l) as [|[a v] r] eqn:F.
  - exists (concat (L1 ++ l :: L2)), [], []. rewrite !app_nil_r. cbn [hd]. rewrite Z.eqb_refl. repeat split; auto. rewrite concat_mid. rewrite app_nil_r in EX. subst X0. repeat (apply Forall_app; split); assumption.
  - pose proof (from_hd key eqb k l a v r F) as Hk. cbn [hd]. rewrite EX in Q2, Q4, Q8. apply seg_app in Q2 as [_ Q2].
    destruct (Z.eqb_spec a 0) as [C|_]; [now destruct Q2|]. rewrite (seg_get m a v r 0 Q2). cbn [obind nxt].
    assert (FR : Forall (fun e => haskey k e = false) r).
    { unfold vals in D. rewrite concat_mid, EX, !map_app in D. cbn [map snd] in D. rewrite <- app_assoc in D. cbn [app] in D.
      assert (D2 : distinct (v :: map snd r ++ map snd (concat L2))).
      { clear - D. revert D. generalize (map snd (concat L1)) as U, (map snd X0) as W. intros U W D. rewrite app_assoc in D. induction (U ++ W) as [|x X IH]; [exact D|]. apply IH. now destruct D. }
      destruct D2 as [D2 _]. apply Forall_app in D2 as [D2 _]. apply Forall_forall. intros e I. destruct (haskey k e) eqn:Q; [|reflexivity]. exfalso.
      rewrite Forall_forall in D2. apply (D2 (snd e)); [now apply in_map|]. now apply (haskey_same k a v Hk). }
    exists (concat L1 ++ X0), [(a, v)], (r ++ concat L2). split; [|split; [|split]].
    + rewrite concat_mid, EX. repeat (rewrite <- app_assoc; cbn [app]). reflexivity.
    + constructor; [exact Hk|constructor].
    + repeat (apply Forall_app; split); assumption.
    + cbn [hd]. destruct r as [|[b w] r]; cbn [hd app].
      * rewrite Z.eqb_refl. replace (len L1 + 1) with (len (L1 ++ [l])) by (unfold len; rewrite app_length; cbn [length]; lia).
        rewrite (scan_from_ok m t (L1 ++ [l]) L2); [reflexivity|]. now rewrite <- app_assoc.
      * assert (b <> 0) by (destruct Q2 as (_ & _ & S); now destruct S). destruct (Z.eqb_spec b 0); [contradiction|reflexivity].
Qed.
End HtLook.
