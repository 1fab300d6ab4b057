(** Red-black trees in memory: walking, erasing and clearing. *)
From Coq Require Import ZArith List Bool Lia Sorted.
From Verif Require Import F64 SortSpec RbModel RbProof RbErase RbUnlink RbClass RbHold RbSpec RbOps RbHint.
Import ListNotations.
Open Scope Z_scope.
Open Scope opt_scope.

Section Proof.
Context {V : Type}.
Notation mem := (@memory V).
Notation nd := (@nd V).
Notation tree := (@tree V).
Notation frame := (@frame V).
Implicit Types (m R : mem) (h p q x y z a : Z) (s c : bool) (v : V) (t l r b : tree) (k : list frame) (e : list (Z * V)) (o : obj).

Lemma head_first h e : head h e = first h e.
Proof. now destruct e as [|[a v] e]. Qed.
(** no address occurs twice, none is the header or null *)
Lemma holds_distinct m R o e z : holds m R o e -> (one 0 z + one (hdr o) z + ac z e <= 1)%nat.
Proof. intros (t & H & Hn & _). pose proof (W_1 _ _ _ _ _ _ _ H z) as D. cbn [kc] in D. rewrite <- Hn, ac_tc. lia. Qed.
Lemma holds_value m R o e1 z v e2 : holds m R o (e1 ++ (z, v) :: e2) -> exists n, get m z = Some n /\ val n = Some v.
Proof.
  intros (t & H & Hn & _). destruct (find_ctx z v t e1 e2 Hn) as (k & c & l & r & -> & _ & _). apply W_plug in H. destruct (W_node _ _ _ _ _ _ H) as (G & _). rewrite G. eexists. split; reflexivity.
Qed.
Theorem begin_ok m R o e : holds m R o e -> begin m o = Some (head (hdr o) e).
Proof. intros (t & H & _). unfold begin. rewrite (W_hdr _ _ H). cbn [obind lft]. reflexivity. Qed.
Theorem inc_at m R o e1 z v e2 : holds m R o (e1 ++ (z, v) :: e2) -> inc (fuel_of o) m z = Some (head (hdr o) e2).
Proof.
  intros (t & H & Hn & B & Hc & _). destruct (find_ctx z v t e1 e2 Hn) as (k & c & l & r & -> & L1 & L2). pose proof (proj2 (W_plug _ _ _ _ _ _ _) H) as H'.
  rewrite L2. apply (inc_ok (fuel_of o) m k z c l v r H'); [now rewrite Hn|]. rewrite Hn. unfold fuel_of. rewrite Hc. lia.
Qed.
Theorem dec_at' m R o e1 z v e2 : holds m R o (e1 ++ (z, v) :: e2) -> e1 <> [] -> exists d w, e1 = d ++ [(final (hdr o) e1, w)] /\ dec (fuel_of o) m z = Some (final (hdr o) e1).
Proof.
  intros (t & H & Hn & B & Hc & _) N1. destruct (final_split (hdr o) e1 N1) as (d & w & Ed). exists d, w. split; [exact Ed|]. exact (dec_at _ _ o _ t e1 z v e2 H Hn B Hc eq_refl N1).
Qed.

(** ** erase *)
Theorem erase_ok m R o e1 z v e2 : holds m R o (e1 ++ (z, v) :: e2) ->
  exists m' o', erase m o z = Some (m', o', head (hdr o) e2) /\ hdr o' = hdr o /\ holds m' R o' (e1 ++ e2).
Proof.
  intros HH. unfold erase. rewrite (inc_at _ _ _ _ _ _ _ HH). cbn [obind]. pose proof HH as (t & H & Hn & B & Hc & HR).
  pose proof (holds_distinct _ _ _ _ z HH) as D. rewrite ac_app in D. cbn [ac] in D. rewrite one_refl in D.
  destruct (find_ctx z v t e1 e2 Hn) as (k & c & l & r & -> & L1 & L2). pose proof (proj2 (W_plug _ _ _ _ _ _ _) H) as H'. subst e1 e2.
  destruct (era_rebalance_ok (fuel_of o) m R (hdr o) k z c l v r) as (m1 & n & T & E1 & H1 & N1 & B1 & V1); [exact H'|exact B|unfold fuel_of; rewrite Hc; lia|]. rewrite E1. cbn [obind].
  set (e1 := lefts k ++ nodes l) in *. set (e2 := nodes r ++ rights k) in *.
  assert (Mz : m1 z = Some n). { rewrite (W_R _ _ _ _ _ _ _ H1); [apply put_eq|]. cbn [kc]. rewrite <- ac_tc, N1, ac_app. lia. }
  assert (Z0 : z <> 0) by (intros ->; rewrite one_refl in D; lia). unfold destroy. rewrite (get_eq _ _ _ Z0 Mz). cbn [obind]. rewrite V1. cbn [obind].
  do 2 eexists. split; [reflexivity|]. split; [reflexivity|]. exists T. cbn [hdr cnt]. split; [|split; [exact N1|split; [exact B1|split]]].
  - apply (W_frame m1 _ _ _ _ _ _ _ _ H1).
    + intros w Hw. unfold free. destruct (Z.eqb_spec w z) as [->|]; [|reflexivity]. cbn [kc] in Hw. rewrite <- ac_tc, N1, ac_app in Hw. lia.
    + intros w Hw. unfold free. destruct (Z.eqb_spec w z) as [->|Q].
      * symmetry. apply HR. rewrite ac_app. cbn [ac]. rewrite one_refl. lia.
      * rewrite (W_R _ _ _ _ _ _ _ H1 w Hw). now apply put_ne.
  - rewrite Hc, !app_length. simpl. lia.
  - intros w Hw. apply HR. rewrite ac_app in *. cbn [ac]. lia.
Qed.

(** ** clear *)
Lemma since_free : forall fuel t m p, rep m p t -> (forall z, (one 0 z + tc z t <= 1)%nat) -> (height t < fuel)%nat ->
  exists m', erase_since fuel m (rt t) = Some m' /\ forall z, m' z = match tc z t with O => m z | _ => None end.
Proof.
  induction fuel as [|fuel IH]; intros t m p H D Hf; [lia|]. destruct t as [|x c l v r]; cbn [erase_since rt].
  - rewrite Z.eqb_refl. exists m. split; reflexivity.
  - destruct H as (Hx & Hl & Hr). simpl in Hf. assert (X0 : x <> 0) by (intros ->; specialize (D 0); cbn [tc] in D; rewrite one_refl in D; lia).
    rewrite (proj2 (Z.eqb_neq _ _) X0), (get_eq _ _ _ X0 Hx). cbn [obind rgt lft].
    pose proof (D x) as Dx. cbn [tc] in Dx. rewrite one_refl in Dx.
    destruct (IH r m x Hr) as (m1 & E1 & F1); [intros z; specialize (D z); cbn [tc] in D; lia|lia|]. rewrite E1. cbn [obind].
    assert (Hx1 : m1 x = m x) by (rewrite F1; replace (tc x r) with 0%nat by lia; reflexivity). rewrite Hx in Hx1. rewrite (get_eq _ _ _ X0 Hx1). cbn [obind rgt lft]. unfold destroy. rewrite (get_eq _ _ _ X0 Hx1). cbn [obind val].
    destruct (IH l (free m1 x) x) as (m2 & E2 & F2).
    + apply (rep_frame m); [|exact Hl]. intros z Hz. pose proof (D z) as Dz. cbn [tc] in Dz. unfold free. destruct (Z.eqb_spec z x) as [->|]; [lia|]. rewrite F1. replace (tc z r) with 0%nat by lia. reflexivity.
    + intros z. specialize (D z). cbn [tc] in D. lia.
    + lia.
    + exists m2. split; [exact E2|]. intros z. rewrite F2. cbn [tc]. unfold free. destruct (Z.eqb_spec z x) as [->|Q].
      * rewrite one_refl. replace (tc x l) with 0%nat by lia. reflexivity.
      * rewrite (one_ne x z) by congruence. rewrite F1. destruct (tc z l) as [|i], (tc z r) as [|j]; reflexivity.
Qed.
Theorem clear_ok m R o e : holds m R o e -> exists m' o', clear m o = Some (m', o') /\ hdr o' = hdr o /\ holds m' R o' [].
Proof.
  intros HH. pose proof HH as (t & H & Hn & B & Hc & HR). unfold clear. destruct (Nat.eqb_spec (cnt o) 0) as [Q|Q].
  - exists m, o. split; [reflexivity|]. split; [reflexivity|]. destruct e; [exact HH|simpl in Hc; congruence].
  - rewrite (W_hdr _ _ H). cbn [obind par top]. pose proof (W_h0 _ _ H) as H0. pose proof H as [Hh _ Ht D HRR]. cbn [kc] in *.
    destruct (since_free (fuel_of o) t m (hdr o) Ht) as (m1 & E1 & F1); [intros z; specialize (D z); cbn [kc] in D; lia|pose proof (height_le t); unfold fuel_of; rewrite Hc, <- Hn; lia|]. rewrite E1. cbn [obind].
    assert (Hh1 : m1 (hdr o) = m (hdr o)) by (rewrite F1; pose proof (D (hdr o)) as Dh; cbn [kc] in Dh; rewrite one_refl in Dh; replace (tc (hdr o) t) with 0%nat by lia; reflexivity). rewrite Hh in Hh1.
    unfold set_lft. rewrite (get_eq _ _ _ H0 Hh1). cbn [obind par lft rgt col val]. unfold set_par. rewrite (get_eq _ _ _ H0 (put_eq _ _ _)). cbn [obind par lft rgt col val]. unfold set_rgt. rewrite (get_eq _ _ _ H0 (put_eq _ _ _)). cbn [obind par lft rgt col val].
    do 2 eexists. split; [reflexivity|]. split; [reflexivity|]. exists E. cbn [hdr cnt]. split; [|split; [reflexivity|split; [split; [reflexivity|exists 0%nat; constructor]|split; [reflexivity|]]]].
    + constructor.
      * rewrite put_eq. reflexivity.
      * exact I.
      * exact I.
      * intros z. specialize (D z). cbn [kc tc] in *. lia.
      * intros z Hz. cbn [kc tc] in Hz. assert (Zh : z <> hdr o) by (intros ->; rewrite one_refl in Hz; lia). rewrite !put_ne by congruence. rewrite F1. destruct (tc z t) as [|j] eqn:QT; [apply HRR; cbn [kc]; lia|]. symmetry. apply HR. rewrite <- Hn, ac_tc. lia.
    + intros z Hz. apply HR. cbn [ac] in Hz. lia.
Qed.

(** ** distance, and erasing a range *)
Lemma neq_head m R o e1 e2 e3 : holds m R o (e1 ++ e2 ++ e3) -> e2 <> [] -> head (hdr o) e3 <> head (hdr o) e2.
Proof.
  intros H N. change (first (hdr o) e3 <> first (hdr o) e2). pose proof (holds_distinct _ _ _ _ (first (hdr o) e2) H) as D. rewrite !ac_app in D. pose proof (@first_in V (hdr o) e2 N) as I2. intros Q. destruct e3 as [|[a v] e3].
  - cbn [first] in Q. rewrite <- Q, one_refl in D. rewrite <- Q in I2. lia.
  - pose proof (@first_in V (hdr o) ((a, v) :: e3) ltac:(discriminate)) as I3. rewrite Q in I3. lia.
Qed.
Lemma distance_ok m R o e3 : forall e2 e1 fuel, holds m R o (e1 ++ e2 ++ e3) -> (length e2 < fuel)%nat ->
  distance fuel m o (head (hdr o) (e2 ++ e3)) (head (hdr o) e3) = Some (length e2).
Proof.
  induction e2 as [|[z v] e2 IH]; intros e1 fuel H Hf; (destruct fuel as [|fuel]; [lia|]); cbn [distance app length].
  - now rewrite Z.eqb_refl.
  - pose proof (neq_head _ _ _ _ _ _ H ltac:(discriminate)) as Q. cbn [head] in *. rewrite (proj2 (Z.eqb_neq _ _)) by congruence. rewrite (inc_at _ _ _ e1 z v (e2 ++ e3) H). cbn [obind].
    rewrite (IH (e1 ++ [(z, v)])); [reflexivity|rewrite <- app_assoc; exact H|simpl in Hf; lia].
Qed.
Lemma erase_loop_ok R e1 e3 : forall e2 fuel m o, holds m R o (e1 ++ e2 ++ e3) -> (length e2 < fuel)%nat ->
  exists m' o', erase_loop fuel m o (head (hdr o) (e2 ++ e3)) (head (hdr o) e3) = Some (m', o') /\ hdr o' = hdr o /\ holds m' R o' (e1 ++ e3).
Proof.
  induction e2 as [|[z v] e2 IH]; intros fuel m o H Hf; (destruct fuel as [|fuel]; [lia|]); cbn [erase_loop app length].
  - rewrite Z.eqb_refl. eauto.
  - pose proof (neq_head _ _ _ _ _ _ H ltac:(discriminate)) as Q. cbn [head] in *. rewrite (proj2 (Z.eqb_neq _ _)) by congruence. rewrite (inc_at _ _ _ e1 z v (e2 ++ e3) H). cbn [obind].
    destruct (erase_ok _ _ _ e1 z v (e2 ++ e3) H) as (m1 & o1 & E1 & O1 & H1). rewrite E1. cbn [obind]. rewrite <- O1. rewrite <- O1 in Q. destruct (IH fuel m1 o1 H1 ltac:(simpl in Hf; lia)) as (m2 & o2 & E2 & O2 & H2). exists m2, o2. split; [exact E2|]. split; [exact O2|exact H2].
Qed.
Theorem erase_range_ok m R o e1 e2 e3 : holds m R o (e1 ++ e2 ++ e3) ->
  exists m' o', erase_range m o (head (hdr o) (e2 ++ e3)) (head (hdr o) e3) = Some (m', o') /\ hdr o' = hdr o /\ holds m' R o' (e1 ++ e3).
Proof.
  intros H. unfold erase_range. rewrite (begin_ok _ _ _ _ H). cbn [obind].
  pose proof H as (_ & _ & _ & _ & Hc & _). destruct (andb _ _) eqn:Q.
  - apply andb_true_iff in Q as [Q1 Q2]. apply Z.eqb_eq in Q1, Q2.
    assert (N3 : e3 = []). { destruct e3 as [|[a v] e3]; [reflexivity|]. exfalso. pose proof (neq_head m R o (e1 ++ e2) ((a, v) :: e3) []) as X. rewrite app_nil_r, <- app_assoc in X. apply X; [exact H|discriminate|]. unfold end_ in Q2. now rewrite Q2. }
    assert (N1 : e1 = []). { assert (C : e1 = [] \/ e1 <> []) by (destruct e1; [auto|right; discriminate]). destruct C as [C|C]; [exact C|]. exfalso. apply (neq_head m R o [] e1 (e2 ++ e3) H C). rewrite Q1. exact (first_app (hdr o) (hdr o) e1 (e2 ++ e3) C). }
    subst. destruct (clear_ok _ _ _ _ H) as (m' & o' & E1 & O1 & H1). exists m', o'. auto.
  - apply erase_loop_ok; [exact H|]. unfold fuel_of. rewrite Hc, !app_length. lia.
Qed.
End Proof.
