(** Client programs over the ordered containers: every operation, every sequence of operations. *)
From Coq Require Import ZArith List Bool Lia Sorted.
From Verif Require Import F64 SortSpec RbModel RbProof RbErase RbUnlink RbClass RbHold RbSpec RbOps RbHint RbDel RbFind RbClient.
Import ListNotations.
Open Scope Z_scope.
Open Scope opt_scope.

Section Run.
Context {K V : Type} (lt : K -> K -> bool) (key : V -> K).
Notation mem := (@memory V).
Implicit Types (m R : mem) (o : obj) (e : list (Z * V)) (a : Z) (v : V) (kk : K) (i j : nat).
Notation step := (step lt key).
Notation mstep := (mstep lt key).
Notation effect := (effect lt key).
Notation meffect := (meffect lt key).
Notation meffects := (meffects lt key).
Notation allowed := (allowed (K := K)).
Hypothesis SW : strict_weak lt.
Notation weakly := (weakly lt key).
Notation strictly := (strictly lt key).
Lemma iter_ok m R o e2 : forall e1, holds m R o (e1 ++ e2) -> iter m o (length e1) = Some (head (hdr o) e2).
Proof.
  intros e1. revert e2. induction e1 as [|[x w] e1 IH] using rev_ind; intros e2 H; cbn [iter length].
  - exact (begin_ok _ _ _ _ H).
  - rewrite app_length. cbn [length]. rewrite Nat.add_1_r. cbn [iter]. rewrite <- app_assoc in H. cbn [app] in H. rewrite (IH _ H). cbn [obind head]. exact (inc_at _ _ _ _ _ _ _ H).
Qed.
Lemma iter_at m R o e i : holds m R o e -> (i <= cnt o)%nat -> iter m o i = Some (head (hdr o) (skipn i e)).
Proof.
  intros H L. pose proof H as (_ & _ & _ & _ & Hc & _). rewrite <- (firstn_skipn i e) in H. rewrite <- (iter_ok _ _ _ _ _ H). f_equal. symmetry. apply firstn_length_le. lia.
Qed.
Lemma walk_ok m R o : forall e2 e1 fuel, holds m R o (e1 ++ e2) -> (length e2 < fuel)%nat -> walk fuel m o (head (hdr o) e2) = Some e2.
Proof.
  induction e2 as [|[x w] e2 IH]; intros e1 fuel H L; (destruct fuel as [|fuel]; [lia|]); cbn [walk head].
  - unfold end_. now rewrite Z.eqb_refl.
  - unfold end_. rewrite (proj2 (Z.eqb_neq _ _) (in_not_hdr _ _ _ _ _ _ _ H)). destruct (holds_value _ _ _ _ _ _ _ H) as (n & -> & Hv). cbn [obind]. rewrite Hv. cbn [obind]. rewrite (inc_at _ _ _ _ _ _ _ H). cbn [obind].
    rewrite (IH (e1 ++ [(x, w)])); [reflexivity|rewrite <- app_assoc; exact H|simpl in L; lia].
Qed.
Theorem contents_ok m R o e : holds m R o e -> contents m o = Some e /\ cnt o = length e.
Proof.
  intros H. pose proof H as (_ & _ & _ & _ & Hc & _). split; [|exact Hc]. unfold contents. rewrite (begin_ok _ _ _ _ H). cbn [obind]. apply (walk_ok m R o e []); [exact H|lia].
Qed.

Lemma skipn_nth {A} (l : list A) i : (i < length l)%nat -> exists u, skipn i l = u :: skipn (S i) l.
Proof. revert i. induction l as [|u l IH]; intros i L; [simpl in L; lia|]. destruct i as [|i]; [exists u; reflexivity|]. simpl in L. destruct (IH i ltac:(lia)) as (u' & Q). exists u'. exact Q. Qed.
Lemma sorted_two {A} (P : A -> A -> Prop) (f1 f2 f3 : list A) : StronglySorted P (f1 ++ f2 ++ f3) -> StronglySorted P (f1 ++ f3).
Proof.
  intros H. apply sorted_app in H as (H1 & H2 & H3). apply sorted_app in H2 as (H4 & H5 & H6). apply sorted_app. split; [exact H1|]. split; [exact H5|]. revert H3. apply Forall_impl. intros u Hu. now apply Forall_app in Hu.
Qed.
Lemma cut3 e i j : (i <= j <= length e)%nat -> e = firstn i e ++ firstn (j - i) (skipn i e) ++ skipn j e.
Proof.
  intros L. rewrite <- (firstn_skipn i e) at 1. f_equal. rewrite <- (firstn_skipn (j - i) (skipn i e)) at 1. f_equal.
  assert (X : forall (a b : nat) (l : list (Z * V)), skipn a (skipn b l) = skipn (b + a) l). { clear. intros a b. revert a. induction b as [|b IH]; intros a l; [reflexivity|]. destruct l; simpl; [now rewrite !skipn_nil|apply IH]. }
  rewrite X. f_equal. lia.
Qed.

Lemma at_ok m R o e i : holds m R o e -> (i < cnt o)%nat ->
  exists m' o', (let* x := iter m o i in let* (m, o, _) := erase m o x in Some (m, o)) = Some (m', o') /\ hdr o' = hdr o /\ holds m' R o' (firstn i e ++ skipn (S i) e).
Proof.
  intros H L. pose proof H as (_ & _ & _ & _ & Hc & _). rewrite (iter_at _ _ _ _ i H) by lia. cbn [obind]. destruct (skipn_nth e i ltac:(lia)) as ([z v] & Q). rewrite <- (firstn_skipn i e), Q in H. rewrite Q. cbn [head].
  destruct (erase_ok _ _ _ _ _ _ _ H) as (m' & o' & E1 & O1 & H1). rewrite E1. cbn [obind]. exists m', o'. auto.
Qed.
Lemma range_ok m R o e i j : holds m R o e -> (i <= j <= cnt o)%nat ->
  exists m' o', (let* x := iter m o i in let* y := iter m o j in erase_range m o x y) = Some (m', o') /\ hdr o' = hdr o /\ holds m' R o' (firstn i e ++ skipn j e).
Proof.
  intros H L. pose proof H as (_ & _ & _ & _ & Hc & _). rewrite (iter_at _ _ _ _ i H), (iter_at _ _ _ _ j H) by lia. cbn [obind]. pose proof (cut3 e i j ltac:(lia)) as Q.
  assert (Q2 : skipn i e = firstn (j - i) (skipn i e) ++ skipn j e) by (rewrite <- (firstn_skipn i e) in Q at 1; now apply app_inv_head in Q).
  rewrite Q2. rewrite Q in H. exact (erase_range_ok _ _ _ _ _ _ H).
Qed.
Lemma step_ok m R o e p : holds m R o e -> strictly e -> allowed m o p ->
  exists m' o', step m o p = Some (m', o') /\ hdr o' = hdr o /\ holds m' R o' (effect e p) /\ strictly (effect e p).
Proof.
  intros H S A. pose proof (strictly_weakly lt key SW e S) as S'. pose proof H as (_ & _ & _ & _ & Hc & _).
  assert (INS : forall a v m' o', holds m' R o' (if has lt key (key v) e then e else added lt key a v e) -> strictly (if has lt key (key v) e then e else added lt key a v e)).
  { intros a v m' o' _. destruct (has lt key (key v) e) eqn:Q; [exact S|now apply added_strictly]. }
  destruct p as [a v|a v|a v i|a v|i|i j|kk|]; cbn [step allowed effect] in *.
  - destruct A as [A0 Ha]. destruct (insert_unique_ok lt key SW m R o e a v H S A0 Ha) as (m' & o' & q & E1 & O1 & H1 & _). rewrite E1. cbn [obind]. eauto 8.
  - destruct A as [A0 Ha]. destruct (emplace_unique_ok lt key SW m R o e a v H S A0 Ha) as (m' & o' & q & E1 & O1 & H1 & _). rewrite E1. cbn [obind]. eauto 8.
  - destruct A as (A0 & Ha & L). rewrite (iter_at _ _ _ _ i H L). cbn [obind]. rewrite <- (firstn_skipn i e) in H, S. destruct (emplace_unique_hint_ok lt key SW m R o _ _ a v H S A0 Ha) as (m' & o' & q & E1 & O1 & H1 & _). rewrite E1. cbn [obind]. rewrite firstn_skipn in H1. eauto 8.
  - destruct A as [A0 Ha]. destruct (map_index_ok lt key SW m R o e a v H S A0 Ha) as (m' & o' & q & E1 & O1 & H1 & _). rewrite E1. cbn [obind]. eauto 8.
  - destruct (at_ok _ _ _ _ i H A) as (m' & o' & E1 & O1 & H1). exists m', o'. split; [exact E1|]. split; [exact O1|]. split; [exact H1|]. destruct (skipn_nth e i ltac:(lia)) as (u & Q). unfold RbSpec.strictly in S. rewrite <- (firstn_skipn i e), Q in S. now apply sorted_del in S.
  - destruct (range_ok _ _ _ _ i j H A) as (m' & o' & E1 & O1 & H1). exists m', o'. split; [exact E1|]. split; [exact O1|]. split; [exact H1|]. unfold RbSpec.strictly in S. rewrite (cut3 e i j ltac:(lia)) in S. now apply sorted_two in S.
  - destruct (erase_unique_ok lt key SW m R o e kk H S) as (m' & o' & E1 & O1 & H1). rewrite E1. cbn [obind]. exists m', o'. split; [reflexivity|]. split; [exact O1|]. split; [exact H1|]. rewrite (other_parts lt key SW kk e S'). unfold RbSpec.strictly in S. rewrite (three lt key SW kk e S') in S. now apply sorted_two in S.
  - destruct (clear_ok _ _ _ _ H) as (m' & o' & E1 & O1 & H1). exists m', o'. repeat split; auto. constructor.
Qed.
Lemma run_ok R : forall ps m o e, holds m R o e -> strictly e -> legal step m o ps ->
  exists m' o', run step m o ps = Some (m', o') /\ hdr o' = hdr o /\ holds m' R o' (fold_left effect ps e) /\ strictly (fold_left effect ps e).
Proof.
  induction ps as [|p ps IH]; intros m o e H S L; cbn [run fold_left]; [exists m, o; auto|]. destruct L as [A L]. destruct (step_ok _ _ _ _ p H S A) as (m1 & o1 & E1 & O1 & H1 & S1). rewrite E1. cbn [obind].
  destruct (IH m1 o1 _ H1 S1 (L _ _ E1)) as (m2 & o2 & E2 & O2 & H2 & S2). exists m2, o2. split; [exact E2|]. split; [congruence|auto].
Qed.
Lemma mstep_ok m R o e p : holds m R o e -> weakly e -> allowed m o p ->
  exists m' o' e', mstep m o p = Some (m', o') /\ hdr o' = hdr o /\ meffect e p e' /\ holds m' R o' e' /\ weakly e'.
Proof.
  intros H S A. pose proof H as (_ & _ & _ & _ & Hc & _).
  destruct p as [a v|a v|a v i|a v|i|i j|kk|]; cbn [mstep allowed] in *.
  - destruct A as [A0 Ha]. destruct (insert_multi_ok lt key SW m R o e a v H S A0 Ha) as (m' & o' & E1 & O1 & H1). rewrite E1. cbn [obind]. exists m', o'. eexists. split; [reflexivity|]. split; [exact O1|]. split; [constructor|]. split; [exact H1|now apply added_weakly].
  - destruct A as [A0 Ha]. destruct (emplace_multi_ok lt key SW m R o e a v H S A0 Ha) as (m' & o' & E1 & O1 & H1). rewrite E1. cbn [obind]. exists m', o'. eexists. split; [reflexivity|]. split; [exact O1|]. split; [constructor|]. split; [exact H1|now apply added_weakly].
  - destruct A as (A0 & Ha & L). rewrite (iter_at _ _ _ _ i H L). cbn [obind]. rewrite <- (firstn_skipn i e) in H, S. destruct (emplace_multi_hint_ok lt key SW m R o _ _ a v H S A0 Ha) as (m' & o' & f1 & f2 & E1 & O1 & Q & H1 & S1). rewrite E1. cbn [obind]. rewrite firstn_skipn in Q.
    exists m', o', (f1 ++ (a, v) :: f2). split; [reflexivity|]. split; [exact O1|]. split; [now constructor|]. auto.
  - destruct A as [A0 Ha]. destruct (emplace_multi_ok lt key SW m R o e a v H S A0 Ha) as (m' & o' & E1 & O1 & H1). rewrite E1. cbn [obind]. exists m', o'. eexists. split; [reflexivity|]. split; [exact O1|]. split; [constructor|]. split; [exact H1|now apply added_weakly].
  - destruct (at_ok _ _ _ _ i H A) as (m' & o' & E1 & O1 & H1). exists m', o'. eexists. split; [exact E1|]. split; [exact O1|]. split; [constructor|]. split; [exact H1|]. destruct (skipn_nth e i ltac:(lia)) as (u & Q). unfold RbSpec.weakly in S. rewrite <- (firstn_skipn i e), Q in S. now apply sorted_del in S.
  - destruct (range_ok _ _ _ _ i j H A) as (m' & o' & E1 & O1 & H1). exists m', o'. eexists. split; [exact E1|]. split; [exact O1|]. split; [constructor|]. split; [exact H1|]. unfold RbSpec.weakly in S. rewrite (cut3 e i j ltac:(lia)) in S. now apply sorted_two in S.
  - destruct (erase_multi_ok lt key SW m R o e kk H S) as (m' & o' & E1 & O1 & H1). rewrite E1. cbn [obind]. exists m', o'. eexists. split; [reflexivity|]. split; [exact O1|]. split; [constructor|]. split; [exact H1|]. rewrite (other_parts lt key SW kk e S). unfold RbSpec.weakly in S. rewrite (three lt key SW kk e S) in S. now apply sorted_two in S.
  - destruct (clear_ok _ _ _ _ H) as (m' & o' & E1 & O1 & H1). exists m', o', []. repeat split; auto; constructor.
Qed.
Lemma mrun_ok R : forall ps m o e, holds m R o e -> weakly e -> legal mstep m o ps ->
  exists m' o' e', run mstep m o ps = Some (m', o') /\ hdr o' = hdr o /\ meffects e ps e' /\ holds m' R o' e' /\ weakly e'.
Proof.
  induction ps as [|p ps IH]; intros m o e H S L; cbn [run]; [exists m, o, e; repeat split; auto; constructor|]. destruct L as [A L]. destruct (mstep_ok _ _ _ _ p H S A) as (m1 & o1 & e1 & E1 & O1 & M1 & H1 & S1). rewrite E1. cbn [obind].
  destruct (IH m1 o1 _ H1 S1 (L _ _ E1)) as (m2 & o2 & e2 & E2 & O2 & M2 & H2 & S2). exists m2, o2, e2. split; [exact E2|]. split; [congruence|]. split; [econstructor; eassumption|auto].
Qed.
End Run.
