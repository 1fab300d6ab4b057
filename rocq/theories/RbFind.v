(** Red-black trees in memory: searching, counting, erasing by key, the operations of map; the number of steps. *)
From Coq Require Import ZArith List Bool Lia Sorted PeanoNat.
From Verif Require Import F64 SortSpec RbModel RbProof RbErase RbUnlink RbClass RbHold RbSpec RbOps RbHint RbDel.
Import ListNotations.
Open Scope Z_scope.
Open Scope opt_scope.

Section Proof.
Context {V : Type}.
Notation mem := (@memory V).
Notation nd := (@nd V).
Notation tree := (@tree V).
Notation frame := (@frame V).
Implicit Types (m R : mem) (h p q x y z a : Z) (s c : bool) (v : V) (t l r b : tree) (k : list frame) (e : list (Z * V)) (o : obj).

(** ** height *)
Lemma bal_height t : forall n, bal t n -> (height t <= 2 * n + (if blk t then 0 else 1))%nat.
Proof.
  induction t as [|x c l IHl v r IHr]; intros n B; cbn [height blk].
  - simpl in B. subst n. simpl. lia.
  - destruct c; cbn [bal] in B.
    + destruct n as [|n]; [contradiction|]. destruct B as [B1 B2]. apply IHl in B1. apply IHr in B2. destruct (blk l), (blk r); lia.
    + destruct B as (Q1 & Q2 & B1 & B2). apply IHl in B1. apply IHr in B2. rewrite Q1 in B1. rewrite Q2 in B2. lia.
Qed.
Lemma bal_size t : forall n, bal t n -> (2 ^ n <= S (length (nodes t)))%nat.
Proof.
  induction t as [|x c l IHl v r IHr]; intros n B; cbn [nodes].
  - simpl in B. subst n. simpl. lia.
  - rewrite app_length. cbn [length]. destruct c; cbn [bal] in B.
    + destruct n as [|n]; [contradiction|]. destruct B as [B1 B2]. apply IHl in B1. apply IHr in B2. rewrite Nat.pow_succ_r'. lia.
    + destruct B as (Q1 & Q2 & B1 & B2). apply IHl in B1. apply IHr in B2. lia.
Qed.
(** no node is deeper than twice the logarithm of the number of nodes *)
Theorem height_log t : rbtree t -> (height t <= 2 * Nat.log2 (S (length (nodes t))))%nat.
Proof.
  intros (Q & n & B). pose proof (bal_height t n B) as H1. rewrite Q in H1. pose proof (bal_size t n B) as H2. assert (n <= Nat.log2 (S (length (nodes t))))%nat by (apply Nat.log2_le_pow2; lia). lia.
Qed.

Context {K : Type} (lt : K -> K -> bool) (key : V -> K).
Hypothesis SW : strict_weak lt.
Notation weakly := (weakly lt key).
Notation strictly := (strictly lt key).
Notation keyof := (keyof key).
Notation added := (added lt key).
Notation has := (has lt key).
Notation below := (below lt key).
Notation since := (since lt key).
Notation above := (above lt key).
Notation upto := (upto lt key).
Notation same := (same lt key).
Notation other := (other lt key).
Implicit Types (kk : K).

(** ** the three parts of an ordered sequence *)
Lemma filter_filter {A} (f g : A -> bool) : forall l : list A, filter f (filter g l) = filter (fun u => f u && g u) l.
Proof. induction l as [|u l IH]; simpl; [reflexivity|]. destruct (g u); simpl; destruct (f u); simpl; now rewrite IH. Qed.
Lemma split_below kk e : weakly e -> e = below kk e ++ since kk e.
Proof.
  intros H. destruct (weak_below lt key SW kk e H) as (e1 & e2 & -> & F1 & F2). unfold RbSpec.below, RbSpec.since. rewrite !filter_app.
  rewrite (filter_all (fun u => lt (keyof u) kk) e1) by exact F1. rewrite (filter_none (fun u => lt (keyof u) kk) e2) by exact F2.
  rewrite (filter_none (fun u => negb (lt (keyof u) kk)) e1), (filter_all (fun u => negb (lt (keyof u) kk)) e2); [now rewrite app_nil_r|revert F2|revert F1]; apply Forall_impl; intros u Q; change (lt (keyof u) kk = true) in Q || change (lt (keyof u) kk = false) in Q; now rewrite Q.
Qed.
Lemma since_same kk e : weakly e -> since kk e = same kk e ++ above kk e.
Proof.
  intros H. assert (S2 : weakly (since kk e)) by (rewrite (split_below kk e H) in H; now apply sorted_app in H).
  rewrite (split_weak lt key SW kk _ S2) at 1. unfold RbSpec.upto, RbSpec.above, RbSpec.since, RbSpec.same. rewrite !filter_filter. f_equal; apply filter_ext; intros u.
  - unfold equiv. apply andb_comm.
  - destruct (lt kk (keyof u)) eqn:Q; [|reflexivity]. rewrite (lt_asym lt SW _ _ Q). reflexivity.
Qed.
Lemma three kk e : weakly e -> e = below kk e ++ same kk e ++ above kk e.
Proof. intros H. rewrite <- since_same by exact H. now apply split_below. Qed.
Lemma other_parts kk e : weakly e -> other kk e = below kk e ++ above kk e.
Proof.
  intros H. rewrite (three kk e H) at 1. unfold RbSpec.other. rewrite !filter_app. f_equal; [|rewrite filter_none; [apply filter_all|]].
  - apply filter_all. apply Forall_forall. intros u Hu. apply filter_In in Hu as [_ Hu]. unfold equiv. now rewrite Hu.
  - apply Forall_forall. intros u Hu. apply filter_In in Hu as [_ Hu]. unfold equiv. rewrite Hu. now rewrite andb_false_r.
  - apply Forall_forall. intros u Hu. apply filter_In in Hu as [_ Hu]. now rewrite Hu.
Qed.
Lemma same_one kk e : strictly e -> (length (same kk e) <= 1)%nat.
Proof.
  intros H. unfold RbSpec.same. assert (S2 : strictly (filter (equiv lt key kk) e)).
  { induction H as [|u e H IH F]; simpl; [constructor|]. destruct (equiv lt key kk u); [|exact IH]. constructor; [exact IH|]. apply Forall_forall. intros w Hw. apply filter_In in Hw as [Hw _]. rewrite Forall_forall in F. auto. }
  destruct (filter (equiv lt key kk) e) as [|u1 [|u2 e']] eqn:Q; [simpl; lia|simpl; lia|]. exfalso.
  assert (I1 : In u1 (filter (equiv lt key kk) e)) by (rewrite Q; left; reflexivity). assert (I2 : In u2 (filter (equiv lt key kk) e)) by (rewrite Q; right; left; reflexivity).
  apply filter_In in I1 as [_ I1]. apply filter_In in I2 as [_ I2]. apply andb_true_iff in I1 as [A1 A2]. apply andb_true_iff in I2 as [B1 B2]. apply negb_true_iff in A1, A2, B1, B2.
  inversion S2 as [|? ? _ F]; subst. inversion F as [|? ? X _]; subst. destruct (sw_neg _ SW _ kk _ X); congruence.
Qed.
Lemma has_same kk e : has kk e = false <-> same kk e = [].
Proof.
  unfold RbSpec.has, RbSpec.same. induction e as [|u e IH]; simpl; [tauto|]. destruct (equiv lt key kk u); simpl; [split; discriminate|exact IH].
Qed.

(** ** searching *)
Lemma root_of m R o e : holds m R o e -> exists t, get m (hdr o) = Some (mkNd (rt t) (first (hdr o) e) (final (hdr o) e) (Some false) None) /\
  W m R (hdr o) (first (hdr o) e) (final (hdr o) e) [] t /\ nodes t = e /\ rbtree t /\ cnt o = length e.
Proof. intros (t & H & Hn & B & Hc & _). exists t. split; [exact (W_hdr _ _ H)|auto]. Qed.
(** as many steps as the fuel says are enough *)
Theorem low_steps m R o e kk fuel : holds m R o e -> weakly e -> (2 * Nat.log2 (S (cnt o)) < fuel)%nat ->
  exists hd, get m (hdr o) = Some hd /\ low_loop lt key fuel m kk (par hd) (hdr o) = Some (head (hdr o) (since kk e)).
Proof.
  intros HH S Hf. destruct (root_of _ _ _ _ HH) as (t & G & H & Hn & B & Hc). eexists. split; [exact G|]. cbn [par].
  destruct (low_ok lt key kk m fuel t [] H) as (k & E1 & Hk & Bd); [rewrite Hn; now apply weak_below|apply border_nil|pose proof (height_log t B); rewrite Hn, <- Hc in *; lia|].
  cbn [rights first] in E1. rewrite E1. cbn [plug] in Hk. subst t. rewrite plug_nodes in Hn. simpl in Hn. apply border_below in Bd as [_ Bd]. rewrite Hn in Bd. now rewrite Bd.
Qed.
Theorem upp_steps m R o e kk fuel : holds m R o e -> weakly e -> (2 * Nat.log2 (S (cnt o)) < fuel)%nat ->
  exists hd, get m (hdr o) = Some hd /\ upp_loop lt key fuel m kk (par hd) (hdr o) = Some (head (hdr o) (above kk e)).
Proof.
  intros HH S Hf. destruct (root_of _ _ _ _ HH) as (t & G & H & Hn & B & Hc). eexists. split; [exact G|]. cbn [par].
  destruct (upp_ok lt key kk m fuel t [] H) as (k & E1 & Hk & Bd); [rewrite Hn; now apply weak_upto|apply border_nil|pose proof (height_log t B); rewrite Hn, <- Hc in *; lia|].
  cbn [rights first] in E1. rewrite E1. cbn [plug] in Hk. subst t. rewrite plug_nodes in Hn. simpl in Hn. apply border_upto in Bd as [_ Bd]. rewrite Hn in Bd. now rewrite Bd.
Qed.
Theorem pos_steps m R o e kk fuel : holds m R o e -> weakly e -> (2 * Nat.log2 (S (cnt o)) < fuel)%nat ->
  exists hd, get m (hdr o) = Some hd /\ pos_loop lt key fuel m kk (par hd) (hdr o) true = multi_pos lt key m o kk.
Proof.
  intros HH S Hf. destruct (root_of _ _ _ _ HH) as (t & G & H & Hn & B & Hc). eexists. split; [exact G|]. unfold multi_pos. rewrite G. cbn [obind par].
  assert (MONO : forall f1 f2 x y c (u1 : Z * bool), (f1 <= f2)%nat -> pos_loop lt key f1 m kk x y c = Some u1 -> pos_loop lt key f2 m kk x y c = Some u1).
  { clear. induction f1 as [|f1 IH]; intros f2 x y c u1 L E1; [discriminate|]. destruct f2 as [|f2]; [lia|]. cbn [pos_loop] in *. destruct (x =? 0); [exact E1|].
    destruct (keyat key m x) as [kx|]; [|discriminate]. cbn [obind] in *. destruct (get m x) as [n|]; [|discriminate]. cbn [obind] in *. cbv zeta in *. apply IH; [lia|exact E1]. }
  set (g := Datatypes.S (2 * Nat.log2 (Datatypes.S (cnt o)))). 
  assert (X : exists u1, pos_loop lt key g m kk (rt t) (hdr o) true = Some u1).
  { destruct (pos_ok lt key kk m g t [] H) as (k & E1 & _); [rewrite Hn; now apply weak_upto|apply border_nil|pose proof (height_log t B); rewrite Hn, <- Hc in *; unfold g; lia|]. eexists. exact E1. }
  destruct X as (u1 & E1). rewrite (MONO g fuel _ _ _ u1); [|unfold g; lia|exact E1]. symmetry. apply (MONO g); [|exact E1].
  unfold g, fuel_of. pose proof (Nat.log2_lt_lin (Datatypes.S (cnt o)) ltac:(lia)). lia.
Qed.
Lemma log_fuel o : (2 * Nat.log2 (S (cnt o)) < fuel_of o)%nat.
Proof. unfold fuel_of. pose proof (Nat.log2_lt_lin (S (cnt o)) ltac:(lia)). lia. Qed.
Theorem lower_bound_ok m R o e kk : holds m R o e -> weakly e -> lower_bound lt key m o kk = Some (head (hdr o) (since kk e)).
Proof. intros H S. unfold lower_bound. destruct (low_steps _ _ _ _ kk (fuel_of o) H S (log_fuel o)) as (hd & -> & E1). exact E1. Qed.
Theorem upper_bound_ok m R o e kk : holds m R o e -> weakly e -> upper_bound lt key m o kk = Some (head (hdr o) (above kk e)).
Proof. intros H S. unfold upper_bound. destruct (upp_steps _ _ _ _ kk (fuel_of o) H S (log_fuel o)) as (hd & -> & E1). exact E1. Qed.
Lemma in_not_hdr m R o e1 z v e2 : holds m R o (e1 ++ (z, v) :: e2) -> z <> hdr o.
Proof. intros H ->. pose proof (holds_distinct _ _ _ _ (hdr o) H) as D. rewrite ac_app in D. cbn [ac] in D. rewrite !one_refl in D. lia. Qed.
Lemma keyat_holds m R o e1 z v e2 : holds m R o (e1 ++ (z, v) :: e2) -> keyat key m z = Some (key v).
Proof. intros (t & H & Hn & _). exact (keyat_in key _ _ _ _ _ _ _ _ _ _ H Hn). Qed.
Theorem find_ok m R o e kk : holds m R o e -> weakly e -> find lt key m o kk = Some (head (hdr o) (same kk e)).
Proof.
  intros H S. unfold find. rewrite (lower_bound_ok _ _ _ _ kk H S). cbn [obind]. pose proof (since_same kk e S) as X. pose proof (split_below kk e S) as Y. destruct (since kk e) as [|[j w] e2] eqn:Q.
  - symmetry in X. apply app_eq_nil in X as [X _]. rewrite X. unfold end_. cbn [head]. now rewrite Z.eqb_refl.
  - cbn [head]. rewrite Y in H. unfold end_. rewrite (proj2 (Z.eqb_neq _ _) (in_not_hdr _ _ _ _ _ _ _ H)). rewrite (keyat_holds _ _ _ _ _ _ _ H). cbn [obind].
    assert (I : In (j, w) (since kk e)) by (rewrite Q; left; reflexivity). apply filter_In in I as [_ I]. apply negb_true_iff in I. change (lt (key w) kk = false) in I.
    destruct (lt kk (key w)) eqn:L.
    + destruct (same kk e) as [|[j' w'] e'] eqn:Z; [reflexivity|]. exfalso. simpl in X. injection X as <- <- _. assert (J : In (j, w) (same kk e)) by (rewrite Z; left; reflexivity). apply filter_In in J as [_ J]. apply andb_true_iff in J as [_ J]. apply negb_true_iff in J. change (lt kk (key w) = false) in J. congruence.
    + destruct (same kk e) as [|[j' w'] e'] eqn:Z; [|simpl in X; injection X as <- <- _; reflexivity]. exfalso. simpl in X. assert (J : In (j, w) (above kk e)) by (rewrite <- X; left; reflexivity). apply filter_In in J as [_ J]. change (lt kk (key w) = true) in J. congruence.
Qed.
Theorem count_multi_ok m R o e kk : holds m R o e -> weakly e -> count_multi lt key m o kk = Some (length (same kk e)).
Proof.
  intros H S. unfold count_multi. rewrite (lower_bound_ok _ _ _ _ kk H S), (upper_bound_ok _ _ _ _ kk H S). cbn [obind]. rewrite (since_same kk e S). pose proof H as (_ & _ & _ & _ & Hc & _).
  rewrite (three kk e S) in H. apply (distance_ok m R o (above kk e) (same kk e) (below kk e)); [exact H|]. unfold fuel_of. rewrite Hc. assert (L : (length (same kk e) <= length e)%nat) by (rewrite (three kk e S) at 2; rewrite !app_length; lia). lia.
Qed.
Theorem count_unique_ok m R o e kk : holds m R o e -> strictly e -> count_unique lt key m o kk = Some (length (same kk e)).
Proof.
  intros H S. pose proof (strictly_weakly lt key SW e S) as S'. unfold count_unique. rewrite (find_ok _ _ _ _ kk H S'). cbn [obind]. pose proof (same_one kk e S) as L. rewrite (three kk e S') in H. destruct (same kk e) as [|[j w] [|u e2]]; [|simpl app in H|simpl in L; lia].
  - cbn [head]. unfold end_. now rewrite Z.eqb_refl.
  - cbn [head]. unfold end_. now rewrite (proj2 (Z.eqb_neq _ _) (in_not_hdr _ _ _ _ _ _ _ H)).
Qed.
Theorem erase_multi_ok m R o e kk : holds m R o e -> weakly e ->
  exists m' o', erase_multi lt key m o kk = Some (m', o', length (same kk e)) /\ hdr o' = hdr o /\ holds m' R o' (other kk e).
Proof.
  intros H S. pose proof (count_multi_ok _ _ _ _ kk H S) as C. unfold count_multi in C. unfold erase_multi. rewrite (lower_bound_ok _ _ _ _ kk H S), (upper_bound_ok _ _ _ _ kk H S) in *. cbn [obind] in *. rewrite C. cbn [obind].
  rewrite (other_parts kk e S), (since_same kk e S). rewrite (three kk e S) in H. destruct (erase_range_ok _ _ _ _ _ _ H) as (m' & o' & E1 & O1 & H1). rewrite E1. cbn [obind]. exists m', o'. auto.
Qed.
Theorem erase_unique_ok m R o e kk : holds m R o e -> strictly e ->
  exists m' o', erase_unique lt key m o kk = Some (m', o', length (same kk e)) /\ hdr o' = hdr o /\ holds m' R o' (other kk e).
Proof.
  intros H S. pose proof (strictly_weakly lt key SW e S) as S'. unfold erase_unique. rewrite (find_ok _ _ _ _ kk H S'). cbn [obind]. pose proof (same_one kk e S) as L. rewrite (other_parts kk e S'). rewrite (three kk e S') in H. destruct (same kk e) as [|[j w] [|u e2]]; [|simpl app in H|simpl in L; lia].
  - cbn [head]. unfold end_. rewrite Z.eqb_refl. cbn [negb]. exists m, o. auto.
  - cbn [head]. unfold end_. rewrite (proj2 (Z.eqb_neq _ _) (in_not_hdr _ _ _ _ _ _ _ H)). cbn [negb]. destruct (erase_ok _ _ _ _ _ _ _ H) as (m' & o' & E1 & O1 & H1). rewrite E1. cbn [obind]. exists m', o'. auto.
Qed.

(** ** map *)
Theorem map_at_ok m R o e kk j w e2 : holds m R o e -> weakly e -> same kk e = (j, w) :: e2 -> map_at lt key m o kk = Some w.
Proof.
  intros H S Q. unfold map_at. rewrite (lower_bound_ok _ _ _ _ kk H S). cbn [obind]. rewrite (since_same kk e S), Q. cbn [app head]. assert (J : In (j, w) (same kk e)) by (rewrite Q; left; reflexivity).
  rewrite (three kk e S), Q in H. simpl app in H. unfold end_. rewrite (proj2 (Z.eqb_neq _ _) (in_not_hdr _ _ _ _ _ _ _ H)). rewrite (keyat_holds _ _ _ _ _ _ _ H). cbn [obind].
  apply filter_In in J as [_ J]. apply andb_true_iff in J as [J _]. apply negb_true_iff in J. change (lt (key w) kk = false) in J. rewrite J. destruct (holds_value _ _ _ _ _ _ _ H) as (n & -> & Hv). exact Hv.
Qed.
Theorem map_index_ok m R o e a v0 : holds m R o e -> strictly e -> a <> 0 -> m a = None ->
  exists m' o' p, map_index lt key m o a (key v0) v0 = Some (m', o', p) /\ hdr o' = hdr o /\ holds m' R o' (if has (key v0) e then e else added a v0 e) /\
    p = head a (same (key v0) e).
Proof.
  intros H S A0 Ha. set (kk := key v0). pose proof (strictly_weakly lt key SW e S) as S'. unfold map_index. rewrite (lower_bound_ok _ _ _ _ kk H S'). cbn [obind]. pose proof (since_same kk e S') as X. pose proof (split_below kk e S') as Y.
  assert (INS : same kk e = [] -> exists m' o' p, emplace_unique_hint lt key m o a v0 (head (hdr o) (since kk e)) = Some (m', o', p) /\ hdr o' = hdr o /\ holds m' R o' (if has kk e then e else added a v0 e) /\ p = head a (same kk e)).
  { intros Q. apply has_same in Q as Q'. rewrite Y in H, S. destruct (emplace_unique_hint_ok lt key SW m R o _ _ a v0 H S A0 Ha) as (m' & o' & p & E1 & O1 & H1 & P1). rewrite <- Y in H1, P1. exists m', o', p. rewrite Q. cbn [head]. fold kk in H1, P1. auto. }
  destruct (since kk e) as [|[j w] e2] eqn:Q.
  - cbn [head] in *. unfold end_. rewrite Z.eqb_refl. cbn [obind]. apply INS. symmetry in X. now apply app_eq_nil in X.
  - cbn [head] in *. pose proof H as H'. rewrite Y in H'. unfold end_. rewrite (proj2 (Z.eqb_neq _ _) (in_not_hdr _ _ _ _ _ _ _ H')). rewrite (keyat_holds _ _ _ _ _ _ _ H'). cbn [obind].
    destruct (lt kk (key w)) eqn:L; [apply INS|].
    + destruct (same kk e) as [|[j' w'] e'] eqn:Z; [reflexivity|]. exfalso. simpl in X. injection X as <- <- _. assert (J : In (j, w) (same kk e)) by (rewrite Z; left; reflexivity). apply filter_In in J as [_ J]. apply andb_true_iff in J as [_ J]. apply negb_true_iff in J. change (lt kk (key w) = false) in J. congruence.
    + exists m, o, j. destruct (same kk e) as [|[j' w'] e'] eqn:Z.
      * exfalso. simpl in X. assert (J : In (j, w) (above kk e)) by (rewrite <- X; left; reflexivity). apply filter_In in J as [_ J]. change (lt kk (key w) = true) in J. congruence.
      * simpl in X. injection X as <- <- _. destruct (has kk e) eqn:Hh; [auto|]. apply has_same in Hh. rewrite Hh in Z. discriminate.
Qed.

(** ** ranges *)
Fixpoint added_all e (q : list (Z * V)) : list (Z * V) :=
  match q with [] => e | (a, v) :: q => added_all (if has (key v) e then e else added a v e) q end.
Lemma holds_fresh m R o e a : holds m R o e -> m a = None -> a <> 0 -> R a = None /\ a <> hdr o /\ ac a e = 0%nat.
Proof.
  intros (t & H & Hn & _) Ha A0. destruct (W_out _ _ _ _ _ _ _ H Ha) as [Q1 Q2]. split; [|split; [exact Q1|rewrite <- Hn, ac_tc; exact Q2]].
  rewrite <- (W_R _ _ _ _ _ _ _ H); [exact Ha|]. rewrite (one_ne 0 a), (one_ne (hdr o) a) by congruence. cbn [kc]. lia.
Qed.
Lemma holds_free m R o e a : holds m R o e -> R a = None -> a <> 0 -> a <> hdr o -> ac a e = 0%nat -> m a = None.
Proof.
  intros (t & H & Hn & _) Ha A0 Ah An. rewrite (W_R _ _ _ _ _ _ _ H); [exact Ha|]. rewrite (one_ne 0 a), (one_ne (hdr o) a) by congruence. cbn [kc]. rewrite <- ac_tc, Hn. lia.
Qed.
Lemma ac_filter f z e : (ac z (filter f e) <= ac z e)%nat.
Proof. induction e as [|[x v] e IH]; simpl; [lia|]. destruct (f (x, v)); simpl; lia. Qed.
Lemma ac_added z a v e : weakly e -> ac z (added a v e) = (one a z + ac z e)%nat.
Proof. intros S. unfold RbSpec.added. rewrite ac_app. cbn [ac]. rewrite (split_weak lt key SW (key v) e S) at 3. rewrite ac_app. lia. Qed.
Theorem insert_range_ok R : forall (q : list (Z * V)) m o e, holds m R o e -> strictly e -> Forall (fun u => fst u <> 0 /\ m (fst u) = None) q -> NoDup (map fst q) ->
  exists m' o', insert_range lt key m o q = Some (m', o') /\ hdr o' = hdr o /\ holds m' R o' (added_all e q) /\ strictly (added_all e q).
Proof.
  induction q as [|[a v] q IH]; intros m o e H S F D; cbn [insert_range added_all]; [exists m, o; auto|].
  inversion F as [|? ? [A0 Ha] F2]; subst. cbn [fst] in *. simpl in D. inversion D as [|? ? N2 D2]; subst.
  pose proof (emplace_unique_hint_ok lt key SW m R o e [] a v) as X. cbv zeta in X. rewrite app_nil_r in X. destruct (X H S A0 Ha) as (m1 & o1 & p & E1 & O1 & H1 & P1). cbn [head] in E1. unfold end_. rewrite E1. cbn [obind].
  destruct (IH m1 o1 _ H1) as (m2 & o2 & E2 & O2 & H2 & S2).
  - destruct (has (key v) e) eqn:Q; [exact S|]. now apply added_strictly.
  - rewrite Forall_forall in *. intros [a' v'] I. specialize (F2 _ I) as [A' M']. cbn [fst] in *. split; [exact A'|].
    destruct (holds_fresh _ _ _ _ _ H M' A') as (R1 & R2 & R3). apply (holds_free _ _ _ _ _ H1 R1 A'); [now rewrite O1|]. destruct (has (key v) e); [exact R3|]. rewrite ac_added by (now apply strictly_weakly). rewrite one_ne; [lia|]. intros <-. apply N2. apply in_map_iff. exists (a, v'). auto.
  - exact D2.
  - exists m2, o2. split; [exact E2|]. split; [congruence|]. auto.
Qed.
End Proof.
