(** remove, replace, unique, partition (C78) and is_permutation (C79) *)
From Coq Require Import ZArith List Bool Lia Permutation Sorted.
From Verif Require Import F64 ArrModel ArrLib SortSpec RotProof SetProps SeqModel SeqProof SeqProps.
Import ListNotations.
Open Scope Z_scope.

(** the first elements of the maximal runs of equal elements *)
Inductive heads_of {A} (eqb : A -> A -> bool) : list A -> list A -> Prop :=
| heads_nil : heads_of eqb [] []
| heads_run x g r hs : Forall (fun y => eqb x y = true) g -> (forall y r', r = y :: r' -> eqb x y = false) -> heads_of eqb r hs ->
    heads_of eqb (x :: g ++ r) (x :: hs).

Section Props.
Context {A : Type}.
Implicit Types (p l q s d e j : list A) (pred : A -> bool) (eqb : A -> A -> bool) (x y v w : A).

Definition keep pred l := filter (fun x => negb (pred x)) l.
Lemma remove_copy_if_ok pred l : forall fuel p j s first last result, result = len p -> first = len p + len j -> last = first + len l -> (length l < fuel)%nat ->
  remove_copy_if fuel pred (p ++ j ++ l ++ s) first last result =
  Some (p ++ keep pred l ++ skipn (length (keep pred l)) (j ++ l) ++ s, len p + len (keep pred l)).
Proof.
  induction l as [|x l IH]; intros fuel p j s first last result Er Ef El Hf; (destruct fuel as [|fuel]; [simpl length in Hf; lia|]); cbn [remove_copy_if].
  - replace (first =? last) with true by (symmetry; apply Z.eqb_eq; simpl in El; lia). subst. simpl. rewrite app_nil_r. f_equal. f_equal. lia.
  - replace (first =? last) with false by (symmetry; apply Z.eqb_neq; simpl length in El; lia).
    assert (R : rd (p ++ j ++ (x :: l) ++ s) first = Some x).
    { replace (p ++ j ++ (x :: l) ++ s) with ((p ++ j) ++ x :: l ++ s) by (rewrite <- app_assoc; reflexivity). apply rd_at. rewrite app_length. lia. }
    rewrite R. cbn [obind]. unfold keep in *. simpl filter. destruct (pred x) eqn:P; cbn [negb].
    + replace (p ++ j ++ (x :: l) ++ s) with (p ++ (j ++ [x]) ++ l ++ s) by (rewrite <- !app_assoc; reflexivity).
      rewrite (IH fuel p (j ++ [x]) s) by (rewrite ?app_length; simpl length in *; lia). rewrite <- app_assoc. reflexivity.
    + destruct j as [|u j].
      * simpl app. rewrite wr_at by exact Er. cbn [obind].
        replace (p ++ x :: l ++ s) with ((p ++ [x]) ++ [] ++ l ++ s) by (rewrite <- app_assoc; reflexivity).
        rewrite (IH fuel (p ++ [x]) [] s) by (rewrite ?app_length; simpl length in *; lia). simpl app. simpl skipn. rewrite <- app_assoc. simpl app. f_equal. f_equal.
        rewrite app_length. simpl length. lia.
      * simpl app. rewrite wr_at by exact Er. cbn [obind].
        replace (p ++ x :: j ++ x :: l ++ s) with ((p ++ [x]) ++ (j ++ [x]) ++ l ++ s) by (rewrite <- !app_assoc; reflexivity).
        rewrite (IH fuel (p ++ [x]) (j ++ [x]) s) by (rewrite ?app_length; simpl length in *; lia). simpl skipn. rewrite <- !app_assoc. simpl app. f_equal. f_equal.
        rewrite app_length. simpl length. lia.
Qed.
Lemma keep_all pred l : Forall (fun x => pred x = false) l -> keep pred l = l.
Proof. unfold keep. induction 1 as [|x l P _ IH]; simpl; [reflexivity|]. now rewrite P, IH. Qed.
(** C78: remove and remove_if move the elements that stay to the front, in their order, and return their end; behind it the old elements are left *)
Theorem C78_remove_if pred p l s :
  remove_if pred (p ++ l ++ s) (len p) (len p + len l) =
  Some (p ++ (filter (fun x => negb (pred x)) l ++ skipn (length (filter (fun x => negb (pred x)) l)) l) ++ s, len p + len (filter (fun x => negb (pred x)) l)).
Proof.
  fold (keep pred l). unfold remove_if. replace (len p + len l - len p) with (len l) by lia. rewrite Nat2Z.id.
  destruct (C77_find_if pred p l s) as (l1 & l2 & El & F & H & E). rewrite E. cbn [obind]. subst l.
  assert (K : keep pred (l1 ++ l2) = l1 ++ keep pred l2) by (unfold keep; rewrite filter_app; f_equal; now apply keep_all).
  rewrite K. destruct H as [->|(x & r & -> & P)].
  - rewrite app_nil_r. replace (len p + len l1 =? len p + len l1) with true by (symmetry; apply Z.eqb_refl). simpl keep. rewrite app_nil_r, skipn_all, app_nil_r. reflexivity.
  - replace (len p + len l1 =? len p + len (l1 ++ x :: r)) with false by (symmetry; apply Z.eqb_neq; rewrite app_length; simpl length; lia).
    replace (p ++ (l1 ++ x :: r) ++ s) with ((p ++ l1) ++ [x] ++ r ++ s) by (rewrite <- !app_assoc; reflexivity).
    rewrite remove_copy_if_ok by (rewrite ?app_length; simpl length; lia). 
    assert (K2 : keep pred (x :: r) = keep pred r) by (unfold keep; simpl; now rewrite P). rewrite K2. f_equal. f_equal.
    + rewrite app_length, (skipn_app _ l1 (x :: r)). rewrite (skipn_all2 l1) by lia. replace (length l1 + length (keep pred r) - length l1)%nat with (length (keep pred r)) by lia.
      rewrite <- !app_assoc. reflexivity.
    + rewrite !app_length. lia.
Qed.
(** C78: replace and replace_if *)
Theorem C78_replace_if pred w p l s : replace_if (S (length l)) pred w (p ++ l ++ s) (len p) (len p + len l) = Some (p ++ map (fun x => if pred x then w else x) l ++ s).
Proof.
  assert (G : forall l fuel p first last, first = len p -> last = first + len l -> (length l < fuel)%nat ->
    replace_if fuel pred w (p ++ l ++ s) first last = Some (p ++ map (fun x => if pred x then w else x) l ++ s)).
  { clear p l. induction l as [|x l IH]; intros fuel p first last Ef El Hf; (destruct fuel as [|fuel]; [simpl length in Hf; lia|]); cbn [replace_if].
    - replace (first =? last) with true by (symmetry; apply Z.eqb_eq; simpl in El; lia). reflexivity.
    - replace (first =? last) with false by (symmetry; apply Z.eqb_neq; simpl length in El; lia). simpl app. rewrite rd_at by exact Ef. cbn [obind]. simpl map.
      destruct (pred x).
      + rewrite wr_at by exact Ef. cbn [obind]. replace (p ++ w :: l ++ s) with ((p ++ [w]) ++ l ++ s) by (rewrite <- app_assoc; reflexivity).
        rewrite IH by (rewrite ?app_length; simpl length in *; lia). rewrite <- app_assoc. reflexivity.
      + replace (p ++ x :: l ++ s) with ((p ++ [x]) ++ l ++ s) by (rewrite <- app_assoc; reflexivity).
        rewrite IH by (rewrite ?app_length; simpl length in *; lia). rewrite <- app_assoc. reflexivity. }
  apply G; lia.
Qed.

(** ** unique *)
Fixpoint ded eqb w l : list A := match l with [] => [] | x :: l => if eqb w x then ded eqb w l else x :: ded eqb x l end.
Lemma unique_loop_ok eqb l : forall fuel w p j s first last result, result = len p -> first = len p + len j -> last = first + 1 + len l -> (length l < fuel)%nat ->
  unique_loop fuel eqb (p ++ w :: j ++ l ++ s) first last result =
  Some (p ++ w :: ded eqb w l ++ skipn (length (ded eqb w l)) (j ++ l) ++ s, len p + 1 + len (ded eqb w l)).
Proof.
  induction l as [|x l IH]; intros fuel w p j s first last result Er Ef El Hf; (destruct fuel as [|fuel]; [simpl length in Hf; lia|]); cbn [unique_loop]; cbv zeta.
  - replace (first + 1 =? last) with true by (symmetry; apply Z.eqb_eq; simpl in El; lia). simpl. rewrite app_nil_r. f_equal. f_equal. lia.
  - replace (first + 1 =? last) with false by (symmetry; apply Z.eqb_neq; simpl length in El; lia). rewrite rd_at by exact Er. cbn [obind].
    assert (R : rd (p ++ w :: j ++ (x :: l) ++ s) (first + 1) = Some x).
    { replace (p ++ w :: j ++ (x :: l) ++ s) with ((p ++ w :: j) ++ x :: l ++ s) by (rewrite <- app_assoc; reflexivity). apply rd_at. rewrite app_length. simpl length. lia. }
    rewrite R. cbn [obind]. simpl ded. destruct (eqb w x) eqn:P; cbn [negb].
    + replace (p ++ w :: j ++ (x :: l) ++ s) with (p ++ w :: (j ++ [x]) ++ l ++ s) by (rewrite <- !app_assoc; reflexivity).
      rewrite (IH fuel w p (j ++ [x]) s) by (rewrite ?app_length; simpl length in *; lia). rewrite <- app_assoc. reflexivity.
    + destruct j as [|u j].
      * simpl app. replace (p ++ w :: x :: l ++ s) with ((p ++ [w]) ++ x :: l ++ s) by (rewrite <- app_assoc; reflexivity).
        rewrite wr_at by (rewrite app_length; simpl length; lia). cbn [obind].
        rewrite (IH fuel x (p ++ [w]) [] s) by (rewrite ?app_length; simpl length in *; lia). simpl app. simpl skipn. rewrite <- app_assoc. simpl app. f_equal. f_equal.
        rewrite app_length. simpl length. lia.
      * simpl app. replace (p ++ w :: u :: j ++ x :: l ++ s) with ((p ++ [w]) ++ u :: j ++ x :: l ++ s) by (rewrite <- app_assoc; reflexivity).
        rewrite wr_at by (rewrite app_length; simpl length; lia). cbn [obind].
        replace ((p ++ [w]) ++ x :: j ++ x :: l ++ s) with ((p ++ [w]) ++ x :: (j ++ [x]) ++ l ++ s) by (rewrite <- !app_assoc; reflexivity).
        rewrite (IH fuel x (p ++ [w]) (j ++ [x]) s) by (rewrite ?app_length; simpl length in *; lia). simpl skipn. rewrite <- !app_assoc. simpl app. f_equal. f_equal.
        rewrite app_length. simpl length. lia.
Qed.
Lemma ded_heads eqb l : forall w g, Forall (fun y => eqb w y = true) g -> heads_of eqb (w :: g ++ l) (w :: ded eqb w l).
Proof.
  induction l as [|x l IH]; intros w g F; simpl.
  - apply heads_run; [exact F|discriminate|constructor].
  - destruct (eqb w x) eqn:P.
    + replace (g ++ x :: l) with ((g ++ [x]) ++ l) by (rewrite <- app_assoc; reflexivity). apply IH. apply Forall_app. split; [exact F|]. constructor; [exact P|constructor].
    + apply heads_run; [exact F|intros y r' [= <- <-]; exact P|]. exact (IH x [] (Forall_nil _)).
Qed.
Lemma no_adj_heads eqb l1 : forall l2 h, (forall i x y, i < len l1 -> rd (l1 ++ l2) i = Some x -> rd (l1 ++ l2) (i + 1) = Some y -> eqb x y = false) ->
  heads_of eqb l2 h -> heads_of eqb (l1 ++ l2) (l1 ++ h).
Proof.
  induction l1 as [|x l1 IH]; intros l2 h N H; [exact H|]. simpl app. apply (heads_run eqb x [] (l1 ++ l2) (l1 ++ h)); [constructor| |].
  - intros y r' E. apply (N 0 x y); [simpl length; lia|reflexivity|]. simpl app. rewrite E. reflexivity.
  - apply IH; [|exact H]. intros i a b Hi Ra Rb. pose proof (rd_range _ _ _ Ra). apply (N (i + 1) a b); [simpl length; lia| |].
    + simpl app. replace (i + 1) with (1 + i) by lia. exact (eq_trans (rd_app_r [x] (l1 ++ l2) i ltac:(lia)) Ra).
    + simpl app. replace (i + 1 + 1) with (1 + (i + 1)) by lia. exact (eq_trans (rd_app_r [x] (l1 ++ l2) (i + 1) ltac:(lia)) Rb).
Qed.
Lemma unique_ok eqb p l s : exists h, heads_of eqb l h /\ (length h <= length l)%nat /\
  unique eqb (p ++ l ++ s) (len p) (len p + len l) = Some (p ++ (h ++ skipn (length h) l) ++ s, len p + len h).
Proof.
  unfold unique. destruct (adjacent_find_ok eqb p l s) as (i & E & B1 & B2 & B3). rewrite E. cbn [obind]. unfold unique_copy.
  destruct (Z.eqb_spec (len p + i) (len p + len l)) as [Q|Q].
  - exists l. split; [|split; [lia|]].
    + rewrite <- (app_nil_r l) at 1. rewrite <- (app_nil_r l) at 2. apply no_adj_heads; [|constructor]. rewrite app_nil_r. intros k x y K. apply B2. lia.
    + rewrite skipn_all, app_nil_r. replace i with (len l) by lia. reflexivity.
  - pose proof (firstn_skipn (Z.to_nat i) l) as El. set (l1 := firstn (Z.to_nat i) l) in *. set (l2 := skipn (Z.to_nat i) l) in *.
    assert (L1 : len l1 = i) by (unfold l1; rewrite firstn_length; lia). clearbody l1 l2. subst l. rewrite app_length in *. destruct l2 as [|w l2]; [simpl length in *; lia|].
    replace (p ++ (l1 ++ w :: l2) ++ s) with ((p ++ l1) ++ w :: l2 ++ s) by (rewrite <- !app_assoc; reflexivity).
    rewrite rd_at by (rewrite app_length; lia). cbn [obind]. rewrite wr_at by (rewrite app_length; lia). cbn [obind].
    change ((p ++ l1) ++ w :: l2 ++ s) with ((p ++ l1) ++ w :: [] ++ l2 ++ s). rewrite unique_loop_ok by (rewrite ?app_length; simpl length in *; lia).
    exists (l1 ++ w :: ded eqb w l2). split; [|split].
    + apply no_adj_heads; [intros k x y K; apply B2; lia|]. exact (ded_heads eqb l2 w [] (Forall_nil _)).
    + rewrite app_length. simpl length. assert ((length (ded eqb w l2) <= length l2)%nat); [|lia].
      clear. revert w. induction l2 as [|x l2 IH]; intros w; simpl; [lia|]. destruct (eqb w x); [specialize (IH w); lia|]. simpl. specialize (IH x). lia.
    + f_equal. f_equal.
      * rewrite app_length, (skipn_app _ l1 (w :: l2)). rewrite (skipn_all2 l1) by lia. simpl length.
        replace (length l1 + S (length (ded eqb w l2)) - length l1)%nat with (S (length (ded eqb w l2))) by lia. simpl skipn. simpl app. rewrite <- !app_assoc. simpl app. rewrite <- ?app_assoc. reflexivity.
      * rewrite !app_length. simpl length. lia.
Qed.
(** C78: unique keeps the first element of every run of equal neighbours *)
Theorem C78_unique eqb p l s : exists h, heads_of eqb l h /\ (length h <= length l)%nat /\
  unique eqb (p ++ l ++ s) (len p) (len p + len l) = Some (p ++ (h ++ skipn (length h) l) ++ s, len p + len h).
Proof. exact (unique_ok eqb p l s). Qed.
Lemma alike_all (lt : A -> A -> bool) (SW : strict_weak lt) v x g : Forall (fun y => negb (lt x y) && negb (lt y x) = true) g ->
  firstn 1 (alike lt v (x :: g)) = alike lt v [x] /\ (alike lt v (x :: g) = [] <-> alike lt v [x] = []).
Proof.
  intros F. rewrite !alike_cons. destruct (negb (lt v x) && negb (lt x v)) eqn:E; [split; [reflexivity|split; discriminate]|].
  assert (N : alike lt v g = []).
  { induction F as [|y g Fy F IH]; [reflexivity|]. apply andb_prop in Fy as [F1 F2]. apply negb_true_iff in F1, F2.
    rewrite alike_cons, <- (alike_same lt SW v x y F1 F2), E. exact IH. }
  rewrite N. split; [reflexivity|reflexivity].
Qed.
(** C78: of an ascending range unique keeps exactly the first element of every class of equivalent elements *)
Theorem C78_unique_sorted (lt : A -> A -> bool) l h : strict_weak lt -> ordered lt l -> heads_of (fun x y => negb (lt x y) && negb (lt y x)) l h ->
  ordered lt h /\ forall v, alike lt v h = firstn 1 (alike lt v l).
Proof.
  intros SW O H. assert (G : ordered lt h /\ (forall v, alike lt v h = firstn 1 (alike lt v l)) /\ forall y, In y h -> In y l); [|tauto].
  induction H as [|x g r hs F N H IH].
  - split; [constructor|]. split; [reflexivity|tauto].
  - pose proof (ordered_inv _ _ _ O) as [O' Fx].
    assert (Or : ordered lt r). { clear -O'. induction g as [|y g IH]; [exact O'|]. apply ordered_inv in O' as [O' _]. auto. }
    rewrite Forall_forall in Fx. destruct (IH Or) as (Oh & Ah & Ih). assert (I : forall y, In y (x :: hs) -> In y (x :: g ++ r)). { intros y [<-|J]; [now left|]. right. apply in_or_app. right. auto. }
    split; [|split; [|exact I]].
    + apply ordered_mk; [exact Oh|]. apply Forall_forall. intros y J. apply Fx. apply in_or_app. right. auto.
    + intros v. change (x :: g ++ r) with ((x :: g) ++ r). rewrite alike_app. change (x :: hs) with ([x] ++ hs). rewrite alike_app, Ah.
      destruct (alike_all lt SW v x g F) as [A1 A2].
      destruct (alike lt v (x :: g)) as [|z zs] eqn:Ez.
      * rewrite (proj1 A2 eq_refl). reflexivity.
      * change (firstn 1 (z :: zs)) with [z] in A1. rewrite <- A1. change ([z] ++ firstn 1 (alike lt v r) = [z]).
        assert (Nr : alike lt v r = []); [|now rewrite Nr]. destruct r as [|y0 r0]; [reflexivity|]. apply (alike_none lt SW v x y0 r0 Or).
        -- pose proof (N y0 r0 eq_refl) as N0. assert (Ly : lt y0 x = false) by (apply Fx; apply in_or_app; right; left; reflexivity).
           rewrite Ly, andb_true_r in N0. now apply negb_false_iff in N0.
        -- rewrite alike_cons in A1. destruct (negb (lt v x) && negb (lt x v)); [reflexivity|discriminate A1].
Qed.

(** ** partition *)
Lemma part_down_ok pred r : forall fuel q x s first last, first = len q -> last = first + len r -> (length r < fuel)%nat ->
  (part_down fuel pred (q ++ x :: r ++ s) first last = Some first /\ Forall (fun y => pred y = false) r) \/
  exists r1 y r2, r = r1 ++ y :: r2 /\ pred y = true /\ Forall (fun y => pred y = false) r2 /\ part_down fuel pred (q ++ x :: r ++ s) first last = Some (first + 1 + len r1).
Proof.
  induction r as [|y r IH] using rev_ind; intros fuel q x s first last Ef El Hf; (destruct fuel as [|fuel]; [simpl length in Hf; lia|]); cbn [part_down].
  - replace (first =? last) with true by (symmetry; apply Z.eqb_eq; simpl in El; lia). left. split; [f_equal; simpl in El; lia|constructor].
  - rewrite app_length in El, Hf. simpl length in El, Hf. replace (first =? last) with false by (symmetry; apply Z.eqb_neq; lia).
    replace (q ++ x :: (r ++ [y]) ++ s) with ((q ++ x :: r) ++ y :: s) by (rewrite <- !app_assoc; simpl; rewrite <- ?app_assoc; reflexivity).
    rewrite rd_at by (rewrite app_length; simpl length; lia). cbn [obind]. destruct (pred y) eqn:P; cbn [negb].
    + right. exists r, y, []. split; [reflexivity|]. split; [exact P|]. split; [constructor|]. f_equal. lia.
    + replace ((q ++ x :: r) ++ y :: s) with (q ++ x :: r ++ y :: s) by (rewrite <- app_assoc; reflexivity).
      destruct (IH fuel q x (y :: s) first (last - 1) Ef ltac:(lia) ltac:(lia)) as [[E F]|(r1 & z & r2 & -> & Pz & F & E)].
      * left. split; [exact E|]. apply Forall_app. split; [exact F|]. constructor; [exact P|constructor].
      * right. exists r1, z, (r2 ++ [y]). split; [rewrite <- app_assoc; reflexivity|]. split; [exact Pz|]. split; [|exact E]. apply Forall_app. split; [exact F|]. constructor; [exact P|constructor].
Qed.
Lemma part_loop_ok pred fuel : forall p l s first last, first = len p -> last = first + len l -> (length l < fuel)%nat ->
  exists t f, part_loop fuel pred (p ++ l ++ s) first last = Some (p ++ (t ++ f) ++ s, len p + len t) /\ Permutation l (t ++ f) /\
    Forall (fun x => pred x = true) t /\ Forall (fun x => pred x = false) f.
Proof.
  induction fuel as [|fuel IH]; intros p l s first last -> -> Hf; [lia|]. cbn [part_loop].
  replace (len p + len l - len p) with (len l) by lia. rewrite Nat2Z.id.
  destruct (C77_find_if (fun x => negb (pred x)) p l s) as (t & l2 & El & F & H & E). rewrite E. cbn [obind]. subst l.
  assert (Ft : Forall (fun x => pred x = true) t) by (eapply Forall_impl; [|exact F]; intros x Q; now apply negb_false_iff in Q). clear F.
  destruct H as [->|(x & r & -> & P)].
  - rewrite app_nil_r. rewrite Z.eqb_refl. exists t, []. rewrite app_nil_r. split; [reflexivity|]. split; [reflexivity|]. split; [exact Ft|constructor].
  - apply negb_true_iff in P. rewrite app_length in *. simpl length in *.
    replace (len p + len t =? len p + Z.of_nat (length t + S (length r))) with false by (symmetry; apply Z.eqb_neq; lia).
    replace (p ++ (t ++ x :: r) ++ s) with ((p ++ t) ++ x :: r ++ s) by (rewrite <- !app_assoc; reflexivity).
    destruct (part_down_ok pred r (S (Z.to_nat (len p + Z.of_nat (length t + S (length r)) - (len p + len t)))) (p ++ t) x s (len p + len t) (len p + Z.of_nat (length t + S (length r)) - 1))
      as [[E2 F]|(r1 & y & r2 & -> & Py & F & E2)]; try (rewrite ?app_length; lia); rewrite E2; cbn [obind].
    + rewrite Z.eqb_refl. exists t, (x :: r). split; [rewrite <- !app_assoc; reflexivity|]. split; [reflexivity|]. split; [exact Ft|]. constructor; [exact P|exact F].
    + replace (len p + len t =? len p + len t + 1 + len r1) with false by (symmetry; apply Z.eqb_neq; lia).
      replace ((p ++ t) ++ x :: (r1 ++ y :: r2) ++ s) with ((p ++ t) ++ x :: r1 ++ y :: (r2 ++ s)) by (rewrite <- !app_assoc; reflexivity).
      rewrite iter_swap_at by (rewrite app_length; lia). cbn [obind].
      replace ((p ++ t) ++ y :: r1 ++ x :: r2 ++ s) with ((p ++ t ++ [y]) ++ r1 ++ (x :: r2 ++ s)) by (rewrite <- !app_assoc; reflexivity).
      rewrite app_length in Hf. simpl length in Hf.
      destruct (IH (p ++ t ++ [y]) r1 (x :: r2 ++ s) (len p + len t + 1) (len p + len t + 1 + len r1)) as (t' & f' & E3 & Pm & F1 & F2); try (rewrite ?app_length; simpl length; lia).
      exists (t ++ y :: t'), (f' ++ x :: r2). split.
      * rewrite E3. f_equal. f_equal; [|rewrite !app_length; simpl length; lia]. rewrite <- !app_assoc. simpl app. rewrite <- ?app_assoc. reflexivity.
      * split; [|split].
        -- rewrite <- app_assoc. apply Permutation_app_head. simpl app. apply perm_trans with (x :: y :: r1 ++ r2); [constructor; symmetry; apply Permutation_middle|].
           apply perm_trans with (y :: x :: r1 ++ r2); [apply perm_swap|]. constructor. apply perm_trans with (r1 ++ x :: r2); [apply Permutation_middle|].
           rewrite app_assoc. now apply Permutation_app_tail.
        -- apply Forall_app. split; [exact Ft|]. constructor; [exact Py|exact F1].
        -- apply Forall_app. split; [exact F2|]. constructor; [exact P|exact F].
Qed.
(** C78: partition puts the elements that satisfy the condition before the others and returns the border *)
Theorem C78_partition pred p l s : exists t f, partition pred (p ++ l ++ s) (len p) (len p + len l) = Some (p ++ (t ++ f) ++ s, len p + len t) /\
  Permutation l (t ++ f) /\ Forall (fun x => pred x = true) t /\ Forall (fun x => pred x = false) f.
Proof. apply part_loop_ok; lia. Qed.

(** ** is_permutation *)
Variable eqb : A -> A -> bool.
Definition equivalence : Prop := (forall x, eqb x x = true) /\ (forall x y, eqb x y = true -> eqb y x = true) /\ (forall x y z, eqb x y = true -> eqb y z = true -> eqb x z = true).
(** some arrangement of q equals l element by element *)
Definition arrangement l q : Prop := exists m, Permutation q m /\ Forall2 (fun x y => eqb x y = true) l m.
Hypothesis EQ : equivalence.
Lemma eqb_same v x y : eqb x y = true -> eqb v x = eqb v y.
Proof.
  destruct EQ as (_ & Sy & Tr). intros E. destruct (eqb v x) eqn:Q1, (eqb v y) eqn:Q2; auto.
  - rewrite (Tr v x y Q1 E) in Q2. discriminate.
  - rewrite (Tr v y x Q2 (Sy _ _ E)) in Q1. discriminate.
Qed.
Lemma eqb_sym_b x y : eqb x y = eqb y x.
Proof. destruct EQ as (_ & Sy & _). destruct (eqb x y) eqn:Q1, (eqb y x) eqn:Q2; auto; [rewrite (Sy _ _ Q1) in Q2|rewrite (Sy _ _ Q2) in Q1]; discriminate. Qed.
Lemma hits_same x y l : eqb x y = true -> hits (eqb x) l = hits (eqb y) l.
Proof. intros E. induction l as [|z l IH]; [reflexivity|]. rewrite !hits_cons, IH. rewrite (eqb_sym_b x z), (eqb_sym_b y z), (eqb_same z x y E). reflexivity. Qed.
Lemma hits_perm pred l m : Permutation l m -> hits pred l = hits pred m.
Proof. induction 1; rewrite ?hits_cons; lia. Qed.
Lemma hits_forall2 v l m : Forall2 (fun x y => eqb x y = true) l m -> hits (eqb v) l = hits (eqb v) m.
Proof. induction 1 as [|x y l m E F IH]; [reflexivity|]. now rewrite !hits_cons, IH, (eqb_same v x y E). Qed.
Lemma arrangement_hits l q v : arrangement l q -> hits (eqb v) l = hits (eqb v) q.
Proof. intros (m & P & F). rewrite (hits_forall2 v l m F). symmetry. now apply hits_perm. Qed.
Lemma arrangement_len l q : arrangement l q -> length l = length q.
Proof. intros (m & P & F). rewrite (Permutation_length P). clear -F. induction F; simpl; congruence. Qed.
Lemma hits_split v q : 0 < hits (eqb v) q -> exists q1 y q2, q = q1 ++ y :: q2 /\ eqb v y = true.
Proof.
  induction q as [|y q IH]; [unfold hits; simpl; lia|]. rewrite hits_cons. destruct (eqb v y) eqn:E.
  - intros _. exists [], y, q. auto.
  - intros H. destruct IH as (q1 & z & q2 & -> & E'); [lia|]. exists (y :: q1), z, q2. auto.
Qed.
Lemma sub_arrangement l : forall q, (forall x, In x l -> hits (eqb x) l <= hits (eqb x) q) -> exists m r, Permutation q (m ++ r) /\ Forall2 (fun x y => eqb x y = true) l m.
Proof.
  destruct EQ as (Re & _). induction l as [|x l IH]; intros q H.
  - exists [], q. split; [reflexivity|constructor].
  - destruct (hits_split x q) as (q1 & y & q2 & -> & E). { specialize (H x (or_introl eq_refl)). rewrite hits_cons, Re in H. pose proof (hits_nonneg (eqb x) l). lia. }
    destruct (IH (q1 ++ q2)) as (m & r & P & F).
    + intros z I. specialize (H z (or_intror I)). rewrite hits_cons, hits_app, hits_cons in H. rewrite hits_app. rewrite (eqb_same z x y E) in H. lia.
    + exists (y :: m), r. split; [|now constructor]. simpl app. apply perm_trans with (y :: q1 ++ q2); [symmetry; apply Permutation_middle|]. now constructor.
Qed.
Lemma full_arrangement l q : length l = length q -> (arrangement l q <-> forall x, In x l -> hits (eqb x) l = hits (eqb x) q).
Proof.
  intros L. split; [intros H x _; now apply arrangement_hits|]. intros H. destruct (sub_arrangement l q) as (m & r & P & F); [intros x I; rewrite (H x I); lia|].
  assert (Lm : length l = length m) by (clear -F; induction F; simpl; congruence). pose proof (Permutation_length P) as Lp. rewrite app_length in Lp.
  destruct r; [|simpl in Lp; lia]. rewrite app_nil_r in P. exists m. auto.
Qed.
Lemma view_app_l get f l1 l2 : view get f (l1 ++ l2) -> view get f l1.
Proof. intros V k H. rewrite V by (rewrite app_length; lia). apply rd_app_l. lia. Qed.
Lemma view_app_r get f l1 l2 : view get f (l1 ++ l2) -> view get (f + len l1) l2.
Proof. intros V k H. replace (f + len l1 + k) with (f + (len l1 + k)) by lia. rewrite V by (rewrite app_length; lia). apply rd_app_r. lia. Qed.
Lemma perm_prefix_ok fuel : forall get get2 f f2 l q, view get f l -> view get2 f2 q -> (length l < fuel)%nat ->
  exists l1 l2 q1 q2, l = l1 ++ l2 /\ q = q1 ++ q2 /\ Forall2 (fun x y => eqb x y = true) l1 q1 /\
    perm_prefix fuel eqb get get2 f (f + len l) f2 (f2 + len q) = Some (f + len l1, f2 + len q1).
Proof.
  induction fuel as [|fuel IH]; intros get get2 f f2 l q V V2 Hf; [lia|]. cbn [perm_prefix].
  destruct l as [|x l]; [|destruct q as [|y q]].
  - exists [], [], [], q. rewrite (proj2 (Z.eqb_eq f (f + len []))) by (simpl; lia). cbn [orb]. repeat split; auto. simpl. f_equal. f_equal; lia.
  - exists [], (x :: l), [], []. rewrite (proj2 (Z.eqb_eq f2 (f2 + len []))) by (simpl; lia). rewrite orb_true_r. repeat split; auto. simpl. f_equal. f_equal; lia.
  - rewrite (proj2 (Z.eqb_neq f (f + len (x :: l)))) by (simpl length; lia). rewrite (proj2 (Z.eqb_neq f2 (f2 + len (y :: q)))) by (simpl length; lia). cbn [orb].
    destruct (view_tail _ _ _ _ V) as [G V']. destruct (view_tail _ _ _ _ V2) as [G2 V2']. rewrite G, G2. cbn [obind]. destruct (eqb x y) eqn:E; cbn [negb].
    + destruct (IH get get2 (f + 1) (f2 + 1) l q V' V2') as (l1 & l2 & q1 & q2 & -> & -> & F & Ep); [simpl length in Hf; lia|].
      exists (x :: l1), l2, (y :: q1), q2. split; [reflexivity|]. split; [reflexivity|]. split; [now constructor|]. simpl length.
      replace (f + Z.of_nat (S (length (l1 ++ l2)))) with (f + 1 + len (l1 ++ l2)) by lia. replace (f2 + Z.of_nat (S (length (q1 ++ q2)))) with (f2 + 1 + len (q1 ++ q2)) by lia.
      rewrite Ep. f_equal. f_equal; lia.
    + exists [], (x :: l), [], (y :: q). split; [reflexivity|]. split; [reflexivity|]. split; [constructor|]. simpl length. f_equal. f_equal; lia.
Qed.
Lemma perm_rest_ok get get2 f f2 l q (V : view get f l) (V2 : view get2 f2 q) : forall e fuel d i, l = d ++ e -> i = f + len d -> (length e < fuel)%nat ->
  (forall x, In x d -> hits (eqb x) l = hits (eqb x) q) ->
  exists b, perm_rest fuel eqb get get2 f (f + len l) f2 (f2 + len q) i = Some b /\ (b = true <-> forall x, In x l -> hits (eqb x) l = hits (eqb x) q).
Proof.
  destruct EQ as (Re & Sy & Tr).
  induction e as [|x e IH]; intros fuel d i El -> Hf D; (destruct fuel as [|fuel]; [simpl length in Hf; lia|]); cbn [perm_rest].
  - rewrite app_nil_r in El. subst d. rewrite Z.eqb_refl. exists true. split; [reflexivity|]. tauto.
  - rewrite (proj2 (Z.eqb_neq (f + len d) (f + len l))) by (rewrite El, app_length; simpl length; lia).
    assert (V' := V). rewrite El in V'. pose proof (view_app_l _ _ _ _ V') as Vd. apply view_app_r in V'. apply view_tail in V' as [G Ve]. rewrite G. cbn [obind].
    destruct (any_of_ok (S (Z.to_nat (f + len d - f))) (fun y => eqb y x) get f d 0 Vd ltac:(lia) ltac:(lia)) as (b & Eb & B). rewrite Z.add_0_r in Eb. rewrite Eb. cbn [obind].
    assert (El' : l = (d ++ [x]) ++ e) by (rewrite <- app_assoc; exact El). assert (Li : f + len d + 1 = f + len (d ++ [x])) by (rewrite app_length; simpl length; lia).
    simpl length in Hf. destruct b.
    + destruct (proj1 B eq_refl) as (j & y & J & Ry & P). rewrite Li. apply (IH fuel (d ++ [x]) _ El' eq_refl ltac:(lia)).
      intros z I. apply in_app_or in I as [I|[<-|[]]]; [now apply D|]. rewrite <- !(hits_same y x) by exact P. apply D. apply rd_In. eauto.
    + assert (Nd : forall y, In y d -> eqb x y = false).
      { intros y I. destruct (eqb x y) eqn:P; [|reflexivity]. apply rd_In in I as (j & J & R). discriminate (proj2 B). exists j, y. auto. }
      rewrite (count_if_ok q) by (auto; lia). cbn [obind]. rewrite Z.add_0_l. rewrite (count_if_ok e) by (auto; rewrite El, app_length; simpl length; lia).
      assert (Hx : hits (eqb x) l = 1 + hits (eqb x) e). { rewrite El, hits_app, hits_cons, Re, (hits_0 (eqb x) d Nd). lia. }
      destruct (Z.eqb_spec (hits (eqb x) q) 0) as [Q0|Q0].
      * exists false. split; [reflexivity|]. split; [discriminate|]. intros H. specialize (H x). rewrite Hx in H. pose proof (hits_nonneg (eqb x) e).
        assert (Ix : In x l) by (rewrite El; apply in_or_app; right; left; reflexivity). specialize (H Ix). lia.
      * cbn [obind]. destruct (Z.eqb_spec (1 + hits (eqb x) e) (hits (eqb x) q)) as [Q|Q]; cbn [negb].
        -- rewrite Li. apply (IH fuel (d ++ [x]) _ El' eq_refl ltac:(lia)). intros z I. apply in_app_or in I as [I|[<-|[]]]; [now apply D|]. lia.
        -- exists false. split; [reflexivity|]. split; [discriminate|]. intros H. specialize (H x). rewrite Hx in H. exfalso. apply Q, H. rewrite El; apply in_or_app; right; left; reflexivity.
Qed.
Lemma arrangement_prefix l1 l2 q1 q2 : Forall2 (fun x y => eqb x y = true) l1 q1 -> length l2 = length q2 -> (arrangement (l1 ++ l2) (q1 ++ q2) <-> arrangement l2 q2).
Proof.
  intros F L. split.
  - intros H. apply full_arrangement; [exact L|]. intros x _. pose proof (arrangement_hits _ _ x H) as E. rewrite !hits_app, (hits_forall2 x l1 q1 F) in E. lia.
  - intros (m & P & F2). exists (q1 ++ m). split; [now apply Permutation_app_head|]. now apply Forall2_app.
Qed.
(** C79: is_permutation decides whether the second sequence can be arranged to equal the first *)
Theorem C79_is_permutation ran p l s p2 q s2 : exists b,
  is_permutation ran eqb (rd (p ++ l ++ s)) (rd (p2 ++ q ++ s2)) (len p) (len p + len l) (len p2) (len p2 + len q) = Some b /\ (b = true <-> arrangement l q).
Proof.
  unfold is_permutation. replace (len p + len l - len p) with (len l) by lia. replace (len p2 + len q - len p2) with (len q) by lia.
  destruct (ran && negb (len l =? len q)) eqn:E0.
  - exists false. split; [reflexivity|]. split; [discriminate|]. intros H. apply arrangement_len in H. apply andb_prop in E0 as [_ E0]. apply negb_true_iff, Z.eqb_neq in E0. lia.
  - destruct (perm_prefix_ok (S (Z.to_nat (len l))) (rd (p ++ l ++ s)) (rd (p2 ++ q ++ s2)) (len p) (len p2) l q (view_mid p l s) (view_mid p2 q s2)) as (l1 & l2 & q1 & q2 & El & Eq & F & E); [lia|].
    rewrite E. cbn [obind]. cbv zeta.
    assert (L1 : length l1 = length q1) by (clear -F; induction F; simpl; congruence).
    assert (Ll : len l = len l1 + len l2) by (rewrite El, app_length; lia). assert (Lq : len q = len q1 + len q2) by (rewrite Eq, app_length; lia).
    assert (R : length l2 = length q2 -> exists b, perm_rest (S (Z.to_nat (len p + len l - (len p + len l1)))) eqb (rd (p ++ l ++ s)) (rd (p2 ++ q ++ s2)) (len p + len l1) (len p + len l) (len p2 + len q1) (len p2 + len q) (len p + len l1) = Some b /\
      (b = true <-> arrangement l q)).
    { intros L2. pose proof (view_mid p l s) as V. rewrite El in V at 2. apply view_app_r in V. pose proof (view_mid p2 q s2) as V2. rewrite Eq in V2 at 2. apply view_app_r in V2.
      destruct (perm_rest_ok _ _ _ _ l2 q2 V V2 l2 (S (Z.to_nat (len p + len l - (len p + len l1)))) [] (len p + len l1) eq_refl) as (b & Eb & B); [simpl; lia|lia|intros x []|].
      replace (len p + len l1 + len l2) with (len p + len l) in Eb by lia. replace (len p2 + len q1 + len q2) with (len p2 + len q) in Eb by lia.
      exists b. split; [exact Eb|]. rewrite B, <- (full_arrangement l2 q2 L2). rewrite El, Eq. symmetry. now apply arrangement_prefix. }
    destruct ran; cbn [andb] in E0.
    + apply negb_false_iff, Z.eqb_eq in E0. destruct (Z.eqb_spec (len p + len l1) (len p + len l)) as [Q|Q].
      * exists true. split; [reflexivity|]. split; [|reflexivity]. intros _. assert (l2 = []) by (destruct l2; [reflexivity|simpl length in *; lia]). assert (q2 = []) by (destruct q2; [reflexivity|simpl length in *; lia]).
        subst l2 q2. rewrite app_nil_r in El, Eq. subst l1 q1. exists q. split; [reflexivity|exact F].
      * apply R. lia.
    + destruct (Z.eqb_spec (len p + len l - (len p + len l1)) 0) as [Q1|Q1]; destruct (Z.eqb_spec (len p2 + len q - (len p2 + len q1)) 0) as [Q2|Q2]; cbn [andb].
      * exists true. split; [reflexivity|]. split; [|reflexivity]. intros _. assert (l2 = []) by (destruct l2; [reflexivity|simpl length in *; lia]). assert (q2 = []) by (destruct q2; [reflexivity|simpl length in *; lia]).
        subst l2 q2. rewrite app_nil_r in El, Eq. subst l1 q1. exists q. split; [reflexivity|exact F].
      * destruct (Z.eqb_spec (len p + len l - (len p + len l1)) (len p2 + len q - (len p2 + len q1))); [lia|]. cbn [negb]. exists false. split; [reflexivity|]. split; [discriminate|]. intros H. apply arrangement_len in H. lia.
      * destruct (Z.eqb_spec (len p + len l - (len p + len l1)) (len p2 + len q - (len p2 + len q1))); [lia|]. cbn [negb]. exists false. split; [reflexivity|]. split; [discriminate|]. intros H. apply arrangement_len in H. lia.
      * destruct (Z.eqb_spec (len p + len l - (len p + len l1)) (len p2 + len q - (len p2 + len q1))) as [Q|Q]; cbn [negb]; [apply R; lia|].
        exists false. split; [reflexivity|]. split; [discriminate|]. intros H. apply arrangement_len in H. lia.
Qed.
(** with == that is equality, an arrangement is a permutation *)
Theorem C79_plain l q : (forall x y, eqb x y = true <-> x = y) -> (arrangement l q <-> Permutation l q).
Proof.
  intros H. split.
  - intros (m & P & F). assert (l = m); [|subst; now symmetry]. clear P. induction F as [|x y l m E F IH]; [reflexivity|]. apply H in E. congruence.
  - intros P. exists l. split; [now symmetry|]. clear P. induction l; constructor; auto. now apply H.
Qed.
End Props.

Example C78_example : remove_if (Z.eqb 1) [7; 1; 2; 1; 3; 8] 1 5 = Some ([7; 2; 3; 1; 3; 8], 3) /\
  unique Z.eqb [7; 1; 2; 2; 1; 1; 3; 8] 1 7 = Some ([7; 1; 2; 1; 3; 1; 3; 8], 5) /\
  partition Z.even [7; 1; 2; 3; 4; 8] 1 5 = Some ([7; 4; 2; 3; 1; 8], 3) /\ heads_of Z.eqb [1; 2; 2; 1] [1; 2; 1].
Proof.
  split; [vm_compute; reflexivity|]. split; [vm_compute; reflexivity|]. split; [vm_compute; reflexivity|].
  apply (heads_run Z.eqb 1 [] [2; 2; 1]); [constructor|intros y r' [= <- <-]; reflexivity|].
  apply (heads_run Z.eqb 2 [2] [1]); [constructor; [reflexivity|constructor]|intros y r' [= <- <-]; reflexivity|].
  apply (heads_run Z.eqb 1 [] []); [constructor|discriminate|constructor].
Qed.
Example C79_example : equivalence Z.eqb /\ is_permutation true Z.eqb (rd [1; 2; 2; 3]) (rd [1; 3; 2; 2]) 0 4 0 4 = Some true /\
  is_permutation true Z.eqb (rd [1; 2; 2; 3]) (rd [1; 3; 3; 2]) 0 4 0 4 = Some false.
Proof.
  split; [|split; vm_compute; reflexivity]. split; [apply Z.eqb_refl|]. split; [intros x y|intros x y z]; rewrite !Z.eqb_eq; congruence.
Qed.

Print Assumptions C78_remove_if.
Print Assumptions C78_replace_if.
Print Assumptions C78_unique.
Print Assumptions C78_unique_sorted.
Print Assumptions C78_partition.
Print Assumptions C79_is_permutation.
Print Assumptions C79_plain.
