(** inplace_merge (C75) *)
From Coq Require Import ZArith List Bool Lia Permutation Sorted.
From Verif Require Import F64 ArrModel ArrLib SortSpec BsModel BsProps RotModel RotProof RotProps SetModel SetProps MergeModel.
Import ListNotations.
Open Scope Z_scope.

(** r is the stable merge of l1 and l2 *)
Definition is_merge {A} (lt : A -> A -> bool) (l1 l2 r : list A) : Prop :=
  Permutation (l1 ++ l2) r /\ ordered lt r /\ forall v, alike lt v r = alike lt v l1 ++ alike lt v l2.

Section Proof.
Context {A : Type} (lt : A -> A -> bool) (SW : strict_weak lt).
Implicit Types (a p l s g r buf : list A) (x y v : A).
Notation is_merge := (is_merge lt).
Notation alike := (alike lt).

Lemma ordered_app l1 l2 : ordered lt (l1 ++ l2) <-> ordered lt l1 /\ ordered lt l2 /\ forall x y, In x l1 -> In y l2 -> lt y x = false.
Proof.
  induction l1 as [|u l1 IH]; simpl.
  - split; [intros O; split; [constructor|split; [exact O|tauto]]|tauto].
  - split.
    + intros O. apply ordered_inv in O as [O F]. apply IH in O as (O1 & O2 & C). rewrite Forall_forall in F. split.
      * apply ordered_mk; [exact O1|]. rewrite Forall_forall. intros z I. apply F. apply in_or_app; auto.
      * split; [exact O2|]. intros x y [<-|I] J; [apply F; apply in_or_app; auto|auto].
    + intros (O1 & O2 & C). apply ordered_inv in O1 as [O1 F]. rewrite Forall_forall in F. apply ordered_mk.
      * apply IH. split; [exact O1|]. split; [exact O2|]. auto.
      * rewrite Forall_forall. intros z I. apply in_app_or in I as [I|I]; auto.
Qed.
Lemma alike_in v l z : In z (alike v l) <-> In z l /\ lt v z = false /\ lt z v = false.
Proof. unfold SetProps.alike. rewrite filter_In, andb_true_iff, !negb_true_iff. tauto. Qed.
Lemma nil_or l : l = [] \/ exists x, In x l.
Proof. destruct l as [|x l]; [now left|right; exists x; left; reflexivity]. Qed.
(** ranges that are strictly separated share no class *)
Lemma alike_sep v l1 l2 : (forall x y, In x l1 -> In y l2 -> lt x y = true) -> alike v l1 ++ alike v l2 = alike v l2 ++ alike v l1.
Proof.
  intros H. destruct (nil_or (alike v l1)) as [->|[x Ix]]; [now rewrite app_nil_r|].
  destruct (nil_or (alike v l2)) as [->|[y Iy]]; [now rewrite app_nil_r|]. exfalso.
  apply alike_in in Ix as (I1 & X1 & X2). apply alike_in in Iy as (I2 & Y1 & Y2).
  destruct (sw_neg _ SW x v y (H x y I1 I2)); congruence.
Qed.

(** two sorted ranges with the same classes are the same *)
Lemma ordered_unique : forall l1 l2, ordered lt l1 -> ordered lt l2 -> (forall v, alike v l1 = alike v l2) -> l1 = l2.
Proof.
  assert (Hd : forall x y l1 l2, ordered lt (y :: l2) -> (forall v, alike v (x :: l1) = alike v (y :: l2)) -> lt x y = false).
  { intros x y l1 l2 O E. assert (I : In x (alike x (y :: l2))). { rewrite <- E. apply alike_in. split; [left; reflexivity|]. split; apply (sw_irr _ SW). }
    apply alike_in in I as ([<-|I] & _); [apply (sw_irr _ SW)|]. apply ordered_inv in O as [_ F]. rewrite Forall_forall in F. now apply F. }
  induction l1 as [|x l1 IH]; intros l2 O1 O2 E.
  - destruct l2 as [|y l2]; [reflexivity|]. specialize (E y). rewrite alike_cons, (sw_irr _ SW) in E. discriminate E.
  - destruct l2 as [|y l2]. { specialize (E x). rewrite alike_cons, (sw_irr _ SW) in E. discriminate E. }
    pose proof (Hd x y l1 l2 O2 E) as L1. pose proof (Hd y x l2 l1 O1 (fun v => eq_sym (E v))) as L2.
    assert (x = y). { specialize (E x). rewrite !alike_cons, (sw_irr _ SW), L1, L2 in E. simpl in E. congruence. }
    subst y. f_equal. apply IH; [now apply ordered_inv in O1|now apply ordered_inv in O2|].
    intros v. specialize (E v). rewrite !alike_cons in E. destruct (negb (lt v x) && negb (lt x v)); congruence.
Qed.
Lemma is_merge_unique l1 l2 r r' : is_merge l1 l2 r -> is_merge l1 l2 r' -> r = r'.
Proof. intros (_ & O & E) (_ & O' & E'). apply ordered_unique; auto. intros v. now rewrite E, E'. Qed.
Lemma merge_is l1 l2 : ordered lt l1 -> ordered lt l2 -> is_merge l1 l2 (merge lt l1 l2).
Proof. apply C73_merge. exact SW. Qed.
Lemma is_merge_len l1 l2 r : is_merge l1 l2 r -> len r = len l1 + len l2.
Proof. intros (P & _). apply Permutation_length in P. rewrite app_length in P. lia. Qed.

Lemma is_merge_split l11 l12 l21 l22 r1 r2 : is_merge l11 l21 r1 -> is_merge l12 l22 r2 ->
  ordered lt (l11 ++ l12) -> ordered lt (l21 ++ l22) ->
  (forall y x, In y l21 -> In x l12 -> lt y x = true) -> (forall x y, In x l11 -> In y l22 -> lt y x = false) ->
  is_merge (l11 ++ l12) (l21 ++ l22) (r1 ++ r2).
Proof.
  intros (P1 & O1 & E1) (P2 & O2 & E2) OA OB H1 H2. split; [|split].
  - apply perm_trans with ((l11 ++ l21) ++ (l12 ++ l22)); [|now apply Permutation_app].
    rewrite <- !app_assoc. apply Permutation_app_head. rewrite !app_assoc. apply Permutation_app_tail. apply Permutation_app_comm.
  - apply ordered_app. split; [exact O1|]. split; [exact O2|]. intros x y Ix Iy.
    apply (Permutation_in _ (Permutation_sym P1)) in Ix. apply (Permutation_in _ (Permutation_sym P2)) in Iy.
    apply ordered_app in OA as (_ & _ & CA). apply ordered_app in OB as (_ & _ & CB).
    apply in_app_or in Ix as [Ix|Ix]; apply in_app_or in Iy as [Iy|Iy]; auto. apply (lt_asym lt SW). auto.
  - intros v. rewrite !alike_app, E1, E2. rewrite <- !app_assoc. f_equal. rewrite !app_assoc. f_equal.
    apply alike_sep. auto.
Qed.
Lemma is_merge_nil_l l : ordered lt l -> is_merge [] l l.
Proof. intros O. split; [reflexivity|]. split; [exact O|reflexivity]. Qed.
Lemma is_merge_nil_r l : ordered lt l -> is_merge l [] l.
Proof. intros O. split; [now rewrite app_nil_r|]. split; [exact O|]. intros v. symmetry. apply app_nil_r. Qed.
Lemma ordered_one x : ordered lt [x].
Proof. constructor; constructor. Qed.
Lemma is_merge_snoc1 l1 l2 r x : is_merge l1 l2 r -> ordered lt (l1 ++ [x]) -> ordered lt l2 -> (forall y, In y l2 -> lt y x = true) ->
  is_merge (l1 ++ [x]) l2 (r ++ [x]).
Proof.
  intros M O1 O2 H. pose proof (is_merge_split l1 [x] l2 [] r [x] M (is_merge_nil_r _ (ordered_one x))) as S.
  rewrite app_nil_r in S. apply S; auto; simpl; try tauto. intros y z I [<-|[]]. auto.
Qed.
Lemma is_merge_snoc2 l1 l2 r y : is_merge l1 l2 r -> ordered lt l1 -> ordered lt (l2 ++ [y]) -> (forall x, In x l1 -> lt y x = false) ->
  is_merge l1 (l2 ++ [y]) (r ++ [y]).
Proof.
  intros M O1 O2 H. pose proof (is_merge_split l1 [] l2 [y] r [y] M (is_merge_nil_l _ (ordered_one y))) as S.
  rewrite app_nil_r in S. apply S; auto; simpl; try tauto. intros x z I [<-|[]]. auto.
Qed.

(** ** copies *)
Lemma read_range_ok l : forall p s i, i = len p -> read_range (length l) (p ++ l ++ s) i = Some l.
Proof.
  induction l as [|x l IH]; intros p s i E; [reflexivity|]. cbn [read_range length app].
  rewrite rd_at by exact E. cbn [obind]. replace (p ++ x :: l ++ s) with ((p ++ [x]) ++ l ++ s) by (rewrite <- app_assoc; reflexivity).
  rewrite IH by (rewrite app_length; simpl length; lia). reflexivity.
Qed.
Lemma to_buffer_ok p l s i j B : i = len p -> j = i + len l -> len l <= B -> to_buffer (p ++ l ++ s) i j B = Some l.
Proof.
  intros Ei Ej HB. unfold to_buffer. destruct (Z.leb_spec (j - i) B); [|lia].
  replace (Z.to_nat (j - i)) with (length l) by lia. now apply read_range_ok.
Qed.
Lemma write_range_ok l : forall g p s i, length g = length l -> i = len p -> write_range (p ++ g ++ s) l i = Some (p ++ l ++ s).
Proof.
  induction l as [|x l IH]; intros g p s i El E; destruct g as [|u g]; try discriminate El; [reflexivity|]. cbn [write_range app].
  rewrite wr_at by exact E. cbn [obind]. replace (p ++ x :: g ++ s) with ((p ++ [x]) ++ g ++ s) by (rewrite <- app_assoc; reflexivity).
  simpl in El. rewrite IH by (rewrite ?app_length; simpl length; lia). now rewrite <- app_assoc.
Qed.
Lemma move_up_ok l : forall p g s i j, i = len p + len g -> j = len p ->
  exists g', move_up (length l) (p ++ g ++ l ++ s) i j = Some (p ++ l ++ g' ++ s) /\ length g' = length g.
Proof.
  induction l as [|v l IH]; intros p g s i j Ei Ej; [exists g; auto|]. cbn [move_up length].
  rewrite (app_assoc p g). change ((v :: l) ++ s) with (v :: l ++ s). rewrite rd_at by (rewrite app_length; lia). cbn [obind]. rewrite <- app_assoc.
  destruct g as [|u g].
  - simpl app. rewrite wr_at by exact Ej. cbn [obind].
    replace (p ++ v :: l ++ s) with ((p ++ [v]) ++ [] ++ l ++ s) by (rewrite <- app_assoc; reflexivity).
    destruct (IH (p ++ [v]) [] s (i + 1) (j + 1)) as (g' & E & Lg); try (rewrite ?app_length; simpl length in *; lia).
    exists g'. split; [|exact Lg]. rewrite E. rewrite <- app_assoc. reflexivity.
  - simpl app. rewrite wr_at by exact Ej. cbn [obind].
    replace (p ++ v :: g ++ v :: l ++ s) with ((p ++ [v]) ++ (g ++ [v]) ++ l ++ s) by (rewrite <- !app_assoc; reflexivity).
    destruct (IH (p ++ [v]) (g ++ [v]) s (i + 1) (j + 1)) as (g' & E & Lg); try (rewrite ?app_length; simpl length in *; lia).
    exists g'. split; [|rewrite Lg, app_length; simpl length; lia]. rewrite E. rewrite <- app_assoc. reflexivity.
Qed.
Lemma move_up_self l p s i : i = len p -> move_up (length l) (p ++ l ++ s) i i = Some (p ++ l ++ s).
Proof.
  intros E. destruct (move_up_ok l p [] s i i) as (g' & M & Lg); [simpl length; lia|exact E|]. simpl app in M.
  destruct g'; [|discriminate]. exact M.
Qed.
Lemma move_down_ok l : forall p g s i j, i = len p + len l -> j = i + len g ->
  exists g', move_down (length l) (p ++ l ++ g ++ s) i j = Some (p ++ g' ++ l ++ s) /\ length g' = length g.
Proof.
  induction l as [|v l IH] using rev_ind; intros p g s i j Ei Ej; [exists g; auto|]. rewrite app_length in *. simpl length in *.
  rewrite Nat.add_comm. cbn [move_down Nat.add].
  replace (p ++ (l ++ [v]) ++ g ++ s) with ((p ++ l) ++ v :: g ++ s) by (rewrite <- !app_assoc; reflexivity).
  rewrite rd_at by (rewrite app_length; lia). cbn [obind].
  destruct (@exists_last _ (v :: g)) as (g0 & w & Eg); [discriminate|].
  assert (Lg0 : length g0 = length g). { apply (f_equal (@length A)) in Eg. rewrite app_length in Eg. simpl in Eg. lia. }
  replace ((p ++ l) ++ v :: g ++ s) with ((p ++ l ++ g0) ++ w :: s).
  2:{ change (v :: g ++ s) with ((v :: g) ++ s). rewrite Eg, <- !app_assoc. reflexivity. }
  rewrite wr_at by (rewrite !app_length; lia). cbn [obind].
  replace ((p ++ l ++ g0) ++ v :: s) with (p ++ l ++ g0 ++ (v :: s)) by (rewrite <- !app_assoc; reflexivity).
  destruct (IH p g0 (v :: s) (i - 1) (j - 1)) as (g' & E & Lg); try lia.
  exists g'. split; [|congruence]. rewrite E. rewrite <- !app_assoc. reflexivity.
Qed.
Lemma move_down_self l p s i : i = len p + len l -> move_down (length l) (p ++ l ++ s) i i = Some (p ++ l ++ s).
Proof.
  intros E. destruct (move_down_ok l p [] s i i) as (g' & M & Lg); [exact E|simpl length; lia|]. simpl app in M.
  destruct g'; [|discriminate]. exact M.
Qed.

(** ** merge out of the buffer *)
Lemma merge_nil_l l : merge lt [] l = l. Proof. destruct l; reflexivity. Qed.
Lemma merge_nil_r l : merge lt l [] = l. Proof. destruct l; [reflexivity|]. change (merge lt (a :: l) []) with ((a :: l) ++ []). apply app_nil_r. Qed.
Lemma merge_buf_ok fuel : forall buf p g r s i j k, length g = length buf -> k = len p -> i = k + len g -> j = i + len r ->
  (length buf + length r < fuel)%nat ->
  merge_buf lt fuel (p ++ g ++ r ++ s) buf i j k = Some (p ++ merge lt buf r ++ s).
Proof.
  induction fuel as [|fuel IH]; intros buf p g r s i j k Lg Ek Ei Ej Hf; [lia|]. cbn [merge_buf]. destruct buf as [|x buf].
  - destruct g; [|discriminate]. rewrite merge_nil_l. simpl app. replace (Z.to_nat (j - i)) with (length r) by lia.
    replace i with k by (simpl length in Ei; lia). now apply move_up_self.
  - destruct r as [|y r].
    + replace (i =? j) with true by (symmetry; apply Z.eqb_eq; simpl length in Ej; lia). cbn [negb].
      rewrite merge_nil_r. simpl app. rewrite (write_range_ok (x :: buf) g) by auto. cbn [obind].
      replace (Z.to_nat (j - i)) with O by (simpl length in Ej; lia). reflexivity.
    + replace (i =? j) with false by (symmetry; apply Z.eqb_neq; simpl length in Ej; lia). cbn [negb].
      destruct g as [|u g]; [discriminate|]. simpl length in *.
      replace (p ++ (u :: g) ++ (y :: r) ++ s) with ((p ++ u :: g) ++ y :: r ++ s) by (rewrite <- app_assoc; reflexivity).
      rewrite rd_at by (rewrite app_length; simpl length; lia). cbn [obind]. rewrite <- app_assoc. cbn [app].
      cbn [merge]. destruct (lt y x) eqn:L.
      * rewrite wr_at by exact Ek. cbn [obind].
        replace (p ++ y :: g ++ y :: r ++ s) with ((p ++ [y]) ++ (g ++ [y]) ++ r ++ s) by (rewrite <- !app_assoc; reflexivity).
        rewrite IH by (rewrite ?app_length; simpl length; lia). rewrite <- app_assoc. reflexivity.
      * rewrite wr_at by exact Ek. cbn [obind].
        replace (p ++ x :: g ++ y :: r ++ s) with ((p ++ [x]) ++ g ++ (y :: r) ++ s) by (rewrite <- !app_assoc; reflexivity).
        rewrite IH by (rewrite ?app_length; simpl length; lia). rewrite <- app_assoc. reflexivity.
Qed.

(** ** merge backward *)
Lemma merge_backward_loop_ok fuel : forall p l x y b g s i j k,
  length g = S (length b) -> i = len p -> j = i + len l -> k = j + 1 + len g -> (length l + length b < fuel)%nat ->
  ordered lt (l ++ [x]) -> ordered lt (rev (y :: b)) ->
  exists r, merge_backward_loop lt fuel (p ++ (l ++ [x]) ++ g ++ s) i j (y :: b) k = Some (p ++ r ++ s) /\ is_merge (l ++ [x]) (rev (y :: b)) r.
Proof.
  induction fuel as [|fuel IH]; intros p l x y b g s i j k Lg Ei Ej Ek Hf O1 O2; [lia|]. cbn [merge_backward_loop].
  replace (p ++ (l ++ [x]) ++ g ++ s) with ((p ++ l) ++ x :: g ++ s) by (rewrite <- !app_assoc; reflexivity).
  rewrite rd_at by (rewrite app_length; lia). cbn [obind].
  destruct (@exists_last _ g) as (g0 & w & ->); [destruct g; discriminate|]. rewrite app_length in Lg, Ek. simpl length in Lg, Ek.
  cbv zeta. simpl rev in *. destruct (lt y x) eqn:L.
  - destruct (@exists_last _ (x :: g0)) as (h & w' & Eh); [discriminate|].
    replace ((p ++ l) ++ x :: (g0 ++ [w]) ++ s) with ((p ++ l ++ x :: g0) ++ w :: s) by (rewrite <- !app_assoc; simpl; rewrite <- ?app_assoc; reflexivity).
    rewrite wr_at by (rewrite !app_length; simpl length; lia). cbn [obind].
    assert (All : forall z, In z (rev b ++ [y]) -> lt z x = true).
    { intros z I. apply in_app_or in I as [I|[<-|[]]]; [|exact L]. apply ordered_app in O2 as (_ & _ & C).
      specialize (C z y I (or_introl eq_refl)). exact (le_lt_tr lt SW z y x C L). }
    destruct (Z.eqb_spec i j) as [Q|Q].
    + assert (l = []) by (destruct l; [reflexivity|simpl length in Ej; lia]). subst l. simpl app. simpl rev.
      exists ((rev b ++ [y]) ++ [x]). split.
      * replace ((p ++ x :: g0) ++ x :: s) with (p ++ (x :: g0) ++ (x :: s)) by (rewrite <- app_assoc; reflexivity).
        rewrite (write_range_ok (rev b ++ [y])); [rewrite <- !app_assoc; reflexivity| |simpl length; lia].
        rewrite app_length, rev_length. simpl length. lia.
      * apply (is_merge_snoc1 [] (rev b ++ [y]) (rev b ++ [y]) x); auto. now apply is_merge_nil_l.
    + destruct (@exists_last _ l) as (l0 & x0 & ->). { intros ->. simpl length in Ej. lia. }
      rewrite app_length in Ej, Hf. simpl length in Ej, Hf.
      replace ((p ++ (l0 ++ [x0]) ++ x :: g0) ++ x :: s) with (p ++ (l0 ++ [x0]) ++ (x :: g0) ++ (x :: s)) by (rewrite <- !app_assoc; simpl; rewrite <- ?app_assoc; reflexivity).
      destruct (IH p l0 x0 y b (x :: g0) (x :: s) i (j - 1) (k - 1)) as (r & E & M); auto; try (simpl length; lia).
      { now apply ordered_app in O1. }
      exists (r ++ [x]). split; [rewrite E, <- app_assoc; reflexivity|]. apply is_merge_snoc1; auto.
  - replace ((p ++ l) ++ x :: (g0 ++ [w]) ++ s) with ((p ++ l ++ x :: g0) ++ w :: s) by (rewrite <- !app_assoc; simpl; rewrite <- ?app_assoc; reflexivity).
    rewrite wr_at by (rewrite !app_length; simpl length; lia). cbn [obind].
    assert (All : forall z, In z (l ++ [x]) -> lt y z = false).
    { intros z I. apply in_app_or in I as [I|[<-|[]]]; [|exact L]. apply ordered_app in O1 as (_ & _ & C).
      specialize (C z x I (or_introl eq_refl)). exact (le_tr lt SW z x y C L). }
    destruct b as [|y' b].
    + simpl length in *. destruct g0; [|simpl length in Lg; lia]. simpl app. simpl rev.
      exists ((l ++ [x]) ++ [y]). split.
      * replace ((p ++ l ++ [x]) ++ y :: s) with (p ++ (l ++ [x]) ++ (y :: s)) by (rewrite <- !app_assoc; reflexivity).
        replace (Z.to_nat (j + 1 - i)) with (length (l ++ [x])) by (rewrite app_length; simpl length; lia).
        replace (k - 1) with (j + 1) by (simpl length in *; lia).
        rewrite move_down_self by (rewrite app_length; simpl length; lia). rewrite <- (app_assoc (l ++ [x])). reflexivity.
      * apply (is_merge_snoc2 (l ++ [x]) [] (l ++ [x]) y); auto. now apply is_merge_nil_r.
    + replace ((p ++ l ++ x :: g0) ++ y :: s) with (p ++ (l ++ [x]) ++ g0 ++ (y :: s)) by (rewrite <- !app_assoc; simpl; rewrite <- ?app_assoc; reflexivity).
      destruct (IH p l x y' b g0 (y :: s) i j (k - 1)) as (r & E & M); auto; try (simpl length in *; lia).
      { now apply ordered_app in O2. }
      exists (r ++ [y]). split; [rewrite E, <- app_assoc; reflexivity|]. apply is_merge_snoc2; auto.
Qed.
Lemma merge_backward_ok p l g s buf i j k : length g = length buf -> i = len p -> j = i + len l -> k = j + len g ->
  ordered lt l -> ordered lt buf ->
  exists r, merge_backward lt (p ++ l ++ g ++ s) i j buf k = Some (p ++ r ++ s) /\ is_merge l buf r.
Proof.
  intros Lg Ei Ej Ek O1 O2. unfold merge_backward. destruct (Z.eqb_spec i j) as [Q|Q].
  - assert (l = []) by (destruct l; [reflexivity|simpl length in Ej; lia]). subst l. simpl app. exists buf. split; [|now apply is_merge_nil_l].
    apply write_range_ok; [exact Lg|simpl length in *; lia].
  - destruct (@exists_last _ l) as (l0 & x & ->). { intros ->. simpl length in Ej. lia. }
    destruct buf as [|y0 b0].
    + exists (l0 ++ [x]). split; [|now apply is_merge_nil_r]. destruct g; [|discriminate]. replace (Z.to_nat (j - i)) with (length (l0 ++ [x])) by lia.
      simpl app. replace k with j by (simpl length in Ek; lia). apply move_down_self. lia.
    + destruct (@exists_last _ (y0 :: b0)) as (b & y & Eb); [discriminate|]. rewrite Eb in *. clear y0 b0 Eb.
      rewrite rev_app_distr. simpl rev. simpl app. rewrite !app_length in *. simpl length in *.
      destruct (merge_backward_loop_ok (S (Z.to_nat (j - i) + (length b + 1))) p l0 x y (rev b) g s i (j - 1) k) as (r & E & M); auto;
        rewrite ?rev_length; try lia.
      { simpl rev. now rewrite rev_involutive. }
      simpl rev in M. rewrite rev_involutive in M. exists r. split; [exact E|exact M].
Qed.

(** ** the cuts *)
Lemma cuts_ok p l1 l2 s : ordered lt l1 -> ordered lt l2 -> 1 <= len l1 -> 1 <= len l2 -> 3 <= len l1 + len l2 ->
  exists l11 l12 l21 l22, l1 = l11 ++ l12 /\ l2 = l21 ++ l22 /\
    cuts lt (p ++ l1 ++ l2 ++ s) (len p) (len p + len l1) (len p + len l1 + len l2) (len l1) (len l2) =
      Some (len p + len l11, len p + len l1 + len l21, len l11, len l21) /\
    (forall y x, In y l21 -> In x l12 -> lt y x = true) /\ (forall x y, In x l11 -> In y l22 -> lt y x = false) /\
    (length l11 + length l21 < length l1 + length l2)%nat /\ (length l12 + length l22 < length l1 + length l2)%nat.
Proof.
  intros O1 O2 H1 H2 H3. unfold cuts.
  assert (Sh : forall z, 2 <= z -> 1 <= Z.shiftr z 1 < z).
  { intros z Hz. rewrite Z.shiftr_div_pow2 by lia. change (2 ^ 1) with 2. Z.div_mod_to_equations; lia. }
  destruct (Z.ltb_spec (len l2) (len l1)) as [G|G].
  - pose proof (Sh (len l1) ltac:(lia)) as B. set (h := Z.shiftr (len l1) 1) in *. clearbody h. cbv zeta.
    rewrite rd_mid by lia. destruct (rd_ex l1 h) as [x Ex]; [lia|]. rewrite Ex. cbn [obind].
    assert (El : exists l11 l12, l1 = l11 ++ x :: l12 /\ len l11 = h).
    { unfold rd in Ex. destruct (Z.ltb_spec h 0); [lia|]. apply nth_error_split in Ex as (u & v & -> & Lu). exists u, v. split; [reflexivity|lia]. }
    destruct El as (l11 & l12 & -> & Lh).
    destruct (C72_lower_bound lt SW (p ++ (l11 ++ x :: l12)) l2 s x O2) as (i & E & (l21 & l22 & -> & -> & F1 & F2)).
    rewrite app_length in E. rewrite Nat2Z.inj_add in E. rewrite <- app_assoc in E. rewrite E. cbn [obind].
    exists l11, (x :: l12), l21, l22. split; [reflexivity|]. split; [reflexivity|]. split.
    { f_equal. f_equal; [f_equal; [f_equal|]|]; lia. }
    rewrite Forall_forall in F1, F2. apply ordered_app in O1 as (_ & O1 & C1). apply ordered_inv in O1 as [_ F]. rewrite Forall_forall in F.
    split; [|split; [|rewrite !app_length in *; simpl length in *; lia]].
    + intros y z Iy [<-|Iz]; [now apply F1|]. apply (lt_le_tr lt SW y x z); [now apply F1|now apply F].
    + intros z y Iz Iy. apply (le_tr lt SW z x y); [apply C1; [exact Iz|left; reflexivity]|now apply F2].
  - pose proof (Sh (len l2) ltac:(lia)) as B. set (h := Z.shiftr (len l2) 1) in *. clearbody h. cbv zeta.
    replace (p ++ l1 ++ l2 ++ s) with ((p ++ l1) ++ l2 ++ s) by (rewrite <- app_assoc; reflexivity).
    replace (len p + len l1 + h) with (len (p ++ l1) + h) by (rewrite app_length; lia). rewrite rd_mid by lia.
    destruct (rd_ex l2 h) as [y Ey]; [lia|]. rewrite Ey. cbn [obind].
    assert (El : exists l21 l22, l2 = l21 ++ y :: l22 /\ len l21 = h).
    { unfold rd in Ey. destruct (Z.ltb_spec h 0); [lia|]. apply nth_error_split in Ey as (u & v & -> & Lu). exists u, v. split; [reflexivity|lia]. }
    destruct El as (l21 & l22 & -> & Lh). rewrite <- app_assoc.
    destruct (C72_upper_bound lt SW p l1 ((l21 ++ y :: l22) ++ s) y O1) as (i & E & (l11 & l12 & -> & -> & F1 & F2)).
    rewrite E. cbn [obind].
    exists l11, l12, l21, (y :: l22). split; [reflexivity|]. split; [reflexivity|]. split.
    { f_equal. f_equal; [f_equal; [f_equal|]|]; rewrite ?app_length in *; lia. }
    rewrite Forall_forall in F1, F2. apply ordered_app in O2 as (_ & O2 & C2). apply ordered_inv in O2 as [_ F]. rewrite Forall_forall in F.
    split; [|split; [|rewrite !app_length in *; simpl length in *; lia]].
    + intros z x Iz Ix. apply F2 in Ix. apply negb_false_iff in Ix. apply (le_lt_tr lt SW z y x); [|exact Ix]. apply C2; [exact Iz|left; reflexivity].
    + intros x z Ix Iz. apply F1 in Ix. apply negb_true_iff in Ix. destruct Iz as [<-|Iz]; [exact Ix|].
      exact (le_tr lt SW x y z Ix (F z Iz)).
Qed.

Lemma rotate_adaptive_ok k B p (x y : list A) s i m j : 0 <= B -> i = len p -> m = i + len x -> j = m + len y ->
  rotate_adaptive k (p ++ x ++ y ++ s) i m j (len x) (len y) B = Some (p ++ y ++ x ++ s, len p + len y).
Proof.
  intros HB Ei Em Ej. unfold rotate_adaptive. destruct ((len y <? len x) && (len y <=? B)) eqn:C1.
  - apply andb_true_iff in C1 as [_ C1]. apply Z.leb_le in C1.
    replace (p ++ x ++ y ++ s) with ((p ++ x) ++ y ++ s) by (rewrite <- app_assoc; reflexivity).
    rewrite to_buffer_ok by (rewrite ?app_length; lia). cbn [obind]. rewrite <- app_assoc.
    replace (Z.to_nat (m - i)) with (length x) by lia.
    destruct (move_down_ok x p y s m j) as (g' & E & Lg); [lia|lia|]. rewrite E. cbn [obind].
    rewrite write_range_ok by auto. cbn [obind]. now rewrite Ei.
  - destruct (Z.leb_spec (len x) B) as [G|G].
    + rewrite to_buffer_ok by lia. cbn [obind]. replace (Z.to_nat (j - m)) with (length y) by lia.
      destruct (move_up_ok y p x s m i) as (g' & E & Lg); [lia|lia|]. rewrite E. cbn [obind].
      replace (p ++ y ++ g' ++ s) with ((p ++ y) ++ g' ++ s) by (rewrite <- app_assoc; reflexivity).
      rewrite write_range_ok by (rewrite ?app_length; lia). cbn [obind]. rewrite <- app_assoc. do 2 f_equal. lia.
    + subst. apply C74_rotate.
Qed.

Lemma merge_without_buffer_ok fuel k : forall p l1 l2 s i m j, ordered lt l1 -> ordered lt l2 -> i = len p -> m = i + len l1 -> j = m + len l2 ->
  (length l1 + length l2 < fuel)%nat ->
  exists r, merge_without_buffer lt fuel k (p ++ l1 ++ l2 ++ s) i m j (len l1) (len l2) = Some (p ++ r ++ s) /\ is_merge l1 l2 r.
Proof.
  induction fuel as [|fuel IH]; intros p l1 l2 s i m j O1 O2 Ei Em Ej Hf; [lia|]. cbn [merge_without_buffer].
  destruct (Z.eqb_spec (len l1) 0) as [Q1|Q1]; [|destruct (Z.eqb_spec (len l2) 0) as [Q2|Q2]]; cbn [orb].
  - assert (l1 = []) by (destruct l1; [reflexivity|simpl length in Q1; lia]). subst l1. exists l2. split; [reflexivity|now apply is_merge_nil_l].
  - assert (l2 = []) by (destruct l2; [reflexivity|simpl length in Q2; lia]). subst l2. exists l1. split; [reflexivity|now apply is_merge_nil_r].
  - destruct (Z.eqb_spec (len l1 + len l2) 2) as [Q|Q].
    + destruct l1 as [|x [|? ?]]; simpl length in *; try lia. destruct l2 as [|y [|? ?]]; simpl length in *; try lia. simpl app.
      replace (p ++ x :: y :: s) with ((p ++ [x]) ++ y :: s) by (rewrite <- app_assoc; reflexivity).
      rewrite rd_at by (rewrite app_length; simpl length; lia). cbn [obind]. rewrite <- app_assoc. simpl app. rewrite rd_at by exact Ei. cbn [obind].
      pose proof (merge_is [x] [y] O1 O2) as M. cbn [merge] in M. destruct (lt y x).
      * pose proof (iter_swap_at p x [] y s i m Ei ltac:(simpl length; lia)) as W. simpl app in W. rewrite W. exists [y; x]. auto.
      * exists [x; y]. auto.
    + destruct (cuts_ok p l1 l2 s O1 O2) as (l11 & l12 & l21 & l22 & -> & -> & E & H1 & H2 & S1 & S2); try lia.
      subst i m j. rewrite E. cbn [obind]. clear E.
      replace (p ++ (l11 ++ l12) ++ (l21 ++ l22) ++ s) with ((p ++ l11) ++ l12 ++ l21 ++ (l22 ++ s)) by (rewrite <- !app_assoc; reflexivity).
      rewrite !app_length in *. rewrite !Nat2Z.inj_add in *.
      pose proof (C74_rotate k (p ++ l11) l12 l21 (l22 ++ s)) as R. rewrite app_length, Nat2Z.inj_add in R.
      replace (len p + (len l11 + len l12)) with (len p + len l11 + len l12) by lia. rewrite R. cbn [obind]. clear R.
      pose proof O1 as O1'. apply ordered_app in O1' as (O11 & O12 & _). pose proof O2 as O2'. apply ordered_app in O2' as (O21 & O22 & _).
      replace ((p ++ l11) ++ l21 ++ l12 ++ l22 ++ s) with (p ++ l11 ++ l21 ++ (l12 ++ l22 ++ s)) by (rewrite <- !app_assoc; reflexivity).
      destruct (IH p l11 l21 (l12 ++ l22 ++ s) (len p) (len p + len l11) (len p + len l11 + len l21)) as (r1 & E1 & M1); auto; try lia.
      rewrite E1. cbn [obind]. clear E1. pose proof (is_merge_len _ _ _ M1) as L1.
      replace (p ++ r1 ++ l12 ++ l22 ++ s) with ((p ++ r1) ++ l12 ++ l22 ++ s) by (rewrite <- app_assoc; reflexivity).
      replace (len l11 + len l12 - len l11) with (len l12) by lia. replace (len l21 + len l22 - len l21) with (len l22) by lia.
      destruct (IH (p ++ r1) l12 l22 s (len p + len l11 + len l21) (len p + len l11 + len l12 + len l21) (len p + len l11 + len l12 + (len l21 + len l22)))
        as (r2 & E2 & M2); auto; try (rewrite ?app_length; lia).
      rewrite E2. exists (r1 ++ r2). split; [rewrite <- !app_assoc; reflexivity|]. now apply is_merge_split.
Qed.
Lemma merge_adaptive_ok fuel k B : 0 < B -> forall p l1 l2 s i m j, ordered lt l1 -> ordered lt l2 -> i = len p -> m = i + len l1 -> j = m + len l2 ->
  (length l1 + length l2 < fuel)%nat ->
  exists r, merge_adaptive lt fuel k (p ++ l1 ++ l2 ++ s) i m j (len l1) (len l2) B = Some (p ++ r ++ s) /\ is_merge l1 l2 r.
Proof.
  intros HB. induction fuel as [|fuel IH]; intros p l1 l2 s i m j O1 O2 Ei Em Ej Hf; [lia|]. cbn [merge_adaptive].
  destruct ((len l1 <=? len l2) && (len l1 <=? B)) eqn:C1.
  - apply andb_true_iff in C1 as [_ C1]. apply Z.leb_le in C1. rewrite to_buffer_ok by lia. cbn [obind].
    exists (merge lt l1 l2). split; [|now apply merge_is]. apply merge_buf_ok; auto; lia.
  - destruct (Z.leb_spec (len l2) B) as [G|G].
    + replace (p ++ l1 ++ l2 ++ s) with ((p ++ l1) ++ l2 ++ s) by (rewrite <- app_assoc; reflexivity).
      rewrite to_buffer_ok by (rewrite ?app_length; lia). cbn [obind]. rewrite <- app_assoc. apply merge_backward_ok; auto; lia.
    + assert (1 <= len l1).
      { apply andb_false_iff in C1 as [C1|C1]; apply Z.leb_gt in C1; lia. }
      destruct (cuts_ok p l1 l2 s O1 O2) as (l11 & l12 & l21 & l22 & -> & -> & E & H1 & H2 & S1 & S2); try lia.
      subst i m j. rewrite E. cbn [obind]. clear E.
      replace (p ++ (l11 ++ l12) ++ (l21 ++ l22) ++ s) with ((p ++ l11) ++ l12 ++ l21 ++ (l22 ++ s)) by (rewrite <- !app_assoc; reflexivity).
      rewrite !app_length in *. rewrite !Nat2Z.inj_add in *.
      replace (len l11 + len l12 - len l11) with (len l12) by lia. replace (len l21 + len l22 - len l21) with (len l22) by lia.
      rewrite (rotate_adaptive_ok k B (p ++ l11) l12 l21 (l22 ++ s)) by (rewrite ?app_length; lia). cbn [obind].
      rewrite app_length, Nat2Z.inj_add.
      replace (len p + (len l11 + len l12)) with (len p + len l11 + len l12) by lia.
      pose proof O1 as O1'. apply ordered_app in O1' as (O11 & O12 & _). pose proof O2 as O2'. apply ordered_app in O2' as (O21 & O22 & _).
      replace ((p ++ l11) ++ l21 ++ l12 ++ l22 ++ s) with (p ++ l11 ++ l21 ++ (l12 ++ l22 ++ s)) by (rewrite <- !app_assoc; reflexivity).
      destruct (IH p l11 l21 (l12 ++ l22 ++ s) (len p) (len p + len l11) (len p + len l11 + len l21)) as (r1 & E1 & M1); auto; try lia.
      rewrite E1. cbn [obind]. clear E1. pose proof (is_merge_len _ _ _ M1) as L1.
      replace (p ++ r1 ++ l12 ++ l22 ++ s) with ((p ++ r1) ++ l12 ++ l22 ++ s) by (rewrite <- app_assoc; reflexivity).
      destruct (IH (p ++ r1) l12 l22 s (len p + len l11 + len l21) (len p + len l11 + len l12 + len l21) (len p + len l11 + len l12 + (len l21 + len l22)))
        as (r2 & E2 & M2); auto; try (rewrite ?app_length; lia).
      rewrite E2. exists (r1 ++ r2). split; [rewrite <- !app_assoc; reflexivity|]. now apply is_merge_split.
Qed.

(** C75: whatever buffer malloc grants, inplace_merge turns two sorted neighbours into their stable merge and touches nothing else *)
Theorem C75_inplace_merge k got p l1 l2 s : 0 <= got -> ordered lt l1 -> ordered lt l2 ->
  exists r, inplace_merge lt k got (p ++ l1 ++ l2 ++ s) (len p) (len p + len l1) (len p + len l1 + len l2) = Some (p ++ r ++ s) /\
    Permutation (l1 ++ l2) r /\ ordered lt r /\ forall v, alike v r = alike v l1 ++ alike v l2.
Proof.
  intros HB O1 O2. unfold inplace_merge.
  destruct (Z.eqb_spec (len p) (len p + len l1)) as [Q1|Q1]; [|destruct (Z.eqb_spec (len p + len l1) (len p + len l1 + len l2)) as [Q2|Q2]]; cbn [orb].
  - assert (l1 = []) by (destruct l1; [reflexivity|simpl length in Q1; lia]). subst l1. exists l2. split; [reflexivity|]. exact (is_merge_nil_l l2 O2).
  - assert (l2 = []) by (destruct l2; [reflexivity|simpl length in Q2; lia]). subst l2. exists l1. split; [reflexivity|]. exact (is_merge_nil_r l1 O1).
  - cbv zeta. replace (len p + len l1 - len p) with (len l1) by lia. replace (len p + len l1 + len l2 - (len p + len l1)) with (len l2) by lia.
    destruct (Z.eqb_spec got 0) as [G|G].
    + apply merge_without_buffer_ok; auto; lia.
    + apply merge_adaptive_ok; auto; lia.
Qed.
(** C75: the result does not depend on the kind of iterator or on the buffer and is the one of merge into new memory *)
Theorem C75_same_as_merge k got p l1 l2 s : 0 <= got -> ordered lt l1 -> ordered lt l2 ->
  inplace_merge lt k got (p ++ l1 ++ l2 ++ s) (len p) (len p + len l1) (len p + len l1 + len l2) = Some (p ++ merge lt l1 l2 ++ s).
Proof.
  intros HB O1 O2. destruct (C75_inplace_merge k got p l1 l2 s HB O1 O2) as (r & E & M). rewrite E.
  rewrite (is_merge_unique l1 l2 r (merge lt l1 l2) M (merge_is l1 l2 O1 O2)). reflexivity.
Qed.
End Proof.

(** the two ranges of the example are sorted by key and share the key 2; buffers of 0, 2 and 100 elements *)
Example C75_example :
  let l1 := [(1, 10); (2, 10); (2, 11); (5, 10)] in let l2 := [(2, 20); (2, 21); (3, 20)] in
  let r := [(0, 0); (1, 10); (2, 10); (2, 11); (2, 20); (2, 21); (3, 20); (5, 10); (9, 9)] in
  ordered by_key l1 /\ ordered by_key l2 /\
  inplace_merge by_key Random 0 ([(0, 0)] ++ l1 ++ l2 ++ [(9, 9)]) 1 5 8 = Some r /\
  inplace_merge by_key Bidirectional 2 ([(0, 0)] ++ l1 ++ l2 ++ [(9, 9)]) 1 5 8 = Some r /\
  inplace_merge by_key Random 100 ([(0, 0)] ++ l1 ++ l2 ++ [(9, 9)]) 1 5 8 = Some r.
Proof. cbv zeta. split; [repeat constructor|]. split; [repeat constructor|]. vm_compute. repeat split. Qed.

Print Assumptions C75_inplace_merge.
Print Assumptions C75_same_as_merge.
