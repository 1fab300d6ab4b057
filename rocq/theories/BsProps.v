(** Binary searches (C72).  The range is the middle part [l] of [p ++ l ++ s]. *)
From Coq Require Import ZArith List Bool Lia Permutation Sorted.
From Verif Require Import F64 ArrModel ArrLib SortModel SortSpec HeapProof SortProps BsModel.
Import ListNotations.
Open Scope Z_scope.

(** the range splits at i: before i the elements have the property, from i on they have not *)
Definition splits_at {A} (P : A -> bool) (l : list A) (i : Z) : Prop :=
  exists l1 l2, l = l1 ++ l2 /\ i = len l1 /\ Forall (fun x => P x = true) l1 /\ Forall (fun x => P x = false) l2.

Section Proof.
Context {A : Type} (lt : A -> A -> bool) (SW : strict_weak lt).
Implicit Types (a p l s : list A) (x y v : A).

(** P is true on an initial part of [lo,hi) *)
Definition mono (P : A -> bool) a (lo hi : Z) : Prop :=
  forall i j x y, lo <= i -> i < j -> j < hi -> rd a i = Some x -> rd a j = Some y -> P y = true -> P x = true.
Definition cut_at (P : A -> bool) a (lo hi i : Z) : Prop :=
  lo <= i <= hi /\ (forall j x, lo <= j < i -> rd a j = Some x -> P x = true) /\
  (forall j x, i <= j < hi -> rd a j = Some x -> P x = false).

Lemma half_bounds n : 0 < n -> 0 <= Z.shiftr n 1 < n.
Proof. intros H. rewrite Z.shiftr_div_pow2 by lia. change (2 ^ 1) with 2. Z.div_mod_to_equations; lia. Qed.

Lemma lbound_ok fuel : forall a first n v, 0 <= first -> 0 <= n -> first + n <= len a -> (Z.to_nat n < fuel)%nat ->
  mono (fun x => lt x v) a first (first + n) ->
  exists i, lbound_loop lt fuel a first n v = Some i /\ cut_at (fun x => lt x v) a first (first + n) i.
Proof.
  induction fuel as [|fuel IH]; intros a first n v H0 H1 H2 Hf M; [lia|].
  cbn [lbound_loop]. destruct (Z.ltb_spec 0 n) as [L|G].
  - pose proof (half_bounds n L) as Hh. set (h := Z.shiftr n 1) in *. clearbody h. cbv zeta.
    destruct (rd_ex a (first + h)) as [x Ex]; [lia|]. rewrite Ex. cbn [obind].
    destruct (lt x v) eqn:Lx.
    + destruct (IH a (first + h + 1) (n - h - 1) v) as (i & E & C1 & C2 & C3); try lia.
      { intros i j u w Hi Hij Hj. apply M; lia. }
      exists i. split; [exact E|]. split; [lia|]. split.
      * intros j u Hj Eu. destruct (Z_lt_dec j (first + h + 1)) as [Hl|Hl]; [|apply (C2 j); auto; lia].
        destruct (Z.eq_dec j (first + h)) as [->|]; [congruence|].
        refine (M j (first + h) u x _ _ _ Eu Ex Lx); lia.
      * intros j u Hj. apply C3. lia.
    + destruct (IH a first h v) as (i & E & C1 & C2 & C3); try lia.
      { intros i j u w Hi Hij Hj. apply M; lia. }
      exists i. split; [exact E|]. split; [lia|]. split; [exact C2|].
      intros j u Hj Eu. destruct (Z_lt_dec j (first + h)) as [Hl|Hl]; [apply (C3 j); auto; lia|].
      destruct (lt u v) eqn:Lu; [|reflexivity]. destruct (Z.eq_dec j (first + h)) as [->|]; [congruence|].
      pose proof (M (first + h) j x u ltac:(lia) ltac:(lia) ltac:(lia) Ex Eu Lu). simpl in *. congruence.
  - exists first. split; [reflexivity|]. split; [lia|]. split; intros; lia.
Qed.
Lemma ubound_ok fuel : forall a first n v, 0 <= first -> 0 <= n -> first + n <= len a -> (Z.to_nat n < fuel)%nat ->
  mono (fun x => negb (lt v x)) a first (first + n) ->
  exists i, ubound_loop lt fuel a first n v = Some i /\ cut_at (fun x => negb (lt v x)) a first (first + n) i.
Proof.
  induction fuel as [|fuel IH]; intros a first n v H0 H1 H2 Hf M; [lia|].
  cbn [ubound_loop]. destruct (Z.ltb_spec 0 n) as [L|G].
  - pose proof (half_bounds n L) as Hh. set (h := Z.shiftr n 1) in *. clearbody h. cbv zeta.
    destruct (rd_ex a (first + h)) as [x Ex]; [lia|]. rewrite Ex. cbn [obind].
    destruct (lt v x) eqn:Lx.
    + destruct (IH a first h v) as (i & E & C1 & C2 & C3); try lia.
      { intros i j u w Hi Hij Hj. apply M; lia. }
      exists i. split; [exact E|]. split; [lia|]. split; [exact C2|].
      intros j u Hj Eu. destruct (Z_lt_dec j (first + h)) as [Hl|Hl]; [apply (C3 j); auto; lia|].
      destruct (negb (lt v u)) eqn:Lu; [|reflexivity]. destruct (Z.eq_dec j (first + h)) as [->|].
      { rewrite Ex in Eu. injection Eu as <-. rewrite Lx in Lu. discriminate. }
      pose proof (M (first + h) j x u ltac:(lia) ltac:(lia) ltac:(lia) Ex Eu Lu) as C. simpl in C. rewrite Lx in C. discriminate.
    + destruct (IH a (first + h + 1) (n - h - 1) v) as (i & E & C1 & C2 & C3); try lia.
      { intros i j u w Hi Hij Hj. apply M; lia. }
      exists i. split; [exact E|]. split; [lia|]. split.
      * intros j u Hj Eu. destruct (Z_lt_dec j (first + h + 1)) as [Hl|Hl]; [|apply (C2 j); auto; lia].
        destruct (Z.eq_dec j (first + h)) as [->|]. { rewrite Ex in Eu. injection Eu as <-. now rewrite Lx. }
        refine (M j (first + h) u x _ _ _ Eu Ex _); try lia. now rewrite Lx.
      * intros j u Hj. apply C3. lia.
  - exists first. split; [reflexivity|]. split; [lia|]. split; intros; lia.
Qed.

Lemma cut_unique P a lo hi i j : 0 <= lo -> hi <= len a -> cut_at P a lo hi i -> cut_at P a lo hi j -> i = j.
Proof.
  intros H0 H1 (Ri & I1 & I2) (Rj & J1 & J2). destruct (Z.lt_trichotomy i j) as [L|[E|L]]; [|exact E|]; exfalso.
  - destruct (rd_ex a i) as [x Ex]; [lia|]. pose proof (I2 i x ltac:(lia) Ex). pose proof (J1 i x ltac:(lia) Ex). congruence.
  - destruct (rd_ex a j) as [x Ex]; [lia|]. pose proof (I1 j x ltac:(lia) Ex). pose proof (J2 j x ltac:(lia) Ex). congruence.
Qed.

Lemma asc_mono_lt a lo hi v : asc lt a lo hi -> mono (fun x => lt x v) a lo hi.
Proof.
  intros S i j x y Hi Hij Hj Ex Ey. simpl. intros L. eapply le_lt_trans; [exact SW| |exact L]. exact (S i j Hi Hij Hj x y Ex Ey).
Qed.
Lemma asc_mono_le a lo hi v : asc lt a lo hi -> mono (fun x => negb (lt v x)) a lo hi.
Proof.
  intros S i j x y Hi Hij Hj Ex Ey. simpl. rewrite !negb_true_iff. intros L.
  pose proof (S i j Hi Hij Hj x y Ex Ey) as B. exact (le_trans lt SW x y v B L).
Qed.

Lemma cut_mid P p l s i : cut_at P (p ++ l ++ s) (len p) (len p + len l) i <-> splits_at P l (i - len p) /\ len p <= i <= len p + len l.
Proof.
  split.
  - intros (Ri & C1 & C2). split; [|lia]. exists (firstn (Z.to_nat (i - len p)) l), (skipn (Z.to_nat (i - len p)) l).
    split; [symmetry; apply firstn_skipn|]. split; [rewrite firstn_length; lia|]. split; apply Forall_forall; intros x I.
    + apply In_nth_error in I as [k Ek]. assert (Hk : (k < Z.to_nat (i - len p))%nat).
      { destruct (Nat.lt_ge_cases k (Z.to_nat (i - len p))); [assumption|]. rewrite firstn_nth_out in Ek by lia. discriminate. }
      rewrite firstn_nth in Ek by lia. apply (C1 (len p + Z.of_nat k)); [lia|]. rewrite rd_mid.
      * unfold rd. destruct (Z.ltb_spec (Z.of_nat k) 0); [lia|]. now rewrite Nat2Z.id.
      * lia.
    + apply In_nth_error in I as [k Ek]. rewrite skipn_nth in Ek.
      assert (Hk : (Z.to_nat (i - len p) + k < length l)%nat) by (apply nth_error_Some; congruence).
      apply (C2 (len p + Z.of_nat (Z.to_nat (i - len p) + k))); [lia|]. rewrite rd_mid by lia.
      unfold rd. destruct (Z.ltb_spec (Z.of_nat (Z.to_nat (i - len p) + k)) 0); [lia|]. now rewrite Nat2Z.id.
  - intros [(l1 & l2 & -> & E & F1 & F2) Ri]. rewrite app_length in Ri. split; [rewrite app_length; lia|].
    rewrite Forall_forall in F1, F2. split; intros j x Hj Ex.
    + apply F1. replace j with (len p + (j - len p)) in Ex by lia. rewrite rd_mid in Ex by (rewrite app_length; lia).
      unfold rd in Ex. destruct (Z.ltb_spec (j - len p) 0); [discriminate|]. rewrite nth_error_app1 in Ex by lia.
      eapply nth_error_In; eauto.
    + apply F2. replace j with (len p + (j - len p)) in Ex by lia. rewrite rd_mid in Ex by lia.
      unfold rd in Ex. destruct (Z.ltb_spec (j - len p) 0); [discriminate|]. rewrite nth_error_app2 in Ex by lia.
      eapply nth_error_In; eauto.
Qed.

(** C72: lower_bound on any range in which the elements less than v come first (in particular on an ascending range) *)
Theorem C72_lower_bound p l s v : ordered lt l ->
  exists i, lower_bound lt (p ++ l ++ s) (len p) (len p + len l) v = Some (len p + i) /\ splits_at (fun x => lt x v) l i.
Proof.
  intros O. apply (ordered_mid lt p l s) in O. unfold lower_bound. replace (len p + len l - len p) with (len l) by lia.
  destruct (lbound_ok (S (Z.to_nat (len l))) (p ++ l ++ s) (len p) (len l) v) as (i & E & C); rewrite ?mid_len; try lia.
  { now apply asc_mono_lt. }
  apply cut_mid in C as [C R]. exists (i - len p). split; [|exact C]. now replace (len p + (i - len p)) with i by lia.
Qed.
Theorem C72_upper_bound p l s v : ordered lt l ->
  exists i, upper_bound lt (p ++ l ++ s) (len p) (len p + len l) v = Some (len p + i) /\ splits_at (fun x => negb (lt v x)) l i.
Proof.
  intros O. apply (ordered_mid lt p l s) in O. unfold upper_bound. replace (len p + len l - len p) with (len l) by lia.
  destruct (ubound_ok (S (Z.to_nat (len l))) (p ++ l ++ s) (len p) (len l) v) as (i & E & C); rewrite ?mid_len; try lia.
  { now apply asc_mono_le. }
  apply cut_mid in C as [C R]. exists (i - len p). split; [|exact C]. now replace (len p + (i - len p)) with i by lia.
Qed.
(** C72: binary_search(first, last, v) *)
Theorem C72_binary_search p l s v : ordered lt l ->
  exists r, binary_search lt (lower_bound lt) (p ++ l ++ s) (len p) (len p + len l) v = Some r /\
    (r = true <-> exists x, In x l /\ lt x v = false /\ lt v x = false).
Proof.
  intros O. destruct (C72_lower_bound p l s v O) as (i & E & (l1 & l2 & -> & -> & F1 & F2)).
  unfold binary_search. rewrite E. cbn [obind]. rewrite Forall_forall in F1, F2. rewrite app_length.
  destruct l2 as [|y l2].
  - rewrite app_nil_r in *. replace (len p + len l1 =? len p + Z.of_nat (length l1 + length (@nil A))) with true by (symmetry; apply Z.eqb_eq; simpl; lia).
    exists false. split; [reflexivity|]. split; [discriminate|]. intros (x & I & X1 & X2). rewrite (F1 x I) in X1. discriminate.
  - replace (len p + len l1 =? len p + Z.of_nat (length l1 + length (y :: l2))) with false by (symmetry; apply Z.eqb_neq; simpl; lia).
    rewrite rd_mid by (rewrite app_length; simpl; lia).
    assert (Ey : rd (l1 ++ y :: l2) (len l1) = Some y).
    { unfold rd. destruct (Z.ltb_spec (len l1) 0); [lia|]. rewrite Nat2Z.id, nth_error_app2, Nat.sub_diag by lia. reflexivity. }
    rewrite Ey. cbn [obind]. eexists; split; [reflexivity|]. rewrite negb_true_iff. split.
    + intros L. exists y. split; [apply in_or_app; right; left; reflexivity|]. split; [|exact L]. apply F2. left; reflexivity.
    + intros (x & I & X1 & X2). apply in_app_or in I as [I|[<-|I]]; [rewrite (F1 x I) in X1; discriminate|exact X2|].
      assert (B : lt x y = false).
      { clear - O I. induction l1 as [|z l1 IH]; simpl in O.
        - apply StronglySorted_inv in O as [_ F]. rewrite Forall_forall in F. now apply F.
        - apply StronglySorted_inv in O as [O _]. now apply IH. }
      exact (le_trans lt SW y x v B X2).
Qed.

(** C72: equal_range when an equivalent element is present *)
Lemma erange_ok fuel fwd : forall a lo hi first n v, 0 <= lo <= first -> 0 <= n -> first + n <= hi -> hi <= len a -> (Z.to_nat n < fuel)%nat ->
  asc lt a lo hi ->
  (forall j x, lo <= j < first -> rd a j = Some x -> lt x v = true) ->
  (forall j x, first + n <= j < hi -> rd a j = Some x -> lt v x = true) ->
  exists r, erange_loop lt fuel fwd a first n hi v = Some r /\
    ((exists j x, lo <= j < hi /\ rd a j = Some x /\ lt x v = false /\ lt v x = false) ->
       cut_at (fun x => lt x v) a lo hi (fst r) /\ cut_at (fun x => negb (lt v x)) a lo hi (snd r)) /\
    (~ (exists j x, lo <= j < hi /\ rd a j = Some x /\ lt x v = false /\ lt v x = false) -> r = (hi, hi)).
Proof.
  induction fuel as [|fuel IH]; intros a lo hi first n v H0 H1 H2 H3 Hf S IL IR; [lia|].
  cbn [erange_loop]. destruct (Z.ltb_spec 0 n) as [L|G].
  - pose proof (half_bounds n L) as Hh. set (h := Z.shiftr n 1) in *. clearbody h. cbv zeta.
    destruct (rd_ex a (first + h)) as [x Ex]; [lia|]. rewrite Ex. cbn [obind].
    destruct (lt x v) eqn:L1; [|destruct (lt v x) eqn:L2].
    + apply IH; auto; try lia.
      * intros j u Hj Eu. destruct (Z.eq_dec j (first + h)) as [->|]; [congruence|].
        destruct (Z_lt_dec j first); [apply (IL j); auto; lia|].
        eapply le_lt_trans; [exact SW| |exact L1]. refine (S j (first + h) _ _ _ u x Eu Ex); lia.
      * intros j u Hj. apply IR. lia.
    + apply IH; auto; try lia.
      intros j u Hj Eu. destruct (Z.eq_dec j (first + h)) as [->|]; [congruence|].
      destruct (Z_lt_dec j (first + n)); [|apply (IR j); auto; lia].
      eapply lt_le_trans; [exact SW|exact L2|]. refine (S (first + h) j _ _ _ x u Ex Eu); lia.
    + assert (EL : exists i, lower_bound lt a first (if fwd then hi else first + h) v = Some i /\ cut_at (fun u => lt u v) a lo hi i).
      { unfold lower_bound. set (e := if fwd then hi else first + h). assert (He : first + h <= e <= hi) by (unfold e; destruct fwd; lia). clearbody e.
        destruct (lbound_ok (Datatypes.S (Z.to_nat (e - first))) a first (e - first) v) as (i & E & C1 & C2 & C3); try lia.
        { intros i j u w Hi Hij Hj. refine (asc_mono_lt a lo hi v S i j u w _ _ _); lia. }
        exists i. split; [exact E|]. split; [lia|]. split.
        - intros j u Hj Eu. destruct (Z_lt_dec j first); [apply (IL j); auto; lia|apply (C2 j); auto; lia].
        - intros j u Hj Eu. destruct (Z_lt_dec j e); [apply (C3 j); auto; lia|].
          assert (B : lt u x = false).
          { destruct (Z.eq_dec j (first + h)) as [->|]; [rewrite Ex in Eu; injection Eu as <-; apply (sw_irr _ SW)|].
            refine (S (first + h) j _ _ _ x u Ex Eu); lia. }
          exact (le_trans lt SW v x u L1 B). }
      assert (ER : exists i, upper_bound lt a (first + h + 1) (first + n) v = Some i /\ cut_at (fun u => negb (lt v u)) a lo hi i).
      { unfold upper_bound. set (b := first + h + 1). assert (Hb : first + h < b <= first + n) by (unfold b; lia).
        destruct (ubound_ok (Datatypes.S (Z.to_nat (first + n - b))) a b (first + n - b) v) as (i & E & C1 & C2 & C3); try lia.
        { intros i j u w Hi Hij Hj. refine (asc_mono_le a lo hi v S i j u w _ _ _); lia. }
        exists i. split; [exact E|]. split; [lia|]. split.
        - intros j u Hj Eu. destruct (Z_lt_dec j b); [|apply (C2 j); auto; lia]. apply negb_true_iff.
          assert (B : lt x u = false).
          { destruct (Z.eq_dec j (first + h)) as [->|]; [rewrite Ex in Eu; injection Eu as <-; apply (sw_irr _ SW)|].
            refine (S j (first + h) _ _ _ u x Eu Ex); unfold b in *; lia. }
          exact (le_trans lt SW u x v B L2).
        - intros j u Hj Eu. destruct (Z_lt_dec j (first + n)); [apply (C3 j); auto; lia|]. rewrite (IR j u); auto; lia. }
      destruct EL as (i1 & -> & C1). destruct ER as (i2 & -> & C2). cbn [obind]. eexists; split; [reflexivity|]. simpl fst; simpl snd. split; [auto|].
      intros N. exfalso. apply N. exists (first + h), x. split; [lia|auto].
  - exists (hi, hi). split; [reflexivity|]. split; [|auto]. intros (j & x & Hj & Ex & X1 & X2). exfalso.
    destruct (Z_lt_dec j first); [rewrite (IL j x) in X1; auto; try discriminate; lia|rewrite (IR j x) in X2; auto; try discriminate; lia].
Qed.

(** C72: equal_range gives both bounds when an equivalent element is present; otherwise it gives (last, last) *)
Theorem C72_equal_range_partial fwd p l s v : ordered lt l ->
  exists i j, equal_range lt fwd (p ++ l ++ s) (len p) (len p + len l) v = Some (len p + i, len p + j) /\
    ((exists x, In x l /\ lt x v = false /\ lt v x = false) ->
       splits_at (fun x => lt x v) l i /\ splits_at (fun x => negb (lt v x)) l j) /\
    ((forall x, In x l -> lt x v = true \/ lt v x = true) -> i = len l /\ j = len l).
Proof.
  intros O. apply (ordered_mid lt p l s) in O. unfold equal_range. replace (len p + len l - len p) with (len l) by lia.
  destruct (erange_ok (S (Z.to_nat (len l))) fwd (p ++ l ++ s) (len p) (len p + len l) (len p) (len l) v) as ([r1 r2] & E & C & D);
    rewrite ?mid_len; try lia; auto; try (intros; lia).
  simpl fst in C; simpl snd in C. exists (r1 - len p), (r2 - len p).
  replace (len p + (r1 - len p)) with r1 by lia. replace (len p + (r2 - len p)) with r2 by lia.
  split; [exact E|]. split.
  - intros (x & I & X1 & X2). apply In_nth_error in I as [k Ek].
    assert (Hk : (k < length l)%nat) by (apply nth_error_Some; congruence).
    destruct C as [C1 C2].
    { exists (len p + Z.of_nat k), x. split; [lia|]. split; [|auto]. rewrite rd_mid by lia. unfold rd.
      destruct (Z.ltb_spec (Z.of_nat k) 0); [lia|]. now rewrite Nat2Z.id. }
    apply cut_mid in C1 as [C1 _]. apply cut_mid in C2 as [C2 _]. auto.
  - intros N. assert (D' : (r1, r2) = (len p + len l, len p + len l)).
    { apply D. intros (j & x & Hj & Ex & X1 & X2). replace j with (len p + (j - len p)) in Ex by lia.
      rewrite rd_mid in Ex by lia. unfold rd in Ex. destruct (Z.ltb_spec (j - len p) 0); [lia|]. apply nth_error_In in Ex.
      destruct (N x Ex); congruence. }
    injection D' as -> ->. lia.
Qed.
(** the searches need no order beyond the one of their own split: lower_bound on a range partitioned by "less than v" *)
Theorem C72_lower_bound_partitioned p l1 l2 s v :
  Forall (fun x => lt x v = true) l1 -> Forall (fun x => lt x v = false) l2 ->
  lower_bound lt (p ++ (l1 ++ l2) ++ s) (len p) (len p + len (l1 ++ l2)) v = Some (len p + len l1).
Proof.
  intros F1 F2. set (l := l1 ++ l2).
  assert (C0 : cut_at (fun x => lt x v) (p ++ l ++ s) (len p) (len p + len l) (len p + len l1)).
  { apply cut_mid. split; [|unfold l; rewrite app_length; lia]. exists l1, l2. repeat split; auto. lia. }
  unfold lower_bound. replace (len p + len l - len p) with (len l) by lia.
  destruct (lbound_ok (S (Z.to_nat (len l))) (p ++ l ++ s) (len p) (len l) v) as (i & E & C); rewrite ?mid_len; try lia.
  { destruct C0 as (R & C1 & C2). intros i j x y Hi Hij Hj Ex Ey Ly. destruct (Z_lt_dec i (len p + len l1)); [now apply (C1 i)|].
    pose proof (C2 j y ltac:(lia) Ey) as B. simpl in B, Ly. congruence. }
  rewrite E. f_equal. refine (cut_unique _ _ _ _ _ _ _ _ C C0); rewrite ?mid_len; lia.
Qed.
End Proof.

(** C72: the overload of binary_search with a function object does not use it to find the place: with "greater" as
    the order, an element of a properly sorted range is not found and a value that is not there is "found" *)
Theorem C72_binary_search_comp_refuted : exists l v w,
  ordered (fun x y => Z.ltb y x) l /\ In v l /\ ~ In w l /\
  binary_search (fun x y => Z.ltb y x) (lower_bound Z.ltb) l 0 (len l) v = Some false /\
  binary_search (fun x y => Z.ltb y x) (lower_bound Z.ltb) l 0 (len l) w = Some true.
Proof.
  exists [3; 2; 1], 3, 0. split; [repeat constructor|]. split; [simpl; tauto|]. split; [simpl; lia|]. split; vm_compute; reflexivity.
Qed.
(** C72: equal_range for a value that is not in the range: the comment (algo.h:793-794) promises the place where it
    could be inserted, the answer is (last, last) *)
Theorem C72_equal_range_absent_refuted : exists l v i, forall fwd,
  ordered Z.ltb l /\ equal_range Z.ltb fwd l 0 (len l) v = Some (i, i) /\ ~ splits_at (fun x => x <? v) l i.
Proof.
  exists [1; 3], 2, 2. intros fwd. split; [repeat constructor|]. split; [destruct fwd; vm_compute; reflexivity|].
  intros (l1 & l2 & E & L & F1 & F2).
  destruct l1 as [|a [|b [|c l1]]]; simpl in L; try lia. injection E as <- <- _.
  inversion F1 as [|? ? _ F]; subst. inversion F as [|? ? B _]; subst. discriminate B.
Qed.

Example C72_example : ordered Z.ltb [1; 2; 2; 2; 5] /\ In 2 [1; 2; 2; 2; 5] /\
  lower_bound Z.ltb ([9] ++ [1; 2; 2; 2; 5] ++ [0]) 1 6 2 = Some 2 /\ upper_bound Z.ltb ([9] ++ [1; 2; 2; 2; 5] ++ [0]) 1 6 2 = Some 5 /\
  equal_range Z.ltb true ([9] ++ [1; 2; 2; 2; 5] ++ [0]) 1 6 2 = Some (2, 5) /\
  binary_search Z.ltb (lower_bound Z.ltb) ([9] ++ [1; 2; 2; 2; 5] ++ [0]) 1 6 3 = Some false.
Proof. split; [repeat constructor|]. split; [simpl; tauto|]. vm_compute. repeat split. Qed.

Print Assumptions C72_lower_bound.
Print Assumptions C72_upper_bound.
Print Assumptions C72_binary_search.
Print Assumptions C72_equal_range_partial.
Print Assumptions C72_lower_bound_partitioned.
Print Assumptions C72_binary_search_comp_refuted.
Print Assumptions C72_equal_range_absent_refuted.
