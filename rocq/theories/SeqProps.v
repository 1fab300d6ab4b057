(** Searching sequences (C77) *)
From Coq Require Import ZArith List Bool Lia Permutation.
From Verif Require Import F64 ArrModel ArrLib SortSpec RotProof SetProps SeqModel SeqProof.
Import ListNotations.
Open Scope Z_scope.

Section Props.
Context {A : Type}.
Implicit Types (p l q s : list A) (pred : A -> bool) (eqb : A -> A -> bool) (x y v : A).
Notation "# l" := (S (length l)) (at level 9).

Lemma rd_In l x : In x l <-> exists j, 0 <= j < len l /\ rd l j = Some x.
Proof.
  rewrite <- (slice_all l) at 1. rewrite slice_In by lia. split; intros (j & J & E); exists j; auto.
Qed.
(** C77: all_of, any_of, none_of, count_if *)
Theorem C77_all_of pred p l s : exists b, all_of (# l) pred (rd (p ++ l ++ s)) (len p) (len p + len l) = Some b /\
  (b = true <-> forall x, In x l -> pred x = true).
Proof.
  destruct (all_of_ok (# l) pred (rd (p ++ l ++ s)) (len p) l 0 (view_mid p l s)) as (b & E & B); try lia. rewrite Z.add_0_r in E.
  exists b. split; [exact E|]. rewrite B. split.
  - intros H x I. apply rd_In in I as (j & J & R). now apply (H j).
  - intros H j x J R. apply H. apply rd_In. eauto.
Qed.
Theorem C77_any_of pred p l s : exists b, any_of (# l) pred (rd (p ++ l ++ s)) (len p) (len p + len l) = Some b /\
  (b = true <-> exists x, In x l /\ pred x = true).
Proof.
  destruct (any_of_ok (# l) pred (rd (p ++ l ++ s)) (len p) l 0 (view_mid p l s)) as (b & E & B); try lia. rewrite Z.add_0_r in E.
  exists b. split; [exact E|]. rewrite B. split.
  - intros (j & x & J & R & P). exists x. split; [|exact P]. apply rd_In. eauto.
  - intros (x & I & P). apply rd_In in I as (j & J & R). exists j, x. auto.
Qed.
Theorem C77_none_of pred p l s : exists b, none_of (# l) pred (rd (p ++ l ++ s)) (len p) (len p + len l) = Some b /\
  (b = true <-> forall x, In x l -> pred x = false).
Proof.
  destruct (C77_any_of pred p l s) as (b & E & B). exists (negb b). rewrite none_of_any, E. split; [reflexivity|]. destruct b; cbn [negb].
  - split; [discriminate|]. intros H. destruct (proj1 B eq_refl) as (x & I & P). rewrite (H x I) in P. discriminate P.
  - split; [|reflexivity]. intros _ x I. destruct (pred x) eqn:P; [|reflexivity]. discriminate (proj2 B (ex_intro _ x (conj I P))).
Qed.
Theorem C77_count_if pred p l s : count_if (# l) pred (rd (p ++ l ++ s)) (len p) (len p + len l) 0 = Some (len (filter pred l)).
Proof. rewrite (count_if_ok l) by (auto using view_mid; lia). reflexivity. Qed.
(** C77: find, find_if, find_if_not return the first position that satisfies the condition, or last *)
Theorem C77_find_if pred p l s : exists l1 l2, l = l1 ++ l2 /\ Forall (fun x => pred x = false) l1 /\
  (l2 = [] \/ exists x r, l2 = x :: r /\ pred x = true) /\
  find_if (# l) pred (rd (p ++ l ++ s)) (len p) (len p + len l) = Some (len p + len l1).
Proof.
  destruct (find_if_ok (# l) pred (rd (p ++ l ++ s)) (len p) l 0 (view_mid p l s)) as (i & E & B1 & B2 & B3); try lia. rewrite Z.add_0_r in E.
  assert (L1 : len (firstn (Z.to_nat i) l) = i) by (rewrite firstn_length; lia).
  exists (firstn (Z.to_nat i) l), (skipn (Z.to_nat i) l). split; [symmetry; apply firstn_skipn|]. split; [|split; [|rewrite L1; exact E]].
  - rewrite Forall_forall. intros x I. apply rd_In in I as (j & J & R). rewrite L1 in J. apply (B2 j x ltac:(lia)).
    rewrite <- (firstn_skipn (Z.to_nat i) l). rewrite rd_app_l by lia. exact R.
  - destruct (skipn (Z.to_nat i) l) as [|x r] eqn:Es; [left; reflexivity|right]. exists x, r. split; [reflexivity|].
    assert (Ls : len l = i + len (x :: r)) by (rewrite <- Es, skipn_length; lia). simpl length in Ls. destruct (B3 ltac:(lia)) as (x' & R & P).
    rewrite <- (firstn_skipn (Z.to_nat i) l), Es in R. rewrite rd_at in R by lia. congruence.
Qed.
(** C77: search returns the first occurrence of the second sequence in the first, or last *)
Theorem C77_search eqb p l s p2 q s2 : exists i,
  search eqb (rd (p ++ l ++ s)) (rd (p2 ++ q ++ s2)) (len p) (len p + len l) (len p2) (len p2 + len q) = Some (len p + i) /\
  (forall j, j < i -> ~ occurs eqb l q j) /\ (occurs eqb l q i \/ i = len l /\ forall j, ~ occurs eqb l q j).
Proof.
  destruct (search_ok eqb (rd (p ++ l ++ s)) (rd (p2 ++ q ++ s2)) (len p) (len p2) l q 0 (view_mid p l s) (view_mid p2 q s2)) as (i & E & L & O1 & O2); [lia|].
  rewrite Z.add_0_r in E. exists i. split; [exact E|]. split.
  - intros j J O. apply (O1 j); [|exact O]. destruct O. lia.
  - destruct O2 as [O2|[-> O2]]; [left; exact O2|right; split; [reflexivity|]]. intros j O. apply (O2 j); [|exact O]. apply O.
Qed.
(** what it means to occur *)
Theorem C77_occurs eqb l q i : occurs eqb l q i <-> exists l1 m l2, l = l1 ++ m ++ l2 /\ len l1 = i /\ Forall2 (fun x y => eqb x y = true) m q.
Proof.
  split.
  - intros (H0 & H1 & H2). exists (firstn (Z.to_nat i) l), (firstn (length q) (skipn (Z.to_nat i) l)), (skipn (length q) (skipn (Z.to_nat i) l)).
    rewrite !firstn_skipn. split; [reflexivity|]. split; [rewrite firstn_length; lia|].
    assert (Lm : (length q <= length (skipn (Z.to_nat i) l))%nat) by (rewrite skipn_length; lia).
    assert (H3 : forall k x y, 0 <= k < len q -> rd (skipn (Z.to_nat i) l) k = Some x -> rd q k = Some y -> eqb x y = true).
    { intros k x y K X Y. apply (H2 k x y K); [|exact Y]. rewrite <- X. unfold rd. destruct (Z.ltb_spec (i + k) 0); [lia|]. destruct (Z.ltb_spec k 0); [lia|].
      rewrite skipn_nth. f_equal. lia. }
    clear H2 H0 H1. set (r := skipn (Z.to_nat i) l) in *. clearbody r. clear l i. revert r Lm H3. induction q as [|y q IH]; intros [|x r] Lm H3; simpl in Lm; try lia; [constructor|constructor|].
    simpl firstn. constructor; [exact (H3 0 x y ltac:(simpl length; lia) eq_refl eq_refl)|]. apply IH; [lia|]. intros k x' y' K X Y.
    apply (H3 (1 + k) x' y'); [simpl length; lia| |].
    + exact (eq_trans (rd_app_r [x] r k (proj1 K)) X).
    + exact (eq_trans (rd_app_r [y] q k (proj1 K)) Y).
  - intros (l1 & m & l2 & -> & <- & F). assert (L : length m = length q) by (clear -F; induction F; simpl; congruence). split; [lia|]. split; [rewrite !app_length; lia|]. intros k x y K X Y.
    rewrite rd_app_r, rd_app_l in X by lia. clear L. revert k K X Y. induction F as [|x0 y0 m q E F IH]; intros k K X Y; [simpl length in K; lia|].
    destruct (Z.eq_dec k 0) as [->|N]; [injection X as <-; injection Y as <-; exact E|].
    replace k with (1 + (k - 1)) in X, Y by lia. assert (K1 : 0 <= k - 1) by lia. apply (eq_trans (eq_sym (rd_app_r [x0] m (k - 1) K1))) in X. apply (eq_trans (eq_sym (rd_app_r [y0] q (k - 1) K1))) in Y. simpl length in K. apply (IH (k - 1)); auto; lia.
Qed.
(** C77: search_n returns the first run of n elements that equal the value, or last *)
Theorem C77_search_n pred p l s n : exists i, search_n pred (rd (p ++ l ++ s)) (len p) (len p + len l) n = Some (len p + i) /\
  (n <= 0 -> i = 0) /\ (0 < n -> (forall j, j < i -> ~ run_at pred l n j) /\ (run_at pred l n i \/ i = len l /\ forall j, ~ run_at pred l n j)).
Proof.
  unfold search_n. destruct (Z.leb_spec n 0) as [L|L]; [exists 0; split; [f_equal; lia|split; [reflexivity|lia]]|].
  replace (len p + len l - len p) with (len l) by lia. rewrite Nat2Z.id.
  destruct (find_if_ok (# l) pred (rd (p ++ l ++ s)) (len p) l 0 (view_mid p l s)) as (k & E & B1 & B2 & B3); try lia. rewrite Z.add_0_r in E. rewrite E. cbn [obind].
  destruct (search_n_loop_ok pred (rd (p ++ l ++ s)) (len p) l n (view_mid p l s) L (# l) k) as (i & E2 & Li & O1 & O2); try lia; [exact B3|].
  exists i. split; [exact E2|]. split; [lia|]. intros _.
  assert (Early : forall j, j < k -> ~ run_at pred l n j).
  { intros j J (R1 & R2 & R3). destruct (rd_ex l j ltac:(lia)) as (x & R). pose proof (R3 j x ltac:(lia) R) as P. rewrite (B2 j x ltac:(lia) R) in P. discriminate P. }
  split.
  - intros j J. destruct (Z.ltb_spec j k); [now apply Early|apply O1; lia].
  - destruct O2 as [O2|[-> O2]]; [left; exact O2|right; split; [reflexivity|]]. intros j. destruct (Z.ltb_spec j k); [now apply Early|now apply O2].
Qed.
(** C77: find_end returns the last occurrence, or last; both versions *)
Lemma occurs_rev eqb l q j : occurs eqb (rev l) (rev q) j <-> occurs eqb l q (len l - len q - j).
Proof.
  unfold occurs. rewrite !rev_length. split; intros (H0 & H1 & H2); split; try lia; split; try lia; intros k x y K X Y;
    apply (H2 (len q - 1 - k) x y); try lia.
  - rewrite rd_rev by lia. rewrite <- X. f_equal. lia.
  - rewrite rd_rev by lia. rewrite <- Y. f_equal. lia.
  - rewrite rd_rev in X by lia. rewrite <- X. f_equal. lia.
  - rewrite rd_rev in Y by lia. rewrite <- Y. f_equal. 
Qed.
Lemma view_back get f l : view get f l -> view (fun i => get (- i - 1)) (- (f + len l)) (rev l).
Proof. intros V k H. rewrite rev_length in H. rewrite rd_rev by lia. rewrite <- V by lia. f_equal. lia. Qed.
Theorem C77_find_end bid eqb p l s p2 q s2 : exists i,
  find_end bid eqb (rd (p ++ l ++ s)) (rd (p2 ++ q ++ s2)) (len p) (len p + len l) (len p2) (len p2 + len q) = Some (len p + i) /\
  ((occurs eqb l q i /\ forall j, i < j -> ~ occurs eqb l q j) \/ (i = len l /\ forall j, ~ occurs eqb l q j)).
Proof.
  destruct bid; unfold find_end.
  - unfold find_end_bidirectional.
    destruct (search_ok eqb _ _ _ _ (rev l) (rev q) 0 (view_back _ _ _ (view_mid p l s)) (view_back _ _ _ (view_mid p2 q s2))) as (r & E & L & O1 & O2); [lia|].
    rewrite rev_length in *. rewrite Z.add_0_r in E. replace (- (len p + len l) + len l) with (- len p) in E by lia. rewrite rev_length in E.
    replace (- (len p2 + len q) + len q) with (- len p2) in E by lia. rewrite E. cbn [obind].
    destruct (Z.eqb_spec (- (len p + len l) + r) (- len p)) as [Q|Q].
    + exists (len l). split; [reflexivity|]. assert (Er : r = len l) by lia. destruct O2 as [O2|[_ O2]].
      * left. apply occurs_rev in O2. assert (Lq : len q = 0) by (destruct O2; lia). split; [|intros j J (_ & O & _); lia].
        split; [lia|]. split; [lia|]. intros k x y K. lia.
      * right. split; [reflexivity|]. intros j O. apply (O2 (len l - len q - j)); [destruct O; lia|]. apply occurs_rev. now replace (len l - len q - (len l - len q - j)) with j by lia.
    + destruct O2 as [O2|[O2 _]]; [|lia]. exists (len l - len q - r). split; [f_equal; lia|]. left. apply occurs_rev in O2. split; [exact O2|].
      intros j J O. apply (O1 (len l - len q - j)); [destruct O; lia|]. apply occurs_rev. now replace (len l - len q - (len l - len q - j)) with j by lia.
  - unfold find_end_forward. destruct (Z.eqb_spec (len p2) (len p2 + len q)) as [Q|Q].
    + exists (len l). split; [reflexivity|]. left. split; [split; [lia|split; [lia|intros; lia]]|]. intros j J (_ & O & _). lia.
    + destruct (find_end_loop_ok eqb (rd (p ++ l ++ s)) (rd (p2 ++ q ++ s2)) (len p) (len p2) l q (view_mid p l s) (view_mid p2 q s2) ltac:(lia)
        (S (Z.to_nat (len p + len l - len p))) 0 (len l)) as (r & E & O); try lia.
      * right. split; [reflexivity|]. intros j J (O & _). lia.
      * rewrite Z.add_0_r in E. exists r. split; [exact E|]. exact O.
Qed.
(** C77: find_first_of returns the first element that equals some element of the second sequence, or last *)
Lemma find_first_of_ok eqb get get2 f f2 l q (V : view get f l) (V2 : view get2 f2 q) : forall fuel k, 0 <= k <= len l -> (Z.to_nat (len l - k) < fuel)%nat ->
  exists i, find_first_of fuel eqb get get2 (f + k) (f + len l) f2 (f2 + len q) = Some (f + i) /\ k <= i <= len l /\
    (forall j x y, k <= j < i -> rd l j = Some x -> In y q -> eqb x y = false) /\ (i < len l -> exists x y, rd l i = Some x /\ In y q /\ eqb x y = true).
Proof.
  induction fuel as [|fuel IH]; intros k H Hf; [lia|]. cbn [find_first_of].
  destruct (Z.eqb_spec (f + k) (f + len l)) as [E|N].
  - exists (len l). split; [reflexivity|]. split; [lia|]. split; [intros; lia|intros; lia].
  - destruct (view_get get f l k V ltac:(lia)) as (x & R & G). rewrite G. cbn [obind].
    destruct (any_of_ok (S (Z.to_nat (f2 + len q - f2))) (eqb x) get2 f2 q 0 V2 ltac:(lia) ltac:(lia)) as (b & Eb & B). rewrite Z.add_0_r in Eb. rewrite Eb. cbn [obind].
    destruct b.
    + exists k. split; [reflexivity|]. split; [lia|]. split; [intros; lia|]. intros _. destruct (proj1 B eq_refl) as (j & y & J & Ry & P). exists x, y. split; [exact R|]. split; [|exact P]. apply rd_In. eauto.
    + destruct (IH (k + 1) ltac:(lia) ltac:(lia)) as (i & E & B1 & B2 & B3). replace (f + k + 1) with (f + (k + 1)) by lia. exists i. split; [exact E|]. split; [lia|]. split; [|exact B3].
      intros j x' y J Rx I. destruct (Z.eq_dec j k) as [->|]; [|apply (B2 j); auto; lia]. replace x' with x by congruence. destruct (eqb x y) eqn:P; [|reflexivity].
      apply rd_In in I as (m & M & Rm). discriminate (proj2 B). exists m, y. auto.
Qed.
Theorem C77_find_first_of eqb p l s p2 q s2 : exists i,
  find_first_of (# l) eqb (rd (p ++ l ++ s)) (rd (p2 ++ q ++ s2)) (len p) (len p + len l) (len p2) (len p2 + len q) = Some (len p + i) /\ 0 <= i <= len l /\
  (forall j x y, j < i -> rd l j = Some x -> In y q -> eqb x y = false) /\ (i < len l -> exists x y, rd l i = Some x /\ In y q /\ eqb x y = true).
Proof.
  destruct (find_first_of_ok eqb _ _ _ _ l q (view_mid p l s) (view_mid p2 q s2) (# l) 0) as (i & E & B1 & B2 & B3); try lia. rewrite Z.add_0_r in E.
  exists i. split; [exact E|]. split; [exact B1|]. split; [|exact B3]. intros j x y J R. apply (B2 j); auto. pose proof (rd_range _ _ _ R). lia.
Qed.
(** C77: adjacent_find returns the first element that equals its successor, or last *)
Lemma adjacent_loop_ok eqb get f l (V : view get f l) : forall fuel k, 0 <= k < len l -> (Z.to_nat (len l - k) <= fuel)%nat ->
  exists i, adjacent_loop fuel eqb get (f + k) (f + len l) = Some (f + i) /\ k <= i <= len l /\
    (forall j x y, k <= j < i -> rd l j = Some x -> rd l (j + 1) = Some y -> eqb x y = false) /\
    (i < len l -> exists x y, rd l i = Some x /\ rd l (i + 1) = Some y /\ eqb x y = true).
Proof.
  induction fuel as [|fuel IH]; intros k H Hf; [lia|]. cbn [adjacent_loop]. cbv zeta. replace (f + k + 1) with (f + (k + 1)) by lia.
  destruct (Z.eqb_spec (f + (k + 1)) (f + len l)) as [E|N].
  - exists (len l). split; [reflexivity|]. split; [lia|]. split; [|lia]. intros j x y J _ R. pose proof (rd_range _ _ _ R). lia.
  - destruct (view_get get f l k V ltac:(lia)) as (x & R & G). destruct (view_get get f l (k + 1) V ltac:(lia)) as (y & R2 & G2). rewrite G, G2. cbn [obind].
    destruct (eqb x y) eqn:P.
    + exists k. split; [reflexivity|]. split; [lia|]. split; [intros; lia|]. intros _. exists x, y. auto.
    + destruct (IH (k + 1) ltac:(lia) ltac:(lia)) as (i & E & B1 & B2 & B3). exists i. split; [exact E|]. split; [lia|]. split; [|exact B3].
      intros j x' y' J X Y. destruct (Z.eq_dec j k) as [->|]; [congruence|]. apply (B2 j); auto; lia.
Qed.
Lemma adjacent_find_ok eqb p l s : exists i, adjacent_find eqb (rd (p ++ l ++ s)) (len p) (len p + len l) = Some (len p + i) /\ 0 <= i <= len l /\
  (forall j x y, j < i -> rd l j = Some x -> rd l (j + 1) = Some y -> eqb x y = false) /\
  (i < len l -> exists x y, rd l i = Some x /\ rd l (i + 1) = Some y /\ eqb x y = true).
Proof.
  unfold adjacent_find. destruct (Z.eqb_spec (len p) (len p + len l)) as [E|N].
  - exists (len l). split; [reflexivity|]. split; [lia|]. split; [|lia]. intros j x y J R. pose proof (rd_range _ _ _ R). lia.
  - destruct (adjacent_loop_ok eqb _ _ l (view_mid p l s) (S (Z.to_nat (len p + len l - len p))) 0 ltac:(lia) ltac:(lia)) as (i & E & B1 & B2 & B3). rewrite Z.add_0_r in E.
    exists i. split; [exact E|]. split; [exact B1|]. split; [|exact B3]. intros j x y J R. apply (B2 j); auto. pose proof (rd_range _ _ _ R). lia.
Qed.
Theorem C77_adjacent_find eqb p l s : exists i, adjacent_find eqb (rd (p ++ l ++ s)) (len p) (len p + len l) = Some (len p + i) /\ 0 <= i <= len l /\
  (forall j x y, j < i -> rd l j = Some x -> rd l (j + 1) = Some y -> eqb x y = false) /\
  (i < len l -> exists x y, rd l i = Some x /\ rd l (i + 1) = Some y /\ eqb x y = true).
Proof. exact (adjacent_find_ok eqb p l s). Qed.
(** C77: max_element returns the first of the greatest elements *)
Lemma max_loop_ok (lt : A -> A -> bool) (SW : strict_weak lt) get f l (V : view get f l) : forall fuel m k, 0 <= m <= k -> k < len l -> (Z.to_nat (len l - k) <= fuel)%nat ->
  forall x, rd l m = Some x -> (forall j y, j <= k -> rd l j = Some y -> lt x y = false) -> (forall j y, j < m -> rd l j = Some y -> lt y x = true) ->
  exists i x, max_loop fuel lt get (f + m) (f + k) (f + len l) = Some (f + i) /\ rd l i = Some x /\
    (forall j y, rd l j = Some y -> lt x y = false) /\ (forall j y, j < i -> rd l j = Some y -> lt y x = true).
Proof.
  induction fuel as [|fuel IH]; intros m k Hm Hk Hf x Rm M1 M2; [lia|]. cbn [max_loop]. cbv zeta. replace (f + k + 1) with (f + (k + 1)) by lia.
  destruct (Z.eqb_spec (f + (k + 1)) (f + len l)) as [E|N].
  - exists m, x. split; [reflexivity|]. split; [exact Rm|]. split; [|exact M2]. intros j y R. pose proof (rd_range _ _ _ R). apply (M1 j); auto; lia.
  - destruct (view_get get f l m V ltac:(lia)) as (x' & R & G). replace x' with x in * by congruence. destruct (view_get get f l (k + 1) V ltac:(lia)) as (y & R2 & G2). rewrite G, G2. cbn [obind].
    destruct (lt x y) eqn:P.
    + apply (IH (k + 1) (k + 1) ltac:(lia) ltac:(lia) ltac:(lia) y R2).
      * intros j z J Rz. destruct (Z.eq_dec j (k + 1)) as [->|]; [replace z with y by congruence; apply (sw_irr _ SW)|].
        destruct (lt y z) eqn:Q; [|reflexivity]. rewrite <- (M1 j z ltac:(lia) Rz). symmetry. exact (sw_trans _ SW x y z P Q).
      * intros j z J Rz. exact (le_lt_tr lt SW z x y (M1 j z ltac:(lia) Rz) P).
    + apply (IH m (k + 1) ltac:(lia) ltac:(lia) ltac:(lia) x Rm); [|exact M2]. intros j z J Rz. destruct (Z.eq_dec j (k + 1)) as [->|]; [congruence|]. apply (M1 j); auto; lia.
Qed.
Theorem C77_max_element (lt : A -> A -> bool) p l s : strict_weak lt -> l <> [] -> exists i x, max_element lt (rd (p ++ l ++ s)) (len p) (len p + len l) = Some (len p + i) /\
  rd l i = Some x /\ (forall y, In y l -> lt x y = false) /\ (forall j y, j < i -> rd l j = Some y -> lt y x = true).
Proof.
  intros SW N. assert (0 < len l) by (destruct l; [congruence|simpl length; lia]). unfold max_element. destruct (Z.eqb_spec (len p) (len p + len l)) as [E|_]; [lia|].
  destruct (rd_ex l 0 ltac:(lia)) as (x & R).
  destruct (max_loop_ok lt SW _ _ l (view_mid p l s) (S (Z.to_nat (len p + len l - len p))) 0 0 ltac:(lia) ltac:(lia) ltac:(lia) x R) as (i & y & E & R2 & M1 & M2).
  - intros j y J Ry. pose proof (rd_range _ _ _ Ry). assert (j = 0) by lia. subst. replace y with x by congruence. apply (sw_irr _ SW).
  - intros j y J Ry. pose proof (rd_range _ _ _ Ry). lia.
  - rewrite Z.add_0_r in E. exists i, y. split; [exact E|]. split; [exact R2|]. split; [|exact M2]. intros z I. apply rd_In in I as (j & _ & Rj). now apply (M1 j).
Qed.
(** C77: min_elememt returns the first of the least elements *)
Lemma min_max (lt : A -> A -> bool) get fuel : forall m k last, min_loop fuel lt get m k last = max_loop fuel (fun x y => lt y x) get m k last.
Proof.
  induction fuel as [|fuel IH]; intros; [reflexivity|]. cbn [min_loop max_loop]. cbv zeta. destruct (k + 1 =? last); [reflexivity|].
  destruct (get m); [|reflexivity]. destruct (get (k + 1)); [|reflexivity]. cbn [obind]. apply IH.
Qed.
Theorem C77_min_element (lt : A -> A -> bool) p l s : strict_weak lt -> l <> [] -> exists i x, min_element lt (rd (p ++ l ++ s)) (len p) (len p + len l) = Some (len p + i) /\
  rd l i = Some x /\ (forall y, In y l -> lt y x = false) /\ (forall j y, j < i -> rd l j = Some y -> lt x y = true).
Proof.
  intros SW N. assert (SW' : strict_weak (fun x y => lt y x)).
  { constructor; [apply (sw_irr _ SW)| |]; intros x y z; [intros H1 H2; exact (sw_trans _ SW _ _ _ H2 H1)|]. intros H. destruct (sw_neg _ SW _ y _ H); auto. }
  destruct (C77_max_element (fun x y => lt y x) p l s SW' N) as (i & x & E & R & M1 & M2). exists i, x. split; [|auto].
  unfold min_element, max_element in *. destruct (len p =? len p + len l); [exact E|]. now rewrite min_max.
Qed.
(** C77: mismatch returns the first place where the sequences differ; equal tells whether there is none *)
Lemma mismatch_ok eqb get get2 f f2 l q (V : view get f l) (V2 : view get2 f2 q) (Hl : len l <= len q) : forall fuel k, 0 <= k <= len l -> (Z.to_nat (len l - k) < fuel)%nat ->
  exists i, mismatch fuel eqb get get2 (f + k) (f + len l) (f2 + k) = Some (f + i, f2 + i) /\ equal fuel eqb get get2 (f + k) (f + len l) (f2 + k) = Some (i =? len l) /\ k <= i <= len l /\
    (forall j x y, k <= j < i -> rd l j = Some x -> rd q j = Some y -> eqb x y = true) /\
    (i < len l -> exists x y, rd l i = Some x /\ rd q i = Some y /\ eqb x y = false).
Proof.
  induction fuel as [|fuel IH]; intros k H Hf; [lia|]. cbn [mismatch equal].
  destruct (Z.eqb_spec (f + k) (f + len l)) as [E|N].
  - exists k. replace (k =? len l) with true by (symmetry; apply Z.eqb_eq; lia). split; [reflexivity|]. split; [reflexivity|]. split; [lia|]. split; [intros; lia|lia].
  - destruct (view_get get f l k V ltac:(lia)) as (x & R & G). destruct (view_get get2 f2 q k V2 ltac:(lia)) as (y & R2 & G2). rewrite G, G2. cbn [obind].
    destruct (eqb x y) eqn:P; cbn [negb].
    + destruct (IH (k + 1) ltac:(lia) ltac:(lia)) as (i & E & E' & B1 & B2 & B3). replace (f + k + 1) with (f + (k + 1)) by lia. replace (f2 + k + 1) with (f2 + (k + 1)) by lia.
      exists i. split; [exact E|]. split; [exact E'|]. split; [lia|]. split; [|exact B3]. intros j x' y' J X Y. destruct (Z.eq_dec j k) as [->|]; [congruence|]. apply (B2 j); auto; lia.
    + exists k. replace (k =? len l) with false by (symmetry; apply Z.eqb_neq; lia). split; [reflexivity|]. split; [reflexivity|]. split; [lia|]. split; [intros; lia|]. intros _. exists x, y. auto.
Qed.
Theorem C77_mismatch eqb p l s p2 q s2 : len l <= len q -> exists i,
  mismatch (# l) eqb (rd (p ++ l ++ s)) (rd (p2 ++ q ++ s2)) (len p) (len p + len l) (len p2) = Some (len p + i, len p2 + i) /\
  equal (# l) eqb (rd (p ++ l ++ s)) (rd (p2 ++ q ++ s2)) (len p) (len p + len l) (len p2) = Some (i =? len l) /\ 0 <= i <= len l /\
  (forall j x y, j < i -> rd l j = Some x -> rd q j = Some y -> eqb x y = true) /\
  (i < len l -> exists x y, rd l i = Some x /\ rd q i = Some y /\ eqb x y = false).
Proof.
  intros Hl. destruct (mismatch_ok eqb _ _ _ _ l q (view_mid p l s) (view_mid p2 q s2) Hl (# l) 0) as (i & E & E' & B1 & B2 & B3); try lia. rewrite !Z.add_0_r in E, E'.
  exists i. split; [exact E|]. split; [exact E'|]. split; [exact B1|]. split; [|exact B3]. intros j x y J R. apply (B2 j); auto. pose proof (rd_range _ _ _ R). lia.
Qed.
End Props.

Example C77_example :
  search Z.eqb (rd [9; 1; 1; 2; 1; 1; 3; 8]) (rd [1; 1; 3]) 1 8 0 3 = Some 4 /\
  search_n (Z.eqb 1) (rd [1; 2; 1; 1; 2; 1; 1; 1]) 0 8 3 = Some 5 /\
  find_end true Z.eqb (rd [1; 2; 1; 2; 3]) (rd [1; 2]) 0 5 0 2 = Some 2 /\ find_end false Z.eqb (rd [1; 2; 1; 2; 3]) (rd [1; 2]) 0 5 0 2 = Some 2 /\
  find_end true Z.eqb (rd [1; 2]) (rd [3]) 0 2 0 1 = Some 2 /\ max_element Z.ltb (rd [1; 3; 2; 3]) 0 4 = Some 1 /\ min_element Z.ltb (rd [2; 1; 3; 1]) 0 4 = Some 1 /\
  adjacent_find Z.eqb (rd [1; 2; 2; 3]) 0 4 = Some 1 /\ strict_weak Z.ltb.
Proof.
  repeat (split; [vm_compute; reflexivity|]). constructor.
  - intros x. apply Z.ltb_irrefl.
  - intros x y z. rewrite !Z.ltb_lt. lia.
  - intros x y z. rewrite !Z.ltb_lt. lia.
Qed.

Print Assumptions C77_all_of.
Print Assumptions C77_any_of.
Print Assumptions C77_none_of.
Print Assumptions C77_count_if.
Print Assumptions C77_find_if.
Print Assumptions C77_search.
Print Assumptions C77_occurs.
Print Assumptions C77_search_n.
Print Assumptions C77_find_end.
Print Assumptions C77_find_first_of.
Print Assumptions C77_adjacent_find.
Print Assumptions C77_max_element.
Print Assumptions C77_min_element.
Print Assumptions C77_mismatch.
