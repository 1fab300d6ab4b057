(** Facts about [rd], [wr] and rearrangements of a part of an array *)
From Coq Require Import ZArith List Bool Lia Permutation Sorted.
From Verif Require Import F64 ArrModel.
Import ListNotations.
Open Scope Z_scope.

Section Lib.
Context {A : Type}.
Implicit Types (a : list A) (x y z v : A).

Notation len a := (Z.of_nat (length a)).
Definition up (a : list A) (i : Z) (x : A) : list A := upd a (Z.to_nat i) x.

Lemma rd_range a i x : rd a i = Some x -> 0 <= i < len a.
Proof.
  unfold rd; intros H. destruct (Z.ltb_spec i 0); [discriminate|].
  assert (nth_error a (Z.to_nat i) <> None) by congruence. apply nth_error_Some in H1. lia.
Qed.
Lemma rd_ex a i : 0 <= i < len a -> exists x, rd a i = Some x.
Proof.
  intros H. unfold rd. destruct (Z.ltb_spec i 0); [lia|].
  destruct (nth_error a (Z.to_nat i)) eqn:E; [eauto|]. apply nth_error_None in E. lia.
Qed.
Lemma rd_out a i : i < 0 \/ len a <= i -> rd a i = None.
Proof.
  intros H. unfold rd. destruct (Z.ltb_spec i 0); [reflexivity|]. apply nth_error_None. lia.
Qed.
Lemma wr_up a i x : 0 <= i < len a -> wr a i x = Some (up a i x).
Proof.
  intros H. unfold wr, up. destruct (Z.leb_spec 0 i); [|lia]. destruct (Z.ltb_spec i (len a)); [reflexivity|lia].
Qed.
Lemma upd_length a k x : length (upd a k x) = length a.
Proof. revert k; induction a as [|h a IH]; intros [|k]; simpl; auto. Qed.
Lemma up_length a i x : length (up a i x) = length a.
Proof. apply upd_length. Qed.
Lemma nth_upd_eq a k x : (k < length a)%nat -> nth_error (upd a k x) k = Some x.
Proof. revert k; induction a as [|h a IH]; intros [|k] H; simpl in *; try lia; auto. apply IH; lia. Qed.
Lemma nth_upd_ne a k j x : k <> j -> nth_error (upd a k x) j = nth_error a j.
Proof. revert k j; induction a as [|h a IH]; intros [|k] [|j] H; simpl in *; try congruence; auto. Qed.
Lemma rd_up_eq a i x : 0 <= i < len a -> rd (up a i x) i = Some x.
Proof.
  intros H. unfold rd, up. destruct (Z.ltb_spec i 0); [lia|]. apply nth_upd_eq. lia.
Qed.
Lemma rd_up_ne a i j x : 0 <= i -> i <> j -> rd (up a i x) j = rd a j.
Proof.
  intros H N. unfold rd, up. destruct (Z.ltb_spec j 0); [reflexivity|]. apply nth_upd_ne. lia.
Qed.
Lemma upd_upd a k x y : upd (upd a k x) k y = upd a k y.
Proof. revert k; induction a as [|h a IH]; intros [|k]; simpl; f_equal; auto. Qed.
Lemma up_up a i x y : up (up a i x) i y = up a i y.
Proof. apply upd_upd. Qed.
Lemma upd_same a k x : nth_error a k = Some x -> upd a k x = a.
Proof. revert k; induction a as [|h a IH]; intros [|k] H; simpl in *; try discriminate; f_equal; auto. congruence. Qed.
Lemma up_same a i x : rd a i = Some x -> up a i x = a.
Proof. intros H. unfold rd in H. destruct (Z.ltb_spec i 0); [discriminate|]. now apply upd_same. Qed.

Lemma nth_error_ext a a' : (forall n, nth_error a n = nth_error a' n) -> a = a'.
Proof.
  revert a'; induction a as [|x a IH]; intros [|y a'] H.
  - reflexivity.
  - specialize (H O). discriminate.
  - specialize (H O). discriminate.
  - pose proof (H O) as H0. injection H0 as ->. f_equal. apply IH. intros n. exact (H (S n)).
Qed.
Lemma list_ext a a' : (forall i, rd a i = rd a' i) -> a = a'.
Proof.
  intros H. apply nth_error_ext. intros n. specialize (H (Z.of_nat n)). unfold rd in H.
  destruct (Z.ltb_spec (Z.of_nat n) 0); [lia|]. now rewrite Nat2Z.id in H.
Qed.

Lemma upd_perm a k x y : nth_error a k = Some x -> Permutation (y :: a) (x :: upd a k y).
Proof.
  revert k; induction a as [|h a IH]; intros [|k] H; simpl in *; try discriminate.
  - injection H as <-. apply perm_swap.
  - etransitivity; [apply perm_swap|]. etransitivity; [apply perm_skip, (IH _ H)|]. apply perm_swap.
Qed.
Lemma up_perm a i x y : rd a i = Some x -> Permutation (y :: a) (x :: up a i y).
Proof. intros H. unfold rd in H. destruct (Z.ltb_spec i 0); [discriminate|]. now apply upd_perm. Qed.

Lemma swap_perm a i j x y : rd a i = Some x -> rd a j = Some y -> Permutation (up (up a i y) j x) a.
Proof.
  intros Hi Hj. pose proof (rd_range _ _ _ Hi) as Ri.
  assert (E : rd (up a i y) j = Some y).
  { destruct (Z.eq_dec i j) as [<-|N]; [now rewrite rd_up_eq|]. now rewrite rd_up_ne by lia. }
  apply Permutation_cons_inv with y. symmetry.
  etransitivity; [exact (up_perm _ _ _ y Hi)|]. exact (up_perm _ _ _ x E).
Qed.
(** moving the hole from [h] to [p] *)
Lemma hole_perm a h p z v : 0 <= h < len a -> p <> h -> rd a p = Some z ->
  Permutation (up (up a h z) p v) (up a h v).
Proof.
  intros Hh N Hp. rewrite <- (up_up a h v z). apply swap_perm.
  - now apply rd_up_eq.
  - now rewrite rd_up_ne by lia.
Qed.
Lemma iter_swap_up a i j x y : rd a i = Some x -> rd a j = Some y -> iter_swap a i j = Some (up (up a i y) j x).
Proof.
  intros Hi Hj. unfold iter_swap. rewrite Hi, Hj. cbn [obind].
  rewrite wr_up by (eapply rd_range; eauto). cbn [obind].
  apply wr_up. rewrite up_length. eapply rd_range; eauto.
Qed.

(** [a'] is [a] with the elements of positions [lo,hi) rearranged among themselves *)
Definition rearr (lo hi : Z) (a a' : list A) : Prop :=
  Permutation a a' /\ forall i, i < lo \/ hi <= i -> rd a' i = rd a i.
Lemma rearr_refl lo hi a : rearr lo hi a a.
Proof. split; auto. Qed.
Lemma rearr_trans lo hi a b c : rearr lo hi a b -> rearr lo hi b c -> rearr lo hi a c.
Proof. intros [P Q] [P' Q']. split; [etransitivity; eauto|]. intros i H. now rewrite Q', Q. Qed.
Lemma rearr_wide lo hi lo' hi' a b : lo' <= lo -> hi <= hi' -> rearr lo hi a b -> rearr lo' hi' a b.
Proof. intros H H' [P Q]. split; [exact P|]. intros i O. apply Q. lia. Qed.
Lemma rearr_len lo hi a b : rearr lo hi a b -> length b = length a.
Proof. intros [P _]. symmetry. now apply Permutation_length. Qed.

Lemma firstn_ext k a b : (forall i, 0 <= i < Z.of_nat k -> rd a i = rd b i) -> firstn k a = firstn k b.
Proof.
  intros H. apply nth_error_ext. intros n.
  assert (F : forall l : list A, nth_error (firstn k l) n = if (n <? k)%nat then nth_error l n else None).
  { clear. intros l. revert n l. induction k as [|k IH]; intros n l.
    - simpl. now destruct n.
    - destruct l as [|x l], n; simpl; try reflexivity; [now destruct (Nat.ltb _ _)|]. apply IH. }
  rewrite !F. destruct (Nat.ltb_spec n k); [|reflexivity].
  specialize (H (Z.of_nat n)). unfold rd in H. destruct (Z.ltb_spec (Z.of_nat n) 0); [lia|].
  rewrite Nat2Z.id in H. apply H. lia.
Qed.
Lemma skipn_nth k a n : nth_error (skipn k a) n = nth_error a (k + n).
Proof.
  revert a; induction k as [|k IH]; intros a; simpl; [reflexivity|]. destruct a; [now destruct n|]. apply IH.
Qed.
Lemma skipn_ext k a b : (forall i, Z.of_nat k <= i -> rd a i = rd b i) -> skipn k a = skipn k b.
Proof.
  intros H. apply nth_error_ext. intros n. rewrite !skipn_nth.
  specialize (H (Z.of_nat (k + n))). unfold rd in H. destruct (Z.ltb_spec (Z.of_nat (k + n)) 0); [lia|].
  rewrite Nat2Z.id in H. apply H. lia.
Qed.
Lemma firstn_nth k a n : (n < k)%nat -> nth_error (firstn k a) n = nth_error a n.
Proof.
  revert a n; induction k as [|k IH]; intros a n H; [lia|]. destruct a; [now destruct n|]. destruct n; [reflexivity|].
  simpl. apply IH. lia.
Qed.
Lemma firstn_nth_out k a n : (k <= n)%nat -> nth_error (firstn k a) n = None.
Proof. intros H. apply nth_error_None. rewrite firstn_length. lia. Qed.

(** the elements of positions [lo,hi) *)
Definition slice (lo hi : Z) (a : list A) : list A := firstn (Z.to_nat (hi - lo)) (skipn (Z.to_nat lo) a).
Lemma slice_split lo hi a : 0 <= lo -> lo <= hi ->
  a = firstn (Z.to_nat lo) a ++ slice lo hi a ++ skipn (Z.to_nat hi) a.
Proof.
  intros H H'. unfold slice. rewrite <- (firstn_skipn (Z.to_nat lo) a) at 1. f_equal.
  rewrite <- (firstn_skipn (Z.to_nat (hi - lo)) (skipn (Z.to_nat lo) a)) at 1. f_equal.
  apply nth_error_ext. intros n. rewrite !skipn_nth. f_equal. lia.
Qed.
Lemma slice_rd lo hi a i : 0 <= lo -> 0 <= i -> rd (slice lo hi a) i = if i <? hi - lo then rd a (lo + i) else None.
Proof.
  intros H H'. unfold slice, rd. destruct (Z.ltb_spec i 0); [lia|].
  destruct (Z.ltb_spec (lo + i) 0); [lia|]. destruct (Z.ltb_spec i (hi - lo)).
  - rewrite firstn_nth by lia. rewrite skipn_nth. f_equal. lia.
  - apply firstn_nth_out. lia.
Qed.
Lemma slice_length lo hi a : 0 <= lo -> lo <= hi -> hi <= len a -> len (slice lo hi a) = hi - lo.
Proof.
  intros H H' H2. unfold slice. rewrite firstn_length, skipn_length. lia.
Qed.
Lemma slice_all a : slice 0 (len a) a = a.
Proof. unfold slice. simpl. rewrite Z.sub_0_r, Nat2Z.id. apply firstn_all. Qed.
Lemma slice_In lo hi a x : 0 <= lo -> In x (slice lo hi a) <-> exists i, lo <= i < hi /\ rd a i = Some x.
Proof.
  intros H. split.
  - intros I. apply In_nth_error in I as [n E].
    assert (E' : rd (slice lo hi a) (Z.of_nat n) = Some x).
    { unfold rd. destruct (Z.ltb_spec (Z.of_nat n) 0); [lia|]. now rewrite Nat2Z.id. }
    rewrite slice_rd in E' by lia. destruct (Z.ltb_spec (Z.of_nat n) (hi - lo)); [|discriminate].
    exists (lo + Z.of_nat n). split; [lia|exact E'].
  - intros (i & Ri & E).
    assert (E' : rd (slice lo hi a) (i - lo) = Some x).
    { rewrite slice_rd by lia. destruct (Z.ltb_spec (i - lo) (hi - lo)); [|lia]. now replace (lo + (i - lo)) with i by lia. }
    unfold rd in E'. destruct (Z.ltb_spec (i - lo) 0); [lia|]. eapply nth_error_In; eauto.
Qed.

Lemma rearr_slice lo hi a b : 0 <= lo -> lo <= hi -> rearr lo hi a b -> Permutation (slice lo hi a) (slice lo hi b).
Proof.
  intros H H' [P Q].
  assert (E1 : firstn (Z.to_nat lo) a = firstn (Z.to_nat lo) b).
  { apply firstn_ext. intros i Hi. symmetry. apply Q. lia. }
  assert (E2 : skipn (Z.to_nat hi) a = skipn (Z.to_nat hi) b).
  { apply skipn_ext. intros i Hi. symmetry. apply Q. lia. }
  rewrite (slice_split lo hi a), (slice_split lo hi b) in P by assumption. rewrite E1, E2 in P.
  apply Permutation_app_inv_l, Permutation_app_inv_r in P. exact P.
Qed.
Lemma rearr_in lo hi a b i x : 0 <= lo -> rearr lo hi a b -> lo <= i < hi -> rd b i = Some x ->
  exists j, lo <= j < hi /\ rd a j = Some x.
Proof.
  intros H R Ri E. apply rearr_slice in R; [|lia..].
  apply (slice_In lo hi a x H). eapply Permutation_in; [symmetry; exact R|].
  apply slice_In; [lia|eauto].
Qed.
Lemma rearr_sym lo hi a b : rearr lo hi a b -> rearr lo hi b a.
Proof. intros [P Q]. split; [now symmetry|]. intros i H. symmetry. now apply Q. Qed.

Lemma rearr_swap lo hi a i j x y : lo <= i < hi -> lo <= j < hi -> rd a i = Some x -> rd a j = Some y ->
  rearr lo hi a (up (up a i y) j x).
Proof.
  intros Hi Hj Ei Ej. split; [symmetry; now apply swap_perm|].
  pose proof (rd_range _ _ _ Ei). pose proof (rd_range _ _ _ Ej).
  intros k Hk. rewrite !rd_up_ne by lia. reflexivity.
Qed.
End Lib.
Notation len a := (Z.of_nat (length a)).

Section Mid.
Context {A : Type}.
Implicit Types (p l s : list A).
Lemma slice_mid p l s : slice (len p) (len p + len l) (p ++ l ++ s) = l.
Proof.
  unfold slice. rewrite Nat2Z.id, skipn_app, skipn_all, Nat.sub_diag. simpl skipn. rewrite app_nil_l.
  replace (Z.to_nat (len p + len l - len p)) with (length l) by lia.
  rewrite firstn_app, firstn_all, Nat.sub_diag. simpl. apply app_nil_r.
Qed.
Lemma mid_len p l s : len (p ++ l ++ s) = len p + len l + len s.
Proof. rewrite !app_length. lia. Qed.
Lemma mid_split p l s a' : (forall i, i < len p \/ len p + len l <= i -> rd a' i = rd (p ++ l ++ s) i) ->
  a' = p ++ slice (len p) (len p + len l) a' ++ s.
Proof.
  intros Q. rewrite (slice_split (len p) (len p + len l) a') at 1 by lia. f_equal; [|f_equal].
  - rewrite (firstn_ext (Z.to_nat (len p)) a' (p ++ l ++ s)) by (intros i Hi; apply Q; lia).
    rewrite Nat2Z.id, firstn_app, firstn_all, Nat.sub_diag. simpl. apply app_nil_r.
  - rewrite (skipn_ext (Z.to_nat (len p + len l)) a' (p ++ l ++ s)) by (intros i Hi; apply Q; lia).
    rewrite app_assoc. replace (Z.to_nat (len p + len l)) with (length (p ++ l)) by (rewrite app_length; lia).
    rewrite skipn_app, skipn_all, Nat.sub_diag. reflexivity.
Qed.
Lemma rearr_mid p l s a' : rearr (len p) (len p + len l) (p ++ l ++ s) a' ->
  a' = p ++ slice (len p) (len p + len l) a' ++ s /\ Permutation l (slice (len p) (len p + len l) a').
Proof.
  intros R. split.
  - apply mid_split. apply R.
  - rewrite <- (slice_mid p l s) at 1. apply rearr_slice; [lia..|exact R].
Qed.
Lemma rd_mid p l s i : 0 <= i < len l -> rd (p ++ l ++ s) (len p + i) = rd l i.
Proof.
  intros H. unfold rd. destruct (Z.ltb_spec (len p + i) 0); [lia|]. destruct (Z.ltb_spec i 0); [lia|].
  rewrite nth_error_app2 by lia. rewrite nth_error_app1 by lia. f_equal. lia.
Qed.
End Mid.
