(** Heaps (C68), sort (C69), partial_sort (C70), nth_element (C71) of mylib/mystl/heap_algo.h and algo.h.
    A range is the middle part [l] of the storage [p ++ l ++ s]; the rest [p], [s] must stay as it is. *)
From Coq Require Import ZArith List Bool Lia Permutation Sorted.
From Verif Require Import F64 ArrModel ArrLib SortModel SortSpec HeapProof SortProof.
Import ListNotations.
Open Scope Z_scope.

Lemma heap_mid {A} (lt : A -> A -> bool) p l s : heap lt l <-> hp lt (p ++ l ++ s) (len p) 0 (len l).
Proof. rewrite <- heap_hp by (rewrite ?mid_len; lia). now rewrite slice_mid. Qed.
Lemma ordered_mid {A} (lt : A -> A -> bool) p l s : ordered lt l <-> asc lt (p ++ l ++ s) (len p) (len p + len l).
Proof. rewrite asc_ordered by (rewrite ?mid_len; lia). now rewrite slice_mid. Qed.
Lemma perm_len {A} (l l' : list A) : Permutation l l' -> len l' = len l.
Proof. intros H. apply Permutation_length in H. lia. Qed.

(** C68: push_heap makes a heap of a heap and one more element at its end *)
Theorem C68_push_heap {A} (lt : A -> A -> bool) (SW : strict_weak lt) (p l s : list A) (v : A) : heap lt l ->
  exists l', push_heap lt (p ++ (l ++ [v]) ++ s) (len p) (len p + len (l ++ [v])) = Some (p ++ l' ++ s) /\
    Permutation (l ++ [v]) l' /\ heap lt l'.
Proof.
  intros H. set (m := l ++ [v]). assert (Lm : len m = len l + 1) by (unfold m; rewrite app_length; simpl; lia).
  destruct (push_heap_ok lt SW (p ++ m ++ s) (len p) (len p + len m)) as (a' & E & R & H'); rewrite ?mid_len; try lia.
  { replace (len p + len m - len p - 1) with (len l) by lia. unfold m. rewrite <- app_assoc.
    apply (heap_mid lt p l ([v] ++ s)). exact H. }
  apply rearr_mid in R as [Ea Pa]. set (l' := slice _ _ a') in *. clearbody l'. subst a'.
  exists l'. split; [exact E|]. split; [exact Pa|]. apply (heap_mid lt p l' s). rewrite (perm_len _ _ Pa).
  now replace (len p + len m - len p) with (len m) in H' by lia.
Qed.
(** C68: pop_heap moves a greatest element to the end and makes a heap of the others *)
Theorem C68_pop_heap {A} (lt : A -> A -> bool) (SW : strict_weak lt) (p l s : list A) (x : A) : heap lt (x :: l) ->
  exists l', pop_heap lt (p ++ (x :: l) ++ s) (len p) (len p + len (x :: l)) = Some (p ++ (l' ++ [x]) ++ s) /\
    Permutation l l' /\ heap lt l' /\ (forall y, In y l -> lt x y = false).
Proof.
  intros H. set (m := x :: l) in *. assert (Lm : len m = len l + 1) by (unfold m; simpl length; lia).
  assert (Hh : hp lt (p ++ m ++ s) (len p) 0 (len m)) by (now apply heap_mid).
  assert (Mx : forall y, In y l -> lt x y = false).
  { intros y I. apply In_nth_error in I as [k Ek].
    refine (hp_max lt SW (p ++ m ++ s) (len p) (len m) (Z.of_nat k + 1) _ _ Hh _ y x _ _); rewrite ?mid_len; try lia.
    - assert (k < length l)%nat by (apply nth_error_Some; congruence). lia.
    - rewrite rd_mid. 2:{ assert (k < length l)%nat by (apply nth_error_Some; congruence). lia. }
      unfold rd. destruct (Z.ltb_spec (Z.of_nat k + 1) 0); [lia|]. replace (Z.to_nat (Z.of_nat k + 1)) with (S k) by lia. exact Ek.
    - replace (len p) with (len p + 0) at 1 by lia. rewrite rd_mid by lia. reflexivity. }
  destruct (Z.eq_dec (len l) 0) as [Z0|NZ].
  - assert (l = []) by (destruct l; [reflexivity|simpl length in Z0; lia]). subst l. exists []. split.
    + destruct (pop_heap_one lt (p ++ m ++ s) (len p)) as (a' & E & ->); rewrite ?mid_len; try lia.
      replace (len p + len m) with (len p + 1) by lia. exact E.
    + split; [constructor|]. split; [|exact Mx]. intros i j u w _ Eu. destruct i; discriminate.
  - destruct (pop_heap_ok lt SW (p ++ m ++ s) (len p) (len p + len m)) as (a' & E & R & H' & Eb & M); rewrite ?mid_len; try lia.
    { now replace (len p + len m - len p) with (len m) by lia. }
    apply rearr_mid in R as [Ea Pa]. set (l1 := slice _ _ a') in *. clearbody l1. subst a'.
    pose proof (perm_len _ _ Pa) as L1.
    replace (len p + len m - 1) with (len p + (len m - 1)) in Eb by lia. rewrite rd_mid in Eb by lia.
    replace (len p) with (len p + 0) in Eb at 1 by lia. rewrite rd_mid in Eb by lia. change (rd m 0) with (Some x) in Eb.
    destruct (exists_last (l := l1)) as (l' & z & El). { intros ->. simpl length in L1. lia. }
    subst l1. rewrite app_length in L1. simpl length in L1.
    assert (z = x).
    { unfold rd in Eb. destruct (Z.ltb_spec (len m - 1) 0); [discriminate|].
      replace (Z.to_nat (len m - 1)) with (length l' + 0)%nat in Eb by lia. rewrite nth_error_app2 in Eb by lia.
      replace (length l' + 0 - length l')%nat with O in Eb by lia. simpl in Eb. congruence. }
    subst z. exists l'. split; [exact E|]. split.
    { apply Permutation_cons_inv with x. etransitivity; [exact Pa|]. symmetry. apply Permutation_cons_append. }
    split; [|exact Mx]. apply (heap_mid lt p l' ([x] ++ s)). rewrite app_assoc.
    replace (len p + len m - 1 - len p) with (len l') in H' by lia. rewrite <- app_assoc in H'. now rewrite <- app_assoc.
Qed.
(** C68: make_heap *)
Theorem C68_make_heap {A} (lt : A -> A -> bool) (SW : strict_weak lt) (p l s : list A) :
  exists l', make_heap lt (p ++ l ++ s) (len p) (len p + len l) = Some (p ++ l' ++ s) /\ Permutation l l' /\ heap lt l'.
Proof.
  destruct (make_heap_ok lt SW (p ++ l ++ s) (len p) (len p + len l)) as (a' & E & R & H'); rewrite ?mid_len; try lia.
  apply rearr_mid in R as [Ea Pa]. set (l' := slice _ _ a') in *. clearbody l'. subst a'.
  exists l'. split; [exact E|]. split; [exact Pa|]. apply (heap_mid lt p l' s). rewrite (perm_len _ _ Pa).
  now replace (len p + len l - len p) with (len l) in H' by lia.
Qed.
(** C68: sort_heap puts a heap in ascending order *)
Theorem C68_sort_heap {A} (lt : A -> A -> bool) (SW : strict_weak lt) (p l s : list A) : heap lt l ->
  exists l', sort_heap lt (p ++ l ++ s) (len p) (len p + len l) = Some (p ++ l' ++ s) /\ Permutation l l' /\ ordered lt l'.
Proof.
  intros H. destruct (sort_heap_ok lt SW (p ++ l ++ s) (len p) (len p + len l)) as (a' & E & R & H'); rewrite ?mid_len; try lia.
  { replace (len p + len l - len p) with (len l) by lia. now apply heap_mid. }
  apply rearr_mid in R as [Ea Pa]. set (l' := slice _ _ a') in *. clearbody l'. subst a'.
  exists l'. split; [exact E|]. split; [exact Pa|]. apply (ordered_mid lt p l' s). now rewrite (perm_len _ _ Pa).
Qed.
(** C68: is_heap and is_sorted answer their question (any relation for is_heap) *)
Theorem C68_is_heap {A} (lt : A -> A -> bool) (p l s : list A) :
  exists r, is_heap lt (p ++ l ++ s) (len p) (len p + len l) = Some r /\ (r = true <-> heap lt l).
Proof.
  unfold is_heap. replace (len p + len l - len p) with (len l) by lia.
  destruct (is_heap_loop_ok lt (S (Z.to_nat (len l))) (p ++ l ++ s) (len p) 0 1 (len l)) as (r & E & I);
    rewrite ?mid_len; try lia; [reflexivity|]. exists r. split; [exact E|]. rewrite I, (heap_mid lt p l s). split.
  - intros H i Ri _. apply H. lia.
  - intros H i Ri. apply H; [lia|]. pose proof (par_spec i). lia.
Qed.
Theorem C68_is_sorted {A} (lt : A -> A -> bool) (SW : strict_weak lt) (p l s : list A) :
  exists r, is_sorted lt (p ++ l ++ s) (len p) (len p + len l) = Some r /\ (r = true <-> ordered lt l).
Proof.
  unfold is_sorted. destruct (Z.eqb_spec (len p) (len p + len l)) as [E|N].
  - exists true. split; [reflexivity|]. split; [|auto]. intros _. assert (l = []) by (destruct l; [reflexivity|simpl length in E; lia]).
    subst l. constructor.
  - destruct (is_sorted_loop_ok lt SW (S (Z.to_nat (len p + len l - len p))) (p ++ l ++ s) (len p) (len p + 1) (len p + len l)) as (r & E & I);
      rewrite ?mid_len; try lia. exists r. split; [exact E|]. now rewrite I, <- ordered_mid.
Qed.

(** C70: partial_sort puts the smallest elements, in order, in front *)
Theorem C70_partial_sort {A} (lt : A -> A -> bool) (SW : strict_weak lt) (p l s : list A) (n : nat) :
  (0 < n <= length l)%nat ->
  exists l1 l2, partial_sort lt (p ++ l ++ s) (len p) (len p + Z.of_nat n) (len p + len l) = Some (p ++ (l1 ++ l2) ++ s) /\
    Permutation l (l1 ++ l2) /\ length l1 = n /\ ordered lt l1 /\ (forall x y, In x l1 -> In y l2 -> lt y x = false).
Proof.
  intros Hn.
  destruct (partial_sort_ok lt SW (p ++ l ++ s) (len p) (len p + Z.of_nat n) (len p + len l)) as (a' & E & R & S & C);
    rewrite ?mid_len; try lia.
  apply rearr_mid in R as [Ea Pa]. set (l' := slice _ _ a') in *. clearbody l'. subst a'. pose proof (perm_len _ _ Pa) as L'.
  rewrite <- (firstn_skipn n l') in E, S, C, Pa. set (l1 := firstn n l') in *. set (l2 := skipn n l') in *.
  assert (L1 : length l1 = n) by (unfold l1; rewrite firstn_length; lia).
  assert (L2 : len l2 = len l - Z.of_nat n) by (unfold l2; rewrite skipn_length; lia).
  exists l1, l2. split; [exact E|]. split; [exact Pa|]. split; [exact L1|]. split.
  - apply (ordered_mid lt p l1 (l2 ++ s)). rewrite L1. rewrite <- app_assoc in S. exact S.
  - intros x y Ix Iy. apply In_nth_error in Ix as [i Ei]. apply In_nth_error in Iy as [j Ej].
    assert (i < length l1)%nat by (apply nth_error_Some; congruence). assert (j < length l2)%nat by (apply nth_error_Some; congruence).
    refine (C (len p + Z.of_nat i) (len p + Z.of_nat (n + j)) _ _ x y _ _); try lia.
    + rewrite <- app_assoc, rd_mid by lia. unfold rd. destruct (Z.ltb_spec (Z.of_nat i) 0); [lia|]. now rewrite Nat2Z.id.
    + rewrite rd_mid by (rewrite app_length; lia). unfold rd. destruct (Z.ltb_spec (Z.of_nat (n + j)) 0); [lia|].
      rewrite Nat2Z.id, nth_error_app2 by lia. replace (n + j - length l1)%nat with j by lia. exact Ej.
Qed.

(** C69: sort on at most 128 elements; [lt] the function object (or operator<), [lt0] operator< *)
Theorem C69_sort_up_to_128 {A} (lt lt0 : A -> A -> bool) (SW : strict_weak lt) (p l s : list A) : (length l <= 128)%nat ->
  exists l', sort lt lt0 (p ++ l ++ s) (len p) (len p + len l) = Some (p ++ l' ++ s) /\ Permutation l l' /\ ordered lt l'.
Proof.
  intros H. destruct (sort_small lt SW lt0 (p ++ l ++ s) (len p) (len p + len l)) as (a' & E & R & S); rewrite ?mid_len; try lia.
  apply rearr_mid in R as [Ea Pa]. set (l' := slice _ _ a') in *. clearbody l'. subst a'.
  exists l'. split; [exact E|]. split; [exact Pa|]. apply (ordered_mid lt p l' s). now rewrite (perm_len _ _ Pa).
Qed.
(** C69: whatever the size, sort ends, stays inside the range and leaves elements of the range in ascending order.
    Missing from C69 for ranges of more than 128 elements: that no element is lost (refuted below). *)
Theorem C69_sort_partial {A} (lt lt0 : A -> A -> bool) (SW : strict_weak lt) (p l s : list A) :
  exists l', sort lt lt0 (p ++ l ++ s) (len p) (len p + len l) = Some (p ++ l' ++ s) /\ length l' = length l /\
    ordered lt l' /\ (forall x, In x l' -> In x l).
Proof.
  destruct (sort_any lt SW lt0 (p ++ l ++ s) (len p) (len p + len l)) as (a' & E & L & S & O & F); rewrite ?mid_len; try lia.
  pose proof (mid_split p l s a' O) as Ea. set (l' := slice (len p) (len p + len l) a') in *.
  assert (L' : length l' = length l). { apply (f_equal (@length A)) in Ea. rewrite !app_length in *. lia. }
  exists l'. rewrite <- Ea. split; [exact E|]. split; [exact L'|]. split.
  - apply (ordered_mid lt p l' s). rewrite L', <- Ea. exact S.
  - intros x I. apply (slice_In (len p) (len p + len l) a' x) in I as (i & Ri & Ei); [|lia].
    destruct (F i x Ri Ei) as (j & Rj & Ej). rewrite <- (slice_mid p l s). apply slice_In; [lia|eauto].
Qed.
Lemma Zltb_sw : strict_weak Z.ltb.
Proof. split; intros; rewrite ?Z.ltb_lt, ?Z.ltb_ge in *; lia. Qed.
(** C69 is false beyond 128 elements: of 0, 1, ..., 126, 128, 127 the sorted range holds 128 twice and 127 not at all *)
Definition w129 : list Z := map Z.of_nat (seq 0 127) ++ [128; 127].
Theorem C69_sort_keeps_elements_refuted :
  exists l l' : list Z, length l = 129%nat /\ sort Z.ltb Z.ltb l 0 129 = Some l' /\ In 127 l /\ ~ In 127 l'.
Proof.
  exists w129, (map Z.of_nat (seq 0 127) ++ [128; 128]). split; [reflexivity|]. split; [vm_compute; reflexivity|]. split.
  - unfold w129. apply in_or_app. right. simpl. auto.
  - intros I. apply in_app_or in I as [I|I].
    + apply in_map_iff in I as (k & E & I). apply in_seq in I. lia.
    + simpl in I. lia.
Qed.

(** C71: nth_element(first, nth, last) ends, stays inside the range and only rearranges it.
    Missing from C71: that the element at nth is the one a full sort would put there (refuted below). *)
Theorem C71_nth_element_partial {A} (lt : A -> A -> bool) (SW : strict_weak lt) (p l s : list A) (n : Z) (fuel : nat) :
  0 <= n <= len l -> (length l < fuel)%nat ->
  exists l', nth_element lt lt fuel (p ++ l ++ s) (len p) (len p + n) (len p + len l) = Some (p ++ l' ++ s) /\ Permutation l l'.
Proof.
  intros Hn Hf. unfold nth_element. destruct (Z.eqb_spec (len p + n) (len p + len l)); [exists l; auto|].
  destruct (nth_loop_ok lt SW fuel (p ++ l ++ s) (len p) (len p + n) (len p + len l)) as (a' & E & R); rewrite ?mid_len; try lia.
  apply rearr_mid in R as [Ea Pa]. eexists. rewrite <- Ea. eauto.
Qed.
(** C71 for at most 3 elements *)
Theorem C71_nth_element_small {A} (lt : A -> A -> bool) (SW : strict_weak lt) (p l s : list A) (n : Z) (fuel : nat) :
  0 <= n < len l -> (length l <= 3)%nat -> (0 < fuel)%nat ->
  exists l', nth_element lt lt fuel (p ++ l ++ s) (len p) (len p + n) (len p + len l) = Some (p ++ l' ++ s) /\
    Permutation l l' /\ ordered lt l'.
Proof.
  intros Hn Hl Hf. unfold nth_element. destruct (Z.eqb_spec (len p + n) (len p + len l)); [lia|].
  destruct fuel as [|fuel]; [lia|]. cbn [nth_loop]. destruct (Z.ltb_spec 3 (len p + len l - len p)); [lia|].
  destruct (insertion_sort_ok lt SW (p ++ l ++ s) (len p) (len p + len l)) as (a' & E & R & S); rewrite ?mid_len; try lia.
  apply rearr_mid in R as [Ea Pa]. set (l' := slice _ _ a') in *. clearbody l'. subst a'.
  exists l'. split; [exact E|]. split; [exact Pa|]. apply (ordered_mid lt p l' s). now rewrite (perm_len _ _ Pa).
Qed.
(** C71 is false: of {0, 2, 1, 0, 1, 0} the third smallest is 0, nth_element(a, a + 2, a + 6) leaves 1 at a[2] and a 0 behind it *)
Theorem C71_nth_element_refuted :
  exists (l : list Z) a', nth_element Z.ltb Z.ltb 100 l 0 2 6 = Some a' /\ rd a' 2 = Some 1 /\ rd a' 5 = Some 0.
Proof. exists [0; 2; 1; 0; 1; 0], [0; 0; 1; 2; 1; 0]. vm_compute. auto. Qed.
(** comparison by distance from 2, the function object of the next example *)
Definition by_dist2 (x y : Z) : bool := Z.abs (x - 2) <? Z.abs (y - 2).
Lemma by_dist2_sw : strict_weak by_dist2.
Proof. unfold by_dist2. split; intros; rewrite ?Z.ltb_lt, ?Z.ltb_ge in *; lia. Qed.
(** C71 is false for the overload with a function object: on {2, 0, 1, 3} compared by the distance from 2 it never returns *)
Theorem C71_nth_element_comp_never_ends_refuted :
  exists l : list Z, length l = 4%nat /\ forall fuel, nth_element by_dist2 Z.ltb fuel l 0 0 4 = None.
Proof.
  exists [2; 0; 1; 3]. split; [reflexivity|]. intros fuel. unfold nth_element. change (0 =? 4) with false. cbv iota.
  assert (M : median Z.ltb [2; 0; 1; 3] 0 (0 + Z.quot (4 - 0) 2) (4 - 1) = Some 0) by reflexivity.
  assert (P : unchecked_partition by_dist2 [2; 0; 1; 3] 0 4 (Cell 0) = Some ([2; 0; 1; 3], 0)) by (vm_compute; reflexivity).
  induction fuel as [|fuel IH]; [reflexivity|]. cbn [nth_loop]. change (3 <? 4 - 0) with true. cbv iota.
  rewrite M. cbn [obind]. rewrite P. cbn [obind]. change (0 <=? 0) with true. cbv iota. exact IH.
Qed.

(** the hypotheses of the theorems are met *)
Example C68_example : heap Z.ltb [9; 5; 8; 1; 2] /\ push_heap Z.ltb [9; 5; 8; 1; 2; 7] 0 6 = Some [9; 5; 8; 1; 2; 7] /\
  pop_heap Z.ltb [9; 5; 8; 1; 2] 0 5 = Some [8; 5; 2; 1; 9] /\ make_heap Z.ltb [1; 2; 3; 4; 5] 0 5 = Some [5; 4; 3; 1; 2] /\
  sort_heap Z.ltb [9; 5; 8; 1; 2] 0 5 = Some [1; 2; 5; 8; 9] /\ is_heap Z.ltb [9; 5; 8; 1; 2] 0 5 = Some true.
Proof.
  split; [|vm_compute; auto 10]. change [9; 5; 8; 1; 2] with ([] ++ [9; 5; 8; 1; 2] ++ []).
  destruct (C68_is_heap Z.ltb [] [9; 5; 8; 1; 2] []) as (r & E & I). apply I. vm_compute in E. congruence.
Qed.
Example C69_example : sort Z.ltb Z.ltb [7; 3; 9; 1; 3; 5] 1 5 = Some [7; 1; 3; 3; 9; 5] /\
  sort by_dist2 Z.ltb [7; 3; 9; 1; 2] 0 5 = Some [2; 3; 1; 7; 9].
Proof. vm_compute. auto. Qed.
Example C69_large_example : sort Z.ltb Z.ltb (rev (map Z.of_nat (seq 0 200))) 0 200 = Some (map Z.of_nat (seq 0 200)).
Proof. vm_compute. reflexivity. Qed.
Example C70_example : partial_sort Z.ltb [7; 3; 9; 1; 3; 5] 0 3 6 = Some [1; 3; 3; 9; 7; 5].
Proof. vm_compute. reflexivity. Qed.
Example C71_example : nth_element Z.ltb Z.ltb 7 [4; 2; 5; 1; 3] 0 2 5 = Some [1; 2; 3; 5; 4].
Proof. vm_compute. reflexivity. Qed.

Print Assumptions C68_push_heap. Print Assumptions C68_pop_heap. Print Assumptions C68_make_heap. Print Assumptions C68_sort_heap.
Print Assumptions C68_is_heap. Print Assumptions C68_is_sorted. Print Assumptions C69_sort_up_to_128. Print Assumptions C69_sort_partial.
Print Assumptions C69_sort_keeps_elements_refuted. Print Assumptions C70_partial_sort. Print Assumptions C71_nth_element_partial.
Print Assumptions C71_nth_element_small. Print Assumptions C71_nth_element_refuted. Print Assumptions C71_nth_element_comp_never_ends_refuted.
