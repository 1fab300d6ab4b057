(** reverse, rotate, swap_ranges and random_shuffle (C74).  The range is a part of [p ++ ... ++ s]. *)
From Coq Require Import ZArith List Bool Lia Permutation.
From Verif Require Import F64 ArrModel ArrLib RotModel RotProof.
Import ListNotations.
Open Scope Z_scope.

Section Props.
Context {A : Type}.
Implicit Types (p l s x y m : list A).

(** C74: reverse, for either kind of iterator *)
Theorem C74_reverse ran p l s : reverse ran (p ++ l ++ s) (len p) (len p + len l) = Some (p ++ rev l ++ s).
Proof. now apply reverse_ok. Qed.
(** C74: rotate exchanges [first,middle) and [middle,last) and returns the place where the old first element is now *)
Theorem C74_rotate k p x y s :
  rotate k (p ++ x ++ y ++ s) (len p) (len p + len x) (len p + len x + len y) = Some (p ++ y ++ x ++ s, len p + len y).
Proof.
  unfold rotate. destruct x as [|u x].
  - replace (len p =? len p + len []) with true by (symmetry; apply Z.eqb_eq; simpl; lia). simpl app. do 2 f_equal. simpl; lia.
  - replace (len p =? len p + len (u :: x)) with false by (symmetry; apply Z.eqb_neq; simpl length; lia). destruct y as [|v y].
    + replace (len p + len (u :: x) =? len p + len (u :: x) + len []) with true by (symmetry; apply Z.eqb_eq; simpl length; lia).
      simpl app. do 2 f_equal. simpl; lia.
    + replace (len p + len (u :: x) =? len p + len (u :: x) + len (v :: y)) with false by (symmetry; apply Z.eqb_neq; simpl length; lia).
      destruct k; [apply rotate_forward_ok|apply rotate_bid_ok|apply rotate_ran_ok]; auto; discriminate.
Qed.
(** C74: swap_ranges exchanges two ranges of the same length that do not overlap *)
Theorem C74_swap_ranges p x m y s : length x = length y ->
  swap_ranges (S (length x)) (p ++ x ++ m ++ y ++ s) (len p) (len p + len x) (len p + len x + len m) =
  Some (p ++ y ++ m ++ x ++ s, len p + len x + len m + len y).
Proof. intros E. apply swap_ranges_ok; auto; lia. Qed.
Theorem C74_reverse_copy l : reverse_copy l = rev l.
Proof. induction l as [|x l IH]; simpl; [reflexivity|now rewrite IH]. Qed.

(** C74: random_shuffle rearranges the range and nothing else, whatever rand() gives *)
Lemma shuffle_loop_ok fuel : forall (a : list A) first i last rand, 0 <= first -> first < i <= last -> last <= len a -> (Z.to_nat (last - i) < fuel)%nat ->
  Forall (fun v => 0 <= v) rand -> last - i <= len rand ->
  exists a', shuffle_loop a first i last fuel rand = Some a' /\ rearr first last a a'.
Proof.
  induction fuel as [|fuel IH]; intros a first i last rand H0 H1 H2 Hf F HL; [lia|]. cbn [shuffle_loop].
  destruct (Z.eqb_spec i last) as [->|N]. { exists a. split; [reflexivity|apply rearr_refl]. }
  destruct rand as [|v rand]; [simpl length in HL; lia|]. inversion F as [|? ? Fv F']; subst.
  rewrite Z.rem_mod_nonneg by lia. pose proof (Z.mod_pos_bound v (i - first + 1) ltac:(lia)) as B. set (j := first + v mod (i - first + 1)) in *.
  assert (Bj : first <= j <= i) by (unfold j; lia). clearbody j. clear B.
  destruct (rd_ex a i) as [x Ex]; [lia|]. destruct (rd_ex a j) as [y Ey]; [lia|].
  rewrite (iter_swap_up a i j x y Ex Ey). cbn [obind].
  pose proof (rearr_swap first last a i j x y ltac:(lia) ltac:(lia) Ex Ey) as RS.
  destruct (IH (up (up a i y) j x) first (i + 1) last rand) as (a' & E & R'); auto; try lia.
  - rewrite !up_length. lia.
  - simpl length in HL. lia.
  - exists a'. split; [exact E|]. eapply rearr_trans; eauto.
Qed.
Lemma shuffle_gen_loop_ok fuel : forall (a : list A) first i last n rand, 0 <= first -> first < i <= last -> last <= len a -> n = last - first -> (Z.to_nat (last - i) < fuel)%nat ->
  Forall (fun f => forall k, 0 < k -> 0 <= f k) rand -> last - i <= len rand ->
  exists a', shuffle_gen_loop a first i last n fuel rand = Some a' /\ rearr first last a a'.
Proof.
  induction fuel as [|fuel IH]; intros a first i last n rand H0 H1 H2 En Hf F HL; [lia|]. cbn [shuffle_gen_loop].
  destruct (Z.eqb_spec i last) as [->|N]. { exists a. split; [reflexivity|apply rearr_refl]. }
  destruct rand as [|f rand]; [simpl length in HL; lia|]. inversion F as [|? ? Ff F']; subst. set (n := last - first).
  rewrite Z.rem_mod_nonneg by (try apply Ff; unfold n; lia). pose proof (Z.mod_pos_bound (f (i - first + 1)) n ltac:(unfold n; lia)) as B. set (j := first + f (i - first + 1) mod n) in *.
  assert (Bj : first <= j < last) by (unfold j, n in *; lia). clearbody j. clear B.
  destruct (rd_ex a i) as [x Ex]; [lia|]. destruct (rd_ex a j) as [y Ey]; [lia|].
  rewrite (iter_swap_up a i j x y Ex Ey). cbn [obind].
  pose proof (rearr_swap first last a i j x y ltac:(lia) ltac:(lia) Ex Ey) as RS.
  destruct (IH (up (up a i y) j x) first (i + 1) last n rand) as (a' & E & R'); auto; try lia.
  - rewrite !up_length. lia.
  - simpl length in HL. lia.
  - exists a'. split; [exact E|]. eapply rearr_trans; eauto.
Qed.
Theorem C74_random_shuffle p l s rand : Forall (fun v => 0 <= v) rand -> len l - 1 <= len rand ->
  exists l', random_shuffle (p ++ l ++ s) (len p) (len p + len l) rand = Some (p ++ l' ++ s) /\ Permutation l l'.
Proof.
  intros F HL. unfold random_shuffle. destruct (Z.eqb_spec (len p) (len p + len l)) as [E|N].
  - assert (l = []) by (destruct l; [reflexivity|simpl length in E; lia]). subst. exists []. auto.
  - destruct (shuffle_loop_ok (S (Z.to_nat (len p + len l - len p))) (p ++ l ++ s) (len p) (len p + 1) (len p + len l) rand) as (a' & E & R); auto; rewrite ?mid_len; try lia.
    destruct (rearr_mid p l s a' R) as (Ea & Pm). exists (slice (len p) (len p + len l) a'). split; [rewrite E; f_equal; exact Ea|exact Pm].
Qed.
Theorem C74_random_shuffle_gen p l s rand : Forall (fun f => forall k, 0 < k -> 0 <= f k) rand -> len l - 1 <= len rand ->
  exists l', random_shuffle_gen (p ++ l ++ s) (len p) (len p + len l) rand = Some (p ++ l' ++ s) /\ Permutation l l'.
Proof.
  intros F HL. unfold random_shuffle_gen. destruct (Z.eqb_spec (len p) (len p + len l)) as [E|N].
  - assert (l = []) by (destruct l; [reflexivity|simpl length in E; lia]). subst. exists []. auto.
  - destruct (shuffle_gen_loop_ok (S (Z.to_nat (len p + len l - len p))) (p ++ l ++ s) (len p) (len p + 1) (len p + len l) (len p + len l - len p) rand) as (a' & E & R); auto; rewrite ?mid_len; try lia.
    destruct (rearr_mid p l s a' R) as (Ea & Pm). exists (slice (len p) (len p + len l) a'). split; [rewrite E; f_equal; exact Ea|exact Pm].
Qed.
End Props.

Example C74_example : rotate Random ([9; 9] ++ [1; 2; 3; 4; 5; 6] ++ [7; 8; 10; 11] ++ [0]) 2 8 12 = Some ([9; 9; 7; 8; 10; 11; 1; 2; 3; 4; 5; 6; 0], 6) /\
  rotate Forward ([9; 9] ++ [1; 2; 3; 4; 5; 6] ++ [7; 8; 10; 11] ++ [0]) 2 8 12 = Some ([9; 9; 7; 8; 10; 11; 1; 2; 3; 4; 5; 6; 0], 6) /\
  rotate Bidirectional ([9; 9] ++ [1; 2; 3; 4; 5; 6] ++ [7; 8; 10; 11] ++ [0]) 2 8 12 = Some ([9; 9; 7; 8; 10; 11; 1; 2; 3; 4; 5; 6; 0], 6) /\
  reverse true [1; 2; 3; 4; 5] 1 4 = Some [1; 4; 3; 2; 5] /\
  swap_ranges 3 ([1; 2] ++ [3] ++ [4; 5]) 0 2 3 = Some ([4; 5; 3; 1; 2], 5) /\
  random_shuffle [1; 2; 3; 4] 0 4 [7; 5; 6] = Some [1; 2; 4; 3].
Proof. vm_compute. repeat split. Qed.

Print Assumptions C74_reverse.
Print Assumptions C74_rotate.
Print Assumptions C74_swap_ranges.
Print Assumptions C74_reverse_copy.
Print Assumptions C74_random_shuffle.
Print Assumptions C74_random_shuffle_gen.
