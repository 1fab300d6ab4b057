(** C145: partial_sort_copy fills the result with the smallest elements of the input, in order *)
From Coq Require Import ZArith List Bool Lia Permutation Sorted.
From Verif Require Import F64 ArrModel ArrLib SortModel SortSpec HeapProof SortProps PscModel.
Import ListNotations.
Open Scope Z_scope.

Section Psc.
Context {A : Type} (lt : A -> A -> bool) (SW : strict_weak lt).
Implicit Types (p l s q t r h d : list A) (x y z u w m : A).

Lemma wr_head p y r x : wr (p ++ y :: r) (len p) x = Some (p ++ x :: r).
Proof.
  unfold wr. rewrite app_length. simpl length.
  replace ((0 <=? len p) && (len p <? Z.of_nat (length p + S (length r)))) with true
    by (symmetry; apply andb_true_intro; split; [apply Z.leb_le|apply Z.ltb_lt]; lia).
  f_equal. rewrite Nat2Z.id. induction p as [|z p IH]; [reflexivity|]. cbn [length app upd]. now rewrite IH.
Qed.
Lemma rd_head p x r : rd (p ++ x :: r) (len p) = Some x.
Proof.
  unfold rd. destruct (Z.ltb_spec (len p) 0); [lia|]. rewrite Nat2Z.id, nth_error_app2, Nat.sub_diag by lia. reflexivity.
Qed.
Lemma len_snoc p x : len (p ++ [x]) = len p + 1.
Proof. rewrite app_length. simpl length. lia. Qed.

Lemma psc_fill_ok l : forall fuel q t p r s, (length l < fuel)%nat ->
  psc_fill fuel (q ++ l ++ t) (len q) (len q + len l) (p ++ r ++ s) (len p) (len p + len r) =
  let k := Nat.min (length l) (length r) in
  Some (p ++ firstn k l ++ skipn k r ++ s, len q + Z.of_nat k, len p + Z.of_nat k).
Proof.
  induction l as [|x l IH]; intros [|fuel] q t p r s Hf; simpl length in *; try lia; cbn [psc_fill].
  - replace (len q =? len q + Z.of_nat 0) with true by (symmetry; apply Z.eqb_eq; lia). cbn. rewrite !Z.add_0_r. reflexivity.
  - replace (len q =? len q + Z.of_nat (S (length l))) with false by (symmetry; apply Z.eqb_neq; lia).
    destruct r as [|y r]; simpl length.
    + replace (len p =? len p + Z.of_nat 0) with true by (symmetry; apply Z.eqb_eq; lia). cbn. rewrite !Z.add_0_r. reflexivity.
    + replace (len p =? len p + Z.of_nat (S (length r))) with false by (symmetry; apply Z.eqb_neq; lia).
      cbn [negb andb]. change ((x :: l) ++ t) with (x :: l ++ t). rewrite rd_head. cbn [obind].
      change ((y :: r) ++ s) with (y :: r ++ s). rewrite wr_head. cbn [obind].
      pose proof (IH fuel (q ++ [x]) t (p ++ [x]) r s ltac:(lia)) as E. cbv zeta in *.
      rewrite <- !app_assoc in E. cbn [app] in E. rewrite !len_snoc in E.
      replace (len q + Z.of_nat (S (length l))) with (len q + 1 + len l) by lia.
      replace (len p + Z.of_nat (S (length r))) with (len p + 1 + len r) by lia.
      rewrite E. cbn [Nat.min firstn skipn app]. do 2 f_equal; [f_equal|]; lia.
Qed.

Lemma heap_top p h s x u : heap lt h -> rd (p ++ h ++ s) (len p) = Some x -> In u h -> lt x u = false.
Proof.
  intros H Ex I. apply In_nth_error in I as [i Ei]. assert (Li : (i < length h)%nat) by (apply nth_error_Some; congruence).
  pose proof (proj1 (heap_mid lt p h s) H) as Hp.
  refine (hp_max lt SW (p ++ h ++ s) (len p) (len h) (Z.of_nat i) _ _ Hp _ u x _ Ex); rewrite ?mid_len; try lia.
  rewrite rd_mid by lia. unfold rd. destruct (Z.ltb_spec (Z.of_nat i) 0); [lia|]. now rewrite Nat2Z.id.
Qed.

(** one exchange of the top of the heap *)
Lemma adjust_top p h s x y : heap lt (y :: h) -> exists h', adjust_heap lt (p ++ (y :: h) ++ s) (len p) 0 (len (y :: h)) x = Some (p ++ h' ++ s) /\
  Permutation (x :: h) h' /\ heap lt h'.
Proof.
  intros H. pose proof (proj1 (heap_mid lt p (y :: h) s) H) as Hp.
  destruct (adjust_ok lt SW (p ++ (y :: h) ++ s) (len p) 0 (len (y :: h)) x) as (a' & E & R & H'); rewrite ?mid_len; try (simpl length; lia).
  { intros i Ri Pi. apply Hp; lia. }
  rewrite Z.add_0_r in R.
  assert (Eu : up (p ++ (y :: h) ++ s) (len p) x = p ++ (x :: h) ++ s).
  { pose proof (wr_head p y (h ++ s) x) as W. rewrite wr_up in W.
    - injection W as W. exact W.
    - rewrite app_length. simpl length. lia. }
  rewrite Eu in R. change (len (y :: h)) with (len (x :: h)) in *.
  apply rearr_mid in R as [Ea Pa]. set (h' := slice _ _ a') in *. clearbody h'. subst a'.
  exists h'. split; [exact E|]. split; [exact Pa|]. apply (heap_mid lt p h' s).
  replace (len h') with (len (x :: h)); [exact H'|]. f_equal. now apply Permutation_length.
Qed.

Lemma psc_rest_ok l : forall fuel q t p h s, (length l < fuel)%nat -> h <> [] -> heap lt h ->
  exists h' d, psc_rest lt fuel (q ++ l ++ t) (len q) (len q + len l) (p ++ h ++ s) (len p) (len p + len h) = Some (p ++ h' ++ s) /\
    Permutation (h ++ l) (h' ++ d) /\ length h' = length h /\ heap lt h' /\
    (forall u y, In u h' -> In y d -> lt y u = false) /\
    (forall m, (forall w, In w h -> lt m w = false) -> forall u, In u h' -> lt m u = false).
Proof.
  induction l as [|x l IH]; intros [|fuel] q t p h s Hf Hh H; simpl length in *; try lia; cbn [psc_rest].
  - replace (len q =? len q + Z.of_nat 0) with true by (symmetry; apply Z.eqb_eq; lia).
    exists h, []. rewrite app_nil_r. repeat split; auto. intros u y _ [].
  - replace (len q =? len q + Z.of_nat (S (length l))) with false by (symmetry; apply Z.eqb_neq; lia).
    change ((x :: l) ++ t) with (x :: l ++ t). rewrite rd_head. cbn [obind].
    destruct h as [|y h]; [congruence|].
    assert (Et : rd (p ++ (y :: h) ++ s) (len p) = Some y) by apply (rd_head p y (h ++ s)).
    rewrite Et. cbn [obind].
    assert (Top : forall u, In u (y :: h) -> lt y u = false) by (intros u; exact (heap_top p (y :: h) s y u H Et)).
    assert (Q : forall h0, h0 <> [] -> heap lt h0 -> length h0 = length (y :: h) -> exists h' d,
      psc_rest lt fuel (q ++ x :: l ++ t) (len q + 1) (len q + Z.of_nat (S (length l))) (p ++ h0 ++ s) (len p) (len p + len (y :: h)) = Some (p ++ h' ++ s) /\
      Permutation (h0 ++ l) (h' ++ d) /\ length h' = length h0 /\ heap lt h' /\
      (forall u y, In u h' -> In y d -> lt y u = false) /\
      (forall m, (forall w, In w h0 -> lt m w = false) -> forall u, In u h' -> lt m u = false)).
    { intros h0 N0 H0 L0. pose proof (IH fuel (q ++ [x]) t p h0 s ltac:(lia) N0 H0) as E.
      rewrite <- !app_assoc in E. cbn [app] in E. rewrite !len_snoc, L0 in E.
      replace (len q + Z.of_nat (S (length l))) with (len q + 1 + len l) by lia. rewrite L0. exact E. }
    destruct (lt x y) eqn:Lxy.
    + destruct (adjust_top p h s x y H) as (h1 & E1 & P1 & H1).
      replace (len p + len (y :: h) - len p) with (len (y :: h)) by lia. rewrite E1. cbn [obind].
      pose proof (Permutation_length P1) as L1. simpl length in L1.
      destruct (Q h1) as (h' & d & E & P & L & H' & D & M); auto.
      { intros ->. discriminate. }
      exists h', (y :: d). split; [exact E|].
      assert (B : forall w, In w h1 -> lt y w = false).
      { intros w I. apply (Permutation_in _ (Permutation_sym P1)) in I as [<-|I].
        - now apply (lt_le lt SW).
        - apply Top. now right. }
      split; [|split; [simpl length in *; lia|split; [exact H'|split]]].
      * transitivity (y :: h' ++ d); [|apply Permutation_middle]. cbn [app]. constructor.
        rewrite <- P, <- P1. cbn [app]. symmetry. apply Permutation_middle.
      * intros u z Iu [<-|Iz]; [|eauto]. exact (M y B u Iu).
      * intros m Hm u Iu. apply M; [|exact Iu]. intros w Iw. apply (le_trans lt SW w y m); [exact (B w Iw)|apply Hm; now left].
    + destruct (Q (y :: h)) as (h' & d & E & P & L & H' & D & M); auto.
      exists h', (x :: d). split; [exact E|]. split; [|split; [exact L|split; [exact H'|split; [|exact M]]]].
      * transitivity (x :: h' ++ d); [|apply Permutation_middle]. rewrite <- P. symmetry. apply Permutation_middle.
      * intros u z Iu [<-|Iz]; [|eauto]. apply (le_trans lt SW u y x); [exact (M y Top u Iu)|exact Lxy].
Qed.
End Psc.

(** input [l] inside q ++ l ++ t, result range [r] inside p ++ r ++ s *)
Theorem C145_partial_sort_copy {A} (lt : A -> A -> bool) (SW : strict_weak lt) (q l t p r s : list A) :
  exists l1 l2, partial_sort_copy lt (q ++ l ++ t) (len q) (len q + len l) (p ++ r ++ s) (len p) (len p + len r) =
      Some (p ++ l1 ++ skipn (length l1) r ++ s, len p + len l1) /\
    length l1 = Nat.min (length l) (length r) /\ Permutation l (l1 ++ l2) /\ ordered lt l1 /\
    forall x y, In x l1 -> In y l2 -> lt y x = false.
Proof.
  unfold partial_sort_copy. destruct (Z.eqb_spec (len p) (len p + len r)) as [E0|N0].
  { assert (r = []) by (destruct r; [reflexivity|simpl length in E0; lia]). subst r. exists [], l. cbn. rewrite Nat.min_0_r.
    repeat split; auto; [constructor|easy]. }
  replace (len q + len l - len q) with (len l) by lia.
  rewrite psc_fill_ok by lia. cbv zeta. cbn [obind]. set (k := Nat.min (length l) (length r)).
  assert (Hk : (k <= length l /\ k <= length r)%nat) by lia.
  assert (Lk : length (firstn k l) = k) by (rewrite firstn_length; lia).
  destruct (make_heap_ok lt SW (p ++ firstn k l ++ skipn k r ++ s) (len p) (len p + Z.of_nat k)) as (a1 & E1 & R1 & H1);
    rewrite ?mid_len, ?Lk; try lia. rewrite E1. cbn [obind].
  rewrite <- Lk in R1 at 1. apply rearr_mid in R1 as [Ea Pa]. rewrite Lk in Ea, Pa. set (h := slice _ _ a1) in *. clearbody h. subst a1.
  pose proof (Permutation_length Pa) as Lh. rewrite Lk in Lh.
  replace (len p + Z.of_nat k - len p) with (len h) in H1 by lia. apply heap_mid in H1.
  assert (Rest : exists h' d, psc_rest lt (S (Z.to_nat (len q + len l - (len q + Z.of_nat k)))) (q ++ l ++ t) (len q + Z.of_nat k) (len q + len l)
      (p ++ h ++ skipn k r ++ s) (len p) (len p + Z.of_nat k) = Some (p ++ h' ++ skipn k r ++ s) /\
    Permutation (h ++ skipn k l) (h' ++ d) /\ length h' = length h /\ heap lt h' /\ (forall u y, In u h' -> In y d -> lt y u = false)).
  { destruct l as [|x l'] eqn:El.
    - exists h, []. subst k. cbn [psc_rest length Nat.min] in *.
      replace (len q + Z.of_nat 0 =? len q + Z.of_nat 0) with true by (symmetry; apply Z.eqb_eq; lia).
      split; [reflexivity|]. split; [cbn; now rewrite app_nil_r|]. split; [reflexivity|]. split; [exact H1|]. intros u y _ [].
    - rewrite <- El in *. assert (k <> 0)%nat by (subst k l; simpl length in *; destruct r; simpl length in *; lia).
      destruct (psc_rest_ok lt SW (skipn k l) (S (Z.to_nat (len q + len l - (len q + Z.of_nat k)))) (q ++ firstn k l) t p h (skipn k r ++ s))
        as (h' & d & E & P & L & H' & D & M); auto.
      + rewrite skipn_length. lia.
      + intros ->. simpl length in Lh. lia.
      + rewrite <- (app_assoc q), (app_assoc (firstn k l)), firstn_skipn in E.
        replace (len (q ++ firstn k l)) with (len q + Z.of_nat k) in E by (rewrite app_length; lia).
        replace (len q + Z.of_nat k + len (skipn k l)) with (len q + len l) in E by (rewrite skipn_length; lia).
        rewrite <- Lh in E. exists h', d. split; [exact E|]. auto. }
  destruct Rest as (h' & d & E2 & P2 & L2 & H2 & D2). rewrite E2. cbn [obind].
  apply (heap_mid lt p h' (skipn k r ++ s)) in H2.
  destruct (sort_heap_ok lt SW (p ++ h' ++ skipn k r ++ s) (len p) (len p + Z.of_nat k)) as (a3 & E3 & R3 & S3);
    rewrite ?mid_len; try lia.
  { replace (len p + Z.of_nat k - len p) with (len h') by lia. exact H2. }
  rewrite E3. cbn [obind]. replace (Z.of_nat k) with (len h') in R3, S3 by lia.
  apply rearr_mid in R3 as [Ea3 Pa3]. set (l1 := slice _ _ a3) in *. clearbody l1. subst a3.
  pose proof (Permutation_length Pa3) as L1. assert (Ek : length l1 = k) by lia.
  exists l1, d. rewrite Ek. split; [reflexivity|]. split; [reflexivity|]. split; [|split].
  - rewrite <- Pa3, <- P2, <- Pa. now rewrite firstn_skipn.
  - apply (ordered_mid lt p l1 (skipn k r ++ s)). rewrite <- L1. exact S3.
  - intros x y Ix Iy. apply D2; [|exact Iy]. now apply (Permutation_in _ (Permutation_sym Pa3)).
Qed.

(** the three smallest of seven numbers in a storage of five cells, then a result range with room to spare *)
Example C145_ex : partial_sort_copy Z.ltb [9; 5; 3; 8; 1; 7; 2; 6; 0] 1 8 [10; 11; 12; 13; 14] 1 4 = Some ([10; 1; 2; 3; 14], 4) /\
  partial_sort_copy Z.ltb [5; 3] 0 2 [10; 11; 12; 13; 14] 1 4 = Some ([10; 3; 5; 13; 14], 3) /\ strict_weak Z.ltb.
Proof.
  split; [reflexivity|]. split; [reflexivity|]. split; intros *; rewrite ?Z.ltb_lt, ?Z.ltb_ge; try lia.
Qed.
Print Assumptions C145_partial_sort_copy.
