From Coq Require Import ZArith List Bool Lia Permutation Sorted.
From Verif Require Import F64 ArrModel ArrLib SortModel SortSpec.
Import ListNotations.
Open Scope Z_scope.

Section Heap.
Context {A : Type} (lt : A -> A -> bool) (SW : strict_weak lt).
Implicit Types (a : list A) (x y z v : A).

Definition le x y : Prop := lt y x = false.
Lemma le_refl x : le x x.
Proof. apply (sw_irr _ SW). Qed.
Lemma le_trans x y z : le x y -> le y z -> le x z.
Proof.
  unfold le; intros H H'. destruct (lt z x) eqn:E; [|reflexivity].
  destruct (sw_neg _ SW _ y _ E); congruence.
Qed.
Lemma lt_le x y : lt x y = true -> le x y.
Proof.
  unfold le; intros H. destruct (lt y x) eqn:E; [|reflexivity].
  rewrite <- (sw_irr _ SW x). symmetry. eapply (sw_trans _ SW); eauto.
Qed.
Lemma lt_le_trans x y z : lt x y = true -> le y z -> lt x z = true.
Proof. unfold le; intros H H'. destruct (sw_neg _ SW _ z _ H); congruence. Qed.
Lemma le_lt_trans x y z : le x y -> lt y z = true -> lt x z = true.
Proof. unfold le; intros H H'. destruct (sw_neg _ SW _ x _ H'); congruence. Qed.

(** the element at i is not greater than the element at j *)
Definition le_at a (i j : Z) : Prop := forall x y, rd a i = Some x -> rd a j = Some y -> le x y.
Lemma le_at_refl a i : le_at a i i.
Proof. intros x y E E'. rewrite E in E'. injection E' as ->. apply le_refl. Qed.
Lemma le_at_trans a i j k : 0 <= j < len a -> le_at a i j -> le_at a j k -> le_at a i k.
Proof. intros R H H' x y Ex Ey. destruct (rd_ex a j R) as [m Em]. eapply le_trans; eauto. Qed.

Lemma rd_up a i x j : 0 <= i < len a -> rd (up a i x) j = if j =? i then Some x else rd a j.
Proof.
  intros H. destruct (Z.eqb_spec j i) as [->|N]; [now apply rd_up_eq|]. apply rd_up_ne; lia.
Qed.

Definition par (i : Z) : Z := (i - 1) / 2.
Lemma par_spec i : 2 * par i + 1 <= i <= 2 * par i + 2.
Proof. unfold par. Z.div_mod_to_equations; lia. Qed.
Lemma par_eq i p : i = 2 * p + 1 \/ i = 2 * p + 2 -> par i = p.
Proof. unfold par. intros H. Z.div_mod_to_equations; lia. Qed.

Inductive under (t : Z) : Z -> Prop :=
| un0 : under t t
| un1 h : t < h -> under t (par h) -> under t h.
Lemma under_le t h : under t h -> t <= h.
Proof. induction 1; lia. Qed.
Lemma under_par t h : under t h -> t < h -> under t (par h).
Proof. intros [|h' _ U] H; [lia|exact U]. Qed.

(** every pair child/parent with the parent at t or later is in order *)
Definition hp a (b t n : Z) : Prop := forall i, 0 < i < n -> t <= par i -> le_at a (b + i) (b + par i).

Lemma push_aux_ok fuel : forall a b hole top n v,
  0 <= b -> b + n <= len a -> 0 <= top -> hole < n -> under top hole -> (Z.to_nat hole < fuel)%nat ->
  (forall i, 0 < i < n -> top <= par i -> i <> hole -> le_at (up a (b + hole) v) (b + i) (b + par i)) ->
  (top < hole -> forall k, 0 < k < n -> par k = hole -> le_at (up a (b + hole) v) (b + k) (b + par hole)) ->
  exists a', push_heap_aux lt fuel a b hole top v = Some a' /\ rearr b (b + n) (up a (b + hole) v) a' /\ hp a' b top n.
Proof.
  induction fuel as [|fuel IH]; intros a b hole top n v Hb Hn Ht Hh U Hf I1 I2; [lia|].
  pose proof (under_le _ _ U) as Ule.
  assert (Rh : 0 <= b + hole < len a) by lia.
  cbn [push_heap_aux].
  destruct (Z.ltb_spec top hole) as [Lt|Ge].
  - assert (Eq : Z.quot (hole - 1) 2 = par hole) by (unfold par; apply Z.quot_div_nonneg; lia).
    rewrite Eq. pose proof (par_spec hole) as Ps. pose proof (under_par _ _ U Lt) as Up. pose proof (under_le _ _ Up) as Ule'.
    destruct (rd_ex a (b + par hole)) as [p Ep]; [lia|]. rewrite Ep. cbn [obind].
    destruct (lt p v) eqn:L.
    + rewrite wr_up by lia. cbn [obind].
      assert (Hrd : forall j, rd (up (up a (b + hole) p) (b + par hole) v) j =
                    if j =? b + par hole then Some v else if j =? b + hole then Some p else rd a j).
      { intros j. rewrite rd_up by (rewrite up_length; lia). rewrite rd_up by lia. reflexivity. }
      destruct (IH (up a (b + hole) p) b (par hole) top n v) as (a' & E & R & H); try (rewrite ?up_length; lia); auto.
      * intros i Ri Pi Ni x y. rewrite !Hrd. pose proof (par_spec i) as Psi.
        destruct (Z.eqb_spec (b + i) (b + par hole)); [lia|].
        destruct (Z.eqb_spec (b + i) (b + hole)).
        -- (* i = hole *) assert (i = hole) by lia. subst i. destruct (Z.eqb_spec (b + par hole) (b + par hole)); [|lia].
           intros [= <-] [= <-]. now apply lt_le.
        -- assert (i <> hole) by lia. intros Ex.
           destruct (Z.eqb_spec (b + par i) (b + par hole)) as [Epar|Npar].
           ++ intros [= <-]. specialize (I1 i Ri Pi H x p). rewrite !rd_up in I1 by lia.
              replace (b + i =? b + hole) with false in I1 by (symmetry; apply Z.eqb_neq; lia).
              replace (b + par i) with (b + par hole) in I1 by lia.
              replace (b + par hole =? b + hole) with false in I1 by (symmetry; apply Z.eqb_neq; lia).
              specialize (I1 Ex Ep). eapply le_trans; [exact I1|now apply lt_le].
           ++ destruct (Z.eqb_spec (b + par i) (b + hole)) as [Eh|Nh].
              ** intros [= <-]. specialize (I2 Lt i Ri ltac:(lia) x p). rewrite !rd_up in I2 by lia.
                 replace (b + i =? b + hole) with false in I2 by (symmetry; apply Z.eqb_neq; lia).
                 replace (b + par hole =? b + hole) with false in I2 by (symmetry; apply Z.eqb_neq; lia). auto.
              ** intros Ey. specialize (I1 i Ri Pi H x y). rewrite !rd_up in I1 by lia.
                 replace (b + i =? b + hole) with false in I1 by (symmetry; apply Z.eqb_neq; lia).
                 replace (b + par i =? b + hole) with false in I1 by (symmetry; apply Z.eqb_neq; lia). auto.
      * intros Lt' k Rk Pk x y. rewrite !Hrd. pose proof (par_spec (par hole)) as Psp.
        pose proof (par_spec k) as Psk.
        pose proof (under_le _ _ (under_par _ _ Up Lt')) as Ule2.
        replace (b + k =? b + par hole) with false by (symmetry; apply Z.eqb_neq; lia).
        replace (b + par (par hole) =? b + par hole) with false by (symmetry; apply Z.eqb_neq; lia).
        replace (b + par (par hole) =? b + hole) with false by (symmetry; apply Z.eqb_neq; lia).
        intros Ex Ey.
        assert (Gp : le p y).
        { pose proof (I1 (par hole) ltac:(lia) ltac:(lia) ltac:(lia) p y) as G. rewrite !rd_up in G by lia.
          replace (b + par hole =? b + hole) with false in G by (symmetry; apply Z.eqb_neq; lia).
          replace (b + par (par hole) =? b + hole) with false in G by (symmetry; apply Z.eqb_neq; lia). auto. }
        destruct (Z.eqb_spec (b + k) (b + hole)).
        -- injection Ex as <-. exact Gp.
        -- eapply le_trans; [|exact Gp].
           pose proof (I1 k Rk ltac:(lia) ltac:(lia) x p) as G. rewrite !rd_up in G by lia. rewrite Pk in G.
           replace (b + k =? b + hole) with false in G by (symmetry; apply Z.eqb_neq; lia).
           replace (b + par hole =? b + hole) with false in G by (symmetry; apply Z.eqb_neq; lia). auto.
      * exists a'. split; [exact E|]. split; [|exact H].
        eapply rearr_trans; [|exact R]. split.
        -- symmetry. apply hole_perm; auto; lia.
        -- intros j Hj. rewrite Hrd, rd_up by lia.
           replace (j =? b + par hole) with false by (symmetry; apply Z.eqb_neq; lia).
           replace (j =? b + hole) with false by (symmetry; apply Z.eqb_neq; lia). reflexivity.
    + rewrite wr_up by lia. eexists; split; [reflexivity|]. split; [apply rearr_refl|].
      intros i Ri Pi. destruct (Z.eq_dec i hole) as [->|N]; [|now apply I1].
      intros x y. rewrite !rd_up by lia. rewrite Z.eqb_refl.
      replace (b + par hole =? b + hole) with false by (symmetry; apply Z.eqb_neq; lia).
      intros [= <-] Ey. rewrite Ep in Ey. injection Ey as <-. exact L.
  - rewrite wr_up by lia. eexists; split; [reflexivity|]. split; [apply rearr_refl|].
    intros i Ri Pi. pose proof (par_spec i). apply I1; auto; lia.
Qed.

Definition S1 a (b top hole n : Z) : Prop :=
  forall i, 0 < i < n -> top <= par i -> i <> hole -> par i <> hole -> le_at a (b + i) (b + par i).
Definition S2 a (b top hole n : Z) : Prop :=
  top < hole -> forall k, 0 < k < n -> par k = hole -> le_at a (b + k) (b + par hole).

Lemma sift_step a b top hole n r z :
  0 <= b -> b + n <= len a -> 0 <= top -> under top hole -> 0 < r < n -> par r = hole -> rd a (b + r) = Some z ->
  (forall k, 0 < k < n -> par k = hole -> le_at a (b + k) (b + r)) ->
  S1 a b top hole n -> S2 a b top hole n ->
  let a1 := up a (b + hole) z in
  S1 a1 b top r n /\ S2 a1 b top r n /\ under top r /\
  forall v, rearr b (b + n) (up a (b + hole) v) (up a1 (b + r) v).
Proof.
  intros Hb Hn Ht U Rr Pr Ez Big I1 I2 a1.
  pose proof (under_le _ _ U) as Ule. pose proof (par_spec r) as Psr.
  assert (Hrd : forall j, rd a1 j = if j =? b + hole then Some z else rd a j) by (intros j; apply rd_up; lia).
  split; [|split; [|split]].
  - intros i Ri Pi Ni Npi x y. rewrite !Hrd. pose proof (par_spec i) as Psi.
    destruct (Z.eqb_spec (b + i) (b + hole)).
    + assert (i = hole) by lia. subst i.
      destruct (Z.eqb_spec (b + par hole) (b + hole)); [lia|]. intros [= <-] Ey.
      refine (I2 _ r Rr Pr z y Ez Ey). lia.
    + destruct (Z.eqb_spec (b + par i) (b + hole)).
      * intros Ex [= <-]. refine (Big i Ri _ x z Ex Ez). lia.
      * intros Ex Ey. refine (I1 i Ri Pi _ _ x y Ex Ey); lia.
  - intros Lt k Rk Pk x y. rewrite !Hrd, Pr, Z.eqb_refl. pose proof (par_spec k) as Psk.
    destruct (Z.eqb_spec (b + k) (b + hole)); [lia|]. intros Ex [= <-].
    refine (I1 k Rk _ _ _ x z Ex _); try lia. rewrite Pk. exact Ez.
  - apply un1; [lia|]. now rewrite Pr.
  - intros v. split.
    + symmetry. apply hole_perm; auto; lia.
    + intros j Hj. rewrite !rd_up by (rewrite ?up_length; unfold a1; rewrite ?up_length; lia).
      rewrite Hrd. replace (j =? b + r) with false by (symmetry; apply Z.eqb_neq; lia).
      replace (j =? b + hole) with false by (symmetry; apply Z.eqb_neq; lia). reflexivity.
Qed.

Lemma sift_ok fuel : forall a b hole top n,
  0 <= b -> b + n <= len a -> 0 <= top -> hole < n -> under top hole -> (Z.to_nat (n - hole) < fuel)%nat ->
  S1 a b top hole n -> S2 a b top hole n ->
  exists a' h', sift lt fuel a b hole (2 * hole + 2) n = Some (a', h', 2 * h' + 2) /\
    h' < n /\ n <= 2 * h' + 2 /\ under top h' /\ length a' = length a /\ S1 a' b top h' n /\ S2 a' b top h' n /\
    forall v, rearr b (b + n) (up a (b + hole) v) (up a' (b + h') v).
Proof.
  induction fuel as [|fuel IH]; intros a b hole top n Hb Hn Ht Hh U Hf I1 I2; [lia|].
  pose proof (under_le _ _ U) as Ule.
  cbn [sift]. destruct (Z.ltb_spec (2 * hole + 2) n) as [Lt|Ge].
  - destruct (rd_ex a (b + (2 * hole + 2))) as [x Ex]; [lia|]. rewrite Ex. cbn [obind].
    destruct (rd_ex a (b + (2 * hole + 2) - 1)) as [y Ey]; [lia|]. rewrite Ey. cbn [obind].
    set (r := if lt x y then 2 * hole + 2 - 1 else 2 * hole + 2).
    assert (Rr : r = 2 * hole + 1 /\ lt x y = true \/ r = 2 * hole + 2 /\ lt x y = false).
    { unfold r. destruct (lt x y); [left|right]; lia. }
    clearbody r.
    destruct (rd_ex a (b + r)) as [z Ez]; [lia|]. rewrite Ez. cbn [obind]. rewrite wr_up by lia. cbn [obind].
    destruct (sift_step a b top hole n r z) as (J1 & J2 & Ur & P); auto; try lia.
    { apply par_eq. lia. }
    { intros k Rk Pk u w Eu Ew. pose proof (par_spec k). rewrite Ez in Ew. injection Ew as <-.
      replace (b + (2 * hole + 2) - 1) with (b + (2 * hole + 1)) in Ey by lia.
      assert (Kk : k = 2 * hole + 1 \/ k = 2 * hole + 2) by lia.
      destruct Rr as [[-> L]|[-> L]], Kk as [-> | ->].
      - rewrite Ez in Eu. injection Eu as <-. apply le_refl.
      - rewrite Ex in Eu. rewrite Ey in Ez. injection Eu as <-. injection Ez as <-. now apply lt_le.
      - rewrite Ey in Eu. rewrite Ex in Ez. injection Eu as <-. injection Ez as <-. exact L.
      - rewrite Ez in Eu. injection Eu as <-. apply le_refl. }
    replace (2 * (r + 1)) with (2 * r + 2) by lia.
    destruct (IH (up a (b + hole) z) b r top n) as (a' & h' & E & B1 & B2 & B3 & B4 & B5 & B6 & B7);
      rewrite ?up_length; auto; try lia.
    exists a', h'. rewrite up_length in B4.
    do 7 (split; [assumption|]). intros v. eapply rearr_trans; [apply P|apply B7].
  - exists a, hole. split; [reflexivity|]. do 6 (split; [auto; lia|]). intros v. apply rearr_refl.
Qed.

Lemma adjust_ok a b top n v : 0 <= b -> b + n <= len a -> 0 <= top < n -> hp a b (top + 1) n ->
  exists a', adjust_heap lt a b top n v = Some a' /\ rearr b (b + n) (up a (b + top) v) a' /\ hp a' b top n.
Proof.
  intros Hb Hn Ht H. unfold adjust_heap.
  destruct (sift_ok (S (Z.to_nat n)) a b top top n) as (a1 & h & E & B1 & B2 & B3 & B4 & B5 & B6 & B7); auto; try lia.
  { apply un0. }
  { intros i Ri Pi Ni Np. apply H; lia. }
  { intros L. lia. }
  rewrite E. cbn [obind]. pose proof (under_le _ _ B3) as Ule.
  assert (Fin : forall a2 h2, length a2 = length a -> h2 < n -> n <= 2 * h2 + 1 -> under top h2 ->
     S1 a2 b top h2 n -> rearr b (b + n) (up a (b + top) v) (up a2 (b + h2) v) ->
     exists a', push_heap_aux lt (S (Z.to_nat n)) a2 b h2 top v = Some a' /\ rearr b (b + n) (up a (b + top) v) a' /\ hp a' b top n).
  { intros a2 h2 L2 Hh2 Hn2 U2 J1 R2. pose proof (under_le _ _ U2) as Ule2.
    destruct (push_aux_ok (S (Z.to_nat n)) a2 b h2 top n v) as (a' & E' & R' & H'); auto; try lia.
    - intros i Ri Pi Ni x y. pose proof (par_spec i). rewrite !rd_up by (rewrite ?L2; lia).
      replace (b + i =? b + h2) with false by (symmetry; apply Z.eqb_neq; lia).
      replace (b + par i =? b + h2) with false by (symmetry; apply Z.eqb_neq; lia).
      apply J1; auto; lia.
    - intros _ k Rk Pk. pose proof (par_spec k). lia.
    - exists a'. split; [exact E'|]. split; [|exact H']. eapply rearr_trans; eauto. }
  destruct (Z.eqb_spec (2 * h + 2) n) as [Eq|Ne].
  - destruct (rd_ex a1 (b + (2 * h + 2 - 1))) as [z Ez]; [lia|]. rewrite Ez. cbn [obind].
    rewrite wr_up by lia. cbn [obind].
    destruct (sift_step a1 b top h n (2 * h + 2 - 1) z) as (J1 & J2 & Ur & P); auto; try lia.
    { apply par_eq. lia. }
    { intros k Rk Pk. pose proof (par_spec k). replace k with (2 * h + 2 - 1) by lia. apply le_at_refl. }
    apply Fin; auto; try lia.
    + now rewrite up_length.
    + eapply rearr_trans; [apply B7|apply P].
  - apply Fin; auto; lia.
Qed.

Lemma hp_max a b n i : 0 <= b -> b + n <= len a -> hp a b 0 n -> 0 <= i < n -> le_at a (b + i) b.
Proof.
  intros Hb Hn H. assert (G : forall k : nat, forall i, 0 <= i < n -> (Z.to_nat i <= k)%nat -> le_at a (b + i) b).
  { induction k as [|k IH]; intros j Rj Hk.
    - replace (b + j) with b by lia. apply le_at_refl.
    - destruct (Z.eq_dec j 0) as [->|N]; [replace (b + 0) with b by lia; apply le_at_refl|].
      pose proof (par_spec j). apply le_at_trans with (b + par j); [lia| |].
      + apply H; lia.
      + apply IH; lia. }
  intros Ri. apply (G (Z.to_nat i)); auto.
Qed.

Lemma push_heap_ok a b last : 0 <= b < last -> last <= len a -> hp a b 0 (last - b - 1) ->
  exists a', push_heap lt a b last = Some a' /\ rearr b last a a' /\ hp a' b 0 (last - b).
Proof.
  intros Hb Hl H. unfold push_heap. destruct (rd_ex a (last - 1)) as [v Ev]; [lia|]. rewrite Ev. cbn [obind].
  assert (Un : forall k : nat, forall h, 0 <= h -> (Z.to_nat h <= k)%nat -> under 0 h).
  { induction k as [|k IH]; intros h Hh Hk.
    - replace h with 0 by lia. apply un0.
    - destruct (Z.eq_dec h 0) as [->|N]; [apply un0|]. pose proof (par_spec h). apply un1; [lia|]. apply IH; lia. }
  assert (Eu : up a (b + (last - b - 1)) v = a) by (apply up_same; replace (b + (last - b - 1)) with (last - 1) by lia; exact Ev).
  destruct (push_aux_ok (S (Z.to_nat (last - b))) a b (last - b - 1) 0 (last - b) v) as (a' & E & R & H'); try lia.
  - eapply Un; [lia|reflexivity].
  - rewrite Eu. intros i Ri Pi Ni. apply H; lia.
  - intros _ k Rk Pk. pose proof (par_spec k). lia.
  - rewrite Eu in R. exists a'. split; [exact E|]. split; [|exact H']. replace last with (b + (last - b)) at 1 by lia. exact R.
Qed.

Lemma pop_aux_ok a b last i v : 0 <= b < last -> last <= len a -> hp a b 0 (last - b) -> last <= i -> rd a i = Some v ->
  exists a', pop_heap_aux lt a b last i v = Some a' /\ rearr b (i + 1) a a' /\ hp a' b 0 (last - b) /\
    rd a' i = rd a b /\ (forall j, last <= j -> j <> i -> rd a' j = rd a j) /\
    forall j x, b <= j < last -> rd a' j = Some x -> x = v \/ exists k, b < k < last /\ rd a k = Some x.
Proof.
  intros Hb Hl H Hi Ev. unfold pop_heap_aux. destruct (rd_ex a b) as [x Ex]; [lia|]. rewrite Ex. cbn [obind].
  pose proof (rd_range _ _ _ Ev) as Ri. rewrite wr_up by lia. cbn [obind].
  assert (Hrd : forall j, rd (up a i x) j = if j =? i then Some x else rd a j) by (intros j; apply rd_up; lia).
  destruct (adjust_ok (up a i x) b 0 (last - b) v) as (a' & E & R & H'); rewrite ?up_length; try lia.
  { intros k Rk Pk u w. pose proof (par_spec k). rewrite !Hrd.
    replace (b + k =? i) with false by (symmetry; apply Z.eqb_neq; lia).
    replace (b + par k =? i) with false by (symmetry; apply Z.eqb_neq; lia). apply H; lia. }
  rewrite Z.add_0_r in R. replace (b + (last - b)) with last in R by lia.
  assert (Rc : rearr b (i + 1) a (up (up a i x) b v)).
  { apply rearr_swap with (i := i) (j := b); auto; lia. }
  assert (Hrc : forall j, rd (up (up a i x) b v) j = if j =? b then Some v else if j =? i then Some x else rd a j).
  { intros j. rewrite rd_up by (rewrite up_length; lia). now rewrite Hrd. }
  exists a'. split; [exact E|]. split; [|split; [exact H'|split; [|split]]].
  - eapply rearr_trans; [exact Rc|]. eapply rearr_wide; [| |exact R]; lia.
  - destruct R as [_ O]. rewrite O, Hrc by lia. rewrite Z.eqb_refl.
    replace (i =? b) with false by (symmetry; apply Z.eqb_neq; lia). reflexivity.
  - intros j Hj Nj. destruct R as [_ O]. rewrite O, Hrc by lia.
    replace (j =? b) with false by (symmetry; apply Z.eqb_neq; lia).
    replace (j =? i) with false by (symmetry; apply Z.eqb_neq; lia). reflexivity.
  - intros j u Rj Eu. destruct (rearr_in b last _ _ j u ltac:(lia) R Rj Eu) as (k & Rk & Ek).
    rewrite Hrc in Ek. destruct (Z.eqb_spec k b); [injection Ek as <-; now left|].
    destruct (Z.eqb_spec k i); [lia|]. right. exists k. split; [lia|exact Ek].
Qed.

(** [lo,hi) in order *)
Definition asc a (lo hi : Z) : Prop := forall i j, lo <= i -> i < j -> j < hi -> le_at a i j.

Lemma pop_heap_ok a b last : 0 <= b -> b + 1 < last -> last <= len a -> hp a b 0 (last - b) ->
  exists a', pop_heap lt a b last = Some a' /\ rearr b last a a' /\ hp a' b 0 (last - 1 - b) /\
    rd a' (last - 1) = rd a b /\ (forall j, b <= j < last -> le_at a' j (last - 1)).
Proof.
  intros Hb H1 Hl H. unfold pop_heap. destruct (rd_ex a (last - 1)) as [v Ev]; [lia|]. rewrite Ev. cbn [obind].
  destruct (pop_aux_ok a b (last - 1) (last - 1) v) as (a' & E & R & H' & Eb & O & Fr); auto; try lia.
  { intros i Ri Pi. apply H; lia. }
  exists a'. split; [exact E|]. split; [|split; [exact H'|split; [exact Eb|]]].
  - replace last with (last - 1 + 1) at 1 by lia. exact R.
  - intros j Rj x y Ex Ey. rewrite Eb in Ey.
    destruct (Z.eq_dec j (last - 1)) as [->|N].
    + rewrite Eb in Ex. rewrite Ex in Ey. injection Ey as ->. apply le_refl.
    + destruct (Fr j x ltac:(lia) Ex) as [->|(k & Rk & Ek)].
      * refine (hp_max a b (last - b) (last - 1 - b) _ _ H _ v y _ Ey); try lia.
        replace (b + (last - 1 - b)) with (last - 1) by lia. exact Ev.
      * refine (hp_max a b (last - b) (k - b) _ _ H _ x y _ Ey); try lia.
        replace (b + (k - b)) with k by lia. exact Ek.
Qed.

Lemma pop_heap_one a b : 0 <= b < len a -> exists a', pop_heap lt a b (b + 1) = Some a' /\ a' = a.
Proof.
  intros H. unfold pop_heap, pop_heap_aux. destruct (rd_ex a b) as [v Ev]; [lia|].
  replace (b + 1 - 1) with b by lia. rewrite Ev. cbn [obind]. rewrite wr_up by lia. cbn [obind].
  rewrite (up_same _ _ _ Ev). unfold adjust_heap. rewrite Z.sub_diag. cbn [sift Z.to_nat].
  change (2 * 0 + 2 <? 0) with false. cbv iota. cbn [obind]. change (2 * 0 + 2 =? 0) with false. cbv iota.
  cbn [push_heap_aux]. change (0 <? 0) with false. cbv iota.
  rewrite Z.add_0_r, wr_up by lia. rewrite (up_same _ _ _ Ev). eauto.
Qed.

Lemma sort_heap_loop_ok fuel : forall a b last hi, 0 <= b -> b <= last <= hi -> hi <= len a -> (Z.to_nat (last - b) < fuel)%nat ->
  hp a b 0 (last - b) -> (forall i j, b <= i < last -> last <= j < hi -> le_at a i j) -> asc a last hi ->
  exists a', sort_heap_loop lt fuel a b last = Some a' /\ rearr b last a a' /\ asc a' b hi.
Proof.
  induction fuel as [|fuel IH]; intros a b last hi Hb Hl Hh Hf H C S; [lia|].
  cbn [sort_heap_loop]. destruct (Z.ltb_spec 1 (last - b)) as [L|G].
  - destruct (pop_heap_ok a b last) as (a1 & E1 & R1 & H1 & Eb & M); auto; try lia.
    rewrite E1. cbn [obind]. pose proof (rearr_len _ _ _ _ R1) as L1.
    assert (C1 : forall i j, b <= i < last -> last <= j < hi -> le_at a1 i j).
    { intros i j Ri Rj x y Ex Ey. destruct R1 as [P1 O1].
      destruct (rearr_in b last a a1 i x Hb (conj P1 O1) Ri Ex) as (k & Rk & Ek).
      rewrite O1 in Ey by lia. exact (C k j Rk Rj x y Ek Ey). }
    assert (S1' : asc a1 last hi).
    { intros i j Hi Hij Hj x y Ex Ey. destruct R1 as [P1 O1]. rewrite O1 in Ex, Ey by lia. exact (S i j Hi Hij Hj x y Ex Ey). }
    destruct (IH a1 b (last - 1) hi) as (a2 & E2 & R2 & S2); auto; try lia.
    + intros i j Ri Rj. destruct (Z.eq_dec j (last - 1)) as [->|N]; [apply M; lia|apply C1; lia].
    + intros i j Hi Hij Hj. destruct (Z.eq_dec i (last - 1)) as [->|N]; [apply C1; lia|apply S1'; lia].
    + exists a2. split; [exact E2|]. split; [|exact S2]. eapply rearr_trans; [exact R1|]. eapply rearr_wide; [| |exact R2]; lia.
  - exists a. split; [reflexivity|]. split; [apply rearr_refl|].
    intros i j Hi Hij Hj. destruct (Z_lt_dec i last); [apply C; lia|apply S; lia].
Qed.
Lemma sort_heap_ok a b last : 0 <= b <= last -> last <= len a -> hp a b 0 (last - b) ->
  exists a', sort_heap lt a b last = Some a' /\ rearr b last a a' /\ asc a' b last.
Proof.
  intros Hb Hl H. apply sort_heap_loop_ok; auto; try lia. intros i j Hi Hij Hj. lia.
Qed.

Lemma make_heap_loop_ok fuel : forall a b hole n, 0 <= b -> b + n <= len a -> 0 <= hole < n -> (Z.to_nat hole < fuel)%nat ->
  hp a b (hole + 1) n ->
  exists a', make_heap_loop lt fuel a b hole n = Some a' /\ rearr b (b + n) a a' /\ hp a' b 0 n.
Proof.
  induction fuel as [|fuel IH]; intros a b hole n Hb Hn Hh Hf H; [lia|].
  cbn [make_heap_loop]. destruct (rd_ex a (b + hole)) as [v Ev]; [lia|]. rewrite Ev. cbn [obind].
  destruct (adjust_ok a b hole n v) as (a1 & E1 & R1 & H1); auto. rewrite E1. cbn [obind].
  rewrite (up_same _ _ _ Ev) in R1. pose proof (rearr_len _ _ _ _ R1) as L1.
  destruct (Z.eqb_spec hole 0) as [->|N].
  - eauto.
  - destruct (IH a1 b (hole - 1) n) as (a2 & E2 & R2 & H2); auto; try lia.
    { now replace (hole - 1 + 1) with hole by lia. }
    exists a2. split; [exact E2|]. split; [|exact H2]. eapply rearr_trans; eauto.
Qed.
Lemma make_heap_ok a b last : 0 <= b <= last -> last <= len a ->
  exists a', make_heap lt a b last = Some a' /\ rearr b last a a' /\ hp a' b 0 (last - b).
Proof.
  intros Hb Hl. unfold make_heap. destruct (Z.ltb_spec (last - b) 2) as [L|G].
  - exists a. split; [reflexivity|]. split; [apply rearr_refl|]. intros i Ri. lia.
  - rewrite Z.quot_div_nonneg by lia.
    assert (D : 2 * ((last - b - 2) / 2) <= last - b - 2 < 2 * ((last - b - 2) / 2) + 2) by (Z.div_mod_to_equations; lia).
    destruct (make_heap_loop_ok (S (Z.to_nat (last - b))) a b ((last - b - 2) / 2) (last - b)) as (a' & E & R & H); auto; try lia.
    + intros i Ri Pi. pose proof (par_spec i). lia.
    + exists a'. split; [exact E|]. split; [|exact H]. replace last with (b + (last - b)) at 1 by lia. exact R.
Qed.

Lemma partial_loop_ok fuel : forall a b mid i last, 0 <= b < mid -> mid <= i -> i <= last -> last <= len a ->
  (Z.to_nat (last - i) < fuel)%nat -> hp a b 0 (mid - b) ->
  (forall j, mid <= j < i -> le_at a b j) ->
  exists a', partial_loop lt fuel a b mid i last = Some a' /\ rearr b last a a' /\ hp a' b 0 (mid - b) /\
    forall j, mid <= j < last -> le_at a' b j.
Proof.
  induction fuel as [|fuel IH]; intros a b mid i last Hb Hm Hi Hl Hf H C; [lia|].
  cbn [partial_loop]. destruct (Z.ltb_spec i last) as [L|G].
  - destruct (rd_ex a i) as [x Ex]; [lia|]. rewrite Ex. cbn [obind].
    destruct (rd_ex a b) as [y Ey]; [lia|]. rewrite Ey. cbn [obind].
    destruct (lt x y) eqn:Lxy.
    + destruct (pop_aux_ok a b mid i x) as (a1 & E1 & R1 & H1 & Eb & O & Fr); auto; try lia.
      rewrite E1. cbn [obind]. pose proof (rearr_len _ _ _ _ R1) as L1.
      (* the new top is not greater than the old one *)
      assert (T : forall u, rd a1 b = Some u -> le u y).
      { intros u Eu. destruct (Fr b u ltac:(lia) Eu) as [->|(k & Rk & Ek)]; [now apply lt_le|].
        refine (hp_max a b (mid - b) (k - b) _ _ H _ u y _ Ey); try lia. replace (b + (k - b)) with k by lia. exact Ek. }
      destruct (IH a1 b mid (i + 1) last) as (a2 & E2 & R2 & H2 & C2); auto; try lia.
      * intros j Rj u w Eu Ew. destruct (Z.eq_dec j i) as [->|N].
        -- rewrite Eb, Ey in Ew. injection Ew as <-. auto.
        -- rewrite O in Ew by lia. eapply le_trans; [exact (T u Eu)|]. exact (C j ltac:(lia) y w Ey Ew).
      * exists a2. split; [exact E2|]. split; [|auto]. eapply rearr_trans; [|exact R2]. eapply rearr_wide; [| |exact R1]; lia.
    + apply IH; auto; try lia. intros j Rj. destruct (Z.eq_dec j i) as [->|N]; [|apply C; lia].
      intros u w Eu Ew. rewrite Ey in Eu. rewrite Ex in Ew. injection Eu as <-. injection Ew as <-. exact Lxy.
  - exists a. split; [reflexivity|]. split; [apply rearr_refl|]. split; [exact H|]. intros j Rj. apply C. lia.
Qed.

Lemma partial_sort_ok a b mid last : 0 <= b < mid -> mid <= last -> last <= len a ->
  exists a', partial_sort lt a b mid last = Some a' /\ rearr b last a a' /\ asc a' b mid /\
    forall i j, b <= i < mid -> mid <= j < last -> le_at a' i j.
Proof.
  intros Hb Hm Hl. unfold partial_sort.
  destruct (make_heap_ok a b mid) as (a1 & E1 & R1 & H1); try lia. rewrite E1. cbn [obind].
  pose proof (rearr_len _ _ _ _ R1) as L1.
  destruct (partial_loop_ok (S (Z.to_nat (last - mid))) a1 b mid mid last) as (a2 & E2 & R2 & H2 & C2); auto; try lia.
  rewrite E2. cbn [obind]. pose proof (rearr_len _ _ _ _ R2) as L2.
  destruct (sort_heap_ok a2 b mid) as (a3 & E3 & R3 & S3); auto; try lia.
  exists a3. split; [exact E3|]. split; [|split; [exact S3|]].
  - eapply rearr_trans; [eapply rearr_wide; [| |exact R1]; lia|]. eapply rearr_trans; [exact R2|].
    eapply rearr_wide; [| |exact R3]; lia.
  - intros i j Ri Rj x y Ex Ey. destruct (rearr_in b mid a2 a3 i x ltac:(lia) R3 Ri Ex) as (k & Rk & Ek).
    destruct R3 as [_ O3]. rewrite O3 in Ey by lia.
    destruct (rd_ex a2 b) as [t Et]; [lia|]. eapply le_trans; [|exact (C2 j Rj t y Et Ey)].
    refine (hp_max a2 b (mid - b) (k - b) _ _ H2 _ x t _ Et); try lia. replace (b + (k - b)) with k by lia. exact Ek.
Qed.

Lemma heap_hp a b n : 0 <= b -> 0 <= n -> b + n <= len a -> heap lt (slice b (b + n) a) <-> hp a b 0 n.
Proof.
  intros Hb Hp Hn.
  assert (N : forall i x, nth_error (slice b (b + n) a) i = Some x <-> Z.of_nat i < n /\ rd a (b + Z.of_nat i) = Some x).
  { intros i x. pose proof (slice_rd b (b + n) a (Z.of_nat i) Hb ltac:(lia)) as E.
    unfold rd in E at 1. destruct (Z.ltb_spec (Z.of_nat i) 0); [lia|]. rewrite Nat2Z.id in E. rewrite E.
    destruct (Z.ltb_spec (Z.of_nat i) (b + n - b)); split; intros K; try discriminate; try (destruct K; lia).
    - split; [lia|exact K].
    - apply K. }
  split.
  - intros H i Ri Pi x y Ex Ey. pose proof (par_spec i).
    apply (H (Z.to_nat (par i)) (Z.to_nat i) y x); [lia| |]; apply N; rewrite Z2Nat.id by lia; split; auto; lia.
  - intros H i j x y D Ex Ey. apply N in Ex as [Li Ex]. apply N in Ey as [Lj Ey].
    assert (P : par (Z.of_nat j) = Z.of_nat i) by (apply par_eq; lia).
    specialize (H (Z.of_nat j) ltac:(lia) ltac:(lia) y x). rewrite P in H. exact (H Ey Ex).
Qed.

Lemma asc_ordered a b n : 0 <= b -> 0 <= n -> b + n <= len a -> asc a b (b + n) <-> ordered lt (slice b (b + n) a).
Proof.
  intros Hb Hp Hn.
  assert (G : forall l : list A, ordered lt l <-> forall i j x y, 0 <= i < j -> rd l i = Some x -> rd l j = Some y -> le x y).
  { clear. induction l as [|h l IH]; split.
    - intros _ i j x y H E. pose proof (rd_range _ _ _ E). simpl in *. lia.
    - intros _. constructor.
    - intros So i j x y H Ei Ej. apply StronglySorted_inv in So as [So F].
      assert (T : forall k z, 0 < k -> rd (h :: l) k = Some z -> rd l (k - 1) = Some z).
      { intros k z K E. unfold rd in *. destruct (Z.ltb_spec k 0); [lia|]. destruct (Z.ltb_spec (k - 1) 0); [lia|].
        replace (Z.to_nat k) with (S (Z.to_nat (k - 1))) in E by lia. exact E. }
      apply T in Ej; [|lia]. destruct (Z.eq_dec i 0) as [->|N].
      + injection Ei as <-. rewrite Forall_forall in F. apply F.
        unfold rd in Ej. destruct (Z.ltb_spec (j - 1) 0); [lia|]. eapply nth_error_In; eauto.
      + apply T in Ei; [|lia]. eapply (proj1 IH So (i - 1) (j - 1)); eauto. lia.
    - intros H.
      assert (T : forall k z, 0 <= k -> rd l k = Some z -> rd (h :: l) (k + 1) = Some z).
      { intros k z K E. unfold rd in *. destruct (Z.ltb_spec k 0); [lia|]. destruct (Z.ltb_spec (k + 1) 0); [lia|].
        replace (Z.to_nat (k + 1)) with (S (Z.to_nat k)) by lia. exact E. }
      constructor.
      + apply IH. intros i j x y R Ei Ej. eapply (H (i + 1) (j + 1)); [lia| |]; apply T; auto; lia.
      + apply Forall_forall. intros z I. apply In_nth_error in I as [k Ek].
        apply (H 0 (Z.of_nat k + 1) h z); [lia|reflexivity|]. apply T; [lia|]. unfold rd.
        destruct (Z.ltb_spec (Z.of_nat k) 0); [lia|]. now rewrite Nat2Z.id. }
  rewrite G. split.
  - intros H i j x y R Ei Ej. rewrite slice_rd in Ei, Ej by lia.
    destruct (Z.ltb_spec i (b + n - b)); [|discriminate]. destruct (Z.ltb_spec j (b + n - b)); [|discriminate].
    eapply (H (b + i) (b + j)); eauto; lia.
  - intros H i j Hi Hij Hj x y Ex Ey. apply (H (i - b) (j - b)); [lia| |]; rewrite slice_rd by lia.
    + destruct (Z.ltb_spec (i - b) (b + n - b)); [|lia]. now replace (b + (i - b)) with i by lia.
    + destruct (Z.ltb_spec (j - b) (b + n - b)); [|lia]. now replace (b + (j - b)) with j by lia.
Qed.
End Heap.
