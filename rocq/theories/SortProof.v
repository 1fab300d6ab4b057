From Coq Require Import ZArith List Bool Lia Permutation Sorted.
From Verif Require Import F64 ArrModel ArrLib SortModel SortSpec HeapProof.
Import ListNotations.
Open Scope Z_scope.

Section Sort.
Context {A : Type} (lt : A -> A -> bool) (SW : strict_weak lt).
Implicit Types (a : list A) (x y z v p : A).
Notation le := (le lt).
Notation le_at := (le_at lt).
Notation asc := (asc lt).

Lemma scan_up_ok fuel : forall a i k p, 0 <= i <= k -> (Z.to_nat (k - i) < fuel)%nat ->
  (exists y, rd a k = Some y /\ le p y) ->
  exists j y, scan_up lt fuel a i (Val p) = Some j /\ i <= j <= k /\ rd a j = Some y /\ le p y /\
    forall m x, i <= m < j -> rd a m = Some x -> le x p.
Proof.
  induction fuel as [|fuel IH]; intros a i k p Hi Hf Hk; [lia|].
  destruct Hk as (yk & Eyk & Lk). pose proof (rd_range _ _ _ Eyk) as Rk.
  cbn [scan_up deref]. destruct (rd_ex a i) as [x Ex]; [lia|]. rewrite Ex. cbn [obind].
  destruct (lt x p) eqn:L.
  - assert (i <> k). { intros ->. rewrite Ex in Eyk. injection Eyk as ->. unfold HeapProof.le in Lk. congruence. }
    destruct (IH a (i + 1) k p) as (j & y & E & R & Ey & Ly & M); try lia; eauto.
    exists j, y. split; [exact E|]. split; [lia|]. split; [exact Ey|]. split; [exact Ly|].
    intros m u Hm Eu. destruct (Z.eq_dec m i) as [->|N].
    + rewrite Ex in Eu. injection Eu as <-. now apply lt_le.
    + apply (M m); auto; lia.
  - exists i, x. split; [reflexivity|]. split; [lia|]. split; [exact Ex|]. split; [exact L|]. intros m u Hm. lia.
Qed.
Lemma scan_down_ok fuel : forall a i k p, 0 <= k <= i -> i < len a -> (Z.to_nat (i - k) < fuel)%nat ->
  (exists y, rd a k = Some y /\ le y p) ->
  exists j y, scan_down lt fuel a i (Val p) = Some j /\ k <= j <= i /\ rd a j = Some y /\ le y p /\
    forall m x, j < m <= i -> rd a m = Some x -> le p x.
Proof.
  induction fuel as [|fuel IH]; intros a i k p Hi Hl Hf Hk; [lia|].
  destruct Hk as (yk & Eyk & Lk).
  cbn [scan_down deref]. destruct (rd_ex a i) as [x Ex]; [lia|]. rewrite Ex. cbn [obind].
  destruct (lt p x) eqn:L.
  - assert (i <> k). { intros ->. rewrite Ex in Eyk. injection Eyk as ->. unfold HeapProof.le in Lk. congruence. }
    destruct (IH a (i - 1) k p) as (j & y & E & R & Ey & Ly & M); try lia; eauto.
    exists j, y. split; [exact E|]. split; [lia|]. split; [exact Ey|]. split; [exact Ly|].
    intros m u Hm Eu. destruct (Z.eq_dec m i) as [->|N].
    + rewrite Ex in Eu. injection Eu as <-. now apply lt_le.
    + apply (M m); auto; lia.
  - exists i, x. split; [reflexivity|]. split; [lia|]. split; [exact Ex|]. split; [exact L|]. intros m u Hm. lia.
Qed.

Lemma partition_loop_ok fuel : forall a lo first last hi p,
  0 <= lo <= first -> first <= last -> last <= hi -> hi <= len a -> (Z.to_nat (last - first) < fuel)%nat ->
  (forall i x, lo <= i < first -> rd a i = Some x -> le x p) ->
  (forall i x, last <= i < hi -> rd a i = Some x -> le p x) ->
  (exists k y, first <= k < hi /\ rd a k = Some y /\ le p y) ->
  (exists k y, lo <= k < last /\ rd a k = Some y /\ le y p) ->
  exists a' cut, partition_loop lt fuel a first last (Val p) = Some (a', cut) /\ lo <= cut < hi /\ rearr lo hi a a' /\
    (forall i x, lo <= i < cut -> rd a' i = Some x -> le x p) /\
    (forall i x, cut <= i < hi -> rd a' i = Some x -> le p x).
Proof.
  induction fuel as [|fuel IH]; intros a lo first last hi p H0 H1 H2 H3 Hf IL IR (k1 & y1 & Rk1 & Ek1 & Lk1) (k2 & y2 & Rk2 & Ek2 & Lk2); [lia|].
  cbn [partition_loop].
  destruct (scan_up_ok (S (length a)) a first k1 p) as (f & yf & Ef & Rf & Eyf & Lyf & Mf); eauto; try lia.
  rewrite Ef. cbn [obind].
  destruct (scan_down_ok (S (length a)) a (last - 1) k2 p) as (l & yl & El & Rl & Eyl & Lyl & Ml); eauto; try lia.
  rewrite El. cbn [obind].
  destruct (Z.ltb_spec f l) as [L|G].
  - rewrite (iter_swap_up _ _ _ _ _ Eyf Eyl). cbn [obind].
    set (a1 := up (up a f yl) l yf).
    assert (Hrd : forall j, rd a1 j = if j =? l then Some yf else if j =? f then Some yl else rd a j).
    { intros j. unfold a1. rewrite rd_up by (rewrite up_length; lia). now rewrite rd_up by lia. }
    assert (R1 : rearr lo hi a a1) by (apply rearr_swap with (i := f) (j := l); auto; lia).
    pose proof (rearr_len _ _ _ _ R1) as L1.
    destruct (IH a1 lo (f + 1) l hi p) as (a' & cut & E & C & R & P & Q); try lia.
    + intros i x Ri. rewrite Hrd. destruct (Z.eqb_spec i l); [lia|]. destruct (Z.eqb_spec i f).
      * intros [= <-]. exact Lyl.
      * intros Ex. destruct (Z_lt_dec i first); [apply (IL i); auto; lia|apply (Mf i); auto; lia].
    + intros i x Ri. rewrite Hrd. destruct (Z.eqb_spec i l).
      * intros [= <-]. exact Lyf.
      * destruct (Z.eqb_spec i f); [lia|].
        intros Ex. destruct (Z_lt_dec i last); [apply (Ml i); auto; lia|apply (IR i); auto; lia].
    + exists l, yf. split; [lia|]. split; [|exact Lyf]. rewrite Hrd, Z.eqb_refl. reflexivity.
    + exists f, yl. split; [lia|]. split; [|exact Lyl]. rewrite Hrd, Z.eqb_refl.
      destruct (Z.eqb_spec f l); [lia|reflexivity].
    + exists a', cut. split; [exact E|]. split; [lia|]. split; [eapply rearr_trans; eauto|auto].
  - exists a, f. split; [reflexivity|]. split; [lia|]. split; [apply rearr_refl|]. split.
    + intros i x Ri Ex. destruct (Z_lt_dec i first); [apply (IL i); auto; lia|apply (Mf i); auto; lia].
    + intros i x Ri Ex. destruct (Z.eq_dec i f) as [->|N].
      * rewrite Eyf in Ex. injection Ex as <-. exact Lyf.
      * destruct (Z_lt_dec i last); [apply (Ml i); auto; lia|apply (IR i); auto; lia].
Qed.

Lemma median_in lt0 a l m r k : median lt0 a l m r = Some k -> k = l \/ k = m \/ k = r.
Proof.
  unfold median. destruct (rd a l) as [x|]; [|discriminate]. destruct (rd a m) as [y|]; [|discriminate].
  destruct (rd a r) as [z|]; [|discriminate]. cbn [obind]. intros [= <-].
  destruct (lt0 x y), (lt0 y z), (lt0 x z); auto.
Qed.
Lemma median_ex lt0 a l m r : 0 <= l < len a -> 0 <= m < len a -> 0 <= r < len a -> exists k, median lt0 a l m r = Some k.
Proof.
  intros Hl Hm Hr. unfold median. destruct (rd_ex a l Hl) as [x ->]. destruct (rd_ex a m Hm) as [y ->].
  destruct (rd_ex a r Hr) as [z ->]. cbn [obind]. eauto.
Qed.

(** elements at least 128 positions apart are in order *)
Definition roughly a (lo hi : Z) : Prop := forall i j, lo <= i -> i + 128 <= j -> j < hi -> le_at a i j.

Lemma intro_sort_ok lt0 depth : forall a first last, 0 <= first <= last -> last <= len a ->
  exists a', intro_sort lt lt0 depth a first last = Some a' /\ rearr first last a a' /\ roughly a' first last.
Proof.
  induction depth as [|depth IH]; intros a first last Hf Hl; cbn [intro_sort]; unfold kSmallSectionSize;
    (destruct (Z.ltb_spec 128 (last - first)) as [L|G];
      [|exists a; split; [reflexivity|]; split; [apply rearr_refl|]; intros i j Hi Hij Hj; lia]).
  - destruct (partial_sort_ok lt SW a first last last) as (a' & E & R & S & _); try lia.
    exists a'. split; [exact E|]. split; [exact R|]. intros i j Hi Hij Hj. apply S; lia.
  - set (m := first + Z.quot (last - first) 2).
    assert (Hm : first <= m < last).
    { unfold m. rewrite Z.quot_div_nonneg by lia. Z.div_mod_to_equations; lia. }
    clearbody m.
    destruct (median_ex lt0 a first m (last - 1)) as [k Ek]; try lia. rewrite Ek. cbn [obind].
    assert (Rk : first <= k < last) by (destruct (median_in _ _ _ _ _ _ Ek) as [->|[->| ->]]; lia).
    destruct (rd_ex a k) as [p Ep]; [lia|]. rewrite Ep. cbn [obind]. unfold unchecked_partition.
    destruct (partition_loop_ok (S (length a)) a first first last last p) as (a1 & cut & E1 & C1 & R1 & P1 & Q1); try lia.
    { exists k, p. split; [lia|]. split; [exact Ep|]. now apply le_refl. }
    { exists k, p. split; [lia|]. split; [exact Ep|]. now apply le_refl. }
    rewrite E1. cbn [obind]. pose proof (rearr_len _ _ _ _ R1) as L1.
    destruct (IH a1 cut last) as (a2 & E2 & R2 & S2); try lia. rewrite E2. cbn [obind].
    pose proof (rearr_len _ _ _ _ R2) as L2.
    destruct (IH a2 first cut) as (a3 & E3 & R3 & S3); try lia.
    exists a3. split; [exact E3|]. split.
    { eapply rearr_trans; [exact R1|]. eapply rearr_trans; (eapply rearr_wide; [| |eassumption]); lia. }
    intros i j Hi Hij Hj.
    destruct (Z_lt_dec j cut) as [Hjc|Hjc]; [apply S3; lia|].
    destruct (Z_lt_dec i cut) as [Hic|Hic].
    + intros x y Ex Ey.
      destruct (rearr_in first cut a2 a3 i x ltac:(lia) R3 ltac:(lia) Ex) as (i' & Ri' & Ei').
      destruct R2 as [P2 O2]. rewrite O2 in Ei' by lia.
      destruct R3 as [P3 O3]. rewrite O3 in Ey by lia.
      destruct (rearr_in cut last a1 a2 j y ltac:(lia) (conj P2 O2) ltac:(lia) Ey) as (j' & Rj' & Ej').
      eapply le_trans; [exact SW|exact (P1 i' x Ri' Ei')|exact (Q1 j' y Rj' Ej')].
    + intros x y Ex Ey. destruct R3 as [P3 O3]. rewrite O3 in Ex, Ey by lia. exact (S2 i j ltac:(lia) Hij Hj x y Ex Ey).
Qed.

(** insertion of a copied value *)
Lemma insert_ok fuel : forall a lo last i v, 0 <= lo < last -> last <= i -> i < len a -> (Z.to_nat (last - lo) < fuel)%nat ->
  (forall j k, lo <= j -> j < k -> k <= i -> j <> last -> k <> last -> le_at a j k) ->
  (forall k x, last < k <= i -> rd a k = Some x -> le v x) ->
  (exists f, rd a lo = Some f /\ le f v) ->
  exists a', unchecked_linear_insert lt fuel a last (Val v) = Some a' /\ rearr lo (i + 1) (up a last v) a' /\ asc a' lo (i + 1).
Proof.
  induction fuel as [|fuel IH]; intros a lo last i v H0 H1 H2 Hf C V (f & Ef & Lf); [lia|].
  cbn [unchecked_linear_insert deref]. cbn [obind].
  destruct (rd_ex a (last - 1)) as [n En]; [lia|]. rewrite En. cbn [obind].
  destruct (lt v n) eqn:L.
  - assert (lo <> last - 1). { intros ->. rewrite En in Ef. injection Ef as ->. unfold HeapProof.le in Lf. congruence. }
    rewrite wr_up by lia. cbn [obind].
    assert (Hrd : forall j, rd (up a last n) j = if j =? last then Some n else rd a j) by (intros j; apply rd_up; lia).
    destruct (IH (up a last n) lo (last - 1) i v) as (a' & E & R & S); rewrite ?up_length; try lia.
    + intros j k Hj Hjk Hk Nj Nk x y. rewrite !Hrd.
      destruct (Z.eqb_spec j last) as [->|].
      * destruct (Z.eqb_spec k last); [lia|]. intros [= <-] Ey.
        exact (C (last - 1) k ltac:(lia) ltac:(lia) ltac:(lia) ltac:(lia) ltac:(lia) n y En Ey).
      * destruct (Z.eqb_spec k last) as [->|].
        -- intros Ex [= <-]. destruct (Z.eq_dec j (last - 1)); [lia|].
           exact (C j (last - 1) ltac:(lia) ltac:(lia) ltac:(lia) ltac:(lia) ltac:(lia) x n Ex En).
        -- apply C; lia.
    + intros k x Rk. rewrite Hrd. destruct (Z.eqb_spec k last).
      * intros [= <-]. now apply lt_le.
      * apply V. lia.
    + exists f. split; [|exact Lf]. rewrite Hrd. destruct (Z.eqb_spec lo last); [lia|exact Ef].
    + exists a'. split; [exact E|]. split; [|exact S]. eapply rearr_trans; [|exact R]. split.
      * symmetry. apply hole_perm; auto; lia.
      * intros j Hj. rewrite rd_up by (rewrite up_length; lia). rewrite Hrd, rd_up by lia.
        destruct (Z.eqb_spec j (last - 1)); [lia|]. destruct (Z.eqb_spec j last); [lia|]. reflexivity.
  - rewrite wr_up by lia. eexists; split; [reflexivity|]. split; [apply rearr_refl|].
    intros j k Hj Hjk Hk x y. rewrite !rd_up by lia.
    destruct (Z.eqb_spec j last) as [->|].
    + destruct (Z.eqb_spec k last); [lia|]. intros [= <-] Ey. apply (V k); auto; lia.
    + destruct (Z.eqb_spec k last) as [->|].
      * intros Ex [= <-]. destruct (Z.eq_dec j (last - 1)) as [->|].
        -- rewrite En in Ex. injection Ex as <-. exact L.
        -- eapply le_trans; [exact SW| |exact L].
           exact (C j (last - 1) ltac:(lia) ltac:(lia) ltac:(lia) ltac:(lia) ltac:(lia) x n Ex En).
      * apply C; lia.
Qed.

Lemma copy_back_ok n : forall a last v, Z.of_nat n <= last -> last < len a ->
  exists a', copy_backward n a last (last + 1) = Some a' /\ length a' = length a /\
    Permutation (up a last v) (up a' (last - Z.of_nat n) v) /\
    (forall j, last - Z.of_nat n < j <= last -> rd a' j = rd a (j - 1)) /\
    (forall j, j <= last - Z.of_nat n \/ last < j -> rd a' j = rd a j).
Proof.
  induction n as [|n IH]; intros a last v Hn Hl.
  - exists a. split; [reflexivity|]. split; [reflexivity|]. split; [|split].
    + now rewrite Z.sub_0_r.
    + intros j Hj. lia.
    + reflexivity.
  - cbn [copy_backward]. destruct (rd_ex a (last - 1)) as [x Ex]; [lia|]. rewrite Ex. cbn [obind].
    replace (last + 1 - 1) with last by lia. rewrite wr_up by lia. cbn [obind].
    assert (Hrd : forall j, rd (up a last x) j = if j =? last then Some x else rd a j) by (intros j; apply rd_up; lia).
    destruct (IH (up a last x) (last - 1) v) as (a' & E & L & P & M & O); rewrite ?up_length; try lia.
    replace (last - 1 + 1) with last in E by lia.
    exists a'. split; [exact E|]. split; [now rewrite L, up_length|]. split; [|split].
    + replace (last - Z.of_nat (S n)) with (last - 1 - Z.of_nat n) by lia. etransitivity; [|exact P].
      symmetry. apply hole_perm; auto; lia.
    + intros j Hj. destruct (Z.eq_dec j last) as [->|N].
      * rewrite O, Hrd, Z.eqb_refl by lia. now symmetry.
      * rewrite M, Hrd by lia. destruct (Z.eqb_spec (j - 1) last); [lia|reflexivity].
    + intros j Hj. rewrite O, Hrd by lia. destruct (Z.eqb_spec j last); [lia|reflexivity].
Qed.

Lemma insertion_loop_ok fuel : forall a first i last, 0 <= first < i -> i <= last -> last <= len a ->
  (Z.to_nat (last - i) < fuel)%nat -> asc a first i ->
  exists a', insertion_loop lt fuel a first i last = Some a' /\ rearr first last a a' /\ asc a' first last.
Proof.
  induction fuel as [|fuel IH]; intros a first i last H0 H1 H2 Hf S; [lia|].
  cbn [insertion_loop]. destruct (Z.eqb_spec i last) as [->|N].
  { exists a. split; [reflexivity|]. split; [apply rearr_refl|exact S]. }
  destruct (rd_ex a i) as [v Ev]; [lia|]. rewrite Ev. cbn [obind].
  destruct (rd_ex a first) as [f Ef]; [lia|]. rewrite Ef. cbn [obind].
  assert (Step : exists a1, (if lt v f then let* a0 := copy_backward (Z.to_nat (i - first)) a i (i + 1) in wr a0 first v
                             else unchecked_linear_insert lt (Datatypes.S (length a)) a i (Val v)) = Some a1 /\
                 rearr first (i + 1) a a1 /\ asc a1 first (i + 1)).
  { destruct (lt v f) eqn:L.
    - destruct (copy_back_ok (Z.to_nat (i - first)) a i v) as (a0 & E0 & L0 & P0 & M0 & O0); try lia.
      rewrite E0. cbn [obind]. replace (i - Z.of_nat (Z.to_nat (i - first))) with first in * by lia.
      rewrite wr_up by lia. eexists; split; [reflexivity|]. rewrite (up_same _ _ _ Ev) in P0. split.
      + split; [exact P0|]. intros j Hj. rewrite rd_up by lia. destruct (Z.eqb_spec j first); [lia|]. apply O0. lia.
      + intros j k Hj Hjk Hk x y. rewrite !rd_up by lia.
        destruct (Z.eqb_spec k first); [lia|]. rewrite (M0 k) by lia.
        destruct (Z.eqb_spec j first) as [->|].
        * intros [= <-] Ey. eapply le_trans; [exact SW|apply lt_le; [exact SW|exact L]|].
          destruct (Z.eq_dec (k - 1) first) as [E|]; [rewrite E, Ef in Ey; injection Ey as <-; now apply le_refl|].
          exact (S first (k - 1) ltac:(lia) ltac:(lia) ltac:(lia) f y Ef Ey).
        * rewrite M0 by lia. apply S; lia.
    - destruct (insert_ok (Datatypes.S (length a)) a first i i v) as (a1 & E1 & R1 & S1); try lia.
      + intros j k Hj Hjk Hk Nj Nk. apply S; lia.
      + exists f. split; [exact Ef|exact L].
      + exists a1. rewrite (up_same _ _ _ Ev) in R1. auto. }
  destruct Step as (a1 & E1 & R1 & S1). rewrite E1. cbn [obind]. pose proof (rearr_len _ _ _ _ R1) as L1.
  destruct (IH a1 first (i + 1) last) as (a2 & E2 & R2 & S2); auto; try lia.
  exists a2. split; [exact E2|]. split; [|exact S2]. eapply rearr_trans; [|exact R2]. eapply rearr_wide; [| |exact R1]; lia.
Qed.
Lemma insertion_sort_ok a first last : 0 <= first <= last -> last <= len a ->
  exists a', insertion_sort lt a first last = Some a' /\ rearr first last a a' /\ asc a' first last.
Proof.
  intros H H'. unfold insertion_sort. destruct (Z.eqb_spec first last) as [->|N].
  - exists a. split; [reflexivity|]. split; [apply rearr_refl|]. intros i j Hi Hij Hj. lia.
  - apply insertion_loop_ok; try lia. intros i j Hi Hij Hj. lia.
Qed.

(** insertion of the cell itself: the element is overwritten by its predecessor when it is less than it *)
Lemma insert_cell fuel a lo i : 0 <= lo -> lo + 2 <= i -> i < len a -> (3 <= fuel)%nat -> asc a lo i ->
  exists a', unchecked_linear_insert lt fuel a i (Cell i) = Some a' /\ length a' = length a /\
    (forall j, j <> i -> rd a' j = rd a j) /\ le_at a' (i - 1) i /\
    (forall x, rd a' i = Some x -> rd a i = Some x \/ rd a (i - 1) = Some x).
Proof.
  intros H0 H1 H2 Hf S. destruct fuel as [|[|[|fuel]]]; try lia.
  cbn [unchecked_linear_insert deref].
  destruct (rd_ex a i) as [v Ev]; [lia|]. rewrite Ev. cbn [obind].
  destruct (rd_ex a (i - 1)) as [n En]; [lia|]. rewrite En. cbn [obind].
  destruct (lt v n) eqn:L.
  - rewrite wr_up by lia. cbn [obind].
    assert (Hrd : forall j, rd (up a i n) j = if j =? i then Some n else rd a j) by (intros j; apply rd_up; lia).
    rewrite (Hrd i), Z.eqb_refl. cbn [obind].
    destruct (rd_ex a (i - 1 - 1)) as [w Ew]; [lia|].
    rewrite (Hrd (i - 1 - 1)). replace (i - 1 - 1 =? i) with false by (symmetry; apply Z.eqb_neq; lia). rewrite Ew. cbn [obind].
    assert (Lw : lt n w = false) by (exact (S (i - 1 - 1) (i - 1) ltac:(lia) ltac:(lia) ltac:(lia) w n Ew En)).
    rewrite Lw. rewrite wr_up by (rewrite up_length; lia).
    assert (Es : up (up a i n) (i - 1) n = up a i n).
    { apply up_same. rewrite Hrd. replace (i - 1 =? i) with false by (symmetry; apply Z.eqb_neq; lia). exact En. }
    rewrite Es. eexists; split; [reflexivity|]. split; [apply up_length|]. split; [|split].
    + intros j Nj. rewrite Hrd. destruct (Z.eqb_spec j i); [lia|reflexivity].
    + intros x y. rewrite !Hrd, Z.eqb_refl. replace (i - 1 =? i) with false by (symmetry; apply Z.eqb_neq; lia).
      rewrite En. intros [= <-] [= <-]. now apply le_refl.
    + intros x. rewrite Hrd, Z.eqb_refl. intros [= <-]. now right.
  - rewrite wr_up by lia. rewrite (up_same _ _ _ Ev). exists a. split; [reflexivity|]. split; [reflexivity|].
    split; [reflexivity|]. split; [|intros x Ex; left; congruence].
    intros x y Ex Ey. rewrite En in Ex. rewrite Ev in Ey. injection Ex as <-. injection Ey as <-. exact L.
Qed.

Lemma unchecked_loop_ok fuel : forall a lo i last, 0 <= lo -> lo + 2 <= i -> i <= last -> last <= len a ->
  (Z.to_nat (last - i) < fuel)%nat -> asc a lo i ->
  exists a', unchecked_insertion_loop lt fuel a i last = Some a' /\ length a' = length a /\ asc a' lo last /\
    (forall j, j < i \/ last <= j -> rd a' j = rd a j) /\
    (forall j x, lo <= j < last -> rd a' j = Some x -> exists k, lo <= k < last /\ rd a k = Some x).
Proof.
  induction fuel as [|fuel IH]; intros a lo i last H0 H1 H2 H3 Hf S; [lia|].
  cbn [unchecked_insertion_loop]. destruct (Z.eqb_spec i last) as [->|N].
  { exists a. split; [reflexivity|]. split; [reflexivity|]. split; [exact S|]. split; eauto. }
  destruct (insert_cell (Datatypes.S (length a)) a lo i) as (a1 & E1 & L1 & O1 & C1 & F1); auto; try lia.
  rewrite E1. cbn [obind].
  assert (S1 : asc a1 lo (i + 1)).
  { intros j k Hj Hjk Hk. destruct (Z.eq_dec k i) as [->|Nk].
    - destruct (Z.eq_dec j (i - 1)) as [->|]; [exact C1|].
      apply le_at_trans with (i - 1); [exact SW|lia| |exact C1]. intros x y. rewrite !O1 by lia. apply S; lia.
    - intros x y. rewrite !O1 by lia. apply S; lia. }
  destruct (IH a1 lo (i + 1) last) as (a2 & E2 & L2 & S2 & O2 & F2); auto; try lia.
  exists a2. split; [exact E2|]. split; [lia|]. split; [exact S2|]. split.
  - intros j Hj. rewrite O2, O1 by lia. reflexivity.
  - intros j x Rj Ex. destruct (F2 j x Rj Ex) as (k & Rk & Ek).
    destruct (Z.eq_dec k i) as [->|]; [|rewrite O1 in Ek by lia; eauto].
    destruct (F1 x Ek) as [E|E]; [exists i|exists (i - 1)]; split; auto; lia.
Qed.

Lemma slg2_loop_ok fuel : forall n k, 0 <= n -> (Z.to_nat n < fuel)%nat -> exists k', slg2_loop fuel n k = Some k'.
Proof.
  induction fuel as [|fuel IH]; intros n k Hn Hf; [lia|]. cbn [slg2_loop].
  destruct (Z.ltb_spec 1 n); [|eauto]. rewrite Z.shiftr_div_pow2 by lia. change (2 ^ 1) with 2.
  apply IH; Z.div_mod_to_equations; lia.
Qed.

Lemma sort_small lt0 a first last : 0 <= first <= last -> last <= len a -> last - first <= 128 ->
  exists a', sort lt lt0 a first last = Some a' /\ rearr first last a a' /\ asc a' first last.
Proof.
  intros H H' H2. unfold sort. destruct (Z.eqb_spec first last) as [->|N].
  - exists a. split; [reflexivity|]. split; [apply rearr_refl|]. intros i j Hi Hij Hj. lia.
  - destruct (slg2_loop_ok (S (Z.to_nat (last - first))) (last - first) 0) as [k Ek]; try lia.
    unfold slg2. rewrite Ek. cbn [obind].
    assert (EI : intro_sort lt lt0 (Z.to_nat (k * 2)) a first last = Some a).
    { destruct (Z.to_nat (k * 2)); cbn [intro_sort]; unfold kSmallSectionSize;
        (destruct (Z.ltb_spec 128 (last - first)); [lia|reflexivity]). }
    rewrite EI. cbn [obind]. unfold final_insertion_sort, kSmallSectionSize.
    destruct (Z.ltb_spec 128 (last - first)); [lia|]. now apply insertion_sort_ok.
Qed.

Lemma sort_any lt0 a first last : 0 <= first <= last -> last <= len a ->
  exists a', sort lt lt0 a first last = Some a' /\ length a' = length a /\ asc a' first last /\
    (forall i, i < first \/ last <= i -> rd a' i = rd a i) /\
    (forall i x, first <= i < last -> rd a' i = Some x -> exists j, first <= j < last /\ rd a j = Some x).
Proof.
  intros H H'. destruct (Z_le_dec (last - first) 128) as [Hs|Hb].
  - destruct (sort_small lt0 a first last) as (a' & E & R & S); auto. exists a'. split; [exact E|].
    split; [eapply rearr_len; eauto|]. split; [exact S|]. split; [apply R|].
    intros i x Ri Ex. eapply rearr_in; eauto; lia.
  - unfold sort. destruct (Z.eqb_spec first last); [lia|].
    destruct (slg2_loop_ok (S (Z.to_nat (last - first))) (last - first) 0) as [k Ek]; try lia.
    unfold slg2. rewrite Ek. cbn [obind].
    destruct (intro_sort_ok lt0 (Z.to_nat (k * 2)) a first last) as (a1 & E1 & R1 & _); try lia.
    rewrite E1. cbn [obind]. pose proof (rearr_len _ _ _ _ R1) as L1.
    unfold final_insertion_sort, kSmallSectionSize. destruct (Z.ltb_spec 128 (last - first)); [|lia].
    destruct (insertion_sort_ok a1 first (first + 128)) as (a2 & E2 & R2 & S2); try lia.
    rewrite E2. cbn [obind]. pose proof (rearr_len _ _ _ _ R2) as L2.
    unfold unchecked_insertion_sort.
    destruct (unchecked_loop_ok (S (length a2)) a2 first (first + 128) last) as (a3 & E3 & L3 & S3 & O3 & F3); auto; try lia.
    exists a3. split; [exact E3|]. split; [lia|]. split; [exact S3|].
    assert (R12 : rearr first last a a2) by (eapply rearr_trans; [exact R1|eapply rearr_wide; [| |exact R2]; lia]).
    split.
    + intros i Hi. rewrite O3 by lia. destruct R12 as [_ O]. apply O. lia.
    + intros i x Ri Ex. destruct (F3 i x Ri Ex) as (j & Rj & Ej). eapply rearr_in; eauto; lia.
Qed.

(** partition around a cell of the range: the pivot may change on the way, but the scans stay inside the range *)
Lemma scan_up_cell fuel : forall a i k p, rd a k = Some p -> scan_up lt fuel a i (Cell k) = scan_up lt fuel a i (Val p).
Proof.
  induction fuel as [|fuel IH]; intros a i k p H; [reflexivity|]. cbn [scan_up deref]. rewrite H.
  destruct (rd a i) as [x|]; cbn [obind]; [|reflexivity]. destruct (lt x p); [|reflexivity]. now apply IH.
Qed.
Lemma scan_down_cell fuel : forall a i k p, rd a k = Some p -> scan_down lt fuel a i (Cell k) = scan_down lt fuel a i (Val p).
Proof.
  induction fuel as [|fuel IH]; intros a i k p H; [reflexivity|]. cbn [scan_down deref]. rewrite H.
  destruct (rd a i) as [x|]; cbn [obind]; [|reflexivity]. destruct (lt p x); [|reflexivity]. now apply IH.
Qed.
Lemma partition_cell_ok fuel : forall a lo first last hi k p,
  0 <= lo <= first -> first <= last -> last <= hi -> hi <= len a -> (Z.to_nat (last - first) < fuel)%nat ->
  lo <= k < hi -> rd a k = Some p ->
  (exists j y, first <= j < hi /\ rd a j = Some y /\ le p y) ->
  (exists j y, lo <= j < last /\ rd a j = Some y /\ le y p) ->
  exists a' cut, partition_loop lt fuel a first last (Cell k) = Some (a', cut) /\ first <= cut < hi /\ rearr lo hi a a' /\
    ((exists j y, first < j < last /\ rd a j = Some y /\ le y p) -> first < cut).
Proof.
  induction fuel as [|fuel IH]; intros a lo first last hi k p H0 H1 H2 H3 Hf Rk Ep (k1 & y1 & Rk1 & Ek1 & Lk1) (k2 & y2 & Rk2 & Ek2 & Lk2); [lia|].
  cbn [partition_loop]. rewrite (scan_up_cell _ _ _ _ _ Ep).
  destruct (scan_up_ok (S (length a)) a first k1 p) as (f & yf & Ef & Rf & Eyf & Lyf & Mf); eauto; try lia.
  rewrite Ef. cbn [obind]. rewrite (scan_down_cell _ _ _ _ _ Ep).
  destruct (scan_down_ok (S (length a)) a (last - 1) k2 p) as (l & yl & El & Rl & Eyl & Lyl & Ml); eauto; try lia.
  rewrite El. cbn [obind].
  destruct (Z.ltb_spec f l) as [L|G].
  - rewrite (iter_swap_up _ _ _ _ _ Eyf Eyl). cbn [obind].
    set (a1 := up (up a f yl) l yf).
    assert (Hrd : forall j, rd a1 j = if j =? l then Some yf else if j =? f then Some yl else rd a j).
    { intros j. unfold a1. rewrite rd_up by (rewrite up_length; lia). now rewrite rd_up by lia. }
    assert (R1 : rearr lo hi a a1) by (apply rearr_swap with (i := f) (j := l); auto; lia).
    pose proof (rearr_len _ _ _ _ R1) as L1.
    assert (Rl' : rd a1 l = Some yf) by (rewrite Hrd, Z.eqb_refl; reflexivity).
    assert (Rf' : rd a1 f = Some yl).
    { rewrite Hrd, Z.eqb_refl. destruct (Z.eqb_spec f l); [lia|reflexivity]. }
    destruct (rd_ex a1 k) as [p' Ep']; [lia|].
    assert (Pp : le p' yf /\ le yl p').
    { rewrite Hrd in Ep'. destruct (Z.eqb_spec k l) as [->|].
      - injection Ep' as <-. split; [now apply le_refl|]. eapply le_trans; eauto.
      - destruct (Z.eqb_spec k f) as [->|].
        + injection Ep' as <-. split; [|now apply le_refl]. eapply le_trans; eauto.
        + rewrite Ep in Ep'. injection Ep' as <-. auto. }
    destruct (IH a1 lo (f + 1) l hi k p') as (a' & cut & E & C & R & _); try lia; auto.
    + exists l, yf. split; [lia|]. split; [exact Rl'|apply Pp].
    + exists f, yl. split; [lia|]. split; [exact Rf'|apply Pp].
    + exists a', cut. split; [exact E|]. split; [lia|]. split; [eapply rearr_trans; eauto|]. intros _. lia.
  - exists a, f. split; [reflexivity|]. split; [lia|]. split; [apply rearr_refl|].
    intros (j & y & Rj & Ey & Ly). destruct (Z.eq_dec f first) as [->|]; [|lia]. exfalso.
    destruct (scan_down_ok (S (length a)) a (last - 1) j p) as (l' & yl' & El' & Rl' & _); eauto; try lia.
    rewrite El in El'. injection El' as <-. lia.
Qed.
Lemma median_low a l m r k p : rd a k = Some p -> median lt a l m r = Some k ->
  exists j y, (j = m \/ j = r) /\ rd a j = Some y /\ le y p.
Proof.
  unfold median. intros Ep. destruct (rd a l) as [x|] eqn:Ex; [|discriminate]. destruct (rd a m) as [y|] eqn:Ey; [|discriminate].
  destruct (rd a r) as [z|] eqn:Ez; [|discriminate]. cbn [obind]. intros [= E].
  assert (B : k = m \/ k = r \/ k = l /\ (lt x y = false \/ lt x z = false /\ lt x y = true)).
  { subst k. clear. destruct (lt x y), (lt y z), (lt x z); tauto. }
  destruct B as [->|[->|[-> [B|[B _]]]]].
  - exists m, p. split; [auto|]. split; [congruence|now apply le_refl].
  - exists r, p. split; [auto|]. split; [congruence|now apply le_refl].
  - rewrite Ex in Ep. injection Ep as <-. exists m, y. split; [auto|]. split; [exact Ey|exact B].
  - rewrite Ex in Ep. injection Ep as <-. exists r, z. split; [auto|]. split; [exact Ez|exact B].
Qed.
Lemma nth_loop_ok fuel : forall a first nth last, 0 <= first <= nth -> nth < last -> last <= len a -> (Z.to_nat (last - first) < fuel)%nat ->
  exists a', nth_loop lt lt fuel a first nth last = Some a' /\ rearr first last a a'.
Proof.
  induction fuel as [|fuel IH]; intros a first nth last H0 H1 H2 Hf; [lia|].
  cbn [nth_loop]. destruct (Z.ltb_spec 3 (last - first)) as [L|G].
  - set (m := first + Z.quot (last - first) 2).
    assert (Hm : first < m < last).
    { unfold m. rewrite Z.quot_div_nonneg by lia. Z.div_mod_to_equations; lia. }
    clearbody m.
    destruct (median_ex lt a first m (last - 1)) as [k Ek]; try lia. rewrite Ek. cbn [obind].
    assert (Rk : first <= k < last) by (destruct (median_in _ _ _ _ _ _ Ek) as [->|[->| ->]]; lia).
    destruct (rd_ex a k) as [p Ep]; [lia|]. unfold unchecked_partition.
    destruct (partition_cell_ok (S (length a)) a first first last last k p) as (a1 & cut & E1 & C1 & R1 & P1); try lia; auto.
    { exists k, p. split; [lia|]. split; [exact Ep|now apply le_refl]. }
    { exists k, p. split; [lia|]. split; [exact Ep|now apply le_refl]. }
    rewrite E1. cbn [obind]. pose proof (rearr_len _ _ _ _ R1) as L1.
    assert (C2 : first < cut).
    { apply P1. destruct (median_low _ _ _ _ _ _ Ep Ek) as (j & y & Ej & Ey & Ly). exists j, y. split; [lia|auto]. }
    destruct (Z.leb_spec cut nth).
    + destruct (IH a1 cut nth last) as (a2 & E2 & R2); try lia. exists a2. split; [exact E2|].
      eapply rearr_trans; [exact R1|]. eapply rearr_wide; [| |exact R2]; lia.
    + destruct (IH a1 first nth cut) as (a2 & E2 & R2); try lia. exists a2. split; [exact E2|].
      eapply rearr_trans; [exact R1|]. eapply rearr_wide; [| |exact R2]; lia.
  - destruct (insertion_sort_ok a first last) as (a' & E & R & _); try lia. eauto.
Qed.

Lemma is_sorted_loop_ok fuel : forall a first next last, 0 <= first -> next = first + 1 -> next <= last -> last <= len a ->
  (Z.to_nat (last - next) < fuel)%nat ->
  exists r, is_sorted_loop lt fuel a first next last = Some r /\ (r = true <-> asc a first last).
Proof.
  induction fuel as [|fuel IH]; intros a first next last H0 -> H1 H2 Hf; [lia|].
  cbn [is_sorted_loop]. destruct (Z.eqb_spec (first + 1) last) as [E|N].
  - exists true. split; [reflexivity|]. split; [|auto]. intros _ i j Hi Hij Hj. lia.
  - destruct (rd_ex a (first + 1)) as [x Ex]; [lia|]. rewrite Ex. cbn [obind].
    destruct (rd_ex a first) as [y Ey]; [lia|]. rewrite Ey. cbn [obind].
    destruct (lt x y) eqn:L.
    + exists false. split; [reflexivity|]. split; [discriminate|]. intros S.
      specialize (S first (first + 1) ltac:(lia) ltac:(lia) ltac:(lia) y x Ey Ex). unfold HeapProof.le in S. congruence.
    + destruct (IH a (first + 1) (first + 1 + 1) last) as (r & E & I); try lia. exists r. split; [exact E|].
      rewrite I. split.
      * intros S i j Hi Hij Hj. destruct (Z.eq_dec i first) as [->|]; [|apply S; lia].
        assert (B : le_at a first (first + 1)).
        { intros u w Eu Ew. rewrite Ey in Eu. rewrite Ex in Ew. injection Eu as <-. injection Ew as <-. exact L. }
        destruct (Z.eq_dec j (first + 1)) as [->|]; [exact B|].
        apply le_at_trans with (first + 1); [exact SW|lia|exact B|]. apply S; lia.
      * intros S i j Hi Hij Hj. apply S; lia.
Qed.

Lemma is_heap_loop_ok fuel : forall a b parent child n, 0 <= b -> 0 < child -> b + n <= len a -> parent = par child ->
  (Z.to_nat (n - child) < fuel)%nat ->
  exists r, is_heap_loop lt fuel a b parent child n = Some r /\
    (r = true <-> forall i, child <= i < n -> le_at a (b + i) (b + par i)).
Proof.
  induction fuel as [|fuel IH]; intros a b parent child n H0 H1 H2 -> Hf; [lia|].
  cbn [is_heap_loop]. pose proof (par_spec child) as Ps. destruct (Z.ltb_spec child n) as [L|G].
  - destruct (rd_ex a (b + par child)) as [x Ex]; [lia|]. rewrite Ex. cbn [obind].
    destruct (rd_ex a (b + child)) as [y Ey]; [lia|]. rewrite Ey. cbn [obind].
    destruct (lt x y) eqn:Lxy.
    + exists false. split; [reflexivity|]. split; [discriminate|]. intros S.
      specialize (S child ltac:(lia) y x Ey Ex). unfold HeapProof.le in S. congruence.
    + destruct (IH a b (if Z.land child 1 =? 0 then par child + 1 else par child) (child + 1) n) as (r & E & I); try lia.
      { change 1 with (Z.ones 1) at 1. rewrite Z.land_ones by lia. change (2 ^ 1) with 2. unfold par.
        destruct (Z.eqb_spec (child mod 2) 0); Z.div_mod_to_equations; lia. }
      exists r. split; [exact E|]. rewrite I. split.
      * intros S i Ri. destruct (Z.eq_dec i child) as [->|]; [|apply S; lia].
        intros u w Eu Ew. rewrite Ey in Eu. rewrite Ex in Ew. injection Eu as <-. injection Ew as <-. exact Lxy.
      * intros S i Ri. apply S. lia.
  - exists true. split; [reflexivity|]. split; [|auto]. intros _ i Ri. lia.
Qed.
End Sort.
