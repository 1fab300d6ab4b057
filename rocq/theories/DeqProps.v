(** The deque (mylib/mystl/deque.h) behaves as a sequence; what it does with its buffers; and where it does neither. *)
From Coq Require Import ZArith List Bool Lia.
From Verif Require Import F64 DeqModel DeqSpec DeqProof DeqOps DeqEnds DeqIns DeqFill DeqRem DeqLife.
Import ListNotations.
Open Scope Z_scope.

(** ** for the examples: a heap with nothing in it, and the deque of the numbers 0 to n - 1 *)
Definition empty_heap : @memory Z := mkMem (fun _ => None) (fun _ => false) 1.
Definition upto (n : nat) : list Z := map Z.of_nat (seq 0 n).
Lemma empty_heap_ok : heap empty_heap.
Proof. split; [reflexivity|]. split; [reflexivity|]. intros a [H|H]; [now destruct H|discriminate]. Qed.
Lemma some_deque triv n : exists m d, copy_init 16 empty_heap (upto n) = Some (m, d) /\ rep 16 triv m d (upto n) /\ tight d.
Proof. destruct (copy_init_ok 16 triv ltac:(lia) empty_heap (upto n) empty_heap_ok) as (m & d & E & R & _ & _ & Tt). now exists m, d. Qed.

(** a buffer has room for 16 objects at least *)
Theorem deque_buffer_size sz : 0 < sz -> 16 <= buf_size sz.
Proof.
  intros H. unfold buf_size. destruct (Z.ltb_spec sz 256); [|lia]. apply Z.div_le_lower_bound; lia.
Qed.
Example deque_buffer_size_ex : buf_size 8 = 512 /\ buf_size 255 = 16 /\ buf_size 4096 = 16.
Proof. repeat split. Qed.

Section Props.
Context {T : Type} (bs : Z) (triv : bool).
Notation mem := (@memory T).
Implicit Types (m : mem) (d x : deque) (xs ys : list T) (v : T).
Hypothesis Hbs : 0 < bs.
Notation rep := (rep bs triv).
Notation len xs := (Z.of_nat (length xs)).
Notation stands := (stands bs).

(** ** C105: iterators *)
Theorem deque_iterators m d xs p q i j : rep m d xs -> 0 <= p <= len xs -> stands d p i -> stands d q j ->
  diff bs i j = p - q /\ ieq i j = (p =? q) /\ ilt i j = (p <? q) /\ ile i j = (p <=? q) /\
  (p < len xs -> rd bs m d i = nth_error xs (Z.to_nat p)) /\
  (p < len xs -> exists i', inc bs d i = Some i' /\ stands d (p + 1) i') /\
  (0 < p -> exists i', dec bs d i = Some i' /\ stands d (p - 1) i') /\
  (forall n, 0 <= p + n <= len xs -> exists i', plus bs d i n = Some i' /\ stands d (p + n) i') /\
  (forall n, 0 <= p - n <= len xs -> exists i', minus bs d i n = Some i' /\ stands d (p - n) i') /\
  stands d 0 (beg d) /\ stands d (len xs) (fin d).
Proof.
  intros R Hp S1 S2. rewrite (stands_pt bs Hbs _ _ _ S1), (stands_pt bs Hbs _ _ _ S2). pose proof (r_len _ _ _ _ _ R) as L.
  pose proof (fun k => lin_nd bs triv _ _ _ k R) as ND. unfold ile. rewrite diff_ok, ieq_ok, !ilt_ok, rd_ok by exact Hbs.
  split; [lia|]. split; [destruct (Z.eqb_spec p q), (Z.eqb_spec (lin bs (beg d) + p) (lin bs (beg d) + q)); reflexivity || lia|].
  split; [destruct (Z.ltb_spec p q), (Z.ltb_spec (lin bs (beg d) + p) (lin bs (beg d) + q)); reflexivity || lia|].
  split; [destruct (Z.leb_spec p q), (Z.ltb_spec (lin bs (beg d) + q) (lin bs (beg d) + p)); reflexivity || lia|].
  split; [intros H; apply R; lia|].
  split; [intros H; eexists; split; [apply (inc_ok bs Hbs), ND; lia|apply (pt_stands' bs Hbs); lia]|].
  split; [intros H; eexists; split; [apply (dec_ok bs Hbs), ND; lia|apply (pt_stands' bs Hbs); lia]|].
  split; [intros n H; eexists; split; [apply (plus_ok bs Hbs), ND; lia|apply (pt_stands' bs Hbs); lia]|].
  split; [intros n H; eexists; split; [apply (minus_ok bs Hbs), ND; lia|apply (pt_stands' bs Hbs); lia]|].
  split; [split; [apply R|lia]|]. split; [apply R|exact L].
Qed.

(** ** C106: access, and adding and removing at the ends *)
Theorem deque_access m d xs : rep m d xs ->
  empty d = match xs with [] => true | _ => false end /\ size bs d = len xs /\
  (forall n, 0 <= n -> index bs m d n = nth_error xs (Z.to_nat n) /\ at_ bs m d n = nth_error xs (Z.to_nat n)) /\
  front bs m d = nth_error xs 0 /\ back bs m d = nth_error (rev xs) 0.
Proof.
  intros R. split; [now apply (empty_ok bs triv Hbs _ _ _ R)|]. split; [now apply (size_ok bs triv Hbs _ _ _ R)|].
  assert (I : forall n, 0 <= n -> index bs m d n = nth_error xs (Z.to_nat n)).
  { intros n Hn. rewrite (index_ok bs triv Hbs _ _ _ _ R) by exact Hn. unfold nz. destruct (Z.ltb_spec n 0); [lia|reflexivity]. }
  split; [|split].
  - intros n Hn. split; [now apply I|]. unfold at_. rewrite (size_ok bs triv Hbs _ _ _ R). destruct (Z.ltb_spec n (len xs)); [now apply I|].
    symmetry. apply nth_error_None. lia.
  - destruct xs as [|v xs]; [|now apply (front_ok bs triv Hbs m d v xs)]. unfold front. now rewrite (empty_ok bs triv Hbs _ _ _ R).
  - destruct xs as [|v xs] using rev_ind; [|].
    + unfold back. now rewrite (empty_ok bs triv Hbs _ _ _ R).
    + rewrite rev_app_distr. cbn. now apply (back_ok bs triv Hbs m d v xs).
Qed.
Theorem deque_push_front m d xs v : rep m d xs ->
  exists m' d', push_front bs m d v = Some (m', d') /\ rep m' d' (v :: xs) /\ others m d m' d' /\ (1 < bs -> tight d -> tight d' /\ nothing_lost m d m' d').
Proof. now apply push_front_ok. Qed.
Theorem deque_push_back m d xs v : rep m d xs ->
  exists m' d', push_back bs m d v = Some (m', d') /\ rep m' d' (xs ++ [v]) /\ others m d m' d' /\ (1 < bs -> tight d -> tight d' /\ nothing_lost m d m' d').
Proof. now apply push_back_ok. Qed.
Theorem deque_pop_front m d v xs : rep m d (v :: xs) ->
  exists m' d', pop_front bs triv m d = Some (m', d') /\ rep m' d' xs /\ others m d m' d' /\ (tight d -> tight d') /\ nothing_lost m d m' d'.
Proof. intros R. destruct (pop_front_ok bs triv Hbs m d v xs R) as (m' & d' & E & R' & O & Tt & L & _). exists m', d'. auto. Qed.
Theorem deque_pop_back m d v xs : rep m d (xs ++ [v]) ->
  exists m' d', pop_back bs triv m d = Some (m', d') /\ rep m' d' xs /\ others m d m' d' /\ (tight d -> tight d') /\ nothing_lost m d m' d'.
Proof. intros R. destruct (pop_back_ok bs triv Hbs m d v xs R) as (m' & d' & E & R' & O & Tt & L & _). exists m', d'. auto. Qed.
Theorem deque_shrink_to_fit m d xs : rep m d xs ->
  exists m' d', shrink_to_fit m d = Some (m', d') /\ rep m' d' xs /\ others m d m' d' /\ nothing_lost m d m' d' /\ tight d'.
Proof. intros R. destruct (shrink_ok bs triv Hbs m d xs R) as (m' & d' & E & R' & O & L & Tt & _). exists m', d'. auto. Qed.

(** ** C107: inserting and erasing anywhere *)
Theorem deque_insert m d xs p i v : rep m d xs -> 0 <= p <= len xs -> stands d p i ->
  exists m' d' i', insert bs m d i v = Some (m', d', i') /\ rep m' d' (put_at p [v] xs) /\ stands d' p i' /\ others m d m' d'.
Proof. now apply insert_ok. Qed.
Theorem deque_insert_n m d xs p i n v : rep m d xs -> 0 <= p <= len xs -> 0 <= n -> stands d p i ->
  exists m' d', insert_n bs m d i n v = Some (m', d') /\ rep m' d' (put_at p (repeat v (Z.to_nat n)) xs) /\ others m d m' d'.
Proof. now apply insert_n_ok. Qed.
Theorem deque_insert_range m d xs p i ys : rep m d xs -> 0 <= p <= len xs -> stands d p i ->
  exists m' d', insert_range bs m d i ys = Some (m', d') /\ rep m' d' (put_at p ys xs) /\ others m d m' d'.
Proof. now apply insert_range_ok. Qed.
Theorem deque_erase m d xs p i : rep m d xs -> 0 <= p < len xs -> stands d p i ->
  exists m' d' i', erase bs triv m d i = Some (m', d', i') /\ rep m' d' (cut p (p + 1) xs) /\ stands d' p i' /\ others m d m' d' /\
    nothing_lost m d m' d' /\ (tight d -> tight d').
Proof. now apply erase_ok. Qed.
Theorem deque_clear m d xs : rep m d xs ->
  exists m' d', clear bs triv m d = Some (m', d') /\ rep m' d' [] /\ others m d m' d' /\ nothing_lost m d m' d'.
Proof. intros R. destruct (clear_ok bs triv Hbs m d xs R) as (m' & d' & E & R' & O & L & _). exists m', d'. auto. Qed.
(** of a type with a destructor, a range can be erased when the slots that become free are in one buffer, and else the code runs with a pointer
    out of its buffer *)
Theorem deque_erase_range_partial m d xs p q i j : rep m d xs -> 0 <= p <= q -> q <= len xs -> stands d p i -> stands d q j ->
  triv = true \/ in_one bs d (len xs) p q ->
  exists m' d' i', erase_range bs triv m d i j = Some (m', d', i') /\ rep m' d' (cut p q xs) /\ stands d' p i' /\ others m d m' d' /\ nothing_lost m d m' d'.
Proof. now apply erase_range_ok. Qed.
Theorem deque_erase_range_undefined m d xs p q i j : rep m d xs -> 0 <= p <= q -> q <= len xs -> stands d p i -> stands d q j ->
  triv = false -> ~ in_one bs d (len xs) p q -> erase_range bs triv m d i j = None.
Proof. now apply erase_range_none. Qed.
Theorem deque_resize_partial m d xs n v : rep m d xs -> 0 <= n -> triv = true \/ len xs <= n \/ in_one bs d (len xs) n (len xs) ->
  exists m' d', resize bs triv m d n v = Some (m', d') /\ rep m' d' (sized n v xs) /\ others m d m' d'.
Proof. now apply resize_ok. Qed.
Theorem deque_assign_n_partial m d xs n v : rep m d xs -> 0 <= n -> triv = true \/ len xs < n \/ in_one bs d (len xs) n (len xs) ->
  exists m' d', assign_n bs triv m d n v = Some (m', d') /\ rep m' d' (repeat v (Z.to_nat n)) /\ others m d m' d'.
Proof. now apply assign_n_ok. Qed.
Theorem deque_assign_range_partial m d xs ys : rep m d xs -> triv = true \/ len xs < len ys \/ in_one bs d (len xs) (len ys) (len xs) ->
  exists m' d', assign_range bs triv m d ys = Some (m', d') /\ rep m' d' ys /\ others m d m' d'.
Proof. now apply assign_range_ok. Qed.

(** ** C108: construction, copies, moves, destruction *)
Theorem deque_copy_init m xs : heap m ->
  exists m' d, copy_init bs m xs = Some (m', d) /\ rep m' d xs /\ others m nobody m' d /\ nothing_lost m nobody m' d /\ tight d.
Proof. now apply copy_init_ok. Qed.
Theorem deque_fill_init m n v : heap m -> 0 <= n ->
  exists m' d, fill_init bs m n v = Some (m', d) /\ rep m' d (repeat v (Z.to_nat n)) /\ others m nobody m' d /\ nothing_lost m nobody m' d /\ tight d.
Proof. now apply fill_init_ok. Qed.
(** what an operation on one deque leaves alone is enough for every other one *)
Theorem deque_apart m d m' d' x xs ys : rep m x ys -> apart d x -> others m d m' d' -> rep m' d' xs -> rep m' x ys /\ apart d' x.
Proof. intros R A O R'. apply (apart_keeps bs triv m d); auto. apply R'. Qed.
Theorem deque_destroy_partial m d xs : rep m d xs ->
  exists m', destroy bs triv m d = Some m' /\ nxt m <= nxt m' /\
    (forall a, ~ holds d a -> bufs m' a = bufs m a) /\ (forall k a, mp d k = Some a -> used m' a <-> fst (beg d) < k <= fst (fin d)) /\
    (forall a, mblk m' a = if a =? mid d then false else mblk m a).
Proof. now apply destroy_frees. Qed.
(** so a deque gives all its buffers back exactly when it had one buffer in use *)
Theorem deque_destroy_leaks m d xs m' : rep m d xs -> destroy bs triv m d = Some m' ->
  (forall a, holds d a -> ~ used m' a) <-> fst (beg d) = fst (fin d).
Proof.
  intros R E. destruct (destroy_frees bs triv Hbs m d xs R) as (m1 & E1 & _ & _ & H & _). assert (m1 = m') by congruence. subst m1.
  destruct (node_bounds bs triv Hbs _ _ _ R) as (N1 & N2 & N3). split.
  - intros Hn. destruct (Z.eq_dec (fst (beg d)) (fst (fin d))); [assumption|]. exfalso.
    pose proof (node_some bs triv Hbs _ _ _ (fst (fin d)) R ltac:(lia)) as S. destruct (mp d (fst (fin d))) as [a|] eqn:Ea; [|congruence].
    apply (Hn a); [now exists (fst (fin d))|]. apply (H _ _ Ea). lia.
  - intros Q a [k Ek] U. apply (H _ _ Ek) in U. lia.
Qed.
Theorem deque_move m x ys : rep m x ys ->
  rep m (fst (move_init x)) ys /\ size bs (snd (move_init x)) = 0 /\ destroy bs triv m (snd (move_init x)) = Some m.
Proof. intros R. split; [exact R|]. split; [cbn; unfold size, diff; cbn; lia|reflexivity]. Qed.
(** the move assignment: the values arrive, but the map and the buffers of *this are not given back, and rhs keeps its size *)
Theorem deque_move_assign_partial m d xs x ys : rep m d xs -> rep m x ys -> apart d x ->
  exists m' rest, move_assign bs triv m d x = Some (m', x, rest) /\ rep m' x ys /\
    (mblk m' (mid d) = true /\ mid d <> mid x) /\ (forall k a, fst (beg d) <= k <= fst (fin d) -> mp d k = Some a -> used m' a /\ ~ holds x a) /\
    size bs rest = len ys /\ (forall k, 0 <= k < len ys -> index bs m' rest k = index bs m' x k) /\ mid rest = 0.
Proof. intros. eapply move_assign_ok; eauto. Qed.
Theorem deque_swap m d xs x ys : rep m d xs -> rep m x ys -> rep m (fst (swap d x)) ys /\ rep m (snd (swap d x)) xs.
Proof. now split. Qed.
End Props.

(** ** concrete cases *)
(** a deque of 40 numbers in buffers of 16: position 20 is in the second of three buffers *)
Example deque_iterators_ex triv : exists m d, rep 16 triv m d (upto 40) /\ (exists i, plus 16 d (beg d) 20 = Some i /\ stands 16 d 20 i /\ rd 16 m d i = Some 20).
Proof.
  destruct (some_deque triv 40) as (m & d & _ & R & _). exists m, d. split; [exact R|].
  destruct (deque_iterators 16 triv ltac:(lia) m d (upto 40) 0 0 (beg d) (beg d) R) as (_ & _ & _ & _ & _ & _ & _ & P & _).
  - cbn. lia.
  - split; [apply R|lia].
  - split; [apply R|lia].
  - destruct (P 20) as (i & E & S); [cbn; lia|]. exists i. split; [exact E|]. split; [exact S|].
    destruct (deque_iterators 16 triv ltac:(lia) m d (upto 40) 20 20 i i R) as (_ & _ & _ & _ & V & _); auto; [cbn; lia|]. now rewrite V by (cbn; lia).
Qed.
Example deque_ends_ex triv : exists m d m1 d1, rep 16 triv m d (upto 16) /\ tight d /\ push_front 16 m d 7 = Some (m1, d1) /\ rep 16 triv m1 d1 (7 :: upto 16) /\ tight d1.
Proof.
  destruct (some_deque triv 16) as (m & d & _ & R & Tt). destruct (deque_push_front 16 triv ltac:(lia) m d (upto 16) 7 R) as (m1 & d1 & E & R1 & _ & K).
  exists m, d, m1, d1. repeat (split; [assumption|]). now apply K.
Qed.
(** destroying objects of one buffer: of 40 numbers, those from 34 on are in the buffer of the end; those from 30 on are not *)
Lemma forty : exists m d, copy_init 16 empty_heap (upto 40) = Some (m, d) /\ rep 16 false m d (upto 40) /\ rep 16 true m d (upto 40) /\
  beg d = (2, 0) /\ fin d = (4, 8).
Proof.
  destruct (some_deque false 40) as (m & d & E & R & _). destruct (some_deque true 40) as (m' & d' & E' & R' & _). exists m, d.
  assert (Q : (m', d') = (m, d)) by congruence. injection Q as -> ->.
  repeat (split; [assumption|]). assert (B : option_map (fun md => (beg (snd md), fin (snd md))) (copy_init 16 empty_heap (upto 40)) = Some ((2, 0), (4, 8))) by (vm_compute; reflexivity).
  rewrite E in B. cbn in B. injection B as -> ->. now split.
Qed.
Example deque_erase_range_ex : exists m d, rep 16 false m d (upto 40) /\ in_one 16 d 40 34 40 /\ ~ in_one 16 d 40 30 40 /\ in_one 16 d 40 1 9.
Proof.
  destruct forty as (m & d & _ & R & _ & Eb & Ef). exists m, d. split; [exact R|]. unfold in_one, lin. rewrite Eb, Ef. cbn.
  split; [now right|]. split; [|now right]. intros [[H _]|H]; discriminate.
Qed.
(** C107 fails: resize to 30 of a deque of 40 objects with a destructor *)
Theorem deque_resize_refuted : exists m d, rep 16 false m d (upto 40) /\ resize 16 false m d 30 0 = None.
Proof.
  destruct forty as (m & d & _ & R & _ & Eb & Ef). exists m, d. split; [exact R|]. unfold resize. rewrite (size_ok 16 false ltac:(lia) _ _ _ R). cbn [length upto map seq].
  destruct (deque_iterators 16 false ltac:(lia) m d (upto 40) 0 0 (beg d) (beg d) R) as (_ & _ & _ & _ & _ & _ & _ & P & _ & _ & SF).
  - cbn. lia.
  - split; [apply R|lia].
  - split; [apply R|lia].
  - destruct (P 30) as (i & E & S); [cbn; lia|]. change (30 <? Z.of_nat (length (upto 40))) with true. cbv iota. rewrite E. cbn [obind].
    rewrite (deque_erase_range_undefined 16 false ltac:(lia) m d (upto 40) 30 40 i (fin d) R); auto; [lia|cbn; lia|].
    unfold in_one, lin. rewrite Eb, Ef. cbn. intros [[H _]|H]; discriminate.
Qed.
(** C107 fails: a range of input iterators goes into the first half of the deque in the wrong order *)
Theorem deque_insert_input_refuted : exists m d i md, rep 16 true m d (upto 40) /\ stands 16 d 2 i /\ insert_input 16 m d i [100; 200; 300] = Some md /\
  map (fun k => index 16 (fst md) (snd md) k) [0; 1; 2; 3; 4; 5; 6] = [Some 0; Some 1; Some 300; Some 200; Some 100; Some 2; Some 3] /\
  firstn 7 (put_at 2 [100; 200; 300] (upto 40)) = [0; 1; 100; 200; 300; 2; 3].
Proof.
  destruct forty as (m & d & E & _ & R & Eb & Ef). 
  assert (V : exists md, insert_input 16 m d (2, 2) [100; 200; 300] = Some md /\
     map (fun k => index 16 (fst md) (snd md) k) [0; 1; 2; 3; 4; 5; 6] = [Some 0; Some 1; Some 300; Some 200; Some 100; Some 2; Some 3]).
  { assert (W : (match copy_init 16 empty_heap (upto 40) with Some (m, d) =>
       option_map (fun md => map (fun k => index 16 (fst md) (snd md) k) [0; 1; 2; 3; 4; 5; 6]) (insert_input 16 m d (2, 2) [100; 200; 300]) | None => None end)
       = Some [Some 0; Some 1; Some 300; Some 200; Some 100; Some 2; Some 3]) by (vm_compute; reflexivity).
    rewrite E in W. destruct (insert_input 16 m d (2, 2) [100; 200; 300]) as [md|]; [|discriminate]. exists md. split; [reflexivity|]. exact (f_equal (fun o => match o with Some l => l | None => [] end) W). }
  destruct V as (md & V1 & V2). exists m, d, (2, 2), md. split; [exact R|]. split; [split; [cbn; lia|unfold lin; rewrite Eb; reflexivity]|]. auto.
Qed.
(** the same range into the second half arrives in order, but the constructor from input iterators makes twice as many elements, the first
    half of them never constructed *)
Theorem deque_input_init_refuted : exists m d, input_init 16 empty_heap [5; 6; 7] = Some (m, d) /\ size 16 d = 6 /\
  map (fun k => index 16 m d k) [0; 1; 2; 3; 4; 5] = [None; None; None; Some 5; Some 6; Some 7].
Proof.
  assert (W : option_map (fun md => (size 16 (snd md), map (fun k => index 16 (fst md) (snd md) k) [0; 1; 2; 3; 4; 5])) (input_init 16 empty_heap [5; 6; 7])
    = Some (6, [None; None; None; Some 5; Some 6; Some 7])) by (vm_compute; reflexivity).
  destruct (input_init 16 empty_heap [5; 6; 7]) as [[m d]|]; [|discriminate]. exists m, d. split; [reflexivity|].
  split; [exact (f_equal (fun o => match o with Some l => fst l | None => 0 end) W)|exact (f_equal (fun o => match o with Some l => snd l | None => [] end) W)].
Qed.
(** C108 fails: the destructor leaves buffers behind *)
Theorem deque_destroy_refuted : exists m d m' a, rep 16 false m d (upto 40) /\ destroy 16 false m d = Some m' /\ holds d a /\ used m' a.
Proof.
  destruct forty as (m & d & _ & R & _ & Eb & Ef). destruct (destroy_frees 16 false ltac:(lia) m d _ R) as (m' & E & _ & _ & H & _).
  pose proof (node_some 16 false ltac:(lia) _ _ _ 4 R) as S. rewrite Eb, Ef in S. cbn [fst] in S. destruct (mp d 4) as [a|] eqn:Ea; [|exfalso; apply S; [lia|reflexivity]].
  exists m, d, m', a. repeat (split; [assumption|]). split; [now exists 4|]. apply (H _ _ Ea). rewrite Eb, Ef. cbn [fst]. lia.
Qed.
(** two deques with nothing in common *)
Lemma two_deques triv : exists m d x, rep 16 triv m d (upto 20) /\ rep 16 triv m x (upto 3) /\ apart d x.
Proof.
  destruct (copy_init_ok 16 triv ltac:(lia) empty_heap (upto 20) empty_heap_ok) as (m & d & _ & R & _ & L & _).
  pose proof (r_base _ _ _ _ _ R) as B.
  assert (Hm : heap m).
  { destruct (b_new _ _ B) as [N1 N2]. split; [exact N1|]. split; [|exact N2]. destruct (mblk m 0) eqn:E; [|reflexivity]. destruct (proj2 L 0 E) as [[H _]|H]; [discriminate|]. exfalso; apply (proj1 (b_map _ _ B)); congruence. }
  destruct (copy_init_ok 16 triv ltac:(lia) m (upto 3) Hm) as (m' & x & _ & Rx & O & _ & _).
  destruct (apart_keeps 16 triv m nobody m' x d (upto 20) R) as [R' A].
  - split; [intros H; apply (proj1 (b_map _ _ B)); symmetry; exact H|]. intros a [k Hk]. discriminate.
  - exact O.
  - apply Rx.
  - exists m', d, x. split; [exact R'|]. split; [exact Rx|]. destruct A as [A1 A2]. split; [congruence|]. intros a H1 H2. exact (A2 a H2 H1).
Qed.
(** C108 fails: after the move assignment the map block of *this is still allocated and belongs to neither deque, and rhs has three elements *)
Theorem deque_move_assign_refuted : exists m d x m' x' rest, rep 16 false m d (upto 20) /\ rep 16 false m x (upto 3) /\ apart d x /\
  move_assign 16 false m d x = Some (m', x', rest) /\ rep 16 false m' x' (upto 3) /\
  mblk m' (mid d) = true /\ mid d <> mid x' /\ mid d <> mid rest /\ size 16 rest = 3.
Proof.
  destruct (two_deques false) as (m & d & x & R & Rx & A). destruct (move_assign_ok 16 false ltac:(lia) m d _ x _ R Rx A) as (m' & rest & E & R' & (M1 & M2) & _ & Z1 & _ & Z2).
  exists m, d, x, m', x, rest. repeat (split; [assumption|]). split; [|exact Z1]. rewrite Z2. apply (r_base _ _ _ _ _ R).
Qed.
(** C108 fails: a deque that was moved to itself has lost its map, and one that was moved from cannot be used again *)
Theorem deque_move_self_refuted : exists m d m' d', rep 16 false m d (upto 40) /\ move_self 16 false m d = Some (m', d') /\ mid d' = 0 /\ mblk m' (mid d) = true.
Proof.
  destruct forty as (m & d & _ & R & _). destruct (move_self_ok 16 false ltac:(lia) m d _ R) as (m' & d' & E & H1 & H2 & _). exists m, d, m', d'. auto.
Qed.
Theorem deque_moved_from_refuted : exists m x, rep 16 false m x (upto 40) /\ forall v : Z, push_back 16 m (snd (move_init x)) v = None.
Proof. destruct forty as (m & x & _ & R & _). exists m, x. split; [exact R|]. intros v. reflexivity. Qed.

(** C107 fails: after 14 and 16 copies were inserted at the end of a deque with one element there is a spare buffer; the next insertion puts another one in its place *)
Theorem deque_insert_n_lost_refuted : exists m d xs m' d' a, rep 16 true m d xs /\ insert_n 16 m d (fin d) 1 9 = Some (m', d') /\ rep 16 true m' d' (xs ++ [9]) /\
  holds d a /\ used m' a /\ ~ holds d' a.
Proof.
  destruct (copy_init_ok 16 true ltac:(lia) empty_heap [0] empty_heap_ok) as (m0 & d0 & E0 & R0 & _).
  destruct (insert_n_ok 16 true ltac:(lia) m0 d0 [0] 1 (fin d0) 14 1 R0) as (m1 & d1 & E1 & R1 & _); try lia; try (split; vm_compute; discriminate). { apply (fin_stands 16 true _ _ _ R0). }
  destruct (insert_n_ok 16 true ltac:(lia) m1 d1 _ 15 (fin d1) 16 2 R1) as (m2 & d2 & E2 & R2 & _); try lia; try (split; vm_compute; discriminate). { apply (fin_stands 16 true _ _ _ R1). }
  set (xs := put_at 15 (repeat 2 (Z.to_nat 16)) (put_at 1 (repeat 1 (Z.to_nat 14)) [0])) in *.
  destruct (insert_n_ok 16 true ltac:(lia) m2 d2 xs 31 (fin d2) 1 9 R2) as (m3 & d3 & E3 & R3 & _); try lia; try (split; vm_compute; discriminate). { apply (fin_stands 16 true _ _ _ R2). }
  assert (W : (match copy_init 16 empty_heap [0] with Some (m0, d0) => match insert_n 16 m0 d0 (fin d0) 14 1 with Some (m1, d1) =>
      match insert_n 16 m1 d1 (fin d1) 16 2 with Some (m2, d2) => match insert_n 16 m2 d2 (fin d2) 1 9 with Some (m3, d3) =>
        Some (mp d2 5, match bufs m3 4 with Some _ => true | None => false end, msz d3, forallb (fun k => match mp d3 (Z.of_nat k) with Some a => negb (a =? 4) | None => true end) (seq 0 8))
      | None => None end | None => None end | None => None end | None => None end) = Some (Some 4, true, 8, true)) by (vm_compute; reflexivity).
  rewrite E0, E1, E2, E3 in W.
  assert (W1 := f_equal (fun o => match o with Some w => fst (fst (fst w)) | None => None end) W). assert (W2 := f_equal (fun o => match o with Some w => snd (fst (fst w)) | None => false end) W).
  assert (W3 := f_equal (fun o => match o with Some w => snd (fst w) | None => 0 end) W). assert (W4 := f_equal (fun o => match o with Some w => snd w | None => false end) W).
  cbn [fst snd] in W1, W2, W3, W4. exists m2, d2, xs, m3, d3, 4. split; [exact R2|]. split; [exact E3|]. split; [exact R3|]. split; [now exists 5|]. split.
  - unfold used. destruct (bufs m3 4); congruence.
  - intros [k Hk]. destruct (b_in _ _ (r_base _ _ _ _ _ R3) _ _ Hk) as [K _]. rewrite W3 in K. rewrite forallb_forall in W4.
    specialize (W4 (Z.to_nat k)). rewrite in_seq, Z2Nat.id, Hk in W4 by lia. discriminate W4. lia.
Qed.
