(** What it means for a memory to hold a deque with a given sequence of values, and what is to happen to the blocks. *)
From Coq Require Import ZArith List Bool.
From Verif Require Import DeqModel.
Import ListNotations.
Open Scope Z_scope.

Section Spec.
Context {T : Type} (bs : Z) (triv : bool).
Notation mem := (@memory T).
Implicit Types (m : mem) (d x : deque) (xs : list T).

(** the slots of all buffers of a map in one row: the number of the slot of an iterator, and what is in the slot number k *)
Definition lin (i : Z * Z) : Z := fst i * bs + snd i.
Definition slot m d (k : Z) : option T :=
  match mp d (k / bs) with Some a => match bufs m a with Some f => f (k mod bs) | None => None end | None => None end.
(** there is a buffer for this slot *)
Definition has d (k : Z) : Prop := mp d (k / bs) <> None.
(** blocks: in use, and held by the deque *)
Definition used m (a : Z) : Prop := bufs m a <> None.
Definition holds d (a : Z) : Prop := exists k, mp d k = Some a.

(** the block of the map is allocated, its pointers are null or different buffers in use, and the allocator gives new blocks only *)
Record base m d : Prop := mkBase {
  b_map : mid d <> 0 /\ mblk m (mid d) = true;
  b_in : forall k a, mp d k = Some a -> 0 <= k < msz d /\ used m a;
  b_inj : forall k j a, mp d k = Some a -> mp d j = Some a -> k = j;
  b_new : 0 < nxt m /\ forall a, used m a \/ mblk m a = true -> a < nxt m
}.
(** the deque d holds the values xs, in this order, from the slot of begin_ to the one before end_; there is a buffer for every slot from
    begin_ to end_; when the elements have a destructor, no other slot holds an object *)
Record rep m d xs : Prop := mkRep {
  r_base : base m d;
  r_beg : 0 <= snd (beg d) < bs;
  r_fin : 0 <= snd (fin d) < bs;
  r_len : lin (fin d) = lin (beg d) + Z.of_nat (length xs);
  r_node : forall k, lin (beg d) <= k <= lin (fin d) -> has d k;
  r_val : forall k, 0 <= k < Z.of_nat (length xs) -> slot m d (lin (beg d) + k) = nth_error xs (Z.to_nat k);
  r_raw : triv = false -> forall k, k < lin (beg d) \/ lin (fin d) <= k -> slot m d k = None
}.
(** the iterator i stands at the position p of d: before the value number p, or at the end *)
Definition stands d (p : Z) (i : Z * Z) : Prop := 0 <= snd i < bs /\ lin i = lin (beg d) + p.

(** what does not belong to d is left as it is, and does not belong to it afterwards *)
Record others m d m' d' : Prop := mkOthers {
  o_buf : forall a, used m a -> ~ holds d a -> bufs m' a = bufs m a /\ ~ holds d' a;
  o_map : forall a, mblk m a = true -> a <> mid d -> mblk m' a = true /\ a <> mid d';
  o_nxt : nxt m <= nxt m'
}.
(** every block in use afterwards was in use before and did not belong to d, or belongs to d now: nothing is lost *)
Definition nothing_lost m d m' d' : Prop :=
  (forall a, used m' a -> (used m a /\ ~ holds d a) \/ holds d' a) /\
  (forall a, mblk m' a = true -> (mblk m a = true /\ a <> mid d) \/ a = mid d').
(** buffers only from the first to the last one that are needed *)
Definition tight d : Prop := forall k, mp d k <> None -> fst (beg d) <= k <= fst (fin d).
(** two deques share no block *)
Definition apart d x : Prop := mid d <> mid x /\ forall a, holds d a -> holds x a -> False.

(** ** sequences *)
Definition put_at (p : Z) (ys xs : list T) : list T := firstn (Z.to_nat p) xs ++ ys ++ skipn (Z.to_nat p) xs.
Definition cut (p q : Z) (xs : list T) : list T := firstn (Z.to_nat p) xs ++ skipn (Z.to_nat q) xs.
Definition sized (n : Z) (v : T) (xs : list T) : list T := firstn (Z.to_nat n) xs ++ repeat v (Z.to_nat n - length xs).
(** the values number p to q - 1 of a deque of n values can be erased without destroying objects of two buffers at a time: all are erased, or
    the slots that become free at the end nearer to them are in one buffer with the new end *)
Definition in_one d (n p q : Z) : Prop :=
  (p = 0 /\ q = n) \/
  (if p <? (n - (q - p)) / 2 then lin (beg d) / bs = (lin (beg d) + (q - p)) / bs else (lin (fin d) - (q - p)) / bs = lin (fin d) / bs).
(** the object after its values are moved out of it *)
Definition nobody : deque := mkDeq 0 (fun _ => None) 0 (0, 0) (0, 0).
(** a heap: address 0 is no block, and the allocator gives new blocks only *)
Definition heap m : Prop := 0 < nxt m /\ mblk m 0 = false /\ forall a, used m a \/ mblk m a = true -> a < nxt m.
End Spec.
