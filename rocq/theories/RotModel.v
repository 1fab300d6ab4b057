(** swap_ranges, reverse, rotate and random_shuffle of mylib/mystl/algo.h *)
From Coq Require Import ZArith List Bool.
From Verif Require Import F64 ArrModel.
Import ListNotations.
Open Scope Z_scope.

Section Rot.
Context {A : Type}.

(** algo.h:1202-1212 [swap_ranges] inside one array; the second range starts at first2; the value is the returned iterator *)
Fixpoint swap_ranges (fuel : nat) (a : list A) (first1 last1 first2 : Z) : option (list A * Z) :=
  match fuel with
  | O => None
  | S fuel =>
    if first1 =? last1 then Some (a, first2)
    else let* a := iter_swap a first1 first2 in swap_ranges fuel a (first1 + 1) last1 (first2 + 1)
  end.

(** algo.h:1373-1383 [reverse_dispatch], bidirectional version *)
Fixpoint reverse_bid (fuel : nat) (a : list A) (first last : Z) : option (list A) :=
  match fuel with
  | O => None
  | S fuel =>
    if first =? last then Some a
    else if first =? last - 1 then Some a
    else let* a := iter_swap a first (last - 1) in reverse_bid fuel a (first + 1) (last - 1)
  end.
(** algo.h:1386-1392 [reverse_dispatch], random access version *)
Fixpoint reverse_ran (fuel : nat) (a : list A) (first last : Z) : option (list A) :=
  match fuel with
  | O => None
  | S fuel =>
    if first <? last then let* a := iter_swap a first (last - 1) in reverse_ran fuel a (first + 1) (last - 1)
    else Some a
  end.
(** algo.h:1394-1398 [reverse]; [ran]: the iterator is random access *)
Definition reverse (ran : bool) (a : list A) (first last : Z) : option (list A) :=
  if ran then reverse_ran (S (Z.to_nat (last - first))) a first last
  else reverse_bid (S (Z.to_nat (last - first))) a first last.

(** algo.h:1460-1467: first loop of the forward version of [rotate_dispatch] (do ... while) *)
Fixpoint rotate_fwd1 (fuel : nat) (a : list A) (first middle first2 last : Z) : option (list A * Z * Z) :=
  match fuel with
  | O => None
  | S fuel =>
    let* a := iter_swap a first first2 in
    let first := first + 1 in
    let first2 := first2 + 1 in
    let middle := if first =? middle then first2 else middle in
    if first2 =? last then Some (a, first, middle) else rotate_fwd1 fuel a first middle first2 last
  end.
(** algo.h:1470-1482: second loop *)
Fixpoint rotate_fwd2 (fuel : nat) (a : list A) (first middle first2 last : Z) : option (list A) :=
  match fuel with
  | O => None
  | S fuel =>
    if first2 =? last then Some a
    else
      let* a := iter_swap a first first2 in
      let first := first + 1 in
      let first2 := first2 + 1 in
      if first =? middle then rotate_fwd2 fuel a first first2 first2 last
      else if first2 =? last then rotate_fwd2 fuel a first middle middle last
      else rotate_fwd2 fuel a first middle first2 last
  end.
(** algo.h:1454-1484 [rotate_dispatch], forward version *)
Definition rotate_forward (a : list A) (first middle last : Z) : option (list A * Z) :=
  let* r := rotate_fwd1 (S (Z.to_nat (last - middle))) a first middle middle last in
  let '(a, new_middle, middle) := r in
  let* a := rotate_fwd2 (S (Z.to_nat (last - first))) a new_middle middle middle last in
  Some (a, new_middle).

(** algo.h:1494-1495: the exchange loop of the bidirectional version *)
Fixpoint rotate_bid_loop (fuel : nat) (a : list A) (first middle last : Z) : option (list A * Z * Z) :=
  match fuel with
  | O => None
  | S fuel =>
    if negb (first =? middle) && negb (middle =? last) then
      let* a := iter_swap a first (last - 1) in rotate_bid_loop fuel a (first + 1) middle (last - 1)
    else Some (a, first, last)
  end.
(** algo.h:1487-1506 [rotate_dispatch], bidirectional version *)
Definition rotate_bid (a : list A) (first middle last : Z) : option (list A * Z) :=
  let* a := reverse false a first middle in
  let* a := reverse false a middle last in
  let* r := rotate_bid_loop (S (Z.to_nat (last - first))) a first middle last in
  let '(a, first, last) := r in
  if first =? middle then let* a := reverse false a middle last in Some (a, last)
  else let* a := reverse false a first middle in Some (a, first).

(** algo.h:1509-1519 [rgcd] *)
Fixpoint rgcd (fuel : nat) (m n : Z) : option Z :=
  match fuel with
  | O => None
  | S fuel => if n =? 0 then Some m else rgcd fuel n (Z.rem m n)
  end.
(** algo.h:1543-1553: the loop on j when l < r; [a] the array, [p] the position *)
Fixpoint cycle_lt (k : nat) (a : list A) (first p l r : Z) : option (list A * Z) :=
  match k with
  | O => Some (a, p)
  | S k =>
    let* ap := (if first + r <? p then let* x := rd a (p - r) in let* a := wr a p x in Some (a, p - r) else Some (a, p)) in
    let '(a, p) := ap in
    let* x := rd a (p + l) in let* a := wr a p x in
    cycle_lt k a first (p + l) l r
  end.
(** algo.h:1555-1565: the loop on j when r < l *)
Fixpoint cycle_gt (k : nat) (a : list A) (last p l r : Z) : option (list A * Z) :=
  match k with
  | O => Some (a, p)
  | S k =>
    let* ap := (if p <? last - l then let* x := rd a (p + l) in let* a := wr a p x in Some (a, p + l) else Some (a, p)) in
    let '(a, p) := ap in
    let* x := rd a (p - r) in let* a := wr a p x in
    cycle_gt k a last (p - r) l r
  end.
(** algo.h:1537-1569: the loop on i, run k times *)
Fixpoint cycles (k : nat) (g : Z) (a : list A) (first last l r : Z) : option (list A) :=
  match k with
  | O => Some a
  | S k =>
    let* tmp := rd a first in
    let* ap := (if l <? r then cycle_lt (Z.to_nat (Z.quot r g)) a first first l r
                else cycle_gt (Z.to_nat (Z.quot l g - 1)) a last first l r) in
    let '(a, p) := ap in
    let* a := wr a p tmp in
    cycles k g a (first + 1) last l r
  end.
(** algo.h:1522-1572 [rotate_dispatch], random access version *)
Definition rotate_ran (a : list A) (first middle last : Z) : option (list A * Z) :=
  let n := last - first in
  let l := middle - first in
  let r := n - l in
  let result := first + (last - middle) in
  if l =? r then
    let* b := swap_ranges (S (Z.to_nat l)) a first middle middle in Some (fst b, result)
  else
    let* cycle_times := rgcd (S (S (Z.to_nat l))) n l in
    let* a := cycles (Z.to_nat cycle_times) cycle_times a first last l r in
    Some (a, result).

Inductive iter_kind := Forward | Bidirectional | Random.
(** algo.h:1574-1583 [rotate] *)
Definition rotate (k : iter_kind) (a : list A) (first middle last : Z) : option (list A * Z) :=
  if first =? middle then Some (a, last)
  else if middle =? last then Some (a, first)
  else match k with
       | Forward => rotate_forward a first middle last
       | Bidirectional => rotate_bid a first middle last
       | Random => rotate_ran a first middle last
       end.

(** algo.h:1590-1596 [rotate_copy] and 1405-1417 [reverse_copy]: the values written to an output that does not overlap *)
Definition rotate_copy (x y : list A) : list A := y ++ x.
Fixpoint reverse_copy (l : list A) : list A := match l with [] => [] | x :: r => reverse_copy r ++ [x] end.

(** algo.h:1424-1434 [random_shuffle]: [rand] lists the values of rand(), in the order of the calls (a call beyond the
    list is not modelled: [None]); [srand] has no effect on the model *)
Fixpoint shuffle_loop (a : list A) (first i last : Z) (fuel : nat) (rand : list Z) : option (list A) :=
  match fuel with
  | O => None
  | S fuel =>
    if i =? last then Some a
    else match rand with
         | [] => None
         | v :: rand => let* a := iter_swap a i (first + Z.rem v (i - first + 1)) in shuffle_loop a first (i + 1) last fuel rand
         end
  end.
Definition random_shuffle (a : list A) (first last : Z) (rand : list Z) : option (list A) :=
  if first =? last then Some a else shuffle_loop a first (first + 1) last (S (Z.to_nat (last - first))) rand.
(** algo.h:1437-1448 [random_shuffle] with a generator: [rand k] is called with k = i - first + 1; the state of the
    generator is a list of functions, one for each call *)
Fixpoint shuffle_gen_loop (a : list A) (first i last n : Z) (fuel : nat) (rand : list (Z -> Z)) : option (list A) :=
  match fuel with
  | O => None
  | S fuel =>
    if i =? last then Some a
    else match rand with
         | [] => None
         | v :: rand => let* a := iter_swap a i (first + Z.rem (v (i - first + 1)) n) in shuffle_gen_loop a first (i + 1) last n fuel rand
         end
  end.
Definition random_shuffle_gen (a : list A) (first last : Z) (rand : list (Z -> Z)) : option (list A) :=
  if first =? last then Some a else shuffle_gen_loop a first (first + 1) last (last - first) (S (Z.to_nat (last - first))) rand.
End Rot.
