(** mylib/mystl/heap_algo.h and the sorting half of mylib/mystl/algo.h.

    [lt] stands for [operator<] of the element type, or for the function object of the overloads that take one
    (heap_algo.h:41-66, 112-151, 165-172, algo.h:2190-2204, 2470-2580): both overloads have the same text except where
    said below.  Positions are counted from the start of the storage, [b] is [first].  Every loop has a bound on its
    number of passes that the proofs show is never reached; reaching it gives [None].
    Distances are not bounded by the machine word (a range larger than the address space cannot exist);
    [is_heap]'s [int] counters (algo.h:1028-1029) are the exception and are modelled as unbounded too. *)
From Coq Require Import ZArith List Bool.
From Verif Require Import F64 ArrModel.
Import ListNotations.
Open Scope Z_scope.

Section Sort.
Context {A : Type} (lt : A -> A -> bool).

(** heap_algo.h:15-27 [push_heap_aux]; [(hole - 1) / 2] is C++ division, toward zero *)
Fixpoint push_heap_aux (fuel : nat) (a : list A) (b hole top : Z) (v : A) : option (list A) :=
  match fuel with
  | O => None
  | S fuel =>
    let parent := Z.quot (hole - 1) 2 in
    if top <? hole then
      let* p := rd a (b + parent) in
      if lt p v then
        let* a := wr a (b + hole) p in
        push_heap_aux fuel a b parent top v
      else wr a (b + hole) v
    else wr a (b + hole) v
  end.
(** heap_algo.h:29-39 [push_heap] *)
Definition push_heap (a : list A) (b last : Z) : option (list A) :=
  let* v := rd a (last - 1) in
  push_heap_aux (S (Z.to_nat (last - b))) a b (last - b - 1) 0 v.

(** heap_algo.h:79-86, the downward loop of [adjust_heap]: the array, holeIndex and rchild after it *)
Fixpoint sift (fuel : nat) (a : list A) (b hole rchild len : Z) : option (list A * Z * Z) :=
  match fuel with
  | O => None
  | S fuel =>
    if rchild <? len then
      let* x := rd a (b + rchild) in
      let* y := rd a (b + rchild - 1) in
      let rchild := if lt x y then rchild - 1 else rchild in
      let* z := rd a (b + rchild) in
      let* a := wr a (b + hole) z in
      sift fuel a b rchild (2 * (rchild + 1)) len
    else Some (a, hole, rchild)
  end.
(** heap_algo.h:73-94 [adjust_heap] *)
Definition adjust_heap (a : list A) (b hole len : Z) (v : A) : option (list A) :=
  let* (a, h, rchild) := sift (S (Z.to_nat len)) a b hole (2 * hole + 2) len in
  if rchild =? len then
    let* z := rd a (b + (rchild - 1)) in
    let* a := wr a (b + h) z in
    push_heap_aux (S (Z.to_nat len)) a b (rchild - 1) hole v
  else push_heap_aux (S (Z.to_nat len)) a b h hole v.

(** heap_algo.h:96-103 [pop_heap_aux] *)
Definition pop_heap_aux (a : list A) (b last result : Z) (v : A) : option (list A) :=
  let* x := rd a b in
  let* a := wr a result x in
  adjust_heap a b 0 (last - b) v.
(** heap_algo.h:105-109 [pop_heap] *)
Definition pop_heap (a : list A) (b last : Z) : option (list A) :=
  let* v := rd a (last - 1) in pop_heap_aux a b (last - 1) (last - 1) v.

(** heap_algo.h:154-162 [sort_heap] *)
Fixpoint sort_heap_loop (fuel : nat) (a : list A) (b last : Z) : option (list A) :=
  match fuel with
  | O => None
  | S fuel => if 1 <? last - b then let* a := pop_heap a b last in sort_heap_loop fuel a b (last - 1) else Some a
  end.
Definition sort_heap (a : list A) (b last : Z) : option (list A) := sort_heap_loop (S (Z.to_nat (last - b))) a b last.

(** heap_algo.h:178-199 [make_heap]; the overload with a function object is 202-229 *)
Fixpoint make_heap_loop (fuel : nat) (a : list A) (b hole len : Z) : option (list A) :=
  match fuel with
  | O => None
  | S fuel =>
    let* v := rd a (b + hole) in
    let* a := adjust_heap a b hole len v in
    if hole =? 0 then Some a else make_heap_loop fuel a b (hole - 1) len
  end.
Definition make_heap (a : list A) (b last : Z) : option (list A) :=
  if last - b <? 2 then Some a
  else make_heap_loop (S (Z.to_nat (last - b))) a b (Z.quot (last - b - 2) 2) (last - b).

(** algo.h:1024-1037 [is_heap] *)
Fixpoint is_heap_loop (fuel : nat) (a : list A) (b parent child n : Z) : option bool :=
  match fuel with
  | O => None
  | S fuel =>
    if child <? n then
      let* p := rd a (b + parent) in
      let* c := rd a (b + child) in
      if lt p c then Some false
      else is_heap_loop fuel a b (if Z.land child 1 =? 0 then parent + 1 else parent) (child + 1) n
    else Some true
  end.
Definition is_heap (a : list A) (b last : Z) : option bool := is_heap_loop (S (Z.to_nat (last - b))) a b 0 1 (last - b).

(** algo.h:1059-1072 [is_sorted] *)
Fixpoint is_sorted_loop (fuel : nat) (a : list A) (first next last : Z) : option bool :=
  match fuel with
  | O => None
  | S fuel =>
    if next =? last then Some true
    else
      let* x := rd a next in
      let* y := rd a first in
      if lt x y then Some false else is_sorted_loop fuel a next (next + 1) last
  end.
Definition is_sorted (a : list A) (b last : Z) : option bool :=
  if b =? last then Some true else is_sorted_loop (S (Z.to_nat (last - b))) a b (b + 1) last.

(** algo.h:2174-2187 [partial_sort] *)
Fixpoint partial_loop (fuel : nat) (a : list A) (b middle i last : Z) : option (list A) :=
  match fuel with
  | O => None
  | S fuel =>
    if i <? last then
      let* x := rd a i in
      let* y := rd a b in
      if lt x y then
        let* a := pop_heap_aux a b middle i x in
        partial_loop fuel a b middle (i + 1) last
      else partial_loop fuel a b middle (i + 1) last
    else Some a
  end.
Definition partial_sort (a : list A) (b middle last : Z) : option (list A) :=
  let* a := make_heap a b middle in
  let* a := partial_loop (S (Z.to_nat (last - middle))) a b middle middle last in
  sort_heap a b middle.

(** algo.h:2349-2356 [slg2] *)
Fixpoint slg2_loop (fuel : nat) (n k : Z) : option Z :=
  match fuel with
  | O => None
  | S fuel => if 1 <? n then slg2_loop fuel (Z.shiftr n 1) (k + 1) else Some k
  end.
Definition slg2 (n : Z) : option Z := slg2_loop (S (Z.to_nat n)) n 0.

(** a [const T&] argument: a temporary or local variable of the caller, or a cell of the range itself *)
Inductive cref := Val (v : A) | Cell (i : Z).
Definition deref (a : list A) (r : cref) : option A := match r with Val v => Some v | Cell i => rd a i end.

(** algo.h:2360-2375 [unchecked_partition]; [r] is the pivot, passed by reference *)
Fixpoint scan_up (fuel : nat) (a : list A) (i : Z) (r : cref) : option Z :=
  match fuel with
  | O => None
  | S fuel => let* x := rd a i in let* p := deref a r in if lt x p then scan_up fuel a (i + 1) r else Some i
  end.
Fixpoint scan_down (fuel : nat) (a : list A) (i : Z) (r : cref) : option Z :=
  match fuel with
  | O => None
  | S fuel => let* x := rd a i in let* p := deref a r in if lt p x then scan_down fuel a (i - 1) r else Some i
  end.
Fixpoint partition_loop (fuel : nat) (a : list A) (first last : Z) (r : cref) : option (list A * Z) :=
  match fuel with
  | O => None
  | S fuel =>
    let* first := scan_up (S (length a)) a first r in
    let* last := scan_down (S (length a)) a (last - 1) r in
    if first <? last then
      let* a := iter_swap a first last in
      partition_loop fuel a (first + 1) last r
    else Some (a, first)
  end.
Definition unchecked_partition (a : list A) (first last : Z) (r : cref) : option (list A * Z) :=
  partition_loop (S (length a)) a first last r.

(** algo.h:1094-1110 [median], which returns a reference to one of its arguments; positions of the arguments in the range.
    [lt0] is [operator<]: algo.h:2502 and 2614-2616 call this overload also from the versions with a function object *)
Definition median (lt0 : A -> A -> bool) (a : list A) (l m r : Z) : option Z :=
  let* x := rd a l in let* y := rd a m in let* z := rd a r in
  Some (if lt0 x y then (if lt0 y z then m else if lt0 x z then r else l)
        else if lt0 x z then l else if lt0 y z then r else m).

(** algo.h:2346 [kSmallSectionSize] *)
Definition kSmallSectionSize : Z := 128.

(** algo.h:2378-2394 [intro_sort]: [auto mid] copies the median.  Both the recursive call and the next pass of the loop
    have the smaller depth_limit, which is the bound on the recursion *)
Fixpoint intro_sort (lt0 : A -> A -> bool) (depth : nat) (a : list A) (first last : Z) : option (list A) :=
  if kSmallSectionSize <? last - first then
    match depth with
    | O => partial_sort a first last last
    | S depth =>
      let* k := median lt0 a first (first + Z.quot (last - first) 2) (last - 1) in
      let* mid := rd a k in
      let* (a, cut) := unchecked_partition a first last (Val mid) in
      let* a := intro_sort lt0 depth a cut last in
      intro_sort lt0 depth a first cut
    end
  else Some a.

(** algo.h:2397-2409 [unchecked_linear_insert]; [r] is the value, passed by reference *)
Fixpoint unchecked_linear_insert (fuel : nat) (a : list A) (last : Z) (r : cref) : option (list A) :=
  match fuel with
  | O => None
  | S fuel =>
    let* v := deref a r in
    let* n := rd a (last - 1) in
    if lt v n then
      let* a := wr a last n in
      unchecked_linear_insert fuel a (last - 1) r
    else wr a last v
  end.

(** algo.h:2412-2419 [unchecked_insertion_sort]: the value passed to unchecked_linear_insert is the cell [*i] itself *)
Fixpoint unchecked_insertion_loop (fuel : nat) (a : list A) (i last : Z) : option (list A) :=
  match fuel with
  | O => None
  | S fuel =>
    if i =? last then Some a
    else
      let* a := unchecked_linear_insert (S (length a)) a i (Cell i) in
      unchecked_insertion_loop fuel a (i + 1) last
  end.
Definition unchecked_insertion_sort (a : list A) (first last : Z) : option (list A) :=
  unchecked_insertion_loop (S (length a)) a first last.

(** algobase.h:140-149 [copy_backward] for random access iterators (for plain pointers to trivially copyable elements it is
    one memmove with the same result) *)
Fixpoint copy_backward (n : nat) (a : list A) (last result : Z) : option (list A) :=
  match n with
  | O => Some a
  | S n =>
    let* x := rd a (last - 1) in
    let* a := wr a (result - 1) x in
    copy_backward n a (last - 1) (result - 1)
  end.

(** algo.h:2422-2440 [insertion_sort]: [auto value = *i] is a copy *)
Fixpoint insertion_loop (fuel : nat) (a : list A) (first i last : Z) : option (list A) :=
  match fuel with
  | O => None
  | S fuel =>
    if i =? last then Some a
    else
      let* v := rd a i in
      let* f := rd a first in
      let* a :=
        (if lt v f then
           let* a := copy_backward (Z.to_nat (i - first)) a i (i + 1) in
           wr a first v
         else unchecked_linear_insert (S (length a)) a i (Val v)) in
      insertion_loop fuel a first (i + 1) last
  end.
Definition insertion_sort (a : list A) (first last : Z) : option (list A) :=
  if first =? last then Some a else insertion_loop (S (length a)) a first (first + 1) last.

(** algo.h:2443-2455 [final_insertion_sort] *)
Definition final_insertion_sort (a : list A) (first last : Z) : option (list A) :=
  if kSmallSectionSize <? last - first then
    let* a := insertion_sort a first (first + kSmallSectionSize) in
    unchecked_insertion_sort a (first + kSmallSectionSize) last
  else insertion_sort a first last.

(** algo.h:2457-2466 [sort]; with a function object 2569-2578, where [lt0] is still [operator<] *)
Definition sort (lt0 : A -> A -> bool) (a : list A) (first last : Z) : option (list A) :=
  if first =? last then Some a
  else
    let* k := slg2 (last - first) in
    let* a := intro_sort lt0 (Z.to_nat (k * 2)) a first last in
    final_insertion_sort a first last.

(** algo.h:2586-2603 [nth_element] (with a function object 2606-2624): the pivot is the reference that median returns,
    a cell of the range.  [fuel] bounds the passes of the loop *)
Fixpoint nth_loop (lt0 : A -> A -> bool) (fuel : nat) (a : list A) (first nth last : Z) : option (list A) :=
  match fuel with
  | O => None
  | S fuel =>
    if 3 <? last - first then
      let* k := median lt0 a first (first + Z.quot (last - first) 2) (last - 1) in
      let* (a, cut) := unchecked_partition a first last (Cell k) in
      if cut <=? nth then nth_loop lt0 fuel a cut nth last else nth_loop lt0 fuel a first nth cut
    else insertion_sort a first last
  end.
Definition nth_element (lt0 : A -> A -> bool) (fuel : nat) (a : list A) (first nth last : Z) : option (list A) :=
  if nth =? last then Some a else nth_loop lt0 fuel a first nth last.
End Sort.
