(** mylib/mystl/algo.h:2206-2285, [partial_sort_copy]: the smallest elements of a range in another place, in order.
    The input [first,last) lies in the storage [c], the output [rf,rl) in the storage [a], apart from it.
    [lt x y] is [x < y] (2209-2246) or [comp(x, y)] (2248-2285, the same text).
    The function ends with [None] if it reads or writes outside the storage. *)
From Coq Require Import ZArith List Bool.
From Verif Require Import F64 ArrModel SortModel.
Import ListNotations.
Open Scope Z_scope.

Section Psc.
Context {A : Type} (lt : A -> A -> bool).

(** algo.h:2218-2223, 2257-2262: the first loop; the result storage, [first] and [result_iter] after it *)
Fixpoint psc_fill (fuel : nat) (c : list A) (first last : Z) (a : list A) (ri rl : Z) : option (list A * Z * Z) :=
  match fuel with
  | O => None
  | S fuel =>
    if negb (first =? last) && negb (ri =? rl) then
      let* x := rd c first in
      let* a := wr a ri x in
      psc_fill fuel c (first + 1) last a (ri + 1) rl
    else Some (a, first, ri)
  end.

(** algo.h:2225-2233, 2264-2272: the second loop *)
Fixpoint psc_rest (fuel : nat) (c : list A) (first last : Z) (a : list A) (rf ri : Z) : option (list A) :=
  match fuel with
  | O => None
  | S fuel =>
    if first =? last then Some a
    else
      let* x := rd c first in
      let* y := rd a rf in
      if lt x y then
        let* a := adjust_heap lt a rf 0 (ri - rf) x in
        psc_rest fuel c (first + 1) last a rf ri
      else psc_rest fuel c (first + 1) last a rf ri
  end.

(** algo.h:2209-2236 [psort_copy_aux], 2238-2246 [partial_sort_copy]; with a function object 2249-2275, 2277-2285.
    The result storage afterwards and the iterator that is returned *)
Definition partial_sort_copy (c : list A) (first last : Z) (a : list A) (rf rl : Z) : option (list A * Z) :=
  if rf =? rl then Some (a, rl)
  else
    let* t := psc_fill (S (Z.to_nat (last - first))) c first last a rf rl in
    let '(a, first, ri) := t in
    let* a := make_heap lt a rf ri in
    let* a := psc_rest (S (Z.to_nat (last - first))) c first last a rf ri in
    let* a := sort_heap lt a rf ri in
    Some (a, ri).
End Psc.
