(** mylib/mystl/algo.h: the algorithms that write their result to another place, and for_each and generate.
    The input and the output lie in one storage [a] and may overlap; so the input may also be the output ([result] = [first]).
    [partition_copy] writes to two places; there the input and the outputs lie in three storages.
    A function object is a function on its state: it is passed by value, so that the caller's object does not change.
    The value with which [replace_copy] and [remove_copy] compare, and the new value, are not in the output range. *)
From Coq Require Import ZArith List Bool.
From Verif Require Import F64 ArrModel.
Import ListNotations.
Open Scope Z_scope.

Section Cp.
Context {A : Type}.
Implicit Types (a c : list A) (pred : A -> bool) (eqb : A -> A -> bool).

(** algo.h:1219-1229 [transform] with one range *)
Fixpoint transform1 (fuel : nat) (f : A -> A) a (first last result : Z) : option (list A * Z) :=
  match fuel with O => None | S fuel =>
    if first =? last then Some (a, result)
    else
      let* x := rd a first in
      let* a := wr a result (f x) in
      transform1 fuel f a (first + 1) last (result + 1)
  end.

(** algo.h:1231-1241 [transform] with two ranges *)
Fixpoint transform2 (fuel : nat) (f : A -> A -> A) a (first1 last1 first2 result : Z) : option (list A * Z) :=
  match fuel with O => None | S fuel =>
    if first1 =? last1 then Some (a, result)
    else
      let* x := rd a first1 in
      let* y := rd a first2 in
      let* a := wr a result (f x y) in
      transform2 fuel f a (first1 + 1) last1 (first2 + 1) (result + 1)
  end.

(** algo.h:1342-1352 [replace_copy_if]; with [pred x = (x == old_value)] 1326-1336 [replace_copy] *)
Fixpoint replace_copy_if (fuel : nat) pred (new_value : A) a (first last result : Z) : option (list A * Z) :=
  match fuel with O => None | S fuel =>
    if first =? last then Some (a, result)
    else
      let* x := rd a first in
      let* a := wr a result (if pred x then new_value else x) in
      replace_copy_if fuel pred new_value a (first + 1) last (result + 1)
  end.

(** algo.h:1404-1417 [reverse_copy] *)
Fixpoint reverse_copy (fuel : nat) a (first last result : Z) : option (list A * Z) :=
  match fuel with O => None | S fuel =>
    if first =? last then Some (a, result)
    else
      let last := last - 1 in
      let* x := rd a last in
      let* a := wr a result x in
      reverse_copy fuel a first last (result + 1)
  end.

(** algo.h:2644-2660 [unique_copy_dispatch] for output iterators (2692-2708 with a function object): the loop; [value] is the
    copy kept beside the output; [eqb x y] is [!(x != y)] or [comp(x, y)] *)
Fixpoint unique_out (fuel : nat) eqb (value : A) a (first last result : Z) : option (list A * Z) :=
  match fuel with O => None | S fuel =>
    let first := first + 1 in
    if first =? last then Some (a, result + 1)
    else
      let* y := rd a first in
      if negb (eqb value y) then let* a := wr a (result + 1) y in unique_out fuel eqb y a first last (result + 1)
      else unique_out fuel eqb value a first last result
  end.
(** algo.h:2662-2668 [unique_copy], 2710-2716, for output iterators *)
Definition unique_copy_out eqb a (first last result : Z) : option (list A * Z) :=
  if first =? last then Some (a, result)
  else
    let* x := rd a first in
    let* a := wr a result x in
    unique_out (S (Z.to_nat (last - first))) eqb x a first last result.

(** algo.h:2322-2341 [partition_copy]: the two storages and the two returned iterators *)
Fixpoint partition_copy (fuel : nat) pred c (first last : Z) a (rt : Z) b (rf : Z) : option (list A * Z * (list A * Z)) :=
  match fuel with O => None | S fuel =>
    if first =? last then Some (a, rt, (b, rf))
    else
      let* x := rd c first in
      if pred x then let* a := wr a rt x in partition_copy fuel pred c (first + 1) last a (rt + 1) b rf
      else let* b := wr b rf x in partition_copy fuel pred c (first + 1) last a rt b (rf + 1)
  end.

(** algo.h:477-485 [for_each] with a function object that does not change the elements: the state of the returned object *)
Fixpoint for_each {St} (fuel : nat) (f : St -> A -> St) (st : St) a (first last : Z) : option St :=
  match fuel with O => None | S fuel =>
    if first =? last then Some st
    else let* x := rd a first in for_each fuel f (f st x) a (first + 1) last
  end.

(** algo.h:949-956 [generate]; [gen st]: the value and the state after the call *)
Fixpoint generate {St} (fuel : nat) (gen : St -> A * St) (st : St) a (first last : Z) : option (list A) :=
  match fuel with O => None | S fuel =>
    if first =? last then Some a
    else
      let '(x, st) := gen st in
      let* a := wr a first x in
      generate fuel gen st a (first + 1) last
  end.

(** algo.h:962-969 [generate_n]; Size is a signed type *)
Fixpoint generate_n {St} (fuel : nat) (gen : St -> A * St) (st : St) a (first n : Z) : option (list A) :=
  match fuel with O => None | S fuel =>
    if 0 <? n then
      let '(x, st) := gen st in
      let* a := wr a first x in
      generate_n fuel gen st a (first + 1) (n - 1)
    else Some a
  end.
End Cp.
