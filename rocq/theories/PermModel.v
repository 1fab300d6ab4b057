(** next_permutation, prev_permutation and lexicographical_compare of mylib/mystl *)
From Coq Require Import ZArith List Bool.
From Verif Require Import F64 ArrModel RotModel.
Import ListNotations.
Open Scope Z_scope.

Section Perm.
Context {A : Type} (lt : A -> A -> bool).

(** algobase.h:446-459 [lexicographical_compare], with a function object 462-475 *)
Fixpoint lexicographical_compare (l1 l2 : list A) : bool :=
  match l1, l2 with
  | x :: r1, y :: r2 => if lt x y then true else if lt y x then false else lexicographical_compare r1 r2
  | [], _ :: _ => true
  | _, _ => false
  end.

(** algo.h:1712-1713 [while (!( *i < *--j)) {}]: j is decremented before each test *)
Fixpoint next_scan (fuel : nat) (a : list A) (i j : Z) : option Z :=
  match fuel with
  | O => None
  | S fuel => let* x := rd a i in let* y := rd a (j - 1) in if lt x y then Some (j - 1) else next_scan fuel a i (j - 1)
  end.
(** algo.h:1706-1723: the loop; [i] on entry is the value before [auto ii = i]; [ran]: the kind of iterator, for [reverse] *)
Fixpoint next_loop (fuel : nat) (ran : bool) (a : list A) (first last i : Z) : option (list A * bool) :=
  match fuel with
  | O => None
  | S fuel =>
    let ii := i in
    let i := i - 1 in
    let* x := rd a i in let* y := rd a ii in
    if lt x y then
      let* j := next_scan (S (Z.to_nat (last - i))) a i last in
      let* a := iter_swap a i j in
      let* a := reverse ran a ii last in
      Some (a, true)
    else if i =? first then let* a := reverse ran a first last in Some (a, false)
    else next_loop fuel ran a first last i
  end.
(** algo.h:1700-1724 [next_permutation], with a function object 1727-1751 *)
Definition next_permutation (ran : bool) (a : list A) (first last : Z) : option (list A * bool) :=
  if first =? last then Some (a, false)
  else if first =? last - 1 then Some (a, false)
  else next_loop (S (Z.to_nat (last - first))) ran a first last (last - 1).

(** algo.h:1767-1768 [while (!( *--j < *i)) {}] *)
Fixpoint prev_scan (fuel : nat) (a : list A) (i j : Z) : option Z :=
  match fuel with
  | O => None
  | S fuel => let* x := rd a i in let* y := rd a (j - 1) in if lt y x then Some (j - 1) else prev_scan fuel a i (j - 1)
  end.
(** algo.h:1761-1778 *)
Fixpoint prev_loop (fuel : nat) (ran : bool) (a : list A) (first last i : Z) : option (list A * bool) :=
  match fuel with
  | O => None
  | S fuel =>
    let ii := i in
    let i := i - 1 in
    let* x := rd a i in let* y := rd a ii in
    if lt y x then
      let* j := prev_scan (S (Z.to_nat (last - i))) a i last in
      let* a := iter_swap a i j in
      let* a := reverse ran a ii last in
      Some (a, true)
    else if i =? first then let* a := reverse ran a first last in Some (a, false)
    else prev_loop fuel ran a first last i
  end.
(** algo.h:1755-1779 [prev_permutation], with a function object 1782-1806 *)
Definition prev_permutation (ran : bool) (a : list A) (first last : Z) : option (list A * bool) :=
  if first =? last then Some (a, false)
  else if first =? last - 1 then Some (a, false)
  else prev_loop (S (Z.to_nat (last - first))) ran a first last (last - 1).
End Perm.
