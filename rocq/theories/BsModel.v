(** Binary searches of mylib/mystl/algo.h.  [lt] is [operator<] or the function object of the other overload.
    The forward and the random access versions differ only in how they move an iterator by half steps. *)
From Coq Require Import ZArith List Bool.
From Verif Require Import F64 ArrModel.
Import ListNotations.
Open Scope Z_scope.

Section Bs.
Context {A : Type} (lt : A -> A -> bool).

(** algo.h:524-574 [lbound_dispatch] (both versions), with a function object 585-636 *)
Fixpoint lbound_loop (fuel : nat) (a : list A) (first n : Z) (v : A) : option Z :=
  match fuel with
  | O => None
  | S fuel =>
    if 0 <? n then
      let half := Z.shiftr n 1 in
      let middle := first + half in
      let* x := rd a middle in
      if lt x v then lbound_loop fuel a (middle + 1) (n - half - 1) v else lbound_loop fuel a first half v
    else Some first
  end.
Definition lower_bound (a : list A) (first last : Z) (v : A) : option Z := lbound_loop (S (Z.to_nat (last - first))) a first (last - first) v.

(** algo.h:651-701 [ubound_dispatch] (both versions), with a function object 712-763 *)
Fixpoint ubound_loop (fuel : nat) (a : list A) (first n : Z) (v : A) : option Z :=
  match fuel with
  | O => None
  | S fuel =>
    if 0 <? n then
      let half := Z.shiftr n 1 in
      let middle := first + half in
      let* x := rd a middle in
      if lt v x then ubound_loop fuel a first half v else ubound_loop fuel a (middle + 1) (n - half - 1) v
    else Some first
  end.
Definition upper_bound (a : list A) (first last : Z) (v : A) : option Z := ubound_loop (S (Z.to_nat (last - first))) a first (last - first) v.

(** algo.h:776-781 [binary_search]; the overload with a function object, 784-789, calls lower_bound without it:
    [lt0] is the order lower_bound uses, [operator<] in both overloads *)
Definition binary_search (lt0_lower_bound : list A -> Z -> Z -> A -> option Z) (a : list A) (first last : Z) (v : A) : option bool :=
  let* i := lt0_lower_bound a first last v in
  if i =? last then Some false else let* x := rd a i in Some (negb (lt v x)).

(** algo.h:797-829 and 832-861 [erange_dispatch], with a function object 872-904, 907-937; [fwd] selects the forward version *)
Fixpoint erange_loop (fuel : nat) (fwd : bool) (a : list A) (first n last : Z) (v : A) : option (Z * Z) :=
  match fuel with
  | O => None
  | S fuel =>
    if 0 <? n then
      let half := Z.shiftr n 1 in
      let middle := first + half in
      let* x := rd a middle in
      if lt x v then erange_loop fuel fwd a (middle + 1) (n - half - 1) last v
      else if lt v x then erange_loop fuel fwd a first half last v
      else
        let* lf := lower_bound a first (if fwd then last else middle) v in
        let* rt := upper_bound a (middle + 1) (first + n) v in
        Some (lf, rt)
    else Some (last, last)
  end.
Definition equal_range (fwd : bool) (a : list A) (first last : Z) (v : A) : option (Z * Z) :=
  erange_loop (S (Z.to_nat (last - first))) fwd a first (last - first) last v.
End Bs.
