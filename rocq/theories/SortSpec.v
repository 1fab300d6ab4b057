(** What the heap and sorting algorithms promise, independently of how they work *)
From Coq Require Import ZArith List Bool Permutation Sorted.
From Verif Require Import ArrModel.
Import ListNotations.
Open Scope Z_scope.

(** the requirement on a comparison in C++: a strict weak order *)
Record strict_weak {A} (lt : A -> A -> bool) : Prop := {
  sw_irr : forall x, lt x x = false;
  sw_trans : forall x y z, lt x y = true -> lt y z = true -> lt x z = true;
  sw_neg : forall x y z, lt x z = true -> lt x y = true \/ lt y z = true }.

(** no element is less than an earlier one *)
Definition ordered {A} (lt : A -> A -> bool) (l : list A) : Prop := StronglySorted (fun x y => lt y x = false) l.

(** binary heap stored in a list: the children of position i are at 2i+1 and 2i+2 and no child is greater than its parent *)
Definition heap {A} (lt : A -> A -> bool) (l : list A) : Prop :=
  forall i j x y, (j = 2 * i + 1 \/ j = 2 * i + 2)%nat -> nth_error l i = Some x -> nth_error l j = Some y -> lt x y = false.
