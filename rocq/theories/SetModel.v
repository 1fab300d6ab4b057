(** Merging and set algorithms on two sorted ranges: mylib/mystl/set_algo.h and merge, includes of algo.h.
    Each reads two input ranges and writes through an output iterator; the model is the sequence of values written
    when the output does not overlap the inputs, the returned iterator being the end of that sequence.
    [lt] is [operator<] or the function object of the other overload (the two texts are the same otherwise). *)
From Coq Require Import List Bool.
Import ListNotations.

Section Set_.
Context {A : Type} (lt : A -> A -> bool).

(** algo.h:1811-1832 [merge], 1834-1856 with a function object *)
Fixpoint merge (l1 : list A) : list A -> list A :=
  fix inner (l2 : list A) : list A :=
  match l1, l2 with
  | x :: r1, y :: r2 => if lt y x then y :: inner r2 else x :: merge r1 l2
  | _, _ => l1 ++ l2
  end.
(** set_algo.h:18-44 [set_union], 47-74 with a function object *)
Fixpoint set_union (l1 : list A) : list A -> list A :=
  fix inner (l2 : list A) : list A :=
  match l1, l2 with
  | x :: r1, y :: r2 => if lt x y then x :: set_union r1 l2 else if lt y x then y :: inner r2 else x :: set_union r1 r2
  | _, _ => l1 ++ l2
  end.
(** set_algo.h:81-104 [set_intersection], 107-131 with a function object *)
Fixpoint set_intersection (l1 : list A) : list A -> list A :=
  fix inner (l2 : list A) : list A :=
  match l1, l2 with
  | x :: r1, y :: r2 => if lt x y then set_intersection r1 l2 else if lt y x then inner r2 else x :: set_intersection r1 r2
  | _, _ => []
  end.
(** set_algo.h:138-161 [set_difference], 164-188 with a function object *)
Fixpoint set_difference (l1 : list A) : list A -> list A :=
  fix inner (l2 : list A) : list A :=
  match l1, l2 with
  | x :: r1, y :: r2 => if lt x y then x :: set_difference r1 l2 else if lt y x then inner r2 else set_difference r1 r2
  | _, _ => l1
  end.
(** set_algo.h:195-220 [set_symmetric_difference], 223-249 with a function object *)
Fixpoint set_symmetric_difference (l1 : list A) : list A -> list A :=
  fix inner (l2 : list A) : list A :=
  match l1, l2 with
  | x :: r1, y :: r2 => if lt x y then x :: set_symmetric_difference r1 l2 else if lt y x then y :: inner r2 else set_symmetric_difference r1 r2
  | _, _ => l1 ++ l2
  end.
(** algo.h:975-995 [includes], 998-1018 with a function object *)
Fixpoint includes (l1 : list A) : list A -> bool :=
  fix inner (l2 : list A) : bool :=
  match l1, l2 with
  | x :: r1, y :: r2 => if lt y x then false else if lt x y then includes r1 l2 else includes r1 r2
  | _, [] => true
  | _, _ => false
  end.
End Set_.
