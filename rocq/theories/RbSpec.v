(** What the ordered containers promise, in terms of the sequence of their elements; every element stands with the address
    of its node, which is what an iterator to it is. *)
From Coq Require Import ZArith List Bool Sorted.
Import ListNotations.
Open Scope Z_scope.

Section Spec.
Context {K V : Type} (lt : K -> K -> bool) (key : V -> K).
Implicit Types (e : list (Z * V)) (k : K).
Definition keyof (x : Z * V) : K := key (snd x).
(** multiset, multimap: no key is less than an earlier one; set, map: every key is less than the later ones *)
Definition weakly e : Prop := StronglySorted (fun x y => lt (keyof y) (keyof x) = false) e.
Definition strictly e : Prop := StronglySorted (fun x y => lt (keyof x) (keyof y) = true) e.
(** the elements with keys less than [k], not greater, not less, greater, equivalent to [k], not equivalent *)
Definition below k e := filter (fun x => lt (keyof x) k) e.
Definition upto k e := filter (fun x => negb (lt k (keyof x))) e.
Definition since k e := filter (fun x => negb (lt (keyof x) k)) e.
Definition above k e := filter (fun x => lt k (keyof x)) e.
Definition equiv k (x : Z * V) : bool := negb (lt (keyof x) k) && negb (lt k (keyof x)).
Definition same k e := filter (equiv k) e.
Definition other k e := filter (fun x => negb (equiv k x)) e.
Definition has k e : bool := existsb (equiv k) e.
(** the iterator to the first element, or [h] (the end) *)
Definition head h e : Z := match e with [] => h | (a, _) :: _ => a end.
(** an element is added behind those that are not greater *)
Definition added a v e := upto (key v) e ++ (a, v) :: above (key v) e.
End Spec.
