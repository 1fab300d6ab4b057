(** Ranges [first,last) of random access iterators as a list and integer positions.
    Reading or writing outside the list is undefined behaviour and gives [None]; so does a loop that does not end. *)
From Coq Require Import ZArith List Bool.
From Verif Require Import F64.
Import ListNotations.
Open Scope Z_scope.

Section Arr.
Context {A : Type}.

(** [*(first + i)] as a value *)
Definition rd (a : list A) (i : Z) : option A := if i <? 0 then None else nth_error a (Z.to_nat i).
(** replacing the k-th element of a list *)
Fixpoint upd (a : list A) (k : nat) (x : A) : list A :=
  match a, k with
  | [], _ => []
  | _ :: a', O => x :: a'
  | y :: a', S k' => y :: upd a' k' x
  end.
(** [*(first + i) = x] *)
Definition wr (a : list A) (i : Z) (x : A) : option (list A) :=
  if (0 <=? i) && (i <? Z.of_nat (length a)) then Some (upd a (Z.to_nat i) x) else None.
(** mylib/mystl/algobase.h:62-66 [iter_swap], mylib/mystl/util.h:38-44 [swap] *)
Definition iter_swap (a : list A) (i j : Z) : option (list A) :=
  let* x := rd a i in let* y := rd a j in let* a := wr a i y in wr a j x.
End Arr.
