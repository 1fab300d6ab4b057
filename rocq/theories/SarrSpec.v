(** Arrays as lists.  Every array has a serial number, its elements, and the serial number of the array its iterators belong to. *)
From Coq Require Import List Arith Bool.
From Verif Require Import F64 SarrModel.
Import ListNotations.
Open Scope opt_scope.

Section Spec.
Variable A : Type.
Variable d : A.
Variable N : nat.
Record info := mkI { serial : nat; elems : list A; home : nat }.
Definition infos := ((nat -> option info) * nat)%type.
Definition vacant (t : nat -> option info) (i : nat) : option unit := match t i with None => Some tt | Some _ => None end.
Definition lstep (o : op A) (s : infos) : option infos :=
  let '(t, n) := s in
  match o with
  | New _ i => let* _ := vacant t i in Some (upd t i (Some (mkI n (repeat d N) n)), S n)
  | NewList _ i r =>
      let* _ := vacant t i in
      if length r <=? N then Some (upd t i (Some (mkI n (r ++ repeat d (N - length r)) n)), S n) else None
  | NewCopy _ i j => let* _ := vacant t i in let* q := t j in Some (upd t i (Some (mkI n (elems q) (home q))), S n)
  | Drop _ i => let* _ := t i in Some (upd t i None, n)
  | Assign _ i j => let* a := t i in let* q := t j in Some (upd t i (Some (mkI (serial a) (elems q) (home a))), n)
  | Put _ i k x =>
      let* a := t i in
      if k <? N then Some (upd t i (Some (mkI (serial a) (firstn k (elems a) ++ x :: skipn (S k) (elems a)) (home a))), n) else None
  | Fill _ i x => let* a := t i in Some (upd t i (Some (mkI (serial a) (repeat x N) (home a))), n)
  end.
Fixpoint lrun (p : list (op A)) (s : infos) : option infos :=
  match p with [] => Some s | o :: p => let* s := lstep o s in lrun p s end.
Definition lstart : infos := (fun _ => None, 0).
Definition no_copy (o : op A) : bool := match o with NewCopy _ _ _ => false | _ => true end.
End Spec.
