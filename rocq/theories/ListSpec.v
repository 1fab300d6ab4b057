(** What it means for a memory to hold a list, and what the operations of a list are to do to a sequence. *)
From Coq Require Import ZArith List Bool.
From Verif Require Import ListModel.
Import ListNotations.
Open Scope Z_scope.

Section Spec.
Context {V : Type}.
Notation mem := (@memory V).
Notation cell := (Z * option V)%type.

Definition first (n : Z) (C : list cell) : Z := match C with [] => n | c :: _ => fst c end.
Fixpoint lst (p : Z) (C : list cell) : Z := match C with [] => p | c :: C => lst (fst c) C end.
(** the nodes C are there and linked in this order; p is before the first one and n behind the last one *)
Fixpoint chain (m : mem) (p : Z) (C : list cell) (n : Z) : Prop :=
  match C with
  | [] => True
  | c :: C' => fst c <> 0 /\ m (fst c) = Some (mkNd p (first n C') (snd c)) /\ chain m (fst c) C' n
  end.
Notation adrs := (map (@fst Z (option V))).
Definition ring (m : mem) (C : list cell) : Prop := C <> [] /\ NoDup (adrs C) /\ chain m (lst 0 C) C (first 0 C).
(** the nodes xs, each an address with its value, are those of the list L, in this order: a ring with the end node *)
Definition cs (xs : list (Z * V)) : list cell := map (fun x => (fst x, Some (snd x))) xs.
Definition is_list (m : mem) (L : obj) (xs : list (Z * V)) : Prop :=
  ring m ((node L, None) :: cs xs) /\ size L = Z.of_nat (length xs) /\ size L <= max_size.
(** the position of an element: the iterator to the first of [xs], the end of the list when there is none *)
Definition pos (L : obj) (xs : list (Z * V)) : Z := match xs with [] => node L | x :: _ => fst x end.
(** the addresses a list occupies *)
Definition places (L : obj) (xs : list (Z * V)) : list Z := node L :: map fst xs.
(** nothing else is changed *)
Definition only (l : list Z) (m m' : mem) : Prop := forall z, ~ In z l -> m' z = m z.
(** new nodes: free addresses, no two the same *)
Definition fresh (m : mem) (l : list Z) : Prop := NoDup l /\ forall a, In a l -> a <> 0 /\ m a = None.
(** nodes that are gone *)
Definition freed (l : list Z) (m : mem) : Prop := forall z, In z l -> m z = None.
(** two lists share no node *)
Definition apart (L : obj) (xs : list (Z * V)) (X : obj) (ys : list (Z * V)) : Prop := forall z, In z (places L xs) -> In z (places X ys) -> False.
(** without the elements alike to the last one kept before them *)
Fixpoint uniq_from (pred : V -> V -> bool) (x : Z * V) (ys : list (Z * V)) : list (Z * V) :=
  match ys with [] => [] | y :: ys => if pred (snd x) (snd y) then uniq_from pred x ys else y :: uniq_from pred y ys end.
Definition uniq (pred : V -> V -> bool) (xs : list (Z * V)) : list (Z * V) := match xs with [] => [] | x :: xs => x :: uniq_from pred x xs end.
(** two sequences in one: from the second one as long as its head is less than the head of the first one *)
Fixpoint mrg (comp : V -> V -> bool) (xs : list (Z * V)) : list (Z * V) -> list (Z * V) :=
  fix aux ys :=
  match xs, ys with
  | [], _ => ys
  | _, [] => xs
  | x :: xs', y :: ys' => if comp (snd y) (snd x) then y :: aux ys' else x :: mrg comp xs' ys
  end.
(** sorted by merging sorted parts *)
Inductive srt (comp : V -> V -> bool) : list (Z * V) -> list (Z * V) -> Prop :=
| srt_nil : srt comp [] []
| srt_one : forall x, srt comp [x] [x]
| srt_two : forall A B A' B', A <> [] -> B <> [] -> srt comp A A' -> srt comp B B' -> srt comp (A ++ B) (mrg comp A' B').
End Spec.
