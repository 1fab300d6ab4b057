(** What a program with vectors means: every vector is a list of values together with a capacity. *)
From Coq Require Import List Arith Bool.
From Verif Require Import F64 VecModel.
Import ListNotations.
Open Scope opt_scope.

Section Spec.
Variable A : Type.
Notation op := (op A). Notation arg := (arg A).

Definition lists := nat -> option (list A * nat).
Definition lupd (s : lists) (i : nat) (x : option (list A * nat)) : lists := fun j => if j =? i then x else s j.
(** the capacity after a reallocation for [add] more elements *)
Definition grown (cap add : nat) : nat := if cap =? 0 then Nat.max add 16 else Nat.max (cap + cap / 2) (cap + add).
Definition room (len cap add : nat) : nat := if len + add <=? cap then cap else grown cap add.

Definition value (s : lists) (x : arg) : option A :=
  match x with Val _ v => Some v | Elem _ j k => let* (l, _) := s j in nth_error l k end.
Definition part (s : lists) (j a b : nat) : option (list A) :=
  let* (l, _) := s j in if (a <=? b) && (b <=? length l) then Some (firstn (b - a) (skipn a l)) else None.
Definition insert_at (k : nat) (xs l : list A) : option (list A) :=
  if k <=? length l then Some (firstn k l ++ xs ++ skipn k l) else None.
Definition absent (s : lists) (i : nat) : option unit := match s i with None => Some tt | Some _ => None end.
Definition put_at (s : lists) (i : nat) (l : list A) (cap : nat) : option lists := Some (lupd s i (Some (l, cap))).
(** copy assignment to a vector that has room for more elements than it has gives up the rest of the room *)
Definition assigned_cap (len cap n : nat) : nat := if cap <? n then Nat.max n 16 else if n <=? len then cap else n.

Definition lstep (o : op) (s : lists) : option lists :=
  match o with
  | New _ i => let* _ := absent s i in put_at s i [] 16
  | NewFill _ i n x => let* _ := absent s i in let* v := value s x in put_at s i (repeat v n) (Nat.max n 16)
  | NewCopy _ i j => let* _ := absent s i in let* (l, _) := s j in put_at s i l (Nat.max (length l) 16)
  | NewMove _ i j => let* _ := absent s i in let* w := s j in Some (lupd (lupd s j (Some ([], 0))) i (Some w))
  | NewRange _ i j a b => let* _ := absent s i in let* l := part s j a b in put_at s i l (Nat.max (length l) 16)
  | Drop _ i => let* _ := s i in Some (lupd s i None)
  | AssignCopy _ i j =>
      let* (l, cap) := s i in let* (l', _) := s j in
      if i =? j then Some s else put_at s i l' (assigned_cap (length l) cap (length l'))
  | AssignMove _ i j =>
      let* _ := s i in let* w := s j in
      if i =? j then None else Some (lupd (lupd s j (Some ([], 0))) i (Some w))
  | Swap _ i j => let* x := s i in let* y := s j in Some (lupd (lupd s i (Some y)) j (Some x))
  | PushBack _ i x => let* (l, cap) := s i in let* v := value s x in put_at s i (l ++ [v]) (room (length l) cap 1)
  | PopBack _ i => let* (l, cap) := s i in if length l =? 0 then None else put_at s i (removelast l) cap
  | Insert _ i k x | Emplace _ i k x =>
      let* (l, cap) := s i in let* v := value s x in
      let* l' := insert_at k [v] l in put_at s i l' (room (length l) cap 1)
  | InsertN _ i k n x =>
      let* (l, cap) := s i in let* v := value s x in
      let* l' := insert_at k (repeat v n) l in put_at s i l' (room (length l) cap n)
  | InsertRange _ i k j a b =>
      let* (l, cap) := s i in let* xs := part s j a b in
      if i =? j then None else let* l' := insert_at k xs l in put_at s i l' (room (length l) cap (length xs))
  | Erase _ i k => let* (l, cap) := s i in if k <? length l then put_at s i (firstn k l ++ skipn (S k) l) cap else None
  | EraseRange _ i a b =>
      let* (l, cap) := s i in if (a <=? b) && (b <=? length l) then put_at s i (firstn a l ++ skipn b l) cap else None
  | Clear _ i => let* (_, cap) := s i in put_at s i [] cap
  | Resize _ i n x =>
      let* (l, cap) := s i in let* v := value s x in
      if n <? length l then put_at s i (firstn n l) cap
      else put_at s i (l ++ repeat v (n - length l)) (room (length l) cap (n - length l))
  | AssignFill _ i n x =>
      let* (l, cap) := s i in let* v := value s x in put_at s i (repeat v n) (if cap <? n then Nat.max n 16 else cap)
  | AssignRange _ i j a b =>
      let* (l, cap) := s i in let* xs := part s j a b in
      if i =? j then None else put_at s i xs (if cap <? length xs then Nat.max (length xs) 16 else cap)
  | Reserve _ i n => let* (l, cap) := s i in put_at s i l (Nat.max cap n)
  | ShrinkToFit _ i => let* (l, _) := s i in put_at s i l (length l)
  | Set_ _ i k x => let* (l, cap) := s i in if k <? length l then put_at s i (firstn k l ++ x :: skipn (S k) l) cap else None
  end.
Fixpoint lrun (p : list op) (s : lists) : option lists :=
  match p with [] => Some s | o :: p => let* s := lstep o s in lrun p s end.
Definition lstart : lists := fun _ => None.

(** The programs the theorems speak about.  [own_before i k x]: the argument is an element of the vector itself in front of position k. *)
Definition own_before (i k : nat) (x : arg) : bool := match x with Elem _ j m => (j =? i) && (m <? k) | _ => false end.
Definition own_after (i k : nat) (x : arg) : bool := match x with Elem _ j m => (j =? i) && (k <? m) | _ => false end.
(** For an element type with moving ([triv = false]) not: the insertion of an own element in front of the position when the vector has
    no room, and the deletion of an empty range not at the end.  For all types not: emplace of an own element behind the position when
    there is room. *)
Definition benign (triv : bool) (o : op) (s : lists) : bool :=
  let full i n := match s i with Some (l, cap) => negb (length l + n <=? cap) | None => false end in
  let len i := match s i with Some (l, _) => length l | None => 0 end in
  match o with
  | PushBack _ i x => triv || negb (full i 1) || negb (own_before i (len i) x)
  | Insert _ i k x => triv || negb (full i 1) || negb (own_before i k x)
  | Emplace _ i k x => if full i 1 then triv || negb (own_before i k x) else negb (own_after i k x)
  | InsertN _ i k n x => triv || negb (full i n) || negb (own_before i k x)
  | Resize _ i n x => triv || negb (full i (n - len i)) || negb (own_before i (len i) x)
  | EraseRange _ i a b => triv || negb (a =? b) || (a =? len i)
  | _ => true
  end.
Fixpoint all_benign (triv : bool) (p : list op) (s : lists) : Prop :=
  match p with
  | [] => True
  | o :: p => benign triv o s = true /\ match lstep o s with Some s => all_benign triv p s | None => True end
  end.
(** Operations that never give up the storage of an object that has not been destroyed.  For types that are copied as bytes: all. *)
Definition tidy (triv : bool) (o : op) (s : lists) : bool :=
  match o with
  | InsertN _ _ _ _ _ | InsertRange _ _ _ _ _ _ | Reserve _ _ _ | ShrinkToFit _ _ => triv
  | Resize _ i n _ => triv || match s i with Some (l, _) => n <? length l | None => true end
  | _ => true
  end.
Fixpoint all_tidy (triv : bool) (p : list op) (s : lists) : Prop :=
  match p with
  | [] => True
  | o :: p => tidy triv o s = true /\ match lstep o s with Some s => all_tidy triv p s | None => True end
  end.
End Spec.
