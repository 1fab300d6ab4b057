(** Client programs over the ordered containers (map.h, set.h: thin wrappers over rb_tree.h): what they may do, and what their contents then are. *)
From Coq Require Import ZArith List Bool.
From Verif Require Import F64 RbModel RbSpec.
Import ListNotations.
Open Scope Z_scope.
Open Scope opt_scope.

Section Run.
Context {K V : Type} (lt : K -> K -> bool) (key : V -> K).
Notation mem := (@memory V).
Implicit Types (m R : mem) (o : obj) (e : list (Z * V)) (a : Z) (v : V) (kk : K) (i j : nat).

(** the iterator to element number [i]: begin(), then [i] increments (map.h:115-122, rb_tree.h:201-219) *)
Fixpoint iter m o (i : nat) : option Z := match i with O => begin m o | S i => let* x := iter m o i in inc (fuel_of o) m x end.
(** the contents of a container, read with a loop from begin() to end() *)
Fixpoint walk (fuel : nat) m o x : option (list (Z * V)) :=
  match fuel with O => None | S fuel =>
    if x =? end_ o then Some []
    else let* n := get m x in let* v := val n in let* nx := inc (fuel_of o) m x in let* e := walk fuel m o nx in Some ((x, v) :: e)
  end.
Definition contents m o : option (list (Z * V)) := let* b := begin m o in walk (S (cnt o)) m o b.

(** an operation of a map or set (map.h:185-256, set.h); [a] is the address the allocator would give, [i] and [j] are positions *)
Inductive op :=
| Insert a v | Emplace a v | Hint a v i | Index a v | EraseAt i | EraseRange i j | EraseKey kk | Clear.
Definition step m o (p : op) : option (mem * obj) :=
  match p with
  | Insert a v => let* (m, o, _) := insert_unique lt key m o a v in Some (m, o)
  | Emplace a v => let* (m, o, _) := emplace_unique lt key m o a v in Some (m, o)
  | Hint a v i => let* x := iter m o i in let* (m, o, _) := emplace_unique_hint lt key m o a v x in Some (m, o)
  | Index a v => let* (m, o, _) := map_index lt key m o a (key v) v in Some (m, o)
  | EraseAt i => let* x := iter m o i in let* (m, o, _) := erase m o x in Some (m, o)
  | EraseRange i j => let* x := iter m o i in let* y := iter m o j in erase_range m o x y
  | EraseKey kk => let* (m, o, _) := erase_unique lt key m o kk in Some (m, o)
  | Clear => clear m o
  end.
(** the same for a multimap or multiset *)
Definition mstep m o (p : op) : option (mem * obj) :=
  match p with
  | Insert a v => let* (m, o, _) := insert_multi lt key m o a v in Some (m, o)
  | Emplace a v | Index a v => let* (m, o, _) := emplace_multi lt key m o a v in Some (m, o)
  | Hint a v i => let* x := iter m o i in let* (m, o, _) := emplace_multi_hint lt key m o a v x in Some (m, o)
  | EraseAt i => let* x := iter m o i in let* (m, o, _) := erase m o x in Some (m, o)
  | EraseRange i j => let* x := iter m o i in let* y := iter m o j in erase_range m o x y
  | EraseKey kk => let* (m, o, _) := erase_multi lt key m o kk in Some (m, o)
  | Clear => clear m o
  end.
(** what the allocator and the client must keep to: a free address; positions inside *)
Definition allowed m o (p : op) : Prop :=
  match p with
  | Insert a v | Emplace a v | Index a v => a <> 0 /\ m a = None
  | Hint a v i => a <> 0 /\ m a = None /\ (i <= cnt o)%nat
  | EraseAt i => (i < cnt o)%nat
  | EraseRange i j => (i <= j <= cnt o)%nat
  | EraseKey _ | Clear => True
  end.
Section Steps.
Variable st : mem -> obj -> op -> option (mem * obj).
Fixpoint run m o (ps : list op) : option (mem * obj) := match ps with [] => Some (m, o) | p :: ps => let* (m, o) := st m o p in run m o ps end.
Fixpoint legal m o (ps : list op) : Prop :=
  match ps with [] => True | p :: ps => allowed m o p /\ forall m' o', st m o p = Some (m', o') -> legal m' o' ps end.
End Steps.

(** the contents afterwards: set, map *)
Definition effect e (p : op) : list (Z * V) :=
  match p with
  | Insert a v | Emplace a v | Hint a v _ | Index a v => if has lt key (key v) e then e else added lt key a v e
  | EraseAt i => firstn i e ++ skipn (S i) e
  | EraseRange i j => firstn i e ++ skipn j e
  | EraseKey kk => other lt key kk e
  | Clear => []
  end.
(** multiset, multimap: with a hint, anywhere among equal keys *)
Inductive meffect e : op -> list (Z * V) -> Prop :=
| m_insert a v : meffect e (Insert a v) (added lt key a v e)
| m_emplace a v : meffect e (Emplace a v) (added lt key a v e)
| m_index a v : meffect e (Index a v) (added lt key a v e)
| m_hint a v i f1 f2 : e = f1 ++ f2 -> weakly lt key (f1 ++ (a, v) :: f2) -> meffect e (Hint a v i) (f1 ++ (a, v) :: f2)
| m_at i : meffect e (EraseAt i) (firstn i e ++ skipn (S i) e)
| m_range i j : meffect e (EraseRange i j) (firstn i e ++ skipn j e)
| m_key kk : meffect e (EraseKey kk) (other lt key kk e)
| m_clear : meffect e Clear [].
Inductive meffects : list (Z * V) -> list op -> list (Z * V) -> Prop :=
| ms_nil e : meffects e [] e
| ms_cons e p e1 ps e2 : meffect e p e1 -> meffects e1 ps e2 -> meffects e (p :: ps) e2.

End Run.
