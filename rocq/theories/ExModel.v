(** Exceptions thrown by constructors of elements: mylib/mystl/uninitialized.h with its catch blocks, and the constructors, push_back and
    assign of vector.h on top of it.

    The memory is that of VecModel for a class type ([triv = false]; the functions for trivial types construct nothing).  [thr i] says
    whether the i-th construction of an element (counted over the whole run) throws; the state carries that counter.  A constructor that
    throws leaves its storage without an object and the object it reads from as it was.  [Ub] is undefined behaviour.
    Not modelled: exceptions from assignments and from operator new; destructors do not throw. *)
From Coq Require Import List Arith Bool.
From Verif Require Import F64 VecModel.
Import ListNotations.

Section Ex.
Variable A : Type.
Variables mv selfmv : A -> A.
Variable thr : nat -> bool.
Notation heap := (heap A). Notation ref := (ref A).
Notation mem := (mem A).

(** how a call ends: undefined, by an exception, or with a result; with the memory and the counter after it *)
Inductive out (R : Type) := Ub | Throw (h : heap) (c : nat) | Ret (h : heap) (c : nat) (r : R).
Arguments Ub {R}. Arguments Throw {R} h c. Arguments Ret {R} h c r.
Definition bind {R S : Type} (o : out R) (f : heap -> nat -> R -> out S) : out S :=
  match o with Ub => Ub | Throw h c => Throw h c | Ret h c r => f h c r end.
(** something that does not throw *)
Definition lift {R : Type} (o : option heap) (c : nat) (r : R) : out R := match o with Some h => Ret h c r | None => Ub end.

(** construct.h:29-39  construction of an element from the value v *)
Definition ctor (h : heap) (c a : nat) (v : A) : out unit :=
  if thr c then match mem h a with Free _ => Ub | _ => Throw h (S c) end
  else lift (con A false h a v) (S c) tt.
(** construction from the element at src, by copying or by moving *)
Definition ctor_from (mov : bool) (h : heap) (c src dst : nat) : out unit :=
  if thr c then match rd A h src, mem h dst with None, _ => Ub | _, Free _ => Ub | _, _ => Throw h (S c) end
  else lift (xfer A false mv selfmv true mov h src dst) (S c) tt.
(** construction from a [const T&] *)
Definition ctor_ref (h : heap) (c a : nat) (r : ref) : out unit :=
  match val A h r with None => Ub | Some v => ctor h c a v end.

(** the loops in the try blocks: uninitialized.h:31-34, 72-76, 112-116, 152-156, 190-194, 230-234.
    The result is how many elements were constructed, and whether an exception ended the loop *)
Fixpoint build (step : heap -> nat -> nat -> out unit) (n i : nat) (h : heap) (c : nat) : out (nat * bool) :=
  match n with
  | O => Ret h c (i, false)
  | S n => match step h c i with
           | Ub => Ub
           | Throw h c => Ret h c (i, true)
           | Ret h c _ => build step n (S i) h c
           end
  end.
(** uninitialized.h:38-39, 80-81  [for (; result != cur; --cur) destroy(&*cur)] with cur = result + k *)
Fixpoint down (k : nat) (h : heap) (result : nat) : option heap :=
  match k with O => Some h | S k => match des A false h (result + S k) with Some h => down k h result | None => None end end.

(** uninitialized.h:26-42 uninitialized_copy and 66-84 uninitialized_copy_n: n elements from src to dst; the result is cur *)
Definition uninit_copy (n src dst : nat) (h : heap) (c : nat) : out nat :=
  bind (build (fun h c i => ctor_from false h c (src + i) (dst + i)) n 0 h c) (fun h c r =>
    let (k, thrown) := r in
    if thrown then lift (down k h dst) c dst else Ret h c (dst + k)).
(** uninitialized.h:106-123 uninitialized_fill, and 145-164 uninitialized_fill_n, which returns cur *)
Definition uninit_fill_n (n : nat) (r : ref) (a : nat) (h : heap) (c : nat) : out nat :=
  bind (build (fun h c i => ctor_ref h c (a + i) r) n 0 h c) (fun h c r =>
    let (k, thrown) := r in
    if thrown then lift (des_range A false k h a) c (a + k) else Ret h c (a + k)).
(** uninitialized.h:184-201 uninitialized_move *)
Definition uninit_move (n src dst : nat) (h : heap) (c : nat) : out nat :=
  bind (build (fun h c i => ctor_from true h c (src + i) (dst + i)) n 0 h c) (fun h c r =>
    let (k, thrown) := r in
    if thrown then lift (des_range A false k h dst) c (dst + k) else Ret h c (dst + k)).
(** uninitialized.h:223-243 uninitialized_move_n *)
Definition uninit_move_n (n src dst : nat) (h : heap) (c : nat) : out nat :=
  bind (build (fun h c i => ctor_from true h c (src + i) (dst + i)) n 0 h c) (fun h c r =>
    let (k, thrown) := r in
    if thrown then match des_range A false k h dst with Some h => Throw h c | None => Ub end else Ret h c (dst + k)).

(** vector.h:591-598 fill_init: the constructor vector(n, value) *)
Definition ex_fill_init (n : nat) (r : ref) (h : heap) (c : nat) : out vec :=
  let (v, h) := init_space A n (Nat.max 16 n) h in
  bind (uninit_fill_n n r (vb v) h c) (fun h c _ => Ret h c v).
(** vector.h:601-609 range_init: vector(first, last) and the copy constructor *)
Definition ex_range_init (first n : nat) (h : heap) (c : nat) : out vec :=
  let (v, h) := init_space A n (Nat.max n 16) h in
  bind (uninit_copy n first (vb v) h c) (fun h c _ => Ret h c v).
(** vector.h:739-762 reallocate_insert at the end, and 713-737 reallocate_emplace with a [const T&] *)
Definition ex_reallocate_end (r : ref) (v : vec) (h : heap) (c : nat) : out vec :=
  let n := get_new_cap 1 v in
  let (p, h) := alloc A n h in
  let body :=
    bind (uninit_move (size v) (vb v) p h c) (fun h c e =>
    bind (ctor_ref h c e r) (fun h c _ =>
    uninit_move 0 (ve v) (e + 1) h c)) in
  match body with
  | Ub => Ub
  | Throw h c => match dealloc A false p h with Some h => Throw h c | None => Ub end
  | Ret h c e => lift (destroy_and_recover A false (vb v) (size v) h) c (mkV p e (p + n))
  end.
(** vector.h:445-457 push_back, 429-442 emplace_back *)
Definition ex_push_back (r : ref) (v : vec) (h : heap) (c : nat) : out vec :=
  if negb (ve v =? vc v) then bind (ctor_ref h c (ve v) r) (fun h c _ => Ret h c (mkV (vb v) (ve v + 1) (vc v)))
  else ex_reallocate_end r v h c.
(** vector.h:642-660 fill_assign: assign(n, value) *)
Definition ex_assign_fill (n : nat) (r : ref) (v : vec) (h : heap) (c : nat) : out vec :=
  if capacity v <? n then
    bind (ex_fill_init n r h c) (fun h c tmp => lift (destructor A false v h) c tmp)
  else if size v <? n then
    match fill_n A false (size v) h (vb v) r with
    | None => Ub
    | Some h => bind (uninit_fill_n (n - size v) r (ve v) h c) (fun h c e => Ret h c (mkV (vb v) e (vc v)))
    end
  else
    match fill_n A false n h (vb v) r with
    | None => Ub
    | Some h => match erase_range A false mv selfmv n (size v) v h with Some (w, h) => Ret h c w | None => Ub end
    end.
End Ex.
Arguments Ub {A R}. Arguments Throw {A R} h c. Arguments Ret {A R} h c r.
