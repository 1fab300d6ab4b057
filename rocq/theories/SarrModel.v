(** mylib/mystl/static_array.h: arrays with iterators stored in the object.

    Addresses count elements; [mem a = None] means that no object lives there.  An array object is the address of its data and the two
    stored iterators.  The copy constructor is the implicit one (the class declares none), which copies the stored iterators; the
    assignment operator is the one of the class.  Undefined behaviour is [None]. *)
From Coq Require Import List Arith Bool.
From Verif Require Import F64.
Import ListNotations.
Open Scope opt_scope.

Section Array.
Variable A : Type.
Variable d : A.          (* T{} *)
Variable N : nat.        (* the number of elements, a template argument *)

Definition memory := nat -> option A.
(** static_array.h:58-60 *)
Record arr := mkA { data : nat; b : nat; e : nat }.
Definition inside (a p n : nat) : bool := (p <=? a) && (a <? p + n).
Definition store (m : memory) (a : nat) (x : A) : option memory :=
  match m a with Some _ => Some (fun c => if c =? a then Some x else m c) | None => None end.
(** static_array.h:16, 58-60  default member initialisers *)
Definition fresh_arr (p : nat) (m : memory) : arr * memory :=
  (mkA p p (p + N), fun a => if inside a p N then Some d else m a).
(** static_array.h:42-47  [i] is the loop variable *)
Fixpoint put_list (r : list A) (p i : nat) (m : memory) : option memory :=
  match r with
  | [] => Some m
  | x :: r => if i <? N then let* m := store m (p + i) x in put_list r p (S i) m else None
  end.
(** the loop of static_array.h:20-22 (assignment) and the memberwise copy of data in the implicit copy constructor: n elements from q to p *)
Fixpoint copy_data (n p q : nat) (m : memory) : option memory :=
  match n with
  | O => Some m
  | S n => let* x := m q in let* m := store m p x in copy_data n (S p) (S q) m
  end.
(** static_array.h:35-39 *)
Fixpoint fill_data (n p : nat) (x : A) (m : memory) : option memory :=
  match n with O => Some m | S n => let* m := store m p x in fill_data n (S p) x m end.
(** static_array.h:26-32 operator[], get *)
Definition get (o : arr) (k : nat) (m : memory) : option A := if k <? N then m (data o + k) else None.
(** static_array.h:49-54  for (x : array): the values from begin() to end() *)
Fixpoint read (n p : nat) (m : memory) : option (list A) :=
  match n with O => Some [] | S n => let* x := m p in let* l := read n (S p) m in Some (x :: l) end.
Definition iterate (o : arr) (m : memory) : option (list A) := read (e o - b o) (b o) m.

Inductive op :=
| New (i : nat)                      (* static_array<T, N> ai; *)
| NewList (i : nat) (r : list A)     (* static_array<T, N> ai = {...}; *)
| NewCopy (i j : nat)                (* static_array<T, N> ai(aj); *)
| Drop (i : nat)                     (* end of the life of ai *)
| Assign (i j : nat)                 (* ai = aj; *)
| Put (i k : nat) (x : A)            (* ai[k] = x; *)
| Fill (i : nat) (x : A).
Definition env := nat -> option arr.
Definition state := (env * memory * nat)%type.
Definition upd {B : Type} (m : nat -> B) (i : nat) (x : B) : nat -> B := fun j => if j =? i then x else m j.
Definition unused (en : env) (i : nat) : option unit := match en i with None => Some tt | Some _ => None end.
(** a new object gets addresses never used before *)
Definition step (o : op) (s : state) : option state :=
  let '(en, m, next) := s in
  match o with
  | New i => let* _ := unused en i in let (a, m) := fresh_arr next m in Some (upd en i (Some a), m, next + N)
  | NewList i r =>
      let* _ := unused en i in
      let (a, m) := fresh_arr next m in
      let* m := put_list r (data a) 0 m in Some (upd en i (Some a), m, next + N)
  | NewCopy i j =>
      let* _ := unused en i in
      let* q := en j in
      let (a, m) := fresh_arr next m in
      let* m := copy_data N (data a) (data q) m in
      Some (upd en i (Some (mkA (data a) (b q) (e q))), m, next + N)
  | Drop i => let* a := en i in Some (upd en i None, fun c => if inside c (data a) N then None else m c, next)
  | Assign i j => let* a := en i in let* q := en j in let* m := copy_data N (data a) (data q) m in Some (en, m, next)
  | Put i k x => let* a := en i in if k <? N then let* m := store m (data a + k) x in Some (en, m, next) else None
  | Fill i x => let* a := en i in let* m := fill_data N (data a) x m in Some (en, m, next)
  end.
Fixpoint run (p : list op) (s : state) : option state :=
  match p with [] => Some s | o :: p => let* s := step o s in run p s end.
Definition start : state := (fun _ => None, fun _ => None, 0).
End Array.
