(** The adapters mylib/mystl/queue.h and stack.h, and the algorithms of mylib/mystl/numeric.h. *)
From Coq Require Import ZArith List Bool.
From Verif Require Import F64 ArrModel SortModel.
From Verif Require DeqModel.
Import ListNotations.
Open Scope Z_scope.
Open Scope opt_scope.

(** ** queue and stack over a deque (the container they use when none is named) *)
Section Over.
Context {T : Type} (bs : Z) (triv : bool).
Definition memory := @DeqModel.memory T.
Definition deque := DeqModel.deque.
Implicit Types (m : memory) (d : deque).
(** queue.h:97-100; stack.h:92-93: top is the back *)
Definition q_front m d : option T := DeqModel.front bs m d.
Definition q_back m d : option T := DeqModel.back bs m d.
Definition s_top m d : option T := DeqModel.back bs m d.
(** queue.h:103-104, stack.h:96-97 *)
Definition a_empty d : bool := DeqModel.empty d.
Definition a_size d : Z := DeqModel.size bs d.
(** queue.h:107-114, stack.h:101-108: emplace and both push *)
Definition a_push m d (v : T) : option (memory * deque) := DeqModel.push_back bs m d v.
(** queue.h:116-117 *)
Definition q_pop m d : option (memory * deque) := DeqModel.pop_front bs triv m d.
(** stack.h:110-111 *)
Definition s_pop m d : option (memory * deque) := DeqModel.pop_back bs triv m d.
(** queue.h:119-123, stack.h:113-117: clear pops until it is empty; [None] when the loop does not end within [fuel] turns *)
Fixpoint pops (pop : memory -> deque -> option (memory * deque)) (fuel : nat) m d : option (memory * deque) :=
  match fuel with
  | O => None
  | S fuel => if a_empty d then Some (m, d) else let* md := pop m d in pops pop fuel (fst md) (snd md)
  end.
Definition q_clear m d := pops q_pop (S (Z.to_nat (a_size d))) m d.
Definition s_clear m d := pops s_pop (S (Z.to_nat (a_size d))) m d.
End Over.

(** ** priority_queue (queue.h:179-340) over a vector, which is taken as the list of its values (C48); [lt] is comp_ *)
Section Prio.
Context {T : Type} (lt : T -> T -> bool).
Implicit Types (c : list T).
(** queue.h:211-255: the constructors from values, a range, a list, a container or another queue; queue.h:257-277: the assignments *)
Definition p_make c : option (list T) := make_heap lt c 0 (Z.of_nat (length c)).
(** queue.h:284, vector.h:195-199: there must be an element *)
Definition p_top c : option T := rd c 0.
(** queue.h:287-288 *)
Definition p_empty c : bool := match c with [] => true | _ => false end.
Definition p_size c : Z := Z.of_nat (length c).
(** queue.h:291-307: emplace and both push *)
Definition p_push c (v : T) : option (list T) := push_heap lt (c ++ [v]) 0 (Z.of_nat (length (c ++ [v]))).
(** queue.h:309-313; vector.h:461-466 pop_back: there must be an element *)
Definition p_pop c : option (list T) :=
  let* c := pop_heap lt c 0 (Z.of_nat (length c)) in if p_empty c then None else Some (removelast c).
(** queue.h:315-319 *)
Fixpoint p_clear_loop (fuel : nat) c : option (list T) :=
  match fuel with O => None | S fuel => if p_empty c then Some c else let* c := p_pop c in p_clear_loop fuel c end.
Definition p_clear c : option (list T) := p_clear_loop (S (length c)) c.
End Prio.

(** ** numeric.h; [a] is the storage, the source is [first, last) and the destination begins at [r] of the same storage *)
Section Num.
Context {T S : Type}.
(** numeric.h:17-25, 28-36 accumulate; [op] is += or binary_op *)
Fixpoint accumulate (fuel : nat) (op : S -> T -> S) (a : list T) (first last : Z) (init : S) : option S :=
  match fuel with
  | O => None
  | Datatypes.S fuel => if first =? last then Some init else let* x := rd a first in accumulate fuel op a (first + 1) last (op init x)
  end.
(** numeric.h:82-90, 93-102 inner_product; the second range begins at [g] of the storage [b] *)
Fixpoint inner_product (fuel : nat) {U V : Type} (op1 : S -> V -> S) (op2 : T -> U -> V) (a : list T) (b : list U) (first last g : Z) (init : S) : option S :=
  match fuel with
  | O => None
  | Datatypes.S fuel =>
    if first =? last then Some init
    else let* x := rd a first in let* y := rd b g in inner_product fuel op1 op2 a b (first + 1) last (g + 1) (op1 init (op2 x y))
  end.
(** numeric.h:108-116 iota; [succ] is ++ *)
Fixpoint iota (fuel : nat) (succ : T -> T) (a : list T) (first last : Z) (value : T) : option (list T) :=
  match fuel with
  | O => None
  | Datatypes.S fuel =>
    if first =? last then Some a else let* a := wr a first value in iota fuel succ a (first + 1) last (succ value)
  end.
End Num.
Section Num2.
Context {T : Type}.
(** numeric.h:50-56, 67-73: the loop of adjacent_difference; [sub] is - or binary_op; the storage and the end of the result *)
Fixpoint ad_loop (fuel : nat) (sub : T -> T -> T) (a : list T) (first last r : Z) (value : T) : option (list T * Z) :=
  match fuel with
  | O => None
  | S fuel =>
    let first := first + 1 in
    if first =? last then Some (a, r + 1)
    else
      let* tmp := rd a first in
      let r := r + 1 in
      let* a := wr a r (sub tmp value) in
      ad_loop fuel sub a first last r tmp
  end.
(** numeric.h:44-57, 60-74 adjacent_difference *)
Definition adjacent_difference (sub : T -> T -> T) (a : list T) (first last r : Z) : option (list T * Z) :=
  if first =? last then Some (a, r)
  else
    let* x := rd a first in
    let* a := wr a r x in
    let* value := rd a first in
    ad_loop (S (Z.to_nat (last - first))) sub a first last r value.
(** numeric.h:129-134, 145-150: the loop of partial_sum; [add] is + or binary_op *)
Fixpoint ps_loop (fuel : nat) (add : T -> T -> T) (a : list T) (first last r : Z) (value : T) : option (list T * Z) :=
  match fuel with
  | O => None
  | S fuel =>
    let first := first + 1 in
    if first =? last then Some (a, r + 1)
    else
      let* x := rd a first in
      let value := add value x in
      let r := r + 1 in
      let* a := wr a r value in
      ps_loop fuel add a first last r value
  end.
(** numeric.h:123-135, 138-151 partial_sum *)
Definition partial_sum (add : T -> T -> T) (a : list T) (first last r : Z) : option (list T * Z) :=
  if first =? last then Some (a, r)
  else
    let* x := rd a first in
    let* a := wr a r x in
    let* value := rd a first in
    ps_loop (S (Z.to_nat (last - first))) add a first last r value.
End Num2.
