(** inplace_merge of mylib/mystl/algo.h with its temporary buffer (mylib/mystl/memory.h).
    [lt] is [operator<] or the function object of the other overload.  The iterators are positions of one array;
    the buffer holds [buffer_size] elements and what was copied into it is kept as a list. *)
From Coq Require Import ZArith List Bool.
From Verif Require Import F64 ArrModel BsModel RotModel.
Import ListNotations.
Open Scope Z_scope.

Section Merge.
Context {A : Type} (lt : A -> A -> bool).

(** algobase.h:74-83 [copy] from the array to other memory: the values read *)
Fixpoint read_range (k : nat) (a : list A) (first : Z) : option (list A) :=
  match k with
  | O => Some []
  | S k => let* x := rd a first in let* r := read_range k a (first + 1) in Some (x :: r)
  end.
(** copying [first,last) into the buffer; more than the buffer holds is undefined behaviour *)
Definition to_buffer (a : list A) (first last buffer_size : Z) : option (list A) :=
  if last - first <=? buffer_size then read_range (Z.to_nat (last - first)) a first else None.
(** algobase.h:74-83 [copy] from other memory to the array *)
Fixpoint write_range (a : list A) (l : list A) (result : Z) : option (list A) :=
  match l with
  | [] => Some a
  | x :: l => let* a := wr a result x in write_range a l (result + 1)
  end.
(** algobase.h:74-83, 86-96 [copy] inside the array, front to back *)
Fixpoint move_up (k : nat) (a : list A) (first result : Z) : option (list A) :=
  match k with
  | O => Some a
  | S k => let* x := rd a first in let* a := wr a result x in move_up k a (first + 1) (result + 1)
  end.
(** algobase.h:130-138, 141-149 [copy_backward] inside the array, back to front; k elements, ending at last and result *)
Fixpoint move_down (k : nat) (a : list A) (last result : Z) : option (list A) :=
  match k with
  | O => Some a
  | S k => let* x := rd a (last - 1) in let* a := wr a (result - 1) x in move_down k a (last - 1) (result - 1)
  end.

(** algo.h:1811-1832 [merge] with the first range in the buffer and the second in the array where the output goes *)
Fixpoint merge_buf (fuel : nat) (a : list A) (buf : list A) (first2 last2 result : Z) : option (list A) :=
  match fuel with
  | O => None
  | S fuel =>
    match buf with
    | x :: buf' =>
      if negb (first2 =? last2) then
        let* y := rd a first2 in
        if lt y x then let* a := wr a result y in merge_buf fuel a buf (first2 + 1) last2 (result + 1)
        else let* a := wr a result x in merge_buf fuel a buf' first2 last2 (result + 1)
      else
        let* a := write_range a buf result in move_up (Z.to_nat (last2 - first2)) a first2 (result + Z.of_nat (length buf))
    | [] => move_up (Z.to_nat (last2 - first2)) a first2 result
    end
  end.
(** algo.h:1898-1927 [merge_backward] with the second range in the buffer; the loop, 1910-1926.
    [rbuf] is the buffer read from its end, first2 .. last2 inclusive *)
Fixpoint merge_backward_loop (fuel : nat) (a : list A) (first1 last1 : Z) (rbuf : list A) (result : Z) : option (list A) :=
  match fuel with
  | O => None
  | S fuel =>
    match rbuf with
    | [] => None
    | y :: rbuf' =>
      let* x := rd a last1 in
      if lt y x then
        let result := result - 1 in
        let* a := wr a result x in
        if first1 =? last1 then write_range a (rev rbuf) (result - Z.of_nat (length rbuf))
        else merge_backward_loop fuel a first1 (last1 - 1) rbuf result
      else
        let result := result - 1 in
        let* a := wr a result y in
        match rbuf' with
        | [] => move_down (Z.to_nat (last1 + 1 - first1)) a (last1 + 1) result
        | _ => merge_backward_loop fuel a first1 last1 rbuf' result
        end
    end
  end.
Definition merge_backward (a : list A) (first1 last1 : Z) (buf : list A) (result : Z) : option (list A) :=
  if first1 =? last1 then write_range a buf (result - Z.of_nat (length buf))
  else match buf with
       | [] => move_down (Z.to_nat (last1 - first1)) a last1 result
       | _ => merge_backward_loop (S (Z.to_nat (last1 - first1) + length buf)) a first1 (last1 - 1) (rev buf) result
       end.

(** algo.h:1929-1952 [rotate_adaptive]; [k]: the kind of iterator, for [rotate] *)
Definition rotate_adaptive (k : iter_kind) (a : list A) (first middle last len1 len2 buffer_size : Z) : option (list A * Z) :=
  if (len2 <? len1) && (len2 <=? buffer_size) then
    let* buf := to_buffer a middle last buffer_size in
    let* a := move_down (Z.to_nat (middle - first)) a middle last in
    let* a := write_range a buf first in
    Some (a, first + Z.of_nat (length buf))
  else if len1 <=? buffer_size then
    let* buf := to_buffer a first middle buffer_size in
    let* a := move_up (Z.to_nat (last - middle)) a middle first in
    let* a := write_range a buf (last - Z.of_nat (length buf)) in
    Some (a, last - Z.of_nat (length buf))
  else rotate k a first middle last.

(** algo.h:1877-1892 and 1975-1990: the two cuts; the value is (first_cut, second_cut, len11, len22) *)
Definition cuts (a : list A) (first middle last len1 len2 : Z) : option (Z * Z * Z * Z) :=
  if len2 <? len1 then
    let len11 := Z.shiftr len1 1 in
    let first_cut := first + len11 in
    let* x := rd a first_cut in
    let* second_cut := lower_bound lt a middle last x in
    Some (first_cut, second_cut, len11, second_cut - middle)
  else
    let len22 := Z.shiftr len2 1 in
    let second_cut := middle + len22 in
    let* y := rd a second_cut in
    let* first_cut := upper_bound lt a first middle y in
    Some (first_cut, second_cut, first_cut - first, len22).

(** algo.h:1863-1896 [merge_without_buffer], 2029-2063 with a function object *)
Fixpoint merge_without_buffer (fuel : nat) (k : iter_kind) (a : list A) (first middle last len1 len2 : Z) : option (list A) :=
  match fuel with
  | O => None
  | S fuel =>
    if (len1 =? 0) || (len2 =? 0) then Some a
    else if len1 + len2 =? 2 then
      let* y := rd a middle in let* x := rd a first in
      if lt y x then iter_swap a first middle else Some a
    else
      let* c := cuts a first middle last len1 len2 in
      let '(first_cut, second_cut, len11, len22) := c in
      let* r := rotate k a first_cut middle second_cut in
      let '(a, new_middle) := r in
      let* a := merge_without_buffer fuel k a first first_cut new_middle len11 len22 in
      merge_without_buffer fuel k a new_middle second_cut last (len1 - len11) (len2 - len22)
  end.

(** algo.h:1955-1997 [merge_adaptive], 2098-2140 with a function object *)
Fixpoint merge_adaptive (fuel : nat) (k : iter_kind) (a : list A) (first middle last len1 len2 buffer_size : Z) : option (list A) :=
  match fuel with
  | O => None
  | S fuel =>
    if (len1 <=? len2) && (len1 <=? buffer_size) then
      let* buf := to_buffer a first middle buffer_size in
      merge_buf (S (Z.to_nat (last - first))) a buf middle last first
    else if len2 <=? buffer_size then
      let* buf := to_buffer a middle last buffer_size in
      merge_backward a first middle buf last
    else
      let* c := cuts a first middle last len1 len2 in
      let '(first_cut, second_cut, len11, len22) := c in
      let* r := rotate_adaptive k a first_cut middle second_cut (len1 - len11) len22 buffer_size in
      let '(a, new_middle) := r in
      let* a := merge_adaptive fuel k a first first_cut new_middle len11 len22 buffer_size in
      merge_adaptive fuel k a new_middle second_cut last (len1 - len11) (len2 - len22) buffer_size
  end.

(** algo.h:1999-2025 [inplace_merge_aux], [inplace_merge] (with a function object 2142-2168) and memory.h:101-136
    [temporary_buffer]: [got] is the size of the buffer malloc granted, 0 when there is none (begin() is null) *)
Definition inplace_merge (k : iter_kind) (got : Z) (a : list A) (first middle last : Z) : option (list A) :=
  if (first =? middle) || (middle =? last) then Some a
  else
    let len1 := middle - first in
    let len2 := last - middle in
    let fuel := S (Z.to_nat (last - first)) in
    if got =? 0 then merge_without_buffer fuel k a first middle last len1 len2
    else merge_adaptive fuel k a first middle last len1 len2 got.
End Merge.
