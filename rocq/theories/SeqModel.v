(** The algorithms of mylib/mystl/algo.h and algobase.h that search a sequence or go through it once.
    A position is an integer; [get i] is [*i], undefined outside the sequence.  Positions of reverse iterators count from the end. *)
From Coq Require Import ZArith List Bool.
From Verif Require Import F64 ArrModel.
Import ListNotations.
Open Scope Z_scope.

Section Read.
Context {A : Type}.
Implicit Types (get : Z -> option A) (pred : A -> bool) (eqb : A -> A -> bool).

(** algo.h:26-35 [all_of]; [fuel] bounds the rounds of the loop here and below *)
Fixpoint all_of (fuel : nat) pred get (first last : Z) : option bool :=
  match fuel with O => None | S fuel =>
    if first =? last then Some true
    else let* x := get first in if negb (pred x) then Some false else all_of fuel pred get (first + 1) last
  end.
(** algo.h:42-51 [any_of] *)
Fixpoint any_of (fuel : nat) pred get (first last : Z) : option bool :=
  match fuel with O => None | S fuel =>
    if first =? last then Some false
    else let* x := get first in if pred x then Some true else any_of fuel pred get (first + 1) last
  end.
(** algo.h:58-67 [none_of] *)
Fixpoint none_of (fuel : nat) pred get (first last : Z) : option bool :=
  match fuel with O => None | S fuel =>
    if first =? last then Some true
    else let* x := get first in if pred x then Some false else none_of fuel pred get (first + 1) last
  end.
(** algo.h:90-99 [count_if], with [pred x = (x == value)] 73-83 [count]; the count stays below 2^64 as there are fewer elements *)
Fixpoint count_if (fuel : nat) pred get (first last n : Z) : option Z :=
  match fuel with O => None | S fuel =>
    if first =? last then Some n
    else let* x := get first in count_if fuel pred get (first + 1) last (if pred x then n + 1 else n)
  end.
(** algo.h:119-125 [find_if]; 105-111 [find] with [pred x = (x == value)]; 132-138 [find_if_not] with [pred] negated *)
Fixpoint find_if (fuel : nat) pred get (first last : Z) : option Z :=
  match fuel with O => None | S fuel =>
    if first =? last then Some first
    else let* x := get first in if pred x then Some first else find_if fuel pred get (first + 1) last
  end.

(** algo.h:155-173 the loop of [search]; [f2], [l2]: first2, last2 *)
Fixpoint search_loop (fuel : nat) eqb get get2 (last1 f2 l2 d2 first1 c1 c2 d1 : Z) : option Z :=
  match fuel with O => None | S fuel =>
    if c2 =? l2 then Some first1
    else
      let* x := get c1 in let* y := get2 c2 in
      if eqb x y then search_loop fuel eqb get get2 last1 f2 l2 d2 first1 (c1 + 1) (c2 + 1) d1
      else if d1 =? d2 then Some last1
      else search_loop fuel eqb get get2 last1 f2 l2 d2 (first1 + 1) (first1 + 1) f2 (d1 - 1)
  end.
(** algo.h:144-175 [search], 178-212 with a function object *)
Definition search eqb get get2 (first1 last1 first2 last2 : Z) : option Z :=
  let d1 := last1 - first1 in
  let d2 := last2 - first2 in
  if d1 <? d2 then Some last1
  else search_loop (S (Z.to_nat ((d1 - d2) * (d2 + 1) + d2))) eqb get get2 last1 first2 last2 d2 first1 first1 first2 d1.

(** algo.h:232-236 *)
Fixpoint run_loop (fuel : nat) pred get (last i m : Z) : option (Z * Z) :=
  match fuel with O => None | S fuel =>
    if i =? last then Some (i, m)
    else if m =? 0 then Some (i, m)
    else let* x := get i in if pred x then run_loop fuel pred get last (i + 1) (m - 1) else Some (i, m)
  end.
(** algo.h:227-246 *)
Fixpoint search_n_loop (fuel : nat) pred get (last n first : Z) : option Z :=
  match fuel with O => None | S fuel =>
    if first =? last then Some last
    else
      let* (i, m) := run_loop (S (Z.to_nat (last - first))) pred get last (first + 1) (n - 1) in
      if m =? 0 then Some first
      else let* first := find_if (S (Z.to_nat (last - i))) pred get i last in search_n_loop fuel pred get last n first
  end.
(** algo.h:217-249 [search_n] with [pred x = (x == value)], 252-297 with [pred x = comp(x, value)]; Size is a signed type *)
Definition search_n pred get (first last n : Z) : option Z :=
  if n <=? 0 then Some first
  else let* f := find_if (S (Z.to_nat (last - first))) pred get first last in search_n_loop (S (Z.to_nat (last - first))) pred get last n f.

(** algo.h:315-331 *)
Fixpoint find_end_loop (fuel : nat) eqb get get2 (first1 last1 first2 last2 result : Z) : option Z :=
  match fuel with O => None | S fuel =>
    let* new_result := search eqb get get2 first1 last1 first2 last2 in
    if new_result =? last1 then Some result
    else find_end_loop fuel eqb get get2 (new_result + 1) last1 first2 last2 new_result
  end.
(** algo.h:304-333 [find_end_dispatch] for forward iterators, with a function object 371-400 *)
Definition find_end_forward eqb get get2 (first1 last1 first2 last2 : Z) : option Z :=
  if first2 =? last2 then Some last1
  else find_end_loop (S (Z.to_nat (last1 - first1))) eqb get get2 first1 last1 first2 last2 last1.
(** algo.h:336-356 [find_end_dispatch] for bidirectional iterators, with a function object 403-423.  The reverse iterator with base [b]
    (iterator.h:229-330) is the position [- b]: it reads [b - 1], and [++] decrements b. *)
Definition find_end_bidirectional eqb get get2 (first1 last1 first2 last2 : Z) : option Z :=
  let* rresult := search eqb (fun i => get (- i - 1)) (fun i => get2 (- i - 1)) (- last1) (- first1) (- last2) (- first2) in
  if rresult =? - first1 then Some last1
  else Some (- rresult - (last2 - first2)).
(** algo.h:359-366 [find_end], 426-433 *)
Definition find_end (bid : bool) eqb get get2 (first1 last1 first2 last2 : Z) : option Z :=
  if bid then find_end_bidirectional eqb get get2 first1 last1 first2 last2 else find_end_forward eqb get get2 first1 last1 first2 last2.

(** algo.h:440-454 [find_first_of], 457-471: the inner loop is [any_of] *)
Fixpoint find_first_of (fuel : nat) eqb get get2 (first1 last1 first2 last2 : Z) : option Z :=
  match fuel with O => None | S fuel =>
    if first1 =? last1 then Some last1
    else
      let* x := get first1 in
      let* hit := any_of (S (Z.to_nat (last2 - first2))) (eqb x) get2 first2 last2 in
      if hit then Some first1 else find_first_of fuel eqb get get2 (first1 + 1) last1 first2 last2
  end.
(** algo.h:496-502 *)
Fixpoint adjacent_loop (fuel : nat) eqb get (first last : Z) : option Z :=
  match fuel with O => None | S fuel =>
    let next := first + 1 in
    if next =? last then Some last
    else let* x := get first in let* y := get next in if eqb x y then Some first else adjacent_loop fuel eqb get next last
  end.
(** algo.h:492-503 [adjacent_find], 506-517 *)
Definition adjacent_find eqb get (first last : Z) : option Z :=
  if first =? last then Some last else adjacent_loop (S (Z.to_nat (last - first))) eqb get first last.
(** algo.h:1140-1145 *)
Fixpoint max_loop (fuel : nat) (lt : A -> A -> bool) get (result first last : Z) : option Z :=
  match fuel with O => None | S fuel =>
    let first := first + 1 in
    if first =? last then Some result
    else let* x := get result in let* y := get first in max_loop fuel lt get (if lt x y then first else result) first last
  end.
(** algo.h:1134-1147 [max_element], 1150-1163 *)
Definition max_element (lt : A -> A -> bool) get (first last : Z) : option Z :=
  if first =? last then Some first else max_loop (S (Z.to_nat (last - first))) lt get first first last.
(** algo.h:1175-1180 *)
Fixpoint min_loop (fuel : nat) (lt : A -> A -> bool) get (result first last : Z) : option Z :=
  match fuel with O => None | S fuel =>
    let first := first + 1 in
    if first =? last then Some result
    else let* x := get result in let* y := get first in min_loop fuel lt get (if lt y x then first else result) first last
  end.
(** algo.h:1170-1182 [min_elememt] (sic), 1185-1198 *)
Definition min_element (lt : A -> A -> bool) get (first last : Z) : option Z :=
  if first =? last then Some first else min_loop (S (Z.to_nat (last - first))) lt get first first last.
(** algobase.h:493-503 [mismatch], 506-516 *)
Fixpoint mismatch (fuel : nat) eqb get get2 (first1 last1 first2 : Z) : option (Z * Z) :=
  match fuel with O => None | S fuel =>
    if first1 =? last1 then Some (first1, first2)
    else let* x := get first1 in let* y := get2 first2 in
         if eqb x y then mismatch fuel eqb get get2 (first1 + 1) last1 (first2 + 1) else Some (first1, first2)
  end.
(** algobase.h:352-361 [equal], 364-373; [eqb x y] is [!(x != y)] *)
Fixpoint equal (fuel : nat) eqb get get2 (first1 last1 first2 : Z) : option bool :=
  match fuel with O => None | S fuel =>
    if first1 =? last1 then Some true
    else let* x := get first1 in let* y := get2 first2 in
         if negb (eqb x y) then Some false else equal fuel eqb get get2 (first1 + 1) last1 (first2 + 1)
  end.

(** algo.h:1617-1621 the common prefix *)
Fixpoint perm_prefix (fuel : nat) eqb get get2 (first1 last1 first2 last2 : Z) : option (Z * Z) :=
  match fuel with O => None | S fuel =>
    if (first1 =? last1) || (first2 =? last2) then Some (first1, first2)
    else let* x := get first1 in let* y := get2 first2 in
         if negb (eqb x y) then Some (first1, first2) else perm_prefix fuel eqb get get2 (first1 + 1) last1 (first2 + 1) last2
  end.
(** algo.h:1637-1671 the rest; the inner loops are [any_of] ([pred( *j, *i)]) and [count_if] ([pred( *i, *j)]) *)
Fixpoint perm_rest (fuel : nat) eqb get get2 (first1 last1 first2 last2 i : Z) : option bool :=
  match fuel with O => None | S fuel =>
    if i =? last1 then Some true
    else
      let* x := get i in
      let* rep := any_of (S (Z.to_nat (i - first1))) (fun y => eqb y x) get first1 i in
      if rep then perm_rest fuel eqb get get2 first1 last1 first2 last2 (i + 1)
      else
        let* c2 := count_if (S (Z.to_nat (last2 - first2))) (eqb x) get2 first2 last2 0 in
        if c2 =? 0 then Some false
        else
          let* c1 := count_if (S (Z.to_nat (last1 - i))) (eqb x) get (i + 1) last1 1 in
          if negb (c1 =? c2) then Some false else perm_rest fuel eqb get get2 first1 last1 first2 last2 (i + 1)
  end.
(** algo.h:1601-1675 [is_permutation_aux]; [ran]: both iterators are random access ones.  The counters are int; sequences are
    shorter than 2^31. *)
Definition is_permutation (ran : bool) eqb get get2 (first1 last1 first2 last2 : Z) : option bool :=
  if ran && negb (last1 - first1 =? last2 - first2) then Some false
  else
    let* (f1, f2) := perm_prefix (S (Z.to_nat (last1 - first1))) eqb get get2 first1 last1 first2 last2 in
    let rest := perm_rest (S (Z.to_nat (last1 - f1))) eqb get get2 f1 last1 f2 last2 f1 in
    if ran then (if f1 =? last1 then Some true else rest)
    else if (last1 - f1 =? 0) && (last2 - f2 =? 0) then Some true
    else if negb (last1 - f1 =? last2 - f2) then Some false
    else rest.
End Read.

(** ** algorithms that write into the sequence: the array [a] is read and written *)
Section Write.
Context {A : Type}.
Implicit Types (a : list A) (pred : A -> bool) (eqb : A -> A -> bool).

(** algo.h:1283-1294 [remove_copy_if] within one array, 1248-1260 [remove_copy]; the value to be removed is not in the range *)
Fixpoint remove_copy_if (fuel : nat) pred a (first last result : Z) : option (list A * Z) :=
  match fuel with O => None | S fuel =>
    if first =? last then Some (a, result)
    else
      let* x := rd a first in
      if negb (pred x) then let* a := wr a result x in remove_copy_if fuel pred a (first + 1) last (result + 1)
      else remove_copy_if fuel pred a (first + 1) last result
  end.
(** algo.h:1300-1306 [remove_if], 1268-1273 [remove] *)
Definition remove_if pred a (first last : Z) : option (list A * Z) :=
  let fuel := S (Z.to_nat (last - first)) in
  let* first := find_if fuel pred (rd a) first last in
  if first =? last then Some (a, first) else remove_copy_if fuel pred a (first + 1) last first.
(** algo.h:1354-1363 [replace_if], 1313-1322 [replace]; the values are not in the range *)
Fixpoint replace_if (fuel : nat) pred (new_value : A) a (first last : Z) : option (list A) :=
  match fuel with O => None | S fuel =>
    if first =? last then Some a
    else
      let* x := rd a first in
      if pred x then let* a := wr a first new_value in replace_if fuel pred new_value a (first + 1) last
      else replace_if fuel pred new_value a (first + 1) last
  end.
(** algo.h:2633-2642 [unique_copy_dispatch] for forward iterators within one array, 2681-2690: the loop; [eqb x y] is [!(x != y)] *)
Fixpoint unique_loop (fuel : nat) eqb a (first last result : Z) : option (list A * Z) :=
  match fuel with O => None | S fuel =>
    let first := first + 1 in
    if first =? last then Some (a, result + 1)
    else
      let* x := rd a result in let* y := rd a first in
      if negb (eqb x y) then let* a := wr a (result + 1) y in unique_loop fuel eqb a first last (result + 1)
      else unique_loop fuel eqb a first last result
  end.
(** algo.h:2662-2668 [unique_copy], 2710-2716 *)
Definition unique_copy eqb a (first last result : Z) : option (list A * Z) :=
  if first =? last then Some (a, result)
  else let* x := rd a first in let* a := wr a result x in unique_loop (S (Z.to_nat (last - first))) eqb a first last result.
(** algo.h:2723-2728 [unique], 2731-2736 *)
Definition unique eqb a (first last : Z) : option (list A * Z) :=
  let* first := adjacent_find eqb (rd a) first last in unique_copy eqb a first last first.

(** algo.h:2305-2308 *)
Fixpoint part_down (fuel : nat) pred a (first last : Z) : option Z :=
  match fuel with O => None | S fuel =>
    if first =? last then Some last
    else let* x := rd a last in if negb (pred x) then part_down fuel pred a first (last - 1) else Some last
  end.
(** algo.h:2295-2314 the loop of [partition]; the inner loop that goes up is [find_if_not] *)
Fixpoint part_loop (fuel : nat) pred a (first last : Z) : option (list A * Z) :=
  match fuel with O => None | S fuel =>
    let* first := find_if (S (Z.to_nat (last - first))) (fun x => negb (pred x)) (rd a) first last in
    if first =? last then Some (a, first)
    else
      let* last := part_down (S (Z.to_nat (last - first))) pred a first (last - 1) in
      if first =? last then Some (a, first)
      else let* a := iter_swap a first last in part_loop fuel pred a (first + 1) last
  end.
(** algo.h:2291-2315 [partition] *)
Definition partition pred a (first last : Z) : option (list A * Z) := part_loop (S (Z.to_nat (last - first))) pred a first last.
End Write.
