(** mylib/mystl/list.h, the doubly linked list, on an explicit memory.

    Addresses are integers, 0 is the null pointer.  A memory gives for every address nothing (no node there: free or never allocated)
    or the fields of the node there; the end node has no value.  Access through the null pointer, to a node that is not there or to
    the value of the end node is undefined: [None].  A failed assertion (MYSTL_DEBUG, exceptdef.h) and an exception thrown by
    THROW_LENGTH_ERROR_IF are [None] as well.  The addresses of new nodes are arguments of the operations that allocate: any free
    addresses may come out of the allocator.  A list object is the address of its end node and its size, a number modulo 2^64; an
    iterator is the address of a node.  [V] is the type of the elements.  Not modelled: failure of operator new and exceptions thrown
    by constructors, comparisons and predicates (the catch blocks), so that copying a value always succeeds.  [fuel] bounds the rounds
    of a loop; it is taken from the sizes of the lists. *)
From Coq Require Import ZArith List Bool.
From Verif Require Import F64.
Import ListNotations.
Open Scope Z_scope.
Open Scope opt_scope.

Section List.
Context {V : Type}.

(** list.h:41-66, 68-94 *)
Record nd := mkNd { prv : Z; nxt : Z; val : option V }.
Definition memory := Z -> option nd.
(** list.h:238-239 *)
Record obj := mkObj { node : Z; size : Z }.
Implicit Types (m : memory) (L X : obj) (f l p : Z) (fuel : nat).

Definition get m a : option nd := if a =? 0 then None else m a.
Definition put m a (n : nd) : memory := fun z => if z =? a then Some n else m z.
(** node_allocator::deallocate *)
Definition free m a : memory := fun z => if z =? a then None else m z.
Definition set_prv m a x : option memory := let* n := get m a in Some (put m a (mkNd x (nxt n) (val n))).
Definition set_nxt m a x : option memory := let* n := get m a in Some (put m a (mkNd (prv n) x (val n))).
Definition set_val m a v : option memory := let* n := get m a in let* _ := val n in Some (put m a (mkNd (prv n) (nxt n) (Some v))).
(** list.h:119 operator* *)
Definition deref m a : option V := let* n := get m a in val n.
(** list.h:122-127 operator++, 134-139 operator-- *)
Definition inc m a : option Z := let* n := get m a in Some (nxt n).
Definition dec m a : option Z := let* n := get m a in Some (prv n).
(** size_type *)
Definition u64 (z : Z) : Z := z mod 2 ^ 64.
(** list.h:340-341 max_size *)
Definition max_size : Z := 2 ^ 64 - 1.
(** the test of THROW_LENGTH_ERROR_IF before n elements are added *)
Definition room L n : option unit := if max_size - n <? size L then None else Some tt.

(** list.h:820-838 create_node *)
Definition create_node m a (v : V) : memory := put m a (mkNd 0 0 (Some v)).
(** list.h:841-846 destroy_node: the value is destroyed, so it must be there *)
Definition destroy_node m a : option memory := let* _ := deref m a in Some (free m a).

(** ** linking *)
(** list.h:919-926 link_nodes *)
Definition link_nodes m p f l : option memory :=
  let* q := dec m p in
  let* m := set_nxt m q f in
  let* q := dec m p in
  let* m := set_prv m f q in
  let* m := set_prv m p l in
  set_nxt m l p.
(** list.h:929-936 link_nodes_at_front *)
Definition link_front m L f l : option memory :=
  let* m := set_prv m f (node L) in
  let* q := inc m (node L) in
  let* m := set_nxt m l q in
  let* q := inc m l in
  let* m := set_prv m q l in
  set_nxt m (node L) f.
(** list.h:939-946 link_nodes_at_back *)
Definition link_back m L f l : option memory :=
  let* m := set_nxt m l (node L) in
  let* q := dec m (node L) in
  let* m := set_prv m f q in
  let* q := dec m f in
  let* m := set_nxt m q f in
  set_prv m (node L) l.
(** list.h:949-954 unlink_nodes *)
Definition unlink_nodes m f l : option memory :=
  let* a := dec m f in
  let* b := inc m l in
  let* m := set_nxt m a b in
  let* b := inc m l in
  let* a := dec m f in
  set_prv m b a.
(** list.h:899-916 link_iter_node *)
Definition link_iter_node m L p a : option memory :=
  let* b := inc m (node L) in
  if p =? b then link_front m L a a
  else if p =? node L then link_back m L a a
  else link_nodes m p a a.

(** ** construction and destruction *)
(** list.h:857-861, 883-887: the loop of fill_init and copy_init; [new] are the new nodes with their values *)
Fixpoint init_loop m L (new : list (Z * V)) : option memory :=
  match new with
  | [] => Some m
  | (a, v) :: new => let* m := link_back (create_node m a v) L a a in init_loop m L new
  end.
(** list.h:849-896 fill_init, copy_init: the end node at [h] *)
Definition init m h (new : list (Z * V)) : option (memory * obj) :=
  let L := mkObj h (Z.of_nat (length new)) in
  let* m := init_loop (put m h (mkNd h h None)) L new in
  Some (m, L).
(** list.h:618-622: the loop of clear *)
Fixpoint clear_loop fuel m L cur next : option memory :=
  match fuel with
  | O => None
  | S fuel =>
    if cur =? node L then Some m
    else
      let* m := destroy_node m cur in
      let cur := next in
      let* next := inc m cur in
      clear_loop fuel m L cur next
  end.
(** list.h:613-626 clear *)
Definition clear m L : option (memory * obj) :=
  if size L =? 0 then Some (m, L)
  else
    let* cur := inc m (node L) in
    let* next := inc m cur in
    let* m := clear_loop (S (Z.to_nat (size L))) m L cur next in
    let* m := set_prv m (node L) (node L) in
    let* m := set_nxt m (node L) (node L) in
    Some (m, mkObj (node L) 0).
(** list.h:293-302 the destructor *)
Definition destruct_list m L : option memory :=
  if node L =? 0 then Some m
  else
    let* (m, L) := clear m L in
    let* _ := get m (node L) in
    Some (free m (node L)).
(** list.h:263-268 move construction: the new object and the one moved from *)
Definition move_construct X : obj * obj := (X, mkObj 0 0).

(** ** access *)
(** list.h:334-335 empty *)
Definition empty m L : option bool := let* a := inc m (node L) in Some (a =? node L).
(** list.h:344-366 front, back *)
Definition front m L : option V := let* e := empty m L in if e then None else let* a := inc m (node L) in deref m a.
Definition back m L : option V := let* e := empty m L in if e then None else let* a := dec m (node L) in deref m a.

(** ** adding and removing *)
(** list.h:385-392, 448-454 emplace_front, push_front *)
Definition push_front m L a v : option (memory * obj) :=
  let* _ := room L 1 in
  let* m := link_front (create_node m a v) L a a in
  Some (m, mkObj (node L) (u64 (size L + 1))).
(** list.h:394-401, 461-467 emplace_back, push_back *)
Definition push_back m L a v : option (memory * obj) :=
  let* _ := room L 1 in
  let* m := link_back (create_node m a v) L a a in
  Some (m, mkObj (node L) (u64 (size L + 1))).
(** list.h:403-411 emplace: the iterator returned is [a] *)
Definition emplace m L p a v : option (memory * obj) :=
  let* _ := room L 1 in
  let* m := link_nodes (create_node m a v) p a a in
  Some (m, mkObj (node L) (u64 (size L + 1))).
(** list.h:415-429 insert of one element: the iterator returned is [a] *)
Definition insert m L p a v : option (memory * obj) :=
  let* _ := room L 1 in
  let* m := link_iter_node (create_node m a v) L p a in
  Some (m, mkObj (node L) (u64 (size L + 1))).
(** list.h:1013-1018, 1055-1060: the loop of fill_insert and copy_insert: the last node *)
Fixpoint insert_loop m e (new : list (Z * V)) : option (memory * Z) :=
  match new with
  | [] => Some (m, e)
  | (a, v) :: new =>
    let m := create_node m a v in
    let* m := set_nxt m e a in
    let* m := set_prv m a e in
    let* e := inc m e in
    insert_loop m e new
  end.
(** list.h:431-444, 998-1079 insert of several elements, fill_insert, copy_insert: memory, object and iterator *)
Definition insert_many m L p (new : list (Z * V)) : option (memory * obj * Z) :=
  let* _ := room L (Z.of_nat (length new)) in
  match new with
  | [] => Some (m, L, p)
  | (a, v) :: new' =>
    let* m := set_prv (create_node m a v) a 0 in
    let* (m, e) := insert_loop m a new' in
    let* m := link_nodes m p a e in
    Some (m, mkObj (node L) (u64 (size L + Z.of_nat (length new))), a)
  end.
(** list.h:476-492 pop_front, pop_back *)
Definition pop_front m L : option (memory * obj) :=
  let* e := empty m L in
  if e then None
  else
    let* n := inc m (node L) in
    let* m := unlink_nodes m n n in
    let* m := destroy_node m n in
    Some (m, mkObj (node L) (u64 (size L - 1))).
Definition pop_back m L : option (memory * obj) :=
  let* e := empty m L in
  if e then None
  else
    let* n := dec m (node L) in
    let* m := unlink_nodes m n n in
    let* m := destroy_node m n in
    Some (m, mkObj (node L) (u64 (size L - 1))).
(** list.h:580-591 erase of one element: memory, object and iterator *)
Definition erase m L p : option (memory * obj * Z) :=
  if p =? node L then None
  else
    let* next := inc m p in
    let* m := unlink_nodes m p p in
    let* m := destroy_node m p in
    Some (m, mkObj (node L) (u64 (size L - 1)), next).
(** list.h:601-607: the loop of erase of a range *)
Fixpoint erase_loop fuel m L f l : option (memory * obj) :=
  match fuel with
  | O => None
  | S fuel =>
    if f =? l then Some (m, L)
    else
      let cur := f in
      let* f := inc m f in
      let* m := destroy_node m cur in
      erase_loop fuel m (mkObj (node L) (u64 (size L - 1))) f l
  end.
(** list.h:594-610 erase of a range: the iterator returned is [l] *)
Definition erase_range m L f l : option (memory * obj) :=
  if f =? l then Some (m, L)
  else
    let* q := dec m l in
    let* m := unlink_nodes m f q in
    erase_loop (S (Z.to_nat (size L))) m L f l.
(** list.h:634-638: the loop of resize *)
Fixpoint resize_loop fuel m L i len new_size : option (Z * Z) :=
  match fuel with
  | O => None
  | S fuel =>
    if negb (i =? node L) && (len <? new_size) then let* i := inc m i in resize_loop fuel m L i (len + 1) new_size
    else Some (i, len)
  end.
(** list.h:629-647 resize; [new] are the nodes to be added with the value given, as many as are needed *)
Definition resize m L new_size (new : list (Z * V)) : option (memory * obj) :=
  let* i := inc m (node L) in
  let* (i, len) := resize_loop (S (Z.to_nat (size L))) m L i 0 new_size in
  if len =? new_size then erase_range m L i (node L)
  else if Z.of_nat (length new) =? new_size - len then let* (m, L, _) := insert_many m L (node L) new in Some (m, L)
  else None.
(** list.h:962-965, 983-986: the loops of fill_assign and copy_assign: the position reached and the values left *)
Fixpoint assign_loop m e i (vs : list V) : option (memory * Z * list V) :=
  match vs with
  | [] => Some (m, i, [])
  | v :: vs' =>
    if i =? e then Some (m, i, vs)
    else
      let* m := set_val m i v in
      let* i := inc m i in
      assign_loop m e i vs'
  end.
(** list.h:957-995 fill_assign, copy_assign; [ads] are the addresses of the nodes to be added, as many as are needed *)
Definition assign m L (vs : list V) (ads : list Z) : option (memory * obj) :=
  let* i := inc m (node L) in
  let* (m, i, vs) := assign_loop m (node L) i vs in
  match vs with
  | [] => erase_range m L i (node L)
  | _ => if Nat.eqb (length ads) (length vs) then let* (m, L, _) := insert_many m L (node L) (combine ads vs) in Some (m, L) else None
  end.

(** ** operations of lists *)
(** list.h:650-667 splice of a whole list; [X] is another object *)
Definition splice m L p X : option (memory * obj * obj) :=
  let* e := empty m X in
  if e then Some (m, L, X)
  else
    let* _ := room L (size X) in
    let* f := inc m (node X) in
    let* l := dec m (node X) in
    let* m := unlink_nodes m f l in
    let* m := link_nodes m p f l in
    Some (m, mkObj (node L) (u64 (size L + size X)), mkObj (node X) 0).
(** list.h:670-685 splice of one element from another object *)
Definition splice_one m L p X i : option (memory * obj * obj) :=
  let* n := (if p =? i then Some p else inc m i) in
  if (p =? i) || (p =? n) then Some (m, L, X)
  else
    let* _ := room L 1 in
    let* m := unlink_nodes m i i in
    let* m := link_nodes m p i i in
    Some (m, mkObj (node L) (u64 (size L + 1)), mkObj (node X) (u64 (size X - 1))).
(** list.h:670-685 splice of one element from the same object: the size goes up and down again *)
Definition splice_own m L p i : option (memory * obj) :=
  let* n := (if p =? i then Some p else inc m i) in
  if (p =? i) || (p =? n) then Some (m, L)
  else
    let* _ := room L 1 in
    let* m := unlink_nodes m i i in
    let* m := link_nodes m p i i in
    Some (m, mkObj (node L) (u64 (u64 (size L + 1) - 1))).
(** iterator.h:155-167 distance *)
Fixpoint distance fuel m f l : option Z :=
  match fuel with
  | O => None
  | S fuel => if f =? l then Some 0 else let* f := inc m f in let* n := distance fuel m f l in Some (n + 1)
  end.
(** list.h:688-704 splice of a range from another object *)
Definition splice_range m L p X f l : option (memory * obj * obj) :=
  if f =? l then Some (m, L, X)
  else
    let* n := distance (S (Z.to_nat (size X))) m f l in
    let* _ := room L n in
    let* q := dec m l in
    let* m := unlink_nodes m f q in
    let* m := link_nodes m p f q in
    Some (m, mkObj (node L) (u64 (size L + n)), mkObj (node X) (u64 (size X - n))).
(** list.h:688-704 splice of a range from the same object: the condition [this != &x] fails *)
Definition splice_range_own m L p f l : option (memory * obj) := Some (m, L).
(** list.h:707-721 remove_if; the predicate may read the memory *)
Fixpoint remove_loop fuel (pred : memory -> V -> option bool) m L f next : option (memory * obj) :=
  match fuel with
  | O => None
  | S fuel =>
    if f =? node L then Some (m, L)
    else
      let* next := inc m next in
      let* v := deref m f in
      let* b := pred m v in
      if b then let* (m, L, _) := erase m L f in remove_loop fuel pred m L next next
      else remove_loop fuel pred m L next next
  end.
Definition remove_if (pred : memory -> V -> option bool) m L : option (memory * obj) :=
  let* f := inc m (node L) in
  remove_loop (S (Z.to_nat (size L))) pred m L f f.
(** list.h:518-519 remove with a value outside the list *)
Definition remove (eqb : V -> V -> bool) m L v : option (memory * obj) := remove_if (fun _ w => Some (eqb w v)) m L.
(** list.h:518-519 remove with a reference to the value of the node [r] *)
Definition remove_ref (eqb : V -> V -> bool) m L r : option (memory * obj) :=
  remove_if (fun m w => let* v := deref m r in Some (eqb w v)) m L.
(** list.h:724-745 unique *)
Fixpoint unique_loop fuel (pred : V -> V -> bool) m L i j : option (memory * obj) :=
  match fuel with
  | O => None
  | S fuel =>
    if j =? node L then Some (m, L)
    else
      let* a := deref m i in
      let* b := deref m j in
      if pred a b then
        let* (m, L, _) := erase m L j in
        let* j := inc m i in
        unique_loop fuel pred m L i j
      else
        let i := j in
        let* j := inc m i in
        unique_loop fuel pred m L i j
  end.
Definition unique (pred : V -> V -> bool) m L : option (memory * obj) :=
  let* i := inc m (node L) in
  let* j := inc m i in
  unique_loop (S (Z.to_nat (size L))) pred m L i j.

(** list.h:768-769, 1113-1114, 1137-1138: the end of the run of elements before [l2] that are less than the one at [f1] *)
Fixpoint run fuel (comp : V -> V -> bool) m n l2 f1 : option Z :=
  match fuel with
  | O => None
  | S fuel =>
    if n =? l2 then Some n
    else
      let* a := deref m n in
      let* b := deref m f1 in
      if comp a b then let* n := inc m n in run fuel comp m n l2 f1 else Some n
  end.
(** list.h:761-784: the loop of merge: memory and f2 *)
Fixpoint merge_loop fuel (comp : V -> V -> bool) m f1 l1 f2 l2 : option (memory * Z) :=
  match fuel with
  | O => None
  | S fuel' =>
    if (f1 =? l1) || (f2 =? l2) then Some (m, f2)
    else
      let* a := deref m f2 in
      let* b := deref m f1 in
      if comp a b then
        let* n := inc m f2 in
        let* n := run fuel comp m n l2 f1 in
        let f := f2 in
        let* l := dec m n in
        let f2 := n in
        let* m := unlink_nodes m f l in
        let* m := link_nodes m f1 f l in
        let* f1 := inc m f1 in
        merge_loop fuel' comp m f1 l1 f2 l2
      else
        let* f1 := inc m f1 in
        merge_loop fuel' comp m f1 l1 f2 l2
  end.
(** list.h:748-796 merge; [X] is another object *)
Definition merge (comp : V -> V -> bool) m L X : option (memory * obj * obj) :=
  let* _ := room L (size X) in
  let* f1 := inc m (node L) in
  let l1 := node L in
  let* f2 := inc m (node X) in
  let l2 := node X in
  let* (m, f2) := merge_loop (S (Z.to_nat (size L + size X))) comp m f1 l1 f2 l2 in
  let* m := (if f2 =? l2 then Some m
             else
               let f := f2 in
               let* l := dec m l2 in
               let* m := unlink_nodes m f l in
               link_nodes m l1 f l) in
  Some (m, mkObj (node L) (u64 (size L + size X)), mkObj (node X) 0).
(** list.h:799-814 reverse *)
Definition swap_links m a : option memory := let* n := get m a in Some (put m a (mkNd (nxt n) (prv n) (val n))).
Fixpoint reverse_loop fuel m i e : option memory :=
  match fuel with
  | O => None
  | S fuel =>
    if i =? e then Some m
    else
      let* m := swap_links m i in
      let* i := dec m i in
      reverse_loop fuel m i e
  end.
Definition reverse m L : option memory :=
  if size L <=? 1 then Some m
  else
    let* i := inc m (node L) in
    let* m := reverse_loop (S (Z.to_nat (size L))) m i (node L) in
    swap_links m (node L).

(** ** sort *)
(** iterator.h:196-203 advance *)
Fixpoint advance m i (n : nat) : option Z :=
  match n with O => Some i | S n => let* i := inc m i in advance m i n end.
(** list.h:1131-1154: the loop that merges the two halves *)
Fixpoint sort_loop fuel (comp : V -> V -> bool) m f1 l1 f2 l2 : option memory :=
  match fuel with
  | O => None
  | S fuel' =>
    if (f1 =? l1) || (f2 =? l2) then Some m
    else
      let* a := deref m f2 in
      let* b := deref m f1 in
      if comp a b then
        let* n := inc m f2 in
        let* n := run fuel comp m n l2 f1 in
        let f := f2 in
        let* l := dec m n in
        let l1 := if l1 =? f2 then n else l1 in
        let f2 := n in
        let* m := unlink_nodes m f l in
        let* n := inc m f1 in
        let* m := link_nodes m f1 f l in
        sort_loop fuel' comp m n l1 f2 l2
      else
        let* f1 := inc m f1 in
        sort_loop fuel' comp m f1 l1 f2 l2
  end.
(** list.h:1082-1156 list_sort: memory and the iterator returned.  [depth] bounds the depth of the recursion *)
Fixpoint list_sort (depth : nat) (comp : V -> V -> bool) m f1 l2 (n : Z) : option (memory * Z) :=
  match depth with
  | O => None
  | S depth =>
    if n <? 2 then Some (m, f1)
    else if n =? 2 then
      let* l2 := dec m l2 in
      let* a := deref m l2 in
      let* b := deref m f1 in
      if comp a b then
        let* m := unlink_nodes m l2 l2 in
        let* m := link_nodes m f1 l2 l2 in
        Some (m, l2)
      else Some (m, f1)
    else
      let n2 := n / 2 in
      let* l1 := advance m f1 (Z.to_nat n2) in
      let* (m, f1) := list_sort depth comp m f1 l1 n2 in
      let result := f1 in
      let* (m, l1) := list_sort depth comp m l1 l2 (n - n2) in
      let f2 := l1 in
      let fuel := S (Z.to_nat n) in
      let* a := deref m f2 in
      let* b := deref m f1 in
      if comp a b then
        let* k := inc m f2 in
        let* k := run fuel comp m k l2 f1 in
        let f := f2 in
        let* l := dec m k in
        let result := f2 in
        let* m := unlink_nodes m f l in
        let* j := inc m f1 in
        let* m := link_nodes m f1 f l in
        let* m := sort_loop fuel comp m j k k l2 in
        Some (m, result)
      else
        let* f1 := inc m f1 in
        let* m := sort_loop fuel comp m f1 l1 f2 l2 in
        Some (m, result)
  end.
(** list.h:533-537 sort *)
Definition sort (comp : V -> V -> bool) m L : option memory :=
  let* f1 := inc m (node L) in
  let* (m, _) := list_sort (S (Z.to_nat (size L))) comp m f1 (node L) (size L) in
  Some m.

(** ** whole lists *)
(** list.h:1159-1169 operator== *)
Fixpoint equal_loop fuel (eqb : V -> V -> bool) m f1 l1 f2 l2 : option bool :=
  match fuel with
  | O => None
  | S fuel =>
    if negb (f1 =? l1) && negb (f2 =? l2) then
      let* a := deref m f1 in
      let* b := deref m f2 in
      if eqb a b then let* f1 := inc m f1 in let* f2 := inc m f2 in equal_loop fuel eqb m f1 l1 f2 l2
      else Some ((f1 =? l1) && (f2 =? l2))
    else Some ((f1 =? l1) && (f2 =? l2))
  end.
Definition equal (eqb : V -> V -> bool) m L X : option bool :=
  let* f1 := inc m (node L) in
  let* f2 := inc m (node X) in
  equal_loop (S (Z.to_nat (size L))) eqb m f1 (node L) f2 (node X).
(** list.h:279-284 move assignment from another object *)
Definition move_assign m L X : option (memory * obj * obj) :=
  let* (m, L) := clear m L in
  splice m L (node L) X.
(** list.h:279-284 move assignment of a list to itself: after clear the assertion [this != &x] of splice (653) fails *)
Definition move_assign_self m L : option (memory * obj) := let* (m, L) := clear m L in None.
(** list.h:279-284 the same with NDEBUG: splice finds the list empty *)
Definition move_assign_self_release m L : option (memory * obj) := clear m L.
End List.
