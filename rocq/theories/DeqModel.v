(** mylib/mystl/deque.h, the double-ended queue, on an explicit memory.

    A memory holds buffers and map blocks.  A buffer is at an address and has [bs] slots (buffer_size); a slot is raw ([None]) or holds an
    object.  Of a map block only whether it is allocated is in the memory; its pointers are in the deque object ([mp], [msz]), which alone
    uses it.  New blocks come from a counter: operator new gives an address that is not in use.  An iterator is the index of its node in
    the map and the offset of cur in the buffer; first and last are the bounds of the buffer of the node, and two iterators are equal when
    node and offset are (different nodes have different buffers, which is part of what is proved).  [triv] says whether T is trivially
    destructible.  Undefined behaviour is [None]: access to a slot of a buffer that is not there, reading or assigning or destroying an
    object that is not there, reading or writing a pointer outside the map, running with a pointer out of a buffer, freeing a block twice;
    so is a failed assertion (MYSTL_DEBUG) and the exception of at().  Numbers of type size_type and difference_type are integers: they
    count objects in memory and stay below 2^63.  Not modelled: failure of operator new and exceptions of constructors (the catch
    blocks).  Ranges given by iterators of other containers are the lists of their values.  Moving a value is copying it. *)
From Coq Require Import ZArith List Bool.
From Verif Require Import F64.
Import ListNotations.
Open Scope Z_scope.
Open Scope opt_scope.

(** deque.h:44-48 deque_buf_size, from sizeof(T) *)
Definition buf_size (sz : Z) : Z := if sz <? 256 then 4096 / sz else 16.

Section Deque.
Context {T : Type} (bs : Z) (triv : bool).

Record memory := mkMem { bufs : Z -> option (Z -> option T); mblk : Z -> bool; nxt : Z }.
(** deque.h:65-68 *)
Notation it := (Z * Z)%type.
(** deque.h:236-241; [mid] is the address of the map block, 0 when map_ is null *)
Record deque := mkDeq { mid : Z; mp : Z -> option Z; msz : Z; beg : Z * Z; fin : Z * Z }.
Implicit Types (m : memory) (d : deque) (v : T) (xs : list T).

Definition set_beg d i := mkDeq (mid d) (mp d) (msz d) i (fin d).
Definition set_fin d i := mkDeq (mid d) (mp d) (msz d) (beg d) i.
Definition set_mp d f := mkDeq (mid d) f (msz d) (beg d) (fin d).
Definition upd {A} (f : Z -> A) (k : Z) (x : A) : Z -> A := fun z => if z =? k then x else f z.
Definition within (k n : Z) : bool := (0 <=? k) && (k <? n).

(** ** iterators *)
(** deque.h:111-116 set_node: reads the pointer in the map *)
Definition set_node d n : option Z := if within n (msz d) then Some n else None.
(** deque.h:122-126 *)
Definition diff (i j : it) : Z := bs * (fst i - fst j) + snd i - snd j.
(** deque.h:128-137 *)
Definition inc d (i : it) : option it :=
  if snd i + 1 =? bs then let* n := set_node d (fst i + 1) in Some (n, 0) else Some (fst i, snd i + 1).
(** deque.h:145-154 *)
Definition dec d (i : it) : option it :=
  if snd i =? 0 then let* n := set_node d (fst i - 1) in Some (n, bs - 1) else Some (fst i, snd i - 1).
(** deque.h:162-178, 179-183; the divisions are of numbers that are not negative *)
Definition plus d (i : it) (n : Z) : option it :=
  let offset := n + snd i in
  if (0 <=? offset) && (offset <? bs) then Some (fst i, snd i + n)
  else
    let node_offset := if 0 <? offset then offset / bs else - ((- offset - 1) / bs) - 1 in
    let* n := set_node d (fst i + node_offset) in Some (n, offset - node_offset * bs).
(** deque.h:184-192 *)
Definition minus d (i : it) (n : Z) : option it := plus d i (- n).
(** deque.h:197 *)
Definition ieq (i j : it) : bool := (fst i =? fst j) && (snd i =? snd j).
(** deque.h:198-199 *)
Definition ilt (i j : it) : bool := if fst i =? fst j then snd i <? snd j else fst i <? fst j.
(** deque.h:202 *)
Definition ile (i j : it) : bool := negb (ilt j i).

(** ** objects in slots *)
(** the buffer an iterator is in *)
Definition buf m d (i : it) : option (Z * (Z -> option T)) :=
  let* a := mp d (fst i) in let* f := bufs m a in if within (snd i) bs then Some (a, f) else None.
(** deque.h:119 operator* as a value *)
Definition rd m d (i : it) : option T := let* af := buf m d i in snd af (snd i).
Definition put m d (i : it) (x : option T) : option memory :=
  let* af := buf m d i in Some (mkMem (upd (bufs m) (fst af) (Some (upd (snd af) (snd i) x))) (mblk m) (nxt m)).
(** construct.h:25-39 *)
Definition con m d i v : option memory := put m d i (Some v).
(** assignment through the iterator *)
Definition asg m d i v : option memory := let* _ := rd m d i in put m d i (Some v).
(** construct.h:43-59 *)
Definition des m d i : option memory := if triv then Some m else let* _ := rd m d i in put m d i None.
(** construct.h:61-76, for the slots c to c + n - 1 of the buffer of node k *)
Fixpoint des_n (n : nat) m d (k c : Z) : option memory :=
  match n with O => Some m | S n => let* m := des m d (k, c) in des_n n m d k (c + 1) end.
(** construct.h:61-76, from the pointer i.cur to the pointer j.cur: outside one buffer there is no such range *)
Definition des_ptr m d (i j : it) : option memory :=
  if triv then Some m
  else if (fst i =? fst j) && (snd i <=? snd j) then des_n (Z.to_nat (snd j - snd i)) m d (fst i) (snd i) else None.

(** writing: with [new] into raw storage (uninitialized.h), else by assignment (algobase.h) *)
Definition wrt (new : bool) m d i v : option memory := if new then con m d i v else asg m d i v.
(** algobase.h:86-96, uninitialized.h:33-42: from a range of the deque *)
Fixpoint copy (new : bool) (n : nat) m d (f r : it) : option (memory * it) :=
  match n with
  | O => Some (m, r)
  | S n => let* v := rd m d f in let* m := wrt new m d r v in let* f := inc d f in let* r := inc d r in copy new n m d f r
  end.
(** algobase.h:141-149 *)
Fixpoint copy_back (n : nat) m d (l r : it) : option (memory * it) :=
  match n with
  | O => Some (m, r)
  | S n => let* l := dec d l in let* r := dec d r in let* v := rd m d l in let* m := asg m d r v in copy_back n m d l r
  end.
(** algobase.h:86-96, uninitialized.h:33-42: from another range *)
Fixpoint copy_list (new : bool) xs m d (r : it) : option (memory * it) :=
  match xs with
  | [] => Some (m, r)
  | v :: xs => let* m := wrt new m d r v in let* r := inc d r in copy_list new xs m d r
  end.
(** algobase.h fill, fill_n, uninitialized.h uninitialized_fill, uninitialized_fill_n *)
Definition fill (new : bool) (n : Z) m d (r : it) v : option (memory * it) := copy_list new (repeat v (Z.to_nat n)) m d r.
Definition span (i j : it) : nat := Z.to_nat (diff j i).

(** ** blocks *)
(** allocator.h:50-56 *)
Definition alloc m : Z * memory := (nxt m, mkMem (upd (bufs m) (nxt m) (Some (fun _ => None))) (mblk m) (nxt m + 1)).
Definition alloc_map m : Z * memory := (nxt m, mkMem (bufs m) (upd (mblk m) (nxt m) true) (nxt m + 1)).
Definition free_map m a : option memory :=
  if a =? 0 then Some m else if mblk m a then Some (mkMem (bufs m) (upd (mblk m) a false) (nxt m)) else None.
(** deque.h:863-886 create_buffer: n buffers from the pointer k of a map with sz pointers on; what the pointers were before is lost *)
Fixpoint create_buffer (n : nat) m (f : Z -> option Z) (sz k : Z) : option (memory * (Z -> option Z)) :=
  match n with
  | O => Some (m, f)
  | S n => if within k sz then let (a, m) := alloc m in create_buffer n m (upd f k (Some a)) sz (k + 1) else None
  end.
(** allocator.h:66-72 with the pointer set to null after it *)
Definition drop m d k : option (memory * deque) :=
  if within k (msz d) then
    match mp d k with
    | None => Some (m, d)
    | Some a => let* _ := bufs m a in Some (mkMem (upd (bufs m) a None) (mblk m) (nxt m), set_mp d (upd (mp d) k None))
    end
  else None.
(** deque.h:888-898 destroy_buffer, for n buffers from the node k on *)
Fixpoint destroy_buffer (n : nat) m d k : option (memory * deque) :=
  match n with O => Some (m, d) | S n => let* md := drop m d k in destroy_buffer n (fst md) (snd md) (k + 1) end.

(** deque.h:1341-1342, 1366-1367: n pointers from the map f with sz pointers, from index j on, into the map g with sz' pointers *)
Fixpoint copy_ptr (n : nat) (f : Z -> option Z) (sz j : Z) (g : Z -> option Z) (sz' k : Z) : option (Z -> option Z) :=
  match n with
  | O => Some g
  | S n => if within j sz && within k sz' then copy_ptr n f sz (j + 1) (upd g k (f j)) sz' (k + 1) else None
  end.
(** deque.h:1326-1350, with create_map (852-861) *)
Definition reallocate_map_at_front m d (need : Z) : option (memory * deque) :=
  let new_size := Z.max (msz d * 2) (msz d + need + 8) in
  let (a, m) := alloc_map m in
  let old := fst (fin d) - fst (beg d) + 1 in
  let total := old + need in
  let begin_ := (new_size - total) / 2 in
  let mid_ := begin_ + need in
  let end_ := mid_ + old in
  let* mf := create_buffer (Z.to_nat (mid_ - begin_)) m (fun _ => None) new_size begin_ in
  let* f := copy_ptr (Z.to_nat (end_ - mid_)) (mp d) (msz d) (fst (beg d)) (snd mf) new_size mid_ in
  let* m := free_map (fst mf) (mid d) in
  Some (m, mkDeq a f new_size (mid_, snd (beg d)) (end_ - 1, snd (fin d))).
(** deque.h:1352-1376 *)
Definition reallocate_map_at_back m d (need : Z) : option (memory * deque) :=
  let new_size := Z.max (msz d * 2) (msz d + need + 8) in
  let (a, m) := alloc_map m in
  let old := fst (fin d) - fst (beg d) + 1 in
  let total := old + need in
  let begin_ := (new_size - total) / 2 in
  let mid_ := begin_ + old in
  let end_ := mid_ + need in
  let* f := copy_ptr (Z.to_nat (mid_ - begin_)) (mp d) (msz d) (fst (beg d)) (fun _ => None) new_size begin_ in
  let* mf := create_buffer (Z.to_nat (end_ - mid_)) m f new_size mid_ in
  let* m := free_map (fst mf) (mid d) in
  Some (m, mkDeq a (snd mf) new_size (begin_, snd (beg d)) (mid_ - 1, snd (fin d))).
(** deque.h:1300-1324 *)
Definition require_capacity m d (n : Z) (front : bool) : option (memory * deque) :=
  if front && (snd (beg d) <? n) then
    let need := (n - snd (beg d)) / bs + 1 in
    if fst (beg d) <? need then reallocate_map_at_front m d need
    else let* mf := create_buffer (Z.to_nat need) m (mp d) (msz d) (fst (beg d) - need) in Some (fst mf, set_mp d (snd mf))
  else if negb front && (bs - snd (fin d) - 1 <? n) then
    let need := (n - (bs - snd (fin d) - 1)) / bs + 1 in
    if msz d - fst (fin d) - 1 <? need then reallocate_map_at_back m d need
    else let* mf := create_buffer (Z.to_nat need) m (mp d) (msz d) (fst (fin d) + 1) in Some (fst mf, set_mp d (snd mf))
  else Some (m, d).

(** ** capacity and access *)
(** deque.h:333, 334 *)
Definition empty d : bool := ieq (beg d) (fin d).
Definition size d : Z := diff (fin d) (beg d).
(** deque.h:341-350 *)
Definition index m d n : option T := if n <? size d then let* i := plus d (beg d) n in rd m d i else None.
(** deque.h:352-361 *)
Definition at_ m d n : option T := if n <? size d then index m d n else None.
(** deque.h:363-372, 373-382 *)
Definition front m d : option T := if empty d then None else rd m d (beg d).
Definition back m d : option T := if empty d then None else let* i := minus d (fin d) 1 in rd m d i.
(** deque.h:531-546 shrink_to_fit *)
Definition shrink_to_fit m d : option (memory * deque) :=
  let* md := destroy_buffer (Z.to_nat (fst (beg d))) m d 0 in
  destroy_buffer (Z.to_nat (msz d - (fst (fin d) + 1))) (fst md) (snd md) (fst (fin d) + 1).

(** ** adding and removing at the ends *)
(** deque.h:549-573 emplace_front, 614-637 push_front *)
Definition push_front m d v : option (memory * deque) :=
  if negb (snd (beg d) =? 0) then
    let i := (fst (beg d), snd (beg d) - 1) in
    let* m := con m d i v in Some (m, set_beg d i)
  else
    let* md := require_capacity m d 1 true in
    let* i := dec (snd md) (beg (snd md)) in
    let* m := con (fst md) (snd md) i v in Some (m, set_beg (snd md) i).
(** deque.h:575-592 emplace_back, 639-654 push_back *)
Definition push_back m d v : option (memory * deque) :=
  if negb (snd (fin d) =? bs - 1) then
    let* m := con m d (fin d) v in Some (m, set_fin d (fst (fin d), snd (fin d) + 1))
  else
    let* md := require_capacity m d 1 false in
    let* m := con (fst md) (snd md) (fin (snd md)) v in
    let* i := inc (snd md) (fin (snd md)) in Some (m, set_fin (snd md) i).
(** deque.h:656-672 *)
Definition pop_front m d : option (memory * deque) :=
  if empty d then None
  else if negb (snd (beg d) =? bs - 1) then
    let* m := des m d (beg d) in Some (m, set_beg d (fst (beg d), snd (beg d) + 1))
  else
    let* m := des m d (beg d) in
    let* i := inc d (beg d) in
    destroy_buffer 1 m (set_beg d i) (fst i - 1).
(** deque.h:674-690 *)
Definition pop_back m d : option (memory * deque) :=
  if empty d then None
  else if negb (snd (fin d) =? 0) then
    let i := (fst (fin d), snd (fin d) - 1) in
    let* m := des m d i in Some (m, set_fin d i)
  else
    let* i := dec d (fin d) in
    let* m := des m d i in
    destroy_buffer 1 m (set_fin d i) (fst i + 1).

(** ** inserting *)
(** deque.h:1042-1075 insert_aux *)
Definition insert_aux m d (p : it) v : option (memory * deque * it) :=
  let before := diff p (beg d) in
  if before <? size d / 2 then
    let* x := front m d in
    let* md := push_front m d x in
    let (m, d) := (fst md, snd md) in
    let* front1 := inc d (beg d) in
    let* front2 := inc d front1 in
    let* p := plus d (beg d) before in
    let* pos := inc d p in
    let* mr := copy false (span front2 pos) m d front2 front1 in
    let* m := asg (fst mr) d p v in Some (m, d, p)
  else
    let* x := back m d in
    let* md := push_back m d x in
    let (m, d) := (fst md, snd md) in
    let* back1 := dec d (fin d) in
    let* back2 := dec d back1 in
    let* p := plus d (beg d) before in
    let* mr := copy_back (span p back2) m d back2 back1 in
    let* m := asg (fst mr) d p v in Some (m, d, p).
(** deque.h:594-612 emplace, 692-734 insert *)
Definition insert m d (p : it) v : option (memory * deque * it) :=
  if ieq p (beg d) then let* md := push_front m d v in Some (fst md, snd md, beg (snd md))
  else if ieq p (fin d) then
    let* md := push_back m d v in let* i := dec (snd md) (fin (snd md)) in Some (fst md, snd md, i)
  else insert_aux m d p v.
(** deque.h:1077-1149 fill_insert *)
Definition fill_insert m d (p : it) (n : Z) v : option (memory * deque) :=
  let before := diff p (beg d) in
  let len := size d in
  if before <? len / 2 then
    let* md := require_capacity m d n true in
    let (m, d) := (fst md, snd md) in
    let old_begin := beg d in
    let* new_begin := minus d (beg d) n in
    let* p := plus d (beg d) before in
    if n <=? before then
      let* begin_n := plus d (beg d) n in
      let* mr := copy true (span (beg d) begin_n) m d (beg d) new_begin in
      let d := set_beg d new_begin in
      let* mr := copy false (span begin_n p) (fst mr) d begin_n old_begin in
      let* q := minus d p n in
      let* mr := fill false (diff p q) (fst mr) d q v in Some (fst mr, d)
    else
      let* mr := copy true (span (beg d) p) m d (beg d) new_begin in
      let* mr := fill true (diff (beg d) (snd mr)) (fst mr) d (snd mr) v in
      let d := set_beg d new_begin in
      let* mr := fill false (diff p old_begin) (fst mr) d old_begin v in Some (fst mr, d)
  else
    let* md := require_capacity m d n false in
    let (m, d) := (fst md, snd md) in
    let old_end := fin d in
    let* new_end := plus d (fin d) n in
    let after := len - before in
    let* p := minus d (fin d) after in
    if n <? after then
      let* end_n := minus d (fin d) n in
      let* mr := copy true (span end_n (fin d)) m d end_n (fin d) in
      let d := set_fin d new_end in
      let* mr := copy_back (span p end_n) (fst mr) d end_n old_end in
      let* q := plus d p n in
      let* mr := fill false (diff q p) (fst mr) d p v in Some (fst mr, d)
    else
      let* q := plus d p n in
      let* mr := fill true (diff q (fin d)) m d (fin d) v in
      let* mr := copy true (span p (fin d)) (fst mr) d p q in
      let d := set_fin d new_end in
      let* mr := fill false (diff old_end p) (fst mr) d p v in Some (fst mr, d).
(** deque.h:736-759 insert of n copies *)
Definition insert_n m d (p : it) (n : Z) v : option (memory * deque) :=
  if ieq p (beg d) then
    let* md := require_capacity m d n true in
    let (m, d) := (fst md, snd md) in
    let* new_begin := minus d (beg d) n in
    let* mr := fill true n m d new_begin v in Some (fst mr, set_beg d new_begin)
  else if ieq p (fin d) then
    let* md := require_capacity m d n false in
    let (m, d) := (fst md, snd md) in
    let* new_end := plus d (fin d) n in
    let* mr := fill true n m d (fin d) v in Some (fst mr, set_fin d new_end)
  else fill_insert m d p n v.
(** deque.h:1151-1228 copy_insert *)
Definition copy_insert m d (p : it) xs : option (memory * deque) :=
  let n := Z.of_nat (length xs) in
  let before := diff p (beg d) in
  let len := size d in
  if before <? len / 2 then
    let* md := require_capacity m d n true in
    let (m, d) := (fst md, snd md) in
    let old_begin := beg d in
    let* new_begin := minus d (beg d) n in
    let* p := plus d (beg d) before in
    if n <=? before then
      let* begin_n := plus d (beg d) n in
      let* mr := copy true (span (beg d) begin_n) m d (beg d) new_begin in
      let d := set_beg d new_begin in
      let* mr := copy false (span begin_n p) (fst mr) d begin_n old_begin in
      let* q := minus d p n in
      let* mr := copy_list false xs (fst mr) d q in Some (fst mr, d)
    else
      let k := Z.to_nat (n - before) in
      let* mr := copy true (span (beg d) p) m d (beg d) new_begin in
      let* mr := copy_list true (firstn k xs) (fst mr) d (snd mr) in
      let d := set_beg d new_begin in
      let* mr := copy_list false (skipn k xs) (fst mr) d old_begin in Some (fst mr, d)
  else
    let* md := require_capacity m d n false in
    let (m, d) := (fst md, snd md) in
    let old_end := fin d in
    let* new_end := plus d (fin d) n in
    let after := len - before in
    let* p := minus d (fin d) after in
    if n <? after then
      let* end_n := minus d (fin d) n in
      let* mr := copy true (span end_n (fin d)) m d end_n (fin d) in
      let d := set_fin d new_end in
      let* mr := copy_back (span p end_n) (fst mr) d end_n old_end in
      let* mr := copy_list false xs (fst mr) d p in Some (fst mr, d)
    else
      let k := Z.to_nat after in
      let* mr := copy_list true (skipn k xs) m d (fin d) in
      let* mr := copy true (span p (fin d)) (fst mr) d p (snd mr) in
      let d := set_fin d new_end in
      let* mr := copy_list false (firstn k xs) (fst mr) d p in Some (fst mr, d).
(** deque.h:1255-1298 insert_dispatch for forward iterators, called by insert (426-429) *)
Definition insert_range m d (p : it) xs : option (memory * deque) :=
  let n := Z.of_nat (length xs) in
  if n <=? 0 then Some (m, d)
  else if ieq p (beg d) then
    let* md := require_capacity m d n true in
    let (m, d) := (fst md, snd md) in
    let* new_begin := minus d (beg d) n in
    let* mr := copy_list true xs m d new_begin in Some (fst mr, set_beg d new_begin)
  else if ieq p (fin d) then
    let* md := require_capacity m d n false in
    let (m, d) := (fst md, snd md) in
    let* new_end := plus d (fin d) n in
    let* mr := copy_list true xs m d (fin d) in Some (fst mr, set_fin d new_end)
  else copy_insert m d p xs.
(** deque.h:1230-1253 insert_dispatch for input iterators: one by one from the last on, always at the same iterator *)
Fixpoint insert_each xs m d (p : it) : option (memory * deque) :=
  match xs with [] => Some (m, d) | v :: xs => let* mdi := insert m d p v in insert_each xs (fst (fst mdi)) (snd (fst mdi)) p end.
Definition insert_input m d (p : it) xs : option (memory * deque) :=
  let n := Z.of_nat (length xs) in
  if n <=? 0 then Some (m, d)
  else
    let before := diff p (beg d) in
    let* md := require_capacity m d n (before <? size d / 2) in
    let* p := plus (snd md) (beg (snd md)) before in
    insert_each (rev xs) (fst md) (snd md) p.

(** ** removing *)
(** deque.h:814-834 clear *)
Fixpoint des_bufs (n : nat) m d k : option memory :=
  match n with O => Some m | S n => let* m := des_n (Z.to_nat bs) m d k 0 in des_bufs n m d (k + 1) end.
Definition clear m d : option (memory * deque) :=
  let* m := des_bufs (Z.to_nat (fst (fin d) - (fst (beg d) + 1))) m d (fst (beg d) + 1) in
  let* m :=
    if negb (fst (beg d) =? fst (fin d)) then
      let* m := des_n (Z.to_nat (bs - snd (beg d))) m d (fst (beg d)) (snd (beg d)) in
      des_n (Z.to_nat (snd (fin d))) m d (fst (fin d)) 0
    else des_n (Z.to_nat (snd (fin d) - snd (beg d))) m d (fst (beg d)) (snd (beg d)) in
  let* md := shrink_to_fit m d in
  Some (fst md, set_fin (snd md) (beg (snd md))).
(** deque.h:761-780 *)
Definition erase m d (p : it) : option (memory * deque * it) :=
  let* next := inc d p in
  let before := diff p (beg d) in
  let* md :=
    if before <? size d / 2 then
      let* mr := copy_back (span (beg d) p) m d p next in pop_front (fst mr) d
    else
      let* mr := copy false (span next (fin d)) m d next p in pop_back (fst mr) d in
  let* i := plus (snd md) (beg (snd md)) before in Some (fst md, snd md, i).
(** deque.h:782-812 *)
Definition erase_range m d (f l : it) : option (memory * deque * it) :=
  if ieq f (beg d) && ieq l (fin d) then let* md := clear m d in Some (fst md, snd md, fin (snd md))
  else
    let len := diff l f in
    let before := diff f (beg d) in
    let* md :=
      if before <? (size d - len) / 2 then
        let* mr := copy_back (span (beg d) f) m d f l in
        let* new_begin := plus d (beg d) len in
        let* m := des_ptr (fst mr) d (beg d) new_begin in Some (m, set_beg d new_begin)
      else
        let* mr := copy false (span l (fin d)) m d l f in
        let* new_end := minus d (fin d) len in
        let* m := des_ptr (fst mr) d new_end (fin d) in Some (m, set_fin d new_end) in
    let* i := plus (snd md) (beg (snd md)) before in Some (fst md, snd md, i).
(** deque.h:515-529 *)
Definition resize m d n v : option (memory * deque) :=
  let len := size d in
  if n <? len then
    let* i := plus d (beg d) n in
    let* mdi := erase_range m d i (fin d) in Some (fst mdi)
  else insert_n m d (fin d) (n - len) v.
(** deque.h:983-998 fill_assign *)
Definition assign_n m d n v : option (memory * deque) :=
  if size d <? n then
    let* mr := fill false (size d) m d (beg d) v in
    insert_n (fst mr) d (fin d) (n - size d) v
  else
    let* i := plus d (beg d) n in
    let* mdi := erase_range m d i (fin d) in
    let (m, d) := fst mdi in
    let* mr := fill false (size d) m d (beg d) v in Some (fst mr, d).
(** deque.h:1022-1040 copy_assign for forward iterators; 476-497 operator= is the same for the values of the other deque *)
Definition assign_range m d xs : option (memory * deque) :=
  let len1 := size d in
  let len2 := Z.of_nat (length xs) in
  if len1 <? len2 then
    let* mr := copy_list false (firstn (Z.to_nat len1) xs) m d (beg d) in
    insert_range (fst mr) d (fin d) (skipn (Z.to_nat len1) xs)
  else
    let* mr := copy_list false xs m d (beg d) in
    let* mdi := erase_range (fst mr) d (snd mr) (fin d) in Some (fst mdi).

(** ** construction and destruction *)
(** deque.h:900-936 map_init *)
Definition map_init m n : option (memory * deque) :=
  let nodes := n / bs + 1 in
  let sz := Z.max 8 (nodes + 2) in
  let (a, m) := alloc_map m in
  let nstart := (sz - nodes) / 2 in
  let nfinish := nstart + nodes - 1 in
  let* mf := create_buffer (Z.to_nat (nfinish - nstart + 1)) m (fun _ => None) sz nstart in
  Some (fst mf, mkDeq a (snd mf) sz (nstart, 0) (nfinish, n mod bs)).
(** uninitialized.h:16-54 onto the slots of the buffer of node k from c on *)
Fixpoint init_n xs m d k c : option memory :=
  match xs with [] => Some m | v :: xs => let* m := con m d (k, c) v in init_n xs m d k (c + 1) end.
(** deque.h:966-981 copy_init for forward iterators: whole buffers, then the rest *)
Fixpoint init_bufs (n : nat) xs m d k : option (memory * list T) :=
  match n with
  | O => Some (m, xs)
  | S n => let* m := init_n (firstn (Z.to_nat bs) xs) m d k 0 in init_bufs n (skipn (Z.to_nat bs) xs) m d (k + 1)
  end.
Definition copy_init m xs : option (memory * deque) :=
  let* md := map_init m (Z.of_nat (length xs)) in
  let (m, d) := (fst md, snd md) in
  let* mr := init_bufs (Z.to_nat (fst (fin d) - fst (beg d))) xs m d (fst (beg d)) in
  let* m := init_n (snd mr) (fst mr) d (fst (fin d)) 0 in Some (m, d).
(** deque.h:938-952 fill_init *)
Definition fill_init m n v : option (memory * deque) := if n =? 0 then map_init m 0 else copy_init m (repeat v (Z.to_nat n)).
(** deque.h:954-964 copy_init for input iterators *)
Fixpoint push_each xs m d : option (memory * deque) :=
  match xs with [] => Some (m, d) | v :: xs => let* md := push_back m d v in push_each xs (fst md) (snd md) end.
Definition input_init m xs : option (memory * deque) :=
  let* md := map_init m (Z.of_nat (length xs)) in push_each xs (fst md) (snd md).
(** deque.h:287-297 *)
Definition destroy m d : option memory :=
  if mid d =? 0 then Some m
  else
    let* md := clear m d in
    let* md := drop (fst md) (snd md) (fst (beg (snd md))) in
    free_map (fst md) (mid (snd md)).
(** deque.h:267-276 the move constructor: the new object, and what is left of the other one (82-89, 274-275) *)
Definition move_init (x : deque) : deque * deque := (x, mkDeq 0 (fun _ => None) 0 (0, 0) (0, 0)).
(** deque.h:499-513 the move assignment: *this, and what is left of rhs: its iterators are copied, not taken (96-106), and still reach
    the pointers of the map they were in *)
Definition move_assign m d (x : deque) : option (memory * deque * deque) :=
  let* md := clear m d in Some (fst md, x, mkDeq 0 (mp x) (msz x) (beg x) (fin x)).
(** deque.h:499-513 when rhs is *this *)
Definition move_self m d : option (memory * deque) :=
  let* md := clear m d in
  let d := snd md in Some (fst md, mkDeq 0 (mp d) (msz d) (beg d) (fin d)).
(** deque.h:836-847 *)
Definition swap (d x : deque) : deque * deque := (x, d).
End Deque.
