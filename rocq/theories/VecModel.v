(** mylib/mystl/vector.h with allocator.h, construct.h, uninitialized.h and the loops of algobase.h, on an explicit memory.

    Addresses are natural numbers (in units of one element); 0 is the null pointer.  A cell is free, allocated but without an object, or
    holds an object.  An element type is given by its values [A], by [triv] (true: trivially copyable and destructible like
    double; false: a class like std::string; the traits is_trivially_copy_assignable, is_trivially_move_assignable and
    is_trivially_destructible used by the code agree for these types), by [mv], the unspecified value a moved-from object is left with,
    and by [selfmv], the unspecified value after a move assignment of an object to itself.
    Undefined behaviour, failed assertions and exceptions are [None].
    Not modelled: failure of operator new, sizes near max_size() (2^64 bytes), exceptions thrown by element constructors. *)
From Coq Require Import List Arith Bool.
From Verif Require Import F64.
Import ListNotations.
Open Scope opt_scope.

Section Vector.
Variable A : Type.
Variable triv : bool.
Variables mv selfmv : A -> A.

Inductive cell := Free | Raw | Obj (v : A).
(** [blk p] is the size of the block that starts at p (0: none); [lost] (not in the program) collects the objects whose storage was
    reused or freed without their destructor having run *)
Record heap := mkH { mem : nat -> cell; blk : nat -> nat; next : nat; lost : list A }.
Definition upd {B : Type} (m : nat -> B) (a : nat) (c : B) : nat -> B := fun x => if x =? a then c else m x.
Definition put (h : heap) (a : nat) (c : cell) : heap := mkH (upd (mem h) a c) (blk h) (next h) (lost h).

(** reading an object *)
Definition rd (h : heap) (a : nat) : option A := match mem h a with Obj v => Some v | _ => None end.
(** construct.h:29-39  placement new; over a live object of a class this loses the old object *)
Definition con (h : heap) (a : nat) (v : A) : option heap :=
  match mem h a with
  | Free => None
  | Raw => Some (put h a (Obj v))
  | Obj w => let h := put h a (Obj v) in Some (if triv then h else mkH (mem h) (blk h) (next h) (w :: lost h))
  end.
(** assignment; to storage without object it is undefined for a class *)
Definition asg (h : heap) (a : nat) (v : A) : option heap :=
  match mem h a with
  | Free => None
  | Raw => if triv then Some (put h a (Obj v)) else None
  | Obj _ => Some (put h a (Obj v))
  end.
(** construct.h:43-59 *)
Definition des (h : heap) (a : nat) : option heap :=
  if triv then Some h else match mem h a with Obj _ => Some (put h a Raw) | _ => None end.
(** construct.h:61-76 *)
Fixpoint des_range (n : nat) (h : heap) (a : nat) : option heap :=
  match n with O => Some h | S n => let* h := des h a in des_range n h (S a) end.
(** allocator.h:50-56 *)
Definition alloc (n : nat) (h : heap) : nat * heap :=
  if n =? 0 then (0, h)
  else let p := next h in
       (p, mkH (fun x => if (p <=? x) && (x <? p + n) then Raw else mem h x) (upd (blk h) p n) (p + n) (lost h)).
Definition live_values (h : heap) (p n : nat) : list A :=
  flat_map (fun i => match mem h (p + i) with Obj v => [v] | _ => [] end) (seq 0 n).
(** allocator.h:66-72  operator delete of something that is not an allocated block is undefined *)
Definition dealloc (p : nat) (h : heap) : option heap :=
  if p =? 0 then Some h
  else if blk h p =? 0 then None
  else Some (mkH (fun x => if (p <=? x) && (x <? p + blk h p) then Free else mem h x) (upd (blk h) p 0) (next h)
                 (if triv then lost h else live_values h p (blk h p) ++ lost h)).

(** memmove of n elements (algobase.h:105-117, 159-175, 268-281, 323-339); the cells must be allocated *)
Definition memmove (n : nat) (h : heap) (src dst : nat) : option heap :=
  if forallb (fun i => match mem h (src + i), mem h (dst + i) with Free, _ => false | _, Free => false | _, _ => true end) (seq 0 n)
  then Some (mkH (fun x => if (dst <=? x) && (x <? dst + n) then mem h (src + (x - dst)) else mem h x) (blk h) (next h) (lost h))
  else None.
(** one step of the loops below: [cons]: the target is constructed, not assigned; [mov]: the source is moved from *)
Definition xfer (cons mov : bool) (h : heap) (src dst : nat) : option heap :=
  let* v := rd h src in
  if mov && (src =? dst) then Some (put h dst (Obj (selfmv v)))
  else let h := if mov then put h src (Obj (mv v)) else h in
       if cons then con h dst v else asg h dst v.
Fixpoint loop_fwd (cons mov : bool) (n : nat) (h : heap) (src dst : nat) : option heap :=
  match n with O => Some h | S n => let* h := xfer cons mov h src dst in loop_fwd cons mov n h (S src) (S dst) end.
Fixpoint loop_bwd (cons mov : bool) (n : nat) (h : heap) (src dst : nat) : option heap :=
  match n with O => Some h | S n => let* h := xfer cons mov h (src + n) (dst + n) in loop_bwd cons mov n h src dst end.
Definition forward (cons mov : bool) (n : nat) (h : heap) (src dst : nat) : option heap :=
  if triv then memmove n h src dst else loop_fwd cons mov n h src dst.
Definition backward (cons mov : bool) (n : nat) (h : heap) (src dst : nat) : option heap :=
  if triv then memmove n h src dst else loop_bwd cons mov n h src dst.
(** algobase.h:73-123 copy; 126-182 copy_backward; 233-287 move; 291-346 move_backward; uninitialized.h:18-53 uninitialized_copy;
    174-211 uninitialized_move.  All take the number of elements instead of the end of the source; the backward ones take the
    start of the target instead of its end. *)
Definition copy := forward false false.
Definition copy_backward := backward false false.
Definition move := forward false true.
Definition move_backward := backward false true.
Definition ucopy := forward true false.
Definition umove := forward true true.

(** an argument [const T&]: an object outside of the memory, or an address *)
Inductive ref := Ext (v : A) | At (a : nat).
Definition val (h : heap) (r : ref) : option A := match r with Ext v => Some v | At a => rd h a end.
(** uninitialized.h:134-172 uninitialized_fill_n; algobase.h:376-409 fill_n: assignment for a trivial type, else construction *)
Fixpoint fill_loop (cons : bool) (n : nat) (h : heap) (a : nat) (r : ref) : option heap :=
  match n with
  | O => Some h
  | S n => let* v := val h r in let* h := (if cons then con h a v else asg h a v) in fill_loop cons n h (S a) r
  end.
Definition ufill_n (n : nat) (h : heap) (a : nat) (r : ref) : option heap := fill_loop (negb triv) n h a r.
Definition fill_n (n : nat) (h : heap) (a : nat) (r : ref) : option heap := fill_loop false n h a r.

(** vector.h:66-69 *)
Record vec := mkV { vb : nat; ve : nat; vc : nat }.
(** vector.h:157-163 *)
Definition size (v : vec) : nat := ve v - vb v.
Definition capacity (v : vec) : nat := vc v - vb v.

(** vector.h:554-569 try_init *)
Definition new_empty (h : heap) : vec * heap := let (p, h) := alloc 16 h in (mkV p p (p + 16), h).
(** vector.h:572-588 init_space *)
Definition init_space (n cap : nat) (h : heap) : vec * heap := let (p, h) := alloc cap h in (mkV p (p + n) (p + cap), h).
(** vector.h:591-598 fill_init, the constructor vector(n, value) *)
Definition fill_init (n : nat) (r : ref) (h : heap) : option (vec * heap) :=
  let (v, h) := init_space n (Nat.max 16 n) h in
  let* h := ufill_n n h (vb v) r in Some (v, h).
(** vector.h:601-609 range_init: n elements from [first] on; vector(first, last), the copy constructor and initializer lists *)
Definition range_init (first n : nat) (h : heap) : option (vec * heap) :=
  let (v, h) := init_space n (Nat.max n 16) h in
  let* h := ucopy n h first (vb v) in Some (v, h).
(** vector.h:612-619 destroy_and_recover *)
Definition destroy_and_recover (first n : nat) (h : heap) : option heap :=
  let* h := des_range n h first in dealloc first h.
(** vector.h:120-124 destructor *)
Definition destructor (v : vec) (h : heap) : option heap := destroy_and_recover (vb v) (size v) h.
(** vector.h:622-640 get_new_cap *)
Definition get_new_cap (add : nat) (v : vec) : nat :=
  let old := capacity v in
  if old =? 0 then Nat.max add 16 else Nat.max (old + old / 2) (old + add).

(** vector.h:329-354 copy assignment from another vector (an assignment to itself does nothing) *)
Definition assign_copy (v w : vec) (h : heap) : option (vec * heap) :=
  let len := size w in
  if capacity v <? len then
    let* (tmp, h) := range_init (vb w) len h in
    let* h := destructor v h in Some (tmp, h)
  else if len <=? size v then
    let* h := copy len h (vb w) (vb v) in
    let* h := des_range (size v - len) h (vb v + len) in
    Some (mkV (vb v) (vb v + len) (vc v), h)
  else
    let* h := copy (size v) h (vb w) (vb v) in
    let* h := ucopy (len - size v) h (vb w + size v) (ve v) in
    Some (mkV (vb v) (vb v + len) (vb v + len), h).
(** vector.h:357-368 move assignment from another vector: new target, new source *)
Definition null_vec : vec := mkV 0 0 0.
Definition assign_move (v w : vec) (h : heap) : option (vec * vec * heap) :=
  let* h := destructor v h in Some (w, null_vec, h).

(** vector.h:371-386 reserve *)
Definition reserve (n : nat) (v : vec) (h : heap) : option (vec * heap) :=
  if capacity v <? n then
    let (p, h) := alloc n h in
    let* h := umove (size v) h (vb v) p in
    let* h := dealloc (vb v) h in
    Some (mkV p (p + size v) (p + n), h)
  else Some (v, h).
(** vector.h:868-886 reinsert and 389-396 shrink_to_fit *)
Definition shrink_to_fit (v : vec) (h : heap) : option (vec * heap) :=
  if ve v <? vc v then
    let n := size v in
    let (p, h) := alloc n h in
    let* h := umove n h (vb v) p in
    let* h := dealloc (vb v) h in
    Some (mkV p (p + n) (p + n), h)
  else Some (v, h).

(** vector.h:739-762 reallocate_insert, and 713-737 reallocate_emplace with one argument of type const T& *)
Definition reallocate_insert (pos : nat) (r : ref) (v : vec) (h : heap) : option (vec * heap) :=
  let n := get_new_cap 1 v in
  let (p, h) := alloc n h in
  let k := pos - vb v in
  let* h := umove k h (vb v) p in
  let* x := val h r in
  let* h := con h (p + k) x in
  let* h := umove (ve v - pos) h pos (p + k + 1) in
  let* h := destroy_and_recover (vb v) (size v) h in
  Some (mkV p (p + size v + 1) (p + n), h).
(** vector.h:445-457 push_back, 429-442 emplace_back *)
Definition push_back (r : ref) (v : vec) (h : heap) : option (vec * heap) :=
  if negb (ve v =? vc v) then
    let* x := val h r in
    let* h := con h (ve v) x in Some (mkV (vb v) (ve v + 1) (vc v), h)
  else reallocate_insert (ve v) r v h.
(** vector.h:460-466 pop_back *)
Definition pop_back (v : vec) (h : heap) : option (vec * heap) :=
  if vb v =? ve v then None
  else let* h := des h (ve v - 1) in Some (mkV (vb v) (ve v - 1) (vc v), h).
(** vector.h:469-497 insert(pos, value); [pos] as an offset *)
Definition insert (k : nat) (r : ref) (v : vec) (h : heap) : option (vec * heap) :=
  let pos := vb v + k in
  if size v <? k then None
  else if negb (ve v =? vc v) && (pos =? ve v) then
    let* x := val h r in
    let* h := con h (ve v) x in Some (mkV (vb v) (ve v + 1) (vc v), h)
  else if negb (ve v =? vc v) then
    let* l := rd h (ve v - 1) in
    let* h := con h (ve v) l in
    let* x := val h r in
    let* h := copy_backward (ve v - 1 - pos) h pos (pos + 1) in
    let* h := asg h pos x in
    Some (mkV (vb v) (ve v + 1) (vc v), h)
  else reallocate_insert pos r v h.
(** vector.h:400-426 emplace(pos, value): as insert, but the argument is read after the elements have been shifted *)
Definition emplace (k : nat) (r : ref) (v : vec) (h : heap) : option (vec * heap) :=
  let pos := vb v + k in
  if size v <? k then None
  else if negb (ve v =? vc v) && (pos =? ve v) then
    let* x := val h r in
    let* h := con h (ve v) x in Some (mkV (vb v) (ve v + 1) (vc v), h)
  else if negb (ve v =? vc v) then
    let* l := rd h (ve v - 1) in
    let* h := con h (ve v) l in
    let* h := copy_backward (ve v - 1 - pos) h pos (pos + 1) in
    let* x := val h r in
    let* h := asg h pos x in
    Some (mkV (vb v) (ve v + 1) (vc v), h)
  else reallocate_insert pos r v h.
(** vector.h:499-509 erase(pos) *)
Definition erase (k : nat) (v : vec) (h : heap) : option (vec * heap) :=
  if k <? size v then
    let x := vb v + k in
    let* h := move (ve v - (x + 1)) h (x + 1) x in
    let* h := des h (ve v - 1) in
    Some (mkV (vb v) (ve v - 1) (vc v), h)
  else None.
(** vector.h:512-521 erase(first, last), as offsets *)
Definition erase_range (a b : nat) (v : vec) (h : heap) : option (vec * heap) :=
  if (a <=? b) && (b <=? size v) then
    let r := vb v + a in
    let n := ve v - (r + (b - a)) in
    let* h := move n h (r + (b - a)) r in
    let* h := des_range (ve v - (r + n)) h (r + n) in
    Some (mkV (vb v) (ve v - (b - a)) (vc v), h)
  else None.
(** vector.h:271 *)
Definition clear (v : vec) (h : heap) : option (vec * heap) := erase_range 0 (size v) v h.

(** vector.h:765-814 fill_insert (insert(pos, n, value)) *)
Definition fill_insert (k n : nat) (r : ref) (v : vec) (h : heap) : option (vec * heap) :=
  if size v <? k then None
  else if n =? 0 then Some (v, h)
  else
    let pos := vb v + k in
    let* x := val h r in
    if n <=? vc v - ve v then
      let after := ve v - pos in
      let old_end := ve v in
      if n <? after then
        let* h := ucopy n h (old_end - n) old_end in
        let* h := move_backward (after - n) h pos (pos + n) in
        let* h := ufill_n n h pos (Ext x) in
        Some (mkV (vb v) (old_end + n) (vc v), h)
      else
        let* h := ufill_n (n - after) h old_end (Ext x) in
        let* h := umove after h pos (old_end + (n - after)) in
        let* h := ufill_n after h pos (Ext x) in
        Some (mkV (vb v) (old_end + (n - after) + after) (vc v), h)
    else
      let new := get_new_cap n v in
      let (p, h) := alloc new h in
      let* h := umove k h (vb v) p in
      let* h := ufill_n n h (p + k) r in
      let* h := umove (ve v - pos) h pos (p + k + n) in
      let* h := dealloc (vb v) h in
      Some (mkV p (p + size v + n) (p + new), h).
(** vector.h:524-536 resize *)
Definition resize (n : nat) (r : ref) (v : vec) (h : heap) : option (vec * heap) :=
  if n <? size v then erase_range n (size v) v h else fill_insert (size v) (n - size v) r v h.
(** vector.h:817-864 copy_insert (insert(pos, first, last)) of n elements from [first] on *)
Definition copy_insert (k first n : nat) (v : vec) (h : heap) : option (vec * heap) :=
  if size v <? k then None
  else if n =? 0 then Some (v, h)
  else
    let pos := vb v + k in
    if n <=? vc v - ve v then
      let after := ve v - pos in
      let old_end := ve v in
      if n <? after then
        let* h := ucopy n h (old_end - n) old_end in
        let* h := move_backward (after - n) h pos (pos + n) in
        let* h := ucopy n h first pos in
        Some (mkV (vb v) (old_end + n) (vc v), h)
      else
        let* h := ucopy (n - after) h (first + after) old_end in
        let* h := umove after h pos (old_end + (n - after)) in
        let* h := ucopy after h first pos in
        Some (mkV (vb v) (old_end + (n - after) + after) (vc v), h)
    else
      let new := get_new_cap n v in
      let (p, h) := alloc new h in
      let* h := umove k h (vb v) p in
      let* h := ucopy n h first (p + k) in
      let* h := umove (ve v - pos) h pos (p + k + n) in
      let* h := dealloc (vb v) h in
      Some (mkV p (p + size v + n) (p + new), h).

(** vector.h:642-660 fill_assign *)
Definition assign_fill (n : nat) (r : ref) (v : vec) (h : heap) : option (vec * heap) :=
  if capacity v <? n then
    let* (tmp, h) := fill_init n r h in
    let* h := destructor v h in Some (tmp, h)
  else if size v <? n then
    let* h := fill_n (size v) h (vb v) r in
    let* h := ufill_n (n - size v) h (ve v) r in
    Some (mkV (vb v) (ve v + (n - size v)) (vc v), h)
  else
    let* h := fill_n n h (vb v) r in
    erase_range n (size v) v h.
(** vector.h:685-712 copy_assign for pointers (forward iterators): n elements from [first] on *)
Definition assign_range (first n : nat) (v : vec) (h : heap) : option (vec * heap) :=
  if capacity v <? n then
    let* (tmp, h) := range_init first n h in
    let* h := destructor v h in Some (tmp, h)
  else if n <=? size v then
    let* h := copy n h first (vb v) in
    let* h := des_range (size v - n) h (vb v + n) in
    Some (mkV (vb v) (vb v + n) (vc v), h)
  else
    let* h := copy (size v) h first (vb v) in
    let* h := ucopy (n - size v) h (first + size v) (ve v) in
    Some (mkV (vb v) (ve v + (n - size v)) (vc v), h).
(** vector.h:169-190 element access *)
Definition get (k : nat) (v : vec) (h : heap) : option A := if k <? size v then rd h (vb v + k) else None.
Definition set (k : nat) (x : A) (v : vec) (h : heap) : option heap := if k <? size v then asg h (vb v + k) x else None.

(** A program works on numbered vectors in one memory.  An argument is a value or element [k] of vector [j]; a range is given as the
    elements [a..b) of vector [j]. *)
Inductive arg := Val (v : A) | Elem (j k : nat).
Inductive op :=
| New (i : nat)                        (* vector<T> vi; *)
| NewFill (i n : nat) (x : arg)        (* vector<T> vi(n, x); *)
| NewCopy (i j : nat)                  (* vector<T> vi(vj); *)
| NewMove (i j : nat)                  (* vector<T> vi(std::move(vj)); *)
| NewRange (i j a b : nat)             (* vector<T> vi(vj.begin() + a, vj.begin() + b); *)
| Drop (i : nat)                       (* end of the scope of vi *)
| AssignCopy (i j : nat)               (* vi = vj; *)
| AssignMove (i j : nat)               (* vi = std::move(vj); with i <> j *)
| Swap (i j : nat)                     (* vi.swap(vj); *)
| PushBack (i : nat) (x : arg)
| PopBack (i : nat)
| Insert (i k : nat) (x : arg)         (* vi.insert(vi.begin() + k, x); *)
| Emplace (i k : nat) (x : arg)
| InsertN (i k n : nat) (x : arg)      (* vi.insert(vi.begin() + k, n, x); *)
| InsertRange (i k j a b : nat)        (* vi.insert(vi.begin() + k, vj.begin() + a, vj.begin() + b); with i <> j *)
| Erase (i k : nat)
| EraseRange (i a b : nat)
| Clear (i : nat)
| Resize (i n : nat) (x : arg)
| AssignFill (i n : nat) (x : arg)
| AssignRange (i j a b : nat)          (* vi.assign(vj.begin() + a, vj.begin() + b); with i <> j *)
| Reserve (i n : nat)
| ShrinkToFit (i : nat)
| Set_ (i k : nat) (x : A).            (* vi[k] = x; *)
Definition env := nat -> option vec.
Definition ref_of (e : env) (x : arg) : option ref :=
  match x with
  | Val v => Some (Ext v)
  | Elem j k => let* w := e j in if k <? size w then Some (At (vb w + k)) else None
  end.
Definition fresh (e : env) (i : nat) : option unit := match e i with None => Some tt | Some _ => None end.
Definition range_of (e : env) (j a b : nat) : option (nat * nat) :=
  let* w := e j in if (a <=? b) && (b <=? size w) then Some (vb w + a, b - a) else None.
Definition bind_vec (e : env) (i : nat) (r : option (vec * heap)) : option (env * heap) :=
  let* (v, h) := r in Some (upd e i (Some v), h).
(** vector.h:72-124, 260-271 (the member functions called), 538-549 swap *)
Definition step (o : op) (s : env * heap) : option (env * heap) :=
  let (e, h) := s in
  match o with
  | New i => let* _ := fresh e i in bind_vec e i (Some (new_empty h))
  | NewFill i n x => let* _ := fresh e i in let* r := ref_of e x in bind_vec e i (fill_init n r h)
  | NewCopy i j => let* _ := fresh e i in let* w := e j in bind_vec e i (range_init (vb w) (size w) h)
  | NewMove i j => let* _ := fresh e i in let* w := e j in Some (upd (upd e j (Some null_vec)) i (Some w), h)
  | NewRange i j a b => let* _ := fresh e i in let* (p, n) := range_of e j a b in bind_vec e i (range_init p n h)
  | Drop i => let* v := e i in let* h := destructor v h in Some (upd e i None, h)
  | AssignCopy i j => let* v := e i in let* w := e j in if i =? j then Some s else bind_vec e i (assign_copy v w h)
  | AssignMove i j =>
      let* v := e i in let* w := e j in
      if i =? j then None
      else let* (v, w, h) := assign_move v w h in Some (upd (upd e j (Some w)) i (Some v), h)
  | Swap i j => let* v := e i in let* w := e j in Some (upd (upd e i (Some w)) j (Some v), h)
  | PushBack i x => let* v := e i in let* r := ref_of e x in bind_vec e i (push_back r v h)
  | PopBack i => let* v := e i in bind_vec e i (pop_back v h)
  | Insert i k x => let* v := e i in let* r := ref_of e x in bind_vec e i (insert k r v h)
  | Emplace i k x => let* v := e i in let* r := ref_of e x in bind_vec e i (emplace k r v h)
  | InsertN i k n x => let* v := e i in let* r := ref_of e x in bind_vec e i (fill_insert k n r v h)
  | InsertRange i k j a b =>
      let* v := e i in let* (p, n) := range_of e j a b in
      if i =? j then None else bind_vec e i (copy_insert k p n v h)
  | Erase i k => let* v := e i in bind_vec e i (erase k v h)
  | EraseRange i a b => let* v := e i in bind_vec e i (erase_range a b v h)
  | Clear i => let* v := e i in bind_vec e i (clear v h)
  | Resize i n x => let* v := e i in let* r := ref_of e x in bind_vec e i (resize n r v h)
  | AssignFill i n x => let* v := e i in let* r := ref_of e x in bind_vec e i (assign_fill n r v h)
  | AssignRange i j a b =>
      let* v := e i in let* (p, n) := range_of e j a b in
      if i =? j then None else bind_vec e i (assign_range p n v h)
  | Reserve i n => let* v := e i in bind_vec e i (reserve n v h)
  | ShrinkToFit i => let* v := e i in bind_vec e i (shrink_to_fit v h)
  | Set_ i k x => let* v := e i in let* h := set k x v h in Some (e, h)
  end.
Fixpoint run (p : list op) (s : env * heap) : option (env * heap) :=
  match p with [] => Some s | o :: p => let* s := step o s in run p s end.
(** no vectors; address 0 is never allocated *)
Definition start : env * heap := (fun _ => None, mkH (fun _ => Free) (fun _ => 0) 1 []).
End Vector.
