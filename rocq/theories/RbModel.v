(** mylib/mystl/rb_tree.h (the tree under map, set, multimap and multiset) and the element access of map.h, on an explicit memory.

    Addresses are integers, 0 is the null pointer.  A memory gives for every address nothing (no node there: free or never allocated)
    or the fields of the node there; the header node has no value, and the colour of a new node is indeterminate.  Access through
    the null pointer, to a node that is not there, to an indeterminate colour or to the value of the header is undefined: [None].
    The address of a new node is an argument of the operations that allocate: any free address may come out of the allocator.
    [V] is the type of the elements, [key] gives the key of an element (rb_tree.h:38-99), [lt] is the comparison object.
    The code has every rotation and rebalancing step twice, with left and right exchanged; the model has it once with a side
    [s] (true: as in the branch for the left child).  Not modelled: failure of operator new, exceptions thrown by constructors or by
    the comparison, sizes near 2^64.  [fuel] bounds the rounds of a loop; it is taken from the size of the tree. *)
From Coq Require Import ZArith List Bool.
From Verif Require Import F64.
Import ListNotations.
Open Scope Z_scope.
Open Scope opt_scope.

Section Tree.
Context {K V : Type}.
Variables (lt : K -> K -> bool) (key : V -> K).

(** rb_tree.h:118-162 *)
Record nd := mkNd { par : Z; lft : Z; rgt : Z; col : option bool; val : option V }.
Definition memory := Z -> option nd.
Implicit Types (m : memory) (h a x y z : Z) (s : bool).
Definition get m a : option nd := if a =? 0 then None else m a.
Definition put m a (n : nd) : memory := fun z => if z =? a then Some n else m z.
(** node_allocator::deallocate *)
Definition free m a : memory := fun z => if z =? a then None else m z.
Definition set_par m a x : option memory := let* n := get m a in Some (put m a (mkNd x (lft n) (rgt n) (col n) (val n))).
Definition set_lft m a x : option memory := let* n := get m a in Some (put m a (mkNd (par n) x (rgt n) (col n) (val n))).
Definition set_rgt m a x : option memory := let* n := get m a in Some (put m a (mkNd (par n) (lft n) x (col n) (val n))).
(** rb_tree.h:381-391 set_black, set_red; [true] is rb_tree_black (23-24) *)
Definition set_col m a (c : option bool) : option memory := let* n := get m a in Some (put m a (mkNd (par n) (lft n) (rgt n) c (val n))).
Definition kid s (n : nd) : Z := if s then lft n else rgt n.
Definition set_kid s m a x : option memory := if s then set_lft m a x else set_rgt m a x.
(** rb_tree.h:375-379 rb_tree_is_red *)
Definition red m a : option bool := let* n := get m a in let* c := col n in Some (negb c).
(** rb_tree.h:369-373 rb_tree_is_lchild *)
Definition lchild m a : option bool := let* n := get m a in let* p := get m (par n) in Some (a =? lft p).
(** the key at a node *)
Definition keyat m a : option K := let* n := get m a in let* v := val n in Some (key v).

(** rb_tree.h:353-359 rb_tree_min, 361-367 rb_tree_max *)
Fixpoint tmin (fuel : nat) m x : option Z :=
  match fuel with O => None | S fuel => let* n := get m x in if lft n =? 0 then Some x else tmin fuel m (lft n) end.
Fixpoint tmax (fuel : nat) m x : option Z :=
  match fuel with O => None | S fuel => let* n := get m x in if rgt n =? 0 then Some x else tmax fuel m (rgt n) end.
(** rb_tree.h:393-401 rb_tree_next *)
Fixpoint next_up (fuel : nat) m x : option Z :=
  match fuel with O => None | S fuel =>
    let* n := get m x in let* l := lchild m x in if l then Some (par n) else next_up fuel m (par n) end.
Definition next (fuel : nat) m x : option Z :=
  let* n := get m x in if negb (rgt n =? 0) then tmin fuel m (rgt n) else next_up fuel m x.

(** ** iterators *)
(** rb_tree.h:201-219 inc *)
Fixpoint inc_up (fuel : nat) m x y : option Z :=
  match fuel with O => None | S fuel =>
    let* ny := get m y in
    if rgt ny =? x then inc_up fuel m y (par ny)
    else let* n := get m x in if negb (rgt n =? y) then Some y else Some x
  end.
Definition inc (fuel : nat) m x : option Z :=
  let* n := get m x in if negb (rgt n =? 0) then tmin fuel m (rgt n) else inc_up fuel m x (par n).
(** rb_tree.h:222-243 dec *)
Fixpoint dec_up (fuel : nat) m x y : option Z :=
  match fuel with O => None | S fuel =>
    let* ny := get m y in if x =? lft ny then dec_up fuel m y (par ny) else Some y end.
Definition dec (fuel : nat) m x : option Z :=
  let* n := get m x in
  let* p := get m (par n) in
  let* isheader := if par p =? x then red m x else Some false in
  if isheader then Some (rgt n)
  else if negb (lft n =? 0) then tmax fuel m (lft n)
  else dec_up fuel m x (par n).

(** ** rebalancing *)
(** rb_tree.h:422-433, 458-469, 585-590, 603-608: y takes the place of x under the parent of x; root is the reference header->parent *)
Definition relink m h x y : option memory :=
  let* hd := get m h in
  if x =? par hd then set_par m h y
  else
    let* l := lchild m x in
    let* n := get m x in
    if l then set_lft m (par n) y else set_rgt m (par n) y.
(** rb_tree.h:413-437 rb_tree_rotate_left (s = true), 449-473 rb_tree_rotate_right (s = false) *)
Definition rotate s m h x : option memory :=
  let* nx := get m x in
  let y := kid (negb s) nx in
  let* ny := get m y in
  let* m := set_kid (negb s) m x (kid s ny) in
  let* m := if kid s ny =? 0 then Some m else set_par m (kid s ny) x in
  let* nx := get m x in
  let* m := set_par m y (par nx) in
  let* m := relink m h x y in
  let* m := set_kid s m y x in
  set_par m x y.
(** rb_tree.h:504-516, 529-541: no uncle or a black one; cases 4 and 5 *)
Definition ins_far s m h x p : option memory :=
  let* lx := lchild m x in
  let* (m, x) := if Bool.eqb lx s then Some (m, x) else let* m := rotate s m h p in Some (m, p) in
  let* nx := get m x in
  let p := par nx in
  let* m := set_col m p (Some true) in
  let* np := get m p in
  let g := par np in
  let* m := set_col m g (Some false) in
  rotate (negb s) m h g.
(** rb_tree.h:492-543 the loop of rb_tree_insert_rebalance *)
Fixpoint ins_loop (fuel : nat) m h x : option memory :=
  match fuel with O => None | S fuel =>
    let* hd := get m h in
    if x =? par hd then Some m
    else
      let* nx := get m x in
      let p := par nx in
      let* rp := red m p in
      if negb rp then Some m
      else
        let* s := lchild m p in
        let* np := get m p in
        let g := par np in
        let* ng := get m g in
        let u := kid (negb s) ng in
        let* ru := if u =? 0 then Some false else red m u in
        if ru then
          let* m := set_col m p (Some true) in
          let* m := set_col m u (Some true) in
          let* m := set_col m g (Some false) in
          ins_loop fuel m h g
        else ins_far s m h x p
  end.
(** rb_tree.h:488-545 rb_tree_insert_rebalance *)
Definition ins_rebalance (fuel : nat) m h x : option memory :=
  let* m := set_col m x (Some false) in
  let* m := ins_loop fuel m h x in
  let* hd := get m h in
  set_col m (par hd) (Some true).

Definition nored m a : option bool := if a =? 0 then Some true else let* r := red m a in Some (negb r).
(** rb_tree.h:631-638, 668-675: case 1, a red brother *)
Definition era_case1 s m h xp b : option (memory * Z) :=
  let* rb := red m b in
  if rb then
    let* m := set_col m b (Some true) in
    let* m := set_col m xp (Some false) in
    let* m := rotate s m h xp in
    let* nxp := get m xp in
    Some (m, kid (negb s) nxp)
  else Some (m, b).
(** rb_tree.h:647-664, 683-700: cases 3 and 4 *)
Definition era_case4 s m h xp b : option memory :=
  let* nxp := get m xp in
  let* m := set_col m b (col nxp) in
  let* m := set_col m xp (Some true) in
  let* nb := get m b in
  let* m := if kid (negb s) nb =? 0 then Some m else set_col m (kid (negb s) nb) (Some true) in
  rotate s m h xp.
Definition era_far s m h xp b : option memory :=
  let* nb := get m b in
  let* bo := nored m (kid (negb s) nb) in
  if bo then
    let* m := if kid s nb =? 0 then Some m else set_col m (kid s nb) (Some true) in
    let* m := set_col m b (Some false) in
    let* m := rotate (negb s) m h b in
    let* nxp := get m xp in
    era_case4 s m h xp (kid (negb s) nxp)
  else era_case4 s m h xp b.
(** rb_tree.h:627-702 the loop of rb_tree_erase_rebalance *)
Fixpoint era_loop (fuel : nat) m h x xp : option (memory * Z) :=
  match fuel with O => None | S fuel =>
    let* hd := get m h in
    if x =? par hd then Some (m, x)
    else
      let* bx := nored m x in
      if negb bx then Some (m, x)
      else
        let* nxp := get m xp in
        let s := x =? lft nxp in
        let* (m, b) := era_case1 s m h xp (kid (negb s) nxp) in
        let* nb := get m b in
        let* bl := nored m (lft nb) in
        let* both := if bl then nored m (rgt nb) else Some false in
        if both then
          let* m := set_col m b (Some false) in
          let* nxp := get m xp in
          era_loop fuel m h xp (par nxp)
        else let* m := era_far s m h xp b in Some (m, x)
  end.
(** rb_tree.h:563-594 z has two children: its successor y takes its place; gives the parent of x *)
Definition unlink2 m h z y x : option (memory * Z) :=
  let* nz := get m z in
  let* m := set_par m (lft nz) y in
  let* m := set_lft m y (lft nz) in
  let* (m, xp) :=
    if negb (y =? rgt nz) then
      let* ny := get m y in
      let xp := par ny in
      let* m := if x =? 0 then Some m else set_par m x xp in
      let* m := set_lft m xp x in
      let* m := set_rgt m y (rgt nz) in
      let* m := set_par m (rgt nz) y in
      Some (m, xp)
    else Some (m, y) in
  let* m := relink m h z y in
  let* nz := get m z in
  let* m := set_par m y (par nz) in
  let* ny := get m y in
  let* nz := get m z in
  let* m := set_col m y (col nz) in
  let* m := set_col m z (col ny) in
  Some (m, xp).
(** rb_tree.h:596-615 z has at most one child x *)
Definition unlink1 (fuel : nat) m h z x : option (memory * Z) :=
  let* nz := get m z in
  let xp := par nz in
  let* m := if x =? 0 then Some m else set_par m x xp in
  let* m := relink m h z x in
  let* hd := get m h in
  let* m := if lft hd =? z then (let* lm := if x =? 0 then Some xp else tmin fuel m x in set_lft m h lm) else Some m in
  let* hd := get m h in
  let* m := if rgt hd =? z then (let* rm := if x =? 0 then Some xp else tmax fuel m x in set_rgt m h rm) else Some m in
  Some (m, xp).
(** rb_tree.h:551-707 rb_tree_erase_rebalance *)
Definition era_rebalance (fuel : nat) m h z : option memory :=
  let* nz := get m z in
  let* y := if (lft nz =? 0) || (rgt nz =? 0) then Some z else next fuel m z in
  let* ny := get m y in
  let x := if negb (lft ny =? 0) then lft ny else rgt ny in
  let* (m, xp) := if negb (y =? z) then unlink2 m h z y x else unlink1 fuel m h z x in
  let* r := red m z in
  if r then Some m
  else
    let* (m, x) := era_loop fuel m h x xp in
    if negb (x =? 0) then set_col m x (Some true) else Some m.

(** ** the class *)
(** rb_tree.h:747-762; root, leftmost and rightmost are fields of the header *)
Record obj := mkObj { hdr : Z; cnt : nat }.
Implicit Types (o : obj) (v : V) (k : K).
Definition fuel_of o : nat := (2 * cnt o + 4)%nat.
(** rb_tree.h:1447-1458 rb_tree_init; the header is allocated at [a] *)
Definition init m a : option (memory * obj) :=
  if a =? 0 then None else match m a with Some _ => None | None => Some (put m a (mkNd 0 a a (Some false) None), mkObj a 0) end.
(** rb_tree.h:1402-1423 create_node *)
Definition create m a v : option memory :=
  if a =? 0 then None else match m a with Some _ => None | None => Some (put m a (mkNd 0 0 0 None (Some v))) end.
(** rb_tree.h:1438-1445 destroy_node *)
Definition destroy m a : option memory := let* n := get m a in let* v := val n in Some (free m a).
(** rb_tree.h:776-783 begin, end *)
Definition begin m o : option Z := let* hd := get m (hdr o) in Some (lft hd).
Definition end_ o : Z := hdr o.

(** rb_tree.h:1555-1583 insert_node_at *)
Definition insert_node_at m o x a (left_ : bool) : option (memory * obj) :=
  let* m := set_par m a x in
  let* m :=
    if x =? hdr o then
      let* m := set_par m (hdr o) a in
      let* m := set_lft m (hdr o) a in
      set_rgt m (hdr o) a
    else if left_ then
      let* m := set_lft m x a in
      let* hd := get m (hdr o) in
      if lft hd =? x then set_lft m (hdr o) a else Some m
    else
      let* m := set_rgt m x a in
      let* hd := get m (hdr o) in
      if rgt hd =? x then set_rgt m (hdr o) a else Some m in
  let* m := ins_rebalance (fuel_of o) m (hdr o) a in
  Some (m, mkObj (hdr o) (S (cnt o))).
(** rb_tree.h:1522-1551 insert_value_at: the same after create_node *)
Definition insert_value_at m o x a v (left_ : bool) : option (memory * obj) :=
  let* m := create m a v in insert_node_at m o x a left_.

(** rb_tree.h:1476-1481, 1495-1500 *)
Fixpoint pos_loop (fuel : nat) m k x y (left_ : bool) : option (Z * bool) :=
  match fuel with O => None | S fuel =>
    if x =? 0 then Some (y, left_)
    else
      let* kx := keyat m x in
      let* n := get m x in
      let l := lt k kx in
      pos_loop fuel m k (if l then lft n else rgt n) x l
  end.
(** rb_tree.h:1468-1483 get_insert_multi_pos *)
Definition multi_pos m o k : option (Z * bool) :=
  let* hd := get m (hdr o) in pos_loop (fuel_of o) m k (par hd) (hdr o) true.
(** rb_tree.h:1485-1518 get_insert_unique_pos *)
Definition unique_pos m o k : option ((Z * bool) * bool) :=
  let* (y, l) := multi_pos m o k in
  let* b := begin m o in
  if l && ((y =? hdr o) || (y =? b)) then Some ((y, true), true)
  else
    let* j := if l then dec (fuel_of o) m y else Some y in
    let* kj := keyat m j in
    if lt kj k then Some ((y, l), true) else Some ((y, l), false).

(** rb_tree.h:1155-1164 insert_multi; 1032-1043 emplace_multi creates the node first *)
Definition insert_multi m o a v : option (memory * obj * Z) :=
  let* (y, l) := multi_pos m o (key v) in
  let* (m, o) := insert_value_at m o y a v l in Some (m, o, a).
Definition emplace_multi m o a v : option (memory * obj * Z) :=
  let* m := create m a v in
  let* (y, l) := multi_pos m o (key v) in
  let* (m, o) := insert_node_at m o y a l in Some (m, o, a).
(** rb_tree.h:1166-1179 insert_unique *)
Definition insert_unique m o a v : option (memory * obj * (Z * bool)) :=
  let* (p, ok) := unique_pos m o (key v) in
  if ok then let* (m, o) := insert_value_at m o (fst p) a v (snd p) in Some (m, o, (a, true))
  else Some (m, o, (fst p, false)).
(** rb_tree.h:1045-1061 emplace_unique *)
Definition emplace_unique m o a v : option (memory * obj * (Z * bool)) :=
  let* m := create m a v in
  let* (p, ok) := unique_pos m o (key v) in
  if ok then let* (m, o) := insert_node_at m o (fst p) a (snd p) in Some (m, o, (a, true))
  else let* m := destroy m a in Some (m, o, (fst p, false)).

(** rb_tree.h:1063-1102 emplace_multi_use_hint, 1585-1610 insert_multi_use_hint *)
Definition emplace_multi_hint m o a v hint : option (memory * obj * Z) :=
  let* m := create m a v in
  let k := key v in
  let by_pos := let* (y, l) := multi_pos m o k in let* (m, o) := insert_node_at m o y a l in Some (m, o, a) in
  if (cnt o =? 0)%nat then let* (m, o) := insert_node_at m o (hdr o) a true in Some (m, o, a)
  else
    let* b := begin m o in
    if hint =? b then
      let* kh := keyat m hint in
      if lt k kh then let* (m, o) := insert_node_at m o hint a true in Some (m, o, a) else by_pos
    else if hint =? end_ o then
      let* hd := get m (hdr o) in
      let* kr := keyat m (rgt hd) in
      if negb (lt k kr) then let* (m, o) := insert_node_at m o (rgt hd) a false in Some (m, o, a) else by_pos
    else
      let* bnp := dec (fuel_of o) m hint in
      let* kb := keyat m bnp in
      let* kh := keyat m hint in
      let* nb := get m bnp in
      let* nh := get m hint in
      if negb (lt k kb) && negb (lt kh k) then
        if rgt nb =? 0 then let* (m, o) := insert_node_at m o bnp a false in Some (m, o, a)
        else if lft nh =? 0 then let* (m, o) := insert_node_at m o hint a true in Some (m, o, a)
        else by_pos
      else by_pos.
(** rb_tree.h:1104-1153 emplace_unique_use_hint, 1612-1642 insert_unique_use_hint *)
Definition emplace_unique_hint m o a v hint : option (memory * obj * Z) :=
  let* m := create m a v in
  let k := key v in
  let by_pos :=
    let* (p, ok) := unique_pos m o k in
    if ok then let* (m, o) := insert_node_at m o (fst p) a (snd p) in Some (m, o, a)
    else let* m := destroy m a in Some (m, o, fst p) in
  if (cnt o =? 0)%nat then let* (m, o) := insert_node_at m o (hdr o) a true in Some (m, o, a)
  else
    let* b := begin m o in
    if hint =? b then
      let* kh := keyat m hint in
      if lt k kh then let* (m, o) := insert_node_at m o hint a true in Some (m, o, a) else by_pos
    else if hint =? end_ o then
      let* hd := get m (hdr o) in
      let* kr := keyat m (rgt hd) in
      if lt kr k then let* (m, o) := insert_node_at m o (rgt hd) a false in Some (m, o, a) else by_pos
    else
      let* bnp := dec (fuel_of o) m hint in
      let* kb := keyat m bnp in
      let* kh := keyat m hint in
      let* nb := get m bnp in
      let* nh := get m hint in
      if lt kb k && lt k kh then
        if rgt nb =? 0 then let* (m, o) := insert_node_at m o bnp a false in Some (m, o, a)
        else if lft nh =? 0 then let* (m, o) := insert_node_at m o hint a true in Some (m, o, a)
        else by_pos
      else by_pos.

(** rb_tree.h:1181-1195 erase *)
Definition erase m o x : option (memory * obj * Z) :=
  let* nx := inc (fuel_of o) m x in
  let* m := era_rebalance (fuel_of o) m (hdr o) x in
  let* m := destroy m x in
  Some (m, mkObj (hdr o) (pred (cnt o)), nx).
(** rb_tree.h:1677-1690 erase_since: a subtree is freed without rebalancing *)
Fixpoint erase_since (fuel : nat) m x : option memory :=
  match fuel with O => None | S fuel =>
    if x =? 0 then Some m
    else
      let* n := get m x in
      let* m := erase_since fuel m (rgt n) in
      let* n := get m x in
      let* m := destroy m x in
      erase_since fuel m (lft n)
  end.
(** rb_tree.h:1240-1253 clear *)
Definition clear m o : option (memory * obj) :=
  if (cnt o =? 0)%nat then Some (m, o)
  else
    let* hd := get m (hdr o) in
    let* m := erase_since (fuel_of o) m (par hd) in
    let* m := set_lft m (hdr o) (hdr o) in
    let* m := set_par m (hdr o) 0 in
    let* m := set_rgt m (hdr o) (hdr o) in
    Some (m, mkObj (hdr o) 0).
(** rb_tree.h:1235-1236 *)
Fixpoint erase_loop (fuel : nat) m o first last : option (memory * obj) :=
  match fuel with O => None | S fuel =>
    if first =? last then Some (m, o)
    else
      let* nx := inc (fuel_of o) m first in
      let* (m, o, _) := erase m o first in
      erase_loop fuel m o nx last
  end.
(** rb_tree.h:1224-1238 erase of a range *)
Definition erase_range m o first last : option (memory * obj) :=
  let* b := begin m o in
  if (first =? b) && (last =? end_ o) then clear m o else erase_loop (fuel_of o) m o first last.

(** rb_tree.h:1261-1273, 1306-1318 *)
Fixpoint low_loop (fuel : nat) m k x y : option Z :=
  match fuel with O => None | S fuel =>
    if x =? 0 then Some y
    else
      let* kx := keyat m x in
      let* n := get m x in
      if negb (lt kx k) then low_loop fuel m k (lft n) x else low_loop fuel m k (rgt n) y
  end.
(** rb_tree.h:1300-1320 lower_bound, 1322-1341 const *)
Definition lower_bound m o k : option Z := let* hd := get m (hdr o) in low_loop (fuel_of o) m k (par hd) (hdr o).
Fixpoint upp_loop (fuel : nat) m k x y : option Z :=
  match fuel with O => None | S fuel =>
    if x =? 0 then Some y
    else
      let* kx := keyat m x in
      let* n := get m x in
      if lt k kx then upp_loop fuel m k (lft n) x else upp_loop fuel m k (rgt n) y
  end.
(** rb_tree.h:1343-1363 upper_bound, 1365-1384 const *)
Definition upper_bound m o k : option Z := let* hd := get m (hdr o) in upp_loop (fuel_of o) m k (par hd) (hdr o).
(** rb_tree.h:1255-1276 find, 1278-1298 const *)
Definition find m o k : option Z :=
  let* j := lower_bound m o k in
  if j =? end_ o then Some (end_ o)
  else let* kj := keyat m j in if lt k kj then Some (end_ o) else Some j.
(** iterator.h distance for iterators that only go forward *)
Fixpoint distance (fuel : nat) m o first last : option nat :=
  match fuel with O => None | S fuel =>
    if first =? last then Some 0%nat
    else let* nx := inc (fuel_of o) m first in let* d := distance fuel m o nx last in Some (S d)
  end.
(** rb_tree.h:891-895 count_multi, 896-899 count_unique *)
Definition count_multi m o k : option nat :=
  let* f := lower_bound m o k in let* l := upper_bound m o k in distance (fuel_of o) m o f l.
Definition count_unique m o k : option nat := let* j := find m o k in Some (if j =? end_ o then 0%nat else 1%nat).
(** rb_tree.h:1197-1207 erase_multi *)
Definition erase_multi m o k : option (memory * obj * nat) :=
  let* f := lower_bound m o k in
  let* l := upper_bound m o k in
  let* n := distance (fuel_of o) m o f l in
  let* (m, o) := erase_range m o f l in
  Some (m, o, n).
(** rb_tree.h:1209-1222 erase_unique *)
Definition erase_unique m o k : option (memory * obj * nat) :=
  let* j := find m o k in
  if negb (j =? end_ o) then let* (m, o, _) := erase m o j in Some (m, o, 1%nat) else Some (m, o, 0%nat).
(** rb_tree.h:866-873 insert_unique of a range of values, each paired with the address its node gets *)
Fixpoint insert_range m o (l : list (Z * V)) : option (memory * obj) :=
  match l with
  | [] => Some (m, o)
  | (a, v) :: l => let* (m, o, _) := emplace_unique_hint m o a v (end_ o) in insert_range m o l
  end.

(** map.h:151-166 at; an exception is [None] *)
Definition map_at m o k : option V :=
  let* j := lower_bound m o k in
  if j =? end_ o then None
  else let* kj := keyat m j in if lt kj k then None else let* n := get m j in val n.
(** map.h:168-183 operator[]: the address of the element; [v0] is the pair of the key and T{} *)
Definition map_index m o a k v0 : option (memory * obj * Z) :=
  let* j := lower_bound m o k in
  let* absent := if j =? end_ o then Some true else let* kj := keyat m j in Some (lt k kj) in
  if absent then emplace_unique_hint m o a v0 j else Some (m, o, j).

(** rb_tree.h:918-931 equal_range_unique; 907-916 equal_range_multi *)
Definition equal_range_unique m o k : option (Z * Z) :=
  let* j := find m o k in if j =? end_ o then Some (j, j) else let* nx := inc (fuel_of o) m j in Some (j, nx).
Definition equal_range_multi m o k : option (Z * Z) :=
  let* f := lower_bound m o k in let* l := upper_bound m o k in Some (f, l).

(** ** copying and moving; new nodes come from the list [al] of addresses in the order of their allocation *)
(** rb_tree.h:1425-1436 clone_node *)
Definition clone m (al : list Z) x : option (memory * list Z * Z) :=
  let* n := get m x in
  let* v := val n in
  match al with
  | [] => None
  | a :: al => let* m := create m a v in let* m := set_col m a (col n) in let* m := set_lft m a 0 in let* m := set_rgt m a 0 in Some (m, al, a)
  end.
(** rb_tree.h:1644-1675 copy_from without its exception handler; [copy_left] is the loop at 1657-1667 *)
Fixpoint copy_from (fuel : nat) m (al : list Z) x p : option (memory * list Z * Z) :=
  match fuel with O => None | S fuel =>
    let* (m, al, t) := clone m al x in
    let* m := set_par m t p in
    let* n := get m x in
    let* (m, al) := if negb (rgt n =? 0) then
        let* (m, al, r) := copy_from fuel m al (rgt n) t in let* m := set_rgt m t r in Some (m, al)
      else Some (m, al) in
    let* n := get m x in
    let* (m, al) := copy_left fuel m al (lft n) t in
    Some (m, al, t)
  end
with copy_left (fuel : nat) m (al : list Z) x p : option (memory * list Z) :=
  match fuel with O => None | S fuel =>
    if x =? 0 then Some (m, al)
    else
      let* (m, al, y) := clone m al x in
      let* m := set_lft m p y in
      let* m := set_par m y p in
      let* n := get m x in
      let* (m, al) := if negb (rgt n =? 0) then
          let* (m, al, r) := copy_from fuel m al (rgt n) y in let* m := set_rgt m y r in Some (m, al)
        else Some (m, al) in
      let* n := get m x in
      copy_left fuel m al (lft n) y
  end.
(** rb_tree.h:972-980, 1002-1013 *)
Definition copy_into m o o2 (al : list Z) : option (memory * obj) :=
  let* m :=
    if negb (cnt o2 =? 0)%nat then
      let* hd2 := get m (hdr o2) in
      let* (m, al, t) := copy_from (fuel_of o2) m al (par hd2) (hdr o) in
      let* m := set_par m (hdr o) t in
      let* hd := get m (hdr o) in
      let* x := tmin (fuel_of o2) m (par hd) in
      let* m := set_lft m (hdr o) x in
      let* hd := get m (hdr o) in
      let* x := tmax (fuel_of o2) m (par hd) in
      set_rgt m (hdr o) x
    else Some m in
  Some (m, mkObj (hdr o) (cnt o2)).
(** rb_tree.h:968-981 copy constructor: the header of the new tree is allocated at [a] *)
Definition copy_of m o2 a (al : list Z) : option (memory * obj) := let* (m, o) := init m a in copy_into m o o2 al.
(** rb_tree.h:993-1015 copy assignment of another object *)
Definition copy_assign m o o2 (al : list Z) : option (memory * obj) := let* (m, o) := clear m o in copy_into m o o2 al.
(** rb_tree.h:983-991 move constructor, 1460-1466 reset: the new object and the one moved from *)
Definition move_of o2 : obj * obj := (o2, mkObj 0 0).
(** rb_tree.h:1017-1030 move assignment; the header of the target is not freed *)
Definition move_assign m o o2 : option (memory * obj * obj) := let* (m, o) := clear m o in Some (m, o2, mkObj 0 0).
End Tree.
