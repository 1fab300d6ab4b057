(** mylib/mystl/hashtable.h, the hash table under the unordered containers, on an explicit memory, with the parts of unordered_map.h and
    unordered_set.h that do more than pass a call on.

    Addresses are integers, 0 is the null pointer.  A memory gives for every address nothing (no node there: free or never allocated) or
    the node there; operator new takes addresses from a counter, so an address is not used twice.  A table has the pointers of the vector
    buckets_, the length of that vector, bucket_size_, size_ and mlf_.  [key] is value_traits::get_key, [hashf] and [eqb] are what hash_
    and equal_ compute (function objects without state, the same in all tables).  Undefined behaviour is [None]: access through null or to
    a node that is not there, an index outside buckets_, the remainder by 0, a conversion of a float that does not fit; so are failed
    assertions (MYSTL_DEBUG) and exceptions.  Sizes are integers: they count nodes in memory.  Values of type float are numbers of
    SpecFloat with 24 bits.  An iterator is the address of its node, the table being known.  Moving a value is copying it.  [fuel] bounds
    the rounds of a loop; a chain cannot have more nodes than addresses were given out.  Not modelled: failure of operator new and
    exceptions of constructors, comparisons and hash functions (the catch blocks), const overloads (the same code). *)
From Coq Require Import ZArith List Bool SpecFloat.
From Verif Require Import F64 ArrModel BsModel.
Import ListNotations.
Open Scope Z_scope.
Open Scope opt_scope.

(** hashtable.h:415-440 ht_prime_list *)
Definition prime_list : list Z := [
  101; 173; 263; 397; 599; 907; 1361; 2053; 3083;
  4637; 6959; 10453; 15683; 23531; 35311; 52967; 79451;
  119179; 178781; 268189; 402299; 603457; 905189; 1357787;
  2036687; 3055043; 4582577; 6873871; 10310819; 15466229;
  23199347; 34799021; 52198537; 78297827; 117446801; 176170229;
  264255353; 396383041; 594574583; 891861923; 1337792887;
  2006689337; 3010034021; 4515051137; 6772576709; 10158865069;
  15238297621; 22857446471; 34286169707; 51429254599; 77143881917;
  115715822899; 173573734363; 260360601547; 390540902329;
  585811353559; 878717030339; 1318075545511; 1977113318311;
  2965669977497; 4448504966249; 6672757449409; 10009136174239;
  15013704261371; 22520556392057; 33780834588157; 50671251882247;
  76006877823377; 114010316735089; 171015475102649; 256523212653977;
  384784818980971; 577177228471507; 865765842707309; 1298648764060979;
  1947973146091477; 2921959719137273; 4382939578705967; 6574409368058969;
  9861614052088471; 14792421078132871; 22188631617199337; 33282947425799017;
  49924421138698549; 74886631708047827; 112329947562071807; 168494921343107851;
  252742382014661767; 379113573021992729; 568670359532989111; 853005539299483657;
  1279508308949225477; 1919262463423838231; 2878893695135757317; 4318340542703636011;
  6477510814055453699; 9716266221083181299; 14574399331624771603; 18446744073709551557 ].
(** hashtable.h:413 PRIME_NUM *)
Definition prime_num : Z := 99.
(** hashtable.h:461-468 ht_next_prime *)
Definition next_prime (n : Z) : option Z :=
  let* pos := lower_bound Z.ltb prime_list 0 prime_num n in
  if pos =? prime_num then rd prime_list (prime_num - 1) else rd prime_list pos.

(** ** float: IEEE single precision *)
Definition f32 := spec_float.
(** conversion of an integer *)
Definition f32Z (n : Z) : f32 := binary_normalize 24 128 n 0 false.
(** conversion to double, exact *)
Definition widen (x : f32) : f64 := match x with S754_finite s m e => binary_normalize 53 1024 (cond_Zopp s (Zpos m)) e s | _ => x end.
(** the constants 1.0f, 0.25f, 0.5f, 0.0f; 0.75 is a double *)
Definition one32 : f32 := f32Z 1.
Definition quarter32 : f32 := SFdiv 24 128 (f32Z 1) (f32Z 4).
Definition half32 : f32 := SFdiv 24 128 (f32Z 1) (f32Z 2).
Definition zero32 : f32 := f32Z 0.
Definition d075 : f64 := fdiv (fZ 3) (fZ 4).

Section Ht.
Context {K T : Type} (key : T -> K) (hashf : K -> Z) (eqb : K -> K -> bool).

(** hashtable.h:20-34 *)
Record nd := mkNd { nxt : Z; val : T }.
Record memory := mkMem { cell : Z -> option nd; brk : Z }.
(** hashtable.h:511-517; [bl] is buckets_.size() *)
Record tab := mkTab { bk : Z -> Z; bl : Z; bsz : Z; cnt : Z; mlf : f32 }.
Implicit Types (m : memory) (t : tab) (p a : Z) (v : T) (k : K) (fuel : nat).

Definition upd {A} (f : Z -> A) (i : Z) (x : A) : Z -> A := fun z => if z =? i then x else f z.
Definition get m a : option nd := if a =? 0 then None else cell m a.
Definition set_nxt m a x : option memory := let* n := get m a in Some (mkMem (upd (cell m) a (Some (mkNd x (val n)))) (brk m)).
Definition fu m : nat := S (Z.to_nat (brk m)).
(** buckets_[n] read and written *)
Definition rdb t n : option Z := if (0 <=? n) && (n <? bl t) then Some (bk t n) else None.
Definition wrb t n p : option tab := let* _ := rdb t n in Some (mkTab (upd (bk t) n p) (bl t) (bsz t) (cnt t) (mlf t)).
Definition set_cnt t c : tab := mkTab (bk t) (bl t) (bsz t) c (mlf t).

(** hashtable.h:1322-1341 create_node *)
Definition create_node m v : memory * Z := (mkMem (upd (cell m) (brk m) (Some (mkNd 0 v))) (brk m + 1), brk m).
(** hashtable.h:1343-1351 destroy_node *)
Definition destroy_node m a : option memory := let* _ := get m a in Some (mkMem (upd (cell m) a None) (brk m)).
(** hashtable.h:1361-1376 hash *)
Definition hash_n k n : option Z := if n =? 0 then None else Some (hashf k mod n).
Definition hash t k : option Z := hash_n k (bsz t).

(** ** looking up *)
(** hashtable.h:1113-1114: the first node of the chain with the key; the same search in 890-894, 912-921, 1444-1453, 1474-1480, 1503-1512 *)
Fixpoint find_loop fuel m p k : option Z :=
  match fuel with
  | O => None
  | S fuel => if p =? 0 then Some 0 else let* n := get m p in if eqb (key (val n)) k then Some p else find_loop fuel m (nxt n) k
  end.
(** hashtable.h:1106-1116 find *)
Definition find m t k : option Z := let* n := hash t k in let* p := rdb t n in find_loop (fu m) m p k.
(** hashtable.h:1136-1141: the loop of count *)
Fixpoint count_loop fuel m p k (r : Z) : option Z :=
  match fuel with
  | O => None
  | S fuel => if p =? 0 then Some r else let* n := get m p in count_loop fuel m (nxt n) k (if eqb (key (val n)) k then r + 1 else r)
  end.
(** hashtable.h:1129-1143 count *)
Definition count m t k : option Z := let* n := hash t k in let* p := rdb t n in count_loop (fu m) m p k 0.
(** hashtable.h:1072-1084 bucket_size *)
Fixpoint length_loop fuel m p (r : Z) : option Z :=
  match fuel with O => None | S fuel => if p =? 0 then Some r else let* n := get m p in length_loop fuel m (nxt n) (r + 1) end.
Definition bucket_size m t n : option Z := let* p := rdb t n in length_loop (fu m) m p 0.

(** hashtable.h:537-542: the first pointer that is not null from the bucket [n] on, null when there is none; the same search in 210-211,
    1162-1167 and 1213-1218 *)
Fixpoint scan fuel t n : option Z :=
  match fuel with
  | O => None
  | S fuel => if n <? bsz t then let* p := rdb t n in if p =? 0 then scan fuel t (n + 1) else Some p else Some 0
  end.
Definition scan_from t n : option Z := scan (S (Z.to_nat (bsz t - n))) t n.
(** hashtable.h:535-543 M_begin, 600-601 begin; end is null *)
Definition begin t : option Z := scan_from t 0.
(** hashtable.h:202-214 operator++ *)
Definition inc m t p : option Z :=
  let* n := get m p in
  if nxt n =? 0 then let* i := hash t (key (val n)) in scan_from t (i + 1) else Some (nxt n).

(** hashtable.h:1157-1161: the first node from [p] on without the key, null when there is none *)
Fixpoint skip_loop fuel m p k : option Z :=
  match fuel with
  | O => None
  | S fuel => if p =? 0 then Some 0 else let* n := get m p in if eqb (key (val n)) k then skip_loop fuel m (nxt n) k else Some p
  end.
(** hashtable.h:1145-1171 equal_range_multi *)
Definition equal_range_multi m t k : option (Z * Z) :=
  let* n := hash t k in
  let* p := rdb t n in
  let* f := find_loop (fu m) m p k in
  if f =? 0 then Some (0, 0)
  else
    let* x := get m f in
    let* s := skip_loop (fu m) m (nxt x) k in
    if s =? 0 then let* s := scan_from t (n + 1) in Some (f, s) else Some (f, s).
(** hashtable.h:1200-1222 equal_range_unique *)
Definition equal_range_unique m t k : option (Z * Z) :=
  let* n := hash t k in
  let* p := rdb t n in
  let* f := find_loop (fu m) m p k in
  if f =? 0 then Some (0, 0)
  else
    let* x := get m f in
    if nxt x =? 0 then let* s := scan_from t (n + 1) in Some (f, s) else Some (f, nxt x).

(** ** inserting without a new array of buckets *)
(** hashtable.h:882-901 insert_unique_noresize *)
Definition insert_unique_noresize m t v : option (memory * tab * (Z * bool)) :=
  let* n := hash t (key v) in
  let* first := rdb t n in
  let* cur := find_loop (fu m) m first (key v) in
  if cur =? 0 then
    let (m, tmp) := create_node m v in
    let* m := set_nxt m tmp first in
    let* t := wrb t n tmp in
    Some (m, set_cnt t (cnt t + 1), (tmp, true))
  else Some (m, t, (cur, false)).
(** hashtable.h:903-927 insert_multi_noresize *)
Definition insert_multi_noresize m t v : option (memory * tab * Z) :=
  let* n := hash t (key v) in
  let* first := rdb t n in
  let (m, tmp) := create_node m v in
  let* cur := find_loop (fu m) m first (key v) in
  if cur =? 0 then
    let* m := set_nxt m tmp first in
    let* t := wrb t n tmp in
    Some (m, set_cnt t (cnt t + 1), tmp)
  else
    let* c := get m cur in
    let* m := set_nxt m tmp (nxt c) in
    let* m := set_nxt m cur tmp in
    Some (m, set_cnt t (cnt t + 1), tmp).
(** hashtable.h:1430-1458 insert_node_multi *)
Definition insert_node_multi m t np : option (memory * tab * Z) :=
  let* x := get m np in
  let* n := hash t (key (val x)) in
  let* cur := rdb t n in
  if cur =? 0 then let* t := wrb t n np in Some (m, set_cnt t (cnt t + 1), np)
  else
    let* cur := find_loop (fu m) m cur (key (val x)) in
    if cur =? 0 then
      let* f := rdb t n in
      let* m := set_nxt m np f in
      let* t := wrb t n np in
      Some (m, set_cnt t (cnt t + 1), np)
    else
      let* c := get m cur in
      let* m := set_nxt m np (nxt c) in
      let* m := set_nxt m cur np in
      Some (m, set_cnt t (cnt t + 1), np).
(** hashtable.h:1460-1485 insert_node_unique *)
Definition insert_node_unique m t np : option (memory * tab * (Z * bool)) :=
  let* x := get m np in
  let* n := hash t (key (val x)) in
  let* cur := rdb t n in
  if cur =? 0 then let* t := wrb t n np in Some (m, set_cnt t (cnt t + 1), (np, true))
  else
    let* cur := find_loop (fu m) m cur (key (val x)) in
    if cur =? 0 then
      let* f := rdb t n in
      let* m := set_nxt m np f in
      let* t := wrb t n np in
      Some (m, set_cnt t (cnt t + 1), (np, true))
    else Some (m, t, (cur, false)).

(** ** a new array of buckets *)
(** hashtable.h:1497-1518: a chain of the old array goes into the new array [nb] of [bn] buckets *)
Fixpoint rb_chain fuel m (nb : Z -> Z) (bn : Z) first : option (memory * (Z -> Z)) :=
  match fuel with
  | O => None
  | S fuel =>
    if first =? 0 then Some (m, nb)
    else
      let* x := get m first in
      let (m, tmp) := create_node m (val x) in
      let* n := hash_n (key (val x)) bn in
      let f := nb n in
      let* cur := find_loop (fu m) m f (key (val x)) in
      let* (m, nb) :=
        (if cur =? 0 then let* m := set_nxt m tmp f in Some (m, upd nb n tmp)
         else let* c := get m cur in let* m := set_nxt m tmp (nxt c) in let* m := set_nxt m cur tmp in Some (m, nb)) in
      let* x := get m first in
      rb_chain fuel m nb bn (nxt x)
  end.
(** hashtable.h:1495-1519: the [r] buckets from [i] on *)
Fixpoint rb_loop (r : nat) m t (nb : Z -> Z) (bn i : Z) : option (memory * (Z -> Z)) :=
  match r with
  | O => Some (m, nb)
  | S r => let* p := rdb t i in let* (m, nb) := rb_chain (fu m) m nb bn p in rb_loop r m t nb bn (i + 1)
  end.
(** hashtable.h:1487-1523 replace_bucket *)
Definition replace_bucket m t bn : option (memory * tab) :=
  let* (m, nb) := (if cnt t =? 0 then Some (m, fun _ => 0) else rb_loop (Z.to_nat (bsz t)) m t (fun _ => 0) bn 0) in
  Some (m, mkTab nb bn bn (cnt t) (mlf t)).
(** hashtable.h:1086-1104 rehash *)
Definition worth t n : bool :=
  SFltb (SFdiv 24 128 (f32Z (cnt t)) (f32Z n)) (SFsub 24 128 (mlf t) quarter32) &&
  SFltb (widen (f32Z n)) (fmul (widen (f32Z (bsz t))) d075).
Definition rehash m t count : option (memory * tab) :=
  let* n := next_prime count in
  if bsz t <? n then replace_bucket m t n else if worth t n then replace_bucket m t n else Some (m, t).
(** hashtable.h:1383-1384, 849-850, 871-872: the test before [n] values are inserted *)
Definition crowded t n : bool := SFltb (SFmul 24 128 (f32Z (bsz t)) (mlf t)) (f32Z (cnt t + n)).
(** hashtable.h:1378-1385 rehash_if_need *)
Definition rehash_if_need m t n : option (memory * tab) := if crowded t n then rehash m t (cnt t + n) else Some (m, t).
(** hashtable.h:763-764 reserve *)
Definition reserve m t count : option (memory * tab) :=
  let* c := ftruncZ (SFadd 24 128 (SFdiv 24 128 (f32Z count) (mlf t)) half32) in
  if (0 <=? c) && (c <? 2 ^ 64) then rehash m t c else None.
(** hashtable.h:750-751 load_factor *)
Definition load_factor t : f32 := if bsz t =? 0 then zero32 else SFdiv 24 128 (f32Z (cnt t)) (f32Z (bsz t)).
(** hashtable.h:755-759 max_load_factor *)
Definition set_mlf t (ml : f32) : option tab :=
  if negb (SFeqb ml ml) || SFltb ml zero32 then None else Some (mkTab (bk t) (bl t) (bsz t) (cnt t) ml).

(** ** inserting *)
(** hashtable.h:644-648 insert_multi, 653-657 insert_unique *)
Definition insert_multi m t v : option (memory * tab * Z) := let* (m, t) := rehash_if_need m t 1 in insert_multi_noresize m t v.
Definition insert_unique m t v : option (memory * tab * (Z * bool)) := let* (m, t) := rehash_if_need m t 1 in insert_unique_noresize m t v.
(** hashtable.h:838-858 emplace_multi *)
Definition emplace_multi m t v : option (memory * tab * Z) :=
  let (m, np) := create_node m v in
  let* (m, t) := rehash_if_need m t 1 in
  insert_node_multi m t np.
(** hashtable.h:860-880 emplace_unique *)
Definition emplace_unique m t v : option (memory * tab * (Z * bool)) :=
  let (m, np) := create_node m v in
  let* (m, t) := rehash_if_need m t 1 in
  insert_node_unique m t np.
(** hashtable.h:1394-1395, 1405-1406, 1415-1416, 1426-1427: the loops of copy_insert_multi and copy_insert_unique; those of the constructors
    in unordered_map.h:77-78, 87-88, 362-363, 372-373 are the same *)
Fixpoint multi_loop m t (vs : list T) : option (memory * tab) :=
  match vs with [] => Some (m, t) | v :: vs => let* (m, t, _) := insert_multi_noresize m t v in multi_loop m t vs end.
Fixpoint unique_loop m t (vs : list T) : option (memory * tab) :=
  match vs with [] => Some (m, t) | v :: vs => let* (m, t, _) := insert_unique_noresize m t v in unique_loop m t vs end.
(** hashtable.h:1387-1407 copy_insert_multi, 1409-1428 copy_insert_unique, 672-678; [vs] are the values of the range *)
Definition insert_range_multi m t vs : option (memory * tab) := let* (m, t) := rehash_if_need m t (Z.of_nat (length vs)) in multi_loop m t vs.
Definition insert_range_unique m t vs : option (memory * tab) := let* (m, t) := rehash_if_need m t (Z.of_nat (length vs)) in unique_loop m t vs.

(** ** erasing *)
(** hashtable.h:947-962: the loop of erase *)
Fixpoint erase_walk fuel m t p cur next : option (memory * tab) :=
  match fuel with
  | O => None
  | S fuel =>
    if next =? 0 then Some (m, t)
    else if next =? p then
      let* x := get m next in
      let* m := set_nxt m cur (nxt x) in
      let* m := destroy_node m next in
      Some (m, set_cnt t (cnt t - 1))
    else let* x := get m next in erase_walk fuel m t p next (nxt x)
  end.
(** hashtable.h:929-965 erase of one node *)
Definition erase m t p : option (memory * tab) :=
  if p =? 0 then Some (m, t)
  else
    let* x := get m p in
    let* n := hash t (key (val x)) in
    let* cur := rdb t n in
    let* c := get m cur in
    if cur =? p then
      let* t := wrb t n (nxt c) in
      let* m := destroy_node m cur in
      Some (m, set_cnt t (cnt t - 1))
    else erase_walk (fu m) m t p cur (nxt c).
(** hashtable.h:1557-1563: the loop of erase_bucket(n, last), [c] is size_ *)
Fixpoint cut_loop fuel m cur last c : option (memory * Z) :=
  match fuel with
  | O => None
  | S fuel =>
    if cur =? last then Some (m, c)
    else let* x := get m cur in let* m := destroy_node m cur in cut_loop fuel m (nxt x) last (c - 1)
  end.
(** hashtable.h:1550-1565 erase_bucket(n, last) *)
Definition erase_bucket_to m t n last : option (memory * tab) :=
  let* cur := rdb t n in
  let* (m, c) := cut_loop (fu m) m cur last (cnt t) in
  let* t := wrb t n last in
  Some (m, set_cnt t c).
(** hashtable.h:1538-1539: the node before [first] *)
Fixpoint seek_loop fuel m cur next first : option (Z * Z) :=
  match fuel with
  | O => None
  | S fuel => if next =? first then Some (cur, next) else let* x := get m next in seek_loop fuel m next (nxt x) first
  end.
(** hashtable.h:1540-1546 *)
Fixpoint drop_loop fuel m cur next last c : option (memory * Z) :=
  match fuel with
  | O => None
  | S fuel =>
    if next =? last then Some (m, c)
    else
      let* x := get m next in
      let* m := set_nxt m cur (nxt x) in
      let* m := destroy_node m next in
      let* y := get m cur in
      drop_loop fuel m cur (nxt y) last (c - 1)
  end.
(** hashtable.h:1525-1548 erase_bucket(n, first, last) *)
Definition erase_bucket m t n first last : option (memory * tab) :=
  let* cur := rdb t n in
  if cur =? first then erase_bucket_to m t n last
  else
    let* x := get m cur in
    let* (cur, next) := seek_loop (fu m) m cur (nxt x) first in
    let* (m, c) := drop_loop (fu m) m cur next last (cnt t) in
    Some (m, set_cnt t c).
(** hashtable.h:987-991: the [r] buckets from [n] on *)
Fixpoint mid_loop (r : nat) m t n : option (memory * tab) :=
  match r with
  | O => Some (m, t)
  | S r =>
    let* p := rdb t n in
    let* (m, t) := (if p =? 0 then Some (m, t) else erase_bucket_to m t n 0) in
    mid_loop r m t (n + 1)
  end.
(** hashtable.h:967-997 erase of a range *)
Definition bucket_of m t p : option Z := if p =? 0 then Some (bsz t) else let* x := get m p in hash t (key (val x)).
Definition erase_range m t first last : option (memory * tab) :=
  if first =? last then Some (m, t)
  else
    let* fb := bucket_of m t first in
    let* lb := bucket_of m t last in
    if fb =? lb then erase_bucket m t fb first last
    else
      let* (m, t) := erase_bucket m t fb first 0 in
      let* (m, t) := mid_loop (Z.to_nat (lb - (fb + 1))) m t (fb + 1) in
      if lb =? bsz t then Some (m, t) else erase_bucket_to m t lb last.
(** iterator.h:155-167 distance of forward iterators *)
Fixpoint distance fuel m t first last (r : Z) : option Z :=
  match fuel with
  | O => None
  | S fuel => if first =? last then Some r else let* p := inc m t first in distance fuel m t p last (r + 1)
  end.
(** hashtable.h:999-1012 erase_multi *)
Definition erase_multi m t k : option (memory * tab * Z) :=
  let* (f, l) := equal_range_multi m t k in
  if f =? 0 then Some (m, t, 0)
  else
    let* (m, t) := erase_range m t f l in
    let* d := distance (fu m) m t f l 0 in
    Some (m, t, d).
(** hashtable.h:1032-1044: the loop of erase_unique *)
Fixpoint unique_walk fuel m t k first next : option (memory * tab * Z) :=
  match fuel with
  | O => None
  | S fuel =>
    if next =? 0 then Some (m, t, 0)
    else
      let* x := get m next in
      if eqb (key (val x)) k then
        let* m := set_nxt m first (nxt x) in
        let* m := destroy_node m next in
        Some (m, set_cnt t (cnt t - 1), 1)
      else unique_walk fuel m t k next (nxt x)
  end.
(** hashtable.h:1014-1048 erase_unique *)
Definition erase_unique m t k : option (memory * tab * Z) :=
  let* n := hash t k in
  let* first := rdb t n in
  if first =? 0 then Some (m, t, 0)
  else
    let* x := get m first in
    if eqb (key (val x)) k then
      let* t := wrb t n (nxt x) in
      let* m := destroy_node m first in
      Some (m, set_cnt t (cnt t - 1), 1)
    else unique_walk (fu m) m t k first (nxt x).
(** hashtable.h:1059-1065: a chain is destroyed *)
Fixpoint free_chain fuel m cur : option memory :=
  match fuel with
  | O => None
  | S fuel => if cur =? 0 then Some m else let* x := get m cur in let* m := destroy_node m cur in free_chain fuel m (nxt x)
  end.
(** hashtable.h:1057-1067: the [r] buckets from [i] on *)
Fixpoint clear_loop (r : nat) m t i : option (memory * tab) :=
  match r with
  | O => Some (m, t)
  | S r =>
    let* p := rdb t i in
    let* m := free_chain (fu m) m p in
    let* t := wrb t i 0 in
    clear_loop r m t (i + 1)
  end.
(** hashtable.h:1050-1070 clear *)
Definition clear m t : option (memory * tab) :=
  if cnt t =? 0 then Some (m, t)
  else let* (m, t) := clear_loop (Z.to_nat (bsz t)) m t 0 in Some (m, set_cnt t 0).

(** ** construction, copying, exchange *)
(** hashtable.h:557-563, 1267-1285 init; the vector assigned has [n] null pointers *)
Definition construct (n : Z) : option tab := let* b := next_prime n in Some (mkTab (fun _ => 0) b b 0 one32).
(** hashtable.h:565-574 the constructor from a range of [d] values *)
Definition construct_range (d n : Z) : option tab := let* b := next_prime (Z.max n d) in Some (mkTab (fun _ => 0) b b d one32).
(** hashtable.h:1304-1309: the rest of a chain from [next] on is copied behind [copy] *)
Fixpoint copy_rest fuel m next copy : option memory :=
  match fuel with
  | O => None
  | S fuel =>
    if next =? 0 then set_nxt m copy 0
    else
      let* x := get m next in
      let (m, c) := create_node m (val x) in
      let* m := set_nxt m copy c in
      let* x := get m next in
      copy_rest fuel m (nxt x) c
  end.
(** hashtable.h:1297-1311: the [r] buckets from [i] on *)
Fixpoint copy_loop (r : nat) m t (nb : Z -> Z) i : option (memory * (Z -> Z)) :=
  match r with
  | O => Some (m, nb)
  | S r =>
    let* cur := rdb t i in
    if cur =? 0 then copy_loop r m t nb (i + 1)
    else
      let* x := get m cur in
      let (m, copy) := create_node m (val x) in
      let nb := upd nb i copy in
      let* x := get m cur in
      let* m := copy_rest (fu m) m (nxt x) copy in
      copy_loop r m t nb (i + 1)
  end.
(** hashtable.h:576-580, 1287-1320 copy construction *)
Definition copy_construct m t : option (memory * tab) :=
  let* (m, nb) := copy_loop (Z.to_nat (bsz t)) m t (fun _ => 0) 0 in
  Some (m, mkTab nb (bsz t) (bsz t) (cnt t) (mlf t)).
(** hashtable.h:581-592 move construction: the new table and the one moved from; the vector moved from is empty *)
Definition move_construct t : tab * tab := (t, mkTab (fun _ => 0) 0 0 0 zero32).
(** hashtable.h:1248-1262 swap of two tables *)
Definition swap_tab (t u : tab) : tab * tab := (u, t).
(** hashtable.h:597 the destructor *)
Definition destruct_tab m t : option memory := let* (m, _) := clear m t in Some m.
(** hashtable.h:813-825 copy assignment of another table; [t] is assigned to *)
Definition copy_assign m t rhs : option (memory * tab) :=
  let* (m, tmp) := copy_construct m rhs in
  let (t, tmp) := swap_tab t tmp in
  let* m := destruct_tab m tmp in
  Some (m, t).
(** hashtable.h:827-836 move assignment of another table: the two tables after it *)
Definition move_assign m t rhs : option (memory * tab * tab) :=
  let (tmp, rhs) := move_construct rhs in
  let (t, tmp) := swap_tab t tmp in
  let* m := destruct_tab m tmp in
  Some (m, t, rhs).

(** ** the interface of the buckets, comparison *)
(** hashtable.h:707-711 begin(n) *)
Definition bucket_begin t n : option Z := if n <? cnt t then rdb t n else None.
(** hashtable.h:1590-1595: the loop of equal_to_unique; [veq] is operator== of the values *)
Fixpoint eq_loop fuel m (veq : T -> T -> bool) t u f : option bool :=
  match fuel with
  | O => None
  | S fuel =>
    if f =? 0 then Some true
    else
      let* x := get m f in
      let* res := find m u (key (val x)) in
      if res =? 0 then Some false
      else
        let* y := get m res in
        if veq (val y) (val x) then let* f := inc m t f in eq_loop fuel m veq t u f else Some false
  end.
(** hashtable.h:1585-1597 equal_to_unique *)
Definition equal_to_unique m veq t u : option bool :=
  if negb (cnt t =? cnt u) then Some false else let* f := begin t in eq_loop (fu m) m veq t u f.

(** ** unordered_map.h, unordered_set.h *)
(** unordered_map.h:58-61 *)
Definition u_construct : option tab := construct 100.
(** unordered_map.h:70-89, unordered_set.h:68-87: constructors from a range or a list of values; those of the multi containers in
    unordered_map.h:355-374, unordered_set.h:325-344 *)
Definition u_construct_unique m (n : Z) vs : option (memory * tab) :=
  let* t := construct (Z.max n (Z.of_nat (length vs))) in unique_loop m t vs.
Definition u_construct_multi m (n : Z) vs : option (memory * tab) :=
  let* t := construct (Z.max n (Z.of_nat (length vs))) in multi_loop m t vs.
(** unordered_map.h:111-118, 396-403, unordered_set.h:109-116, 366-373: assignment of a list of values *)
Definition u_assign_unique m t vs : option (memory * tab) :=
  let* (m, t) := clear m t in let* (m, t) := reserve m t (Z.of_nat (length vs)) in unique_loop m t vs.
Definition u_assign_multi m t vs : option (memory * tab) :=
  let* (m, t) := clear m t in let* (m, t) := reserve m t (Z.of_nat (length vs)) in multi_loop m t vs.
(** unordered_map.h:190-195 at: the node whose second is returned *)
Definition u_at m t k : option Z := let* p := find m t k in if p =? 0 then None else Some p.
(** unordered_map.h:203-209 operator[]; [dflt] is the pair of the key and T{} *)
Definition u_index m t k (dflt : T) : option (memory * tab * Z) :=
  let* p := find m t k in
  if p =? 0 then let* (m, t, r) := emplace_unique m t dflt in Some (m, t, fst r) else Some (m, t, p).
End Ht.
