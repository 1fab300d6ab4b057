(** Model of mylib/mystl/itoa.h and of the integer instances of to_str (mylib/mystl/my_string.h). *)
From Coq Require Import ZArith List Ascii String Bool.
From Coq Require Import Floats.SpecFloat.
From Verif Require Import F64 Str.
Import ListNotations.
Open Scope Z_scope.
Open Scope opt_scope.

Definition u32w (x : Z) : Z := x mod 2 ^ 32.
Definition u64w (x : Z) : Z := x mod 2 ^ 64.

(** itoa.h:40-69  the table [dd] of digit pairs; index out of 0..99 is undefined behaviour.
    [pair(int n)] of itoa.h:37 is { digit n/10, digit n%10 }. *)
Definition dd_at (n : Z) : option (ascii * ascii) :=
  if (0 <=? n) && (n <? 100) then Some (digit (n / 10), digit (n mod 10)) else None.

(** itoa.h:55-67  the table [fd]: entries 0..9 are { digit, NUL } (itoa.h:36), the others as in [dd]. *)
Definition fd_at (n : Z) : option (ascii * ascii) :=
  if (0 <=? n) && (n <? 10) then Some (digit n, NUL) else dd_at n.

(** [*reinterpret_cast<pair*>(b) = p;] *)
Definition put2 (s : bytes) (b : Z) (p : ascii * ascii) : option bytes :=
  let* s := setb s b (fst p) in setb s (b + 1) (snd p).

(** conversion of a constant double to an unsigned integer type *)
Definition truncZ (x : f64) : Z := match ftruncZ x with Some z => z | None => 0 end.

(** the multipliers, e.g. itoa.h:102 [u32(10 * (1 << 24) / 1e3 + 1)], computed in double and truncated *)
Definition k4 : Z := truncZ (fadd (fdiv (fZ (10 * 2 ^ 24)) (fZ 1000)) (fZ 1)).
(** itoa.h:109 [u64(10 * (1ull << 32ull)/ 1e5 + 1)] *)
Definition k6 : Z := truncZ (fadd (fdiv (fZ (10 * 2 ^ 32)) (fZ 100000)) (fZ 1)).
(** itoa.h:122 [u64(10 * (1ull << 48ull) / 1e7 + 1)] *)
Definition k8 : Z := truncZ (fadd (fdiv (fZ (10 * 2 ^ 48)) (fZ 10000000)) (fZ 1)).
(** itoa.h:133 [u64(10 * (1ull << 57ull) / 1e9 + 1)] *)
Definition k10 : Z := truncZ (fadd (fdiv (fZ (10 * 2 ^ 57)) (fZ 1000000000)) (fZ 1)).
(** itoa.h:229, 240 [u64((1ull << 48ull) / 1e6 + 1)] *)
Definition k8r : Z := truncZ (fadd (fdiv (fZ (2 ^ 48)) (fZ 1000000)) (fZ 1)).

(** The repeated pair of statements  [auto f2 = (f0 & maskP) * 100; *reinterpret_cast<pair*>(b + 2) = digits.dd[f2 >> P];]
    (itoa.h:105-106, 112-115, 125-130, 136-143, 165-166, 173-176, 185-190, 198-205, 224-225, 231-236, 242-247):
    [j] of them, the k-th writing at offset 2k. *)
Fixpoint rest (j : nat) (P f b : Z) (s : bytes) : option bytes :=
  match j with
  | O => Some s
  | S j =>
      let f := u64w ((f mod 2 ^ P) * 100) in
      let* p := dd_at (f / 2 ^ P) in
      let* s := put2 s (b + 2) p in
      rest j P f (b + 2) s
  end.

(** itoa.h:102-107 (and 109-116, 122-131, 133-144): first pair without leading zero, [b -= n < thr], j more pairs,
    then [b + 2(j+1)].  Forming the pointer one below the array start (itoa.h:104 when b is the start) is not treated
    as undefined behaviour; only accesses are. *)
Definition lead (j : nat) (P f0 n thr b : Z) (s : bytes) : option (bytes * Z) :=
  let* p := fd_at (f0 / 2 ^ P) in
  let* s := put2 s b p in
  let b := if n <? thr then b - 1 else b in
  let* s := rest j P f0 b s in
  Some (s, b + 2 * Z.of_nat j + 2).

(** itoa.h:229-237 and 240-248: eight digits with leading zeros *)
Definition eight (y b : Z) (s : bytes) : option (bytes * Z) :=
  let f0 := u64w (u64w (k8r * y) / 2 ^ 16 + 1) in
  let* p := dd_at (f0 / 2 ^ 32) in
  let* s := put2 s b p in
  let* s := rest 3 32 f0 b s in
  Some (s, b + 8).

(** itoa.h:157-207: 3 to 10 digits of [u] (64-bit) *)
Definition upper (u b : Z) (s : bytes) : option (bytes * Z) :=
  if u <? 1000000 then
    if u <? 10000 then lead 1 24 (u64w (k4 * u)) u 1000 b s
    else lead 2 32 (u64w (k6 * u)) u 100000 b s
  else if u <? 100000000 then lead 3 32 (u64w (k8 * u) / 2 ^ 16) u 10000000 b s
  else lead 4 57 (u64w (k10 * u)) u 1000000000 b s.

(** itoa.h:85-249  to_text_from_integer for a type of [w] bits (w = 32 or 64), signed or unsigned value [i].
    The product of itoa.h:102 is 32 bits wide when U is u32. *)
Definition to_text (w : Z) (i : Z) (s : bytes) : option (bytes * Z) :=
  let* (n, s, b) :=
    (if i <? 0 then let* s := setb s 0 "-"%char in Some ((0 - i mod 2 ^ w) mod 2 ^ w, s, 1)
     else Some (i mod 2 ^ w, s, 0)) in
  if n <? 100 then
    let* p := fd_at n in
    let* s := put2 s b p in
    Some (s, if n <? 10 then b + 1 else b + 2)
  else if n <? 1000000 then
    if n <? 10000 then lead 1 24 ((k4 * n) mod 2 ^ w) n 1000 b s
    else lead 2 32 (u64w (k6 * n)) n 100000 b s
  else if n <? 2 ^ 32 then
    if n <? 100000000 then lead 3 32 (u64w (k8 * n) / 2 ^ 16) n 10000000 b s
    else lead 4 57 (u64w (k10 * n)) n 1000000000 b s
  else
    let z := u32w (n mod 100000000) in
    let u := n / 100000000 in
    if u <? 100 then
      let* p := dd_at u in
      let* s := put2 s b p in
      eight z (b + 2) s
    else if u <? 2 ^ 32 then
      let* (s, b) := upper u b s in
      eight z b s
    else
      let y := u32w (u mod 100000000) in
      let u := u / 100000000 in
      let* (s, b) :=
        (if u <? 100 then
           let* p := dd_at u in let* s := put2 s b p in Some (s, b + 2)
         else lead 1 24 (u64w (k4 * u)) u 1000 b s) in
      let* (s, b) := eight y b s in
      eight z b s.

(** my_string.h:200-222  to_str for an integer type of [w] bits; precision is not used for integers.
    [fill] is a char[64]: [len] blanks must leave room for the terminating NUL, and a negative [length] becomes a huge
    size_t in the comparison of line 214. *)
Definition to_str_pad (str : bytes) (length : Z) (right_align : bool) : option bytes :=
  if (length <? 0) || (64 <=? length - len str) then None
  else
    let fill := repeat " "%char (Z.to_nat (length - len str)) in
    Some (if right_align then fill ++ str else str ++ fill).

Definition to_str_int (w i length : Z) (right_align : bool) : option bytes :=
  let* (s, _) := to_text w i (repeat NUL 32) in
  let* str := cstr s in
  to_str_pad str length right_align.

(** [to_str(i)] of an int with the default arguments *)
Definition to_str (i : Z) : option bytes := to_str_int 32 i 0 false.
