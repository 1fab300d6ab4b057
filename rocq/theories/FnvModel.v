(** mylib/mystl/functional.h: the hash functions; mylib/mystl/util.h: the comparisons of pairs. *)
From Coq Require Import ZArith List Bool.
From Coq Require Import Floats.SpecFloat.
From Verif Require Import F64.
Import ListNotations.
Open Scope Z_scope.

(** functional.h:238-254, with a size_t of 64 bits (gcc or clang); [first] are the bytes read *)
Definition fnv_offset : Z := 14695981039346656037.
Definition fnv_prime : Z := 1099511628211.
Definition bitwise_hash (first : list Z) : Z := fold_left (fun result b => (Z.lxor result b * fnv_prime) mod 2 ^ 64) first fnv_offset.
(** functional.h:196-203 (MYSTL_TRIVIAL_HASH_FCN): static_cast<size_t> of an integer *)
Definition hash_int (val : Z) : Z := val mod 2 ^ 64.
(** the representation of a double as C++ on x86-64 has it: IEEE 754 binary64; [nan] is the word of the NaN at hand, which the model of double does not tell apart *)
Definition double_word (nan : Z) (x : f64) : Z :=
  match x with
  | S754_zero s => if s then 2 ^ 63 else 0
  | S754_infinity s => (if s then 2 ^ 63 else 0) + 2047 * 2 ^ 52
  | S754_nan => nan
  | S754_finite s m e => (if s then 2 ^ 63 else 0) + (if Zpos m <? 2 ^ 52 then Zpos m else (e + 1075) * 2 ^ 52 + (Zpos m - 2 ^ 52))
  end.
(** the n bytes of a word in memory, lowest first (x86-64) *)
Fixpoint le_bytes (n : nat) (w : Z) : list Z := match n with O => [] | S n => w mod 256 :: le_bytes n (w / 256) end.
(** functional.h:265-272; the comparison with 0.0f is one of doubles *)
Definition hash_double (nan : Z) (val : f64) : Z := if feqb val (fZ 0) then 0 else bitwise_hash (le_bytes 8 (double_word nan val)).
(** functional.h:274-281: a long double of x86-64 has 16 bytes, of which ten are its value and six padding; [zero] is val == 0.0f *)
Definition hash_ldouble (zero : bool) (value padding : list Z) : Z := if zero then 0 else bitwise_hash (value ++ padding).

Section Pair.
(** two types with their operators == and < *)
Context {A B : Type} (eqA ltA : A -> A -> bool) (eqB ltB : B -> B -> bool).
(** util.h:244-248 *)
Definition pair_eq (l r : A * B) : bool := eqA (fst l) (fst r) && eqB (snd l) (snd r).
(** util.h:250-254 *)
Definition pair_lt (l r : A * B) : bool := ltA (fst l) (fst r) || (eqA (fst l) (fst r) && ltB (snd l) (snd r)).
(** util.h:256-278 *)
Definition pair_ne (l r : A * B) : bool := negb (pair_eq l r).
Definition pair_gt (l r : A * B) : bool := pair_lt r l.
Definition pair_le (l r : A * B) : bool := negb (pair_lt r l).
Definition pair_ge (l r : A * B) : bool := negb (pair_lt l r).
End Pair.
