(** Model of stol, stoll, stoul and stoull of mylib/mystl/my_string.h, with the position and the base, on a model of the C library
    functions strtol, strtoll, strtoul and strtoull.  The width w of long is 64 or 32 bits; errno is the state "errno = ERANGE". *)
From Coq Require Import ZArith List Ascii Bool.
From Verif Require Import Str DecSpec StrModel.
Import ListNotations.
Open Scope Z_scope.

(** C library: value of a digit, letters of either case stand for 10 to 35 *)
Definition digit_of (c : ascii) : option Z :=
  let n := code c in
  if (48 <=? n) && (n <=? 57) then Some (n - 48)
  else if (97 <=? n) && (n <=? 122) then Some (n - 87)
  else if (65 <=? n) && (n <=? 90) then Some (n - 55)
  else None.
Definition digit_in (base : Z) (c : ascii) : option Z :=
  match digit_of c with Some d => if d <? base then Some d else None | None => None end.
Fixpoint take_in (base : Z) (s : bytes) : list Z :=
  match s with c :: s' => match digit_in base c with Some d => d :: take_in base s' | None => [] end | [] => [] end.
(** C library: blanks before the number, how many *)
Fixpoint spaces (s : bytes) : nat := match s with c :: s' => if is_space c then S (spaces s') else O | [] => O end.
(** C library: sign, number of characters of it *)
Definition sign_of (s : bytes) : bool * nat :=
  match s with c :: _ => if Ascii.eqb c "-" then (true, 1%nat) else if Ascii.eqb c "+" then (false, 1%nat) else (false, 0%nat) | [] => (false, 0%nat) end.
(** C library: base and length of the prefix 0x, which counts only with a digit behind it *)
Definition prefix_of (base : Z) (s : bytes) : Z * nat :=
  let other := (if base =? 0 then match s with c :: _ => if Ascii.eqb c "0" then 8 else 10 | [] => 10 end else base, 0%nat) in
  match s with
  | c :: x :: d :: _ =>
      if ((base =? 0) || (base =? 16)) && Ascii.eqb c "0" && (Ascii.eqb x "x" || Ascii.eqb x "X") && (match digit_in 16 d with Some _ => true | None => false end)
      then (16, 2%nat) else other
  | _ => other
  end.
(** C library: sign, absolute value and end of the number; [None]: no number, end == str *)
Definition scan (base : Z) (s : bytes) : option (bool * Z * nat) :=
  let n0 := spaces s in
  let '(neg, n1) := sign_of (skipn n0 s) in
  let '(b, n2) := prefix_of base (skipn (n0 + n1) s) in
  match take_in b (skipn (n0 + n1 + n2) s) with
  | [] => None
  | l => Some (neg, fold_left (fun a d => b * a + d) l 0, (n0 + n1 + n2 + List.length l)%nat)
  end.
(** C library: strtol, strtoll; value, end, was ERANGE set *)
Definition strto_s (w base : Z) (s : bytes) : option (Z * nat * bool) :=
  match scan base s with
  | None => None
  | Some (neg, m, e) =>
      let v := if neg then - m else m in
      if v <? - 2 ^ (w - 1) then Some (- 2 ^ (w - 1), e, true)
      else if 2 ^ (w - 1) - 1 <? v then Some (2 ^ (w - 1) - 1, e, true)
      else Some (v, e, false)
  end.
(** C library: strtoul, strtoull; a minus sign negates in the unsigned type *)
Definition strto_u (w base : Z) (s : bytes) : option (Z * nat * bool) :=
  match scan base s with
  | None => None
  | Some (neg, m, e) =>
      if 2 ^ w - 1 <? m then Some (2 ^ w - 1, e, true)
      else Some ((if neg then - m else m) mod 2 ^ w, e, false)
  end.

(** value and position, or the exception *)
Inductive sto_result := sto_value (v : Z) (pos : nat) | sto_invalid | sto_range.
(** mylib/mystl/my_string.h:46-64, 68-86, 90-108, 112-130: the same body after the call of the C library *)
Definition after_call (errno : bool) (r : option (Z * nat * bool)) : bool * sto_result :=
  match r with
  | None => (errno, sto_invalid)
  | Some (v, e, range) => let errno := errno || range in (errno, if errno then sto_range else sto_value v e)
  end.
(** mylib/mystl/my_string.h:44-64 *)
Definition stol (w : Z) (errno : bool) (s : bytes) (base : Z) : bool * sto_result := after_call errno (strto_s w base s).
(** mylib/mystl/my_string.h:66-86 *)
Definition stoll (errno : bool) (s : bytes) (base : Z) : bool * sto_result := after_call errno (strto_s 64 base s).
(** mylib/mystl/my_string.h:88-108 *)
Definition stoul (w : Z) (errno : bool) (s : bytes) (base : Z) : bool * sto_result := after_call errno (strto_u w base s).
(** mylib/mystl/my_string.h:110-130 *)
Definition stoull (errno : bool) (s : bytes) (base : Z) : bool * sto_result := after_call errno (strto_u 64 base s).
