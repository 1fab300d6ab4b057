(** Model of the string utilities: string_replace, fill_str (mylib/tool.cpp), split (lunar/lunar_ob.cpp),
    my_stoi (mylib/mystl/my_string.h). *)
From Coq Require Import ZArith List Ascii String Bool.
From Coq Require Import Floats.SpecFloat.
From Verif Require Import F64 Str DecSpec ItoaModel.
Import ListNotations.
Open Scope Z_scope.
Open Scope opt_scope.

(** does [pat] occur at the start of [s]? *)
Fixpoint prefixb (pat s : bytes) : bool :=
  match pat, s with
  | [], _ => true
  | p :: pat, c :: s => Ascii.eqb p c && prefixb pat s
  | _ :: _, [] => false
  end.

(** std::string::find on the suffix [s] that starts at offset [i]; None = npos *)
Fixpoint find_at (pat s : bytes) (i : Z) : option Z :=
  if prefixb pat s then Some i
  else match s with [] => None | _ :: s => find_at pat s (i + 1) end.

(** std::string::find(pat, pos) *)
Definition find (s pat : bytes) (pos : Z) : option Z :=
  if pos <=? len s then find_at pat (skipn (Z.to_nat pos) s) pos else None.

(** std::string::replace(pos, n, dst), pos <= size *)
Definition replace (s : bytes) (pos n : Z) (dst : bytes) : bytes :=
  firstn (Z.to_nat pos) s ++ dst ++ skipn (Z.to_nat (pos + n)) s.

(** mylib/tool.cpp:15-19  the loop of string_replace; [None] when the loop has not ended after [fuel] rounds *)
Fixpoint sr_loop (fuel : nat) (big src dst : bytes) (pos : Z) : option bytes :=
  match fuel with
  | O => None
  | S fuel =>
      match find big src pos with
      | None => Some big
      | Some pos => sr_loop fuel (replace big pos (len src) dst) src dst (pos + len dst)
      end
  end.

(** mylib/tool.cpp:9-20  string_replace returns [r] *)
Definition string_replace (big src dst r : bytes) : Prop := exists fuel, sr_loop fuel big src dst 0 = Some r.

(** mylib/tool.cpp:208-214  fill_str(s, n, c); [n - len] is int arithmetic.  Strings longer than INT_MAX are not
    modelled (the conversion of line 209 would be out of range). *)
Definition fill_str (s : bytes) (n : Z) (c : bytes) : option bytes :=
  let* k := mk_int (n - len s) in
  Some (Nat.iter (Z.to_nat k) (fun s => c ++ s) s).

(** std::string::find_first_of(set, pos) on the suffix [s] that starts at offset [i] *)
Fixpoint ffo_at (set s : bytes) (i : Z) : option Z :=
  match s with
  | [] => None
  | c :: s => if existsb (Ascii.eqb c) set then Some i else ffo_at set s (i + 1)
  end.
Definition find_first_of (s set : bytes) (pos : Z) : option Z := ffo_at set (skipn (Z.to_nat pos) s) pos.

(** lunar/lunar_ob.cpp:51-70  the loop of split and the last token; outer [None] = std::out_of_range thrown by
    substr(start), or fuel exhausted (excluded by the theorems).  [start == npos] (line 63) cannot happen: start is an
    index plus a length. *)
Fixpoint split_loop (fuel : nat) (str sep : bytes) (start : Z) (dest : list bytes) : option (list bytes) :=
  match fuel with
  | O => None
  | S fuel =>
      match find_first_of str sep start with
      | Some index =>
          let* sub := substr str start (index - start) in
          split_loop fuel str sep (index + len sep) (dest ++ [sub])
      | None =>
          let* sub := substr1 str start in
          Some (dest ++ [sub])
      end
  end.
(** lunar/lunar_ob.cpp:44-71.  Every round that finds a separator moves [start] at least one further, so
    [length + 1] rounds suffice (see the proofs). *)
Definition split (src sep : bytes) : option (list bytes) := split_loop (S (List.length src)) src sep 0 [].

(** ** my_stoi *)
Definition is_space (c : ascii) : bool := let n := code c in (n =? 32) || ((9 <=? n) && (n <=? 13)).
Definition digitb (c : ascii) : bool := (48 <=? code c) && (code c <=? 57).

Fixpoint skip_space (s : bytes) : bytes :=
  match s with c :: s' => if is_space c then skip_space s' else s | [] => [] end.
Fixpoint take_digits (s : bytes) : bytes :=
  match s with c :: s' => if digitb c then c :: take_digits s' else [] | [] => [] end.

Definition long_min := - 2 ^ 63.
Definition long_max := 2 ^ 63 - 1.

(** C library strtol(str, &end, 10) with 64-bit long: [None] = no conversion (end == str); otherwise the value and
    whether errno was set to ERANGE.  A std::string's data() is NUL terminated; NUL is no digit. *)
Definition strtol (s : bytes) : option (Z * bool) :=
  let s := skip_space s in
  let '(neg, s) := match s with
                   | c :: s' => if Ascii.eqb c "-" then (true, s') else if Ascii.eqb c "+" then (false, s') else (false, s)
                   | [] => (false, s)
                   end in
  match take_digits s with
  | [] => None
  | ds => let v := if neg then - dec_val ds else dec_val ds in
          if v <? long_min then Some (long_min, true)
          else if long_max <? v then Some (long_max, true)
          else Some (v, false)
  end.

(** long to int: implementation defined, modulo 2^32 *)
Definition wrap_int (v : Z) : Z := (v + 2 ^ 31) mod 2 ^ 32 - 2 ^ 31.

Inductive stoi_result := stoi_value (n : Z) | invalid_argument | out_of_range.

(** mylib/mystl/my_string.h:22-42  my_stoi(str) with base 10; state: is errno equal to ERANGE before the call?
    Returns the state after the call and the result.  [pos] is not modelled (never passed in the code base). *)
Definition my_stoi (errno_range : bool) (s : bytes) : bool * stoi_result :=
  match strtol s with
  | None => (errno_range, invalid_argument)
  | Some (v, r) =>
      let errno_range := errno_range || r in
      (errno_range, if errno_range then out_of_range else stoi_value (wrap_int v))
  end.
