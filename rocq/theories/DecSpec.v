(** Specification of decimal texts, independent of the code. *)
From Coq Require Import ZArith List Ascii String Bool.
From Verif Require Import Str.
Import ListNotations.
Open Scope Z_scope.

Definition code (c : ascii) : Z := Z.of_N (N_of_ascii c).
Definition is_digit (c : ascii) : Prop := 48 <= code c <= 57.
Definition dval (c : ascii) : Z := code c - 48.

(** value of a digit string read in base ten *)
Definition dec_val (s : bytes) : Z := fold_left (fun a c => 10 * a + dval c) s 0.

(** canonical: at least one digit, digits only, no superfluous leading zero *)
Definition canonical (s : bytes) : Prop :=
  s <> [] /\ Forall is_digit s /\ (forall t, s = "0"%char :: t -> t = []).

(** [s] is the decimal text of the integer [i] *)
Definition int_text (i : Z) (s : bytes) : Prop :=
  if i <? 0 then exists t, s = "-"%char :: t /\ canonical t /\ dec_val t = - i
  else canonical s /\ dec_val s = i.
