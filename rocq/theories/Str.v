(** Byte strings (std::string is a byte string; the source files are UTF-8, so a Chinese character is three bytes). *)
From Coq Require Import ZArith List Ascii String Bool Lia.
Import ListNotations.
Open Scope Z_scope.

Definition bytes := list ascii.

(** A C++ string literal: the UTF-8 bytes of the source text. *)
Definition B (s : string) : bytes := list_ascii_of_string s.
Definition len (s : bytes) : Z := Z.of_nat (List.length s).

Definition digit (n : Z) : ascii := ascii_of_N (Z.to_N (48 + n)).
Definition NUL : ascii := Ascii.zero.

Fixpoint beq (a b : bytes) : bool :=
  match a, b with
  | [], [] => true
  | x :: a, y :: b => Ascii.eqb x y && beq a b
  | _, _ => false
  end.

Lemma beq_eq a b : beq a b = true <-> a = b.
Proof.
  revert b; induction a as [|x a IH]; intros [|y b]; cbn; try (split; congruence).
  rewrite andb_true_iff, Ascii.eqb_eq, IH. split; [intros []; congruence | intros H; injection H; auto].
Qed.
Lemma beq_refl a : beq a a = true.
Proof. now apply beq_eq. Qed.

(** std::string::substr(pos, n); throws std::out_of_range (None) when pos > size. *)
Definition substr (s : bytes) (pos n : Z) : option bytes :=
  if (0 <=? pos) && (pos <=? len s) then Some (firstn (Z.to_nat n) (skipn (Z.to_nat pos) s)) else None.

(** one-argument substr(pos): up to the end *)
Definition substr1 (s : bytes) (pos : Z) : option bytes := substr s pos (len s).

(** A C char array; writing outside of it is undefined behaviour (None). *)
Definition setb (b : bytes) (i : Z) (c : ascii) : option bytes :=
  if (0 <=? i) && (i <? len b) then
    Some (firstn (Z.to_nat i) b ++ c :: skipn (S (Z.to_nat i)) b)
  else None.

(** the C string stored in a char array; None when there is no terminating NUL *)
Fixpoint cstr (b : bytes) : option bytes :=
  match b with
  | [] => None
  | c :: b => if Ascii.eqb c NUL then Some [] else match cstr b with Some s => Some (c :: s) | None => None end
  end.
