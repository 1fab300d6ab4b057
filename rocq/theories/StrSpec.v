(** Specifications of text replacement and splitting, independent of the code. *)
From Coq Require Import ZArith List Ascii.
From Verif Require Import Str.
Import ListNotations.

(** [pat] occurs in [s] somewhere *)
Definition occurs (pat s : bytes) : Prop := exists a b, s = a ++ pat ++ b.

(** [a] is the text before the leftmost occurrence of [pat] in [s], [b] the text after it *)
Definition leftmost (pat s a b : bytes) : Prop :=
  s = a ++ pat ++ b /\ forall a' b', s = a' ++ pat ++ b' -> (List.length a <= List.length a')%nat.

(** replacing every leftmost non-overlapping occurrence of [pat] by [dst]; what was inserted is not looked at again *)
Inductive replaced (pat dst : bytes) : bytes -> bytes -> Prop :=
| rp_none s : ~ occurs pat s -> replaced pat dst s s
| rp_some s a b r : leftmost pat s a b -> replaced pat dst b r -> replaced pat dst s (a ++ dst ++ r).

(** pieces joined by a separator byte *)
Fixpoint join (c : ascii) (l : list bytes) : bytes :=
  match l with
  | [] => []
  | [x] => x
  | x :: l => x ++ c :: join c l
  end.
