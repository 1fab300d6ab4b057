(** Specification of decimal texts of fractions, independent of the code. *)
From Coq Require Import ZArith List Ascii String Bool.
From Verif Require Import Str DecSpec.
Import ListNotations.
Open Scope Z_scope.

(** D * 10^k in units of 10^-p, rounded to nearest, halves up *)
Definition rounded (D k p : Z) : Z :=
  if 0 <=? k + p then D * 10 ^ (k + p) else let q := 10 ^ (- (k + p)) in (2 * D + q) / (2 * q).

(** [t] shows the number N / 10^p with p decimals *)
Definition fixed_text (N p : Z) (t : bytes) : Prop :=
  exists i f, t = i ++ "."%char :: f /\ canonical i /\ Forall is_digit f /\ len f = p /\ dec_val (i ++ f) = N.

(** [t] shows D * 10^k in the form d.ddd e x (no point when there is one digit only) *)
Definition sci_text (D k : Z) (t : bytes) : Prop :=
  exists d f x e, t = d :: f ++ "e"%char :: x /\ int_text e x /\ is_digit d /\ d <> "0"%char /\
  ((f = [] /\ dval d = D /\ e = k) \/ (exists g, f = "."%char :: g /\ g <> [] /\ Forall is_digit g /\ dec_val (d :: g) = D /\ e = k + len g)).
