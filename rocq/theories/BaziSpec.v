(** Specification of the four pillars: the cycle of 60 and its rules, written without reference to the code. *)
From Coq Require Import ZArith List Ascii String Bool.
From Verif Require Import Str.
Import ListNotations.
Open Scope Z_scope.

Definition stems : list bytes := [B "甲"; B "乙"; B "丙"; B "丁"; B "戊"; B "己"; B "庚"; B "辛"; B "壬"; B "癸"].
Definition branches : list bytes := [B "子"; B "丑"; B "寅"; B "卯"; B "辰"; B "巳"; B "午"; B "未"; B "申"; B "酉"; B "戌"; B "亥"].
(** the name with stem s and branch b (numbers counted from 0, taken round the cycles) *)
Definition name (s b : Z) : bytes := nth (Z.to_nat (s mod 10)) stems [] ++ nth (Z.to_nat (b mod 12)) branches [].
(** the n-th name of the cycle of 60, counted from 甲子 = 0 *)
Definition sexagenary (n : Z) : bytes := name n n.

(** texts separated by single spaces *)
Fixpoint spaced (l : list bytes) : bytes :=
  match l with [] => [] | [x] => x | x :: r => x ++ B " " ++ spaced r end.
(** terminal text in red *)
Definition red (x : bytes) : bytes := ["027"%char] ++ B "[31m" ++ x ++ ["027"%char] ++ B "[0m".
(** the 13 double hours from 23 h of the day before the day with number d to 1 h of the day after; the one with number h in red *)
Definition hour_list (d h : Z) : list bytes :=
  map (fun i => let x := sexagenary (12 * d + Z.of_nat i) in if Z.of_nat i =? h then red x else x) (seq 0 13).
