(** PI to sixteen decimals, from the Machin-like formula of the standard library. *)
From Coq Require Import Reals Machin Lra ZArith.
Open Scope R_scope.

Lemma PI_bounds : 3.14159265358979320 <= PI <= 3.14159265358979325.
Proof.
  destruct (PI_2_3_7_ineq 8) as [A _]. destruct (PI_2_3_7_ineq 9) as [_ B].
  change (2 * 8)%nat with 16%nat in A. change (2 * 9)%nat with 18%nat in B.
  unfold sum_f_R0, tg_alt, PI_2_3_7_tg, Ratan_seq in A, B.
  rewrite !plus_INR, !mult_INR in A, B. cbn [INR pow Nat.mul Nat.add] in A, B.
  split.
  - clear B. match type of A with ?l <= _ => assert (3.14159265358979320 / 4 <= l) by (clear A; lra) end. lra.
  - clear A. match type of B with _ <= ?r => assert (r <= 3.14159265358979325 / 4) by (clear B; lra) end. lra.
Qed.
