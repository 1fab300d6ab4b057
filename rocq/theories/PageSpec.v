(** Specification for the lunar part of the month page: what the tables of a solstice year must look like and what the page
    should say about a day.  [A k] is the day of the k-th solar term from the winter solstice, [B i] the first day of the i-th month. *)
From Coq Require Import ZArith List Bool.
From Verif Require Import Str SsqSpec.
Import ListNotations.
Open Scope Z_scope.

(** The terms keep within seven days of even spacing (15.2184 days). *)
Definition even_terms (A : Z -> Z) : Prop := forall i, 0 <= i <= 24 -> -70000 <= 10000 * (A i - A 0) - 152184 * i <= 70000.
(** The solstice before the year y: within 100 days of 10 days before the y-2000-th tropical year after J2000. *)
Definition solstice_of (A : Z -> Z) (y : Z) : Prop := -1000000 <= 10000 * A 0 - (3652422 * (y - 2000) - 100000) <= 1000000.

(** the day lies in the half-open period from the i-th to the (i+1)-th of the days S *)
Definition in_period (S : Z -> Z) (i d : Z) : Prop := S i <= d < S (i + 1).

(** ** One calendar *)
(** [T j]: day of the j-th solar term (T (24 y) is the winter solstice before the year y), [M k]: first day of the k-th lunar
    month; all j and k. *)
Definition calendar (T M : Z -> Z) : Prop :=
  (forall j, T j < T (j + 1)) /\ (forall k, 29 <= M (k + 1) - M k <= 30).
