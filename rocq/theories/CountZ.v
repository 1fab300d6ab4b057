(** Counting the members of a residue class in a range of consecutive integers. *)
From Coq Require Import ZArith Lia Bool List.
Import ListNotations.
Open Scope Z_scope.

(** closed form of the number of j in 0..x with (a + j) mod p = t *)
Definition count_closed (a p t x : Z) : Z := (x - (t - a) mod p) / p + 1.

Lemma mod_eq_iff a b p : 0 < p -> (a mod p = b mod p <-> (b - a) mod p = 0).
Proof.
  intros P. split; intros H.
  - rewrite Zminus_mod, H, Z.sub_diag. reflexivity.
  - apply Z.mod_divide in H; [|lia]. destruct H as [k E]. replace b with (a + k * p) by lia. now rewrite Z.mod_add by lia.
Qed.
Lemma count_mod a p t x : 0 < p -> 0 <= t < p -> 0 <= x ->
  Z.of_nat (length (filter (fun j => (a + Z.of_nat j) mod p =? t) (seq 0 (S (Z.to_nat x))))) = count_closed a p t x.
Proof.
  intros P T X. unfold count_closed. set (r := (t - a) mod p).
  assert (R : 0 <= r < p) by (apply Z.mod_pos_bound; lia).
  assert (Q : forall j, ((a + j) mod p =? t) = ((j - r) mod p =? 0)).
  { intros j. rewrite <- (Z.mod_small t p) at 1 by lia.
    assert (I : (a + j) mod p = t mod p <-> (j - r) mod p = 0).
    { rewrite <- (mod_eq_iff r j p P). unfold r. rewrite Z.mod_mod by lia. rewrite (mod_eq_iff (a + j) t p P), (mod_eq_iff (t - a) j p P).
      split; intros H; apply Z.mod_divide; try lia; apply Z.mod_divide in H; try lia; destruct H as [k E]; exists (- k); lia. }
    destruct (Z.eqb_spec ((a + j) mod p) (t mod p)), (Z.eqb_spec ((j - r) mod p) 0); tauto. }
  rewrite <- (Z2Nat.id x) at 2 by lia. set (n := Z.to_nat x). clearbody n. clear x X.
  assert (S : forall n, Z.of_nat (length (filter (fun j => (a + Z.of_nat j) mod p =? t) (seq 0 n))) = (Z.of_nat n - 1 - r) / p + 1).
  { intros m. induction m as [|m IH].
    - cbn [seq filter length]. change (Z.of_nat 0) with 0. replace ((0 - 1 - r) / p) with (-1) by (apply Z.div_unique with (p - 1 - r); lia). reflexivity.
    - rewrite seq_S, filter_app, app_length, Nat2Z.inj_add, IH. cbn [filter]. rewrite Nat.add_0_l, Q.
      rewrite Nat2Z.inj_succ. replace (Z.succ (Z.of_nat m) - 1 - r) with (Z.of_nat m - r) by lia.
      replace (Z.of_nat m - 1 - r) with (Z.of_nat m - r - 1) by lia. set (y := Z.of_nat m - r). clearbody y.
      pose proof (Z.div_mod y p ltac:(lia)) as D. pose proof (Z.mod_pos_bound y p P) as Bd.
      destruct (Z.eqb_spec (y mod p) 0) as [Z0|Z0]; cbn [length].
      + replace ((y - 1) / p) with (y / p - 1); [lia|]. apply Z.div_unique with (p - 1); lia.
      + replace ((y - 1) / p) with (y / p); [lia|]. apply Z.div_unique with (y mod p - 1); lia. }
  rewrite S. do 2 f_equal. lia.
Qed.
