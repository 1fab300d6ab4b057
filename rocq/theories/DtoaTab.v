(** The power-of-ten table of dtoa.h: every entry is correct to half a unit, and every exponent of a double finds one. *)
From Coq Require Import ZArith List Bool Lia.
From Coq Require Import Floats.SpecFloat.
From Verif Require Import F64 SsqModel DtoaModel.
Import ListNotations.
Open Scope Z_scope.

(** |c * 2^e - 10^k| <= 2^e / 2, in integers *)
Definition entry_ok (i : nat) : bool :=
  let c := nth i cached_F 0 in let e := nth i cached_E 0 in let k := -348 + 8 * Z.of_nat i in
  let A := 2 ^ Z.max 0 e in let Bb := 2 ^ Z.max 0 (- e) in let P := 10 ^ Z.max 0 k in let Q := 10 ^ Z.max 0 (- k) in
  (Z.abs (2 * c * A * Q - 2 * P * Bb) <=? A * Q) && (2 ^ 63 <=? c) && (c <? 2 ^ 64).
Lemma table_ok : forallb entry_ok (seq 0 87) = true.
Proof. vm_compute. reflexivity. Qed.
Lemma entry i : 0 <= i < 87 -> exists c e, at_ cached_F i = Some c /\ at_ cached_E i = Some e /\ 2 ^ 63 <= c < 2 ^ 64 /\
  let k := -348 + 8 * i in Z.abs (2 * c * 2 ^ Z.max 0 e * 10 ^ Z.max 0 (- k) - 2 * 10 ^ Z.max 0 k * 2 ^ Z.max 0 (- e)) <= 2 ^ Z.max 0 e * 10 ^ Z.max 0 (- k).
Proof.
  intros H. pose proof (proj1 (forallb_forall entry_ok (seq 0 87)) table_ok (Z.to_nat i)) as T.
  specialize (T (proj2 (in_seq 87 0 (Z.to_nat i)) ltac:(lia))). unfold entry_ok in T. rewrite Z2Nat.id in T by lia.
  assert (GL : forall l : list Z, List.length l = 87%nat -> at_ l i = Some (nth (Z.to_nat i) l 0)).
  { intros l Hl. unfold at_. replace (0 <=? i) with true by (symmetry; apply Z.leb_le; lia). apply nth_error_nth'. lia. }
  exists (nth (Z.to_nat i) cached_F 0), (nth (Z.to_nat i) cached_E 0). rewrite !GL by reflexivity.
  split; [reflexivity|]. split; [reflexivity|]. cbv zeta in *. apply andb_prop in T as [T T3]. apply andb_prop in T as [T1 T2]. apply Z.leb_le in T1, T2. apply Z.ltb_lt in T3. split; [lia|exact T1].
Qed.

Definition index_ok (E : Z) : bool :=
  match cached_index E with
  | Some i => (0 <=? i) && (i <? 87) && (match at_ cached_E i with Some e => (-60 <=? E + e + 64) && (E + e + 64 <=? -32) | None => false end)
  | None => false
  end.
Lemma exponents_ok : forallb index_ok (map (fun n => -1140 + Z.of_nat n) (seq 0 2110)) = true.
Proof. vm_compute. reflexivity. Qed.
Lemma index_in E : -1140 <= E <= 969 -> exists i e, cached_index E = Some i /\ 0 <= i < 87 /\ at_ cached_E i = Some e /\ -60 <= E + e + 64 <= -32.
Proof.
  intros H. pose proof (proj1 (forallb_forall _ _) exponents_ok E) as T. 
  assert (I : In E (map (fun n => -1140 + Z.of_nat n) (seq 0 2110))). { apply in_map_iff. exists (Z.to_nat (E + 1140)). split; [lia|]. apply in_seq. lia. }
  specialize (T I). unfold index_ok in T. destruct (cached_index E) as [i|]; [|discriminate T]. apply andb_prop in T as [T1 T2]. apply andb_prop in T1 as [T1 T3]. apply Z.leb_le in T1. apply Z.ltb_lt in T3.
  destruct (at_ cached_E i) as [e|] eqn:EE; [|discriminate T2]. apply andb_prop in T2 as [T2 T4]. apply Z.leb_le in T2, T4. exists i, e. split; [reflexivity|]. split; [lia|]. split; [exact EE|lia].
Qed.
