(** What a hash table is: chains of nodes in memory, one for each bucket, and the sequence of the elements they hold. *)
From Coq Require Import ZArith List Bool.
From Verif Require Import F64 HtModel.
Import ListNotations.
Open Scope Z_scope.

Section HtSpec.
Context {K T : Type} (key : T -> K) (hashf : K -> Z) (eqb : K -> K -> bool).
Notation memory := (@memory T).
Implicit Types (m : memory) (t : tab) (a p : Z) (v x y : T) (k : K) (l : list (Z * T)) (L : list (list (Z * T))).

(** equality of keys is an equivalence and the hash function respects it *)
Record key_ok : Prop := {
  k_refl : forall k, eqb k k = true;
  k_sym : forall k k', eqb k k' = true -> eqb k' k = true;
  k_trans : forall k k' k'', eqb k k' = true -> eqb k' k'' = true -> eqb k k'' = true;
  k_hash : forall k k', eqb k k' = true -> hashf k = hashf k' }.
Definition same (x y : T) : Prop := eqb (key x) (key y) = true.
Definition haskey k (e : Z * T) : bool := eqb (key (snd e)) k.

(** the address of the first node, null for none *)
Definition hd l (q : Z) : Z := match l with [] => q | (a, _) :: _ => a end.
(** [l] are nodes in memory, each linked to the next and the last to [q] *)
Fixpoint seg m l (q : Z) : Prop :=
  match l with [] => True | (a, v) :: l => a <> 0 /\ cell m a = Some (mkNd (hd l q) v) /\ seg m l q end.

(** addresses that were not given out are not in use *)
Definition wf m : Prop := 0 < brk m /\ forall a, cell m a <> None -> 0 < a < brk m.
(** behind an element come the elements with the same key before all others *)
Fixpoint grouped (l : list T) : Prop :=
  match l with
  | [] => True
  | x :: r => (exists E R, r = E ++ R /\ Forall (same x) E /\ Forall (fun y => ~ same x y) R) /\ grouped r
  end.
(** no two elements have the same key *)
Fixpoint distinct (l : list T) : Prop := match l with [] => True | x :: r => Forall (fun y => ~ same x y) r /\ distinct r end.

Definition len {A} (l : list A) : Z := Z.of_nat (length l).
Definition addrs L : list Z := map fst (concat L).
Definition vals L : list T := map snd (concat L).

(** the table [t] has the chains [L], bucket by bucket *)
Record rep m t L : Prop := {
  r_wf : wf m;
  r_pos : 0 < bsz t;
  r_len : len L = bsz t;
  r_bl : bl t = bsz t;
  r_cnt : cnt t = len (concat L);
  r_nd : NoDup (addrs L);
  r_b : forall i l, nth_error L i = Some l ->
    bk t (Z.of_nat i) = hd l 0 /\ seg m l 0 /\ Forall (fun e => hashf (key (snd e)) mod bsz t = Z.of_nat i) l /\ grouped (map snd l) }.

(** what an operation does to the memory: outside the new chains the nodes of the old ones are given back and the rest is as before *)
Definition frame m L m' L' : Prop := forall a, ~ In a (addrs L') -> (In a (addrs L) -> cell m' a = None) /\ (~ In a (addrs L) -> cell m' a = cell m a).
(** nodes outside the table are as before *)
Definition others m L m' : Prop := forall a, cell m a <> None -> ~ In a (addrs L) -> cell m' a = cell m a.
End HtSpec.
