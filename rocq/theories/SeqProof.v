(** Lemmas for SeqProps: the loops that read a sequence *)
From Coq Require Import ZArith List Bool Lia Permutation.
From Verif Require Import F64 ArrModel ArrLib SortSpec RotProof SeqModel.
Import ListNotations.
Open Scope Z_scope.

Section Proof.
Context {A : Type}.
Implicit Types (get : Z -> option A) (pred : A -> bool) (eqb : A -> A -> bool) (l q : list A) (x y v : A).

(** the sequence l lies at positions f, f+1, ... *)
Definition view get (f : Z) l : Prop := forall k, 0 <= k < len l -> get (f + k) = rd l k.
Lemma view_mid (p l s : list A) : view (rd (p ++ l ++ s)) (len p) l.
Proof. intros k H. now apply rd_mid. Qed.
Lemma view_get get f l k : view get f l -> 0 <= k < len l -> exists x, rd l k = Some x /\ get (f + k) = Some x.
Proof. intros V H. destruct (rd_ex l k H) as (x & E). exists x. split; [exact E|]. rewrite V; auto. Qed.
Lemma rd_rev l k : 0 <= k < len l -> rd (rev l) k = rd l (len l - 1 - k).
Proof.
  intros H. unfold rd. destruct (Z.ltb_spec k 0); [lia|]. destruct (Z.ltb_spec (len l - 1 - k) 0); [lia|].
  destruct l as [|d l']; [simpl in H; lia|]. set (l := d :: l') in *.
  rewrite !(nth_error_nth' _ d) by (rewrite ?rev_length; lia). f_equal. rewrite rev_nth by lia. f_equal. lia.
Qed.
Lemma rd_fun l k x y : rd l k = Some x -> rd l k = Some y -> x = y.
Proof. congruence. Qed.

Lemma all_of_ok fuel : forall pred get f l k, view get f l -> 0 <= k <= len l -> (Z.to_nat (len l - k) < fuel)%nat ->
  exists b, all_of fuel pred get (f + k) (f + len l) = Some b /\ (b = true <-> forall j x, k <= j < len l -> rd l j = Some x -> pred x = true).
Proof.
  induction fuel as [|fuel IH]; intros pred get f l k V H Hf; [lia|]. cbn [all_of].
  destruct (Z.eqb_spec (f + k) (f + len l)) as [E|N].
  - exists true. split; [reflexivity|]. split; [|reflexivity]. intros _ j x J. lia.
  - destruct (view_get get f l k V ltac:(lia)) as (x & R & G). rewrite G. cbn [obind]. destruct (pred x) eqn:P; cbn [negb].
    + destruct (IH pred get f l (k + 1) V ltac:(lia) ltac:(lia)) as (b & E & B). replace (f + k + 1) with (f + (k + 1)) by lia.
      exists b. split; [exact E|]. rewrite B. split; intros Q j y J Ry; [|apply (Q j); auto; lia].
      destruct (Z.eq_dec j k) as [->|]; [replace y with x by congruence; exact P|apply (Q j); auto; lia].
    + exists false. split; [reflexivity|]. split; [discriminate|]. intros Q. rewrite (Q k x ltac:(lia) R) in P. discriminate P.
Qed.
Lemma any_of_ok fuel : forall pred get f l k, view get f l -> 0 <= k <= len l -> (Z.to_nat (len l - k) < fuel)%nat ->
  exists b, any_of fuel pred get (f + k) (f + len l) = Some b /\ (b = true <-> exists j x, k <= j < len l /\ rd l j = Some x /\ pred x = true).
Proof.
  induction fuel as [|fuel IH]; intros pred get f l k V H Hf; [lia|]. cbn [any_of].
  destruct (Z.eqb_spec (f + k) (f + len l)) as [E|N].
  - exists false. split; [reflexivity|]. split; [discriminate|]. intros (j & x & J & _). lia.
  - destruct (view_get get f l k V ltac:(lia)) as (x & R & G). rewrite G. cbn [obind]. destruct (pred x) eqn:P.
    + exists true. split; [reflexivity|]. split; [|reflexivity]. intros _. exists k, x. split; [lia|auto].
    + destruct (IH pred get f l (k + 1) V ltac:(lia) ltac:(lia)) as (b & E & B). replace (f + k + 1) with (f + (k + 1)) by lia.
      exists b. split; [exact E|]. rewrite B. split; intros (j & y & J & Ry & Py).
      * exists j, y. split; [lia|auto].
      * destruct (Z.eq_dec j k) as [->|]; [congruence|]. exists j, y. split; [lia|auto].
Qed.
Lemma none_of_any fuel : forall pred get first last, none_of fuel pred get first last = option_map negb (any_of fuel pred get first last).
Proof.
  induction fuel as [|fuel IH]; intros; [reflexivity|]. cbn [none_of any_of]. destruct (first =? last); [reflexivity|].
  destruct (get first) as [x|]; [|reflexivity]. cbn [obind]. destruct (pred x); [reflexivity|apply IH].
Qed.
(** how many elements satisfy pred *)
Definition hits pred l : Z := len (filter pred l).
Lemma hits_cons pred x l : hits pred (x :: l) = (if pred x then 1 else 0) + hits pred l.
Proof. unfold hits. simpl filter. destruct (pred x); simpl length; lia. Qed.
Lemma hits_app pred l1 l2 : hits pred (l1 ++ l2) = hits pred l1 + hits pred l2.
Proof. unfold hits. rewrite filter_app, app_length. lia. Qed.
Lemma hits_nonneg pred l : 0 <= hits pred l.
Proof. unfold hits. lia. Qed.
Lemma hits_pos pred l x : In x l -> pred x = true -> 0 < hits pred l.
Proof. intros I P. unfold hits. assert (J : In x (filter pred l)) by (apply filter_In; auto). destruct (filter pred l); [destruct J|simpl length; lia]. Qed.
Lemma hits_0 pred l : (forall x, In x l -> pred x = false) -> hits pred l = 0.
Proof. induction l as [|x l IH]; intros H; [reflexivity|]. rewrite hits_cons, (H x (or_introl eq_refl)), IH; [lia|]. intros y I. apply H. now right. Qed.
Lemma view_tail get f x l : view get f (x :: l) -> get f = Some x /\ view get (f + 1) l.
Proof.
  intros V. split.
  - rewrite <- (Z.add_0_r f). rewrite V by (simpl length; lia). reflexivity.
  - intros k H. replace (f + 1 + k) with (f + (1 + k)) by lia. rewrite V by (simpl length; lia). apply (rd_app_r [x] l k). lia.
Qed.
Lemma count_if_ok l : forall fuel pred get f n last, view get f l -> last = f + len l -> (length l < fuel)%nat ->
  count_if fuel pred get f last n = Some (n + hits pred l).
Proof.
  induction l as [|x l IH]; intros fuel pred get f n last V -> Hf; (destruct fuel as [|fuel]; [simpl length in Hf; lia|]); cbn [count_if].
  - replace (f =? f + len []) with true by (symmetry; apply Z.eqb_eq; simpl; lia). f_equal. unfold hits. simpl. lia.
  - replace (f =? f + len (x :: l)) with false by (symmetry; apply Z.eqb_neq; simpl length; lia).
    destruct (view_tail _ _ _ _ V) as [G V']. rewrite G. cbn [obind]. rewrite (IH fuel pred get (f + 1) _ (f + len (x :: l)) V') by (simpl length in *; lia).
    f_equal. rewrite hits_cons. destruct (pred x); lia.
Qed.

(** the first position from k on that satisfies pred, or the end *)
Definition first_sat pred l (k i : Z) : Prop := k <= i <= len l /\
  (forall j x, k <= j < i -> rd l j = Some x -> pred x = false) /\ (i < len l -> exists x, rd l i = Some x /\ pred x = true).
Lemma find_if_ok fuel : forall pred get f l k, view get f l -> 0 <= k <= len l -> (Z.to_nat (len l - k) < fuel)%nat ->
  exists i, find_if fuel pred get (f + k) (f + len l) = Some (f + i) /\ first_sat pred l k i.
Proof.
  induction fuel as [|fuel IH]; intros pred get f l k V H Hf; [lia|]. cbn [find_if].
  destruct (Z.eqb_spec (f + k) (f + len l)) as [E|N].
  - exists k. split; [reflexivity|]. split; [lia|]. split; [intros; lia|intros; lia].
  - destruct (view_get get f l k V ltac:(lia)) as (x & R & G). rewrite G. cbn [obind]. destruct (pred x) eqn:P.
    + exists k. split; [reflexivity|]. split; [lia|]. split; [intros; lia|]. intros _. exists x. auto.
    + destruct (IH pred get f l (k + 1) V ltac:(lia) ltac:(lia)) as (i & E & B1 & B2 & B3). replace (f + k + 1) with (f + (k + 1)) by lia.
      exists i. split; [exact E|]. split; [lia|]. split; [|exact B3]. intros j y J Ry. destruct (Z.eq_dec j k) as [->|]; [congruence|]. apply (B2 j); auto; lia.
Qed.

(** q occurs in l at i *)
Definition occurs eqb l q (i : Z) : Prop := 0 <= i /\ i + len q <= len l /\
  forall k x y, 0 <= k < len q -> rd l (i + k) = Some x -> rd q k = Some y -> eqb x y = true.
Lemma occurs_mm eqb l q i k x y : 0 <= i -> 0 <= k < len q -> rd l (i + k) = Some x -> rd q k = Some y -> eqb x y = false -> ~ occurs eqb l q i.
Proof. intros Hi Hk X Y E (_ & _ & O). rewrite (O k x y Hk X Y) in E. discriminate E. Qed.
(** the first occurrence from k on, or the end *)
Definition first_occ eqb l q (k i : Z) : Prop := (forall j, k <= j < i -> ~ occurs eqb l q j) /\
  (occurs eqb l q i \/ i = len l /\ forall j, k <= j -> ~ occurs eqb l q j).
Lemma search_loop_ok eqb get get2 f f2 l q (V : view get f l) (V2 : view get2 f2 q) : forall fuel i m,
  0 <= i -> 0 <= m <= len q -> i + len q <= len l ->
  (forall k x y, 0 <= k < m -> rd l (i + k) = Some x -> rd q k = Some y -> eqb x y = true) ->
  (Z.to_nat ((len l - i - len q) * (len q + 1) + len q - m) < fuel)%nat ->
  exists r, search_loop fuel eqb get get2 (f + len l) f2 (f2 + len q) (len q) (f + i) (f + i + m) (f2 + m) (len l - i) = Some (f + r) /\
    i <= r /\ first_occ eqb l q i r.
Proof.
  induction fuel as [|fuel IH]; intros i m Hi Hm Hl M Hf; [lia|]. cbn [search_loop].
  destruct (Z.eqb_spec (f2 + m) (f2 + len q)) as [E|N].
  - exists i. split; [reflexivity|]. split; [lia|]. split; [intros; lia|]. left. split; [lia|]. split; [lia|]. intros k x y K. apply M. lia.
  - destruct (view_get get f l (i + m) V ltac:(lia)) as (x & Rx & Gx). destruct (view_get get2 f2 q m V2 ltac:(lia)) as (y & Ry & Gy).
    replace (f + i + m) with (f + (i + m)) by lia. rewrite Gx, Gy. cbn [obind]. destruct (eqb x y) eqn:E.
    + replace (f + (i + m) + 1) with (f + i + (m + 1)) by lia. replace (f2 + m + 1) with (f2 + (m + 1)) by lia.
      assert (P : 0 <= (len l - i - len q) * (len q + 1)) by nia.
      apply IH; try lia. intros k x' y' K X' Y'. destruct (Z.eq_dec k m) as [->|]; [congruence|]. apply (M k); auto; lia.
    + assert (No : ~ occurs eqb l q i) by (apply (occurs_mm eqb l q i m x y); auto; lia).
      destruct (Z.eqb_spec (len l - i) (len q)) as [D|D].
      * exists (len l). split; [reflexivity|]. split; [lia|].
        assert (NN : forall j, i <= j -> ~ occurs eqb l q j). { intros j J O. destruct (Z.eq_dec j i) as [->|]; [now apply No|]. destruct O as (_ & O & _). lia. }
        split; [intros j J; apply NN; lia|]. right. auto.
      * assert (P : (len l - (i + 1) - len q) * (len q + 1) = (len l - i - len q) * (len q + 1) - (len q + 1)) by ring.
        assert (P' : 0 <= (len l - (i + 1) - len q) * (len q + 1)) by nia.
        destruct (IH (i + 1) 0) as (r & Er & Lr & Or); try lia.
        replace (f + i + 1) with (f + (i + 1)) by lia. replace (f + (i + 1) + 0) with (f + (i + 1)) in Er by lia. replace (f2 + 0) with f2 in Er by lia.
        replace (len l - i - 1) with (len l - (i + 1)) by lia.
        exists r. split; [exact Er|]. split; [lia|]. destruct Or as [O1 O2]. split.
        -- intros j J. destruct (Z.eq_dec j i) as [->|]; [exact No|apply O1; lia].
        -- destruct O2 as [O2|[-> O2]]; [left; exact O2|right; split; [reflexivity|]]. intros j J.
           destruct (Z.eq_dec j i) as [->|]; [exact No|apply O2; lia].
Qed.
(** search from position k of l on *)
Lemma search_ok eqb get get2 f f2 l q k : view get f l -> view get2 f2 q -> 0 <= k <= len l ->
  exists r, search eqb get get2 (f + k) (f + len l) f2 (f2 + len q) = Some (f + r) /\ k <= r <= len l /\ first_occ eqb l q k r.
Proof.
  intros V V2 H. unfold search. replace (f + len l - (f + k)) with (len l - k) by lia. replace (f2 + len q - f2) with (len q) by lia.
  destruct (Z.ltb_spec (len l - k) (len q)) as [L|L].
  - exists (len l). split; [reflexivity|]. split; [lia|]. assert (NN : forall j, k <= j -> ~ occurs eqb l q j) by (intros j J (_ & O & _); lia).
    split; [intros; apply NN; lia|]. right. auto.
  - destruct (search_loop_ok eqb get get2 f f2 l q V V2 (S (Z.to_nat ((len l - k - len q) * (len q + 1) + len q))) k 0) as (r & E & Lr & O); try lia.
    replace (f + k + 0) with (f + k) in E by lia. replace (f2 + 0) with f2 in E by lia. exists r. split; [exact E|]. split; [|exact O].
    destruct O as [_ [(_ & O & _)|[-> _]]]; lia.
Qed.

(** a run of n elements that satisfy pred, at i *)
Definition run_at pred l (n i : Z) : Prop := 0 <= i /\ i + n <= len l /\ forall k x, i <= k < i + n -> rd l k = Some x -> pred x = true.
Lemma run_loop_ok pred get f l (V : view get f l) : forall fuel i m, 0 <= i <= len l -> 0 <= m -> (Z.to_nat (len l - i) < fuel)%nat ->
  exists i' m', run_loop fuel pred get (f + len l) (f + i) m = Some (f + i', m') /\ i <= i' <= len l /\ 0 <= m' /\ i' - i = m - m' /\
    (forall k x, i <= k < i' -> rd l k = Some x -> pred x = true) /\
    (m' = 0 \/ i' = len l \/ exists x, rd l i' = Some x /\ pred x = false).
Proof.
  induction fuel as [|fuel IH]; intros i m Hi Hm Hf; [lia|]. cbn [run_loop].
  destruct (Z.eqb_spec (f + i) (f + len l)) as [E|N]; [exists i, m; repeat split; auto; intros; lia|].
  destruct (Z.eqb_spec m 0) as [E0|N0]; [exists i, m; repeat split; auto; intros; lia|].
  destruct (view_get get f l i V ltac:(lia)) as (x & R & G). rewrite G. cbn [obind]. destruct (pred x) eqn:P.
  - destruct (IH (i + 1) (m - 1) ltac:(lia) ltac:(lia) ltac:(lia)) as (i' & m' & E & B1 & B2 & B3 & B4 & B5). replace (f + i + 1) with (f + (i + 1)) by lia.
    exists i', m'. split; [exact E|]. split; [lia|]. split; [lia|]. split; [lia|]. split; [|exact B5].
    intros k y K Ry. destruct (Z.eq_dec k i) as [->|]; [congruence|]. apply (B4 k); auto; lia.
  - exists i, m. split; [reflexivity|]. split; [lia|]. split; [lia|]. split; [lia|]. split; [intros; lia|]. right. right. eauto.
Qed.
Lemma search_n_loop_ok pred get f l n (V : view get f l) (Hn : 0 < n) : forall fuel i, 0 <= i <= len l -> (Z.to_nat (len l - i) < fuel)%nat ->
  (i < len l -> exists x, rd l i = Some x /\ pred x = true) ->
  exists r, search_n_loop fuel pred get (f + len l) n (f + i) = Some (f + r) /\ i <= r <= len l /\
    (forall j, i <= j < r -> ~ run_at pred l n j) /\ (run_at pred l n r \/ r = len l /\ forall j, i <= j -> ~ run_at pred l n j).
Proof.
  induction fuel as [|fuel IH]; intros i Hi Hf Hd; [lia|]. cbn [search_n_loop].
  destruct (Z.eqb_spec (f + i) (f + len l)) as [E|N].
  - exists (len l). split; [reflexivity|]. split; [lia|]. assert (NN : forall j, i <= j -> ~ run_at pred l n j) by (intros j J (_ & O & _); lia).
    split; [intros; apply NN; lia|]. right. auto.
  - destruct (run_loop_ok pred get f l V (S (Z.to_nat (f + len l - (f + i)))) (i + 1) (n - 1) ltac:(lia) ltac:(lia) ltac:(lia)) as (i' & m' & E & B1 & B2 & B3 & B4 & B5).
    replace (f + i + 1) with (f + (i + 1)) by lia. rewrite E. cbn [obind]. destruct (Hd ltac:(lia)) as (x0 & R0 & P0).
    assert (M : forall k x, i <= k < i' -> rd l k = Some x -> pred x = true).
    { intros k x K R. destruct (Z.eq_dec k i) as [->|]; [congruence|]. apply (B4 k); auto; lia. }
    destruct (Z.eqb_spec m' 0) as [E0|N0].
    + exists i. split; [reflexivity|]. split; [lia|]. split; [intros; lia|]. left. split; [lia|]. split; [lia|]. intros k x K. apply M. lia.
    + destruct B5 as [B5|B5]; [lia|].
      destruct (find_if_ok (S (Z.to_nat (f + len l - (f + i')))) pred get f l i' V ltac:(lia) ltac:(lia)) as (i2 & E2 & C1 & C2 & C3). rewrite E2. cbn [obind].
      assert (NR : forall j, i <= j < i2 -> ~ run_at pred l n j).
      { intros j J (O1 & O2 & O3). destruct (Z.ltb_spec j i') as [L|L].
        - destruct B5 as [B5|(x & R & P)]; [lia|]. pose proof (rd_range _ _ _ R). rewrite (O3 i' x ltac:(lia) R) in P. discriminate P.
        - destruct (rd_ex l j ltac:(lia)) as (x & R). pose proof (O3 j x ltac:(lia) R) as P1. rewrite (C2 j x ltac:(lia) R) in P1. discriminate P1. }
      destruct (IH i2 ltac:(lia) ltac:(lia) C3) as (r & Er & Lr & D1 & D2). exists r. split; [exact Er|]. split; [lia|]. split.
      * intros j J. destruct (Z.ltb_spec j i2); [apply NR; lia|apply D1; lia].
      * destruct D2 as [D2|[-> D2]]; [left; exact D2|right; split; [reflexivity|]]. intros j J. destruct (Z.ltb_spec j i2); [apply NR; lia|apply D2; lia].
Qed.

(** the last occurrence, or the end *)
Definition last_occ eqb l q (i : Z) : Prop := (occurs eqb l q i /\ forall j, i < j -> ~ occurs eqb l q j) \/ (i = len l /\ forall j, ~ occurs eqb l q j).
Lemma find_end_loop_ok eqb get get2 f f2 l q (V : view get f l) (V2 : view get2 f2 q) (Hq : 0 < len q) : forall fuel k res, 0 <= k <= len l -> (Z.to_nat (len l - k) < fuel)%nat ->
  ((occurs eqb l q res /\ forall j, res < j < k -> ~ occurs eqb l q j) \/ (res = len l /\ forall j, j < k -> ~ occurs eqb l q j)) ->
  exists r, find_end_loop fuel eqb get get2 (f + k) (f + len l) f2 (f2 + len q) (f + res) = Some (f + r) /\ last_occ eqb l q r.
Proof.
  induction fuel as [|fuel IH]; intros k res Hk Hf I; [lia|]. cbn [find_end_loop].
  destruct (search_ok eqb get get2 f f2 l q k V V2 Hk) as (r & E & Lr & O1 & O2). rewrite E. cbn [obind].
  destruct (Z.eqb_spec (f + r) (f + len l)) as [Q|Q].
  - exists res. split; [reflexivity|]. assert (NN : forall j, k <= j -> ~ occurs eqb l q j).
    { intros j J O. destruct O2 as [(_ & O2 & _)|[_ O2]]; [lia|]. now apply (O2 j). }
    destruct I as [[I1 I2]|[I1 I2]]; [left|right]; (split; [exact I1|]); intros j; [intros J|]; destruct (Z.ltb_spec j k); auto; apply I2; lia.
  - destruct O2 as [O2|[-> _]]; [|lia]. replace (f + r + 1) with (f + (r + 1)) by lia. apply IH; try lia. left. split; [exact O2|]. intros j J. lia.
Qed.
End Proof.
