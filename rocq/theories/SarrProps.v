(** static_array: elements and iteration over all histories (C47). *)
From Coq Require Import List Arith Bool Lia.
From Verif Require Import F64 SarrModel SarrSpec.
Import ListNotations.
Open Scope opt_scope.

Section Props.
Variable A : Type.
Variable d : A.
Variable N : nat.
Hypothesis NP : 0 < N.
Notation memory := (memory A). Notation info := (info A). Notation infos := (infos A).
Notation serial := (serial A). Notation elems := (elems A). Notation home := (home A).

Definition holds (m : memory) (q : nat) (l : list A) : Prop := length l = N /\ forall k, k < N -> m (q * N + k) = nth_error l k.
Definition gone (m : memory) (q : nat) : Prop := forall k, k < N -> m (q * N + k) = None.
Definition fits (m : memory) (n : nat) (x : option arr) (y : option info) : Prop :=
  match x, y with
  | None, None => True
  | Some o, Some a => data o = serial a * N /\ b o = home a * N /\ e o = home a * N + N /\ serial a < n /\ home a < n /\ holds m (serial a) (elems a)
  | _, _ => False
  end.
Definition Rel (s : state A) (t : infos) : Prop :=
  let '(en, m, nx) := s in let '(t, n) := t in
  nx = n * N /\ (forall i, fits m n (en i) (t i))
  /\ (forall i j a q, i <> j -> t i = Some a -> t j = Some q -> serial a <> serial q)
  /\ (forall q, q < n -> (forall i a, t i = Some a -> serial a <> q) -> gone m q).

Lemma inside_spec a p n : inside a p n = true <-> p <= a < p + n.
Proof. unfold inside. rewrite andb_true_iff, Nat.leb_le, Nat.ltb_lt. reflexivity. Qed.
Lemma split_eq q r k j : k < N -> j < N -> q * N + k = r * N + j -> q = r /\ k = j.
Proof. intros K J E. assert (q = r) by nia. subst. lia. Qed.
Lemma inside_block q r k : k < N -> inside (q * N + k) (r * N) N = (q =? r).
Proof.
  intros K. destruct (inside (q * N + k) (r * N) N) eqn:E.
  - apply inside_spec in E. symmetry. apply Nat.eqb_eq. nia.
  - destruct (Nat.eqb_spec q r) as [->|Q]; [|reflexivity]. assert (inside (r * N + k) (r * N) N = true) by (apply inside_spec; lia). congruence.
Qed.

(** writing n elements in a row *)
Definition wrote (m m' : memory) (p : nat) (l : list A) : Prop :=
  forall a, m' a = if inside a p (length l) then nth_error l (a - p) else m a.
Lemma store_ok (m : memory) a x : m a <> None -> exists m', store A m a x = Some m' /\ forall c, m' c = if c =? a then Some x else m c.
Proof. unfold store. destruct (m a); [|congruence]. intros _. eexists. split; [reflexivity|]. reflexivity. Qed.
Lemma wrote_cons m m1 m2 p x l : (forall c, m1 c = if c =? p then Some x else m c) -> wrote m1 m2 (S p) l -> wrote m m2 p (x :: l).
Proof.
  intros H1 H2 a. rewrite H2. cbn [length]. destruct (inside a (S p) (length l)) eqn:E.
  - apply inside_spec in E. replace (inside a p (S (length l))) with true by (symmetry; apply inside_spec; lia). replace (a - p) with (S (a - S p)) by lia. reflexivity.
  - rewrite H1. destruct (Nat.eqb_spec a p) as [->|Q].
    + replace (inside p p (S (length l))) with true by (symmetry; apply inside_spec; lia). rewrite Nat.sub_diag. reflexivity.
    + destruct (inside a p (S (length l))) eqn:F; [|reflexivity]. apply inside_spec in F. assert (inside a (S p) (length l) = true) by (apply inside_spec; lia). congruence.
Qed.
Lemma fill_ok x : forall n p m, (forall k, k < n -> m (p + k) <> None) -> exists m', fill_data A n p x m = Some m' /\ wrote m m' p (repeat x n).
Proof.
  induction n as [|n IH]; intros p m H; cbn [fill_data repeat].
  - exists m. split; [reflexivity|]. intros a. cbn [length]. destruct (inside a p 0) eqn:E; [apply inside_spec in E; lia|reflexivity].
  - destruct (store_ok m p x) as (m1 & E1 & M1). { specialize (H 0 ltac:(lia)). rewrite Nat.add_0_r in H. exact H. }
    rewrite E1. cbn [obind]. destruct (IH (S p) m1) as (m2 & E2 & W2).
    { intros k K. rewrite M1. destruct (S p + k =? p); [discriminate|]. replace (S p + k) with (p + S k) by lia. apply H. lia. }
    exists m2. split; [exact E2|]. apply (wrote_cons m m1); assumption.
Qed.
Lemma put_list_ok : forall r p i m, i + length r <= N -> (forall k, k < N -> m (p + k) <> None) -> exists m', put_list A N r p i m = Some m' /\ wrote m m' (p + i) r.
Proof.
  induction r as [|x r IH]; intros p i m L H; cbn [put_list length] in *.
  - exists m. split; [reflexivity|]. intros a. cbn [length]. destruct (inside a (p + i) 0) eqn:E; [apply inside_spec in E; lia|reflexivity].
  - replace (i <? N) with true by (symmetry; apply Nat.ltb_lt; lia). destruct (store_ok m (p + i) x) as (m1 & E1 & M1). { apply H. lia. }
    rewrite E1. cbn [obind]. destruct (IH p (S i) m1) as (m2 & E2 & W2); [lia| |].
    { intros k K. rewrite M1. destruct (p + k =? p + i); [discriminate|]. apply H. exact K. }
    exists m2. split; [exact E2|]. apply (wrote_cons m m1); [exact M1|]. replace (S (p + i)) with (p + S i) by lia. exact W2.
Qed.
(** copying from another block, or from itself *)
Lemma copy_ok : forall l p q m, (forall k, k < length l -> m (q + k) = nth_error l k) -> (forall k, k < length l -> m (p + k) <> None) -> p = q \/ p + length l <= q \/ q + length l <= p ->
  exists m', copy_data A (length l) p q m = Some m' /\ wrote m m' p l.
Proof.
  induction l as [|x l IH]; intros p q m S D AP; cbn [copy_data length] in *.
  - exists m. split; [reflexivity|]. intros a. cbn [length]. destruct (inside a p 0) eqn:E; [apply inside_spec in E; lia|reflexivity].
  - pose proof (S 0 ltac:(lia)) as S0. rewrite Nat.add_0_r in S0. cbn in S0. rewrite S0. cbn [obind].
    destruct (store_ok m p x) as (m1 & E1 & M1). { specialize (D 0 ltac:(lia)). rewrite Nat.add_0_r in D. exact D. }
    rewrite E1. cbn [obind]. destruct (IH (Datatypes.S p) (Datatypes.S q) m1) as (m2 & E2 & W2).
    + intros k K. rewrite M1. destruct (Nat.eqb_spec (Datatypes.S q + k) p); [lia|]. replace (Datatypes.S q + k) with (q + Datatypes.S k) by lia. rewrite S by lia. reflexivity.
    + intros k K. rewrite M1. destruct (Datatypes.S p + k =? p); [discriminate|]. replace (Datatypes.S p + k) with (p + Datatypes.S k) by lia. apply D. lia.
    + lia.
    + exists m2. split; [exact E2|]. apply (wrote_cons m m1); assumption.
Qed.

Lemma holds_live m q l k : holds m q l -> k < N -> m (q * N + k) <> None.
Proof. intros [L H] K. rewrite H by exact K. apply nth_error_Some. lia. Qed.

(** the new contents of block q *)
Lemma rewritten m m' q l : length l = N -> wrote m m' (q * N) l -> holds m' q l /\ forall r k, r <> q -> k < N -> m' (r * N + k) = m (r * N + k).
Proof.
  intros L W. split.
  - split; [exact L|]. intros k K. rewrite W, L, inside_block, Nat.eqb_refl by exact K. f_equal. lia.
  - intros r k R K. rewrite W, L, inside_block by exact K. destruct (Nat.eqb_spec r q); [congruence|reflexivity].
Qed.

(** block q of array i gets new contents; the array may be new *)
Lemma rel_write (en : env) (m : memory) t n i o a m' n' :
  Rel (en, m, n * N) (t, n) -> (n' = n \/ n' = S n) ->
  fits m' n' (Some o) (Some a) ->
  (match t i with Some a0 => serial a0 = serial a /\ n' = n | None => serial a = n /\ n' = S n end) ->
  (forall r k, r <> serial a -> k < N -> m' (r * N + k) = m (r * N + k)) ->
  Rel (upd en i (Some o), m', n' * N) (upd t i (Some a), n').
Proof.
  intros (_ & F & D & G) NN FA TI K. cbn.
  assert (NE : forall j q, j <> i -> t j = Some q -> serial q <> serial a).
  { intros j q J E. destruct (t i) as [a0|] eqn:T.
    - destruct TI as [<- _]. apply (D j i); auto.
    - destruct TI as [-> _]. specialize (F j). rewrite E in F. destruct (en j); [|contradiction]. cbn in F. lia. }
  refine (conj eq_refl (conj _ (conj _ _))).
  - intros j. unfold upd. destruct (Nat.eqb_spec j i); [exact FA|]. specialize (F j). destruct (en j) as [w|], (t j) as [q|] eqn:TJ; try contradiction; [|exact I].
    cbn in *. destruct F as (F1 & F2 & F3 & F4 & F5 & F6 & F7). refine (conj F1 (conj F2 (conj F3 (conj _ (conj _ (conj F6 _)))))); try lia.
    intros k KK. rewrite K; auto. apply (NE j); auto.
  - intros j j2 x y J. unfold upd. destruct (Nat.eqb_spec j i), (Nat.eqb_spec j2 i); intros E1 E2; try congruence.
    + injection E1 as <-. apply not_eq_sym, (NE j2); auto.
    + injection E2 as <-. apply (NE j); auto.
    + apply (D j j2); auto.
  - intros q Q H k KK.
    assert (QA : q <> serial a) by (intros ->; apply (H i a); [unfold upd; rewrite Nat.eqb_refl; reflexivity|reflexivity]).
    rewrite K; auto. assert (QN : q < n). { destruct (t i) as [a0|]; destruct TI as [T1 T2]; subst; lia. }
    apply G; auto. intros j x E. destruct (Nat.eq_dec j i) as [->|J].
    + rewrite E in TI. destruct TI as [TI _]. congruence.
    + apply (H j). unfold upd. destruct (Nat.eqb_spec j i); [congruence|exact E].
Qed.
Lemma step_ok o s t t' : Rel s t -> lstep A d N o t = Some t' -> exists s', step A d N o s = Some s' /\ Rel s' t'.
Proof.
  destruct s as [[en m] nx], t as [t n]. intros R L. pose proof R as (NX & F & D & G). subst nx.
  assert (FR : forall q l, length l = N -> wrote (fun a => if inside a (n * N) N then Some d else m a) q (n * N) l ->
     holds q n l /\ forall r k, r <> n -> k < N -> q (r * N + k) = m (r * N + k)).
  { intros q l LL W. destruct (rewritten _ _ n l LL W) as [W1 W2]. split; [exact W1|]. intros r k RR K. rewrite W2 by auto. rewrite inside_block by exact K.
    destruct (Nat.eqb_spec r n); [congruence|reflexivity]. }
  assert (FD : forall k, k < N -> (if inside (n * N + k) (n * N) N then Some d else m (n * N + k)) = Some d).
  { intros k K. rewrite inside_block, Nat.eqb_refl by exact K. reflexivity. }
  replace (n * N + N) with (S n * N) in * by lia.
  destruct o; cbn [lstep step] in *; unfold vacant, unused in *; replace (n * N + N) with (S n * N) in * by lia.
  - (* New *) destruct (t i) eqn:TI; [discriminate L|]. cbn [obind] in L. injection L as <-. pose proof (F i) as FI. rewrite TI in FI. destruct (en i); [contradiction|]. cbn [obind].
    unfold fresh_arr. eexists. split; [reflexivity|]. assert (LR : length (repeat d N) = N) by apply repeat_length.
    destruct (FR (fun a => if inside a (n * N) N then Some d else m a) (repeat d N) LR) as [H1 H2].
    { intros a. rewrite LR. destruct (inside a (n * N) N) eqn:E; [|reflexivity]. apply inside_spec in E. symmetry. apply nth_error_repeat. lia. }
    apply (rel_write en m t n i _ (mkI A n (repeat d N) n) _ (S n) R); [auto|cbn; repeat split; auto; try lia; apply H1|rewrite TI; auto|exact H2].
  - (* NewList *) destruct (t i) eqn:TI; [discriminate L|]. cbn [obind] in L. destruct (Nat.leb_spec (length r) N) as [LE|]; [|discriminate L]. injection L as <-.
    pose proof (F i) as FI. rewrite TI in FI. destruct (en i); [contradiction|]. cbn [obind]. unfold fresh_arr. cbn [data].
    destruct (put_list_ok r (n * N) 0 (fun a => if inside a (n * N) N then Some d else m a)) as (m' & E & W); [lia| |].
    { intros k K. rewrite FD by exact K. discriminate. }
    rewrite E. cbn [obind]. eexists. split; [reflexivity|]. rewrite Nat.add_0_r in W.
    assert (LL : length (r ++ repeat d (N - length r)) = N) by (rewrite app_length, repeat_length; lia).
    destruct (FR m' _ LL) as [H1 H2].
    { intros a. rewrite LL, W. destruct (inside a (n * N) N) eqn:E1.
      - pose proof E1 as E2. apply inside_spec in E2. destruct (inside a (n * N) (length r)) eqn:E3.
        + apply inside_spec in E3. rewrite nth_error_app1 by lia. reflexivity.
        + assert (length r <= a - n * N). { destruct (Nat.lt_ge_cases (a - n * N) (length r)); [|assumption]. assert (inside a (n * N) (length r) = true) by (apply inside_spec; lia). congruence. }
          rewrite nth_error_app2 by assumption. symmetry. rewrite nth_error_repeat by lia. reflexivity.
      - destruct (inside a (n * N) (length r)) eqn:E3; [|reflexivity]. apply inside_spec in E3. assert (inside a (n * N) N = true) by (apply inside_spec; lia). congruence. }
    apply (rel_write en m t n i _ (mkI A n _ n) _ (S n) R); [auto|cbn; repeat split; auto; try lia; apply H1|rewrite TI; auto|exact H2].
  - (* NewCopy *) destruct (t i) eqn:TI; [discriminate L|]. cbn [obind] in L. destruct (t j) as [q|] eqn:TJ; [|discriminate L]. cbn [obind] in L. injection L as <-.
    pose proof (F i) as FI. rewrite TI in FI. destruct (en i); [contradiction|]. cbn [obind]. pose proof (F j) as FJ. rewrite TJ in FJ. destruct (en j) as [w|] eqn:EJ; [|contradiction].
    cbn [obind]. unfold fresh_arr. cbn [data]. destruct FJ as (F1 & F2 & F3 & F4 & F5 & F6). pose proof F6 as [LQ HQ].
    destruct (copy_ok (elems q) (n * N) (serial q * N) (fun a => if inside a (n * N) N then Some d else m a)) as (m' & E & W).
    { intros k K. rewrite inside_block by lia. destruct (Nat.eqb_spec (serial q) n); [lia|]. apply HQ. lia. }
    { intros k K. rewrite FD by lia. discriminate. } { nia. }
    rewrite LQ in E. rewrite F1, E. cbn [obind]. eexists. split; [reflexivity|]. destruct (FR m' _ LQ W) as [H1 H2].
    apply (rel_write en m t n i _ (mkI A n (elems q) (home q)) _ (S n) R); [auto|cbn; repeat split; auto; try lia; apply H1|rewrite TI; auto|exact H2].
  - (* Drop *) destruct (t i) as [a|] eqn:TI; [|discriminate L]. cbn [obind] in L. injection L as <-. pose proof (F i) as FI. rewrite TI in FI. destruct (en i) as [o|] eqn:EI; [|contradiction].
    cbn [obind]. eexists. split; [reflexivity|]. destruct FI as (F1 & F2 & F3 & F4 & F5 & F6). cbn.
    refine (conj eq_refl (conj _ (conj _ _))).
    + intros j. unfold upd. destruct (Nat.eqb_spec j i) as [->|J]; [exact I|]. pose proof (F j) as FJ. destruct (en j) as [w|], (t j) as [q|] eqn:TJ; try contradiction; [|exact I].
      destruct FJ as (G1 & G2 & G3 & G4 & G5 & G6 & G7). refine (conj G1 (conj G2 (conj G3 (conj G4 (conj G5 (conj G6 _)))))).
      intros k K. rewrite F1, inside_block by exact K. destruct (Nat.eqb_spec (serial q) (serial a)); [|apply G7, K]. exfalso. apply (D j i q a); auto.
    + intros j j2 x y J. unfold upd. destruct (j =? i), (j2 =? i); try discriminate. apply D, J.
    + intros q Q H k K. rewrite F1, inside_block by exact K. destruct (Nat.eqb_spec q (serial a)); [reflexivity|]. apply G; auto.
      intros j x E. destruct (Nat.eq_dec j i) as [->|J]; [congruence|]. apply (H j). unfold upd. destruct (Nat.eqb_spec j i); [congruence|exact E].
  - (* Assign *) destruct (t i) as [a|] eqn:TI; [|discriminate L]. cbn [obind] in L. destruct (t j) as [q|] eqn:TJ; [|discriminate L]. cbn [obind] in L. injection L as <-.
    pose proof (F i) as FI. rewrite TI in FI. destruct (en i) as [o|] eqn:EI; [|contradiction]. pose proof (F j) as FJ. rewrite TJ in FJ. destruct (en j) as [w|] eqn:EJ; [|contradiction].
    destruct FI as (F1 & F2 & F3 & F4 & F5 & F6). destruct FJ as (G1 & G2 & G3 & G4 & G5 & G6). pose proof G6 as [LQ HQ]. cbn [obind].
    destruct (copy_ok (elems q) (serial a * N) (serial q * N) m) as (m' & E & W).
    { intros k K. apply HQ. lia. } { intros k K. apply (holds_live m _ (elems a)); [exact F6|lia]. }
    { destruct (Nat.eq_dec (serial a) (serial q)) as [->|]; [auto|]. nia. }
    rewrite LQ in E. rewrite F1, G1, E. cbn [obind]. eexists. split; [reflexivity|]. destruct (rewritten m m' _ _ LQ W) as [H1 H2].
    assert (RW : Rel (upd en i (Some o), m', n * N) (upd t i (Some (mkI A (serial a) (elems q) (home a))), n)).
    { apply (rel_write en m t n i o _ _ n R); [auto|cbn; repeat split; auto; apply H1|rewrite TI; auto|exact H2]. }
    cbn in RW |- *. destruct RW as (R1 & R2 & R3 & R4). refine (conj R1 (conj _ (conj R3 R4))). intros k. specialize (R2 k). unfold upd in *. destruct (Nat.eqb_spec k i); [subst; rewrite EI; exact R2|exact R2].
  - (* Put *) destruct (t i) as [a|] eqn:TI; [|discriminate L]. cbn [obind] in L. destruct (Nat.ltb_spec k N) as [KN|]; [|discriminate L]. injection L as <-.
    pose proof (F i) as FI. rewrite TI in FI. destruct (en i) as [o|] eqn:EI; [|contradiction]. destruct FI as (F1 & F2 & F3 & F4 & F5 & F6). pose proof F6 as [LQ HQ]. cbn [obind].
    destruct (store_ok m (data o + k) x) as (m' & E & M'). { rewrite F1. apply (holds_live m _ (elems a)); assumption. }
    rewrite E. cbn [obind]. eexists. split; [reflexivity|].
    set (l := firstn k (elems a) ++ x :: skipn (S k) (elems a)).
    assert (LL : length l = N) by (unfold l; rewrite app_length; cbn [length]; rewrite firstn_length_le, skipn_length by lia; lia).
    assert (H1 : holds m' (serial a) l).
    { split; [exact LL|]. intros c C. rewrite M', F1. unfold l. destruct (Nat.eqb_spec (serial a * N + c) (serial a * N + k)) as [Q|Q].
      - assert (c = k) by lia. subst c. rewrite nth_error_app2 by (rewrite firstn_length_le by lia; lia). rewrite firstn_length_le by lia. rewrite Nat.sub_diag. reflexivity.
      - rewrite HQ by exact C. destruct (Nat.lt_ge_cases c k) as [Z|Z].
        + rewrite nth_error_app1 by (rewrite firstn_length_le by lia; lia). rewrite <- (firstn_skipn k (elems a)) at 1. rewrite nth_error_app1 by (rewrite firstn_length_le by lia; lia). reflexivity.
        + rewrite nth_error_app2 by (rewrite firstn_length_le by lia; lia). rewrite firstn_length_le by lia. rewrite <- (firstn_skipn (S k) (elems a)) at 1.
          rewrite nth_error_app2 by (rewrite firstn_length_le by lia; lia). rewrite firstn_length_le by lia. replace (c - k) with (S (c - S k)) by lia. reflexivity. }
    assert (H2 : forall r c, r <> serial a -> c < N -> m' (r * N + c) = m (r * N + c)).
    { intros r c R0 C. rewrite M', F1. destruct (Nat.eqb_spec (r * N + c) (serial a * N + k)) as [Q|Q]; [|reflexivity]. apply split_eq in Q; [|exact C|exact KN]. destruct Q; congruence. }
    assert (RW : Rel (upd en i (Some o), m', n * N) (upd t i (Some (mkI A (serial a) l (home a))), n)).
    { apply (rel_write en m t n i o _ _ n R); [auto|cbn; repeat split; auto; apply H1|rewrite TI; auto|exact H2]. }
    cbn in RW |- *. destruct RW as (R1 & R2 & R3 & R4). refine (conj R1 (conj _ (conj R3 R4))). intros c. specialize (R2 c). unfold upd in *. destruct (Nat.eqb_spec c i); [subst; rewrite EI; exact R2|exact R2].
  - (* Fill *) destruct (t i) as [a|] eqn:TI; [|discriminate L]. cbn [obind] in L. injection L as <-.
    pose proof (F i) as FI. rewrite TI in FI. destruct (en i) as [o|] eqn:EI; [|contradiction]. destruct FI as (F1 & F2 & F3 & F4 & F5 & F6). cbn [obind].
    destruct (fill_ok x N (data o) m) as (m' & E & W). { intros k K. rewrite F1. apply (holds_live m _ (elems a)); assumption. }
    rewrite E. cbn [obind]. eexists. split; [reflexivity|]. rewrite F1 in W. destruct (rewritten m m' _ _ (repeat_length x N) W) as [H1 H2].
    assert (RW : Rel (upd en i (Some o), m', n * N) (upd t i (Some (mkI A (serial a) (repeat x N) (home a))), n)).
    { apply (rel_write en m t n i o _ _ n R); [auto|cbn; repeat split; auto; apply H1|rewrite TI; auto|exact H2]. }
    cbn in RW |- *. destruct RW as (R1 & R2 & R3 & R4). refine (conj R1 (conj _ (conj R3 R4))). intros c. specialize (R2 c). unfold upd in *. destruct (Nat.eqb_spec c i); [subst; rewrite EI; exact R2|exact R2].
Qed.

Lemma run_ok p : forall s t t', Rel s t -> lrun A d N p t = Some t' -> exists s', run A d N p s = Some s' /\ Rel s' t'.
Proof.
  induction p as [|o p IH]; cbn [lrun run]; intros s t t' R L; [injection L as <-; eauto|].
  destruct (lstep A d N o t) as [t1|] eqn:E; [|discriminate L]. cbn [obind] in L. destruct (step_ok o s t t1 R E) as (s1 & E1 & R1). rewrite E1. cbn [obind].
  apply (IH s1 t1); assumption.
Qed.
Lemma start_rel : Rel (start A) (lstart A).
Proof. refine (conj eq_refl (conj (fun _ => I) (conj _ _))); [intros i j a q _ E; discriminate E|intros q Q; lia]. Qed.
Lemma read_ok m : forall l p, (forall k, k < length l -> m (p + k) = nth_error l k) -> read A (length l) p m = Some l.
Proof.
  induction l as [|x l IH]; intros p H; cbn [read length]; [reflexivity|]. pose proof (H 0 ltac:(cbn; lia)) as H0. rewrite Nat.add_0_r in H0. rewrite H0. cbn [obind nth_error].
  rewrite IH; [reflexivity|]. intros k K. replace (S p + k) with (p + S k) by lia. rewrite H by (cbn; lia). reflexivity.
Qed.

(** C47, first part: after every history the elements of every array are those of the list program, copies are independent as far as
    operator[] goes, and the iterators of an array visit the elements of the array they belong to (the array itself, or for a copy the one
    it was copied from); when that array is gone the iteration reads dead storage. *)
Theorem C47_elements p t n : lrun A d N p (lstart A) = Some (t, n) ->
  exists en m nx, run A d N p (start A) = Some (en, m, nx) /\
    forall i, match t i with
              | None => en i = None
              | Some a => exists o, en i = Some o /\ (forall k, get A N o k m = nth_error (elems a) k)
                 /\ (forall j a', t j = Some a' -> serial a' = home a -> iterate A o m = Some (elems a'))
                 /\ ((forall j a', t j = Some a' -> serial a' <> home a) -> iterate A o m = None)
              end.
Proof.
  intros L. destruct (run_ok p _ _ _ start_rel L) as ([[en m] nx] & E & NX & F & D & G). exists en, m, nx. split; [exact E|].
  intros i. pose proof (F i) as FI. destruct (t i) as [a|] eqn:TI, (en i) as [o|] eqn:EI; try contradiction; [|reflexivity].
  destruct FI as (F1 & F2 & F3 & F4 & F5 & F6 & F7). exists o. split; [reflexivity|]. split; [|split].
  - intros k. unfold get. rewrite F1. destruct (Nat.ltb_spec k N); [apply F7; assumption|]. symmetry. apply nth_error_None. lia.
  - intros j a' TJ S. pose proof (F j) as FJ. rewrite TJ in FJ. destruct (en j); [|contradiction]. destruct FJ as (_ & _ & _ & _ & _ & G6 & G7).
    unfold iterate. rewrite F2, F3. replace (home a * N + N - home a * N) with (length (elems a')) by lia. apply read_ok. intros k K. rewrite <- S. apply G7. lia.
  - intros H. unfold iterate. rewrite F2, F3. replace (home a * N + N - home a * N) with (S (N - 1)) by lia. cbn [read].
    specialize (G (home a) F5 H 0 NP). rewrite Nat.add_0_r in G. rewrite G. reflexivity.
Qed.
(** C47 for programs without copy construction: every array visits its own elements. *)
Theorem C47_without_copies p t n : forallb (no_copy A) p = true -> lrun A d N p (lstart A) = Some (t, n) ->
  exists en m nx, run A d N p (start A) = Some (en, m, nx) /\
    forall i a, t i = Some a -> exists o, en i = Some o /\ (forall k, get A N o k m = nth_error (elems a) k) /\ iterate A o m = Some (elems a).
Proof.
  intros NC L. destruct (C47_elements p t n L) as (en & m & nx & E & H). exists en, m, nx. split; [exact E|]. intros i a TI.
  assert (HM : home a = serial a).
  { assert (I0 : forall i a, fst (lstart A) i = Some a -> home a = serial a) by (intros ? ? X; discriminate X). clear - NC L TI I0. revert I0 L. generalize (lstart A).
    induction p as [|o p IH]; cbn [forallb lrun] in *; intros s I0 L; [injection L as ->; exact (I0 i a TI)|].
    apply andb_true_iff in NC. destruct NC as [N1 N2]. destruct (lstep A d N o s) as [s1|] eqn:E; [|discriminate L]. cbn [obind] in L. apply (IH N2 s1); [|exact L].
    intros j b0. destruct s as [t0 n0]. cbn [fst] in I0. clear - I0 E N1.
    destruct o; cbn [lstep] in E; try discriminate N1; unfold vacant in E;
      repeat match type of E with
             | obind (match ?x with _ => _ end) _ = _ => destruct x eqn:?; [discriminate E|]; cbn [obind] in E
             | obind ?x _ = _ => destruct x eqn:?; [|discriminate E]; cbn [obind] in E
             | (if ?b then _ else _) = _ => destruct b; [|discriminate E]
             end; injection E as <-; cbn [fst]; unfold upd; destruct (j =? _); try (apply I0); try discriminate; intros X; injection X as <-; cbn; eauto. }
  specialize (H i). rewrite TI in H. destruct H as (o & EI & HG & HI & _). exists o. split; [exact EI|]. split; [exact HG|]. apply (HI i a TI). symmetry. exact HM.
Qed.
End Props.

(** The hypotheses are met: three arrays, one assigned from another. *)
Definition sample : list (op nat) := [NewList nat 0 [3; 4]; New nat 1; Assign nat 1 0; Put nat 0 2 7; NewList nat 2 [1]; Drop nat 2; Fill nat 0 5; Put nat 0 1 6].
Example C47_case : forallb (no_copy nat) sample = true /\ exists t n a0 a1, lrun nat 0 3 sample (lstart nat) = Some (t, n) /\
  t 0 = Some a0 /\ elems nat a0 = [5; 6; 5] /\ t 1 = Some a1 /\ elems nat a1 = [3; 4; 0].
Proof. split; [reflexivity|]. do 4 eexists. split; [vm_compute; reflexivity|]. repeat split. Qed.

(** C47 fails for copies: after [b = copy of a; b[0] = 9;] the iteration over b gives a's elements, for every element type with two values ... *)
Definition copied {A} (x y : A) : list (op A) := [NewList A 0 [x; x]; NewCopy A 1 0; Put A 1 0 y].
Theorem C47_copy_refuted A (d x y : A) : x <> y -> exists en m nx o, run A d 2 (copied x y) (start A) = Some (en, m, nx) /\ en 1 = Some o
  /\ get A 2 o 0 m = Some y /\ iterate A o m = Some [x; x] /\ iterate A o m <> Some [y; x].
Proof. intros N. do 4 eexists. split; [vm_compute; reflexivity|]. split; [reflexivity|]. split; [reflexivity|]. split; [reflexivity|]. cbv. congruence. Qed.
(** ... and after the end of the life of the original (a function that returns a copy of a local array) it reads dead storage. *)
Definition outlived {A} (x : A) : list (op A) := [NewList A 0 [x; x]; NewCopy A 1 0; Drop A 0].
Theorem C47_outlived_refuted A (d x : A) : exists en m nx o, run A d 2 (outlived x) (start A) = Some (en, m, nx) /\ en 1 = Some o
  /\ get A 2 o 0 m = Some x /\ iterate A o m = None.
Proof. do 4 eexists. split; [vm_compute; reflexivity|]. repeat split. Qed.
(** a list longer than the array is written past its end *)
Theorem C47_long_list_refuted A (d : A) N r : N < length r -> run A d N [NewList A 0 r] (start A) = None.
Proof.
  intros L. cbn [run step start unused obind fresh_arr data].
  assert (Q : forall r i m, i <= N -> N < i + length r -> put_list A N r 0 i m = None).
  { clear. induction r as [|x r IH]; cbn [put_list length]; intros i m I L; [lia|].
    destruct (Nat.ltb_spec i N); [|reflexivity]. destruct (store A m (0 + i) x); [|reflexivity]. cbn [obind]. apply IH; lia. }
  rewrite Q by lia. reflexivity.
Qed.
Print Assumptions C47_elements.
Print Assumptions C47_without_copies.
Print Assumptions C47_copy_refuted.
Print Assumptions C47_outlived_refuted.
Print Assumptions C47_long_list_refuted.
