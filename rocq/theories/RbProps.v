(** Properties C80-C85: the ordered containers of mylib/mystl (map, multimap, set, multiset over rb_tree). *)
From Coq Require Import String ZArith List Bool Lia Sorted.
From Verif Require Import F64 SortSpec RbModel RbSpec RbClient RbProof RbErase RbUnlink RbClass RbHold RbOps RbHint RbDel RbFind RbCopy RbRun.
Import ListNotations.
Open Scope Z_scope.
Open Scope opt_scope.

Section Props.
Context {K V : Type} (lt : K -> K -> bool) (key : V -> K).
Hypothesis SW : strict_weak lt.
Notation mem := (@memory V).
Implicit Types (m R : mem) (o : obj) (e : list (Z * V)) (a h : Z) (v : V) (kk : K) (ps : list (op (K := K) (V := V))).

(** [m0] is the memory before the container was made, with its header at [h]; [e] is what the operations [ps] should leave in it *)
Definition reached m0 h ps m o : Prop :=
  h <> 0 /\ m0 h = None /\ exists m1 o1, init m0 h = Some (m1, o1) /\ legal (step lt key) m1 o1 ps /\ run (step lt key) m1 o1 ps = Some (m, o).
Definition mreached m0 h ps m o : Prop :=
  h <> 0 /\ m0 h = None /\ exists m1 o1, init m0 h = Some (m1, o1) /\ legal (mstep lt key) m1 o1 ps /\ run (mstep lt key) m1 o1 ps = Some (m, o).

(** ** C80: set and map after any operations *)
Lemma reached_holds m0 h ps m o : reached m0 h ps m o -> holds m m0 o (fold_left (effect lt key) ps []) /\ strictly lt key (fold_left (effect lt key) ps []) /\ hdr o = h.
Proof.
  intros (H0 & Hn & m1 & o1 & E1 & L & E2). destruct (init_ok m0 h H0 Hn) as (m1' & E1' & H1). rewrite E1' in E1. injection E1 as <- <-.
  destruct (run_ok lt key SW m0 ps m1' (mkObj h 0) [] H1 ltac:(constructor) L) as (m' & o' & E3 & O3 & H3 & S3). rewrite E3 in E2. injection E2 as <- <-. auto.
Qed.
Theorem C80_map_history m0 h ps m1 o1 : h <> 0 -> m0 h = None -> init m0 h = Some (m1, o1) -> legal (step lt key) m1 o1 ps ->
  exists m o, run (step lt key) m1 o1 ps = Some (m, o) /\
    (let e := fold_left (effect lt key) ps [] in
     contents m o = Some e /\ cnt o = length e /\ strictly lt key e /\
     (forall z, z <> 0 -> z <> h -> ~ In z (map fst e) -> m z = m0 z) /\ m h <> None /\ Forall (fun u => m (fst u) <> None /\ m0 (fst u) = None) e).
Proof.
  intros H0 Hn E1 L. destruct (init_ok m0 h H0 Hn) as (m1' & E1' & H1). rewrite E1' in E1. injection E1 as <- <-.
  destruct (run_ok lt key SW m0 ps m1' (mkObj h 0) [] H1 ltac:(constructor) L) as (m & o & E3 & O3 & H3 & S3). exists m, o. split; [exact E3|]. cbv zeta. destruct (contents_ok _ _ _ _ H3) as [C1 C2].
  split; [exact C1|]. split; [exact C2|]. split; [exact S3|]. set (e := fold_left _ _ _) in *. cbn [hdr] in O3.
  assert (AC : forall z, ac z e = 0%nat <-> ~ In z (map fst e)).
  { intros z. clearbody e. clear. induction e as [|[x v] e IH]; simpl; [tauto|]. unfold one. destruct (Z.eqb_spec x z) as [Q|Q]; [split; [lia|intros X; exfalso; apply X; auto]|]. rewrite IH. tauto. }
  destruct H3 as (t & H3 & Hn3 & B3 & _ & HR3). split; [|split].
  - intros z Z0 Zh Zn. apply (W_R _ _ _ _ _ _ _ H3). cbn [kc]. rewrite <- ac_tc, Hn3, (proj2 (AC z) Zn), O3, (one_ne 0 z), (one_ne h z) by congruence. reflexivity.
  - rewrite <- O3, (W_h _ _ _ _ _ _ _ H3). discriminate.
  - apply Forall_forall. intros [z w] I. cbn [fst]. assert (A1 : (1 <= ac z e)%nat) by (destruct (ac z e) eqn:Q; [|lia]; apply AC in Q; exfalso; apply Q; now apply (in_map fst) in I).
    split; [|apply HR3; lia]. apply (rep_some m z t _ (W_t _ _ _ _ _ _ _ H3)). rewrite <- ac_tc, Hn3. exact A1.
Qed.
(** what an insertion tells *)
Theorem C80_insert_result m0 h ps m o a v : reached m0 h ps m o -> a <> 0 -> m a = None ->
  let e := fold_left (effect lt key) ps [] in let yes := negb (has lt key (key v) e) in
  (exists m' o' p, insert_unique lt key m o a v = Some (m', o', (p, yes)) /\ contents m' o' = Some (if yes then added lt key a v e else e) /\ (yes = true -> p = a)) /\
  (exists m' o' p, emplace_unique lt key m o a v = Some (m', o', (p, yes)) /\ contents m' o' = Some (if yes then added lt key a v e else e) /\ (yes = true -> p = a)).
Proof.
  intros RE A0 Ha e yes. destruct (reached_holds _ _ _ _ _ RE) as (H & S & _). fold e in H, S.
  assert (Q : forall u w : list (Z * V), (if has lt key (key v) e then u else w) = if yes then w else u) by (intros; unfold yes; destruct (has lt key (key v) e); reflexivity). split.
  - destruct (insert_unique_ok lt key SW m m0 o e a v H S A0 Ha) as (m' & o' & p & E1 & _ & H1 & P). rewrite Q in H1. exists m', o', p. split; [exact E1|]. split; [now apply (contents_ok _ _ _ _ H1)|]. intros Y. apply P. unfold yes in Y. now apply negb_true_iff in Y.
  - destruct (emplace_unique_ok lt key SW m m0 o e a v H S A0 Ha) as (m' & o' & p & E1 & _ & H1 & P). rewrite Q in H1. exists m', o', p. split; [exact E1|]. split; [now apply (contents_ok _ _ _ _ H1)|]. intros Y. apply P. unfold yes in Y. now apply negb_true_iff in Y.
Qed.
(** erase(position) gives the next position *)
Theorem C80_erase_result m0 h ps m o e1 z v e2 : reached m0 h ps m o -> fold_left (effect lt key) ps [] = e1 ++ (z, v) :: e2 ->
  exists m' o', erase m o z = Some (m', o', head h e2) /\ contents m' o' = Some (e1 ++ e2) /\ m' z = None.
Proof.
  intros RE Q. destruct (reached_holds _ _ _ _ _ RE) as (H & S & O). rewrite Q in H. destruct (erase_ok _ _ _ _ _ _ _ H) as (m' & o' & E1 & O1 & H1). rewrite O in E1. exists m', o'. split; [exact E1|]. split; [now apply (contents_ok _ _ _ _ H1)|].
  pose proof (holds_distinct _ _ _ _ z H) as D. rewrite ac_app in D. cbn [ac] in D. rewrite one_refl in D. destruct H as (t & H & _ & _ & _ & HR).
  apply (holds_free _ _ _ _ _ H1); [apply HR; rewrite ac_app; cbn [ac]; rewrite one_refl; lia|intros ->; rewrite one_refl in D; lia|rewrite O1; intros ->; rewrite one_refl in D; lia|rewrite ac_app; lia].
Qed.

(** ** C81: multiset and multimap after any operations *)
Lemma mreached_holds m0 h ps m o : mreached m0 h ps m o -> exists e, meffects lt key [] ps e /\ holds m m0 o e /\ weakly lt key e /\ hdr o = h.
Proof.
  intros (H0 & Hn & m1 & o1 & E1 & L & E2). destruct (init_ok m0 h H0 Hn) as (m1' & E1' & H1). rewrite E1' in E1. injection E1 as <- <-.
  destruct (mrun_ok lt key SW m0 ps m1' (mkObj h 0) [] H1 ltac:(constructor) L) as (m' & o' & e & E3 & O3 & M3 & H3 & S3). rewrite E3 in E2. injection E2 as <- <-. exists e. auto.
Qed.
Theorem C81_multi_history m0 h ps m1 o1 : h <> 0 -> m0 h = None -> init m0 h = Some (m1, o1) -> legal (mstep lt key) m1 o1 ps ->
  exists m o e, run (mstep lt key) m1 o1 ps = Some (m, o) /\ meffects lt key [] ps e /\
    contents m o = Some e /\ cnt o = length e /\ weakly lt key e /\ forall z, z <> 0 -> z <> h -> ~ In z (map fst e) -> m z = m0 z.
Proof.
  intros H0 Hn E1 L. destruct (init_ok m0 h H0 Hn) as (m1' & E1' & H1). rewrite E1' in E1. injection E1 as <- <-.
  destruct (mrun_ok lt key SW m0 ps m1' (mkObj h 0) [] H1 ltac:(constructor) L) as (m & o & e & E3 & O3 & M3 & H3 & S3). exists m, o, e. split; [exact E3|]. split; [exact M3|]. destruct (contents_ok _ _ _ _ H3) as [C1 C2].
  split; [exact C1|]. split; [exact C2|]. split; [exact S3|]. cbn [hdr] in O3. destruct H3 as (t & H3 & Hn3 & _).
  intros z Z0 Zh Zn. apply (W_R _ _ _ _ _ _ _ H3). cbn [kc]. rewrite <- ac_tc, Hn3, O3, (one_ne 0 z), (one_ne h z) by congruence.
  assert (A0 : ac z e = 0%nat); [|lia]. clear - Zn. induction e as [|[x v] e IH]; simpl in *; [reflexivity|]. rewrite one_ne by tauto. rewrite IH; tauto.
Qed.
(** the new element goes behind the elements with equivalent keys *)
Theorem C81_insert_last m0 h ps m o a v : mreached m0 h ps m o -> a <> 0 -> m a = None ->
  exists e m' o', contents m o = Some e /\ insert_multi lt key m o a v = Some (m', o', a) /\ contents m' o' = Some (upto lt key (key v) e ++ (a, v) :: above lt key (key v) e) /\
    e = upto lt key (key v) e ++ above lt key (key v) e.
Proof.
  intros RE A0 Ha. destruct (mreached_holds _ _ _ _ _ RE) as (e & _ & H & S & _). destruct (insert_multi_ok lt key SW m m0 o e a v H S A0 Ha) as (m' & o' & E1 & _ & H1). exists e, m', o'.
  split; [now apply (contents_ok _ _ _ _ H)|]. split; [exact E1|]. split; [now apply (contents_ok _ _ _ _ H1)|]. now apply split_weak.
Qed.

(** ** C82: looking up *)
Theorem C82_lookup m0 h ps m o kk : mreached m0 h ps m o -> exists e, contents m o = Some e /\
  lower_bound lt key m o kk = Some (head h (since lt key kk e)) /\ upper_bound lt key m o kk = Some (head h (above lt key kk e)) /\
  find lt key m o kk = Some (head h (same lt key kk e)) /\ count_multi lt key m o kk = Some (length (same lt key kk e)) /\
  equal_range_multi lt key m o kk = Some (head h (same lt key kk e ++ above lt key kk e), head h (above lt key kk e)) /\
  e = below lt key kk e ++ same lt key kk e ++ above lt key kk e.
Proof.
  intros RE. destruct (mreached_holds _ _ _ _ _ RE) as (e & _ & H & S & O). exists e. split; [now apply (contents_ok _ _ _ _ H)|]. pose proof (lower_bound_ok lt key SW _ _ _ _ kk H S) as L1. pose proof (upper_bound_ok lt key SW _ _ _ _ kk H S) as L2. rewrite O in L1, L2.
  split; [exact L1|]. split; [exact L2|]. split; [rewrite <- O; exact (find_ok lt key SW _ _ _ _ kk H S)|]. split; [exact (count_multi_ok lt key SW _ _ _ _ kk H S)|]. split; [unfold equal_range_multi; rewrite L1, L2; cbn [obind]; now rewrite (since_same lt key SW kk e S)|now apply three].
Qed.
Theorem C82_map_lookup m0 h ps m o kk : reached m0 h ps m o -> let e := fold_left (effect lt key) ps [] in
  lower_bound lt key m o kk = Some (head h (since lt key kk e)) /\ upper_bound lt key m o kk = Some (head h (above lt key kk e)) /\
  find lt key m o kk = Some (head h (same lt key kk e)) /\ count_unique lt key m o kk = Some (if has lt key kk e then 1%nat else 0%nat) /\
  (exists j j', equal_range_unique lt key m o kk = Some (j, j') /\ match same lt key kk e with [] => j = h /\ j' = h | (x, _) :: _ => j = x /\ j' = head h (above lt key kk e) end) /\
  (length (same lt key kk e) <= 1)%nat /\
  (forall x v, same lt key kk e = [(x, v)] -> map_at lt key m o kk = Some v).
Proof.
  intros RE e. destruct (reached_holds _ _ _ _ _ RE) as (H & S & O). fold e in H, S. pose proof (strictly_weakly lt key SW e S) as S'.
  pose proof (lower_bound_ok lt key SW _ _ _ _ kk H S') as L1. pose proof (upper_bound_ok lt key SW _ _ _ _ kk H S') as L2. rewrite O in L1, L2. pose proof (same_one lt key SW kk e S) as L.
  split; [exact L1|]. split; [exact L2|]. pose proof (find_ok lt key SW _ _ _ _ kk H S') as F. pose proof F as F'. rewrite O in F'. split; [exact F'|].
  split; [rewrite (count_unique_ok lt key SW _ _ _ _ kk H S); f_equal; destruct (has lt key kk e) eqn:Q; [|apply has_same in Q; rewrite Q; reflexivity]|split; [|split; [exact L|]]].
  - destruct (same lt key kk e) as [|u1 [|u2 w]] eqn:Q2; [|reflexivity|simpl in L; lia]. apply has_same in Q2. congruence.
  - unfold equal_range_unique. rewrite F. cbn [obind]. rewrite (three lt key SW kk e S') in H. destruct (same lt key kk e) as [|[x v] [|u2 w]]; [|simpl app in H|simpl in L; lia].
    + cbn [head]. unfold end_. rewrite Z.eqb_refl, O. eauto.
    + cbn [head]. unfold end_. rewrite (proj2 (Z.eqb_neq _ _) (in_not_hdr _ _ _ _ _ _ _ H)). rewrite (inc_at _ _ _ _ _ _ _ H). cbn [obind]. rewrite O. eauto.
  - intros x v Q. exact (map_at_ok lt key SW _ _ _ _ kk _ _ _ H S' Q).
Qed.
(** operator[] *)
Theorem C82_index m0 h ps m o a v0 : reached m0 h ps m o -> a <> 0 -> m a = None -> let e := fold_left (effect lt key) ps [] in
  exists m' o' p, map_index lt key m o a (key v0) v0 = Some (m', o', p) /\
    match same lt key (key v0) e with
    | (x, v) :: _ => p = x /\ contents m' o' = Some e
    | [] => p = a /\ contents m' o' = Some (added lt key a v0 e)
    end.
Proof.
  intros RE A0 Ha e. destruct (reached_holds _ _ _ _ _ RE) as (H & S & O). fold e in H, S. destruct (map_index_ok lt key SW m m0 o e a v0 H S A0 Ha) as (m' & o' & p & E1 & _ & H1 & P). exists m', o', p. split; [exact E1|].
  apply contents_ok in H1 as [H1 _]. destruct (same lt key (key v0) e) as [|[x v] w] eqn:Q.
  - rewrite (proj2 (has_same lt key (key v0) e) Q) in H1. auto.
  - destruct (has lt key (key v0) e) eqn:Q2; [auto|]. apply has_same in Q2. congruence.
Qed.

(** ** C83: a search of n elements takes at most 2 log2 (n + 1) + 1 rounds *)
Theorem C83_rounds m0 h ps m o kk : mreached m0 h ps m o -> exists hd e, get m h = Some hd /\ contents m o = Some e /\
  forall fuel, (2 * Nat.log2 (S (length e)) < fuel)%nat ->
    low_loop lt key fuel m kk (par hd) h = lower_bound lt key m o kk /\ upp_loop lt key fuel m kk (par hd) h = upper_bound lt key m o kk /\
    pos_loop lt key fuel m kk (par hd) h true = multi_pos lt key m o kk /\ lower_bound lt key m o kk <> None /\ upper_bound lt key m o kk <> None.
Proof.
  intros RE. destruct (mreached_holds _ _ _ _ _ RE) as (e & _ & H & S & O). destruct (root_of _ _ _ _ H) as (t & G & _). rewrite O in G. exists (mkNd (rt t) (first h e) (final h e) (Some false) None), e. split; [exact G|]. destruct (contents_ok _ _ _ _ H) as [C1 C2]. split; [exact C1|].
  intros fuel Hf. rewrite <- C2 in Hf. cbn [par].
  destruct (low_steps lt key SW _ _ _ _ kk fuel H S Hf) as (hd1 & G1 & L1). destruct (upp_steps lt key SW _ _ _ _ kk fuel H S Hf) as (hd2 & G2 & L2). destruct (pos_steps lt key SW _ _ _ _ kk fuel H S Hf) as (hd3 & G3 & L3). rewrite O in *. rewrite G in G1, G2, G3. injection G1 as <-. injection G2 as <-. injection G3 as <-. cbn [par] in *.
  pose proof (lower_bound_ok lt key SW _ _ _ _ kk H S) as B1. pose proof (upper_bound_ok lt key SW _ _ _ _ kk H S) as B2. rewrite O in B1, B2. rewrite B1, B2. repeat split; auto; discriminate.
Qed.

(** ** C84: a copy has the same elements and is independent of the original *)
Theorem C84_copy m0 h ps m o a al : reached m0 h ps m o -> let e := fold_left (effect lt key) ps [] in
  NoDup (a :: al) -> ~ In 0 (a :: al) -> Forall (fun x => m x = None) (a :: al) -> (length e <= length al)%nat ->
  exists m' o' e', copy_of m o a al = Some (m', o') /\ contents m' o' = Some e' /\ map snd e' = map snd e /\ contents m' o = Some e /\
    forall ps', legal (step lt key) m' o' ps' -> exists m2 o2, run (step lt key) m' o' ps' = Some (m2, o2) /\ contents m2 o2 = Some (fold_left (effect lt key) ps' e') /\ contents m2 o = Some e.
Proof.
  intros RE e ND N0 F LN. destruct (reached_holds _ _ _ _ _ RE) as (H & S & O). fold e in H, S. inversion ND as [|? ? ND1 ND2]; subst. inversion F as [|? ? F1 F2]; subst.
  destruct (copy_of_ok m m0 o e a al H) as (m' & o' & e' & E1 & O1 & H1 & M1 & R' & H2); try assumption; [intros ->; apply N0; now left|intros Q; apply N0; now right|].
  assert (S1 : strictly lt key e').
  { unfold strictly in *. clear - S M1. revert e' M1. induction S as [|u e S IH FA]; intros [|u' e'] M; try discriminate; [constructor|]. simpl in M. injection M as M1 M2. constructor; [now apply IH|]. apply Forall_forall. intros w Hw. apply (in_map snd) in Hw. rewrite M2 in Hw. apply in_map_iff in Hw as (w' & Q & Hw). rewrite Forall_forall in FA. specialize (FA _ Hw). unfold keyof in *. now rewrite M1, <- Q. }
  assert (KEEP : forall m2 o2 f, holds m2 m o2 f -> contents m2 o = Some e).
  { intros m2 o2 f H3. destruct (holds_stay m m2 m0 o e H) as (R3 & H4 & _); [|now apply (contents_ok _ _ _ _ H4)]. intros z Hz.
    assert (Z1 : z <> 0) by (intros ->; pose proof (holds_distinct _ _ _ _ 0 H) as D; rewrite one_refl in D; lia).
    assert (Z2 : m z <> None). { destruct H as (t & H & Hn & _). rewrite <- Hn, ac_tc in Hz. destruct (Z.eq_dec z (hdr o)) as [Q|Q]; [rewrite Q, (W_h _ _ _ _ _ _ _ H); discriminate|]. rewrite one_ne in Hz by congruence. apply (rep_some m z t _ (W_t _ _ _ _ _ _ _ H)). lia. }
    destruct H3 as (t3 & H3 & Hn3 & _ & _ & HR3). apply (W_R _ _ _ _ _ _ _ H3). cbn [kc]. rewrite (one_ne 0 z) by congruence. rewrite <- ac_tc, Hn3.
    destruct (one (hdr o2) z + ac z f)%nat eqn:Q; [lia|]. exfalso. apply Z2, HR3. lia. }
  exists m', o', e'. split; [exact E1|]. split; [now apply (contents_ok _ _ _ _ H1)|]. split; [exact M1|]. split; [exact (KEEP _ _ _ H1)|].
  intros ps' L. destruct (run_ok lt key SW m ps' m' o' e' H1 S1 L) as (m2 & o2 & E2 & O2 & H3 & _). exists m2, o2. split; [exact E2|]. split; [now apply (contents_ok _ _ _ _ H3)|exact (KEEP _ _ _ H3)].
Qed.
(** a moved-to container has the elements; the moved-from one has size 0 *)
Theorem C84_move m0 h ps m o : reached m0 h ps m o -> contents m (fst (move_of o)) = Some (fold_left (effect lt key) ps []) /\ cnt (snd (move_of o)) = 0%nat.
Proof. intros RE. destruct (reached_holds _ _ _ _ _ RE) as (H & _). split; [now apply (contents_ok _ _ _ _ H)|reflexivity]. Qed.
End Props.

(** ** examples and refutations: keys and values are integers *)
Definition pk (v : Z * Z) : Z := fst v.
Lemma sw_ltb : strict_weak Z.ltb.
Proof. constructor; intros; rewrite ?Z.ltb_lt, ?Z.ltb_ge in *; lia. Qed.
Definition none : @memory (Z * Z) := fun _ => None.
Definition prog : list (op (K := Z) (V := Z * Z)) := [Insert 10 (1, 100); Insert 11 (2, 200); Insert 12 (3, 300); Emplace 13 (2, 999); Hint 13 (5, 500) 3; Index 14 (4, 0); EraseAt 0; EraseKey 3].
Definition at_end : option (list (Z * (Z * Z))) := let* (m, o) := init none 9 in let* (m, o) := run (step Z.ltb pk) m o prog in contents m o.
Example C80_ex : at_end = Some [(11, (2, 200)); (14, (4, 0)); (13, (5, 500))] /\ at_end = Some (fold_left (effect Z.ltb pk) prog []).
Proof. split; vm_compute; reflexivity. Qed.
Ltac legal_tac := repeat (split; [repeat split; try discriminate; try (apply Nat.leb_le; reflexivity); lia || idtac | let a := fresh in let b := fresh in let c := fresh in intros a b c; vm_compute in c; injection c as <- <-]); try exact I.
Example C80_ex_legal : exists m1 o1 m o, init none 9 = Some (m1, o1) /\ legal (step Z.ltb pk) m1 o1 prog /\ run (step Z.ltb pk) m1 o1 prog = Some (m, o).
Proof.
  destruct (init_ok none 9 ltac:(discriminate) eq_refl) as (m1 & E1 & H1). exists m1, (mkObj 9 0).
  assert (L : legal (step Z.ltb pk) m1 (mkObj 9 0) prog). { vm_compute in E1. injection E1 as <-. unfold prog. cbn [legal]. legal_tac. }
  destruct (run_ok Z.ltb pk sw_ltb none prog m1 (mkObj 9 0) [] H1 ltac:(constructor) L) as (m & o & E3 & _). exists m, o. auto.
Qed.
Example C80_insert_ex : (let* (m, o) := init none 9 in let* (m, o) := run (step Z.ltb pk) m o prog in let* (m, o, r) := insert_unique Z.ltb pk m o 20 (3, 30) in let* e := contents m o in Some (r, e)) = Some ((20, true), [(11, (2, 200)); (20, (3, 30)); (14, (4, 0)); (13, (5, 500))]).
Proof. vm_compute. reflexivity. Qed.
Example C80_erase_ex : (let* (m, o) := init none 9 in let* (m, o) := run (step Z.ltb pk) m o prog in let* (m, o, r) := erase m o 14 in let* e := contents m o in Some (r, e)) = Some (13, [(11, (2, 200)); (13, (5, 500))]).
Proof. vm_compute. reflexivity. Qed.

Definition three_keys : list (op (K := Z) (V := Z * Z)) := [Insert 11 (1, 100); Insert 12 (2, 200); Insert 13 (3, 300)].
Lemma three_reached : exists m o, reached Z.ltb pk none 9 three_keys m o /\ insert_unique Z.ltb pk m o 20 (2, 0) = Some (m, o, (13, false)) /\
  map_at Z.ltb pk m o 3 = Some (3, 300).
Proof.
  destruct (init_ok none 9 ltac:(discriminate) eq_refl) as (m1 & E1 & H1).
  assert (L : legal (step Z.ltb pk) m1 (mkObj 9 0) three_keys). { vm_compute in E1. injection E1 as <-. unfold three_keys. cbn [legal]. legal_tac. }
  destruct (run_ok Z.ltb pk sw_ltb none three_keys m1 (mkObj 9 0) [] H1 ltac:(constructor) L) as (m & o & E3 & _ & H3 & _). exists m, o.
  split; [repeat split; try discriminate; exists m1, (mkObj 9 0); auto|]. vm_compute in E1. injection E1 as <-. vm_compute in E3. injection E3 as <- <-. split; vm_compute; reflexivity.
Qed.
(** the iterator that insert gives for a key that is there already need not point to the element with that key *)
Theorem C80_existing_iterator_refuted : exists m0 h ps m o a v m' o' p,
  reached Z.ltb pk m0 h ps m o /\ a <> 0 /\ m a = None /\ insert_unique Z.ltb pk m o a v = Some (m', o', (p, false)) /\
  same Z.ltb pk (pk v) (fold_left (effect Z.ltb pk) ps []) = [(12, (2, 200))] /\ p <> 12 /\ keyat pk m p = Some 3 /\ pk v = 2.
Proof.
  destruct three_reached as (m & o & RE & E1 & E2). exists none, 9, three_keys, m, o, 20, (2, 0), m, o, 13. split; [exact RE|]. split; [discriminate|]. 
  destruct (reached_holds Z.ltb pk sw_ltb _ _ _ _ _ RE) as (H & _ & O).
  split; [apply (holds_free _ _ _ _ _ H); [reflexivity|discriminate|rewrite O; discriminate|reflexivity]|]. split; [exact E1|]. split; [reflexivity|]. split; [discriminate|]. split; [|reflexivity].
  change (fold_left (effect Z.ltb pk) three_keys []) with ([(11, (1, 100)); (12, (2, 200))] ++ (13, (3, 300)) :: []) in H. exact (keyat_holds pk _ _ _ _ _ _ _ H).
Qed.
Definition two_keys : list (op (K := Z) (V := Z * Z)) := [Insert 11 (1, 100); Insert 13 (3, 300)].
(** at() of a key that is not there need not throw *)
Theorem C82_at_absent_refuted : exists m0 h ps m o kk v,
  reached Z.ltb pk m0 h ps m o /\ has Z.ltb pk kk (fold_left (effect Z.ltb pk) ps []) = false /\ map_at Z.ltb pk m o kk = Some v.
Proof.
  destruct (init_ok none 9 ltac:(discriminate) eq_refl) as (m1 & E1 & H1).
  assert (L : legal (step Z.ltb pk) m1 (mkObj 9 0) two_keys). { vm_compute in E1. injection E1 as <-. unfold two_keys. cbn [legal]. legal_tac. }
  destruct (run_ok Z.ltb pk sw_ltb none two_keys m1 (mkObj 9 0) [] H1 ltac:(constructor) L) as (m & o & E3 & _ & H3 & _). exists none, 9, two_keys, m, o, 2, (3, 300).
  split; [repeat split; try discriminate; exists m1, (mkObj 9 0); auto|]. split; [reflexivity|]. vm_compute in E1. injection E1 as <-. vm_compute in E3. injection E3 as <- <-. vm_compute. reflexivity.
Qed.
Example C82_ex : (let* (m, o) := init none 9 in let* (m, o) := run (step Z.ltb pk) m o prog in
  let* f := find Z.ltb pk m o 4 in let* l := lower_bound Z.ltb pk m o 3 in let* u := upper_bound Z.ltb pk m o 5 in let* c := count_unique Z.ltb pk m o 3 in let* v := map_at Z.ltb pk m o 5 in
  let* r := equal_range_unique Z.ltb pk m o 2 in Some (f, l, u, c, v, r)) = Some (14, 14, 9, 0%nat, (5, 500), (11, 14)).
Proof. vm_compute. reflexivity. Qed.
Definition mprog : list (op (K := Z) (V := Z * Z)) := [Insert 10 (2, 100); Insert 11 (2, 200); Emplace 12 (1, 300); Insert 13 (2, 400); Hint 14 (2, 500) 1; EraseAt 0; Insert 15 (7, 0); Insert 16 (8, 0); EraseKey 7].
Definition mat_end : option (list (Z * (Z * Z)) * nat) := let* (m, o) := init none 9 in let* (m, o) := run (mstep Z.ltb pk) m o mprog in let* e := contents m o in let* n := count_multi Z.ltb pk m o 2 in Some (e, n).
Example C81_ex : mat_end = Some ([(14, (2, 500)); (10, (2, 100)); (11, (2, 200)); (13, (2, 400)); (16, (8, 0))], 4%nat).
Proof. vm_compute. reflexivity. Qed.
Example C81_ex_legal : exists m o, mreached Z.ltb pk none 9 mprog m o.
Proof.
  destruct (init_ok none 9 ltac:(discriminate) eq_refl) as (m1 & E1 & H1).
  assert (L : legal (mstep Z.ltb pk) m1 (mkObj 9 0) mprog). { vm_compute in E1. injection E1 as <-. unfold mprog. cbn [legal]. legal_tac. }
  destruct (mrun_ok Z.ltb pk sw_ltb none mprog m1 (mkObj 9 0) [] H1 ltac:(constructor) L) as (m & o & e & E3 & _). exists m, o. repeat split; try discriminate. exists m1, (mkObj 9 0). auto.
Qed.
(** 100 keys in order: 13 rounds are enough; 5 are not *)
Definition hundred : option (@memory (Z * Z) * obj) :=
  let* (m, o) := init none 1000 in run (step Z.ltb pk) m o (map (fun i => Insert (Z.of_nat i) (Z.of_nat i, 0)) (seq 1 100)).
Example C83_ex : (let* (m, o) := hundred in let* hd := get m (hdr o) in Some (low_loop Z.ltb pk 13 m 100 (par hd) (hdr o), low_loop Z.ltb pk 5 m 100 (par hd) (hdr o))) = Some (Some 100, None).
Proof. vm_compute. reflexivity. Qed.
Example C84_ex : (let* (m, o) := init none 9 in let* (m, o) := run (step Z.ltb pk) m o prog in let* (m, o2) := copy_of m o 50 [51; 52; 53] in
  let* (m, o2) := run (step Z.ltb pk) m o2 [EraseKey 4; Insert 60 (1, 1)] in let* e := contents m o in let* e2 := contents m o2 in Some (e, map snd e2)) =
  Some ([(11, (2, 200)); (14, (4, 0)); (13, (5, 500))], [(1, 1); (2, 200); (5, 500)]).
Proof. vm_compute. reflexivity. Qed.
(** a container that was moved from cannot be used again: the first access is through a null pointer *)
Theorem C84_moved_from_refuted : exists m0 h ps m o, reached Z.ltb pk m0 h ps m o /\ let o2 := snd (move_of o) in
  begin m o2 = None /\ contents m o2 = None /\ (forall kk, find Z.ltb pk m o2 kk = None) /\ (forall a v, insert_unique Z.ltb pk m o2 a v = None) /\ forall o3 al, copy_assign m o2 o3 al = None \/ cnt o3 = 0%nat.
Proof.
  destruct three_reached as (m & o & RE & _). exists none, 9, three_keys, m, o. split; [exact RE|]. cbv zeta. cbn [move_of snd].
  repeat split; try reflexivity. intros o3 al. unfold copy_assign, clear. cbn [cnt hdr Nat.eqb obind]. unfold copy_into. destruct (cnt o3) as [|n] eqn:Q; [auto|]. left. cbn [Nat.eqb negb]. destruct (get m (hdr o3)) as [hd|]; [|reflexivity]. cbn [obind].
  destruct (copy_from _ _ _ _ _) as [[[m2 al2] t]|]; [|reflexivity]. reflexivity.
Qed.
(** the destructor (rb_tree.h:770: only clear) keeps the header node: it is leaked *)
Theorem C80_destructor_leak_refuted : exists (m0 : @memory (Z * Z)) h m o m' o', m0 h = None /\ init m0 h = Some (m, o) /\ clear m o = Some (m', o') /\ m' h <> None.
Proof. exists none, 9, (put none 9 (mkNd 0 9 9 (Some false) None)), (mkObj 9 0), (put none 9 (mkNd 0 9 9 (Some false) None)), (mkObj 9 0). split; [reflexivity|]. split; [reflexivity|]. split; [reflexivity|]. vm_compute. discriminate. Qed.
Print Assumptions C80_map_history.
Print Assumptions C80_insert_result.
Print Assumptions C80_erase_result.
Print Assumptions C80_existing_iterator_refuted.
Print Assumptions C81_multi_history.
Print Assumptions C81_insert_last.
Print Assumptions C82_lookup.
Print Assumptions C82_map_lookup.
Print Assumptions C82_index.
Print Assumptions C82_at_absent_refuted.
Print Assumptions C83_rounds.
Print Assumptions C84_copy.
Print Assumptions C84_moved_from_refuted.
