(** C129: vector when the constructor of an element throws. *)
From Coq Require Import List Arith Bool Lia Permutation.
From Verif Require Import F64 VecModel VecSpec VecProof ExModel ExProof ExProps.
Import ListNotations.

Section Vec.
Variable A : Type.
Variables mv selfmv : A -> A.
Variable thr : nat -> bool.
Notation heap := (heap A). Notation ref := (ref A).
Notation Obj := (Obj A). Notation Raw := (Raw A).
Notation mem := (mem A). Notation blk := (blk A). Notation next := (next A). Notation lost := (lost A).
Notation own := (own A false). Notation wfh := (wfh A).
Notation quiet := (quiet thr). Notation breaks := (breaks thr). Notation bare := (bare A). Notation stored := (stored A). Notation alike := (alike A).
Ltac bs := repeat first
    [ match goal with
      | |- context [inr ?x ?a ?n] => destruct (inr_spec x a n)
      | |- context [?a =? ?b] => destruct (Nat.eqb_spec a b)
      end; cbn [andb negb orb]; try lia ].

(** As long as no constructor throws, the functions are those of VecModel, to which C48, C49 and C65 apply. *)
Section Agree.
Hypothesis never : forall i, thr i = false.
Definition matches (o : out A vec) (o' : option (vec * heap)) : Prop :=
  match o' with Some (v, h) => exists c, o = Ret h c v | None => o = Ub end.
Lemma build_fill_agree a r n : forall i h c, build A (fun h c i => ctor_ref A thr h c (a + i) r) n i h c
  = match fill_loop A false true n h (a + i) r with Some h' => Ret h' (c + n) (i + n, false) | None => Ub end.
Proof.
  induction n as [|n IH]; intros i h c; cbn [build fill_loop]; [now rewrite !Nat.add_0_r|].
  unfold ctor_ref at 1, ctor. rewrite never. destruct (val A h r) as [x|]; cbn [obind]; [|reflexivity].
  destruct (con A false h (a + i) x) as [h1|]; cbn [obind lift]; [|reflexivity].
  rewrite IH. replace (a + S i) with (S (a + i)) by lia. replace (S c + n) with (c + S n) by lia. replace (S i + n) with (i + S n) by lia. reflexivity.
Qed.
Lemma build_from_agree mov src dst n : forall i h c, build A (fun h c i => ctor_from A mv selfmv thr mov h c (src + i) (dst + i)) n i h c
  = match loop_fwd A false mv selfmv true mov n h (src + i) (dst + i) with Some h' => Ret h' (c + n) (i + n, false) | None => Ub end.
Proof.
  induction n as [|n IH]; intros i h c; cbn [build loop_fwd]; [now rewrite !Nat.add_0_r|].
  unfold ctor_from at 1. rewrite never. destruct xfer as [h1|]; cbn [obind lift]; [|reflexivity].
  rewrite IH. replace (src + S i) with (S (src + i)) by lia. replace (dst + S i) with (S (dst + i)) by lia.
  replace (S c + n) with (c + S n) by lia. replace (S i + n) with (i + S n) by lia. reflexivity.
Qed.
Lemma fill_agree n r a h c : uninit_fill_n A thr n r a h c = match ufill_n A false n h a r with Some h' => Ret h' (c + n) (a + n) | None => Ub end.
Proof. unfold uninit_fill_n, ufill_n. rewrite build_fill_agree, Nat.add_0_r. cbn [negb]. destruct fill_loop; reflexivity. Qed.
Lemma copy_agree n src dst h c : uninit_copy A mv selfmv thr n src dst h c = match ucopy A false mv selfmv n h src dst with Some h' => Ret h' (c + n) (dst + n) | None => Ub end.
Proof. unfold uninit_copy, ucopy, forward. rewrite build_from_agree, !Nat.add_0_r. destruct loop_fwd; reflexivity. Qed.
Lemma move_agree n src dst h c : uninit_move A mv selfmv thr n src dst h c = match umove A false mv selfmv n h src dst with Some h' => Ret h' (c + n) (dst + n) | None => Ub end.
Proof. unfold uninit_move, umove, forward. rewrite build_from_agree, !Nat.add_0_r. destruct loop_fwd; reflexivity. Qed.

Theorem exv_agree_fill n r h c : matches (ex_fill_init A thr n r h c) (fill_init A false n r h).
Proof.
  unfold ex_fill_init, fill_init. destruct init_space as [v h1]. rewrite fill_agree. destruct ufill_n; cbn; [eexists|]; reflexivity.
Qed.
Theorem exv_agree_range first n h c : matches (ex_range_init A mv selfmv thr first n h c) (range_init A false mv selfmv first n h).
Proof.
  unfold ex_range_init, range_init. destruct init_space as [v h1]. rewrite copy_agree. destruct ucopy; cbn; [eexists|]; reflexivity.
Qed.
Theorem exv_agree_push r v h c : matches (ex_push_back A mv selfmv thr r v h c) (push_back A false mv selfmv r v h).
Proof.
  unfold ex_push_back, push_back. destruct (negb (ve v =? vc v)).
  - unfold ctor_ref, ctor. rewrite never. destruct (val A h r) as [x|]; cbn [obind bind]; [|reflexivity].
    destruct con; cbn; [eexists|]; reflexivity.
  - unfold ex_reallocate_end, reallocate_insert. destruct alloc as [p h1]. rewrite move_agree. fold (size v). destruct umove as [h2|]; cbn [obind bind]; [|reflexivity].
    unfold ctor_ref, ctor. rewrite never. destruct (val A h2 r) as [x|]; cbn [obind bind]; [|reflexivity].
    destruct con as [h3|]; cbn [obind bind lift]; [|reflexivity].
    rewrite Nat.sub_diag, move_agree. destruct umove as [h4|]; cbn [obind]; [|reflexivity].
    unfold matches, lift. destruct destroy_and_recover as [h5|]; cbn [obind]; [|reflexivity]. eexists. do 2 f_equal. lia.
Qed.
Theorem exv_agree_assign n r v h c : matches (ex_assign_fill A mv selfmv thr n r v h c) (assign_fill A false mv selfmv n r v h).
Proof.
  unfold ex_assign_fill, assign_fill. destruct (capacity v <? n); [|destruct (size v <? n)].
  - pose proof (exv_agree_fill n r h c) as E. unfold matches in E. destruct fill_init as [[t h1]|]; cbn [obind].
    + destruct E as [c' ->]. cbn [bind]. destruct destructor; cbn; [eexists|]; reflexivity.
    + rewrite E. reflexivity.
  - destruct fill_n as [h1|]; cbn [obind]; [|reflexivity]. rewrite fill_agree. destruct ufill_n; cbn; [eexists|]; reflexivity.
  - destruct fill_n as [h1|]; cbn [obind]; [|reflexivity]. destruct erase_range as [[w h2]|]; cbn; [eexists|]; reflexivity.
Qed.
End Agree.

(** vector(n, value): an exception in the k-th copy is swallowed; the vector claims n elements, none can be read, and its destructor
    destroys objects that do not exist. *)
Theorem exv_fill_throw h c n r x k : wfh h -> argok A h (mkV 0 0 0) r x -> k < n -> breaks c k ->
  exists v h', ex_fill_init A thr n r h c = Ret h' (c + k + 1) v /\ size v = n /\ (forall i, get A i v h' = None) /\ destructor A false v h' = None.
Proof.
  intros W AK Hk T. unfold ex_fill_init, init_space. destruct (alloc_ok A (Nat.max 16 n) h ltac:(lia)) as (h1 & E1 & _ & _ & _ & M1). rewrite E1. cbn [vb].
  destruct (exc_fill_throw A thr h1 c n r x (next h) k) as (h2 & E2 & _ & _ & _ & M2).
  - destruct r as [w|a]; cbn in *; [congruence|]. unfold rd. rewrite M1. bs. destruct AK as (_ & -> & _). reflexivity.
  - intros i Hi. rewrite M1. bs. reflexivity.
  - exact Hk.
  - exact T.
  - rewrite E2. cbn [bind]. eexists _, h2. split; [reflexivity|].
    assert (R : forall i, i < n -> mem h2 (next h + i) = Raw). { intros i Hi. rewrite M2, M1. bs. reflexivity. }
    assert (Sz : size (mkV (next h) (next h + n) (next h + Nat.max 16 n)) = n) by (unfold size; cbn; lia).
    split; [exact Sz|]. split.
    + intros i. unfold get. rewrite Sz. destruct (Nat.ltb_spec i n); [|reflexivity]. unfold rd. cbn [vb]. rewrite R by lia. reflexivity.
    + unfold destructor, destroy_and_recover. rewrite Sz. cbn [vb]. rewrite (des_range_raw A n h2 (next h) 0); [reflexivity|lia|apply R; lia].
Qed.
(** vector(first, last) and the copy constructor: undefined behaviour, or, for the first element, a vector as before. *)
Theorem exv_range_throw h c first xs k : wfh h -> stored h first xs -> first + length xs <= next h -> k < length xs -> breaks c k ->
  match k with
  | O => exists v h', ex_range_init A mv selfmv thr first (length xs) h c = Ret h' (c + 1) v /\ size v = length xs
          /\ (forall i, get A i v h' = None) /\ destructor A false v h' = None
  | S _ => ex_range_init A mv selfmv thr first (length xs) h c = Ub
  end.
Proof.
  intros W St F Hk T. unfold ex_range_init, init_space. destruct (alloc_ok A (Nat.max (length xs) 16) h ltac:(lia)) as (h1 & E1 & _ & _ & _ & M1). rewrite E1. cbn [vb].
  assert (S1 : stored h1 first xs).
  { intros i x N. assert (i < length xs) by (apply nth_error_Some; congruence). rewrite M1. bs. auto. }
  assert (R : forall i, i < length xs -> mem h1 (next h + i) = Raw). { intros i Hi. rewrite M1. bs. reflexivity. }
  rewrite (exc_copy_throw A mv selfmv thr h1 c first (next h) xs k S1 R Hk T).
  destruct k as [|k]; [|reflexivity]. cbn [bind].
  eexists _, h1. split; [reflexivity|].
  assert (Sz : size (mkV (next h) (next h + length xs) (next h + Nat.max (length xs) 16)) = length xs) by (unfold size; cbn; lia).
  split; [exact Sz|]. split.
  + intros i. unfold get. rewrite Sz. destruct (Nat.ltb_spec i (length xs)); [|reflexivity]. unfold rd. cbn [vb]. rewrite R by lia. reflexivity.
  + unfold destructor, destroy_and_recover. rewrite Sz. cbn [vb]. rewrite (des_range_raw A (length xs) h1 (next h) 0); [reflexivity|lia|apply R; lia].
Qed.

(** push_back with room: the exception reaches the caller and nothing has changed. *)
Theorem exv_push_room_throw h c v l r x : own h v l -> ve v < vc v -> argok A h v r x -> thr c = true ->
  ex_push_back A mv selfmv thr r v h c = Throw h (S c).
Proof.
  intros O Rm AK T. unfold ex_push_back. replace (ve v =? vc v) with false by (symmetry; apply Nat.eqb_neq; lia). cbn [negb].
  unfold ctor_ref. rewrite (argok_val A h v r x AK). unfold ctor. rewrite T.
  pose proof O as (E & C1 & C2 & _). pose proof (own_blank A false h v l (length l) O (le_n _) ltac:(lia)) as B. rewrite <- E in B. cbn in B. rewrite B. reflexivity.
Qed.

Lemma own_stored h v l : own h v l -> stored h (vb v) l.
Proof. intros O i x N. apply (own_nth A false h v l i x O N). Qed.
Lemma own_null_full h v l : own h v l -> capacity v = length l -> ve v = vc v.
Proof. unfold capacity. intros (E & C1 & _) C. lia. Qed.

(** push_back without room when copying the new value throws: the exception reaches the caller, but every element has been moved from,
    and the objects the elements were moved to are lost without being destroyed. *)
Lemma live_values_stored h p n xs : length xs <= n -> stored h p xs -> (forall i, length xs <= i -> i < n -> mem h (p + i) = Raw) -> live_values A h p n = xs.
Proof.
  intros L St R. unfold live_values.
  assert (G : forall m, m <= n -> flat_map (fun i => match mem h (p + i) with VecModel.Obj _ v => [v] | _ => [] end) (seq 0 m) = firstn m xs).
  { induction m as [|m IH]; intros Hm; [reflexivity|]. rewrite seq_S, flat_map_app, IH by lia. cbn [flat_map plus]. rewrite app_nil_r.
    destruct (nth_error xs m) as [x|] eqn:N.
    - rewrite (St m x N). clear - N. revert m N. induction xs as [|y xs IH]; intros [|m] N; cbn in *; try discriminate; [injection N as ->; reflexivity|]. f_equal. auto.
    - apply nth_error_None in N. rewrite R by lia. rewrite app_nil_r, !firstn_all2 by lia. reflexivity. }
  rewrite G by lia. apply firstn_all2. exact L.
Qed.
Theorem exv_push_full_throw h c v l r x : wfh h -> own h v l -> capacity v = length l -> argok A h v r x -> notbefore A false v (length l) r ->
  breaks c (length l) ->
  exists h', ex_push_back A mv selfmv thr r v h c = Throw h' (c + length l + 1) /\ own h' v (map mv l) /\ lost h' = l ++ lost h.
Proof.
  intros W O Cap AK NB [Q T]. pose proof (own_null_full h v l O Cap) as Full. pose proof O as (E & C1 & C2 & C3 & C4 & Sl).
  unfold ex_push_back. rewrite Full, Nat.eqb_refl. cbn [negb]. unfold ex_reallocate_end.
  assert (Gc : length l < get_new_cap 1 v). { rewrite new_cap, Cap. unfold grown. destruct (Nat.eqb_spec (length l) 0); lia. }
  set (n := get_new_cap 1 v) in *.
  destruct (alloc_ok A n h ltac:(lia)) as (h1 & E1 & N1 & L1 & B1 & M1). rewrite E1.
  assert (Sz : size v = length l) by (unfold size; lia). rewrite Sz.
  assert (S1 : stored h1 (vb v) l).
  { intros i y N. assert (i < length l) by (apply nth_error_Some; congruence). rewrite M1. bs. apply (own_stored h v l O); exact N. }
  assert (R1 : forall i, i < n -> mem h1 (next h + i) = Raw). { intros i Hi. rewrite M1. bs. reflexivity. }
  destruct (exc_move_done A mv selfmv thr h1 c (vb v) (next h) l S1 ltac:(intros i Hi; apply R1; lia) Q) as (h2 & E2 & _ & D2 & S2 & K1 & K2 & K3 & M2).
  rewrite E2. cbn [bind].
  assert (V2 : val A h2 r = Some x).
  { destruct r as [w|a]; cbn in *; [congruence|]. destruct AK as (Ha & Hm & _). destruct NB as [NB|NB]; [discriminate|]. unfold rd.
    rewrite M2, M1 by lia. bs. rewrite Hm. reflexivity. }
  unfold ctor_ref, ctor. rewrite V2. rewrite T. rewrite M2, R1 by lia. cbn [bind].
  assert (Bn : blk h2 (next h) = n) by (rewrite K1, B1, Nat.eqb_refl; reflexivity).
  unfold dealloc. destruct W as [W0 W1]. replace (next h =? 0) with false by (symmetry; apply Nat.eqb_neq; lia). rewrite Bn.
  replace (n =? 0) with false by (symmetry; apply Nat.eqb_neq; lia).
  eexists. split; [rewrite Nat.add_1_r; reflexivity|]. split.
  - unfold VecProof.own. cbn [VecModel.vb VecModel.ve VecModel.vc VecModel.blk VecModel.next VecModel.mem]. rewrite map_length, K1, K2, N1. unfold upd. rewrite B1. 
    assert (vb v <> next h \/ blk h (vb v) = 0) as Ne by lia.
    assert (Eb : (if vb v =? next h then 0 else if vb v =? next h then n else blk h (vb v)) = blk h (vb v)). { bs; lia. }
    rewrite Eb. refine (conj _ (conj _ (conj _ (conj _ (conj _ _))))); try lia; try tauto.
    intros i Hi. specialize (Sl i Hi). rewrite nth_error_map.
    replace ((next h <=? vb v + i) && (vb v + i <? next h + n)) with false by (symmetry; apply andb_false_iff; left; apply Nat.leb_gt; lia).
    destruct (nth_error l i) as [y|] eqn:Ny; cbn [option_map good] in *.
    + apply (S2 i). rewrite nth_error_map, Ny. reflexivity.
    + apply nth_error_None in Ny. rewrite M2, M1 by lia. bs. exact Sl.
  - cbn. rewrite (live_values_stored h2 (next h) n l); [congruence|lia|exact D2|]. intros i H1 H2. rewrite M2 by lia. apply R1; lia.
Qed.

(** push_back without room when moving the first element throws: no exception; of all elements only the new one is left. *)
Theorem exv_push_full_move_throw h c v l r x : wfh h -> own h v l -> capacity v = length l -> 0 < length l ->
  argok A h v r x -> thr c = true -> thr (S c) = false ->
  exists v' h', ex_push_back A mv selfmv thr r v h c = Ret h' (c + 2) v' /\ own h' v' [x] /\ lost h' = lost h.
Proof.
  intros W O Cap Pos AK T T'. pose proof (own_null_full h v l O Cap) as Full. pose proof O as (E & C1 & C2 & C3 & C4 & Sl).
  unfold ex_push_back. rewrite Full, Nat.eqb_refl. cbn [negb]. unfold ex_reallocate_end.
  assert (Gc : length l < get_new_cap 1 v). { rewrite new_cap, Cap. unfold grown. destruct (Nat.eqb_spec (length l) 0); lia. }
  set (n := get_new_cap 1 v) in *.
  destruct (alloc_ok A n h ltac:(lia)) as (h1 & E1 & N1 & L1 & B1 & M1). rewrite E1.
  assert (Sz : size v = length l) by (unfold size; lia). rewrite Sz.
  assert (S1 : stored h1 (vb v) l).
  { intros i y N. assert (i < length l) by (apply nth_error_Some; congruence). rewrite M1. bs. apply (own_stored h v l O); exact N. }
  assert (R1 : forall i, i < n -> mem h1 (next h + i) = Raw). { intros i Hi. rewrite M1. bs. reflexivity. }
  destruct (exc_move_throw A mv selfmv thr h1 c (vb v) (next h) l 0 S1 ltac:(intros i Hi; apply R1; lia) Pos) as (h2 & E2 & D2 & S2 & K1 & K2 & K3 & M2).
  { split; [intros j Hj; lia|]. rewrite Nat.add_0_r. exact T. }
  rewrite E2. cbn [bind]. rewrite !Nat.add_0_r in *. replace (c + 1) with (S c) by lia.
  assert (V2 : val A h2 r = Some x).
  { destruct r as [w|a]; cbn in *; [congruence|]. destruct AK as (Ha & Hm & _). unfold rd. rewrite M2, M1 by lia. bs. rewrite Hm. reflexivity. }
  unfold ctor_ref, ctor. rewrite V2, T'. unfold con. rewrite M2 by lia. specialize (R1 0) as R0. rewrite Nat.add_0_r in R0. rewrite R0 by lia. cbn [bind lift].
  unfold uninit_move. cbn [build bind]. rewrite Nat.add_0_r.
  set (h3 := put A h2 (next h) (Obj x)).
  assert (M3 : forall a, a < next h -> mem h3 a = mem h a). { intros a Ha. unfold h3, put. cbn. unfold upd. bs. rewrite M2, M1 by lia. bs. reflexivity. }
  unfold destroy_and_recover.
  destruct (des_undo A (length l) h3 (vb v)) as (h4 & E4 & (X1 & X2 & X3) & M4).
  { intros i Hi. rewrite M3 by lia. apply (own_live A false h v l i O Hi). }
  rewrite E4. cbn [obind].
  assert (B4 : forall q, blk h4 q = if q =? next h then n else blk h q). { intros q. rewrite X1. unfold h3. cbn. rewrite K1, B1. reflexivity. }
  destruct W as [W0 W1].
  assert (Vn : vb v <> 0). { intros Z. assert (blk h (vb v) = 0) by tauto. lia. }
  assert (Bv : blk h4 (vb v) = blk h (vb v)). { rewrite B4. bs; lia. }
  assert (Bz : blk h (vb v) <> 0) by (intros Z; apply Vn; tauto).
  unfold dealloc. rewrite Bv.
  replace (vb v =? 0) with false by (symmetry; apply Nat.eqb_neq; lia).
  replace (blk h (vb v) =? 0) with false by (symmetry; apply Nat.eqb_neq; lia). cbn [lift].
  eexists _, _. split; [f_equal; lia|]. split.
  - unfold VecProof.own. cbn [VecModel.vb VecModel.ve VecModel.vc VecModel.blk VecModel.next VecModel.mem length]. unfold upd.
    assert (Eb : (if next h =? vb v then 0 else blk h4 (next h)) = n). { rewrite B4, Nat.eqb_refl. bs; try lia; reflexivity. }
    rewrite Eb. assert (N4 : next h4 = next h + n) by (rewrite X2; unfold h3; cbn; congruence). rewrite N4.
    refine (conj _ (conj _ (conj _ (conj _ (conj _ _))))); try lia.
    intros i Hi. 
    replace ((vb v <=? next h + i) && (next h + i <? vb v + blk h (vb v))) with false by (symmetry; apply andb_false_iff; right; apply Nat.ltb_ge; lia).
    rewrite M4. bs. unfold h3, put. cbn. unfold upd. destruct i as [|i]; cbn [nth_error].
    + rewrite Nat.add_0_r, Nat.eqb_refl. reflexivity.
    + bs. rewrite ne_beyond by (cbn; lia). cbn. rewrite M2 by lia. apply R1; lia.
  - cbn [VecModel.lost]. rewrite (live_values_nil A h4).
    + cbn [app]. rewrite X3. unfold h3. cbn. congruence.
    + intros i Hi. rewrite M4. bs; try reflexivity. rewrite M3 by lia. apply (own_blank A false h v l i O); lia.
Qed.

(** assign(n, value) that grows a vector within its capacity: the exception is swallowed, the vector has k of the n - size new
    elements according to its size, none of which exists. *)
Theorem exv_assign_throw h c v l n x k : own h v l -> length l < n -> n <= capacity v -> k < n - length l -> breaks c k ->
  exists v' h', ex_assign_fill A mv selfmv thr n (Ext A x) v h c = Ret h' (c + k + 1) v' /\ size v' = length l + k /\ size v' < n
   /\ (forall i, i < length l -> get A i v' h' = Some x) /\ (forall i, length l <= i -> get A i v' h' = None)
   /\ (0 < k -> destructor A false v' h' = None).
Proof.
  intros O L1 L2 Hk T. pose proof O as (E & C1 & C2 & C3 & C4 & Sl). unfold ex_assign_fill.
  assert (Sz : size v = length l) by (unfold size; lia). rewrite Sz. unfold capacity in *.
  replace (vc v - vb v <? n) with false by (symmetry; apply Nat.ltb_ge; lia).
  replace (length l <? n) with true by (symmetry; apply Nat.ltb_lt; lia).
  destruct (fill_ok A false false (length l) x (Ext A x) h (vb v)) as (h1 & E1 & _ & _ & M1).
  { intros i Hi. apply live_wr. apply (own_live A false h v l i O Hi). }
  { reflexivity. }
  unfold fill_n. rewrite E1.
  destruct (exc_fill_throw A thr h1 c (n - length l) (Ext A x) x (ve v) k) as (h2 & E2 & _ & _ & _ & M2); [reflexivity| |exact Hk|exact T|].
  { intros i Hi. rewrite M1. bs. rewrite E. replace (vb v + length l + i) with (vb v + (length l + i)) by lia. apply (own_blank A false h v l (length l + i) O); lia. }
  rewrite E2. cbn [bind]. eexists _, h2. split; [reflexivity|].
  assert (Sv : size (mkV (vb v) (ve v + k) (vc v)) = length l + k) by (unfold size; cbn; lia).
  assert (Rk : forall i, length l <= i -> i < length l + k -> mem h2 (vb v + i) = Raw).
  { intros i H1 H2. rewrite M2, M1. bs. apply (own_blank A false h v l i O); lia. }
  split; [exact Sv|]. split; [lia|]. split; [|split].
  - intros i Hi. unfold get. rewrite Sv. destruct (Nat.ltb_spec i (length l + k)); [|lia]. unfold rd. cbn [vb]. rewrite M2, M1. bs. reflexivity.
  - intros i Hi. unfold get. rewrite Sv. destruct (Nat.ltb_spec i (length l + k)); [|reflexivity]. unfold rd. cbn [vb]. rewrite Rk by lia. reflexivity.
  - intros Kp. unfold destructor, destroy_and_recover. rewrite Sv. cbn [vb]. rewrite (des_range_raw A (length l + k) h2 (vb v) (length l)); [reflexivity|lia|apply Rk; lia].
Qed.
End Vec.

(** C129 fails: runs of the program.  The third copy throws; the sixteen elements are moved and the copy of the value throws; ... *)
Definition start_heap : heap nat := mkH nat (fun _ => Free nat) (fun _ => 0) 1 [].
Lemma start_wf : wfh nat start_heap. Proof. split; cbn; lia. Qed.
Theorem C129_dead_elements_refuted : exists (thr : nat -> bool) v h c, ex_fill_init nat thr 5 (Ext nat 7) start_heap 0 = Ret h c v
  /\ size v = 5 /\ get nat 0 v h = None /\ destructor nat false v h = None.
Proof. exists (once 2). do 3 eexists. split; [vm_compute; reflexivity|]. repeat split. Qed.
Theorem C129_strong_refuted : exists (thr : nat -> bool) v h c h' c', ex_fill_init nat thr 16 (Ext nat 7) start_heap 0 = Ret h c v
  /\ get nat 3 v h = Some 7 /\ ex_push_back nat S S thr (Ext nat 9) v h c = Throw h' c' /\ get nat 3 v h' = Some 8.
Proof. exists (once 32). do 5 eexists. split; [vm_compute; reflexivity|]. split; [reflexivity|]. split; [vm_compute; reflexivity|reflexivity]. Qed.
Theorem C129_elements_refuted : exists (thr : nat -> bool) v h c v' h' c', ex_fill_init nat thr 16 (Ext nat 7) start_heap 0 = Ret h c v
  /\ size v = 16 /\ ex_push_back nat S S thr (Ext nat 9) v h c = Ret h' c' v' /\ size v' = 1 /\ get nat 0 v' h' = Some 9.
Proof. exists (once 16). do 6 eexists. split; [vm_compute; reflexivity|]. split; [reflexivity|]. split; [vm_compute; reflexivity|]. split; reflexivity. Qed.
(** the hypotheses can be met: a vector of 16 elements in a memory *)
Example exv_ex : exists v h c, ex_fill_init nat (once 99) 16 (Ext nat 7) start_heap 0 = Ret h c v /\ wfh nat h /\ own nat false h v (repeat 7 16) /\ capacity v = 16
  /\ argok nat h v (Ext nat 9) 9 /\ breaks (once 20) 4 16.
Proof.
  do 3 eexists. split; [vm_compute; reflexivity|]. split; [split; cbn; lia|]. split.
  - unfold own. cbn. repeat split; try lia. intros i Hi. do 16 (destruct i as [|i]; [reflexivity|]). lia.
  - split; [reflexivity|]. split; [reflexivity|]. split; [|reflexivity]. intros j Hj. unfold once. apply Nat.eqb_neq. lia.
Qed.

Print Assumptions exv_agree_assign.
Print Assumptions exv_agree_push.
Print Assumptions exv_fill_throw.
Print Assumptions exv_range_throw.
Print Assumptions exv_push_room_throw.
Print Assumptions exv_push_full_throw.
Print Assumptions exv_push_full_move_throw.
Print Assumptions exv_assign_throw.
