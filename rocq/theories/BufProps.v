(** C130: temporary buffers.  C131: auto_ptr. *)
From Coq Require Import List Arith Bool Lia.
From Verif Require Import F64 VecModel VecSpec VecProof ExModel ExProof ExProps BufModel.
Import ListNotations.

Section Buf.
Variable A : Type.
Variables mal thr : nat -> bool.
Notation heap := (heap A).
Notation Raw := (Raw A).
Notation mem := (mem A). Notation blk := (blk A). Notation next := (next A). Notation lost := (lost A).
Ltac bs := repeat first
    [ match goal with
      | |- context [inr ?x ?a ?n] => destruct (inr_spec x a n)
      | |- context [?a =? ?b] => destruct (Nat.eqb_spec a b)
      end; cbn [andb negb orb]; try lia ].

(** The j-th attempt asks for [want / 2^j] elements, want being the wanted number cut to the limit; the first attempt that succeeds
    counts; there is none when the number has come down to 0. *)
Definition wanted (cap n : nat) : nat := Nat.min cap n.
Definition attempt (cap n j : nat) : nat := wanted cap n / 2 ^ j.
Definition succeeds (cap n j : nat) : Prop := 0 < attempt cap n j /\ mal j = true /\ forall i, i < j -> mal i = false.
Definition fails (cap n : nat) : Prop := forall j, 0 < attempt cap n j -> mal j = false.

Lemma wanted_if cap n : (if cap <? n then cap else n) = wanted cap n.
Proof. unfold wanted. destruct (Nat.ltb_spec cap n); lia. Qed.
Lemma loop_spec cap n (h : heap) : forall fuel t b, attempt cap n t <= fuel -> (forall i, i < t -> mal i = false) ->
  (exists j, t <= j /\ succeeds cap n j /\ alloc_loop A mal fuel (attempt cap n t) t b h = (Addr (next h), attempt cap n j, snd (alloc A (attempt cap n j) h)))
  \/ (fails cap n /\ alloc_loop A mal fuel (attempt cap n t) t b h = (if attempt cap n t =? 0 then b else Null, 0, h)).
Proof.
  induction fuel as [|fuel IH]; intros t b F Pre; cbn [alloc_loop].
  - right. assert (Z : attempt cap n t = 0) by lia. rewrite Z. cbn. split; [|reflexivity].
    intros j Hj. apply Pre. destruct (Nat.lt_ge_cases j t) as [C|C]; [exact C|]. exfalso.
    assert (attempt cap n j <= attempt cap n t); [|lia]. unfold attempt. apply Nat.div_le_compat_l.
    split; [pose proof (Nat.pow_nonzero 2 t ltac:(lia)); lia|apply Nat.pow_le_mono_r; lia].
  - destruct (Nat.eqb_spec (attempt cap n t) 0) as [Z|P].
    + right. rewrite Z. split; [|reflexivity].
      intros j Hj. apply Pre. destruct (Nat.lt_ge_cases j t) as [C|C]; [exact C|]. exfalso.
      assert (attempt cap n j <= attempt cap n t); [|lia]. unfold attempt. apply Nat.div_le_compat_l.
      split; [pose proof (Nat.pow_nonzero 2 t ltac:(lia)); lia|apply Nat.pow_le_mono_r; lia].
    + destruct (mal t) eqn:M.
      * left. exists t. split; [lia|]. split; [split; [lia|auto]|]. unfold alloc. destruct (Nat.eqb_spec (attempt cap n t) 0); [lia|reflexivity].
      * assert (H2 : attempt cap n t / 2 = attempt cap n (S t)).
        { unfold attempt. rewrite Nat.div_div by (try apply Nat.pow_nonzero; lia). f_equal. cbn. lia. }
        rewrite H2. destruct (IH (S t) Null) as [(j & J1 & J2 & J3)|[J1 J2]].
        -- rewrite <- H2. pose proof (Nat.div_lt (attempt cap n t) 2 ltac:(lia) ltac:(lia)). lia.
        -- intros i Hi. destruct (Nat.eq_dec i t) as [->|]; [exact M|apply Pre; lia].
        -- left. exists j. split; [lia|]. split; [exact J2|exact J3].
        -- right. split; [exact J1|]. rewrite J2. destruct (attempt cap n (S t) =? 0); reflexivity.
Qed.
Lemma attempt0 cap n : attempt cap n 0 = wanted cap n.
Proof. unfold attempt. cbn [Nat.pow]. apply Nat.div_1_r. Qed.

(** get_temporary_buffer: a buffer of the first attempt that succeeds, or the null pointer and the length 0. *)
Theorem buffer_get cap n h :
  (exists j, succeeds cap n j /\ get_temporary_buffer A mal cap n h = (Addr (next h), attempt cap n j, snd (alloc A (attempt cap n j) h)))
  \/ (fails cap n /\ get_temporary_buffer A mal cap n h = (Null, 0, h)).
Proof.
  unfold get_temporary_buffer. rewrite wanted_if, <- attempt0.
  destruct (loop_spec cap n h (attempt cap n 0) 0 Null (le_n _) ltac:(lia)) as [(j & _ & J & E)|[J E]].
  - left. exists j. split; [exact J|]. rewrite E. reflexivity.
  - right. split; [exact J|]. rewrite E. destruct (_ =? 0); reflexivity.
Qed.
(** the number of elements in the buffer is at most the wanted one and at most the limit *)
Theorem buffer_fits cap n j : attempt cap n j <= n /\ attempt cap n j <= cap.
Proof.
  assert (attempt cap n j <= wanted cap n). { unfold attempt. apply Nat.div_le_upper_bound; [apply Nat.pow_nonzero; lia|]. pose proof (Nat.pow_nonzero 2 j ltac:(lia)). nia. }
  unfold wanted in *. lia.
Qed.

(** temporary_buffer for a range that is not empty, when no copy throws: it holds copies of the first element, and its destructor
    gives everything back. *)
Theorem buffer_life cap first n h c x : wfh A h -> 0 < wanted cap n -> first < next h -> rd A h first = Some x -> (forall i, thr i = false) ->
  exists b h1 c1, tb_new A mal thr cap first n h c = Ret h1 c1 b /\ t_original b = n
   /\ match t_buffer b with
      | Wild => False
      | Null => t_len b = 0 /\ fails cap n
      | Addr p => (exists j, succeeds cap n j /\ t_len b = attempt cap n j) /\ stored A h1 p (repeat x (t_len b))
      end
   /\ exists h2, tb_delete A b h1 = Some h2 /\ lost h2 = lost h /\ (forall p, p < next h -> blk h2 p = blk h p /\ mem h2 p = mem h p)
      /\ (forall p, next h <= p -> blk h p = 0 -> blk h2 p = 0).
Proof.
  intros [W0 W1] P F R T. unfold tb_new, allocate_buffer. rewrite wanted_if, <- attempt0.
  destruct (loop_spec cap n h (attempt cap n 0) 0 Wild (le_n _) ltac:(lia)) as [(j & _ & J & E)|[J E]].
  - rewrite E. cbn [t_len t_buffer t_original]. destruct J as (J1 & J2). set (m := attempt cap n j) in *.
    replace (0 <? m) with true by (symmetry; apply Nat.ltb_lt; exact J1).
    destruct (alloc_ok A m h J1) as (h1 & E1 & N1 & L1 & B1 & M1). rewrite E1. cbn [snd].
    destruct (exc_fill_done A thr h1 c m (At A first) x (next h)) as (h2 & E2 & S2 & O1 & O2 & O3 & O4).
    + cbn. unfold rd in *. rewrite M1. bs. exact R.
    + intros i Hi. rewrite M1. bs. reflexivity.
    + intros i _. apply T.
    + rewrite E2. eexists _, h2, _. split; [reflexivity|]. cbn [t_len t_buffer t_original]. split; [reflexivity|]. split.
      { split; [|exact S2]. exists j. split; [split; [exact J1|exact J2]|reflexivity]. }
      unfold tb_delete. cbn [t_len t_buffer free].
      destruct (des_undo A m h2 (next h)) as (h3 & E3 & (D1 & D2 & D3) & M3).
      { intros i Hi. exists x. apply S2. rewrite ne_repeat. destruct (Nat.ltb_spec i m); [reflexivity|lia]. }
      rewrite E3.
      assert (Bm : blk h3 (next h) = m) by (rewrite D1, O1, B1, Nat.eqb_refl; reflexivity).
      destruct (dealloc_ok A false (next h) h3) as (h4 & E4 & N4 & L4 & B4 & M4); [lia|lia|].
      exists h4. split; [exact E4|]. split.
      { rewrite L4; [congruence|]. intros i Hi. rewrite Bm in Hi. cbn. rewrite M3. bs. reflexivity. }
      split.
      * intros p Hp. rewrite B4, M4, Bm, D1, O1, B1, M3. bs. split; [reflexivity|]. rewrite O4, M1 by lia. bs. reflexivity.
      * intros p Hp Z. rewrite B4, D1, O1, B1. bs; auto.
  - rewrite E. cbn [t_len t_buffer t_original]. cbn [Nat.ltb Nat.leb]. rewrite attempt0. destruct (Nat.eqb_spec (wanted cap n) 0); [lia|].
    eexists _, h, c. split; [reflexivity|]. cbn [t_len t_buffer t_original]. split; [reflexivity|]. split; [auto|]. exists h. repeat split; auto.
Qed.

(** A temporary_buffer of an empty range: the pointer is never set, and the destructor frees it. *)
Theorem buffer_empty cap first h c : exists b h1 c1, tb_new A mal thr cap first 0 h c = Ret h1 c1 b /\ t_len b = 0 /\ t_buffer b = Wild /\ tb_delete A b h1 = None.
Proof.
  unfold tb_new, allocate_buffer. rewrite wanted_if. unfold wanted. rewrite Nat.min_0_r. cbn. eexists _, h, c. repeat split.
Qed.
(** When the copy of the first element throws, the buffer claims elements that do not exist, and its destructor destroys them. *)
Theorem buffer_throw cap first n h c x k j : wfh A h -> first < next h -> rd A h first = Some x -> succeeds cap n j ->
  k < attempt cap n j -> breaks thr c k ->
  exists b h1, tb_new A mal thr cap first n h c = Ret h1 (c + k + 1) b /\ t_len b = attempt cap n j /\ tb_delete A b h1 = None.
Proof.
  intros W F R Sj Hk T. unfold tb_new, allocate_buffer. rewrite wanted_if, <- attempt0.
  destruct (loop_spec cap n h (attempt cap n 0) 0 Wild (le_n _) ltac:(lia)) as [(j' & _ & J & E)|[J E]].
  - assert (j' = j). { destruct J as (A1 & A2 & A3), Sj as (B1 & B2 & B3). destruct (Nat.lt_trichotomy j j') as [C|[C|C]]; [rewrite A3 in B2 by exact C; discriminate|auto|rewrite B3 in A2 by exact C; discriminate]. }
    subst j'. rewrite E. cbn [t_len t_buffer t_original]. destruct J as (J1 & _). set (m := attempt cap n j) in *.
    replace (0 <? m) with true by (symmetry; apply Nat.ltb_lt; exact J1).
    destruct (alloc_ok A m h J1) as (h1 & E1 & N1 & L1 & B1 & M1). rewrite E1. cbn [snd].
    destruct (exc_fill_throw A thr h1 c m (At A first) x (next h) k) as (h2 & E2 & _ & _ & _ & M2); auto.
    + cbn. unfold rd in *. rewrite M1. bs. exact R.
    + intros i Hi. rewrite M1. bs. reflexivity.
    + rewrite E2. eexists _, h2. split; [reflexivity|]. cbn [t_len]. split; [reflexivity|]. unfold tb_delete. cbn [t_buffer t_len].
      rewrite (des_range_raw A m h2 (next h) 0); [reflexivity|lia|]. rewrite Nat.add_0_r, M2, M1. bs. reflexivity.
  - exfalso. destruct Sj as (B1 & B2 & _). rewrite (J j B1) in B2. discriminate.
Qed.
End Buf.

Theorem C130_empty_refuted : exists b h c, tb_new nat (fun _ => true) (fun _ => false) 1000 1 0 demo_heap 0 = Ret h c b /\ tb_delete nat b h = None.
Proof. do 3 eexists. split; [vm_compute; reflexivity|reflexivity]. Qed.
Theorem C130_throw_refuted : exists b h c, tb_new nat (fun _ => true) (once 1) 1000 1 3 demo_heap 0 = Ret h c b /\ t_len b = 3 /\ tb_delete nat b h = None.
Proof. do 3 eexists. split; [vm_compute; reflexivity|split; reflexivity]. Qed.
(** the first two calls of malloc fail: 1000 elements are wanted, 700 allowed, 175 given *)
Example buffer_ex : exists b h c, tb_new nat (fun i => 2 <=? i) (fun _ => false) 700 1 1000 demo_heap 0 = Ret h c b /\ t_len b = 175 /\ rd nat h 100 = Some 10
  /\ succeeds (fun i => 2 <=? i) 700 1000 2 /\ rd nat demo_heap 1 = Some 10 /\ 1 < next nat demo_heap.
Proof.
  do 3 eexists. split; [vm_compute; reflexivity|]. split; [reflexivity|]. split; [reflexivity|]. split.
  - split; [vm_compute; lia|]. split; [reflexivity|]. intros i Hi. destruct i as [|[|i]]; [reflexivity|reflexivity|lia].
  - split; [reflexivity|cbn; lia].
Qed.

(** C131.  Ownership as it is meant: every auto_ptr has at most one object; copying and assigning hand the object over; an object lives
    exactly as long as an auto_ptr, or the program after release(), has it. *)
Record owners := mkS { s_hold : nat -> option (option nat); s_fresh : nat; s_raw : list nat }.
Definition give (s : owners) (i : nat) (x : option (option nat)) : owners := mkS (wupd (s_hold s) i x) (s_fresh s) (s_raw s).
Definition sstep (o : aop) (s : owners) : option owners :=
  match o with
  | ANew i => match s_hold s i with Some _ => None | None => Some (mkS (wupd (s_hold s) i (Some (Some (s_fresh s)))) (S (s_fresh s)) (s_raw s)) end
  | ANull i => match s_hold s i with Some _ => None | None => Some (give s i (Some None)) end
  | AAdopt i p => match s_hold s i with Some _ => None | None =>
      if in_dec Nat.eq_dec p (s_raw s) then Some (mkS (wupd (s_hold s) i (Some (Some p))) (s_fresh s) (remove Nat.eq_dec p (s_raw s))) else None end
  | ACopy i j => match s_hold s i, s_hold s j with None, Some x => Some (give (give s j (Some None)) i (Some x)) | _, _ => None end
  | AAssign i j => match s_hold s i, s_hold s j with Some _, Some x => Some (give (give s j (Some None)) i (Some x)) | _, _ => None end
  | AAssignOther i j => if i =? j then None else
      match s_hold s i, s_hold s j with Some _, Some x => Some (give (give s j (Some None)) i (Some x)) | _, _ => None end
  | ARelease i => match s_hold s i with None => None | Some None => Some s
                  | Some (Some p) => Some (mkS (wupd (s_hold s) i (Some None)) (s_fresh s) (p :: s_raw s)) end
  | AResetNew i => match s_hold s i with None => None | Some _ => Some (mkS (wupd (s_hold s) i (Some (Some (s_fresh s)))) (S (s_fresh s)) (s_raw s)) end
  | AResetNull i => match s_hold s i with None => None | Some _ => Some (give s i (Some None)) end
  | AResetSame i => match s_hold s i with None => None | Some _ => Some s end
  | ADrop i => match s_hold s i with None => None | Some _ => Some (give s i None) end
  end.
Fixpoint srun (l : list aop) (s : owners) : option owners :=
  match l with [] => Some s | o :: l => match sstep o s with Some s => srun l s | None => None end end.
Definition owners0 : owners := mkS (fun _ => None) 1 [].
Definition owned (s : owners) (p : nat) : Prop := (exists i, s_hold s i = Some (Some p)) \/ In p (s_raw s).
(** nobody shares an object *)
Definition exclusive (s : owners) : Prop :=
  (forall i j p, s_hold s i = Some (Some p) -> s_hold s j = Some (Some p) -> i = j)
  /\ (forall i p, s_hold s i = Some (Some p) -> ~ In p (s_raw s)) /\ NoDup (s_raw s).
Definition pv (o : option nat) : nat := match o with None => 0 | Some p => p end.
Definition agree (s : owners) (w : world) : Prop :=
  (forall i, hold w i = option_map pv (s_hold s i)) /\ raw w = s_raw s /\ fresh w = s_fresh s /\ (forall p, alive w p = true <-> owned s p).

Definition bounded (s : owners) : Prop := forall p, owned s p -> 0 < p < s_fresh s.
Definition held (f : nat -> option (option nat)) (p : nat) : Prop := exists i, f i = Some (Some p).
Definition uniq (f : nat -> option (option nat)) : Prop := forall i j p, f i = Some (Some p) -> f j = Some (Some p) -> i = j.
Lemma wupd_same B (f : nat -> B) i x : wupd f i x i = x.
Proof. unfold wupd. now rewrite Nat.eqb_refl. Qed.
Lemma wupd_other B (f : nat -> B) i x j : j <> i -> wupd f i x j = f j.
Proof. unfold wupd. intros H. destruct (Nat.eqb_spec j i); congruence. Qed.
Lemma held_wupd f i x p : uniq f -> held (wupd f i x) p <-> x = Some (Some p) \/ (held f p /\ f i <> Some (Some p)).
Proof.
  intros U. split.
  - intros [k Hk]. destruct (Nat.eq_dec k i) as [Ek|N]; [left; subst k; rewrite wupd_same in Hk; exact Hk|]. rewrite wupd_other in Hk by exact N. right. split; [exists k; exact Hk|]. intros E. apply N. eapply U; eassumption.
  - intros [E|[[k Hk] N]]; [exists i; now rewrite wupd_same|]. exists k. rewrite wupd_other; [exact Hk|congruence].
Qed.
Lemma uniq_wupd f i x : uniq f -> (forall p, x = Some (Some p) -> held f p -> f i = Some (Some p)) -> uniq (wupd f i x).
Proof.
  intros U H a b p. unfold wupd. destruct (Nat.eqb_spec a i) as [->|Na], (Nat.eqb_spec b i) as [->|Nb]; intros E1 E2; auto.
  - specialize (H p E1 (ex_intro _ b E2)). exfalso. apply Nb. eapply U; eassumption.
  - specialize (H p E2 (ex_intro _ a E1)). exfalso. apply Na. eapply U; eassumption.
  - eapply U; eassumption.
Qed.

Definition Inv (s : owners) : Prop := 0 < s_fresh s /\ uniq (s_hold s) /\ (forall p, held (s_hold s) p -> ~ In p (s_raw s)) /\ NoDup (s_raw s) /\ bounded s.
Lemma Inv_exclusive s : Inv s -> exclusive s.
Proof. intros (_ & U & D & N & _). repeat split; auto. intros i p E. apply D. now exists i. Qed.

Lemma del_spec x w : (forall p, x = Some p -> p <> 0 /\ alive w p = true) ->
  exists w1, del (pv x) w = Some w1 /\ hold w1 = hold w /\ raw w1 = raw w /\ fresh w1 = fresh w
   /\ forall p, alive w1 p = true <-> alive w p = true /\ x <> Some p.
Proof.
  intros H. unfold del. destruct x as [q|]; cbn [pv].
  - destruct (H q eq_refl) as [Nz Al]. destruct (Nat.eqb_spec q 0); [lia|]. rewrite Al. eexists; split; [reflexivity|]. cbn. repeat (split; [reflexivity|]).
    intros p. unfold wupd. destruct (Nat.eqb_spec p q) as [->|]; split; try congruence; try (intros [? ?]; congruence). intros E; split; congruence.
  - cbn. eexists; split; [reflexivity|]. repeat (split; [reflexivity|]). intros p; split; [intros E; split; congruence|tauto].
Qed.

(** a state that gives auto_ptr i the object x *)
Lemma agree_give s w i x : agree s w -> forall w', hold w' = wupd (hold w) i (option_map pv x) -> raw w' = raw w -> fresh w' = fresh w ->
  (forall p, alive w' p = true <-> owned (give s i x) p) -> agree (give s i x) w'.
Proof.
  intros (A1 & A2 & A3 & A4) w' H1 H2 H3 H4. split; [|split; [cbn; congruence|split; [cbn; congruence|exact H4]]].
  intros k. rewrite H1. cbn. unfold wupd. destruct (k =? i); auto.
Qed.

Lemma step_ok o s w s' : Inv s -> agree s w -> sstep o s = Some s' -> exists w', astep o w = Some w' /\ agree s' w' /\ Inv s'.
Proof.
  intros IV AG E. pose proof IV as (F & U & D & N & B). pose proof AG as (A1 & A2 & A3 & A4).
  assert (Ofresh : ~ held (s_hold s) (s_fresh s)). { intros H. specialize (B _ (or_introl H)). lia. }
  assert (Rfresh : ~ In (s_fresh s) (s_raw s)). { intros H. specialize (B _ (or_intror H)). lia. }
  assert (Hal : forall i x, s_hold s i = Some x -> forall p, x = Some p -> p <> 0 /\ alive w p = true).
  { intros i x Hx p ->. split; [|apply A4; left; now exists i]. specialize (B p (or_introl (ex_intro _ i Hx))). lia. }
  assert (Hst : forall f fr rw, 0 < fr -> uniq f -> (forall p, held f p -> ~ In p rw) -> NoDup rw -> (forall p, held f p \/ In p rw -> 0 < p < fr) -> Inv (mkS f fr rw)).
  { intros f fr rw H1 H2 H3 H4 H5. repeat split; cbn; auto; destruct (H5 p); auto. }
  destruct o as [i|i|i p|i j|i j|i j|i|i|i|i|i]; cbn [sstep astep] in *.
  - (* new *)
    rewrite A1. destruct (s_hold s i) eqn:Hi; [discriminate|]. injection E as <-. cbn [option_map]. unfold newT. eexists. split; [reflexivity|].
    assert (HW : forall p, held (wupd (s_hold s) i (Some (Some (s_fresh s)))) p <-> p = s_fresh s \/ held (s_hold s) p).
    { intros p. rewrite held_wupd by exact U. rewrite Hi. split; [intros [X|[X _]]; [left; congruence|auto]|intros [->|X]; [auto|right; split; [exact X|discriminate]]]. }
    split.
    + refine (conj _ (conj _ (conj _ _))); cbn; auto; try congruence.
      * intros k. unfold wupd. destruct (k =? i); [cbn; congruence|apply A1].
      * intros p. rewrite A3. unfold wupd at 1. unfold owned. cbn. fold (held (wupd (s_hold s) i (Some (Some (s_fresh s)))) p). rewrite HW.
        destruct (Nat.eqb_spec p (s_fresh s)) as [->|Ne]; [tauto|]. rewrite A4. unfold owned, held. tauto.
    + apply Hst; try lia; auto.
      * apply uniq_wupd; [exact U|]. intros p Ep Hp. injection Ep as <-. contradiction.
      * intros p. rewrite HW. intros [->|X]; auto.
      * intros p. rewrite HW. intros [[->|X]|X]; [lia| |]; [specialize (B p (or_introl X))|specialize (B p (or_intror X))]; lia.
  - (* null *)
    rewrite A1. destruct (s_hold s i) eqn:Hi; [discriminate|]. injection E as <-. cbn [option_map]. eexists. split; [reflexivity|].
    assert (HW : forall p, held (wupd (s_hold s) i (Some None)) p <-> held (s_hold s) p).
    { intros p. rewrite held_wupd by exact U. rewrite Hi. split; [intros [X|[X _]]; [discriminate|auto]|intros X; right; split; [exact X|discriminate]]. }
    split.
    + apply (agree_give s w); auto. intros p. cbn. rewrite A4. unfold owned. cbn. fold (held (s_hold s) p) (held (wupd (s_hold s) i (Some None)) p). rewrite HW. tauto.
    + apply Hst; auto.
      * apply uniq_wupd; [exact U|discriminate].
      * intros p. rewrite HW. auto.
      * intros p. rewrite HW. exact (B p).
  - (* adopt *)
    rewrite A1. destruct (s_hold s i) eqn:Hi; [discriminate|]. destruct (in_dec Nat.eq_dec p (s_raw s)) as [Hin|]; [|discriminate]. injection E as <-. cbn [option_map].
    replace (existsb (Nat.eqb p) (raw w)) with true by (symmetry; apply existsb_exists; exists p; rewrite A2, Nat.eqb_refl; auto).
    eexists. split; [reflexivity|].
    assert (RF : forall l, filter (fun q => negb (q =? p)) l = remove Nat.eq_dec p l).
    { induction l as [|q l IH]; [reflexivity|]. cbn. destruct (Nat.eqb_spec q p), (Nat.eq_dec p q); cbn; congruence. }
    assert (HW : forall q, held (wupd (s_hold s) i (Some (Some p))) q <-> q = p \/ held (s_hold s) q).
    { intros q. rewrite held_wupd by exact U. rewrite Hi. split; [intros [X|[X _]]; [left; congruence|auto]|intros [->|X]; [auto|right; split; [exact X|discriminate]]]. }
    assert (RM : forall q, In q (remove Nat.eq_dec p (s_raw s)) <-> In q (s_raw s) /\ q <> p).
    { intros q. split; [apply in_remove|intros [X Y]; apply in_in_remove; auto]. }
    split.
    + refine (conj _ (conj _ (conj _ _))); cbn; auto; try congruence.
      * intros k. unfold wupd. destruct (k =? i); [reflexivity|apply A1].
      * intros q. rewrite A4. unfold owned. cbn. fold (held (s_hold s) q) (held (wupd (s_hold s) i (Some (Some p))) q). rewrite HW, RM.
        destruct (Nat.eq_dec q p) as [->|]; tauto.
    + apply Hst; auto.
      * apply uniq_wupd; [exact U|]. intros q Eq Hq. injection Eq as <-. destruct (D p Hq Hin).
      * intros q. rewrite HW, RM. intros [->|X]; [tauto|]. intros [Y _]. apply (D q X Y).
      * clear - N. induction N as [|q l Hq N IH]; [constructor|]. cbn. destruct (Nat.eq_dec p q); [exact IH|]. constructor; [|exact IH]. intros X. apply in_remove in X. tauto.
      * intros q. rewrite HW, RM. intros [[->|X]|[X _]]; [apply B; right; auto|apply B; left; exact X|apply B; right; exact X].
  - (* copy *)
    rewrite A1. destruct (s_hold s i) eqn:Hi; [discriminate|]. destruct (s_hold s j) as [x|] eqn:Hj; [|discriminate]. injection E as <-. cbn [option_map].
    unfold release. rewrite A1, Hj. cbn [option_map]. eexists. split; [reflexivity|].
    set (f1 := wupd (s_hold s) j (Some None)).
    assert (Ij : i <> j) by congruence.
    assert (U1 : uniq f1) by (apply uniq_wupd; [exact U|discriminate]).
    assert (H1 : forall p, held f1 p <-> held (s_hold s) p /\ x <> Some p).
    { intros p. unfold f1. rewrite held_wupd by exact U. rewrite Hj. split; [intros [X|[X Y]]; [discriminate|split; congruence]|intros [X Y]; right; split; congruence]. }
    assert (F1 : f1 i = None) by (unfold f1; rewrite wupd_other; auto).
    assert (HW : forall p, held (wupd f1 i (Some x)) p <-> held (s_hold s) p).
    { intros p. rewrite held_wupd by exact U1. rewrite H1, F1. destruct x as [q|].
      - destruct (Nat.eq_dec q p) as [->|Ne].
        + split; [intros _; now exists j|auto].
        + split; [intros [X|[[X _] _]]; [congruence|auto]|intros X; right; split; [split; [exact X|congruence]|discriminate]].
      - split; [intros [X|[[X _] _]]; [discriminate|auto]|intros X; right; split; [split; [exact X|discriminate]|discriminate]]. }
    split.
    + refine (conj _ (conj _ (conj _ _))); cbn; auto.
      * intros k. unfold wupd. destruct (k =? i); [reflexivity|]. destruct (k =? j); [reflexivity|apply A1].
      * intros p. rewrite A4. unfold owned. cbn. fold f1. fold (held (s_hold s) p) (held (wupd f1 i (Some x)) p). rewrite HW. tauto.
    + unfold give; cbn [s_hold s_fresh s_raw]; fold f1. apply Hst; auto.
      * apply uniq_wupd; [exact U1|]. intros p Ep Hp. apply H1 in Hp. destruct Hp as [_ Hp]. injection Ep as ->. congruence.
      * intros p. rewrite HW. auto.
      * intros p. rewrite HW. exact (B p).
  - (* assignment *)
    unfold assign. rewrite !A1. destruct (s_hold s i) as [y|] eqn:Hi; [|discriminate]. destruct (s_hold s j) as [x|] eqn:Hj; [|discriminate]. injection E as <-. cbn [option_map].
    destruct (Nat.eqb_spec i j) as [->|Ij].
    + exists w. split; [reflexivity|]. assert (x = y) by congruence. subst y.
      assert (EQ : forall k, wupd (wupd (s_hold s) j (Some None)) j (Some x) k = s_hold s k).
      { intros k. unfold wupd. destruct (Nat.eqb_spec k j); congruence. }
      assert (HW : forall p, held (wupd (wupd (s_hold s) j (Some None)) j (Some x)) p <-> held (s_hold s) p).
      { intros p. unfold held. split; intros [k Hk]; exists k; [rewrite <- EQ|rewrite EQ]; exact Hk. }
      split.
      * refine (conj _ (conj _ (conj _ _))); cbn; auto.
        -- intros k. rewrite EQ. apply A1.
        -- intros p. rewrite A4. unfold owned. cbn. fold (held (s_hold s) p) (held (wupd (wupd (s_hold s) j (Some None)) j (Some x)) p). rewrite HW. tauto.
      * unfold give; cbn [s_hold s_fresh s_raw]. apply Hst; auto.
        -- intros a b p. rewrite !EQ. apply U.
        -- intros p. rewrite HW. auto.
        -- intros p. rewrite HW. exact (B p).
    + destruct (del_spec y w (Hal i y Hi)) as (w1 & E1 & W1 & W2 & W3 & W4). rewrite E1. unfold release. rewrite W1, A1, Hj. cbn [option_map]. eexists. split; [reflexivity|].
      set (f1 := wupd (s_hold s) j (Some None)).
      assert (U1 : uniq f1) by (apply uniq_wupd; [exact U|discriminate]).
      assert (H1 : forall p, held f1 p <-> held (s_hold s) p /\ x <> Some p).
      { intros p. unfold f1. rewrite held_wupd by exact U. rewrite Hj. split; [intros [X|[X Y]]; [discriminate|split; congruence]|intros [X Y]; right; split; congruence]. }
      assert (F1 : f1 i = Some y) by (unfold f1; rewrite wupd_other; auto).
      assert (HW : forall p, held (wupd f1 i (Some x)) p <-> held (s_hold s) p /\ y <> Some p).
      { intros p. rewrite held_wupd by exact U1. rewrite H1, F1. split.
        - intros [X|[[X Y] Z]].
          + injection X as ->. split; [now exists j|]. intros ->. apply Ij. eapply U; eassumption.
          + split; [exact X|congruence].
        - intros [X Y]. destruct x as [q|]; [destruct (Nat.eq_dec q p) as [->|Ne]; [auto|]|]; right; (split; [split; [exact X|congruence]|congruence]). }
      split.
      * refine (conj _ (conj _ (conj _ _))); cbn; try congruence.
        -- intros k. unfold wupd. rewrite W1. destruct (k =? i); [reflexivity|]. destruct (k =? j); [reflexivity|apply A1].
        -- intros p. rewrite W4, A4. unfold owned. cbn. fold f1. fold (held (s_hold s) p) (held (wupd f1 i (Some x)) p). rewrite HW.
           split; [intros [[X|X] Y]; auto|]. intros [[X Y]|X]; [auto|]. split; [auto|]. intros ->. apply (D p); [now exists i|exact X].
      * unfold give; cbn [s_hold s_fresh s_raw]; fold f1. apply Hst; auto.
        -- apply uniq_wupd; [exact U1|]. intros p Ep Hp. apply H1 in Hp. destruct Hp as [_ Hp]. injection Ep as ->. congruence.
        -- intros p. rewrite HW. intros [X _]. auto.
        -- intros p. rewrite HW. intros [[X _]|X]; apply B; [left|right]; exact X.
  - (* assignment from another type *)
    destruct (Nat.eqb_spec i j) as [->|Ij]; [discriminate|].
    unfold assign_other. rewrite !A1. destruct (s_hold s i) as [y|] eqn:Hi; [|discriminate]. destruct (s_hold s j) as [x|] eqn:Hj; [|discriminate]. injection E as <-. cbn [option_map].
    destruct (Nat.eqb_spec (pv y) (pv x)) as [Pe|Pe].
    + exists w. split; [reflexivity|].
      assert (x = None /\ y = None) as [-> ->].
      { destruct x as [p|], y as [q|]; cbn in Pe; auto.
        - subst q. exfalso. apply Ij. eapply U; eassumption.
        - destruct (Hal j _ Hj p eq_refl). congruence.
        - destruct (Hal i _ Hi q eq_refl). congruence. }
      assert (EQ : forall k, wupd (wupd (s_hold s) j (Some None)) i (Some None) k = s_hold s k).
      { intros k. unfold wupd. destruct (Nat.eqb_spec k i); [congruence|]. destruct (Nat.eqb_spec k j); congruence. }
      assert (HW : forall p, held (wupd (wupd (s_hold s) j (Some None)) i (Some None)) p <-> held (s_hold s) p).
      { intros p. unfold held. split; intros [k Hk]; exists k; [rewrite <- EQ|rewrite EQ]; exact Hk. }
      split.
      * refine (conj _ (conj _ (conj _ _))); cbn; auto.
        -- intros k. rewrite EQ. apply A1.
        -- intros p. rewrite A4. unfold owned. cbn. fold (held (s_hold s) p) (held (wupd (wupd (s_hold s) j (Some None)) i (Some None)) p). rewrite HW. tauto.
      * unfold give; cbn [s_hold s_fresh s_raw]. apply Hst; auto.
        -- intros a b p. rewrite !EQ. apply U.
        -- intros p. rewrite HW. auto.
        -- intros p. rewrite HW. exact (B p).
    + destruct (del_spec y w (Hal i y Hi)) as (w1 & E1 & W1 & W2 & W3 & W4). rewrite E1. unfold release. rewrite W1, A1, Hj. cbn [option_map]. eexists. split; [reflexivity|].
      set (f1 := wupd (s_hold s) j (Some None)).
      assert (U1 : uniq f1) by (apply uniq_wupd; [exact U|discriminate]).
      assert (H1 : forall p, held f1 p <-> held (s_hold s) p /\ x <> Some p).
      { intros p. unfold f1. rewrite held_wupd by exact U. rewrite Hj. split; [intros [X|[X Y]]; [discriminate|split; congruence]|intros [X Y]; right; split; congruence]. }
      assert (F1 : f1 i = Some y) by (unfold f1; rewrite wupd_other; auto).
      assert (HW : forall p, held (wupd f1 i (Some x)) p <-> held (s_hold s) p /\ y <> Some p).
      { intros p. rewrite held_wupd by exact U1. rewrite H1, F1. split.
        - intros [X|[[X Y] Z]].
          + injection X as ->. split; [now exists j|]. intros ->. apply Ij. eapply U; eassumption.
          + split; [exact X|congruence].
        - intros [X Y]. destruct x as [q|]; [destruct (Nat.eq_dec q p) as [->|Ne]; [auto|]|]; right; (split; [split; [exact X|congruence]|congruence]). }
      split.
      * refine (conj _ (conj _ (conj _ _))); cbn; try congruence.
        -- intros k. unfold wupd. rewrite W1. destruct (k =? i); [reflexivity|]. destruct (k =? j); [reflexivity|apply A1].
        -- intros p. rewrite W4, A4. unfold owned. cbn. fold f1. fold (held (s_hold s) p) (held (wupd f1 i (Some x)) p). rewrite HW.
           split; [intros [[X|X] Y]; auto|]. intros [[X Y]|X]; [auto|]. split; [auto|]. intros ->. apply (D p); [now exists i|exact X].
      * unfold give; cbn [s_hold s_fresh s_raw]; fold f1. apply Hst; auto.
        -- apply uniq_wupd; [exact U1|]. intros p Ep Hp. apply H1 in Hp. destruct Hp as [_ Hp]. injection Ep as ->. congruence.
        -- intros p. rewrite HW. intros [X _]. auto.
        -- intros p. rewrite HW. intros [[X _]|X]; apply B; [left|right]; exact X.
  - (* release *)
    unfold release. rewrite A1. destruct (s_hold s i) as [x|] eqn:Hi; [|discriminate]. cbn [option_map].
    destruct x as [p|]; injection E as <-; cbn [pv].
    + destruct (Hal i _ Hi p eq_refl) as [Pz _]. destruct (Nat.eqb_spec p 0); [lia|]. eexists. split; [reflexivity|].
      assert (HW : forall q, held (wupd (s_hold s) i (Some None)) q <-> held (s_hold s) q /\ q <> p).
      { intros q. rewrite held_wupd by exact U. rewrite Hi. split; [intros [X|[X Y]]; [discriminate|split; congruence]|intros [X Y]; right; split; congruence]. }
      assert (Hp : held (s_hold s) p) by now exists i.
      split.
      * refine (conj _ (conj _ (conj _ _))); cbn; auto; try congruence.
        -- intros k. unfold wupd. destruct (k =? i); [reflexivity|apply A1].
        -- intros q. rewrite A4. unfold owned. cbn. fold (held (s_hold s) q) (held (wupd (s_hold s) i (Some None)) q). rewrite HW.
           destruct (Nat.eq_dec p q) as [->|Ne]; [tauto|]. split; [intros [X|X]; auto|intros [[X _]|[X|X]]; auto; congruence].
      * apply Hst; auto.
        -- apply uniq_wupd; [exact U|discriminate].
        -- intros q. rewrite HW. intros [X Y] [Z|Z]; [congruence|apply (D q X Z)].
        -- constructor; [apply D; exact Hp|exact N].
        -- intros q. rewrite HW. intros [[X _]|[<-|X]]; apply B; [left; exact X|left; exact Hp|right; exact X].
    + cbn. eexists. split; [reflexivity|]. split; [|exact IV]. refine (conj _ (conj _ (conj _ _))); cbn; auto.
      intros k. unfold wupd. destruct (Nat.eqb_spec k i) as [->|]; [rewrite Hi; reflexivity|apply A1].
  - (* reset(new T) *)
    rewrite A1. destruct (s_hold s i) as [x|] eqn:Hi; [|discriminate]. injection E as <-. cbn [option_map]. unfold newT, reset. cbn [hold].
    rewrite A1, Hi. cbn [option_map]. rewrite A3.
    assert (Nf : pv x <> s_fresh s). { destruct x as [p|]; cbn; [|lia]. specialize (B p (or_introl (ex_intro _ i Hi))). lia. }
    destruct (Nat.eqb_spec (pv x) (s_fresh s)); [contradiction|]. cbn [negb].
    destruct (del_spec x (mkW (hold w) (wupd (alive w) (s_fresh s) true) (S (s_fresh s)) (raw w))) as (w1 & E1 & W1 & W2 & W3 & W4).
    { intros p Hp. destruct (Hal i x Hi p Hp) as [Z Al]. split; [exact Z|]. cbn. unfold wupd. rewrite Al. destruct (p =? s_fresh s); reflexivity. }
    rewrite E1. eexists. split; [reflexivity|].
    assert (HW : forall p, held (wupd (s_hold s) i (Some (Some (s_fresh s)))) p <-> p = s_fresh s \/ (held (s_hold s) p /\ x <> Some p)).
    { intros p. rewrite held_wupd by exact U. rewrite Hi. split; [intros [X|[X Y]]; [left; congruence|right; split; congruence]|intros [->|[X Y]]; [auto|right; split; congruence]]. }
    split.
    + cbn in W2, W3. refine (conj _ (conj _ (conj _ _))); cbn; try congruence.
      * intros k. rewrite W1. cbn. unfold wupd. destruct (k =? i); [reflexivity|apply A1].
      * intros p. rewrite W4. cbn. unfold wupd at 1. unfold owned. cbn. fold (held (wupd (s_hold s) i (Some (Some (s_fresh s)))) p). rewrite HW.
        destruct (Nat.eqb_spec p (s_fresh s)) as [->|Ne].
        -- split; [auto|]. intros _. split; [reflexivity|]. intros ->. cbn in Nf. congruence.
        -- rewrite A4. unfold owned. fold (held (s_hold s) p). split; [intros [[X|X] Y]; auto|]. intros [[X|[X Y]]|X]; [contradiction|auto|]. split; [auto|]. intros ->. apply (D p); [now exists i|exact X].
    + apply Hst; try lia; auto.
      * apply uniq_wupd; [exact U|]. intros p Ep Hp. injection Ep as <-. contradiction.
      * intros p. rewrite HW. intros [->|[X _]]; auto.
      * intros p. rewrite HW. intros [[->|[X _]]|X]; [lia| |]; [specialize (B p (or_introl X))|specialize (B p (or_intror X))]; lia.
  - (* reset() *)
    unfold reset. rewrite A1. destruct (s_hold s i) as [x|] eqn:Hi; [|discriminate]. injection E as <-. cbn [option_map].
    assert (HW : forall p, held (wupd (s_hold s) i (Some None)) p <-> held (s_hold s) p /\ x <> Some p).
    { intros p. rewrite held_wupd by exact U. rewrite Hi. split; [intros [X|[X Y]]; [discriminate|split; congruence]|intros [X Y]; right; split; congruence]. }
    assert (IV' : Inv (give s i (Some None))).
    { apply Hst; auto.
      - apply uniq_wupd; [exact U|discriminate].
      - intros p. rewrite HW. intros [X _]; auto.
      - intros p. rewrite HW. intros [[X _]|X]; apply B; [left|right]; exact X. }
    destruct (Nat.eqb_spec (pv x) 0) as [Z|Z]; cbn [negb].
    + exists w. split; [reflexivity|]. split; [|exact IV'].
      assert (x = None) as ->. { destruct x as [p|]; [|reflexivity]. destruct (Hal i _ Hi p eq_refl). cbn in Z. congruence. }
      refine (conj _ (conj _ (conj _ _))); cbn; auto.
      * intros k. unfold wupd. destruct (Nat.eqb_spec k i) as [->|]; [rewrite A1, Hi; reflexivity|apply A1].
      * intros p. rewrite A4. unfold owned. cbn. fold (held (s_hold s) p) (held (wupd (s_hold s) i (Some None)) p). rewrite HW. split; [intros [X|X]; [left; split; [exact X|discriminate]|auto]|tauto].
    + destruct (del_spec x w (Hal i x Hi)) as (w1 & E1 & W1 & W2 & W3 & W4). rewrite E1. eexists. split; [reflexivity|]. split; [|exact IV'].
      refine (conj _ (conj _ (conj _ _))); cbn; try congruence.
      * intros k. rewrite W1. unfold wupd. destruct (k =? i); [reflexivity|apply A1].
      * intros p. rewrite W4, A4. unfold owned. cbn. fold (held (s_hold s) p) (held (wupd (s_hold s) i (Some None)) p). rewrite HW.
        split; [intros [[X|X] Y]; auto|]. intros [[X Y]|X]; [auto|]. split; [auto|]. intros ->. apply (D p); [now exists i|exact X].
  - (* reset(get()) *)
    rewrite A1. destruct (s_hold s i) as [x|] eqn:Hi; [|discriminate]. injection E as <-. cbn [option_map]. unfold reset. rewrite A1, Hi. cbn [option_map].
    rewrite Nat.eqb_refl. cbn [negb]. exists w. auto.
  - (* destructor *)
    rewrite A1. destruct (s_hold s i) as [x|] eqn:Hi; [|discriminate]. injection E as <-. cbn [option_map].
    destruct (del_spec x w (Hal i x Hi)) as (w1 & E1 & W1 & W2 & W3 & W4). rewrite E1. eexists. split; [reflexivity|].
    assert (HW : forall p, held (wupd (s_hold s) i None) p <-> held (s_hold s) p /\ x <> Some p).
    { intros p. rewrite held_wupd by exact U. rewrite Hi. split; [intros [X|[X Y]]; [discriminate|split; congruence]|intros [X Y]; right; split; congruence]. }
    split.
    + refine (conj _ (conj _ (conj _ _))); cbn; try congruence.
      * intros k. rewrite W1. unfold wupd. destruct (k =? i); [reflexivity|apply A1].
      * intros p. rewrite W4, A4. unfold owned. cbn. fold (held (s_hold s) p) (held (wupd (s_hold s) i None) p). rewrite HW.
        split; [intros [[X|X] Y]; auto|]. intros [[X Y]|X]; [auto|]. split; [auto|]. intros ->. apply (D p); [now exists i|exact X].
    + apply Hst; auto.
      * apply uniq_wupd; [exact U|discriminate].
      * intros p. rewrite HW. intros [X _]; auto.
      * intros p. rewrite HW. intros [[X _]|X]; apply B; [left|right]; exact X.
Qed.
Lemma run_ok l : forall s w s', Inv s -> agree s w -> srun l s = Some s' -> exists w', arun l w = Some w' /\ agree s' w' /\ Inv s'.
Proof.
  induction l as [|o l IH]; intros s w s' IV AG E; cbn in *.
  - injection E as <-. exists w; auto.
  - destruct (sstep o s) as [s1|] eqn:E1; [|discriminate]. destruct (step_ok o s w s1 IV AG E1) as (w1 & E2 & A2 & I2). rewrite E2. eapply IH; eassumption.
Qed.
(** For every program: nothing is deleted twice, every auto_ptr has the object it should have, no object has two owners, and exactly
    the objects with an owner live. *)
Theorem auto_ptr_owns l s : srun l owners0 = Some s ->
  exists w, arun l world0 = Some w /\ exclusive s /\ (forall i, hold w i = option_map pv (s_hold s i)) /\ raw w = s_raw s /\ forall p, alive w p = true <-> owned s p.
Proof.
  intros E. destruct (run_ok l owners0 world0 s) as (w & E1 & (A1 & A2 & A3 & A4) & I); [| |exact E|].
  - repeat split; cbn; try lia; try constructor; try (intros i j p H; discriminate); try (intros p [i H]; discriminate); destruct H as [[i H]|[]]; discriminate.
  - repeat split; cbn; auto; try discriminate. intros [[i H]|[]]; discriminate.
  - exists w. split; [exact E1|]. split; [apply Inv_exclusive; exact I|]. auto.
Qed.
(** when all auto_ptrs are gone and nothing was released, no object is left *)
Theorem auto_ptr_no_leak l s w : srun l owners0 = Some s -> arun l world0 = Some w -> (forall i, s_hold s i = None) -> s_raw s = [] -> forall p, alive w p = false.
Proof.
  intros E Ew H R p. destruct (auto_ptr_owns l s E) as (w' & E' & _ & _ & _ & A). assert (w' = w) by congruence. subst w'.
  destruct (alive w p) eqn:Al; [|reflexivity]. apply A in Al. destruct Al as [[i Hi]|X]; [rewrite H in Hi; discriminate|rewrite R in X; destruct X].
Qed.
Definition ap_prog : list aop := [ANew 0; ANull 1; AAssign 1 0; AAssign 1 1; ANew 2; AAssignOther 2 1; ACopy 3 2; ARelease 3; AResetNew 3; AAdopt 4 1; ADrop 4; AResetSame 3; ADrop 0; ADrop 1; ADrop 2].
Example auto_ptr_ex : exists s w, srun ap_prog owners0 = Some s /\ arun ap_prog world0 = Some w /\ s_hold s 3 = Some (Some 3) /\ hold w 3 = Some 3 /\ alive w 3 = true /\ alive w 1 = false /\ alive w 2 = false.
Proof. do 2 eexists. split; [vm_compute; reflexivity|]. split; [vm_compute; reflexivity|]. repeat split. Qed.

Print Assumptions buffer_get.
Print Assumptions buffer_life.
Print Assumptions buffer_throw.
Print Assumptions auto_ptr_owns.
Print Assumptions auto_ptr_no_leak.
