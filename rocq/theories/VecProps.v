(** vector behaves as a list (C48), insertion of own elements (C49), objects are not lost (C65). *)
From Coq Require Import List Arith Bool Lia.
From Verif Require Import F64 VecModel VecSpec VecProof VecProof2 VecProof3 VecProof4.
Import ListNotations.
Open Scope opt_scope.

Section Props.
Variable A : Type.
Variable triv : bool.
Variables mv selfmv : A -> A.
Notation heap := (heap A). Notation own := (own A triv). Notation wfh := (wfh A). Notation res := (res A triv).
Notation mem := (mem A). Notation blk := (blk A). Notation next := (next A). Notation lost := (lost A).
Notation step := (step A triv mv selfmv). Notation run := (run A triv mv selfmv).

Definition block (h : heap) (v : vec) (a : nat) : bool := inr a (vb v) (blk h (vb v)).
Definition apart (h : heap) (v w : vec) : Prop := forall a, block h v a = true -> block h w a = false.
Definition related (h : heap) (x : option vec) (y : option (list A * nat)) : Prop :=
  match x, y with None, None => True | Some v, Some (l, c) => own h v l /\ capacity v = c | _, _ => False end.
Definition Rel (e : env) (h : heap) (s : lists A) : Prop :=
  wfh h /\ (forall i, related h (e i) (s i)) /\ (forall i j v w, i <> j -> e i = Some v -> e j = Some w -> apart h v w).

Lemma rel_some e h s i l c : Rel e h s -> s i = Some (l, c) -> exists v, e i = Some v /\ own h v l /\ capacity v = c.
Proof. intros (_ & R & _) E. specialize (R i). rewrite E in R. destruct (e i) as [v|]; [|contradiction]. exists v. split; [reflexivity|exact R]. Qed.
Lemma rel_none e h s i : Rel e h s -> s i = None -> e i = None.
Proof. intros (_ & R & _) E. specialize (R i). rewrite E in R. destruct (e i) as [v|]; [contradiction|reflexivity]. Qed.
Lemma apart_sym h v w : apart h v w -> apart h w v.
Proof. intros P a Ha. destruct (block h v a) eqn:E; [|reflexivity]. rewrite (P a E) in Ha. discriminate. Qed.
Lemma block_null h a : wfh h -> block h null_vec a = false.
Proof. intros [W _]. unfold block. cbn [vb null_vec]. rewrite W. destruct (inr_spec a 0 0); [lia|reflexivity]. Qed.
Lemma apart_null h w : wfh h -> apart h null_vec w.
Proof. intros W a Ha. rewrite block_null in Ha by exact W. discriminate. Qed.
Lemma block_lt h v l a : own h v l -> block h v a = true -> a < next h.
Proof. intros (_ & _ & _ & C & _) B. unfold block in B. destruct (inr_spec a (vb v) (blk h (vb v))); [lia|discriminate]. Qed.

(** replacing (or creating, from the null vector) vector i *)
Lemma upd_rel e h s i v l' c' P o : Rel e h s -> (e i = Some v \/ e i = None /\ v = null_vec) -> res o h v l' c' P ->
  exists e' h', bind_vec A e i o = Some (e', h') /\ Rel e' h' (lupd A s i (Some (l', c'))) /\ (P -> lost h' = lost h).
Proof.
  intros (WF & R & D) EI (v' & h' & E & O & C & F & L). rewrite E. cbn [bind_vec obind]. exists (upd e i (Some v')), h'. split; [reflexivity|].
  assert (AV : forall j w, j <> i -> e j = Some w -> apart h v w).
  { intros j w J EJ. destruct EI as [EI|[_ ->]]; [apply (D i j); auto|apply apart_null, WF]. }
  assert (KW : forall j w, j <> i -> e j = Some w -> forall l c, s j = Some (l, c) -> own h' w l /\ blk h' (vb w) = blk h (vb w)).
  { intros j w J EJ l c SJ. apply (own_frame A triv h h' v v' w l); auto.
    - specialize (R j). rewrite EJ, SJ in R. apply R.
    - exact (apart_sym h v w (AV j w J EJ)). }
  assert (KB : forall j w, j <> i -> e j = Some w -> blk h' (vb w) = blk h (vb w) /\ forall a, block h w a = true -> a < next h).
  { intros j w J EJ. pose proof (R j) as RJ. rewrite EJ in RJ. destruct (s j) as [[l c]|] eqn:SJ; [|contradiction]. split; [apply (KW j w J EJ l c SJ)|].
    intros a Ha. apply (block_lt h w l); [apply RJ|exact Ha]. }
  pose proof F as (W' & NX & _ & PL). split; [|exact L]. refine (conj W' (conj _ _)).
  - intros j. unfold upd, lupd. destruct (Nat.eqb_spec j i) as [->|J]; [split; assumption|].
    pose proof (R j) as RJ. destruct (e j) as [w|] eqn:EJ, (s j) as [[l c]|] eqn:SJ; try contradiction; [|exact I].
    split; [apply (KW j w J EJ l c SJ)|apply RJ].
  - assert (NEW : forall j w, j <> i -> e j = Some w -> apart h' v' w).
    { intros j w J EJ a Ha. destruct (KB j w J EJ) as [KB1 KB2]. unfold block in *. rewrite KB1.
      destruct (inr a (vb w) (blk h (vb w))) eqn:IN; [|reflexivity]. exfalso. specialize (KB2 a IN).
      destruct PL as [[P1 P2]|[P1|P1]].
      - rewrite P1, P2 in Ha. pose proof (AV j w J EJ a Ha) as Q. unfold block in Q. congruence.
      - destruct (inr_spec a (vb v') (blk h' (vb v'))); [lia|discriminate].
      - destruct W' as [W' _]. rewrite P1, W' in Ha. destruct (inr_spec a 0 0); [lia|discriminate]. }
    intros j k w1 w2 JK. unfold upd. destruct (Nat.eqb_spec j i) as [->|J], (Nat.eqb_spec k i) as [->|K]; intros E1 E2.
    + congruence.
    + injection E1 as <-. apply (NEW k); auto.
    + injection E2 as <-. apply apart_sym, (NEW j); auto.
    + intros a. unfold block. rewrite (proj1 (KB j w1 J E1)), (proj1 (KB k w2 K E2)). apply (D j k); auto.
Qed.

Lemma arg_ok e h s x y : Rel e h s -> value A s x = Some y ->
  exists r, ref_of A e x = Some r /\ (forall v i l c, (e i = Some v /\ s i = Some (l, c) \/ v = null_vec) -> argok A h v r y)
   /\ (forall v i l c k, e i = Some v -> s i = Some (l, c) -> k <= length l -> own_before A i k x = false -> match r with Ext _ _ => True | At _ a => ~ (vb v <= a < vb v + k) end)
   /\ (forall v i l c k, e i = Some v -> s i = Some (l, c) -> own_after A i k x = false -> match r with Ext _ _ => True | At _ a => ~ (vb v + k < a < ve v) end).
Proof.
  intros R V. destruct x as [z|j m]; cbn [value ref_of] in *.
  - injection V as ->. exists (Ext A y). repeat split.
  - destruct (s j) as [[l c]|] eqn:SJ; [|discriminate V]. cbn [obind] in V. destruct (rel_some e h s j l c R SJ) as (w & EW & OW & CW).
    rewrite EW. cbn [obind]. assert (ML : m < length l) by (apply nth_error_Some; congruence).
    pose proof OW as (E & C1 & C2 & C3 & C4 & S).
    replace (m <? size w) with true by (symmetry; apply Nat.ltb_lt; unfold size; lia). eexists; split; [reflexivity|].
    assert (BW : block h w (vb w + m) = true) by (unfold block; destruct (inr_spec (vb w + m) (vb w) (blk h (vb w))); [reflexivity|lia]).
    assert (AP : forall v i, e i = Some v -> i <> j -> ~ (vb v <= vb w + m < vb v + blk h (vb v))).
    { intros v i EV IJ. destruct R as (_ & _ & D). specialize (D j i w v (not_eq_sym IJ) EW EV (vb w + m) BW). unfold block in D.
      destruct (inr_spec (vb w + m) (vb v) (blk h (vb v))); [discriminate|assumption]. }
    split; [|split].
    + intros v i l0 c0 HV. cbn [argok]. split; [lia|]. split; [apply (own_nth A triv h w l); auto|].
      destruct HV as [[EV SV]| ->].
      * destruct (Nat.eq_dec i j) as [->|IJ]; [rewrite EW in EV; injection EV as <-; lia|]. pose proof (AP v i EV IJ).
        destruct (rel_some e h s i l0 c0 R SV) as (v2 & EV2 & (Q1 & Q2 & Q3 & _) & _). rewrite EV in EV2. injection EV2 as <-. lia.
      * destruct R as ((W & _) & _). cbn [vb ve null_vec]. rewrite W. lia.
    + intros v i l0 c0 k EV SV K NB. cbn in NB. destruct (Nat.eqb_spec j i) as [->|IJ].
      * rewrite EW in EV. injection EV as <-. cbn in NB. apply Nat.ltb_ge in NB. lia.
      * pose proof (AP v i EV (not_eq_sym IJ)). destruct (rel_some e h s i l0 c0 R SV) as (v2 & EV2 & (Q1 & Q2 & Q3 & _) & _). rewrite EV in EV2. injection EV2 as <-. lia.
    + intros v i l0 c0 k EV SV NB. cbn in NB. destruct (Nat.eqb_spec j i) as [->|IJ].
      * rewrite EW in EV. injection EV as <-. cbn in NB. apply Nat.ltb_ge in NB. lia.
      * pose proof (AP v i EV (not_eq_sym IJ)). destruct (rel_some e h s i l0 c0 R SV) as (v2 & EV2 & (Q1 & Q2 & Q3 & _) & _). rewrite EV in EV2. injection EV2 as <-. lia.
Qed.

Lemma range_ok e h s j a b xs : Rel e h s -> part A s j a b = Some xs ->
  exists p, range_of e j a b = Some (p, length xs) /\ (forall i y, nth_error xs i = Some y -> mem h (p + i) = Obj A y /\ p + i < next h)
   /\ (forall i v, i <> j -> e i = Some v -> srcok A h v p xs).
Proof.
  intros R P. unfold part in P. destruct (s j) as [[l c]|] eqn:SJ; [|discriminate P]. cbn [obind] in P.
  destruct (rel_some e h s j l c R SJ) as (w & EW & OW & CW). pose proof OW as (E & C1 & C2 & C3 & C4 & S).
  unfold range_of. rewrite EW. cbn [obind]. replace (size w) with (length l) by (unfold size; lia).
  destruct (Nat.leb_spec a b); [|discriminate P]. destruct (Nat.leb_spec b (length l)); [|discriminate P]. cbn [andb] in *. injection P as <-.
  assert (LEN : length (firstn (b - a) (skipn a l)) = b - a) by (rewrite firstn_length_le; [reflexivity|rewrite skipn_length; lia]).
  exists (vb w + a). rewrite LEN. split; [reflexivity|].
  assert (N : forall i y, nth_error (firstn (b - a) (skipn a l)) i = Some y -> nth_error l (a + i) = Some y /\ a + i < length l).
  { intros i y Hi. rewrite ne_firstn, ne_skipn in Hi. destruct (i <? b - a); [|discriminate]. split; [exact Hi|]. apply nth_error_Some. congruence. }
  assert (M : forall i y, nth_error (firstn (b - a) (skipn a l)) i = Some y -> mem h (vb w + a + i) = Obj A y /\ vb w + a + i < next h).
  { intros i y Hi. destruct (N i y Hi) as [N1 N2]. split; [|lia]. rewrite <- Nat.add_assoc. apply (own_nth A triv h w l); auto. }
  split; [exact M|]. intros i v IJ EV k y Hk. destruct (M k y Hk) as [M1 M2]. split; [exact M1|]. split; [exact M2|].
  destruct (N k y Hk) as [N1 N2]. destruct R as (_ & _ & D). apply (D j i w v (not_eq_sym IJ) EW EV).
  unfold block. destruct (inr_spec (vb w + a + k) (vb w) (blk h (vb w))); [reflexivity|lia].
Qed.

Lemma rel_fresh e h s i : Rel e h s -> (let* _ := absent A s i in Some tt) = Some tt -> e i = None.
Proof. unfold absent. intros R H. destruct (s i) eqn:E; [discriminate H|]. apply (rel_none e h s i R E). Qed.

Ltac getvec R i l c v EV OV CV :=
  match goal with
  | H : context [obind (?s i) _] |- _ =>
      let SI := fresh "SI" in
      destruct (s i) as [[l c]|] eqn:SI; [|discriminate H]; cbn [obind] in H; destruct (rel_some _ _ s i l c R SI) as (v & EV & OV & CV)
  end.
Ltac getarg R x y r ER AK NB NA :=
  match goal with
  | H : context [obind (value A ?s x) _] |- _ =>
      let V := fresh "V" in
      destruct (value A s x) as [y|] eqn:V; [|discriminate H]; cbn [obind] in H; destruct (arg_ok _ _ s x y R V) as (r & ER & AK & NB & NA)
  end.

Lemma swap_rel e h s i j : Rel e h s -> forall v w, e i = Some v -> e j = Some w -> Rel (upd (upd e i (Some w)) j (Some v)) h (lupd A (lupd A s i (s j)) j (s i)).
Proof.
  intros (WF & R & D) v w EI EJ. refine (conj WF (conj _ _)).
  - intros k. unfold upd, lupd. destruct (Nat.eqb_spec k j) as [->|KJ]; [rewrite <- EI; apply R|]. destruct (Nat.eqb_spec k i) as [->|KI]; [rewrite <- EJ; apply R|]. apply R.
  - intros a b x y AB. unfold upd. destruct (Nat.eqb_spec a j) as [->|AJ], (Nat.eqb_spec b j) as [->|BJ]; try congruence.
    + intros E1. injection E1 as <-. destruct (Nat.eqb_spec b i) as [->|BI]; intros E2.
      * injection E2 as <-. apply (D i j); auto.
      * destruct (Nat.eq_dec i b); [congruence|]. apply (D i b); auto.
    + destruct (Nat.eqb_spec a i) as [->|AI]; intros E1 E2; injection E2 as <-.
      * injection E1 as <-. apply (D j i); auto.
      * apply (D a i); auto.
    + destruct (Nat.eqb_spec a i) as [->|AI], (Nat.eqb_spec b i) as [->|BI]; intros E1 E2; try congruence.
      * injection E1 as <-. apply (D j b); auto.
      * injection E2 as <-. apply (D a j); auto.
      * apply (D a b); auto.
Qed.

Lemma step_ok o e h s s' : Rel e h s -> lstep A o s = Some s' -> benign A triv o s = true ->
  exists e' h', step o (e, h) = Some (e', h') /\ Rel e' h' s' /\ (tidy A triv o s = true -> lost h' = lost h).
Proof.
  intros R L B. pose proof R as (WF & RR & DD).
  destruct o; cbn [lstep step benign tidy] in *.
  - (* New *) unfold absent in L. destruct (s i) eqn:SI; [discriminate L|]. cbn [obind] in L. injection L as <-. pose proof (rel_none e h s i R SI) as EI.
    unfold fresh. rewrite EI. cbn [obind].
    destruct (upd_rel e h s i null_vec [] 16 True _ R (or_intror (conj EI eq_refl)) (new_empty_ok A triv h WF)) as (e' & h' & Q & Q1 & Q2). exists e', h'. auto.
  - (* NewFill *) unfold absent in L. destruct (s i) eqn:SI; [discriminate L|]. cbn [obind] in L. pose proof (rel_none e h s i R SI) as EI.
    getarg R x y r ER AK NB NA. injection L as <-. unfold fresh. rewrite EI, ER. cbn [obind].
    specialize (AK null_vec 0 [] 0 (or_intror eq_refl)).
    destruct (upd_rel e h s i null_vec _ _ True _ R (or_intror (conj EI eq_refl)) (fill_init_ok A triv h r y n WF (argok_val A _ _ _ _ AK) ltac:(destruct r; [exact I|apply AK]))) as (e' & h' & Q & Q1 & Q2). exists e', h'. auto.
  - (* NewCopy *) unfold absent in L. destruct (s i) eqn:SI; [discriminate L|]. cbn [obind] in L. pose proof (rel_none e h s i R SI) as EI.
    getvec R j l c w EW OW CW. injection L as <-. unfold fresh. rewrite EI, EW. cbn [obind].
    pose proof OW as (E & C1 & C2 & C3 & C4 & S).
    pose proof (range_init_ok A triv mv selfmv h (vb w) l WF) as RI. replace (length l) with (size w) in RI at 1 by (unfold size; lia).
    destruct (upd_rel e h s i null_vec _ _ True _ R (or_intror (conj EI eq_refl)) (RI ltac:(intros k y Hk; split; [apply (own_nth A triv h w l); auto|assert (k < length l) by (apply nth_error_Some; congruence); lia]))) as (e' & h' & Q & Q1 & Q2). exists e', h'. auto.
  - (* NewMove *) unfold absent in L. destruct (s i) eqn:SI; [discriminate L|]. cbn [obind] in L. pose proof (rel_none e h s i R SI) as EI.
    destruct (s j) as [[l c]|] eqn:SJ; [|discriminate L]. cbn [obind] in L. injection L as <-. destruct (rel_some e h s j l c R SJ) as (w & EW & OW & CW).
    unfold fresh. rewrite EI, EW. cbn [obind]. eexists _, h. split; [reflexivity|]. split; [|auto].
    assert (IJ : i <> j) by congruence. refine (conj WF (conj _ _)).
    + intros k. unfold upd, lupd. destruct (Nat.eqb_spec k i); [split; assumption|]. destruct (Nat.eqb_spec k j); [|apply RR]. split; [apply own_null, WF|reflexivity].
    + intros a b x y AB. unfold upd. destruct (Nat.eqb_spec a i) as [->|AI], (Nat.eqb_spec b i) as [->|BI]; try congruence.
      * intros E1. injection E1 as <-. destruct (Nat.eqb_spec b j) as [->|BJ]; intros E2; [injection E2 as <-; apply apart_sym, apart_null, WF|apply (DD j b); auto].
      * destruct (Nat.eqb_spec a j) as [->|AJ]; intros E1 E2; injection E2 as <-; [injection E1 as <-; apply apart_null, WF|apply (DD a j); auto].
      * destruct (Nat.eqb_spec a j) as [->|AJ]; intros E1; [injection E1 as <-; intros; apply apart_null, WF|].
        destruct (Nat.eqb_spec b j) as [->|BJ]; intros E2; [injection E2 as <-; apply apart_sym, apart_null, WF|apply (DD a b); auto].
  - (* NewRange *) unfold absent in L. destruct (s i) eqn:SI; [discriminate L|]. cbn [obind] in L. pose proof (rel_none e h s i R SI) as EI.
    destruct (part A s j a b) as [xs|] eqn:P; [|discriminate L]. cbn [obind] in L. injection L as <-.
    destruct (range_ok e h s j a b xs R P) as (p & EP & M & _). unfold fresh. rewrite EI, EP. cbn [obind].
    destruct (upd_rel e h s i null_vec _ _ True _ R (or_intror (conj EI eq_refl)) (range_init_ok A triv mv selfmv h p xs WF M)) as (e' & h' & Q & Q1 & Q2). exists e', h'. auto.
  - (* Drop *) destruct (s i) as [[l c]|] eqn:SI; [|discriminate L]. cbn [obind] in L. injection L as <-. destruct (rel_some e h s i l c R SI) as (v & EV & OV & CV).
    rewrite EV. cbn [obind]. destruct (destructor_ok A triv h v l WF OV) as (h' & E & F & LL). rewrite E. cbn [obind]. eexists _, h'. split; [reflexivity|]. split; [|auto].
    assert (KW : forall k w, k <> i -> e k = Some w -> forall l c, s k = Some (l, c) -> own h' w l /\ blk h' (vb w) = blk h (vb w)).
    { intros k w K EK l0 c0 SK. apply (own_frame A triv h h' v null_vec w l0); auto.
      - specialize (RR k). rewrite EK, SK in RR. apply RR.
      - intros a Ha. exact (DD k i w v K EK EV a Ha). }
    refine (conj (proj1 F) (conj _ _)).
    + intros k. unfold upd, lupd. destruct (Nat.eqb_spec k i); [exact I|]. pose proof (RR k) as RK. destruct (e k) as [w|] eqn:EK, (s k) as [[l0 c0]|] eqn:SK; try contradiction; [|exact I].
      split; [apply (KW k w n EK l0 c0 SK)|apply RK].
    + intros a b x y AB. unfold upd. destruct (Nat.eqb_spec a i), (Nat.eqb_spec b i); try congruence. intros E1 E2 q.
      assert (KB : forall k w, k <> i -> e k = Some w -> blk h' (vb w) = blk h (vb w)).
      { intros k w K EK. pose proof (RR k) as RK. rewrite EK in RK. destruct (s k) as [[l0 c0]|] eqn:SK; [|contradiction]. apply (KW k w K EK l0 c0 SK). }
      unfold block. rewrite (KB a x n E1), (KB b y n0 E2). apply (DD a b); auto.
  - (* AssignCopy *) getvec R i l c v EV OV CV. getvec R j l2 c2 w EW OW CW. rewrite EV, EW. cbn [obind]. destruct (Nat.eqb_spec i j) as [->|IJ].
    + injection L as <-. exists e, h. auto.
    + injection L as <-. pose proof OW as (E & C1 & C2 & C3 & C4 & S). rewrite <- CV.
      destruct (upd_rel e h s i v _ _ True _ R (or_introl EV) (assign_copy_ok A triv mv selfmv h v l w l2 WF OV ltac:(
        intros k y Hk; assert (k < length l2) by (apply nth_error_Some; congruence); split; [apply (own_nth A triv h w l2); auto|]; split; [lia|];
        apply (DD j i w v (not_eq_sym IJ) EW EV); unfold block; destruct (inr_spec (vb w + k) (vb w) (blk h (vb w))); [reflexivity|lia]) ltac:(unfold size; lia))) as (e' & h' & Q & Q1 & Q2).
      exists e', h'. auto.
  - (* AssignMove *) destruct (s i) as [[l c]|] eqn:SI; [|discriminate L]. cbn [obind] in L. destruct (s j) as [[l2 c2]|] eqn:SJ; [|discriminate L]. cbn [obind] in L.
    destruct (rel_some e h s i l c R SI) as (v & EV & OV & CV). destruct (rel_some e h s j l2 c2 R SJ) as (w & EW & OW & CW).
    rewrite EV, EW. cbn [obind]. destruct (Nat.eqb_spec i j) as [->|IJ]; [discriminate L|]. injection L as <-.
    unfold assign_move. destruct (destructor_ok A triv h v l WF OV) as (h' & E & F & LL). rewrite E. cbn [obind]. eexists _, h'. split; [reflexivity|]. split; [|auto].
    pose proof (proj1 F) as WF'.
    assert (KW : forall k w, k <> i -> e k = Some w -> forall l c, s k = Some (l, c) -> own h' w l /\ blk h' (vb w) = blk h (vb w)).
    { intros k u K EK l0 c0 SK. apply (own_frame A triv h h' v null_vec u l0); auto.
      - specialize (RR k). rewrite EK, SK in RR. apply RR.
      - intros a Ha. exact (DD k i u v K EK EV a Ha). }
    assert (KB : forall k w, k <> i -> e k = Some w -> blk h' (vb w) = blk h (vb w)).
    { intros k u K EK. pose proof (RR k) as RK. rewrite EK in RK. destruct (s k) as [[l0 c0]|] eqn:SK; [|contradiction]. apply (KW k u K EK l0 c0 SK). }
    assert (AP : forall a b x y, a <> b -> a <> i -> b <> i -> e a = Some x -> e b = Some y -> apart h' x y).
    { intros a b x y AB AI BI E1 E2 q. unfold block. rewrite (KB a x AI E1), (KB b y BI E2). apply (DD a b); auto. }
    refine (conj WF' (conj _ _)).
    + intros k. unfold upd, lupd. destruct (Nat.eqb_spec k i); [split; [apply (KW j w (not_eq_sym IJ) EW l2 c2 SJ)|assumption]|].
      destruct (Nat.eqb_spec k j); [split; [apply own_null, WF'|reflexivity]|].
      pose proof (RR k) as RK. destruct (e k) as [u|] eqn:EK, (s k) as [[l0 c0]|] eqn:SK; try contradiction; [|exact I].
      split; [apply (KW k u n EK l0 c0 SK)|apply RK].
    + intros a b x y AB. unfold upd. destruct (Nat.eqb_spec a i) as [->|AI], (Nat.eqb_spec b i) as [->|BI]; try congruence.
      * intros E1. injection E1 as <-. destruct (Nat.eqb_spec b j) as [->|BJ]; intros E2; [injection E2 as <-; apply apart_sym, apart_null, WF'|apply (AP j b); auto].
      * destruct (Nat.eqb_spec a j) as [->|AJ]; intros E1 E2; injection E2 as <-; [injection E1 as <-; apply apart_null, WF'|apply (AP a j); auto].
      * destruct (Nat.eqb_spec a j) as [->|AJ]; intros E1; [injection E1 as <-; intros; apply apart_null, WF'|].
        destruct (Nat.eqb_spec b j) as [->|BJ]; intros E2; [injection E2 as <-; apply apart_sym, apart_null, WF'|apply (AP a b); auto].
  - (* Swap *) destruct (s i) as [x|] eqn:SI; [|discriminate L]. cbn [obind] in L. destruct (s j) as [y|] eqn:SJ; [|discriminate L]. cbn [obind] in L. injection L as <-.
    destruct x as [l c], y as [l2 c2]. destruct (rel_some e h s i l c R SI) as (v & EV & OV & CV). destruct (rel_some e h s j l2 c2 R SJ) as (w & EW & OW & CW).
    rewrite EV, EW. cbn [obind]. eexists _, h. split; [reflexivity|]. split; [|auto]. rewrite <- SI, <- SJ. apply swap_rel; auto.
  - (* PushBack *) getvec R i l c v EV OV CV. getarg R x y r ER AK NB NA. injection L as <-. rewrite EV, ER. cbn [obind]. try rewrite SI in B. cbn in B. rewrite <- CV in *.
    destruct (upd_rel e h s i v _ _ True _ R (or_introl EV) (push_back_ok A triv mv selfmv h v l r y WF OV (AK v i l _ (or_introl (conj EV SI))) ltac:(
      apply orb_true_iff in B; destruct B as [B|B]; [apply orb_true_iff in B; destruct B as [B|B]; [right; left; exact B|rewrite negb_involutive in B; apply Nat.leb_le in B; left; lia]|
      right; right; apply negb_true_iff in B; exact (NB v i l _ (length l) EV SI (le_n _) B)]))) as (e' & h' & Q & Q1 & Q2).
    exists e', h'. auto.
  - (* PopBack *) getvec R i l c v EV OV CV. rewrite EV. cbn [obind]. rewrite <- CV in *. destruct (Nat.eqb_spec (length l) 0); [discriminate L|]. injection L as <-.
    destruct (upd_rel e h s i v _ _ True _ R (or_introl EV) (pop_back_ok A triv h v l WF OV ltac:(destruct l; [cbn in *; congruence|discriminate]))) as (e' & h' & Q & Q1 & Q2).
    exists e', h'. auto.
  - (* Insert *) getvec R i l c v EV OV CV. getarg R x y r ER AK NB NA. rewrite EV, ER. cbn [obind]. try rewrite SI in B. cbn in B. rewrite <- CV in *.
    unfold insert_at in L. destruct (Nat.leb_spec k (length l)); [|discriminate L]. cbn [obind] in L. injection L as <-.
    destruct (upd_rel e h s i v _ _ True _ R (or_introl EV) (insert_ok A triv mv selfmv h v l r y k WF OV H (AK v i l _ (or_introl (conj EV SI))) ltac:(
      apply orb_true_iff in B; destruct B as [B|B]; [apply orb_true_iff in B; destruct B as [B|B]; [right; left; exact B|rewrite negb_involutive in B; apply Nat.leb_le in B; left; lia]|
      right; right; apply negb_true_iff in B; exact (NB v i l _ k EV SI H B)]))) as (e' & h' & Q & Q1 & Q2).
    exists e', h'. auto.
  - (* Emplace *) getvec R i l c v EV OV CV. getarg R x y r ER AK NB NA. rewrite EV, ER. cbn [obind]. try rewrite SI in B. cbn in B. rewrite <- CV in *.
    unfold insert_at in L. destruct (Nat.leb_spec k (length l)); [|discriminate L]. cbn [obind] in L. injection L as <-.
    destruct (upd_rel e h s i v _ _ True _ R (or_introl EV) (emplace_ok A triv mv selfmv h v l r y k WF OV H (AK v i l _ (or_introl (conj EV SI))) ltac:(
      intros RM; destruct (Nat.leb_spec (length l + 1) (capacity v)); [cbn in B; apply negb_true_iff in B; exact (NA v i l _ k EV SI B)|lia]) ltac:(
      intros RM; destruct (Nat.leb_spec (length l + 1) (capacity v)); [lia|]; cbn in B; apply orb_true_iff in B; destruct B as [B|B]; [left; exact B|];
      right; apply negb_true_iff in B; exact (NB v i l _ k EV SI H B)))) as (e' & h' & Q & Q1 & Q2).
    exists e', h'. auto.
  - (* InsertN *) getvec R i l c v EV OV CV. getarg R x y r ER AK NB NA. rewrite EV, ER. cbn [obind]. try rewrite SI in B. cbn in B. rewrite <- CV in *.
    unfold insert_at in L. destruct (Nat.leb_spec k (length l)); [|discriminate L]. cbn [obind] in L. injection L as <-.
    destruct (upd_rel e h s i v _ _ _ _ R (or_introl EV) (fill_insert_ok A triv mv selfmv h v l r y k n WF OV H (AK v i l _ (or_introl (conj EV SI))) ltac:(
      apply orb_true_iff in B; destruct B as [B|B]; [apply orb_true_iff in B; destruct B as [B|B]; [right; left; exact B|rewrite negb_involutive in B; apply Nat.leb_le in B; left; lia]|
      right; right; apply negb_true_iff in B; exact (NB v i l _ k EV SI H B)]))) as (e' & h' & Q & Q1 & Q2).
    exists e', h'. auto.
  - (* InsertRange *) getvec R i l c v EV OV CV. destruct (part A s j a b) as [xs|] eqn:P; [|discriminate L]. cbn [obind] in L. rewrite <- CV in *.
    destruct (range_ok e h s j a b xs R P) as (p & EP & _ & SO). rewrite EV, EP. cbn [obind]. destruct (Nat.eqb_spec i j) as [|IJ]; [discriminate L|].
    unfold insert_at in L. destruct (Nat.leb_spec k (length l)); [|discriminate L]. cbn [obind] in L. injection L as <-.
    destruct (upd_rel e h s i v _ _ _ _ R (or_introl EV) (copy_insert_ok A triv mv selfmv h v l k p xs WF OV H (SO i v IJ EV))) as (e' & h' & Q & Q1 & Q2).
    exists e', h'. auto.
  - (* Erase *) getvec R i l c v EV OV CV. rewrite EV. cbn [obind]. rewrite <- CV in *. destruct (Nat.ltb_spec k (length l)); [|discriminate L]. injection L as <-.
    destruct (upd_rel e h s i v _ _ True _ R (or_introl EV) (erase_ok A triv mv selfmv h v l k WF OV H)) as (e' & h' & Q & Q1 & Q2).
    exists e', h'. auto.
  - (* EraseRange *) getvec R i l c v EV OV CV. rewrite EV. cbn [obind]. try rewrite SI in B. rewrite <- CV in *. destruct (Nat.leb_spec a b); [|discriminate L]. destruct (Nat.leb_spec b (length l)); [|discriminate L].
    injection L as <-.
    destruct (upd_rel e h s i v _ _ True _ R (or_introl EV) (erase_range_ok A triv mv selfmv h v l a b WF OV H H0 ltac:(
      apply orb_true_iff in B; destruct B as [B|B]; [apply orb_true_iff in B; destruct B as [B|B]; [left; exact B|apply negb_true_iff, Nat.eqb_neq in B; lia]|apply Nat.eqb_eq in B; lia]))) as (e' & h' & Q & Q1 & Q2).
    exists e', h'. auto.
  - (* Clear *) getvec R i l c v EV OV CV. rewrite EV. cbn [obind]. injection L as <-. rewrite <- CV in *. pose proof OV as (E & C1 & C2 & C3 & C4 & S).
    unfold clear. replace (size v) with (length l) by (unfold size; lia).
    pose proof (erase_range_ok A triv mv selfmv h v l 0 (length l) WF OV ltac:(lia) (le_n _) (or_intror (or_intror eq_refl))) as ER.
    rewrite skipn_all in ER. cbn [firstn app] in ER.
    destruct (upd_rel e h s i v _ _ True _ R (or_introl EV) ER) as (e' & h' & Q & Q1 & Q2). exists e', h'. auto.
  - (* Resize *) getvec R i l c v EV OV CV. getarg R x y r ER AK NB NA. rewrite EV, ER. cbn [obind]. try rewrite SI in B |- *. cbn in B. rewrite <- CV in *.
    pose proof (resize_ok A triv mv selfmv h v l r y n WF OV (AK v i l _ (or_introl (conj EV SI))) ltac:(
      apply orb_true_iff in B; destruct B as [B|B]; [apply orb_true_iff in B; destruct B as [B|B]; [right; left; exact B|rewrite negb_involutive in B; apply Nat.leb_le in B; left; lia]|
      right; right; apply negb_true_iff in B; exact (NB v i l _ (length l) EV SI (le_n _) B)])) as RS.
    destruct (Nat.ltb_spec n (length l)) as [Q0|Q0]; injection L as <-.
    + assert (RS' : res (resize A triv mv selfmv n r v h) h v (firstn n l) (capacity v) True).
      { pose proof OV as (E & C1 & C2 & C3 & C4 & S). unfold resize. replace (size v) with (length l) by (unfold size; lia).
        replace (n <? length l) with true by (symmetry; apply Nat.ltb_lt; lia).
        replace (firstn n l) with (firstn n l ++ skipn (length l) l) by (rewrite skipn_all, app_nil_r; reflexivity). apply erase_range_ok; auto; lia. }
      destruct (upd_rel e h s i v _ _ _ _ R (or_introl EV) RS') as (e' & h' & Q & Q1 & Q2). exists e', h'. auto.
    + destruct (upd_rel e h s i v _ _ _ _ R (or_introl EV) RS) as (e' & h' & Q & Q1 & Q2). exists e', h'. split; [exact Q|]. split; [exact Q1|].
      intros T. apply Q2. rewrite orb_false_r in T. exact T.
  - (* AssignFill *) getvec R i l c v EV OV CV. getarg R x y r ER AK NB NA. rewrite EV, ER. cbn [obind]. injection L as <-. rewrite <- CV in *.
    destruct (upd_rel e h s i v _ _ _ _ R (or_introl EV) (assign_fill_ok A triv mv selfmv h v l r y n WF OV (AK v i l _ (or_introl (conj EV SI))))) as (e' & h' & Q & Q1 & Q2).
    exists e', h'. auto.
  - (* AssignRange *) getvec R i l c v EV OV CV. destruct (part A s j a b) as [xs|] eqn:P; [|discriminate L]. cbn [obind] in L. rewrite <- CV in *.
    destruct (range_ok e h s j a b xs R P) as (p & EP & _ & SO). rewrite EV, EP. cbn [obind]. destruct (Nat.eqb_spec i j) as [|IJ]; [discriminate L|]. injection L as <-.
    destruct (upd_rel e h s i v _ _ _ _ R (or_introl EV) (assign_range_ok A triv mv selfmv h v l p xs WF OV (SO i v IJ EV))) as (e' & h' & Q & Q1 & Q2).
    exists e', h'. auto.
  - (* Reserve *) getvec R i l c v EV OV CV. rewrite EV. cbn [obind]. injection L as <-. rewrite <- CV in *.
    destruct (upd_rel e h s i v _ _ _ _ R (or_introl EV) (reserve_ok A triv mv selfmv h v l n WF OV)) as (e' & h' & Q & Q1 & Q2). exists e', h'. auto.
  - (* ShrinkToFit *) getvec R i l c v EV OV CV. rewrite EV. cbn [obind]. injection L as <-.
    destruct (upd_rel e h s i v _ _ _ _ R (or_introl EV) (shrink_ok A triv mv selfmv h v l WF OV)) as (e' & h' & Q & Q1 & Q2). exists e', h'. auto.
  - (* Set_ *) getvec R i l c v EV OV CV. rewrite EV. cbn [obind]. rewrite <- CV in *. destruct (Nat.ltb_spec k (length l)); [|discriminate L]. injection L as <-.
    destruct (set_ok A triv h v l k x WF OV H) as (h' & E & O' & F & LL). rewrite E. cbn [obind].
    assert (RS : res (Some (v, h')) h v (firstn k l ++ x :: skipn (S k) l) (capacity v) True) by (exists v, h'; auto 9).
    destruct (upd_rel e h s i v _ _ _ _ R (or_introl EV) RS) as (e' & h2 & Q & Q1 & Q2). cbn [bind_vec obind] in Q. injection Q as <- <-.
    exists e, h'. split; [reflexivity|]. split; [|auto]. destruct Q1 as (Z1 & Z2 & Z3).
    assert (EQ : forall a, upd e i (Some v) a = e a) by (intros a; unfold upd; destruct (Nat.eqb_spec a i) as [->|]; [symmetry; exact EV|reflexivity]).
    refine (conj Z1 (conj _ _)).
    + intros a. specialize (Z2 a). rewrite EQ in Z2. exact Z2.
    + intros a b u w AB E1 E2. apply (Z3 a b); auto; rewrite EQ; assumption.
Qed.

Lemma run_ok p : forall e h s s', Rel e h s -> lrun A p s = Some s' -> all_benign A triv p s ->
  exists e' h', run p (e, h) = Some (e', h') /\ Rel e' h' s' /\ (all_tidy A triv p s -> lost h' = lost h).
Proof.
  induction p as [|o p IH]; cbn [lrun all_benign all_tidy VecModel.run]; intros e h s s' R L B.
  - injection L as <-. exists e, h. auto.
  - destruct (lstep A o s) as [s1|] eqn:E; [|discriminate L]. cbn [obind] in L. destruct B as [B1 B2].
    destruct (step_ok o e h s s1 R E B1) as (e1 & h1 & E1 & R1 & T1). rewrite E1. cbn [obind].
    destruct (IH e1 h1 s1 s' R1 L B2) as (e2 & h2 & E2 & R2 & T2). exists e2, h2. split; [exact E2|]. split; [exact R2|].
    intros [TA TB]. rewrite T2 by exact TB. apply T1, TA.
Qed.
Lemma start_rel : Rel (fst (start A)) (snd (start A)) (lstart A).
Proof. refine (conj (conj eq_refl Nat.lt_0_1) (conj (fun _ => I) _)). intros i j v w _ E. discriminate E. Qed.

(** What the program sees of the vectors is what the lists say. *)
Definition sees (e : env) (h : heap) (s : lists A) : Prop :=
  forall i, match s i with
            | None => e i = None
            | Some (l, cap) => exists v, e i = Some v /\ size v = length l /\ capacity v = cap /\ forall k, get A k v h = nth_error l k
            end.
Lemma rel_sees e h s : Rel e h s -> sees e h s.
Proof.
  intros R i. destruct (s i) as [[l c]|] eqn:E; [|apply (rel_none e h s i R E)].
  destruct (rel_some e h s i l c R E) as (v & EV & O & C). exists v. pose proof O as (O1 & O2 & O3 & O4 & O5 & O6).
  assert (SZ : size v = length l) by (unfold size; lia). split; [exact EV|]. split; [exact SZ|]. split; [exact C|].
  intros k. unfold get. rewrite SZ. destruct (Nat.ltb_spec k (length l)) as [K|K].
  - destruct (nth_error l k) as [y|] eqn:Y; [|apply nth_error_None in Y; lia]. unfold rd. rewrite (own_nth A triv h v l k y O Y). reflexivity.
  - symmetry. apply nth_error_None. exact K.
Qed.

(** C48: every program whose calls are allowed runs without undefined behaviour, and after it every vector has the elements, the size and
    the capacity that the list program gives it. *)
Theorem C48_vector_is_list p s : lrun A p (lstart A) = Some s -> all_benign A triv p (lstart A) ->
  exists e h, run p (start A) = Some (e, h) /\ sees e h s.
Proof.
  intros L B. destruct (run_ok p _ _ _ _ start_rel L B) as (e & h & E & R & _). exists e, h. split; [exact E|]. apply rel_sees, R.
Qed.

(** C49: with room, an own element is inserted with the value it had. *)
Theorem C49_with_room p s i l cap k m x : lrun A p (lstart A) = Some s -> all_benign A triv p (lstart A) ->
  s i = Some (l, cap) -> length l < cap -> nth_error l m = Some x -> k <= length l ->
  exists e h v, run (p ++ [Insert A i k (Elem A i m)]) (start A) = Some (e, h) /\ e i = Some v
    /\ size v = S (length l) /\ forall j, get A j v h = nth_error (firstn k l ++ x :: skipn k l) j.
Proof.
  intros L B SI LT NE K.
  set (o := Insert A i k (Elem A i m)).
  assert (LS : lstep A o s = Some (lupd A s i (Some (firstn k l ++ x :: skipn k l, cap)))).
  { unfold o. cbn [lstep value]. rewrite SI. cbn [obind]. rewrite NE. cbn [obind]. unfold insert_at. replace (k <=? length l) with true by (symmetry; apply Nat.leb_le; lia). cbn [obind app].
    unfold put_at, room. replace (length l + 1 <=? cap) with true by (symmetry; apply Nat.leb_le; lia). reflexivity. }
  assert (L2 : lrun A (p ++ [o]) (lstart A) = Some (lupd A s i (Some (firstn k l ++ x :: skipn k l, cap))) /\ all_benign A triv (p ++ [o]) (lstart A)).
  { revert L B. generalize (lstart A). induction p as [|q p IH]; cbn [app lrun all_benign]; intros s0 L B.
    - injection L as ->. rewrite LS. cbn [obind]. split; [reflexivity|]. split; [|exact I]. unfold o. cbn [benign]. rewrite SI.
      replace (length l + 1 <=? cap) with true by (symmetry; apply Nat.leb_le; lia). destruct triv; reflexivity.
    - destruct (lstep A q s0) as [s1|]; [|discriminate L]. cbn [obind] in *. destruct B as [B1 B2]. destruct (IH s1 L B2) as [I1 I2]. auto. }
  destruct L2 as [L2 B2]. destruct (C48_vector_is_list _ _ L2 B2) as (e & h & E & SE). specialize (SE i). unfold lupd in SE. rewrite Nat.eqb_refl in SE.
  destruct SE as (v & EV & SZ & _ & G). exists e, h, v. split; [exact E|]. split; [exact EV|]. split; [|exact G].
  rewrite SZ, app_length. cbn [length]. rewrite firstn_length_le, skipn_length by lia. lia.
Qed.

(** C65: tidy programs never give up the storage of an object that has not been destroyed. *)
Theorem C65_nothing_lost p s : lrun A p (lstart A) = Some s -> all_benign A triv p (lstart A) -> all_tidy A triv p (lstart A) ->
  exists e h, run p (start A) = Some (e, h) /\ lost h = [].
Proof.
  intros L B T. destruct (run_ok p _ _ _ _ start_rel L B) as (e & h & E & R & LL). exists e, h. split; [exact E|]. rewrite (LL T). reflexivity.
Qed.
End Props.

(** For element types that are copied as bytes (int, double, the structures of them): all programs without emplace. *)
Definition no_emplace {A} (o : op A) : bool := match o with Emplace _ _ _ _ => false | _ => true end.
Theorem C48_trivial_types A (mv selfmv : A -> A) p s : forallb no_emplace p = true -> lrun A p (lstart A) = Some s ->
  exists e h, run A true mv selfmv p (start A) = Some (e, h) /\ sees A e h s /\ lost A h = [].
Proof.
  intros N L.
  assert (B : forall s0, all_benign A true p s0 /\ all_tidy A true p s0).
  { clear L. induction p as [|o p IH]; cbn [all_benign all_tidy forallb] in *; intros s0; [auto|]. apply andb_true_iff in N. destruct N as [N1 N2].
    specialize (IH N2). assert (B1 : benign A true o s0 = true /\ tidy A true o s0 = true) by (destruct o; try discriminate N1; split; reflexivity).
    destruct (lstep A o s0) as [s1|]; [destruct (IH s1)|]; tauto. }
  destruct (B (lstart A)) as [B1 B2]. destruct (run_ok A true mv selfmv p _ _ _ _ (start_rel A true) L B1) as (e & h & E & R & LL).
  exists e, h. split; [exact E|]. split; [apply (rel_sees A true), R|]. rewrite (LL B2). reflexivity.
Qed.

(** A concrete program: growth beyond the first 16 places, insertion of own elements, copies, deletion. *)
Definition sample : list (op nat) :=
  [New nat 0; PushBack nat 0 (Val nat 5); PushBack nat 0 (Elem nat 0 0); InsertN nat 0 1 15 (Elem nat 0 1); Insert nat 0 3 (Val nat 9); NewCopy nat 1 0;
   Erase nat 1 0; AssignCopy nat 0 1; Resize nat 0 2 (Val nat 0); Swap nat 0 1; InsertRange nat 0 0 1 0 2; EraseRange nat 0 5 10; ShrinkToFit nat 1; PopBack nat 0; Set_ nat 1 0 8;
   PushBack nat 1 (Elem nat 1 0)].
Example sample_list : exists s, lrun nat sample (lstart nat) = Some s /\ s 1 = Some ([8; 5; 8], 3)
  /\ s 0 = Some ([5; 5; 5; 5; 9; 5; 5; 5; 5; 5; 5; 5; 5], 27) /\ forallb no_emplace sample = true.
Proof. eexists. vm_compute. repeat split. Qed.
Example sample_class : exists s, lrun nat (firstn 15 sample) (lstart nat) = Some s /\ all_benign nat false (firstn 15 sample) (lstart nat).
Proof. eexists. vm_compute. repeat split. Qed.
Example sample_tidy : let p := [New nat 0; PushBack nat 0 (Val nat 5); Insert nat 0 0 (Elem nat 0 0); NewCopy nat 1 0; Erase nat 1 0; Drop nat 0; Drop nat 1] in
  exists s, lrun nat p (lstart nat) = Some s /\ all_benign nat false p (lstart nat) /\ all_tidy nat false p (lstart nat).
Proof. eexists. vm_compute. repeat split. Qed.
Example sample_room : exists s, lrun nat (firstn 4 sample) (lstart nat) = Some s /\ all_benign nat false (firstn 4 sample) (lstart nat)
  /\ s 0 = Some (repeat 5 17, 31) /\ 17 < 31 /\ nth_error (repeat 5 17) 3 = Some 5 /\ 2 <= 17.
Proof. eexists. split; [vm_compute; reflexivity|]. split; [vm_compute; repeat split|]. split; [reflexivity|]. split; [lia|]. split; [reflexivity|lia]. Qed.

(** C49 without room: for every element type with a value that a move changes, push_back, insert and insert(n) of an own element store the
    changed value. *)
Definition full_push {A} (x : A) : list (op A) := [NewFill A 0 16 (Val A x); PushBack A 0 (Elem A 0 0)].
Definition full_insert {A} (x : A) : list (op A) := [NewFill A 0 16 (Val A x); Insert A 0 16 (Elem A 0 0)].
Definition full_insert_n {A} (x : A) : list (op A) := [NewFill A 0 16 (Val A x); InsertN A 0 16 1 (Elem A 0 0)].
Definition full_resize {A} (x : A) : list (op A) := [NewFill A 0 16 (Val A x); Resize A 0 17 (Elem A 0 0)].
Theorem C49_without_room_refuted A (mv selfmv : A -> A) x : mv x <> x -> forall p, In p [full_push x; full_insert x; full_insert_n x; full_resize x] ->
  exists s e h v l c, lrun A p (lstart A) = Some s /\ s 0 = Some (l, c) /\ nth_error l 16 = Some x
   /\ run A false mv selfmv p (start A) = Some (e, h) /\ e 0 = Some v /\ get A 16 v h <> Some x.
Proof.
  intros N p H. assert (G : Some (mv x) <> Some x) by congruence.
  cbn [In] in H. destruct H as [<-|[<-|[<-|[<-|[]]]]]; do 6 eexists;
    (split; [vm_compute; reflexivity|]); (split; [vm_compute; reflexivity|]); (split; [reflexivity|]); (split; [vm_compute; reflexivity|]); (split; [vm_compute; reflexivity|]); exact G.
Qed.
(** C49 for emplace with room, every element type: the element behind the position is read after it has been moved along. *)
Definition room_emplace {A} (x y : A) : list (op A) := [New A 0; PushBack A 0 (Val A x); PushBack A 0 (Val A y); Emplace A 0 0 (Elem A 0 1)].
Theorem C49_emplace_refuted A (mv selfmv : A -> A) x y : x <> y ->
  exists s e h v l c, lrun A (room_emplace x y) (lstart A) = Some s /\ s 0 = Some (l, c) /\ nth_error l 0 = Some y
   /\ run A true mv selfmv (room_emplace x y) (start A) = Some (e, h) /\ e 0 = Some v /\ get A 0 v h <> Some y.
Proof.
  intros N. assert (G : Some x <> Some y) by congruence. do 6 eexists.
  (split; [vm_compute; reflexivity|]); (split; [vm_compute; reflexivity|]); (split; [reflexivity|]); (split; [vm_compute; reflexivity|]); (split; [vm_compute; reflexivity|]). exact G.
Qed.
(** C48 for class types: erase(p, p) moves the elements behind p onto themselves. *)
Definition erase_nothing {A} (x : A) : list (op A) := [New A 0; PushBack A 0 (Val A x); EraseRange A 0 0 0].
Theorem C48_erase_nothing_refuted A (mv selfmv : A -> A) x : selfmv x <> x ->
  exists s e h v, lrun A (erase_nothing x) (lstart A) = Some s /\ s 0 = Some ([x], 16)
   /\ run A false mv selfmv (erase_nothing x) (start A) = Some (e, h) /\ e 0 = Some v /\ get A 0 v h <> Some x.
Proof.
  intros N. assert (G : Some (selfmv x) <> Some x) by congruence. do 4 eexists.
  (split; [vm_compute; reflexivity|]); (split; [vm_compute; reflexivity|]); (split; [vm_compute; reflexivity|]); (split; [vm_compute; reflexivity|]). exact G.
Qed.
(** C65 for class types: insert(pos, n, x) in the middle constructs over live objects; reserve frees the old block with its objects in it. *)
Definition lossy_insert {A} (x y : A) : list (op A) := [New A 0; PushBack A 0 (Val A x); PushBack A 0 (Val A y); InsertN A 0 0 1 (Val A y); Drop A 0].
Definition lossy_reserve {A} (x : A) : list (op A) := [New A 0; PushBack A 0 (Val A x); Reserve A 0 17; Drop A 0].
Theorem C65_insert_n_refuted A (mv selfmv : A -> A) x y :
  exists s e h, lrun A (lossy_insert x y) (lstart A) = Some s /\ all_benign A false (lossy_insert x y) (lstart A)
   /\ run A false mv selfmv (lossy_insert x y) (start A) = Some (e, h) /\ s 0 = None /\ lost A h <> [].
Proof. do 3 eexists. (split; [vm_compute; reflexivity|]). split; [vm_compute; repeat split|]. (split; [vm_compute; reflexivity|]). split; [reflexivity|]. discriminate. Qed.
Theorem C65_reserve_refuted A (mv selfmv : A -> A) x :
  exists s e h, lrun A (lossy_reserve x) (lstart A) = Some s /\ all_benign A false (lossy_reserve x) (lstart A)
   /\ run A false mv selfmv (lossy_reserve x) (start A) = Some (e, h) /\ s 0 = None /\ lost A h <> [].
Proof. do 3 eexists. (split; [vm_compute; reflexivity|]). split; [vm_compute; repeat split|]. (split; [vm_compute; reflexivity|]). split; [reflexivity|]. discriminate. Qed.

Print Assumptions C48_vector_is_list.
Print Assumptions C48_trivial_types.
Print Assumptions C49_with_room.
Print Assumptions C65_nothing_lost.
Print Assumptions C49_without_room_refuted.
Print Assumptions C49_emplace_refuted.
Print Assumptions C48_erase_nothing_refuted.
Print Assumptions C65_insert_n_refuted.
Print Assumptions C65_reserve_refuted.
