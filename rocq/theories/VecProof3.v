(** The member functions of vector that insert or assign several elements, and the constructors. *)
From Coq Require Import List Arith Bool Lia.
From Verif Require Import F64 VecModel VecSpec VecProof VecProof2.
Import ListNotations.
Open Scope opt_scope.

Section Proof.
Variable A : Type.
Variable triv : bool.
Variables mv selfmv : A -> A.
Notation heap := (heap A). Notation cell := (cell A). Notation ref := (ref A).
Notation Obj := (Obj A). Notation Raw := (Raw A). Notation Free := (Free A).
Notation mem := (mem A). Notation blk := (blk A). Notation next := (next A). Notation lost := (lost A).
Notation own := (own A triv). Notation wfh := (wfh A). Notation frame := (frame A). Notation res := (res A triv).
Notation good := (good A triv). Notation blank := (blank A triv). Notation livec := (livec A). Notation wr := (wr A triv). Notation same := (same A).
Notation moved := (moved A triv mv). Notation mvc := (mvc A mv). Notation argok := (argok A). Notation notbefore := (notbefore A triv).
Notation own_live := (own_live A triv). Notation own_blank := (own_blank A triv). Notation own_nth := (own_nth A triv). Notation blank_wr := (blank_wr A triv). Notation blank_raw := (blank_raw A triv). Notation live_wr := (live_wr A triv).
Notation asg_ok := (asg_ok A triv). Notation con_ok := (con_ok A triv). Notation des_ok := (des_ok A triv). Notation des_range_ok := (des_range_ok A triv).
Notation forward_ok := (forward_ok A triv mv selfmv). Notation backward_ok := (backward_ok A triv mv selfmv). Notation fill_ok := (fill_ok A triv).
Notation alloc_ok := (alloc_ok A). Notation dealloc_own := (dealloc_own A triv). Notation inplace := (inplace A triv). Notation moved_away := (moved_away A triv). Notation argok_val := (argok_val A). Notation val_keep := (val_keep A).
Notation push_room := (push_room A triv). Notation reallocate_ok := (reallocate_ok A triv mv selfmv). Notation livec_mvc := (livec_mvc A mv). Notation ins_end := (ins_end A).

Ltac bsplit :=
  repeat first
    [ match goal with
      | |- context [inr ?x ?a ?n] => destruct (inr_spec x a n)
      | |- context [?a =? ?b] => destruct (Nat.eqb_spec a b)
      | |- context [?a <=? ?b] => destruct (Nat.leb_spec a b)
      | |- context [?a <? ?b] => destruct (Nat.ltb_spec a b)
      end; cbn [andb negb orb]; try lia ].
Ltac slot S :=
  match goal with
  | |- VecProof.good _ _ (VecModel.mem _ _ ?a) (nth_error _ ?j) =>
      match type of S with forall i, i < _ -> VecProof.good _ _ (VecModel.mem _ _ (?vb + i)) _ => replace a with (vb + j) by lia; apply S; lia end
  end.
Ltac beyond O := rewrite ne_beyond by lia; cbn [VecProof.good]; first [apply blank_raw | apply (own_blank _ _ _ _ O); lia].
Ltac sizes := unfold size, capacity in *; cbn [vb ve vc] in *.
Ltac start WF O := pose proof WF as [WF1 WF2]; pose proof O as (E & C1 & C2 & C3 & C4 & S).

Notation same_trans := (same_trans A). Notation leave := (leave A triv). Notation three := (three A triv mv selfmv).
Notation erase_range_ok := (erase_range_ok A triv mv selfmv).

Lemma reserve_ok h v l n : wfh h -> own h v l -> res (reserve A triv mv selfmv n v h) h v l (Nat.max (capacity v) n) (triv = true).
Proof.
  intros WF O. start WF O. unfold reserve. destruct (Nat.ltb_spec (capacity v) n) as [Q|Q].
  - rewrite Nat.max_r by lia. unfold capacity in Q. unfold umove.
    destruct (alloc_ok n h ltac:(lia)) as (h1 & E1 & N1 & L1 & B1 & M1). rewrite E1.
    assert (P1 : forall i, i < length l -> mem h1 (vb v + i) = mem h (vb v + i)) by (intros i Hi; rewrite M1; bsplit; reflexivity).
    replace (size v) with (length l) by (unfold size; lia).
    destruct (forward_ok true true (length l) h1 (vb v) (next h)) as (h2 & E2 & [SB2 SN2] & L2 & M2).
    { intros i Hi. rewrite P1 by lia. apply (own_live h v l); [exact O|lia]. }
    { intros i Hi. rewrite M1. bsplit. split; discriminate. }
    { lia. }
    rewrite E2. cbn [obind].
    destruct (leave h v l h2 n n l) as (h5 & E5 & OW & FR & L5); auto; try lia.
    + intros q. rewrite SB2, B1. reflexivity.
    + intros a Ha Hb. destruct (inr_spec a (vb v) (blk h (vb v))); [discriminate|]. rewrite M2. unfold VecProof.moved. rewrite !M1. bsplit; rewrite ?andb_false_r; reflexivity.
    + intros T a Ha. rewrite M2. unfold VecProof.moved. rewrite !M1, T. cbn [negb andb]. bsplit; reflexivity.
    + intros i Hi. rewrite M2. unfold VecProof.moved. rewrite !M1. bsplit; rewrite ?andb_false_r; first [slot S|beyond O].
    + rewrite E5. cbn [obind]. eexists _, h5. split; [reflexivity|]. split; [exact OW|]. split; [unfold capacity; cbn; lia|]. split; [exact FR|].
      intros T. rewrite L5, L2, L1; auto. right. intros i Hi. rewrite M1. bsplit. apply blank_raw.
  - rewrite Nat.max_l by lia. eexists _, h. split; [reflexivity|]. split; [exact O|]. split; [reflexivity|]. split; [|auto].
    refine (conj WF (conj _ (conj _ _))); auto.
Qed.

Lemma shrink_ok h v l : wfh h -> own h v l -> res (shrink_to_fit A triv mv selfmv v h) h v l (length l) (triv = true).
Proof.
  intros WF O. start WF O. unfold shrink_to_fit. destruct (Nat.ltb_spec (ve v) (vc v)) as [Q|Q].
  - replace (size v) with (length l) by (unfold size; lia). unfold umove. destruct (Nat.eq_dec (length l) 0) as [Z|Z].
    + rewrite Z. unfold alloc. cbn [Nat.eqb].
      destruct (forward_ok true true 0 h (vb v) 0) as (h2 & E2 & [SB2 SN2] & L2 & M2); try lia.
      rewrite E2. cbn [obind].
      assert (M2' : forall x, mem h2 x = mem h x).
      { intros x. rewrite M2. unfold VecProof.moved. bsplit; rewrite ?andb_false_r; reflexivity. }
      destruct (dealloc_own (vb v) h2) as (h5 & E5 & N5 & L5 & B5 & M5).
      { split; [rewrite SB2; assumption|lia]. } { rewrite SB2. exact C4. }
      rewrite E5. cbn [obind]. rewrite SB2 in *. apply length_zero_iff_nil in Z. subst l. exists (mkV 0 0 0), h5. split; [reflexivity|].
      assert (B0 : blk h5 0 = 0) by (rewrite B5; bsplit; assumption).
      split. { unfold VecProof.own. cbn [vb ve vc length]. rewrite B0. refine (conj _ (conj _ (conj _ (conj _ (conj _ _))))); try lia. }
      split; [reflexivity|]. split.
      * refine (conj (conj B0 _) (conj _ (conj _ _))); try lia; [|right; right; reflexivity].
        intros a Ha Hb. rewrite M5, Hb, M2', B5. split; [reflexivity|]. bsplit; try reflexivity. subst a.
        destruct (inr_spec (vb v) (vb v) (blk h (vb v))); [discriminate|lia].
      * intros T. rewrite L5, L2; auto. { right. intros i Hi. lia. }
        intros i Hi. rewrite M2'. apply (own_blank h v [] i O); [cbn; lia|exact Hi].
    + destruct (alloc_ok (length l) h ltac:(lia)) as (h1 & E1 & N1 & L1 & B1 & M1). rewrite E1.
      assert (P1 : forall i, i < length l -> mem h1 (vb v + i) = mem h (vb v + i)) by (intros i Hi; rewrite M1; bsplit; reflexivity).
      destruct (forward_ok true true (length l) h1 (vb v) (next h)) as (h2 & E2 & [SB2 SN2] & L2 & M2).
      { intros i Hi. rewrite P1 by lia. apply (own_live h v l); [exact O|lia]. }
      { intros i Hi. rewrite M1. bsplit. split; discriminate. }
      { lia. }
      rewrite E2. cbn [obind].
      destruct (leave h v l h2 (length l) (length l) l) as (h5 & E5 & OW & FR & L5); auto; try lia.
      * intros q. rewrite SB2, B1. reflexivity.
      * intros a Ha Hb. destruct (inr_spec a (vb v) (blk h (vb v))); [discriminate|]. rewrite M2. unfold VecProof.moved. rewrite !M1. bsplit; rewrite ?andb_false_r; reflexivity.
      * intros T a Ha. rewrite M2. unfold VecProof.moved. rewrite !M1, T. cbn [negb andb]. bsplit; reflexivity.
      * intros i Hi. rewrite M2. unfold VecProof.moved. rewrite !M1. bsplit; rewrite ?andb_false_r; first [slot S|beyond O].
      * rewrite E5. cbn [obind]. eexists _, h5. split; [reflexivity|]. split; [exact OW|]. split; [unfold capacity; cbn; lia|]. split; [exact FR|].
        intros T. rewrite L5, L2, L1; auto. right. intros i Hi. rewrite M1. bsplit. apply blank_raw.
  - eexists _, h. split; [reflexivity|]. split; [exact O|]. split; [unfold capacity; lia|]. split; [|auto].
    refine (conj WF (conj _ (conj _ _))); auto.
Qed.

(** [f] writes ys to dst, whatever has happened in the block of v *)
Definition agree (h0 h : heap) (v : vec) : Prop := forall a, a < next h0 -> inr a (vb v) (blk h0 (vb v)) = false -> mem h a = mem h0 a.
Definition writes (h0 : heap) (v : vec) (f : heap -> option heap) (dst : nat) (ys : list A) : Prop :=
  forall h, agree h0 h v -> (forall i, i < length ys -> wr (negb triv) (mem h (dst + i))) ->
  exists h', f h = Some h' /\ same h h' /\ (triv = true \/ (forall i, i < length ys -> blank (mem h (dst + i))) -> lost h' = lost h)
    /\ (forall x, inr x dst (length ys) = false -> mem h' x = mem h x)
    /\ (forall i y, nth_error ys i = Some y -> mem h' (dst + i) = Obj y).
Lemma writes_fill h0 v dst n x : writes h0 v (fun h => ufill_n A triv n h dst (Ext A x)) dst (repeat x n).
Proof.
  intros h _ W. rewrite repeat_length in *. destruct (fill_ok (negb triv) n x (Ext A x) h dst W eq_refl) as (h' & E & S & L & M).
  exists h'. split; [exact E|]. split; [exact S|]. split.
  { intros [T|B]; apply L; [left; rewrite T; reflexivity|right; exact B]. }
  split.
  - intros y Hy. rewrite M, Hy. reflexivity.
  - intros i y Hi. rewrite ne_repeat in Hi. rewrite M. destruct (Nat.ltb_spec i n); [|discriminate]. bsplit. congruence.
Qed.
Definition srcok (h : heap) (v : vec) (first : nat) (xs : list A) : Prop :=
  forall i y, nth_error xs i = Some y -> mem h (first + i) = Obj y /\ first + i < next h /\ inr (first + i) (vb v) (blk h (vb v)) = false.
Lemma wr_mono c : wr (negb triv) c -> wr true c.
Proof. intros [W _]. split; [exact W|discriminate]. Qed.
Lemma writes_copy h0 v dst first xs : srcok h0 v first xs -> (forall i, i < length xs -> inr (dst + i) (vb v) (blk h0 (vb v)) = true \/ next h0 <= dst + i) ->
  (first + length xs <= dst \/ dst + length xs <= first) ->
  writes h0 v (fun h => ucopy A triv mv selfmv (length xs) h first dst) dst xs.
Proof.
  intros SO DI DJ h AG W.
  assert (SV : forall i y, nth_error xs i = Some y -> mem h (first + i) = Obj y).
  { intros i y Hi. destruct (SO i y Hi) as (H1 & H2 & H3). rewrite AG by assumption. exact H1. }
  assert (LV : forall i, i < length xs -> livec (mem h (first + i))).
  { intros i Hi. destruct (nth_error xs i) as [y|] eqn:Y; [|apply nth_error_None in Y; lia]. exists y. apply SV, Y. }
  destruct (forward_ok true false (length xs) h first dst) as (h' & E & S & L & M).
  { exact LV. } { intros i Hi. apply wr_mono, W, Hi. } { destruct (length xs); lia. }
  exists h'. split; [exact E|]. split; [exact S|]. split.
  { intros [T|B].
    - unfold ucopy, forward in E. rewrite T in E. unfold memmove in E. destruct (forallb _ _); [|discriminate E]. injection E as <-. reflexivity.
    - apply L; right; exact B. }
  split.
  - intros x Hx. rewrite M. unfold VecProof.moved. cbn [andb]. rewrite Hx. reflexivity.
  - intros i y Hi. assert (i < length xs) by (apply nth_error_Some; congruence). rewrite M. unfold VecProof.moved. bsplit. replace (first + (dst + i - dst)) with (first + i) by lia. apply SV, Hi.
Qed.

Lemma ins_case1 h v l xs k (w : heap -> option heap) : wfh h -> own h v l -> 0 < length xs -> k + length xs < length l -> length l + length xs <= capacity v ->
  writes h v w (vb v + k) xs ->
  res (let* h := ucopy A triv mv selfmv (length xs) h (ve v - length xs) (ve v) in
       let* h := move_backward A triv mv selfmv (ve v - (vb v + k) - length xs) h (vb v + k) (vb v + k + length xs) in
       let* h := w h in Some (mkV (vb v) (ve v + length xs) (vc v), h))
      h v (firstn k l ++ xs ++ skipn k l) (capacity v) (triv = true).
Proof.
  intros WF O NZ K C W. start WF O. unfold capacity in C. set (n := length xs) in *.
  change (ucopy A triv mv selfmv) with (forward A triv mv selfmv true false). change (move_backward A triv mv selfmv) with (backward A triv mv selfmv false true).
  destruct (forward_ok true false n h (ve v - n) (ve v)) as (h1 & E1 & S1 & L1 & M1).
  { intros i Hi. replace (ve v - n + i) with (vb v + (length l - n + i)) by lia. apply (own_live h v l); [exact O|lia]. }
  { intros i Hi. rewrite E. replace (vb v + length l + i) with (vb v + (length l + i)) by lia. apply blank_wr, (own_blank h v l); [exact O|lia|lia]. }
  { lia. }
  rewrite E1. cbn [obind].
  assert (P1 : forall i, i < length l -> mem h1 (vb v + i) = mem h (vb v + i)).
  { intros i Hi. rewrite M1. unfold VecProof.moved. bsplit; reflexivity. }
  destruct (backward_ok true (ve v - (vb v + k) - n) h1 (vb v + k) (vb v + k + n)) as (h2 & E2 & S2 & L2 & M2).
  { intros i Hi. replace (vb v + k + i) with (vb v + (k + i)) by lia. rewrite P1 by lia. apply (own_live h v l); [exact O|lia]. }
  { intros i Hi. replace (vb v + k + n + i) with (vb v + (k + n + i)) by lia. rewrite P1 by lia. apply live_wr, (own_live h v l); [exact O|lia]. }
  { lia. }
  rewrite E2. cbn [obind].
  assert (LV2 : forall i, i < n -> livec (mem h2 (vb v + k + i))).
  { intros i Hi. rewrite M2. unfold VecProof.moved. bsplit; replace (vb v + k + i) with (vb v + (k + i)) by lia; rewrite P1 by lia;
      pose proof (own_live h v l (k + i) O ltac:(lia)); destruct (negb triv); cbn [andb]; try apply livec_mvc; assumption. }
  destruct (W h2) as (h3 & E3 & S3 & L3 & M3 & X3).
  { intros a Ha Hb. destruct (inr_spec a (vb v) (blk h (vb v))); [discriminate|]. rewrite M2. unfold VecProof.moved. rewrite !M1. unfold VecProof.moved. cbn [andb]. bsplit; rewrite ?andb_false_r; reflexivity. }
  { intros i Hi. apply live_wr, LV2, Hi. }
  rewrite E3. cbn [obind]. fold n in M3.
  assert (LEN : length (firstn k l ++ xs ++ skipn k l) = length l + n) by (rewrite !app_length, firstn_length_le, skipn_length by lia; lia).
  destruct (inplace h v l h3 (ve v + n) (vc v) (firstn k l ++ xs ++ skipn k l)) as [OW FR]; auto; try lia.
  - eapply same_trans; [exact S1|]. eapply same_trans; [exact S2|exact S3].
  - intros a Ha. destruct (inr_spec a (vb v) (blk h (vb v))); [discriminate|]. rewrite M3 by (bsplit; reflexivity). rewrite M2. unfold VecProof.moved. rewrite !M1. unfold VecProof.moved. cbn [andb]. bsplit; rewrite ?andb_false_r; reflexivity.
  - intros i Hi. rewrite ne_ins by lia. fold n. destruct (Nat.ltb_spec i k); [|destruct (Nat.ltb_spec i (k + n))].
    + rewrite M3 by (bsplit; reflexivity). rewrite M2. unfold VecProof.moved. rewrite !M1. unfold VecProof.moved. cbn [andb]. bsplit; rewrite ?andb_false_r. slot S.
    + destruct (nth_error xs (i - k)) as [y|] eqn:Y; [|apply nth_error_None in Y; lia].
      replace (vb v + i) with (vb v + k + (i - k)) by lia. apply (X3 _ _ Y).
    + rewrite M3 by (bsplit; reflexivity). rewrite M2. unfold VecProof.moved. rewrite !M1. unfold VecProof.moved. cbn [andb].
      bsplit; rewrite ?andb_false_r; first [slot S|beyond O].
  - eexists _, h3. split; [reflexivity|]. split; [exact OW|]. split; [reflexivity|]. split; [exact FR|]. intros T.
    rewrite L3, L2, L1; auto. right. intros i Hi. rewrite E. replace (vb v + length l + i) with (vb v + (length l + i)) by lia. apply (own_blank h v l); [exact O|lia|lia].
Qed.

Lemma ins_case2 h v l xs k (w1 w2 : heap -> option heap) : wfh h -> own h v l -> k <= length l -> length l <= k + length xs -> length l + length xs <= capacity v ->
  writes h v w1 (ve v) (skipn (length l - k) xs) -> writes h v w2 (vb v + k) (firstn (length l - k) xs) ->
  res (let* h := w1 h in
       let* h := umove A triv mv selfmv (ve v - (vb v + k)) h (vb v + k) (ve v + (length xs - (ve v - (vb v + k)))) in
       let* h := w2 h in Some (mkV (vb v) (ve v + (length xs - (ve v - (vb v + k))) + (ve v - (vb v + k))) (vc v), h))
      h v (firstn k l ++ xs ++ skipn k l) (capacity v) (triv = true \/ k = length l).
Proof.
  intros WF O K K2 C W1 W2. start WF O. unfold capacity in C. set (n := length xs) in *.
  assert (LS : length (skipn (length l - k) xs) = n - (length l - k)) by (rewrite skipn_length; reflexivity).
  assert (LF : length (firstn (length l - k) xs) = length l - k) by (rewrite firstn_length_le; lia).
  replace (ve v - (vb v + k)) with (length l - k) by lia. set (m := length l - k) in *.
  assert (BL1 : forall i, i < n -> blank (mem h (ve v + i))).
  { intros i Hi. rewrite E. replace (vb v + length l + i) with (vb v + (length l + i)) by lia. apply (own_blank h v l); [exact O|lia|lia]. }
  assert (WR1 : forall c, blank c -> wr (negb triv) c).
  { intros c B. unfold VecProof.wr, VecProof.blank in *. destruct triv; (split; [congruence|discriminate]). }
  destruct (W1 h) as (h1 & E1 & S1 & L1 & M1 & X1).
  { intros a _ _. reflexivity. } { intros i Hi. apply WR1, BL1. lia. }
  rewrite E1. cbn [obind]. rewrite LS in *. unfold umove.
  assert (P1 : forall i, i < length l -> mem h1 (vb v + i) = mem h (vb v + i)) by (intros i Hi; apply M1; bsplit; reflexivity).
  assert (R1 : forall i, n - m <= i -> i < n -> blank (mem h1 (ve v + i))).
  { intros i Hi Hj. rewrite M1 by (bsplit; reflexivity). apply BL1, Hj. }
  destruct (forward_ok true true m h1 (vb v + k) (ve v + (n - m))) as (h2 & E2 & S2 & L2 & M2).
  { intros i Hi. replace (vb v + k + i) with (vb v + (k + i)) by lia. rewrite P1 by lia. apply (own_live h v l); [exact O|lia]. }
  { intros i Hi. replace (ve v + (n - m) + i) with (ve v + (n - m + i)) by lia. apply blank_wr, R1; lia. }
  { lia. }
  rewrite E2. cbn [obind].
  assert (LV2 : forall i, i < m -> livec (mem h2 (vb v + k + i))).
  { intros i Hi. rewrite M2. unfold VecProof.moved. bsplit; replace (vb v + k + i) with (vb v + (k + i)) by lia; rewrite P1 by lia;
      pose proof (own_live h v l (k + i) O ltac:(lia)); destruct (negb triv); cbn [andb]; try apply livec_mvc; assumption. }
  destruct (W2 h2) as (h3 & E3 & S3 & L3 & M3 & X3).
  { intros a Ha Hb. destruct (inr_spec a (vb v) (blk h (vb v))); [discriminate|]. rewrite M2. unfold VecProof.moved. bsplit. rewrite andb_false_r. apply M1. bsplit; reflexivity. }
  { intros i Hi. apply live_wr, LV2. lia. }
  rewrite E3. cbn [obind]. rewrite LF in *.
  assert (LEN : length (firstn k l ++ xs ++ skipn k l) = length l + n) by (rewrite !app_length, firstn_length_le, skipn_length by lia; lia).
  replace (ve v + (n - m) + m) with (ve v + n) by lia.
  destruct (inplace h v l h3 (ve v + n) (vc v) (firstn k l ++ xs ++ skipn k l)) as [OW FR]; auto; try lia.
  - eapply same_trans; [exact S1|]. eapply same_trans; [exact S2|exact S3].
  - intros a Ha. destruct (inr_spec a (vb v) (blk h (vb v))); [discriminate|]. rewrite M3 by (bsplit; reflexivity). rewrite M2. unfold VecProof.moved. bsplit. rewrite andb_false_r. apply M1. bsplit; reflexivity.
  - intros i Hi. rewrite ne_ins by lia. fold n. destruct (Nat.ltb_spec i k); [|destruct (Nat.ltb_spec i (k + n))].
    + rewrite M3 by (bsplit; reflexivity). rewrite M2. unfold VecProof.moved. bsplit. rewrite andb_false_r, M1 by (bsplit; reflexivity). slot S.
    + destruct (nth_error xs (i - k)) as [y|] eqn:Y; [|apply nth_error_None in Y; lia]. cbn [VecProof.good].
      destruct (Nat.lt_ge_cases i (length l)) as [H2|H2].
      * replace (vb v + i) with (vb v + k + (i - k)) by lia. apply X3. rewrite ne_firstn. bsplit. exact Y.
      * rewrite M3 by (bsplit; reflexivity). rewrite M2. unfold VecProof.moved.
        destruct (inr_spec (vb v + i) (ve v + (n - m)) m); [lia|]. destruct (inr_spec (vb v + i) (vb v + k) m); [lia|]. rewrite andb_false_r.
        replace (vb v + i) with (ve v + (i - length l)) by lia. apply X1. rewrite ne_skipn. replace (m + (i - length l)) with (i - k) by lia. exact Y.
    + rewrite M3 by (bsplit; reflexivity). rewrite M2. unfold VecProof.moved.
      destruct (inr_spec (vb v + i) (ve v + (n - m)) m).
      * rewrite M1 by (bsplit; reflexivity). slot S.
      * destruct (inr_spec (vb v + i) (vb v + k) m); [lia|]. rewrite andb_false_r, M1 by (bsplit; reflexivity). beyond O.
  - eexists _, h3. split; [reflexivity|]. split; [exact OW|]. split; [reflexivity|]. split; [exact FR|]. intros T.
    rewrite L3, L2, L1; auto.
    + right. intros i Hi. apply BL1. lia.
    + right. intros i Hi. replace (ve v + (n - m) + i) with (ve v + (n - m + i)) by lia. apply R1; lia.
    + destruct T as [T|T]; [left; exact T|right; intros; lia].
Qed.
End Proof.
