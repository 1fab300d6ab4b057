(** The member functions of vector that insert or assign several elements, the constructors and the destructor. *)
From Coq Require Import List Arith Bool Lia.
From Verif Require Import F64 VecModel VecSpec VecProof VecProof2 VecProof3.
Import ListNotations.
Open Scope opt_scope.

Section Proof.
Variable A : Type.
Variable triv : bool.
Variables mv selfmv : A -> A.
Notation heap := (heap A). Notation cell := (cell A). Notation ref := (ref A).
Notation Obj := (Obj A). Notation Raw := (Raw A). Notation Free := (Free A).
Notation mem := (mem A). Notation blk := (blk A). Notation next := (next A). Notation lost := (lost A).
Notation own := (own A triv). Notation wfh := (wfh A). Notation frame := (frame A). Notation res := (res A triv).
Notation good := (good A triv). Notation blank := (blank A triv). Notation livec := (livec A). Notation wr := (wr A triv). Notation same := (same A).
Notation moved := (moved A triv mv). Notation mvc := (mvc A mv). Notation argok := (argok A). Notation notbefore := (notbefore A triv).
Notation own_live := (own_live A triv). Notation own_blank := (own_blank A triv). Notation own_nth := (own_nth A triv). Notation blank_wr := (blank_wr A triv). Notation blank_raw := (blank_raw A triv). Notation live_wr := (live_wr A triv).
Notation asg_ok := (asg_ok A triv). Notation con_ok := (con_ok A triv). Notation des_ok := (des_ok A triv). Notation des_range_ok := (des_range_ok A triv).
Notation forward_ok := (forward_ok A triv mv selfmv). Notation backward_ok := (backward_ok A triv mv selfmv). Notation fill_ok := (fill_ok A triv).
Notation alloc_ok := (alloc_ok A). Notation dealloc_own := (dealloc_own A triv). Notation inplace := (inplace A triv). Notation moved_away := (moved_away A triv). Notation argok_val := (argok_val A). Notation val_keep := (val_keep A).
Notation push_room := (push_room A triv). Notation reallocate_ok := (reallocate_ok A triv mv selfmv). Notation livec_mvc := (livec_mvc A mv). Notation ins_end := (ins_end A).

Ltac bsplit :=
  repeat first
    [ match goal with
      | |- context [inr ?x ?a ?n] => destruct (inr_spec x a n)
      | |- context [?a =? ?b] => destruct (Nat.eqb_spec a b)
      | |- context [?a <=? ?b] => destruct (Nat.leb_spec a b)
      | |- context [?a <? ?b] => destruct (Nat.ltb_spec a b)
      end; cbn [andb negb orb]; try lia ].
Ltac slot S :=
  match goal with
  | |- VecProof.good _ _ (VecModel.mem _ _ ?a) (nth_error _ ?j) =>
      match type of S with forall i, i < _ -> VecProof.good _ _ (VecModel.mem _ _ (?vb + i)) _ => replace a with (vb + j) by lia; apply S; lia end
  end.
Ltac beyond O := rewrite ne_beyond by lia; cbn [VecProof.good]; first [apply blank_raw | apply (own_blank _ _ _ _ O); lia].
Ltac sizes := unfold size, capacity in *; cbn [vb ve vc] in *.
Ltac start WF O := pose proof WF as [WF1 WF2]; pose proof O as (E & C1 & C2 & C3 & C4 & S).

Notation same_trans := (same_trans A). Notation leave := (leave A triv). Notation three := (three A triv mv selfmv).
Notation erase_range_ok := (erase_range_ok A triv mv selfmv).

Notation writes := (writes A triv). Notation srcok := (srcok A). Notation writes_fill := (writes_fill A triv). Notation writes_copy := (writes_copy A triv mv selfmv).
Notation ins_case1 := (ins_case1 A triv mv selfmv). Notation ins_case2 := (ins_case2 A triv mv selfmv). Notation reserve_ok := (reserve_ok A triv mv selfmv).

Lemma res_weak o h v l c (P Q : Prop) : (Q -> P) -> res o h v l c P -> res o h v l c Q.
Proof. intros QP (v' & h' & H1 & H2 & H3 & H4 & H5). exists v', h'. auto 9. Qed.
Lemma res_id h v l c P : wfh h -> own h v l -> c = capacity v -> res (Some (v, h)) h v l c P.
Proof.
  intros WF O ->. exists v, h. split; [reflexivity|]. split; [exact O|]. split; [reflexivity|]. split; [|auto].
  refine (conj WF (conj _ (conj _ _))); auto.
Qed.

Lemma fill_insert_ok h v l r x k n : wfh h -> own h v l -> k <= length l -> argok h v r x -> (length l + n <= capacity v \/ notbefore v k r) ->
  res (fill_insert A triv mv selfmv k n r v h) h v (firstn k l ++ repeat x n ++ skipn k l) (room (length l) (capacity v) n) (triv = true).
Proof.
  intros WF O K AK NB. start WF O. unfold fill_insert.
  replace (size v <? k) with false by (symmetry; apply Nat.ltb_ge; unfold size; lia).
  destruct (Nat.eqb_spec n 0) as [Z|Z].
  { subst n. cbn [repeat app]. rewrite firstn_skipn. apply res_id; auto. apply room_same. unfold capacity. lia. }
  rewrite (argok_val _ _ _ _ AK). cbn [obind]. destruct (Nat.leb_spec n (vc v - ve v)) as [Q|Q].
  - rewrite room_same by (unfold capacity; lia). destruct (Nat.ltb_spec n (ve v - (vb v + k))) as [Q2|Q2].
    + pose proof (ins_case1 h v l (repeat x n) k (fun h => ufill_n A triv n h (vb v + k) (Ext A x)) WF O) as IC. rewrite !repeat_length in IC.
      apply IC; try (unfold capacity; lia). apply writes_fill.
    + apply (res_weak _ _ _ _ _ (triv = true \/ k = length l)); [auto|].
      pose proof (ins_case2 h v l (repeat x n) k (fun h => ufill_n A triv (n - (ve v - (vb v + k))) h (ve v) (Ext A x))
                   (fun h => ufill_n A triv (ve v - (vb v + k)) h (vb v + k) (Ext A x)) WF O) as IC. rewrite !repeat_length in IC.
      apply IC; try (unfold capacity; lia).
      * replace (skipn (length l - k) (repeat x n)) with (repeat x (n - (length l - k))).
        { replace (ve v - (vb v + k)) with (length l - k) by lia. apply writes_fill. }
        replace n with ((length l - k) + (n - (length l - k))) at 2 by lia. rewrite repeat_app, skipn_app, repeat_length, Nat.sub_diag.
        rewrite skipn_all2 by (rewrite repeat_length; lia). reflexivity.
      * replace (firstn (length l - k) (repeat x n)) with (repeat x (length l - k)).
        { replace (ve v - (vb v + k)) with (length l - k) by lia. apply writes_fill. }
        replace n with ((length l - k) + (n - (length l - k))) by lia. rewrite repeat_app, firstn_app, repeat_length, Nat.sub_diag.
        rewrite firstn_all2 by (rewrite repeat_length; lia). cbn [firstn]. rewrite app_nil_r. reflexivity.
  - rewrite room_grown by (unfold capacity; lia). rewrite new_cap. pose proof (grown_ge (capacity v) n) as GE.
    pose proof (three (grown (capacity v) n) k (fun p h => ufill_n A triv n h (p + k) r) h v l (repeat x n) WF O K) as T3.
    rewrite !repeat_length in T3. apply T3; try (unfold capacity in *; lia).
    intros h2 N2 Q2 T2 R2.
    assert (V2 : val A h2 r = Some x).
    { apply (val_keep h); [exact (argok_val _ _ _ _ AK)|]. intros a ->. destruct AK as (A1 & A2 & A3).
      destruct NB as [NB|[NB|NB]]; [unfold capacity in NB; lia|apply T2; assumption|]. apply Q2; [exact A1|exact NB]. }
    unfold capacity in *.
    destruct (fill_ok (negb triv) n x r h2 (next h + k)) as (h3 & E3 & S3 & L3 & M3); [|exact V2|].
    { intros i Hi. replace (next h + k + i) with (next h + (k + i)) by lia. rewrite R2 by lia. pose proof (@blank_raw) as B. unfold VecProof.wr, VecProof.blank in *. destruct triv; split; discriminate. }
    exists h3. split; [exact E3|]. split; [exact S3|]. split.
    { apply L3. right. intros i Hi. replace (next h + k + i) with (next h + (k + i)) by lia. rewrite R2 by lia. apply blank_raw. }
    split.
    + intros y Hy. rewrite M3, Hy. reflexivity.
    + intros i y Hi. rewrite ne_repeat in Hi. rewrite M3. destruct (Nat.ltb_spec i n); [|discriminate]. bsplit. congruence.
Qed.

Lemma resize_ok h v l r x n : wfh h -> own h v l -> argok h v r x -> (n <= capacity v \/ notbefore v (length l) r) ->
  res (resize A triv mv selfmv n r v h) h v (if n <? length l then firstn n l else l ++ repeat x (n - length l))
      (if n <? length l then capacity v else room (length l) (capacity v) (n - length l)) (triv = true).
Proof.
  intros WF O AK NB. start WF O. unfold resize. replace (size v) with (length l) by (unfold size; lia).
  destruct (Nat.ltb_spec n (length l)) as [Q|Q].
  - apply (res_weak _ _ _ _ _ True); [auto|]. replace (firstn n l) with (firstn n l ++ skipn (length l) l) by (rewrite skipn_all, app_nil_r; reflexivity). apply erase_range_ok; auto; lia.
  - rewrite <- (ins_end l). apply fill_insert_ok; auto. destruct NB as [NB|NB]; [left; unfold capacity in *; lia|right; exact NB].
Qed.

(** the parts of a readable range *)
Lemma srcok_part h v first xs m : srcok h v first xs -> srcok h v (first + m) (skipn m xs).
Proof. intros SO i y Hi. rewrite ne_skipn in Hi. specialize (SO (m + i) y Hi). rewrite Nat.add_assoc in SO. exact SO. Qed.
Lemma srcok_first h v first xs m : srcok h v first xs -> srcok h v first (firstn m xs).
Proof. intros SO i y Hi. rewrite ne_firstn in Hi. destruct (i <? m); [|discriminate]. exact (SO i y Hi). Qed.
Lemma srcok_apart h v first xs b n : srcok h v first xs -> vb v <= b -> b + n <= vb v + blk h (vb v) -> 0 < n -> 0 < length xs -> first + length xs <= b \/ b + n <= first.
Proof.
  intros SO B1 B2 N NX. assert (IN : forall i, i < length xs -> ~ (vb v <= first + i < vb v + blk h (vb v))).
  { intros i Hi. destruct (nth_error xs i) as [y|] eqn:Y; [|apply nth_error_None in Y; lia]. destruct (SO i y Y) as (_ & _ & H).
    destruct (inr_spec (first + i) (vb v) (blk h (vb v))); [discriminate|assumption]. }
  destruct (Nat.le_gt_cases (first + length xs) b); [left; assumption|]. destruct (Nat.le_gt_cases (b + n) first); [right; assumption|].
  exfalso. destruct (Nat.le_gt_cases b first).
  - apply (IN 0); lia.
  - apply (IN (b - first)); lia.
Qed.
Lemma writes_nil h v (f : heap -> option heap) dst : (forall h, exists h', f h = Some h' /\ same h h' /\ lost h' = lost h /\ forall x, mem h' x = mem h x) -> writes h v f dst [].
Proof. intros F h2 _ _. destruct (F h2) as (h' & E & S & L & M). exists h'. repeat split; auto; try apply S. intros [|i]; discriminate. Qed.
Lemma ucopy0 h a b : exists h', ucopy A triv mv selfmv 0 h a b = Some h' /\ same h h' /\ lost h' = lost h /\ forall x, mem h' x = mem h x.
Proof.
  destruct (forward_ok true false 0 h a b) as (h' & E & S & L & M); try lia. exists h'. split; [exact E|]. split; [exact S|]. split; [apply L; right; lia|].
  intros x. rewrite M. unfold VecProof.moved. bsplit; reflexivity.
Qed.
Lemma writes_copy' h v b first xs : srcok h v first xs -> vb v <= b -> b + length xs <= vb v + blk h (vb v) ->
  writes h v (fun h => ucopy A triv mv selfmv (length xs) h first b) b xs.
Proof.
  intros SO B1 B2. destruct xs as [|x xs].
  - apply writes_nil. intros h0. apply ucopy0.
  - apply writes_copy; [exact SO| |].
    + intros i Hi. left. bsplit; reflexivity.
    + apply (srcok_apart h v); auto; cbn [length]; lia.
Qed.

Lemma copy_insert_ok h v l k first xs : wfh h -> own h v l -> k <= length l -> srcok h v first xs ->
  res (copy_insert A triv mv selfmv k first (length xs) v h) h v (firstn k l ++ xs ++ skipn k l) (room (length l) (capacity v) (length xs)) (triv = true).
Proof.
  intros WF O K SO. start WF O. unfold copy_insert.
  replace (size v <? k) with false by (symmetry; apply Nat.ltb_ge; unfold size; lia).
  destruct (Nat.eqb_spec (length xs) 0) as [Z|Z].
  { apply length_zero_iff_nil in Z. subst xs. cbn [repeat app length]. rewrite firstn_skipn. apply res_id; auto. apply room_same. unfold capacity. lia. }
  destruct (Nat.leb_spec (length xs) (vc v - ve v)) as [Q|Q].
  - rewrite room_same by (unfold capacity; lia). destruct (Nat.ltb_spec (length xs) (ve v - (vb v + k))) as [Q2|Q2].
    + apply (ins_case1 h v l xs k (fun h => ucopy A triv mv selfmv (length xs) h first (vb v + k)) WF O); try (unfold capacity; lia).
      apply writes_copy'; auto; lia.
    + apply (res_weak _ _ _ _ _ (triv = true \/ k = length l)); [auto|].
      assert (LS : length (skipn (length l - k) xs) = length xs - (ve v - (vb v + k))) by (rewrite skipn_length; lia).
      assert (LF : length (firstn (length l - k) xs) = ve v - (vb v + k)) by (rewrite firstn_length_le; lia).
      apply (ins_case2 h v l xs k (fun h => ucopy A triv mv selfmv (length xs - (ve v - (vb v + k))) h (first + (ve v - (vb v + k))) (ve v))
                   (fun h => ucopy A triv mv selfmv (ve v - (vb v + k)) h first (vb v + k)) WF O); try (unfold capacity; lia).
      * rewrite <- LS. replace (ve v - (vb v + k)) with (length l - k) by lia. apply writes_copy'; [apply srcok_part, SO|lia|lia].
      * rewrite <- LF. apply writes_copy'; [apply srcok_first, SO|lia|lia].
  - rewrite room_grown by (unfold capacity; lia). rewrite new_cap. pose proof (grown_ge (capacity v) (length xs)) as GE.
    apply (three (grown (capacity v) (length xs)) k (fun p h => ucopy A triv mv selfmv (length xs) h first (p + k)) h v l xs WF O K); try (unfold capacity in *; lia).
    intros h2 N2 Q2 T2 R2.
    assert (FL : first + length xs <= next h).
    { destruct (nth_error xs (length xs - 1)) as [y|] eqn:Y; [|apply nth_error_None in Y; lia]. destruct (SO _ y Y) as (_ & H & _). lia. }
    destruct (writes_copy h v (next h + k) first xs SO) with (h := h2) as (h3 & E3 & S3 & L3 & M3 & X3).
    + intros i Hi. right. lia.
    + left. lia.
    + intros a Ha Hb. destruct (inr_spec a (vb v) (blk h (vb v))); [discriminate|]. apply Q2; [exact Ha|lia].
    + intros i Hi. unfold capacity in *. replace (next h + k + i) with (next h + (k + i)) by lia. rewrite R2 by lia. unfold VecProof.wr. destruct triv; split; discriminate.
    + exists h3. split; [exact E3|]. split; [exact S3|]. split; [|split; assumption].
      apply L3. right. intros i Hi. unfold capacity in *. replace (next h + k + i) with (next h + (k + i)) by lia. rewrite R2 by lia. apply blank_raw.
Qed.

Lemma own_null h : wfh h -> own h null_vec [].
Proof. intros [W1 W2]. unfold VecProof.own. cbn. rewrite W1. refine (conj _ (conj _ (conj _ (conj _ (conj _ _))))); try lia. Qed.
Lemma own_frame h h' v v' w l : own h w l -> (forall a, inr a (vb w) (blk h (vb w)) = true -> inr a (vb v) (blk h (vb v)) = false) -> wfh h -> frame h h' v v' ->
  own h' w l /\ blk h' (vb w) = blk h (vb w).
Proof.
  intros O D WF (WF' & NX & K & _). start WF O.
  assert (B : blk h' (vb w) = blk h (vb w)).
  { destruct (Nat.eq_dec (vb w) 0) as [Z|Z]; [rewrite Z, WF1; apply WF'|]. apply K; [lia|]. apply D. bsplit; reflexivity. }
  split; [|exact B]. unfold VecProof.own. rewrite B. refine (conj _ (conj _ (conj _ (conj _ (conj _ _))))); try lia; try assumption.
  intros i Hi. destruct (K (vb w + i)) as [M _]; [lia|apply D; bsplit; reflexivity|]. rewrite M. apply S, Hi.
Qed.

Lemma destructor_ok h v l : wfh h -> own h v l -> exists h', destructor A triv v h = Some h' /\ frame h h' v null_vec /\ lost h' = lost h.
Proof.
  intros WF O. start WF O. unfold destructor, destroy_and_recover. replace (size v) with (length l) by (unfold size; lia).
  destruct (des_range_ok (length l) h (vb v)) as (h1 & E1 & [SB SN] & L1 & M1). { intros i Hi. apply (own_live h v l); [exact O|exact Hi]. }
  rewrite E1. cbn [obind]. destruct (dealloc_own (vb v) h1) as (h2 & E2 & N2 & L2 & B2 & M2).
  { split; [rewrite SB; assumption|lia]. } { rewrite SB. exact C4. }
  rewrite SB in *. exists h2. split; [exact E2|]. split.
  - refine (conj (conj _ _) (conj _ (conj _ _))); try lia; [rewrite B2; bsplit; assumption| |right; right; reflexivity].
    intros a Ha Hb. rewrite M2, Hb, M1, B2. destruct (inr_spec a (vb v) (blk h (vb v))); [discriminate|]. split; [bsplit; rewrite andb_false_r; reflexivity|].
    bsplit; subst; try reflexivity; lia.
  - rewrite L2, L1; [reflexivity|]. intros i Hi. rewrite M1. destruct (Nat.lt_ge_cases i (length l)) as [H|H].
    + destruct (own_live h v l i O H) as [w W]. rewrite W. unfold VecProof.blank. bsplit. destruct triv; [discriminate|reflexivity].
    + bsplit. rewrite andb_false_r. apply (own_blank h v l); auto.
Qed.

Lemma fill_init_ok h r x n : wfh h -> val A h r = Some x -> (match r with Ext _ _ => True | At _ a => a < next h end) ->
  res (fill_init A triv n r h) h null_vec (repeat x n) (Nat.max n 16) True.
Proof.
  intros WF V AL. pose proof WF as [WF1 WF2]. unfold fill_init, init_space. rewrite (Nat.max_comm 16 n).
  destruct (alloc_ok (Nat.max n 16) h ltac:(lia)) as (h1 & E1 & N1 & L1 & B1 & M1). rewrite E1. cbn [vb].
  destruct (fill_ok (negb triv) n x r h1 (next h)) as (h2 & E2 & [SB2 SN2] & L2 & M2).
  { intros i Hi. rewrite M1. bsplit. unfold VecProof.wr. destruct triv; split; discriminate. }
  { apply (val_keep h); [exact V|]. intros a ->. rewrite M1. bsplit; reflexivity. }
  unfold ufill_n. rewrite E2. cbn [obind].
  destruct (moved_away h null_vec [] h2 (Nat.max n 16) (Nat.max n 16) (repeat x n)) as [OW FR]; auto; try (rewrite ?repeat_length; lia).
  - apply own_null, WF.
  - intros q. rewrite SB2, B1. cbn [vb null_vec]. bsplit; subst; auto.
  - intros a Ha _. rewrite M2, M1. bsplit; reflexivity.
  - intros i Hi. rewrite ne_repeat, M2, M1. bsplit; [reflexivity|]. apply blank_raw.
  - rewrite repeat_length in *. eexists _, h2. split; [reflexivity|]. split; [exact OW|]. split; [unfold capacity; cbn; lia|]. split; [exact FR|]. intros _.
    rewrite L2, L1; auto. right. intros i Hi. rewrite M1. bsplit. apply blank_raw.
Qed.
Lemma range_init_ok h first xs : wfh h -> (forall i y, nth_error xs i = Some y -> mem h (first + i) = Obj y /\ first + i < next h) ->
  res (range_init A triv mv selfmv first (length xs) h) h null_vec xs (Nat.max (length xs) 16) True.
Proof.
  intros WF SO. pose proof WF as [WF1 WF2]. unfold range_init, init_space.
  destruct (alloc_ok (Nat.max (length xs) 16) h ltac:(lia)) as (h1 & E1 & N1 & L1 & B1 & M1). rewrite E1. cbn [vb].
  assert (FL : length xs = 0 \/ first + length xs <= next h).
  { destruct (nth_error xs (length xs - 1)) as [y|] eqn:Y; [|apply nth_error_None in Y; lia]. destruct (SO _ y Y) as (_ & H). lia. }
  assert (LV : forall i y, nth_error xs i = Some y -> mem h1 (first + i) = Obj y).
  { intros i y Hi. destruct (SO i y Hi). rewrite M1. bsplit. assumption. }
  destruct (forward_ok true false (length xs) h1 first (next h)) as (h2 & E2 & [SB2 SN2] & L2 & M2).
  { intros i Hi. destruct (nth_error xs i) as [y|] eqn:Y; [|apply nth_error_None in Y; lia]. exists y. apply LV, Y. }
  { intros i Hi. rewrite M1. bsplit. split; discriminate. } { lia. }
  unfold ucopy. rewrite E2. cbn [obind].
  destruct (moved_away h null_vec [] h2 (Nat.max (length xs) 16) (Nat.max (length xs) 16) xs) as [OW FR]; auto; try lia.
  - apply own_null, WF.
  - intros q. rewrite SB2, B1. cbn [vb null_vec]. bsplit; subst; auto.
  - intros a Ha _. rewrite M2. unfold VecProof.moved. cbn [andb]. bsplit. rewrite M1. bsplit; reflexivity.
  - intros i Hi. rewrite M2. unfold VecProof.moved. cbn [andb]. bsplit.
    + replace (next h + i - next h) with i by lia. destruct (nth_error xs i) as [y|] eqn:Y; [|apply nth_error_None in Y; lia]. apply LV, Y.
    + rewrite ne_beyond by lia. rewrite M1. bsplit. apply blank_raw.
  - eexists _, h2. split; [reflexivity|]. split; [exact OW|]. split; [unfold capacity; cbn; lia|]. split; [exact FR|]. intros _.
    rewrite L2, L1; auto. right. intros i Hi. rewrite M1. bsplit. apply blank_raw.
Qed.
Lemma new_empty_ok h : wfh h -> res (Some (new_empty A h)) h null_vec [] 16 True.
Proof.
  intros WF. pose proof WF as [WF1 WF2]. unfold new_empty. destruct (alloc_ok 16 h ltac:(lia)) as (h1 & E1 & N1 & L1 & B1 & M1). rewrite E1.
  destruct (moved_away h null_vec [] h1 16 16 []) as [OW FR]; auto; try (cbn; lia).
  - apply own_null, WF.
  - intros q. rewrite B1. cbn [vb null_vec]. bsplit; subst; auto.
  - intros a Ha _. rewrite M1. bsplit; reflexivity.
  - intros i Hi. rewrite M1. bsplit. destruct i; apply blank_raw.
  - cbn [length] in *. rewrite Nat.add_0_r in *. eexists _, h1. split; [reflexivity|]. split; [exact OW|]. split; [unfold capacity; cbn; lia|]. split; [exact FR|auto].
Qed.

(** build a new vector, then destroy the old one (copy and swap) *)
Lemma replaced h v l l' c (mk : option (vec * heap)) : wfh h -> own h v l -> res mk h null_vec l' c True -> (0 < c) ->
  res (let* (tmp, h) := mk in let* h := destructor A triv v h in Some (tmp, h)) h v l' c True.
Proof.
  intros WF O (t & h1 & E1 & O1 & C1' & F1 & L1) CP. start WF O. rewrite E1. cbn [obind]. pose proof F1 as (W1 & N1 & K1 & P1).
  destruct (own_frame h h1 null_vec t v l O) as [Ov Bv]; auto. { intros a _. cbn [vb null_vec]. rewrite WF1. bsplit; reflexivity. }
  destruct (destructor_ok h1 v l W1 Ov) as (h2 & E2 & F2 & L2). rewrite E2. cbn [obind].
  pose proof F2 as (W2 & N2 & K2 & _).
  pose proof O1 as (X1 & X2 & X3 & X4 & X5 & X6). unfold capacity in C1'.
  assert (T : next h <= vb t).
  { destruct P1 as [[P _]|[P|P]]; [cbn in P|exact P|]; rewrite P in *; destruct W1 as [W1 _]; lia. }
  destruct (own_frame h1 h2 v null_vec t l' O1) as [Ot Bt]; auto.
  { intros a Ha. destruct (inr_spec a (vb t) (blk h1 (vb t))); [|discriminate]. rewrite Bv. bsplit; reflexivity. }
  exists t, h2. split; [reflexivity|]. split; [exact Ot|]. split; [exact C1'|]. split; [|intros _; rewrite L2; auto].
  refine (conj W2 (conj _ (conj _ _))); [lia| |right; left; exact T].
  intros a Ha Hb. destruct (K1 a Ha) as [Q1 Q2]. { cbn [vb null_vec]. rewrite WF1. bsplit; reflexivity. }
  destruct (K2 a) as [Q3 Q4]; [lia|rewrite Bv; exact Hb|]. split; congruence.
Qed.

Lemma assign_fill_ok h v l r x n : wfh h -> own h v l -> argok h v r x ->
  res (assign_fill A triv mv selfmv n r v h) h v (repeat x n) (if capacity v <? n then Nat.max n 16 else capacity v) True.
Proof.
  intros WF O AK. start WF O. unfold assign_fill. pose proof (argok_val _ _ _ _ AK) as V. destruct (Nat.ltb_spec (capacity v) n) as [Q|Q].
  - apply (replaced h v l); auto; [|lia]. apply fill_init_ok; auto. destruct r; [exact I|apply AK].
  - replace (size v) with (length l) by (unfold size; lia). unfold capacity in *. destruct (Nat.ltb_spec (length l) n) as [Q2|Q2].
    + unfold fill_n, ufill_n. destruct (fill_ok false (length l) x r h (vb v)) as (h1 & E1 & S1 & L1 & M1); [|exact V|].
      { intros i Hi. apply live_wr, (own_live h v l); [exact O|lia]. }
      rewrite E1. cbn [obind]. destruct (fill_ok (negb triv) (n - length l) x r h1 (ve v)) as (h2 & E2 & S2 & L2 & M2).
      { intros i Hi. rewrite M1. bsplit. rewrite E. replace (vb v + length l + i) with (vb v + (length l + i)) by lia.
        pose proof (own_blank h v l (length l + i) O ltac:(lia) ltac:(lia)) as B. unfold VecProof.wr, VecProof.blank in *. destruct triv; (split; [congruence|discriminate]). }
      { destruct r as [y|a]; cbn [val] in *; [exact V|]. unfold rd in *. rewrite M1. destruct (inr a (vb v) (length l)); [reflexivity|exact V]. }
      rewrite E2. cbn [obind].
      destruct (inplace h v l h2 (ve v + (n - length l)) (vc v) (repeat x n)) as [OW FR]; auto; try (rewrite ?repeat_length; lia).
      * eapply same_trans; [exact S1|exact S2].
      * intros a Ha. destruct (inr_spec a (vb v) (blk h (vb v))); [discriminate|]. rewrite M2, M1. bsplit; reflexivity.
      * intros i Hi. rewrite ne_repeat, M2, M1. bsplit; try reflexivity. apply (own_blank h v l); auto; lia.
      * eexists _, h2. split; [reflexivity|]. split; [exact OW|]. split; [reflexivity|]. split; [exact FR|]. intros _. rewrite L2, L1; auto.
        right. intros i Hi. rewrite M1. bsplit. rewrite E. replace (vb v + length l + i) with (vb v + (length l + i)) by lia. apply (own_blank h v l); auto; lia.
    + unfold fill_n. destruct (fill_ok false n x r h (vb v)) as (h1 & E1 & S1 & L1 & M1); [|exact V|].
      { intros i Hi. apply live_wr, (own_live h v l); [exact O|lia]. }
      rewrite E1. cbn [obind].
      assert (LEN : length (repeat x n ++ skipn n l) = length l) by (rewrite app_length, repeat_length, skipn_length; lia).
      destruct (inplace h v l h1 (ve v) (vc v) (repeat x n ++ skipn n l)) as [OW FR]; auto; try lia.
      * intros a Ha. destruct (inr_spec a (vb v) (blk h (vb v))); [discriminate|]. rewrite M1. bsplit; reflexivity.
      * intros i Hi. rewrite ne_app, repeat_length, ne_repeat, ne_skipn, M1. bsplit; first [reflexivity|slot S].
      * replace (mkV (vb v) (ve v) (vc v)) with v in * by (destruct v; reflexivity).
        pose proof FR as (W1 & N1 & K1 & P1). destruct S1 as [SB SN].
        destruct (erase_range_ok h1 v (repeat x n ++ skipn n l) n (length l) W1 OW) as (v' & h2 & E2 & O2 & CC & F2 & L2); try lia.
        assert (SH : firstn n (repeat x n ++ skipn n l) ++ skipn (length l) (repeat x n ++ skipn n l) = repeat x n).
        { rewrite (skipn_all2 _ (n := length l)) by lia. rewrite firstn_app, repeat_length, Nat.sub_diag, firstn_all2 by (rewrite repeat_length; lia).
          cbn [firstn]. rewrite !app_nil_r. reflexivity. }
        rewrite SH in O2.
        exists v', h2. split; [exact E2|]. split; [exact O2|]. split; [exact CC|]. split; [|intros _; rewrite L2, L1; auto].
        destruct F2 as (W2 & N2 & K2 & P2). rewrite SB, SN in *. refine (conj W2 (conj N2 (conj _ P2))).
        intros a Ha Hb. destruct (K2 a Ha Hb) as [Z1 Z2]. rewrite Z1, Z2. apply K1; assumption.
Qed.

(** the two assignments of a range differ in the capacity *)
Lemma assign_gen h v l first xs (cap' : nat) : wfh h -> own h v l -> srcok h v first xs -> length xs <= capacity v ->
  (length l < length xs -> length xs <= cap' /\ cap' <= capacity v) -> (length xs <= length l -> cap' = capacity v) ->
  res (if length xs <=? length l then
         let* h := copy A triv mv selfmv (length xs) h first (vb v) in
         let* h := des_range A triv (length l - length xs) h (vb v + length xs) in
         Some (mkV (vb v) (vb v + length xs) (vc v), h)
       else
         let* h := copy A triv mv selfmv (length l) h first (vb v) in
         let* h := ucopy A triv mv selfmv (length xs - length l) h (first + length l) (ve v) in
         Some (mkV (vb v) (vb v + length xs) (vb v + cap'), h))
      h v xs cap' True.
Proof.
  intros WF O SO Q K1 K2. start WF O. unfold capacity in *. unfold copy, ucopy.
  assert (LV : forall i, i < length xs -> livec (mem h (first + i))).
  { intros i Hi. destruct (nth_error xs i) as [y|] eqn:Y; [|apply nth_error_None in Y; lia]. exists y. apply (SO i y Y). }
  assert (AP : length xs = 0 \/ blk h (vb v) = 0 \/ first + length xs <= vb v \/ vb v + blk h (vb v) <= first).
  { destruct (Nat.eq_dec (length xs) 0); [left; assumption|right]. destruct (Nat.eq_dec (blk h (vb v)) 0); [left; assumption|right]. apply (srcok_apart h v); auto; lia. }
  assert (SL : forall i o, nth_error xs i = o -> i < length xs -> exists y, o = Some y /\ mem h (first + i) = Obj y).
  { intros i o Y Hi. destruct o as [y|]; [|apply nth_error_None in Y; lia]. exists y. split; [reflexivity|]. apply (SO i y Y). }
  destruct (Nat.leb_spec (length xs) (length l)) as [Q2|Q2].
  - destruct (forward_ok false false (length xs) h first (vb v)) as (h1 & E1 & S1 & L1 & M1).
    { exact LV. } { intros i Hi. apply live_wr, (own_live h v l); [exact O|lia]. } { lia. }
    rewrite E1. cbn [obind].
    assert (LV1 : forall i, i < length l -> livec (mem h1 (vb v + i))).
    { intros i Hi. rewrite M1. unfold VecProof.moved. cbn [andb]. bsplit; [apply LV; lia|apply (own_live h v l); auto]. }
    destruct (des_range_ok (length l - length xs) h1 (vb v + length xs)) as (h2 & E2 & S2 & L2 & M2).
    { intros i Hi. replace (vb v + length xs + i) with (vb v + (length xs + i)) by lia. apply LV1; lia. }
    rewrite E2. cbn [obind].
    destruct (inplace h v l h2 (vb v + length xs) (vc v) xs) as [OW FR]; auto; try lia.
    + eapply same_trans; [exact S1|exact S2].
    + intros a Ha. destruct (inr_spec a (vb v) (blk h (vb v))); [discriminate|]. rewrite M2, M1. unfold VecProof.moved. cbn [andb]. bsplit; rewrite ?andb_false_r; reflexivity.
    + intros i Hi. rewrite M2. destruct (inr_spec (vb v + i) (vb v + length xs) (length l - length xs)) as [H|H].
      * rewrite ne_beyond by lia. cbn [VecProof.good]. destruct (LV1 i) as [w W]; [lia|]. rewrite W. unfold VecProof.blank. destruct triv; [discriminate|reflexivity].
      * rewrite andb_false_r, M1. unfold VecProof.moved. cbn [andb]. bsplit.
        -- destruct (SL i _ eq_refl) as (y & Y1 & Y2); [lia|]. rewrite Y1. replace (first + (vb v + i - vb v)) with (first + i) by lia. exact Y2.
        -- beyond O.
    + eexists _, h2. split; [reflexivity|]. split; [exact OW|]. split; [unfold capacity; cbn; rewrite K2; lia|]. split; [exact FR|]. intros _. rewrite L2, L1; auto.
  - destruct (forward_ok false false (length l) h first (vb v)) as (h1 & E1 & S1 & L1 & M1).
    { intros i Hi. apply LV. lia. } { intros i Hi. apply live_wr, (own_live h v l); [exact O|lia]. } { lia. }
    rewrite E1. cbn [obind].
    assert (B1 : forall i, i < length xs - length l -> blank (mem h1 (ve v + i))).
    { intros i Hi. rewrite M1. unfold VecProof.moved. cbn [andb]. bsplit. rewrite E. replace (vb v + length l + i) with (vb v + (length l + i)) by lia. apply (own_blank h v l); auto; lia. }
    assert (P1 : forall i, i < length xs -> mem h1 (first + i) = mem h (first + i)).
    { intros i Hi. rewrite M1. unfold VecProof.moved. cbn [andb]. bsplit; reflexivity. }
    destruct (forward_ok true false (length xs - length l) h1 (first + length l) (ve v)) as (h2 & E2 & S2 & L2 & M2).
    { intros i Hi. replace (first + length l + i) with (first + (length l + i)) by lia. rewrite P1 by lia. apply LV. lia. }
    { intros i Hi. apply blank_wr, B1, Hi. } { lia. }
    rewrite E2. cbn [obind].
    destruct (inplace h v l h2 (vb v + length xs) (vb v + cap') xs) as [OW FR]; auto; try lia.
    + eapply same_trans; [exact S1|exact S2].
    + intros a Ha. destruct (inr_spec a (vb v) (blk h (vb v))); [discriminate|]. rewrite M2. unfold VecProof.moved. cbn [andb]. bsplit. rewrite M1. unfold VecProof.moved. cbn [andb]. bsplit; reflexivity.
    + intros i Hi. rewrite M2. unfold VecProof.moved. cbn [andb]. bsplit.
      * replace (first + length l + (vb v + i - ve v)) with (first + i) by lia. rewrite P1 by lia. destruct (SL i _ eq_refl) as (y & Y1 & Y2); [lia|]. rewrite Y1. exact Y2.
      * rewrite M1. unfold VecProof.moved. cbn [andb]. bsplit.
        -- destruct (SL i _ eq_refl) as (y & Y1 & Y2); [lia|]. rewrite Y1. replace (first + (vb v + i - vb v)) with (first + i) by lia. exact Y2.
        -- beyond O.
    + eexists _, h2. split; [reflexivity|]. split; [exact OW|]. split; [unfold capacity; cbn; lia|]. split; [exact FR|]. intros _. rewrite L2, L1; auto.
Qed.

Lemma assign_range_ok h v l first xs : wfh h -> own h v l -> srcok h v first xs ->
  res (assign_range A triv mv selfmv first (length xs) v h) h v xs (if capacity v <? length xs then Nat.max (length xs) 16 else capacity v) True.
Proof.
  intros WF O SO. start WF O. unfold assign_range. destruct (Nat.ltb_spec (capacity v) (length xs)) as [Q|Q].
  - apply (replaced h v l); auto; [|lia]. apply range_init_ok; auto. intros i y Hi. destruct (SO i y Hi) as (? & ? & _). auto.
  - pose proof (assign_gen h v l first xs (capacity v) WF O SO Q ltac:(lia) ltac:(lia)) as G. replace (size v) with (length l) by (unfold size; lia).
    destruct (Nat.leb_spec (length xs) (length l)) as [Q2|Q2]; [exact G|].
    replace (ve v + (length xs - length l)) with (vb v + length xs) by lia. replace (vb v + capacity v) with (vc v) in G by (unfold capacity; lia). exact G.
Qed.
Lemma assign_copy_ok h v l w xs : wfh h -> own h v l -> srcok h v (vb w) xs -> size w = length xs ->
  res (assign_copy A triv mv selfmv v w h) h v xs (assigned_cap (length l) (capacity v) (length xs)) True.
Proof.
  intros WF O SO SZ. start WF O. unfold assign_copy, assigned_cap. rewrite SZ. destruct (Nat.ltb_spec (capacity v) (length xs)) as [Q|Q].
  - apply (replaced h v l); auto; [|lia]. apply range_init_ok; auto. intros i y Hi. destruct (SO i y Hi) as (? & ? & _). auto.
  - replace (size v) with (length l) by (unfold size; lia).
    pose proof (assign_gen h v l (vb w) xs (if length xs <=? length l then capacity v else length xs) WF O SO Q) as G.
    destruct (Nat.leb_spec (length xs) (length l)) as [Q2|Q2]; apply G; lia.
Qed.
Lemma set_ok h v l k x : wfh h -> own h v l -> k < length l -> exists h', set A triv k x v h = Some h' /\ own h' v (firstn k l ++ x :: skipn (S k) l)
  /\ frame h h' v v /\ lost h' = lost h.
Proof.
  intros WF O K. start WF O. unfold set. replace (k <? size v) with true by (symmetry; apply Nat.ltb_lt; unfold size; lia).
  destruct (asg_ok h (vb v + k) x) as (h1 & E1 & S1 & L1 & M1). { apply live_wr, (own_live h v l); auto. }
  exists h1. split; [exact E1|]. rewrite <- (and_assoc _ _ (lost h1 = lost h)). split; [|exact L1].
  assert (LEN : length (firstn k l ++ x :: skipn (Datatypes.S k) l) = length l) by (rewrite app_length; cbn [length]; rewrite firstn_length_le, skipn_length by lia; lia).
  replace v with (mkV (vb v) (ve v) (vc v)) at 1 3 by (destruct v; reflexivity).
  apply (inplace h v l); auto; try lia.
  - intros a Ha. destruct (inr_spec a (vb v) (blk h (vb v))); [discriminate|]. rewrite M1. bsplit; reflexivity.
  - intros i Hi. rewrite ne_app, firstn_length_le, ne_firstn, M1 by lia. bsplit.
    + replace (i - k) with 0 by lia. reflexivity.
    + slot S.
    + replace (i - k) with (Datatypes.S (i - k - 1)) by lia. cbn [nth_error]. rewrite ne_skipn. slot S.
Qed.
End Proof.
