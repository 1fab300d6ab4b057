(** The other member functions of vector. *)
From Coq Require Import List Arith Bool Lia.
From Verif Require Import F64 VecModel VecSpec VecProof.
Import ListNotations.
Open Scope opt_scope.

Section Proof.
Variable A : Type.
Variable triv : bool.
Variables mv selfmv : A -> A.
Notation heap := (heap A). Notation cell := (cell A). Notation ref := (ref A).
Notation Obj := (Obj A). Notation Raw := (Raw A). Notation Free := (Free A).
Notation mem := (mem A). Notation blk := (blk A). Notation next := (next A). Notation lost := (lost A).
Notation own := (own A triv). Notation wfh := (wfh A). Notation frame := (frame A). Notation res := (res A triv).
Notation good := (good A triv). Notation blank := (blank A triv). Notation livec := (livec A). Notation wr := (wr A triv). Notation same := (same A).
Notation moved := (moved A triv mv). Notation mvc := (mvc A mv). Notation argok := (argok A). Notation notbefore := (notbefore A triv).
Notation own_live := (own_live A triv). Notation own_blank := (own_blank A triv). Notation own_nth := (own_nth A triv). Notation blank_wr := (blank_wr A triv). Notation blank_raw := (blank_raw A triv). Notation live_wr := (live_wr A triv).
Notation asg_ok := (asg_ok A triv). Notation con_ok := (con_ok A triv). Notation des_ok := (des_ok A triv). Notation des_range_ok := (des_range_ok A triv).
Notation forward_ok := (forward_ok A triv mv selfmv). Notation backward_ok := (backward_ok A triv mv selfmv). Notation fill_ok := (fill_ok A triv).
Notation alloc_ok := (alloc_ok A). Notation dealloc_own := (dealloc_own A triv). Notation inplace := (inplace A triv). Notation moved_away := (moved_away A triv). Notation argok_val := (argok_val A). Notation val_keep := (val_keep A).
Notation push_room := (push_room A triv). Notation reallocate_ok := (reallocate_ok A triv mv selfmv). Notation livec_mvc := (livec_mvc A mv). Notation ins_end := (ins_end A).

Ltac bsplit :=
  repeat first
    [ match goal with
      | |- context [inr ?x ?a ?n] => destruct (inr_spec x a n)
      | |- context [?a =? ?b] => destruct (Nat.eqb_spec a b)
      | |- context [?a <=? ?b] => destruct (Nat.leb_spec a b)
      | |- context [?a <? ?b] => destruct (Nat.ltb_spec a b)
      end; cbn [andb negb orb]; try lia ].
Ltac slot S :=
  match goal with
  | |- VecProof.good _ _ (VecModel.mem _ _ ?a) (nth_error _ ?j) =>
      match type of S with forall i, i < _ -> VecProof.good _ _ (VecModel.mem _ _ (?vb + i)) _ => replace a with (vb + j) by lia; apply S; lia end
  end.
Ltac beyond O := rewrite ne_beyond by lia; cbn [VecProof.good]; first [apply blank_raw | apply (own_blank _ _ _ _ O); lia].
Ltac sizes := unfold size, capacity in *; cbn [vb ve vc] in *.
Ltac start WF O := pose proof WF as [WF1 WF2]; pose proof O as (E & C1 & C2 & C3 & C4 & S).

Lemma same_trans h1 h2 h3 : same h1 h2 -> same h2 h3 -> same h1 h3.
Proof. intros [? ?] [? ?]; split; congruence. Qed.

(** the slots of a vector whose live cells have been left alone outside of [0..n) *)
Lemma good_live c o : (forall x, o = Some x -> c = Obj x) -> (o = None -> blank c) -> good c o.
Proof. destruct o; cbn; auto. Qed.

Lemma pop_back_ok h v l : wfh h -> own h v l -> l <> [] -> res (pop_back A triv v h) h v (removelast l) (capacity v) True.
Proof.
  intros WF O NE. start WF O. unfold pop_back. assert (0 < length l) by (destruct l; [congruence|cbn; lia]).
  replace (vb v =? ve v) with false by (symmetry; apply Nat.eqb_neq; lia).
  assert (Q : ve v - 1 = vb v + (length l - 1)) by lia. rewrite Q.
  destruct (des_ok h (vb v + (length l - 1))) as (h1 & E1 & S1 & L1 & M1). { apply (own_live h v l); [exact O|lia]. }
  rewrite E1. cbn [obind]. rewrite removelast_firstn_len. replace (pred (length l)) with (length l - 1) by lia.
  assert (LEN : length (firstn (length l - 1) l) = length l - 1) by (rewrite firstn_length_le; lia).
  destruct (inplace h v l h1 (vb v + (length l - 1)) (vc v) (firstn (length l - 1) l)) as [OW FR]; auto; try lia.
  - intros a Ha. rewrite M1. destruct (inr_spec a (vb v) (blk h (vb v))); [discriminate|]. bsplit; rewrite andb_false_r; reflexivity.
  - intros i Hi. rewrite M1, ne_firstn. bsplit.
    + rewrite andb_true_r. unfold VecProof.good, VecProof.blank. destruct (Bool.bool_dec triv true) as [T|T].
      * rewrite T. cbn. replace i with (length l - 1) by lia. destruct (own_live h v l (length l - 1) O) as [w W]; [lia|]. rewrite W. discriminate.
      * apply Bool.not_true_is_false in T. rewrite T. reflexivity.
    + rewrite andb_false_r. slot S.
    + rewrite andb_false_r. apply (own_blank h v l); [exact O|lia|lia].
  - eexists _, h1. split; [reflexivity|]. split; [exact OW|]. split; [reflexivity|]. split; [exact FR|auto].
Qed.

Lemma insert_room h v l r x k : wfh h -> own h v l -> ve v < vc v -> k < length l -> argok h v r x ->
  forall (late : bool), (late = true -> match r with Ext _ _ => True | At _ a => ~ (vb v + k < a < ve v) end) ->
  res (let* y := rd A h (ve v - 1) in
       let* h := con A triv h (ve v) y in
       if late then
         let* h := copy_backward A triv mv selfmv (ve v - 1 - (vb v + k)) h (vb v + k) (vb v + k + 1) in
         let* x := val A h r in
         let* h := asg A triv h (vb v + k) x in Some (mkV (vb v) (ve v + 1) (vc v), h)
       else
         let* x := val A h r in
         let* h := copy_backward A triv mv selfmv (ve v - 1 - (vb v + k)) h (vb v + k) (vb v + k + 1) in
         let* h := asg A triv h (vb v + k) x in Some (mkV (vb v) (ve v + 1) (vc v), h))
      h v (firstn k l ++ [x] ++ skipn k l) (capacity v) True.
Proof.
  intros WF O R K AK late NL. start WF O.
  destruct (own_live h v l (length l - 1) O) as [y Y]; [lia|].
  assert (Y' : rd A h (ve v - 1) = Some y). { unfold rd. replace (ve v - 1) with (vb v + (length l - 1)) by lia. rewrite Y. reflexivity. }
  rewrite Y'. cbn [obind].
  pose proof (own_blank h v l (length l) O (le_n _) ltac:(lia)) as B. rewrite <- E in B.
  destruct (con_ok h (ve v) y (blank_wr _ B)) as (h1 & E1 & S1 & L1 & M1). rewrite E1. cbn [obind]. specialize (L1 B).
  assert (P1 : forall i, i < length l -> mem h1 (vb v + i) = mem h (vb v + i)) by (intros i Hi; rewrite M1; bsplit; reflexivity).
  assert (V1 : val A h1 r = Some x).
  { apply (val_keep h); [exact (argok_val _ _ _ _ AK)|]. intros a ->. destruct AK as (A1 & A2 & A3). rewrite M1. bsplit; reflexivity. }
  destruct (backward_ok false (ve v - 1 - (vb v + k)) h1 (vb v + k) (vb v + k + 1)) as (h2 & E2 & S2 & L2 & M2).
  { intros i Hi. replace (vb v + k + i) with (vb v + (k + i)) by lia. rewrite P1 by lia. apply (own_live h v l); [exact O|lia]. }
  { intros i Hi. replace (vb v + k + 1 + i) with (vb v + (k + 1 + i)) by lia. rewrite P1 by lia. apply live_wr, (own_live h v l); [exact O|lia]. }
  { lia. }
  change (copy_backward A triv mv selfmv) with (backward A triv mv selfmv false false).
  assert (V2 : late = true -> val A h2 r = Some x).
  { intros LT. apply (val_keep h1); [exact V1|]. intros a ->. destruct AK as (A1 & A2 & A3). specialize (NL LT). cbn in NL. rewrite M2. unfold VecProof.moved. cbn [andb]. bsplit; reflexivity. }
  destruct (asg_ok h2 (vb v + k) x) as (h3 & E3 & S3 & L3 & M3).
  { rewrite M2. unfold VecProof.moved. cbn [andb]. bsplit. rewrite P1 by lia. apply live_wr, (own_live h v l); [exact O|lia]. }
  assert (R' : (if late then
         let* h := backward A triv mv selfmv false false (ve v - 1 - (vb v + k)) h1 (vb v + k) (vb v + k + 1) in
         let* x := val A h r in
         let* h := asg A triv h (vb v + k) x in Some (mkV (vb v) (ve v + 1) (vc v), h)
       else
         let* x := val A h1 r in
         let* h := backward A triv mv selfmv false false (ve v - 1 - (vb v + k)) h1 (vb v + k) (vb v + k + 1) in
         let* h := asg A triv h (vb v + k) x in Some (mkV (vb v) (ve v + 1) (vc v), h)) = Some (mkV (vb v) (ve v + 1) (vc v), h3)).
  { destruct late; [rewrite E2; cbn [obind]; rewrite V2 by reflexivity; cbn [obind]; rewrite E3; reflexivity|].
    rewrite V1. cbn [obind]. rewrite E2. cbn [obind]. rewrite E3. reflexivity. }
  rewrite R'.
  assert (LEN : length (firstn k l ++ [x] ++ skipn k l) = length l + 1).
  { rewrite !app_length, firstn_length_le, skipn_length by lia. cbn [length]. lia. }
  destruct (inplace h v l h3 (ve v + 1) (vc v) (firstn k l ++ [x] ++ skipn k l)) as [OW FR]; auto; try lia.
  - eapply same_trans; [exact S1|]. eapply same_trans; [exact S2|exact S3].
  - intros a Ha. destruct (inr_spec a (vb v) (blk h (vb v))); [discriminate|]. rewrite M3, M2. unfold VecProof.moved. cbn [andb]. rewrite !M1. bsplit; reflexivity.
  - intros i Hi. rewrite ne_ins by lia. cbn [length]. rewrite M3. bsplit.
    + replace (i - k) with 0 by lia. reflexivity.
    + rewrite M2. unfold VecProof.moved. cbn [andb]. bsplit. rewrite M1. bsplit. slot S.
    + rewrite M2. unfold VecProof.moved. cbn [andb]. rewrite !M1. bsplit; first [slot S|rewrite <- Y; slot S|beyond O].
  - eexists _, h3. split; [reflexivity|]. split; [exact OW|]. split; [reflexivity|]. split; [exact FR|congruence].
Qed.

Lemma insert_ok h v l r x k : wfh h -> own h v l -> k <= length l -> argok h v r x -> (length l < capacity v \/ notbefore v k r) ->
  res (insert A triv mv selfmv k r v h) h v (firstn k l ++ [x] ++ skipn k l) (room (length l) (capacity v) 1) True.
Proof.
  intros WF O K AK NB. start WF O. unfold insert.
  replace (size v <? k) with false by (symmetry; apply Nat.ltb_ge; unfold size; lia).
  destruct (Nat.eqb_spec (ve v) (vc v)) as [Q|Q]; cbn [negb andb].
  - rewrite room_grown by (unfold capacity; lia). apply reallocate_ok; auto. destruct NB as [NB|NB]; [unfold capacity in *; lia|exact NB].
  - rewrite room_same by (unfold capacity; lia). destruct (Nat.eqb_spec (vb v + k) (ve v)).
    + replace k with (length l) by lia. rewrite ins_end. apply push_room; auto. lia.
    + apply (insert_room h v l r x k WF O ltac:(lia) ltac:(lia) AK false). discriminate.
Qed.
Lemma emplace_ok h v l r x k : wfh h -> own h v l -> k <= length l -> argok h v r x ->
  (length l < capacity v -> match r with Ext _ _ => True | At _ a => ~ (vb v + k < a < ve v) end) ->
  (capacity v <= length l -> notbefore v k r) ->
  res (emplace A triv mv selfmv k r v h) h v (firstn k l ++ [x] ++ skipn k l) (room (length l) (capacity v) 1) True.
Proof.
  intros WF O K AK NR NB. start WF O. unfold emplace. unfold capacity in NR, NB.
  replace (size v <? k) with false by (symmetry; apply Nat.ltb_ge; unfold size; lia).
  destruct (Nat.eqb_spec (ve v) (vc v)) as [Q|Q]; cbn [negb andb].
  - rewrite room_grown by (unfold capacity; lia). apply reallocate_ok; auto. apply NB. lia.
  - rewrite room_same by (unfold capacity; lia). destruct (Nat.eqb_spec (vb v + k) (ve v)).
    + replace k with (length l) by lia. rewrite ins_end. apply push_room; auto. lia.
    + apply (insert_room h v l r x k WF O ltac:(lia) ltac:(lia) AK true). intros _. apply NR. lia.
Qed.

Lemma erase_gen h v l a b h1 : wfh h -> own h v l -> a <= b -> b <= length l -> (a < b \/ b = length l) ->
  forward A triv mv selfmv false true (ve v - (vb v + b)) h (vb v + b) (vb v + a) = Some h1 ->
  exists h2, des_range A triv (b - a) h1 (ve v - (b - a)) = Some h2 /\ lost h2 = lost h /\ own h2 (mkV (vb v) (ve v - (b - a)) (vc v)) (firstn a l ++ skipn b l)
   /\ frame h h2 v (mkV (vb v) (ve v - (b - a)) (vc v)).
Proof.
  intros WF O AB BL NE F. start WF O.
  destruct (forward_ok false true (ve v - (vb v + b)) h (vb v + b) (vb v + a)) as (h1' & E1 & S1 & L1 & M1).
  { intros i Hi. replace (vb v + b + i) with (vb v + (b + i)) by lia. apply (own_live h v l); [exact O|lia]. }
  { intros i Hi. replace (vb v + a + i) with (vb v + (a + i)) by lia. apply live_wr, (own_live h v l); [exact O|lia]. }
  { lia. }
  rewrite F in E1. injection E1 as <-.
  assert (LV : forall i, i < length l -> livec (mem h1 (vb v + i))).
  { intros i Hi. rewrite M1. unfold VecProof.moved. bsplit.
    - replace (vb v + b + (vb v + i - (vb v + a))) with (vb v + (b + i - a)) by lia. apply (own_live h v l); [exact O|lia].
    - pose proof (own_live h v l i O Hi). destruct (negb triv); cbn [andb]; [apply livec_mvc|]; assumption.
    - rewrite andb_false_r. apply (own_live h v l); [exact O|lia]. }
  destruct (des_range_ok (b - a) h1 (ve v - (b - a))) as (h2 & E2 & S2 & L2 & M2).
  { intros i Hi. replace (ve v - (b - a) + i) with (vb v + (length l - (b - a) + i)) by lia. apply LV. lia. }
  exists h2. split; [exact E2|]. split; [rewrite L2; apply L1; left; reflexivity|].
  assert (LEN : length (firstn a l ++ skipn b l) = length l - (b - a)) by (rewrite app_length, firstn_length_le, skipn_length by lia; lia).
  apply (inplace h v l); auto; try lia.
  - eapply same_trans; [exact S1|exact S2].
  - intros y Hy. destruct (inr_spec y (vb v) (blk h (vb v))); [discriminate|]. rewrite M2, M1. unfold VecProof.moved. bsplit; rewrite ?andb_false_r; reflexivity.
  - intros i Hi. rewrite ne_del by lia. rewrite M2. destruct (inr_spec (vb v + i) (ve v - (b - a)) (b - a)).
    + bsplit. rewrite ne_beyond by lia. cbn [VecProof.good]. unfold VecProof.blank. destruct (LV i) as [w W]; [lia|]. rewrite W. destruct triv; [discriminate|reflexivity].
    + rewrite andb_false_r. rewrite M1. unfold VecProof.moved. bsplit; rewrite ?andb_false_r; first [slot S|beyond O].
Qed.

Lemma erase_ok h v l k : wfh h -> own h v l -> k < length l ->
  res (erase A triv mv selfmv k v h) h v (firstn k l ++ skipn (S k) l) (capacity v) True.
Proof.
  intros WF O K. start WF O. unfold erase. replace (k <? size v) with true by (symmetry; apply Nat.ltb_lt; unfold size; lia).
  change (move A triv mv selfmv) with (forward A triv mv selfmv false true).
  replace (vb v + k + 1) with (vb v + Datatypes.S k) by lia.
  destruct (forward_ok false true (ve v - (vb v + Datatypes.S k)) h (vb v + Datatypes.S k) (vb v + k)) as (h1 & E1 & _).
  { intros i Hi. replace (vb v + Datatypes.S k + i) with (vb v + (Datatypes.S k + i)) by lia. apply (own_live h v l); [exact O|lia]. }
  { intros i Hi. replace (vb v + k + i) with (vb v + (k + i)) by lia. apply live_wr, (own_live h v l); [exact O|lia]. }
  { lia. }
  rewrite E1. cbn [obind]. destruct (erase_gen h v l k (Datatypes.S k) h1) as (h2 & E2 & L2 & OW & FR); auto; try lia.
  replace (Datatypes.S k - k) with 1 in * by lia. cbn [des_range] in E2. destruct (des A triv h1 (ve v - 1)) as [h3|] eqn:D; [|discriminate E2].
  cbn [obind] in *. injection E2 as ->. eexists _, h2. split; [reflexivity|]. split; [exact OW|]. split; [reflexivity|]. split; [exact FR|auto].
Qed.
Lemma erase_range_ok h v l a b : wfh h -> own h v l -> a <= b -> b <= length l -> (triv = true \/ a < b \/ b = length l) ->
  res (erase_range A triv mv selfmv a b v h) h v (firstn a l ++ skipn b l) (capacity v) True.
Proof.
  intros WF O AB BL C. start WF O. unfold erase_range.
  replace (a <=? b) with true by (symmetry; apply Nat.leb_le; lia). replace (b <=? size v) with true by (symmetry; apply Nat.leb_le; unfold size; lia).
  cbn [andb]. change (move A triv mv selfmv) with (forward A triv mv selfmv false true).
  replace (vb v + a + (b - a)) with (vb v + b) by lia. replace (vb v + a + (ve v - (vb v + b))) with (ve v - (b - a)) by lia.
  replace (ve v - (ve v - (b - a))) with (b - a) by lia.
  destruct (Nat.eq_dec a b) as [Q|Q].
  2:{ destruct (forward_ok false true (ve v - (vb v + b)) h (vb v + b) (vb v + a)) as (h1 & E1 & _).
      { intros i Hi. replace (vb v + b + i) with (vb v + (b + i)) by lia. apply (own_live h v l); [exact O|lia]. }
      { intros i Hi. replace (vb v + a + i) with (vb v + (a + i)) by lia. apply live_wr, (own_live h v l); [exact O|lia]. }
      { lia. }
      rewrite E1. cbn [obind]. destruct (erase_gen h v l a b h1) as (h2 & E2 & L2 & OW & FR); auto; try lia.
      rewrite E2. cbn [obind]. eexists _, h2. split; [reflexivity|]. split; [exact OW|]. split; [reflexivity|]. split; [exact FR|auto]. }
  subst b. destruct C as [T|C].
  - assert (FW : forall n h0 a0 b0, forward A triv mv selfmv false true n h0 a0 b0 = memmove A n h0 a0 b0) by (intros; unfold forward; destruct triv; [reflexivity|discriminate T]).
    rewrite FW. destruct (memmove_ok A (ve v - (vb v + a)) h (vb v + a) (vb v + a)) as (h1 & E1 & S1 & L1 & M1).
    1,2: intros i Hi; replace (vb v + a + i) with (vb v + (a + i)) by lia; destruct (own_live h v l (a + i) O) as [w W]; [lia|]; rewrite W; discriminate.
    rewrite E1. cbn [obind]. replace (a - a) with 0 by lia. cbn [des_range obind].
    rewrite firstn_skipn, Nat.sub_0_r.
    destruct (inplace h v l h1 (ve v) (vc v) l) as [OW FR]; auto; try lia.
    + intros y Hy. destruct (inr_spec y (vb v) (blk h (vb v))); [discriminate|]. rewrite M1. bsplit; reflexivity.
    + intros i Hi. rewrite M1. bsplit; slot S.
    + eexists _, h1. split; [reflexivity|]. split; [exact OW|]. split; [reflexivity|]. split; [exact FR|auto].
  - assert (a = length l) by lia. destruct (forward_ok false true (ve v - (vb v + a)) h (vb v + a) (vb v + a)) as (h1 & E1 & _); try lia.
    rewrite E1. cbn [obind]. destruct (erase_gen h v l a a h1) as (h2 & E2 & L2 & OW & FR); auto; try lia.
    rewrite E2. cbn [obind]. eexists _, h2. split; [reflexivity|]. split; [exact OW|]. split; [reflexivity|]. split; [exact FR|auto].
Qed.

(** giving up the old block without destroying what is in it *)
Lemma leave h v l h4 n c' l' : wfh h -> own h v l -> 0 < n -> next h4 = next h + n ->
  (forall q, blk h4 q = if q =? next h then n else blk h q) ->
  (forall a, a < next h -> inr a (vb v) (blk h (vb v)) = false -> mem h4 a = mem h a) ->
  (triv = true -> forall a, a < next h -> mem h4 a = mem h a) ->
  length l' <= c' -> c' <= n ->
  (forall i, i < n -> good (mem h4 (next h + i)) (nth_error l' i)) ->
  exists h5, dealloc A triv (vb v) h4 = Some h5 /\ own h5 (mkV (next h) (next h + length l') (next h + c')) l'
    /\ frame h h5 v (mkV (next h) (next h + length l') (next h + c')) /\ (triv = true -> lost h5 = lost h4).
Proof.
  intros WF O N NX B K T D1 D2 G. start WF O.
  assert (BB : blk h4 (vb v) = blk h (vb v)) by (rewrite B; bsplit; reflexivity).
  destruct (dealloc_own (vb v) h4) as (h5 & E5 & N5 & L5 & B5 & M5).
  { split; [rewrite B; bsplit; assumption|lia]. } { rewrite BB. exact C4. }
  exists h5. split; [exact E5|]. rewrite BB in *.
  destruct (moved_away h v l h5 n c' l') as [OW FR]; auto; try lia.
  - intros q. rewrite B5, B. reflexivity.
  - intros a Ha Hb. rewrite M5, Hb. apply K; assumption.
  - intros i Hi. rewrite M5. bsplit. apply G; exact Hi.
  - split; [exact OW|]. split; [exact FR|]. intros TT. apply L5. intros i Hi. rewrite T by (assumption || lia).
    unfold VecProof.blank. rewrite TT. destruct (Nat.lt_ge_cases i (length l)) as [H|H].
    + destruct (own_live h v l i O H) as [w W]. rewrite W. discriminate.
    + pose proof (own_blank h v l i O H Hi) as BL. unfold VecProof.blank in BL. rewrite TT in BL. exact BL.
Qed.

(** a new block filled with the first k elements, then [m] new ones, then the rest *)
Lemma three n k (mid : nat -> heap -> option heap) h v l xs : wfh h -> own h v l -> k <= length l -> length l + length xs <= n -> 0 < n ->
  (forall h2, next h2 = next h + n -> (forall a, a < next h -> ~ (vb v <= a < vb v + k) -> mem h2 a = mem h a) ->
     (triv = true -> forall a, a < next h -> mem h2 a = mem h a) ->
     (forall i, k <= i -> i < n -> mem h2 (next h + i) = Raw) ->
     exists h3, mid (next h) h2 = Some h3 /\ same h2 h3 /\ lost h3 = lost h2
       /\ (forall x, inr x (next h + k) (length xs) = false -> mem h3 x = mem h2 x)
       /\ (forall i y, nth_error xs i = Some y -> mem h3 (next h + k + i) = Obj y)) ->
  res (let (p, h) := alloc A n h in
       let* h := umove A triv mv selfmv k h (vb v) p in
       let* h := mid p h in
       let* h := umove A triv mv selfmv (ve v - (vb v + k)) h (vb v + k) (p + k + length xs) in
       let* h := dealloc A triv (vb v) h in
       Some (mkV p (p + size v + length xs) (p + n), h))
      h v (firstn k l ++ xs ++ skipn k l) n (triv = true).
Proof.
  intros WF O K LN N0 MID. start WF O. unfold umove.
  destruct (alloc_ok n h ltac:(lia)) as (h1 & E1 & N1 & L1 & B1 & M1). rewrite E1.
  assert (P1 : forall i, i < length l -> mem h1 (vb v + i) = mem h (vb v + i)) by (intros i Hi; rewrite M1; bsplit; reflexivity).
  destruct (forward_ok true true k h1 (vb v) (next h)) as (h2 & E2 & [SB2 SN2] & L2 & M2).
  { intros i Hi. rewrite P1 by lia. apply (own_live h v l); [exact O|lia]. }
  { intros i Hi. rewrite M1. bsplit. split; discriminate. }
  { lia. }
  rewrite E2. cbn [obind].
  assert (Q2 : forall a, a < next h -> ~ (vb v <= a < vb v + k) -> mem h2 a = mem h a).
  { intros a Ha Hb. rewrite M2. unfold VecProof.moved. rewrite !M1. bsplit; rewrite ?andb_false_r; reflexivity. }
  assert (T2 : triv = true -> forall a, a < next h -> mem h2 a = mem h a).
  { intros T a Ha. rewrite M2. unfold VecProof.moved. rewrite T, !M1. cbn [negb andb]. bsplit; reflexivity. }
  assert (R2 : forall i, k <= i -> i < n -> mem h2 (next h + i) = Raw).
  { intros i Hi Hj. rewrite M2. unfold VecProof.moved. rewrite !M1. bsplit; rewrite ?andb_false_r; reflexivity. }
  destruct (MID h2) as (h3 & E3 & [SB3 SN3] & L3 & M3 & X3); auto; [lia|].
  rewrite E3. cbn [obind].
  assert (Q3 : forall a, a < next h -> mem h3 a = mem h2 a) by (intros a Ha; apply M3; bsplit; reflexivity).
  destruct (forward_ok true true (ve v - (vb v + k)) h3 (vb v + k) (next h + k + length xs)) as (h4 & E4 & [SB4 SN4] & L4 & M4).
  { intros i Hi. rewrite Q3, Q2 by lia. replace (vb v + k + i) with (vb v + (k + i)) by lia. apply (own_live h v l); [exact O|lia]. }
  { intros i Hi. replace (next h + k + length xs + i) with (next h + (k + length xs + i)) by lia. rewrite M3 by (bsplit; reflexivity). rewrite R2 by lia. split; discriminate. }
  { lia. }
  rewrite E4. cbn [obind].
  assert (LEN : length (firstn k l ++ xs ++ skipn k l) = length l + length xs) by (rewrite !app_length, firstn_length_le, skipn_length by lia; lia).
  destruct (leave h v l h4 n n (firstn k l ++ xs ++ skipn k l)) as (h5 & E5 & OW & FR & L5); auto; try lia.
  - intros q. rewrite SB4, SB3, SB2, B1. reflexivity.
  - intros a Ha Hb. destruct (inr_spec a (vb v) (blk h (vb v))); [discriminate|]. rewrite M4. unfold VecProof.moved. bsplit. rewrite andb_false_r, Q3, Q2 by lia. reflexivity.
  - intros T a Ha. rewrite M4. unfold VecProof.moved. rewrite T. cbn [negb andb]. bsplit. rewrite Q3 by lia. apply T2; assumption.
  - intros i Hi. rewrite ne_ins by lia. rewrite M4. unfold VecProof.moved. bsplit; rewrite ?andb_false_r.
    all: try (rewrite Q3, Q2 by lia; slot S).
    all: try (rewrite M3 by (bsplit; reflexivity); rewrite R2 by lia; beyond O).
    all: try (rewrite M3 by (bsplit; reflexivity); rewrite M2; unfold VecProof.moved; rewrite !M1; bsplit; slot S).
    destruct (nth_error xs (i - k)) as [y|] eqn:Y; [|apply nth_error_None in Y; lia].
    replace (next h + i) with (next h + k + (i - k)) by lia. apply (X3 _ _ Y).
  - rewrite E5. cbn [obind]. eexists _, h5. split; [reflexivity|]. replace (next h + size v + length xs) with (next h + length (firstn k l ++ xs ++ skipn k l)) by (unfold size; lia).
    split; [exact OW|]. split; [unfold capacity; cbn; lia|]. split; [exact FR|]. intros T.
    rewrite L5, L4, L3, L2, L1; auto.
    + right. intros i Hi. rewrite M1. bsplit. apply blank_raw.
    + right. intros i Hi. replace (next h + k + length xs + i) with (next h + (k + length xs + i)) by lia. rewrite M3 by (bsplit; reflexivity). rewrite R2 by lia. apply blank_raw.
Qed.
End Proof.
