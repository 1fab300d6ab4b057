(** C146: the copying algorithms write exactly the promised sequence and nothing else, also when input and output overlap *)
From Coq Require Import ZArith List Bool Lia Permutation.
From Verif Require Import F64 ArrModel ArrLib HeapProof SeqModel Seq2Props CpModel.
Import ListNotations.
Open Scope Z_scope.

Section Cp.
Context {A : Type}.
Implicit Types (a b c w l : list A) (pred : A -> bool) (eqb : A -> A -> bool) (x y : A).

(** the storage [a'] is [a] with the sequence [w] written from [r] on *)
Definition put a (r : Z) w a' : Prop := length a' = length a /\
  forall i, rd a' i = if (r <=? i) && (i <? r + len w) then rd w (i - r) else rd a i.
(** the output from [r] on never overtakes the input [lo,hi): it starts not behind the start of the input or behind its end *)
Definition safe (r lo hi : Z) : Prop := r <= lo \/ hi <= r.

Lemma put_nil a r : put a r [] a.
Proof.
  split; [reflexivity|]. intros i. simpl length. replace ((r <=? i) && (i <? r + Z.of_nat 0)) with false; [reflexivity|].
  symmetry. apply andb_false_iff. rewrite Z.leb_gt, Z.ltb_ge. lia.
Qed.
Lemma put_cons a r x w a' : 0 <= r < len a -> put (up a r x) (r + 1) w a' -> put a r (x :: w) a'.
Proof.
  intros Hr [L P]. split; [now rewrite L, up_length|]. intros i. rewrite P, (rd_up a r x i) by lia. simpl length.
  destruct (Z.eqb_spec i r) as [->|N].
  - replace ((r + 1 <=? r) && (r <? r + 1 + len w)) with false by (symmetry; apply andb_false_iff; rewrite Z.leb_gt; lia).
    replace ((r <=? r) && (r <? r + Z.of_nat (S (length w)))) with true by (symmetry; apply andb_true_iff; rewrite Z.leb_le, Z.ltb_lt; lia).
    now rewrite Z.sub_diag.
  - replace (r <=? i) with (r + 1 <=? i) by (apply eq_true_iff_eq; rewrite !Z.leb_le; lia).
    replace (r + Z.of_nat (S (length w))) with (r + 1 + len w) by lia.
    destruct (Z.leb_spec (r + 1) i) as [G|G]; cbn [andb]; [|reflexivity].
    destruct (Z.ltb_spec i (r + 1 + len w)); [|reflexivity].
    unfold rd. destruct (Z.ltb_spec (i - (r + 1)) 0); [lia|]. destruct (Z.ltb_spec (i - r) 0); [lia|].
    replace (Z.to_nat (i - r)) with (S (Z.to_nat (i - (r + 1)))) by lia. reflexivity.
Qed.

Lemma slice_cons a lo hi x : lo < hi -> rd a lo = Some x -> slice lo hi a = x :: slice (lo + 1) hi a.
Proof.
  intros H E. pose proof (rd_range _ _ _ E). unfold slice. replace (Z.to_nat (hi - lo)) with (S (Z.to_nat (hi - (lo + 1)))) by lia.
  replace (Z.to_nat (lo + 1)) with (S (Z.to_nat lo)) by lia. unfold rd in E. destruct (Z.ltb_spec lo 0); [lia|].
  apply nth_error_split in E as (l1 & l2 & -> & L). rewrite <- L.
  assert (E1 : skipn (length l1) (l1 ++ x :: l2) = x :: l2) by (rewrite skipn_app, skipn_all, Nat.sub_diag; reflexivity).
  assert (E2 : skipn (S (length l1)) (l1 ++ x :: l2) = l2).
  { rewrite skipn_app, skipn_all2 by lia. replace (S (length l1) - length l1)%nat with 1%nat by lia. reflexivity. }
  now rewrite E1, E2.
Qed.
Lemma slice_none a i : slice i i a = [].
Proof. unfold slice. rewrite Z.sub_diag. reflexivity. Qed.
Lemma slice_up a r x lo hi : 0 <= lo -> lo <= hi -> 0 <= r -> r < lo \/ hi <= r -> slice lo hi (up a r x) = slice lo hi a.
Proof.
  intros Hlo Hhi Hr N. apply list_ext. intros i. destruct (Z_lt_dec i 0); [now rewrite !rd_out by (left; lia)|].
  rewrite !slice_rd by lia. destruct (Z.ltb_spec i (hi - lo)); [|reflexivity]. rewrite rd_up_ne by lia. reflexivity.
Qed.
Lemma slice_snoc a lo hi x : 0 <= lo < hi -> rd a (hi - 1) = Some x -> slice lo hi a = slice lo (hi - 1) a ++ [x].
Proof.
  intros H E. pose proof (rd_range _ _ _ E). apply list_ext. intros i. destruct (Z_lt_dec i 0); [now rewrite !rd_out by (left; lia)|].
  rewrite slice_rd by lia. assert (L : len (slice lo (hi - 1) a) = hi - 1 - lo) by (apply slice_length; lia).
  destruct (Z_lt_dec i (hi - 1 - lo)) as [G|G].
  - replace (i <? hi - lo) with true by (symmetry; apply Z.ltb_lt; lia). unfold rd at 2. destruct (Z.ltb_spec i 0); [lia|].
    rewrite nth_error_app1 by lia. change (rd a (lo + i) = nth_error (slice lo (hi - 1) a) (Z.to_nat i)).
    pose proof (slice_rd lo (hi - 1) a i ltac:(lia) ltac:(lia)) as S. replace (i <? hi - 1 - lo) with true in S by (symmetry; apply Z.ltb_lt; lia).
    unfold rd at 1 in S. destruct (Z.ltb_spec i 0); [lia|]. now rewrite S.
  - unfold rd at 2. destruct (Z.ltb_spec i 0); [lia|]. rewrite nth_error_app2 by lia. destruct (Z.ltb_spec i (hi - lo)).
    + replace (Z.to_nat i - length (slice lo (hi - 1) a))%nat with 0%nat by lia. replace (lo + i) with (hi - 1) by lia. exact E.
    + destruct (Z.to_nat i - length (slice lo (hi - 1) a))%nat as [|[|k]] eqn:K; try lia; reflexivity.
Qed.

(** transform with one range *)
Theorem C146_transform1 f : forall fuel a first last result, 0 <= first <= last -> last <= len a -> 0 <= result -> result + (last - first) <= len a ->
  safe result first last -> (Z.to_nat (last - first) < fuel)%nat ->
  exists a', transform1 fuel f a first last result = Some (a', result + (last - first)) /\ put a result (map f (slice first last a)) a'.
Proof.
  induction fuel as [|fuel IH]; intros a first last result Hf Hl Hr Hb Hs Hu; [lia|]. cbn [transform1].
  destruct (Z.eqb_spec first last) as [->|N].
  - exists a. rewrite slice_none. split; [now rewrite Z.sub_diag, Z.add_0_r|apply put_nil].
  - destruct (rd_ex a first) as [x Ex]; [lia|]. rewrite Ex. cbn [obind]. rewrite wr_up by lia. cbn [obind].
    unfold safe in *.
    destruct (IH (up a result (f x)) (first + 1) last (result + 1)) as (a' & E & P); rewrite ?up_length; try lia.
    exists a'. split; [rewrite E; do 2 f_equal; lia|]. rewrite (slice_cons a first last x ltac:(lia) Ex). cbn [map].
    apply put_cons; [lia|]. rewrite slice_up in P by lia. exact P.
Qed.

(** transform with two ranges *)
Theorem C146_transform2 f : forall fuel a first1 last1 first2 result, 0 <= first1 <= last1 -> last1 <= len a ->
  0 <= first2 -> first2 + (last1 - first1) <= len a -> 0 <= result -> result + (last1 - first1) <= len a ->
  safe result first1 last1 -> safe result first2 (first2 + (last1 - first1)) -> (Z.to_nat (last1 - first1) < fuel)%nat ->
  exists a', transform2 fuel f a first1 last1 first2 result = Some (a', result + (last1 - first1)) /\
    put a result (map (fun p => f (fst p) (snd p)) (combine (slice first1 last1 a) (slice first2 (first2 + (last1 - first1)) a))) a'.
Proof.
  induction fuel as [|fuel IH]; intros a first1 last1 first2 result Hf Hl H2 Hl2 Hr Hb Hs Hs2 Hu; [lia|]. cbn [transform2].
  destruct (Z.eqb_spec first1 last1) as [->|N].
  - exists a. rewrite slice_none. split; [now rewrite Z.sub_diag, Z.add_0_r|apply put_nil].
  - destruct (rd_ex a first1) as [x Ex]; [lia|]. rewrite Ex. cbn [obind]. destruct (rd_ex a first2) as [y Ey]; [lia|]. rewrite Ey. cbn [obind].
    rewrite wr_up by lia. cbn [obind]. unfold safe in *.
    destruct (IH (up a result (f x y)) (first1 + 1) last1 (first2 + 1) (result + 1)) as (a' & E & P); rewrite ?up_length; try lia.
    exists a'. split; [rewrite E; do 2 f_equal; lia|]. rewrite (slice_cons a first1 last1 x ltac:(lia) Ex), (slice_cons a first2 (first2 + (last1 - first1)) y ltac:(lia) Ey). cbn [map combine fst snd].
    apply put_cons; [lia|]. replace (first2 + 1 + (last1 - (first1 + 1))) with (first2 + (last1 - first1)) in P by lia.
    rewrite !slice_up in P by lia. exact P.
Qed.

(** replace_copy_if, replace_copy *)
Theorem C146_replace_copy pred v : forall fuel a first last result, 0 <= first <= last -> last <= len a -> 0 <= result -> result + (last - first) <= len a ->
  safe result first last -> (Z.to_nat (last - first) < fuel)%nat ->
  exists a', replace_copy_if fuel pred v a first last result = Some (a', result + (last - first)) /\
    put a result (map (fun x => if pred x then v else x) (slice first last a)) a'.
Proof.
  induction fuel as [|fuel IH]; intros a first last result Hf Hl Hr Hb Hs Hu; [lia|]. cbn [replace_copy_if].
  destruct (Z.eqb_spec first last) as [->|N].
  - exists a. rewrite slice_none. split; [now rewrite Z.sub_diag, Z.add_0_r|apply put_nil].
  - destruct (rd_ex a first) as [x Ex]; [lia|]. rewrite Ex. cbn [obind]. rewrite wr_up by lia. cbn [obind].
    unfold safe in *.
    destruct (IH (up a result (if pred x then v else x)) (first + 1) last (result + 1)) as (a' & E & P); rewrite ?up_length; try lia.
    exists a'. split; [rewrite E; do 2 f_equal; lia|]. rewrite (slice_cons a first last x ltac:(lia) Ex). cbn [map].
    apply put_cons; [lia|]. rewrite slice_up in P by lia. exact P.
Qed.

(** remove_copy_if, remove_copy *)
Theorem C146_remove_copy pred : forall fuel a first last result, 0 <= first <= last -> last <= len a -> 0 <= result ->
  result + len (filter (fun x => negb (pred x)) (slice first last a)) <= len a ->
  safe result first last -> (Z.to_nat (last - first) < fuel)%nat ->
  exists a', remove_copy_if fuel pred a first last result = Some (a', result + len (filter (fun x => negb (pred x)) (slice first last a))) /\
    put a result (filter (fun x => negb (pred x)) (slice first last a)) a'.
Proof.
  induction fuel as [|fuel IH]; intros a first last result Hf Hl Hr Hb Hs Hu; [lia|]. cbn [remove_copy_if].
  destruct (Z.eqb_spec first last) as [->|N].
  - exists a. rewrite slice_none. split; [cbn; now rewrite Z.add_0_r|apply put_nil].
  - destruct (rd_ex a first) as [x Ex]; [lia|]. rewrite Ex. cbn [obind].
    rewrite (slice_cons a first last x ltac:(lia) Ex) in *. cbn [filter] in *. unfold safe in *. destruct (negb (pred x)).
    + simpl length in *. rewrite wr_up by lia. cbn [obind].
      pose proof (IH (up a result x) (first + 1) last (result + 1)) as Q. rewrite slice_up, up_length in Q by lia.
      destruct Q as (a' & E & P); try lia. exists a'. split; [rewrite E; do 2 f_equal; lia|]. apply put_cons; [lia|exact P].
    + apply IH; try lia.
Qed.

(** reverse_copy, input and output apart *)
Theorem C146_reverse_copy : forall fuel a first last result, 0 <= first <= last -> last <= len a -> 0 <= result -> result + (last - first) <= len a ->
  result + (last - first) <= first \/ last <= result -> (Z.to_nat (last - first) < fuel)%nat ->
  exists a', CpModel.reverse_copy fuel a first last result = Some (a', result + (last - first)) /\ put a result (rev (slice first last a)) a'.
Proof.
  induction fuel as [|fuel IH]; intros a first last result Hf Hl Hr Hb Hs Hu; [lia|]. cbn [CpModel.reverse_copy].
  destruct (Z.eqb_spec first last) as [->|N].
  - exists a. rewrite slice_none. split; [now rewrite Z.sub_diag, Z.add_0_r|apply put_nil].
  - cbv zeta. destruct (rd_ex a (last - 1)) as [x Ex]; [lia|]. rewrite Ex. cbn [obind]. rewrite wr_up by lia. cbn [obind].
    destruct (IH (up a result x) first (last - 1) (result + 1)) as (a' & E & P); rewrite ?up_length; try lia.
    exists a'. split; [rewrite E; do 2 f_equal; lia|]. rewrite (slice_snoc a first last x ltac:(lia) Ex), rev_unit.
    apply put_cons; [lia|]. rewrite slice_up in P by lia. exact P.
Qed.

(** unique_copy *)
Lemma unique_out_ok eqb : forall fuel v a first last result, 0 <= first < last -> last <= len a -> -1 <= result ->
  result + 1 + len (ded eqb v (slice (first + 1) last a)) <= len a -> safe (result + 1) (first + 1) last -> (Z.to_nat (last - first) < fuel)%nat ->
  exists a', unique_out fuel eqb v a first last result = Some (a', result + 1 + len (ded eqb v (slice (first + 1) last a))) /\
    put a (result + 1) (ded eqb v (slice (first + 1) last a)) a'.
Proof.
  induction fuel as [|fuel IH]; intros v a first last result Hf Hl Hr Hb Hs Hu; [lia|]. cbn [unique_out]. cbv zeta.
  destruct (Z.eqb_spec (first + 1) last) as [<-|N].
  - exists a. rewrite slice_none. cbn. rewrite Z.add_0_r. split; [reflexivity|apply put_nil].
  - destruct (rd_ex a (first + 1)) as [y Ey]; [lia|]. rewrite Ey. cbn [obind].
    rewrite (slice_cons a (first + 1) last y ltac:(lia) Ey) in *. cbn [ded] in *. unfold safe in *. destruct (eqb v y); cbn [negb].
    + apply IH; lia.
    + simpl length in *. rewrite wr_up by lia. cbn [obind].
      pose proof (IH y (up a (result + 1) y) (first + 1) last (result + 1)) as Q. rewrite slice_up, up_length in Q by lia.
      destruct Q as (a' & E & P); try lia. exists a'. split; [rewrite E; do 2 f_equal; lia|]. apply put_cons; [lia|exact P].
Qed.
Lemma unique_fwd_ok eqb : forall fuel v a first last result, 0 <= first < last -> last <= len a -> 0 <= result -> rd a result = Some v ->
  result + 1 + len (ded eqb v (slice (first + 1) last a)) <= len a -> safe (result + 1) (first + 1) last -> (Z.to_nat (last - first) < fuel)%nat ->
  exists a', unique_loop fuel eqb a first last result = Some (a', result + 1 + len (ded eqb v (slice (first + 1) last a))) /\
    put a (result + 1) (ded eqb v (slice (first + 1) last a)) a'.
Proof.
  induction fuel as [|fuel IH]; intros v a first last result Hf Hl Hr Hv Hb Hs Hu; [lia|]. cbn [unique_loop]. cbv zeta.
  destruct (Z.eqb_spec (first + 1) last) as [<-|N].
  - exists a. rewrite slice_none. cbn. rewrite Z.add_0_r. split; [reflexivity|apply put_nil].
  - rewrite Hv. cbn [obind]. destruct (rd_ex a (first + 1)) as [y Ey]; [lia|]. rewrite Ey. cbn [obind].
    rewrite (slice_cons a (first + 1) last y ltac:(lia) Ey) in *. cbn [ded] in *. unfold safe in *. destruct (eqb v y); cbn [negb].
    + apply IH; auto; lia.
    + simpl length in *. rewrite wr_up by lia. cbn [obind].
      pose proof (IH y (up a (result + 1) y) (first + 1) last (result + 1)) as Q. rewrite slice_up, up_length, rd_up_eq in Q by lia.
      destruct Q as (a' & E & P); try lia; auto. exists a'. split; [rewrite E; do 2 f_equal; lia|]. apply put_cons; [lia|exact P].
Qed.
Lemma ded_len eqb l : forall v, (length (ded eqb v l) <= length l)%nat.
Proof. induction l as [|x l IH]; intros v; simpl; [lia|]. destruct (eqb v x); [specialize (IH v); lia|]. simpl. specialize (IH x). lia. Qed.

Theorem C146_unique_copy eqb a first last result : 0 <= first <= last -> last <= len a -> 0 <= result -> result + (last - first) <= len a ->
  safe result first last ->
  exists h a', heads_of eqb (slice first last a) h /\ put a result h a' /\
    unique_copy eqb a first last result = Some (a', result + len h) /\ unique_copy_out eqb a first last result = Some (a', result + len h).
Proof.
  intros Hf Hl Hr Hb Hs. unfold unique_copy, unique_copy_out. destruct (Z.eqb_spec first last) as [->|N].
  - exists [], a. rewrite slice_none. cbn. rewrite Z.add_0_r. split; [constructor|]. split; [apply put_nil|]. split; reflexivity.
  - destruct (rd_ex a first) as [x Ex]; [lia|]. rewrite Ex. cbn [obind]. rewrite wr_up by lia. cbn [obind].
    rewrite (slice_cons a first last x ltac:(lia) Ex). set (h := ded eqb x (slice (first + 1) last a)).
    assert (L : len h <= last - (first + 1)) by (pose proof (ded_len eqb (slice (first + 1) last a) x); pose proof (slice_length (first + 1) last a); unfold h; lia).
    unfold safe in *.
    pose proof (unique_out_ok eqb (S (Z.to_nat (last - first))) x (up a result x) first last result) as Q.
    pose proof (unique_fwd_ok eqb (S (Z.to_nat (last - first))) x (up a result x) first last result) as Q2.
    rewrite slice_up, up_length in Q, Q2 by lia. rewrite rd_up_eq in Q2 by lia. fold h in Q, Q2. unfold safe in *.
    destruct Q as (a1 & E1 & P1); try lia. destruct Q2 as (a2 & E2 & P2); try lia; auto.
    assert (a2 = a1) as ->.
    { apply list_ext. intros i. destruct P1 as [_ P1]. destruct P2 as [_ P2]. now rewrite P1, P2. }
    exists (x :: h), a1. split; [exact (ded_heads eqb (slice (first + 1) last a) x [] (Forall_nil _))|]. split; [apply put_cons; [lia|exact P1]|].
    rewrite E1, E2. simpl length. split; do 2 f_equal; lia.
Qed.

(** partition_copy *)
Theorem C146_partition_copy pred : forall fuel c first last a rt b rf, 0 <= first <= last -> last <= len c -> 0 <= rt -> 0 <= rf ->
  rt + len (filter pred (slice first last c)) <= len a -> rf + len (filter (fun x => negb (pred x)) (slice first last c)) <= len b ->
  (Z.to_nat (last - first) < fuel)%nat ->
  exists a' b', partition_copy fuel pred c first last a rt b rf =
      Some (a', rt + len (filter pred (slice first last c)), (b', rf + len (filter (fun x => negb (pred x)) (slice first last c)))) /\
    put a rt (filter pred (slice first last c)) a' /\ put b rf (filter (fun x => negb (pred x)) (slice first last c)) b'.
Proof.
  induction fuel as [|fuel IH]; intros c first last a rt b rf Hf Hl Ht Hr Ba Bb Hu; [lia|]. cbn [partition_copy].
  destruct (Z.eqb_spec first last) as [->|N].
  - exists a, b. rewrite slice_none. split; [cbn; now rewrite !Z.add_0_r|]. split; apply put_nil.
  - destruct (rd_ex c first) as [x Ex]; [lia|]. rewrite Ex. cbn [obind].
    rewrite (slice_cons c first last x ltac:(lia) Ex) in *. cbn [filter] in *. destruct (pred x); cbn [negb] in *; simpl length in *.
    + rewrite wr_up by lia. cbn [obind].
      destruct (IH c (first + 1) last (up a rt x) (rt + 1) b rf) as (a' & b' & E & Pa & Pb); rewrite ?up_length; try lia.
      exists a', b'. split; [rewrite E; f_equal; f_equal; f_equal; lia|]. split; [apply put_cons; [lia|exact Pa]|exact Pb].
    + rewrite wr_up by lia. cbn [obind].
      destruct (IH c (first + 1) last a rt (up b rf x) (rf + 1)) as (a' & b' & E & Pa & Pb); rewrite ?up_length; try lia.
      exists a', b'. split; [rewrite E; f_equal; f_equal; f_equal; lia|]. split; [exact Pa|apply put_cons; [lia|exact Pb]].
Qed.

(** for_each calls the function on each element once, from front to back *)
Theorem C146_for_each {St} (f : St -> A -> St) : forall fuel st a first last, 0 <= first <= last -> last <= len a -> (Z.to_nat (last - first) < fuel)%nat ->
  for_each fuel f st a first last = Some (fold_left f (slice first last a) st).
Proof.
  induction fuel as [|fuel IH]; intros st a first last Hf Hl Hu; [lia|]. cbn [for_each]. destruct (Z.eqb_spec first last) as [->|N].
  - now rewrite slice_none.
  - destruct (rd_ex a first) as [x Ex]; [lia|]. rewrite Ex. cbn [obind]. rewrite (slice_cons a first last x ltac:(lia) Ex). apply IH; lia.
Qed.

(** generate and generate_n: the i-th cell gets the value of the i-th call *)
Definition call {St} (gen : St -> A * St) (st : St) (i : nat) : A := fst (gen (Nat.iter i (fun s => snd (gen s)) st)).
Lemma call_next {St} (gen : St -> A * St) st i : call gen (snd (gen st)) i = call gen st (S i).
Proof.
  unfold call. f_equal. f_equal. induction i as [|i IH]; [reflexivity|]. cbn [Nat.iter nat_rect] in *. unfold Nat.iter in *. simpl in *. now rewrite IH.
Qed.
Lemma calls_cons {St} (gen : St -> A * St) st n : map (call gen st) (seq 0 (S n)) = fst (gen st) :: map (call gen (snd (gen st))) (seq 0 n).
Proof.
  cbn [seq map]. f_equal. rewrite <- seq_shift, map_map. apply map_ext. intros i. symmetry. apply call_next.
Qed.
Theorem C146_generate {St} (gen : St -> A * St) : forall fuel st a first last, 0 <= first <= last -> last <= len a -> (Z.to_nat (last - first) < fuel)%nat ->
  exists a', generate fuel gen st a first last = Some a' /\ put a first (map (call gen st) (seq 0 (Z.to_nat (last - first)))) a'.
Proof.
  induction fuel as [|fuel IH]; intros st a first last Hf Hl Hu; [lia|]. cbn [generate]. destruct (Z.eqb_spec first last) as [->|N].
  - exists a. split; [reflexivity|]. rewrite Z.sub_diag. apply put_nil.
  - pose proof (calls_cons gen st (Z.to_nat (last - (first + 1)))) as C. replace (S (Z.to_nat (last - (first + 1)))) with (Z.to_nat (last - first)) in C by lia.
    rewrite C. clear C. destruct (gen st) as [x st'] eqn:G. cbn [fst snd]. rewrite wr_up by lia. cbn [obind].
    destruct (IH st' (up a first x) (first + 1) last) as (a' & E & P); rewrite ?up_length; try lia.
    exists a'. split; [exact E|]. apply put_cons; [lia|exact P].
Qed.
Theorem C146_generate_n {St} (gen : St -> A * St) : forall fuel st a first n, 0 <= first -> first + Z.max 0 n <= len a -> (Z.to_nat n < fuel)%nat ->
  exists a', generate_n fuel gen st a first n = Some a' /\ put a first (map (call gen st) (seq 0 (Z.to_nat n))) a'.
Proof.
  induction fuel as [|fuel IH]; intros st a first n Hf Hl Hu; [lia|]. cbn [generate_n]. destruct (Z.ltb_spec 0 n) as [L|G].
  - pose proof (calls_cons gen st (Z.to_nat (n - 1))) as C. replace (S (Z.to_nat (n - 1))) with (Z.to_nat n) in C by lia.
    rewrite C. clear C. destruct (gen st) as [x st'] eqn:G. cbn [fst snd]. rewrite wr_up by lia. cbn [obind].
    destruct (IH st' (up a first x) (first + 1) (n - 1)) as (a' & E & P); rewrite ?up_length; try lia.
    exists a'. split; [exact E|]. apply put_cons; [lia|exact P].
  - exists a. split; [reflexivity|]. replace (Z.to_nat n) with 0%nat by lia. apply put_nil.
Qed.
End Cp.

(** in place, shifted to the left, and apart; and what happens when the output overtakes the input *)
Example C146_ex : transform1 9 Z.succ [1; 2; 3; 4; 5] 1 4 1 = Some ([1; 3; 4; 5; 5], 4) /\
  transform1 9 Z.succ [1; 2; 3; 4; 5] 2 5 1 = Some ([1; 4; 5; 6; 5], 4) /\
  transform1 9 Z.succ [1; 2; 3; 4; 5] 0 4 1 = Some ([1; 2; 3; 4; 5], 5) /\
  transform2 9 Z.add [1; 2; 3; 4; 5] 0 2 3 0 = Some ([5; 7; 3; 4; 5], 2) /\
  replace_copy_if 9 Z.even 9 [1; 2; 3; 4; 0; 0] 0 3 3 = Some ([1; 2; 3; 1; 9; 3], 6) /\
  remove_copy_if 9 Z.even [1; 2; 3; 4; 0; 0] 0 4 4 = Some ([1; 2; 3; 4; 1; 3], 6) /\
  CpModel.reverse_copy 9 [1; 2; 3; 0; 0; 0] 0 3 3 = Some ([1; 2; 3; 3; 2; 1], 6) /\
  unique_copy_out Z.eqb [1; 1; 2; 1; 0; 0; 0; 0] 0 4 4 = Some ([1; 1; 2; 1; 1; 2; 1; 0], 7) /\
  partition_copy 9 Z.even [1; 2; 3; 4] 0 4 [7; 7; 7] 0 [8; 8; 8] 1 = Some ([2; 4; 7], 2, ([8; 1; 3], 3)) /\
  for_each 9 (fun s x => 10 * s + x) 0 [1; 2; 3; 4] 1 4 = Some 234 /\
  generate 9 (fun s => (s * s, s + 1)) 1 [0; 0; 0; 0] 1 4 = Some [0; 1; 4; 9] /\
  generate_n 9 (fun s => (s * s, s + 1)) 1 [0; 0; 0; 0] 1 2 = Some [0; 1; 4; 0] /\
  generate_n 9 (fun s => (s * s, s + 1)) 1 [0; 0; 0; 0] 1 (-2) = Some [0; 0; 0; 0] /\
  safe 1 1 4 /\ safe 1 2 5 /\ safe 4 0 4.
Proof. repeat split; unfold safe; lia. Qed.
Print Assumptions C146_transform1. Print Assumptions C146_transform2. Print Assumptions C146_replace_copy. Print Assumptions C146_remove_copy. Print Assumptions C146_reverse_copy. Print Assumptions C146_unique_copy. Print Assumptions C146_partition_copy. Print Assumptions C146_for_each. Print Assumptions C146_generate. Print Assumptions C146_generate_n. 
