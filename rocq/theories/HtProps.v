(** Properties of the hash table and the unordered containers: C109-C117. *)
From Coq Require Import ZArith List Bool Lia Permutation.
From Coq Require Import Floats.SpecFloat.
From Verif Require Import F64 HtModel HtSpec HtProof HtLook HtIns HtRehash HtGrow HtErase HtLife HtLoad.
Import ListNotations.
Open Scope Z_scope.

Section HtProps.
Context {K T : Type} (key : T -> K) (hashf : K -> Z) (eqb : K -> K -> bool).
Hypothesis KO : key_ok hashf eqb.
Notation memory := (@memory T).
Notation haskey := (haskey key eqb).
Notation distinct := (distinct key eqb).
Notation rep := (rep key hashf eqb).
Notation len := HtSpec.len.
Notation less := (less key hashf eqb).
Notation grown := (grown key hashf eqb).
Implicit Types (m : memory) (t : tab) (a p : Z) (v : T) (k : K) (L : list (list (Z * T))) (vs ws : list T).

(** ** C109: looking up *)
Theorem hash_find m t L k : rep m t L -> exists p, find key hashf eqb m t k = Some p /\
  ((p = 0 /\ Forall (fun e => haskey k e = false) (concat L)) \/ (p <> 0 /\ exists v, In (p, v) (concat L) /\ eqb (key v) k = true)).
Proof. now apply find_ok. Qed.
Theorem hash_count m t L k : rep m t L -> count key hashf eqb m t k = Some (len (filter (fun w => eqb (key w) k) (vals L))).
Proof.
  intros R. rewrite (count_ok key hashf eqb KO m t L k R). f_equal. unfold vals, HtSpec.len. f_equal. induction (concat L) as [|e l IH]; [reflexivity|]. cbn [filter map].
  unfold HtSpec.haskey at 1. destruct (eqb (key (snd e)) k); cbn [length]; now rewrite IH.
Qed.
Theorem hash_equal_range_multi m t L k : rep m t L -> exists A X B, concat L = A ++ X ++ B /\ Forall (fun e => haskey k e = true) X /\
  Forall (fun e => haskey k e = false) (A ++ B) /\ equal_range_multi key hashf eqb m t k = Some (if X then 0 else hd X 0, if X then 0 else hd B 0).
Proof. now apply equal_range_multi_ok. Qed.
Theorem hash_equal_range_unique m t L k : rep m t L -> distinct (vals L) -> exists A X B, concat L = A ++ X ++ B /\ Forall (fun e => haskey k e = true) X /\
  Forall (fun e => haskey k e = false) (A ++ B) /\ equal_range_unique key hashf eqb m t k = Some (if X then 0 else hd X 0, if X then 0 else hd B 0).
Proof. now apply equal_range_unique_ok. Qed.
Theorem hash_u_at m t L k : rep m t L -> match u_at key hashf eqb m t k with
  | Some p => exists w, In (p, w) (concat L) /\ eqb (key w) k = true
  | None => Forall (fun e => haskey k e = false) (concat L) end.
Proof. now apply u_at_ok. Qed.

(** ** C110: iterators go through all elements, each once *)
Fixpoint walk (n : nat) m t p : option (list T) :=
  match n with
  | O => None
  | S n => if p =? 0 then Some [] else match get m p with None => None | Some x =>
      match inc key hashf m t p with None => None | Some q => match walk n m t q with None => None | Some r => Some (val x :: r) end end end
  end.
Lemma walk_from m t L : rep m t L -> forall B A n, concat L = A ++ B -> (length B < n)%nat -> walk n m t (hd B 0) = Some (map snd B).
Proof.
  intros R. induction B as [|[a v] B IH]; intros A n E F; (destruct n as [|n]; [cbn in F; lia|]); cbn [walk hd]; [reflexivity|].
  assert (I : In a (addrs L)) by (unfold addrs; rewrite E, map_app; apply in_elt). destruct (rep_in key hashf eqb m t L a R I) as (N & _). rewrite (proj2 (Z.eqb_neq a 0) N).
  pose proof E as E'. apply concat_split in E' as (M1 & A1 & B1 & M2 & EL & _). pose proof R as R'. rewrite EL in R'. destruct (rep_at key hashf eqb m t M1 _ M2 R') as (_ & S & _).
  apply seg_app in S as [_ S]. rewrite (seg_get m a v B1 0 S). rewrite (inc_ok key hashf eqb m t L a v A B R E).
  rewrite (IH (A ++ [(a, v)]) n); [reflexivity|rewrite <- app_assoc; exact E|cbn in F; lia].
Qed.
Theorem hash_iterate m t L : rep m t L -> exists p, begin t = Some p /\ cnt t = len (vals L) /\ forall n, cnt t < Z.of_nat n -> walk n m t p = Some (vals L).
Proof.
  intros R. exists (hd (concat L) 0). split; [now apply (begin_ok key hashf eqb m)|]. pose proof (r_cnt _ _ _ _ _ _ R) as Ec. unfold HtSpec.len in *. unfold vals. rewrite map_length.
  split; [exact Ec|]. intros n Hn. apply (walk_from m t L R (concat L) [] n eq_refl). lia.
Qed.
Theorem hash_bucket_size m t L i l : rep m t L -> nth_error L i = Some l -> bucket_size m t (Z.of_nat i) = Some (len l) /\
  Forall (fun e => hashf (key (snd e)) mod bsz t = Z.of_nat i) l.
Proof. intros R E. split; [now apply (bucket_size_ok key hashf eqb m t L)|]. now apply (r_b _ _ _ _ _ _ R). Qed.

(** ** C111: insertion *)
Theorem hash_insert_multi m t L v : rep m t L -> exists m' t' L' p, insert_multi key hashf eqb m t v = Some (m', t', p) /\ rep m' t' L' /\
  Permutation (vals L') (v :: vals L) /\ In (p, v) (concat L') /\ brk m <= p /\ others m L m' /\ mlf t' = mlf t /\
  (crowded t 1 = false -> Permutation (concat L') ((p, v) :: concat L)).
Proof. now apply insert_multi_ok. Qed.
Theorem hash_insert_unique m t L v : rep m t L -> exists m' t' L' p (b : bool), insert_unique key hashf eqb m t v = Some (m', t', (p, b)) /\ rep m' t' L' /\
  others m L m' /\ mlf t' = mlf t /\
  (if b then Forall (fun w => eqb (key w) (key v) = false) (vals L) /\ Permutation (vals L') (v :: vals L) /\ In (p, v) (concat L') /\ brk m <= p /\
     (crowded t 1 = false -> Permutation (concat L') ((p, v) :: concat L))
   else Permutation (vals L') (vals L) /\ (exists w, In (p, w) (concat L') /\ eqb (key w) (key v) = true) /\ (crowded t 1 = false -> m' = m /\ t' = t /\ L' = L)).
Proof. now apply insert_unique_ok. Qed.
Theorem hash_insert_range_multi m t L vs : rep m t L -> exists m' t' L', insert_range_multi key hashf eqb m t vs = Some (m', t') /\ rep m' t' L' /\
  Permutation (vals L') (vs ++ vals L) /\ others m L m' /\ mlf t' = mlf t.
Proof. now apply insert_range_multi_ok. Qed.
Theorem hash_insert_range_unique m t L vs : rep m t L -> exists m' t' L', insert_range_unique key hashf eqb m t vs = Some (m', t') /\ rep m' t' L' /\
  Permutation (vals L') (adds key eqb (vals L) vs) /\ others m L m' /\ mlf t' = mlf t.
Proof. now apply insert_range_unique_ok. Qed.
Theorem hash_index m t L k d : rep m t L -> eqb (key d) k = true -> exists m' t' L' p, u_index key hashf eqb m t k d = Some (m', t', p) /\ rep m' t' L' /\ others m L m' /\
  ((exists w, In w (vals L) /\ eqb (key w) k = true /\ In (p, w) (concat L') /\ m' = m /\ t' = t /\ L' = L) \/
   (Forall (fun w => eqb (key w) k = false) (vals L) /\ In (p, d) (concat L') /\ Permutation (vals L') (d :: vals L))).
Proof. now apply u_index_ok. Qed.

(** ** C112: emplacement, and the node it loses *)
Theorem hash_emplace_multi m t L v : rep m t L -> exists m' t' L', emplace_multi key hashf eqb m t v = Some (m', t', brk m) /\ rep m' t' L' /\
  Permutation (vals L') (v :: vals L) /\ In (brk m, v) (concat L') /\ others m L m' /\ mlf t' = mlf t /\
  (crowded t 1 = false -> Permutation (concat L') ((brk m, v) :: concat L)).
Proof. now apply emplace_multi_ok. Qed.
Theorem hash_emplace_unique_partial m t L v : rep m t L -> exists m' t' L' p (b : bool), emplace_unique key hashf eqb m t v = Some (m', t', (p, b)) /\ rep m' t' L' /\
  others m L m' /\ mlf t' = mlf t /\
  (if b then Forall (fun w => eqb (key w) (key v) = false) (vals L) /\ Permutation (vals L') (v :: vals L) /\ p = brk m /\ In (p, v) (concat L') /\
     (crowded t 1 = false -> Permutation (concat L') ((p, v) :: concat L))
   else Permutation (vals L') (vals L) /\ (exists w, In (p, w) (concat L') /\ eqb (key w) (key v) = true) /\ (crowded t 1 = false -> t' = t /\ L' = L)).
Proof.
  intros R. destruct (emplace_unique_ok key hashf eqb KO m t L v R) as (m' & t' & L' & p & b & E & R' & O & M & H). exists m', t', L', p, b. repeat (split; [assumption|]). destruct b; tauto.
Qed.
(** the node made for a key that is there stays after the destructor *)
Theorem hash_emplace_leak m t L v w m' t' r m2 : rep m t L -> In w (vals L) -> eqb (key w) (key v) = true -> emplace_unique key hashf eqb m t v = Some (m', t', r) ->
  destruct_tab m' t' = Some m2 -> snd r = false /\ cell m (brk m) = None /\ cell m2 (brk m) = Some (mkNd 0 v).
Proof.
  intros R Iw Hw E D. destruct (emplace_unique_ok key hashf eqb KO m t L v R) as (m1 & t1 & L1 & p & b & E1 & R1 & O & _ & H). rewrite E1 in E. injection E as -> -> <-. cbn [snd].
  destruct b.
  - destruct H as (F & _). rewrite Forall_forall in F. rewrite (F w Iw) in Hw. discriminate.
  - destruct H as (_ & _ & _ & NI & C). destruct (destruct_ok key hashf eqb m' t' L1 R1) as (m3 & E3 & _ & _ & _ & O3). rewrite E3 in D. injection D as ->.
    split; [reflexivity|]. split; [|rewrite O3 by exact NI; exact C]. destruct (cell m (brk m)) eqn:Q; [|reflexivity]. exfalso.
    assert (0 < brk m < brk m) by (apply (r_wf _ _ _ _ _ _ R); congruence). lia.
Qed.

(** ** C113: the number of buckets *)
Theorem hash_next_prime n : exists q, next_prime n = Some q /\ In q prime_list /\ (n <= max_prime -> n <= q /\ forall r, In r prime_list -> n <= r -> q <= r) /\ (max_prime < n -> q = max_prime).
Proof. apply next_prime_ok. Qed.
Theorem hash_rehash_partial m t L n : rep m t L -> exists m' t' L', rehash key hashf eqb m t n = Some (m', t') /\ grown m t L m' t' L' /\
  (n <= max_prime -> n <= bsz t') /\ (bsz t' = bsz t \/ In (bsz t') prime_list).
Proof. now apply rehash_ok. Qed.
(** when the array grows every element gets a new node and the old nodes stay, even after the destructor *)
Theorem hash_rehash_leak m t L n m' t' m2 a v : rep m t L -> bsz t < n <= max_prime -> rehash key hashf eqb m t n = Some (m', t') -> destruct_tab m' t' = Some m2 -> In (a, v) (concat L) ->
  cell m2 a = cell m a /\ cell m a <> None.
Proof.
  intros R Hn E D I. unfold rehash in E. destruct (next_prime_ok n) as (q & Eq & Iq & Hle & _). rewrite Eq in E. cbn [obind] in E.
  assert (Hq : bsz t < q) by (destruct (Hle ltac:(lia)); lia). destruct (Z.ltb_spec (bsz t) q) as [_|C]; [|lia]. pose proof (primes_max q Iq) as Bq.
  destruct (replace_bucket_ok key hashf eqb KO m t L q R ltac:(lia)) as (m1 & t1 & L1 & E1 & R1 & _ & _ & _ & _ & Old & New). rewrite E1 in E. injection E as -> ->.
  destruct (destruct_ok key hashf eqb m' t' L1 R1) as (m3 & E3 & _ & _ & _ & O3). rewrite E3 in D. injection D as ->.
  assert (Ia : In a (addrs L)) by (unfold addrs; apply in_map_iff; exists (a, v); auto). destruct (rep_in key hashf eqb m t L a R Ia) as (_ & Ca & Ba).
  split; [|exact Ca]. rewrite O3; [apply Old; lia|]. intros Q. apply New in Q. lia.
Qed.
Theorem hash_reserve m t L n : rep m t L -> mlf t = one32 -> 0 <= n < 2 ^ 24 -> exists m' t' L', reserve key hashf eqb m t n = Some (m', t') /\ grown m t L m' t' L' /\ n <= bsz t'.
Proof. now apply reserve_one. Qed.
(** with the maximum load factor 1, up to 2^24 elements *)
Theorem hash_load_insert_multi m t L v : rep m t L -> mlf t = one32 -> bsz t <= 2 ^ 64 -> cnt t < 2 ^ 24 ->
  exists m' t' p, insert_multi key hashf eqb m t v = Some (m', t', p) /\ cnt t' = cnt t + 1 /\ cnt t' <= bsz t' <= 2 ^ 64 /\ mlf t' = one32.
Proof. now apply insert_multi_load. Qed.
Theorem hash_load_insert_unique m t L v : rep m t L -> mlf t = one32 -> bsz t <= 2 ^ 64 -> cnt t < 2 ^ 24 ->
  exists m' t' r, insert_unique key hashf eqb m t v = Some (m', t', r) /\ cnt t' <= cnt t + 1 /\ cnt t' <= bsz t' <= 2 ^ 64 /\ mlf t' = one32.
Proof. now apply insert_unique_load. Qed.
Theorem hash_load_insert_range m t L vs : rep m t L -> mlf t = one32 -> bsz t <= 2 ^ 64 -> cnt t + len vs <= 2 ^ 24 ->
  exists m' t', insert_range_multi key hashf eqb m t vs = Some (m', t') /\ cnt t' = cnt t + len vs /\ cnt t' <= bsz t' <= 2 ^ 64 /\ mlf t' = one32.
Proof. now apply range_multi_load. Qed.

(** ** C114: erasing *)
Theorem hash_erase m t L A p v B : rep m t L -> concat L = A ++ (p, v) :: B -> exists m' t' L', erase key hashf m t p = Some (m', t') /\ less m t L m' t' L' /\ concat L' = A ++ B.
Proof. now apply erase_ok. Qed.
Theorem hash_erase_range m t L A X B : rep m t L -> concat L = A ++ X ++ B -> exists m' t' L', erase_range key hashf m t (hd (X ++ B) 0) (hd B 0) = Some (m', t') /\
  less m t L m' t' L' /\ concat L' = A ++ B.
Proof. now apply erase_range_ok. Qed.
Theorem hash_erase_unique m t L k : rep m t L ->
  (Forall (fun e => haskey k e = false) (concat L) /\ erase_unique key hashf eqb m t k = Some (m, t, 0)) \/
  (exists A p v B m' t' L', concat L = A ++ (p, v) :: B /\ Forall (fun e => haskey k e = false) A /\ eqb (key v) k = true /\
    erase_unique key hashf eqb m t k = Some (m', t', 1) /\ less m t L m' t' L' /\ concat L' = A ++ B).
Proof. now apply erase_unique_ok. Qed.
Theorem hash_clear m t L : rep m t L -> exists m' t' L', clear m t = Some (m', t') /\ less m t L m' t' L' /\ concat L' = [].
Proof. now apply clear_ok. Qed.
(** what [less] says of the memory: the nodes erased are given back, all others stay as they are, the iterators to the others stay valid *)
Theorem hash_erased_nodes m t L m' t' L' a : less m t L m' t' L' -> In a (addrs L) -> ~ In a (addrs L') -> cell m' a = None.
Proof. intros (_ & F & _) I N. now apply (F a N). Qed.
Theorem hash_other_nodes m t L m' t' L' a : less m t L m' t' L' -> ~ In a (addrs L) -> cell m' a = cell m a.
Proof. intros (_ & F & I & _) N. apply (F a); auto. Qed.
(** ** C115: erasing a key of a multi container *)
Theorem hash_erase_multi_partial m t L k : rep m t L -> Forall (fun e => haskey k e = false) (concat L) -> erase_multi key hashf eqb m t k = Some (m, t, 0).
Proof.
  intros R F. rewrite (erase_multi_ok key hashf eqb KO m t L k R). assert (E : existsb (haskey k) (concat L) = false); [|now rewrite E].
  apply not_true_is_false. intros C. apply existsb_exists in C as (e & I & H). rewrite Forall_forall in F. rewrite (F e I) in H. discriminate.
Qed.
Theorem hash_erase_multi_undefined m t L k w : rep m t L -> In w (vals L) -> eqb (key w) k = true -> erase_multi key hashf eqb m t k = None.
Proof.
  intros R I H. rewrite (erase_multi_ok key hashf eqb KO m t L k R). assert (E : existsb (haskey k) (concat L) = true); [|now rewrite E].
  unfold vals in I. apply in_map_iff in I as (e & <- & I). apply existsb_exists. exists e. auto.
Qed.

(** ** C116: construction, copies, moves, destruction, comparison *)
Theorem hash_construct m n : wf m -> exists t L, construct n = Some t /\ rep m t L /\ concat L = [] /\ mlf t = one32 /\ In (bsz t) prime_list /\ (n <= max_prime -> n <= bsz t).
Proof. now apply construct_ok. Qed.
Theorem hash_copy m t L : rep m t L -> exists m' t' L', copy_construct m t = Some (m', t') /\ rep m' t' L' /\ rep m' t L /\ apart L' L /\ vals L' = vals L /\
  bsz t' = bsz t /\ mlf t' = mlf t /\ (forall b, b < brk m -> cell m' b = cell m b).
Proof.
  intros R. destruct (copy_construct_ok key hashf eqb m t L R) as (m' & t' & L' & E & R' & EV & Eb & Em & B & O & G). exists m', t', L'. split; [exact E|]. split; [exact R'|].
  assert (HL : forall b, In b (addrs L) -> b < brk m) by (intros b Hb; apply (rep_in key hashf eqb m t L b R) in Hb; lia).
  split; [apply (rep_ext key hashf eqb m); auto; apply (r_wf _ _ _ _ _ _ R')|]. split; [intros b Hb Q; apply G in Hb; apply HL in Q; lia|]. split; [now apply vals_map|]. auto.
Qed.
Theorem hash_copy_assign m t L u N : rep m t L -> rep m u N -> apart L N -> exists m' t' L', copy_assign m t u = Some (m', t') /\ rep m' t' L' /\ rep m' u N /\ apart L' N /\
  vals L' = vals N /\ bsz t' = bsz u /\ mlf t' = mlf u /\ (forall b, In b (addrs L) -> cell m' b = None) /\ (forall b, cell m b <> None -> ~ In b (addrs L) -> cell m' b = cell m b).
Proof.
  intros R RU AP. destruct (copy_assign_ok key hashf eqb m t L u N R RU AP) as (m' & t' & L' & E & R' & RU' & AP' & EV & H). exists m', t', L'. apply vals_map in EV. auto 10.
Qed.
Theorem hash_move_assign_partial m t L u N : rep m t L -> rep m u N -> apart L N -> exists m', move_assign m t u = Some (m', u, moved) /\ rep m' u N /\
  (forall b, In b (addrs L) -> cell m' b = None) /\ (forall b, ~ In b (addrs L) -> cell m' b = cell m b).
Proof. now apply move_assign_ok. Qed.
(** a table moved from has no bucket: it takes insertions, but every search divides by zero *)
Theorem hash_moved_from m k d : find key hashf eqb m moved k = None /\ count key hashf eqb m moved k = None /\ erase_unique key hashf eqb m moved k = None /\ u_index key hashf eqb m moved k d = None.
Proof. repeat split. Qed.
Theorem hash_moved_grows m : wf m -> exists t', rehash_if_need key hashf eqb m moved 1 = Some (m, t') /\ rep m t' (empties 101).
Proof. apply moved_grows. Qed.
Theorem hash_destruct m t L : rep m t L -> exists m', destruct_tab m t = Some m' /\ (forall b, In b (addrs L) -> cell m' b = None) /\ (forall b, ~ In b (addrs L) -> cell m' b = cell m b).
Proof. intros R. destruct (destruct_ok key hashf eqb m t L R) as (m' & E & _ & _ & H). eauto. Qed.
Theorem hash_equal_unique veq m t L u N : rep m t L -> rep m u N -> distinct (vals L) -> distinct (vals N) -> (forall x y, veq x y = true <-> x = y) ->
  exists r, equal_to_unique key hashf eqb m veq t u = Some r /\ (r = true <-> Permutation (vals L) (vals N)).
Proof.
  intros R RU DL DN V. destruct (equal_to_unique_ok key hashf eqb KO veq m t L u N R RU DN) as (r & E & H). exists r. split; [exact E|]. rewrite H. split.
  - intros [EL Q]. assert (ND : NoDup (vals L)).
    { clear - DL KO. induction (vals L) as [|x l IH]; constructor; destruct DL as [F D]; [|auto]. intros I. rewrite Forall_forall in F. exact (F x I (same_refl key hashf eqb KO x)). }
    apply NoDup_Permutation_bis; [exact ND|lia|]. intros x Ix. destruct (Q x Ix) as (y & Iy & _ & Vy). apply V in Vy. now subst y.
  - intros P. split; [now apply Permutation_length|]. intros x Ix. exists x. split; [now apply (Permutation_in _ P)|]. split; [apply (same_refl key hashf eqb KO)|now apply V].
Qed.
(** the constructor from a range counts the elements and inserts none *)
Theorem hash_construct_range d n : 0 < d -> exists t, construct_range d n = Some t /\ cnt t = d /\ begin t = Some 0.
Proof.
  intros Hd. unfold construct_range. destruct (next_prime_ok (Z.max n d)) as (q & E & I & _). rewrite E. cbn [obind]. eexists. split; [reflexivity|]. split; [reflexivity|].
  pose proof (primes_max q I) as B. unfold begin, scan_from. cbn [bsz].
  assert (H : forall n i, Z.of_nat i <= q -> (Z.to_nat q - i < n)%nat -> scan n (mkTab (fun _ => 0) q q d one32) (0 + Z.of_nat i) = Some 0).
  { induction n0 as [|k IH]; intros i Hi Hf; [lia|]. cbn [scan bsz]. rewrite Z.add_0_l. destruct (Z.ltb_spec (Z.of_nat i) q) as [Lt|_]; [|reflexivity].
    unfold rdb. cbn [bl bk]. rewrite (proj2 (Z.leb_le 0 (Z.of_nat i))) by lia. rewrite (proj2 (Z.ltb_lt (Z.of_nat i) q)) by lia. cbn [andb obind]. rewrite Z.eqb_refl.
    replace (Z.of_nat i + 1) with (0 + Z.of_nat (S i)) by lia. apply IH; lia. }
  apply (H _ O); lia.
Qed.
Theorem hash_u_construct_unique m n vs : wf m -> exists m' t' L', u_construct_unique key hashf eqb m n vs = Some (m', t') /\ rep m' t' L' /\
  Permutation (vals L') (adds key eqb [] vs) /\ (forall b, cell m b <> None -> cell m' b = cell m b).
Proof. now apply u_construct_unique_ok. Qed.
Theorem hash_u_construct_multi m n vs : wf m -> exists m' t' L', u_construct_multi key hashf eqb m n vs = Some (m', t') /\ rep m' t' L' /\
  Permutation (vals L') vs /\ (forall b, cell m b <> None -> cell m' b = cell m b).
Proof. now apply u_construct_multi_ok. Qed.
Lemma clear_mlf m t L m1 t1 : rep m t L -> clear m t = Some (m1, t1) -> mlf t1 = mlf t.
Proof. intros R E. destruct (clear_ok key hashf eqb m t L R) as (m' & t' & L' & E' & (_ & _ & _ & _ & _ & M) & _). rewrite E' in E. injection E as <- <-. exact M. Qed.

(** ** C117: any sequence of operations on a container with unique keys *)
Inductive op : Type := OInsert (v : T) | OInserts (vs : list T) | OErase (k : K) | OClear | ORehash (n : Z) | OCopy.
Definition step (o : op) (s : memory * tab) : option (memory * tab) :=
  let (m, t) := s in
  match o with
  | OInsert v => match insert_unique key hashf eqb m t v with Some (m, t, _) => Some (m, t) | None => None end
  | OInserts vs => insert_range_unique key hashf eqb m t vs
  | OErase k => match erase_unique key hashf eqb m t k with Some (m, t, _) => Some (m, t) | None => None end
  | OClear => clear m t
  | ORehash n => rehash key hashf eqb m t n
  | OCopy => match copy_construct m t with Some (m, u) => match destruct_tab m t with Some m => Some (m, u) | None => None end | None => None end
  end.
Fixpoint run (os : list op) (s : memory * tab) : option (memory * tab) := match os with [] => Some s | o :: os => match step o s with Some s => run os s | None => None end end.
(** the same on a plain list of values *)
Definition plain (o : op) (ws : list T) : list T :=
  match o with
  | OInsert v => adds key eqb ws [v]
  | OInserts vs => adds key eqb ws vs
  | OErase k => filter (fun w => negb (eqb (key w) k)) ws
  | OClear => []
  | ORehash _ | OCopy => ws
  end.
Definition plains (os : list op) (ws : list T) : list T := fold_left (fun ws o => plain o ws) os ws.
Lemma adds_distinct vs : forall ws, distinct ws -> distinct (adds key eqb ws vs).
Proof.
  induction vs as [|v vs IH]; intros ws D; cbn [adds]; [exact D|]. destruct (existsb _ ws) eqn:E; [auto|]. apply IH. cbn [HtSpec.distinct]. split; [|exact D].
  apply Forall_forall. intros w Iw C. apply (k_sym _ _ KO) in C. assert (existsb (fun w => eqb (key w) (key v)) ws = true) by (apply existsb_exists; eauto). congruence.
Qed.
Lemma filter_distinct (f : T -> bool) ws : distinct ws -> distinct (filter f ws).
Proof.
  induction ws as [|w ws IH]; cbn [filter HtSpec.distinct]; [auto|]. intros [F D]. destruct (f w); [|auto]. cbn [HtSpec.distinct]. split; [|auto].
  apply Forall_forall. intros x Ix. apply filter_In in Ix as [Ix _]. rewrite Forall_forall in F. auto.
Qed.
Lemma filter_all (f : T -> bool) ws : Forall (fun w => f w = true) ws -> filter f ws = ws.
Proof. induction 1 as [|w l H F IH]; [reflexivity|]. cbn [filter]. now rewrite H, IH. Qed.
Lemma perm_filter (f : T -> bool) (a b : list T) : Permutation a b -> Permutation (filter f a) (filter f b).
Proof.
  induction 1 as [| x l l' P IH | x y l | l l' l'' P1 IH1 P2 IH2]; cbn [filter]; auto.
  - destruct (f x); auto.
  - destruct (f x), (f y); auto. apply perm_swap.
  - eapply Permutation_trans; eauto.
Qed.
Lemma step_ok o m t L ws : rep m t L -> Permutation (vals L) ws -> distinct ws -> exists m' t' L', step o (m, t) = Some (m', t') /\ rep m' t' L' /\
  Permutation (vals L') (plain o ws) /\ distinct (plain o ws) /\ others m L m'.
Proof.
  intros R P D. destruct o as [v|vs|k| |n|]; cbn [step plain].
  - destruct (insert_unique_ok key hashf eqb KO m t L v R) as (m' & t' & L' & p & b & E & R' & O & _ & H). rewrite E. exists m', t', L'. split; [reflexivity|]. split; [exact R'|].
    split; [|split; [now apply adds_distinct|exact O]]. rewrite <- (adds_perm key eqb [v] _ _ P). cbn [adds]. destruct b.
    + destruct H as (F & P' & _). assert (Ex : existsb (fun w => eqb (key w) (key v)) (vals L) = false); [|now rewrite Ex].
      apply not_true_is_false. intros C. apply existsb_exists in C as (w & Iw & Hw). rewrite Forall_forall in F. rewrite (F w Iw) in Hw. discriminate.
    + destruct H as (P' & (w & Iw & Hw) & _). assert (Ex : existsb (fun w => eqb (key w) (key v)) (vals L) = true); [|now rewrite Ex].
      apply existsb_exists. exists w. split; [|exact Hw]. apply (Permutation_in _ P'). unfold vals. apply in_map_iff. exists (p, w). auto.
  - destruct (insert_range_unique_ok key hashf eqb KO m t L vs R) as (m' & t' & L' & E & R' & P' & O & _). exists m', t', L'. split; [exact E|]. split; [exact R'|].
    split; [|split; [now apply adds_distinct|exact O]]. rewrite P'. now apply adds_perm.
  - destruct (erase_unique_ok key hashf eqb KO m t L k R) as [[F E]|(A & p & v & B & m' & t' & L' & EC & FA & Hv & E & (R' & Fr & I & _) & EC')]; rewrite E.
    + exists m, t, L. split; [reflexivity|]. split; [exact R|]. split; [|split; [now apply filter_distinct|now intros b _ _]].
      rewrite <- (perm_filter _ _ _ P), filter_all; [reflexivity|]. apply Forall_forall. intros w Iw. unfold vals in Iw. apply in_map_iff in Iw as (e & <- & Ie). rewrite Forall_forall in F.
      specialize (F e Ie). unfold HtSpec.haskey in F. now rewrite F.
    + exists m', t', L'. split; [reflexivity|]. split; [exact R'|]. split; [|split; [now apply filter_distinct|]].
      * rewrite <- (perm_filter _ _ _ P). assert (DV : distinct (vals L)) by (apply (distinct_perm key hashf eqb KO ws); [now symmetry|exact D]).
        unfold vals in DV |- *. rewrite EC in DV. rewrite EC, EC'. rewrite !map_app in *. cbn [map snd] in *. rewrite filter_app. cbn [filter]. rewrite Hv. cbn [negb].
        assert (FB : Forall (fun w => eqb (key w) k = false) (map snd B)).
        { clear - DV Hv KO. induction (map snd A) as [|x l IH]; [|apply IH; apply DV]. destruct DV as [F _]. apply Forall_forall. intros w Iw. rewrite Forall_forall in F. specialize (F w Iw).
          destruct (eqb (key w) k) eqn:E; [exfalso|reflexivity]. apply F. unfold HtSpec.same. eapply (k_trans _ _ KO); [exact Hv|]. apply (k_sym _ _ KO). exact E. }
        rewrite !filter_all; [reflexivity| |].
        -- eapply Forall_impl; [|exact FB]. intros w Hw. cbn beta in *. now rewrite Hw.
        -- apply Forall_forall. intros w Iw. apply in_map_iff in Iw as (e & <- & Ie). rewrite Forall_forall in FA. specialize (FA e Ie). unfold HtSpec.haskey in FA. now rewrite FA.
      * intros b Hb Ib. apply (Fr b); auto.
  - destruct (clear_ok key hashf eqb m t L R) as (m' & t' & L' & E & (R' & Fr & I & _) & EC). exists m', t', L'. split; [exact E|]. split; [exact R'|].
    split; [unfold vals; rewrite EC; reflexivity|]. split; [exact Logic.I|]. intros b Hb Ib. apply (Fr b); auto.
  - destruct (rehash_ok key hashf eqb KO m t L n R) as (m' & t' & L' & E & (R' & P' & _ & B & O) & _). exists m', t', L'. split; [exact E|]. split; [exact R'|].
    split; [now rewrite P'|]. split; [exact D|]. intros b Hb Ib. apply O; [|exact Ib]. apply (r_wf _ _ _ _ _ _ R) in Hb. lia.
  - destruct (hash_copy m t L R) as (m1 & t1 & L1 & E1 & R1 & R0 & AP & EV & _ & _ & O1). rewrite E1. destruct (destruct_ok key hashf eqb m1 t L R0) as (m' & E' & W' & B' & C' & O'). rewrite E'.
    exists m', t1, L1. split; [reflexivity|]. split; [apply (rep_ext key hashf eqb m1); auto|]. split; [now rewrite EV|]. split; [exact D|].
    intros b Hb Ib. rewrite O' by exact Ib. apply O1. apply (r_wf _ _ _ _ _ _ R) in Hb. lia.
Qed.
Lemma run_ok os : forall m t L ws, rep m t L -> Permutation (vals L) ws -> distinct ws -> exists m' t' L', run os (m, t) = Some (m', t') /\ rep m' t' L' /\
  Permutation (vals L') (plains os ws) /\ distinct (plains os ws).
Proof.
  induction os as [|o os IH]; intros m t L ws R P D; cbn [run].
  - exists m, t, L. auto.
  - destruct (step_ok o m t L ws R P D) as (m1 & t1 & L1 & E & R1 & P1 & D1 & _). rewrite E. apply (IH m1 t1 L1 (plain o ws) R1 P1 D1).
Qed.
(** from an empty table on, any operations in any order leave the values a plain list would hold, each key once, and every search gives the answer of the list *)
Theorem hash_history m n os : wf m -> exists t0 m' t', construct n = Some t0 /\ run os (m, t0) = Some (m', t') /\ exists L',
  rep m' t' L' /\ Permutation (vals L') (plains os []) /\ distinct (plains os []) /\ cnt t' = len (plains os []) /\
  forall k, exists p, find key hashf eqb m' t' k = Some p /\ (p = 0 <-> existsb (fun w => eqb (key w) k) (plains os []) = false) /\
    (p <> 0 -> exists v r, get m' p = Some (mkNd r v) /\ In v (plains os []) /\ eqb (key v) k = true).
Proof.
  intros W. destruct (construct_ok key hashf eqb m n W) as (t0 & L0 & E0 & R0 & EC & _). destruct (run_ok os m t0 L0 [] R0) as (m' & t' & L' & E & R & P & D); [unfold vals; now rewrite EC|exact I|].
  exists t0, m', t'. split; [exact E0|]. split; [exact E|]. exists L'. split; [exact R|]. split; [exact P|]. split; [exact D|]. split.
  - rewrite (r_cnt _ _ _ _ _ _ R). apply Permutation_length in P. unfold vals in P. rewrite map_length in P. unfold HtSpec.len. now rewrite P.
  - intros k. destruct (find_ok key hashf eqb KO m' t' L' k R) as (p & Ef & H). exists p. split; [exact Ef|]. rewrite <- (existsb_perm _ _ _ P). destruct H as [[-> F]|[N (v & Iv & Hv)]].
    + split; [|now intros C]. split; [intros _|auto]. apply not_true_is_false. intros C. apply existsb_exists in C as (w & Iw & Hw). unfold vals in Iw. apply in_map_iff in Iw as (e & <- & Ie).
      rewrite Forall_forall in F. specialize (F e Ie). unfold HtSpec.haskey in F. congruence.
    + assert (Ivv : In v (vals L')) by (unfold vals; apply in_map_iff; exists (p, v); auto). split.
      * split; [contradiction|]. intros C. assert (existsb (fun w => eqb (key w) k) (vals L') = true) by (apply existsb_exists; eauto). congruence.
      * intros _. apply in_concat in Iv as (l & Il & Ip). apply In_nth_error in Il as [i Hi]. destruct (r_b _ _ _ _ _ _ R i l Hi) as (_ & S & _). destruct (seg_in m' l 0 p v S Ip) as (_ & r & C).
        exists v, r. split; [unfold get; now rewrite (proj2 (Z.eqb_neq p 0) N)|]. split; [now apply (Permutation_in _ P)|exact Hv].
Qed.
End HtProps.

(** ** a table of pairs with integer keys *)
Definition dkey (x : Z * Z) : Z := fst x.
Definition dhash (k : Z) : Z := k.
Lemma demo_ok : key_ok dhash Z.eqb.
Proof. constructor; intros; rewrite ?Z.eqb_eq in *; unfold dhash in *; congruence. Qed.
Definition heap0 : @memory (Z * Z) := mkMem (fun _ => None) 1.
Lemma heap0_wf : wf heap0. Proof. split; cbn; [lia|]. intros a H. now contradiction H. Qed.
(** 1 and 102 share a bucket of 101 *)
Definition demo : option (memory * tab) := u_construct_multi dkey dhash Z.eqb heap0 10 [(1, 10); (102, 20); (1, 30); (7, 70)].
Notation drep := (rep dkey dhash Z.eqb).
Lemma demo_rep : exists m t L, demo = Some (m, t) /\ drep m t L /\ Permutation (vals L) [(1, 10); (102, 20); (1, 30); (7, 70)].
Proof. destruct (hash_u_construct_multi dkey dhash Z.eqb demo_ok heap0 10 [(1, 10); (102, 20); (1, 30); (7, 70)] heap0_wf) as (m & t & L & E & R & P & _). exists m, t, L. auto. Qed.
Example hash_find_ex : exists m t L, drep m t L /\ find dkey dhash Z.eqb m t 102 = Some 2 /\ find dkey dhash Z.eqb m t 103 = Some 0 /\ count dkey dhash Z.eqb m t 1 = Some 2 /\
  (exists f l, equal_range_multi dkey dhash Z.eqb m t 1 = Some (f, l) /\ f = 1 /\ l = 4).
Proof.
  destruct demo_rep as (m & t & L & E & R & P). exists m, t, L. split; [exact R|].
  assert (W : match demo with Some (m, t) => (find dkey dhash Z.eqb m t 102, find dkey dhash Z.eqb m t 103, count dkey dhash Z.eqb m t 1, equal_range_multi dkey dhash Z.eqb m t 1) | None => (None, None, None, None) end
    = (Some 2, Some 0, Some 2, Some (1, 4))) by (vm_compute; reflexivity).
  rewrite E in W. split; [exact (f_equal (fun o => fst (fst (fst o))) W)|]. split; [exact (f_equal (fun o => snd (fst (fst o))) W)|]. split; [exact (f_equal (fun o => snd (fst o)) W)|].
  exists 1, 4. split; [exact (f_equal snd W)|]. auto.
Qed.
Example hash_iterate_ex : exists m t L, drep m t L /\ (exists p, begin t = Some p /\ walk dkey dhash 9 m t p = Some [(102, 20); (1, 10); (1, 30); (7, 70)]).
Proof.
  destruct demo_rep as (m & t & L & E & R & P). exists m, t, L. split; [exact R|].
  assert (W : match demo with Some (m, t) => (begin t, match begin t with Some p => walk dkey dhash 9 m t p | None => None end) | None => (None, None) end
    = (Some 2, Some [(102, 20); (1, 10); (1, 30); (7, 70)])) by (vm_compute; reflexivity).
  rewrite E in W. pose proof (f_equal fst W) as W1. cbn [fst] in W1. exists 2. split; [exact W1|]. pose proof (f_equal snd W) as W2. cbn [snd] in W2. rewrite W1 in W2. exact W2.
Qed.
Example hash_insert_ex : exists m t L, drep m t L /\ mlf t = one32 /\ crowded t 1 = false /\ crowded t 98 = true /\ cnt t = 4 /\ bsz t = 101.
Proof.
  destruct demo_rep as (m & t & L & E & R & P). exists m, t, L. split; [exact R|].
  assert (W : match demo with Some (m, t) => (mlf t, crowded t 1, crowded t 98, cnt t, bsz t) | None => (zero32, true, true, 0, 0) end = (one32, false, true, 4, 101)) by (vm_compute; reflexivity).
  rewrite E in W. injection W as -> -> -> -> ->. auto.
Qed.
(** C112: the lost node *)
Theorem hash_emplace_unique_refuted : exists m t L v m' t' r m2, drep m t L /\ emplace_unique dkey dhash Z.eqb m t v = Some (m', t', r) /\ destruct_tab m' t' = Some m2 /\
  cell m (brk m) = None /\ cell m2 (brk m) = Some (mkNd 0 v).
Proof.
  destruct demo_rep as (m & t & L & E & R & P). destruct (emplace_unique_ok dkey dhash Z.eqb demo_ok m t L (7, 0) R) as (m' & t' & L' & p & b & E1 & R1 & _).
  destruct (destruct_ok dkey dhash Z.eqb m' t' L' R1) as (m2 & E2 & _). exists m, t, L, (7, 0), m', t', (p, b), m2. split; [exact R|]. split; [exact E1|]. split; [exact E2|].
  apply (hash_emplace_leak dkey dhash Z.eqb demo_ok m t L (7, 0) (7, 70) m' t' (p, b) m2 R); auto. apply (Permutation_in _ (Permutation_sym P)). cbn. auto.
Qed.
(** C113: the nodes lost by a growing array *)
Theorem hash_rehash_refuted : exists m t L a v m' t' m2, drep m t L /\ In (a, v) (concat L) /\ rehash dkey dhash Z.eqb m t 150 = Some (m', t') /\ destruct_tab m' t' = Some m2 /\
  cell m2 a <> None.
Proof.
  destruct demo_rep as (m & t & L & E & R & P). destruct (rehash_ok dkey dhash Z.eqb demo_ok m t L 150 R) as (m' & t' & L' & E1 & (R1 & _) & _).
  destruct (destruct_ok dkey dhash Z.eqb m' t' L' R1) as (m2 & E2 & _). assert (I : In (7, 70) (vals L)) by (apply (Permutation_in _ (Permutation_sym P)); cbn; auto).
  unfold vals in I. apply in_map_iff in I as ([a v] & Ev & I). exists m, t, L, a, v, m', t', m2. repeat (split; [assumption|]).
  assert (Hb : bsz t = 101). { assert (W : match demo with Some (m, t) => bsz t | None => 0 end = 101) by (vm_compute; reflexivity). rewrite E in W. exact W. }
  destruct (hash_rehash_leak dkey dhash Z.eqb demo_ok m t L 150 m' t' m2 a v R) as [H1 H2]; auto; [rewrite Hb; unfold max_prime; lia|]. rewrite H1. exact H2.
Qed.
(** C113: with another maximum load factor it is exceeded *)
Theorem hash_load_refuted : exists vs m t L m' t', u_construct_unique dkey dhash Z.eqb heap0 10 vs = Some (m, t) /\ drep m (mkTab (bk t) (bl t) (bsz t) (cnt t) half32) L /\
  insert_unique dkey dhash Z.eqb m (mkTab (bk t) (bl t) (bsz t) (cnt t) half32) (999, 0) = Some (m', t', (61, true)) /\ SFltb (mlf t') (load_factor t') = true.
Proof.
  set (vs := map (fun i => (Z.of_nat i, 0)) (seq 0 60)). destruct (hash_u_construct_unique dkey dhash Z.eqb demo_ok heap0 10 vs heap0_wf) as (m & t & L & E & R & _).
  set (t1 := mkTab (bk t) (bl t) (bsz t) (cnt t) half32). assert (R1 : drep m t1 L) by (apply (rep_tab dkey dhash Z.eqb m t t1 L R); reflexivity).
  destruct (insert_unique_ok dkey dhash Z.eqb demo_ok m t1 L (999, 0) R1) as (m' & t' & L' & p & b & E1 & _). exists vs, m, t, L, m', t'. split; [exact E|]. split; [exact R1|].
  assert (W : match u_construct_unique dkey dhash Z.eqb heap0 10 vs with Some (m, t) => match insert_unique dkey dhash Z.eqb m (mkTab (bk t) (bl t) (bsz t) (cnt t) half32) (999, 0) with
    | Some (_, t', r) => Some (r, SFltb (mlf t') (load_factor t')) | None => None end | None => None end = Some ((61, true), true)) by (vm_compute; reflexivity).
  rewrite E in W. fold t1 in W. rewrite E1 in W. pose proof (f_equal (fun o => match o with Some (r, _) => r | None => (0, false) end) W) as W1. cbv beta iota in W1.
  pose proof (f_equal (fun o => match o with Some (_, r) => r | None => false end) W) as W2. cbv beta iota in W2. rewrite W1 in E1. split; [exact E1|exact W2].
Qed.
(** C114 *)
Example hash_erase_ex : exists m t m' t', demo = Some (m, t) /\ erase dkey dhash m t 1 = Some (m', t') /\ begin t' = Some 2 /\ walk dkey dhash 9 m' t' 2 = Some [(102, 20); (1, 30); (7, 70)] /\ cnt t' = 3.
Proof.
  destruct demo_rep as (m & t & L & E & R & P).
  assert (W : match demo with Some (m, t) => match erase dkey dhash m t 1 with Some (m', t') => Some (begin t', walk dkey dhash 9 m' t' 2, cnt t') | None => None end | None => None end
    = Some (Some 2, Some [(102, 20); (1, 30); (7, 70)], 3)) by (vm_compute; reflexivity).
  rewrite E in W. destruct (erase dkey dhash m t 1) as [[m' t']|] eqn:E1; [|discriminate]. exists m, t, m', t'. split; [exact E|]. split; [exact E1|]. injection W as W1 W2 W3. auto.
Qed.
Example hash_erase_range_ex : exists m t m' t', demo = Some (m, t) /\ erase_range dkey dhash m t 1 0 = Some (m', t') /\ walk dkey dhash 9 m' t' 2 = Some [(102, 20)] /\ cnt t' = 1.
Proof.
  destruct demo_rep as (m & t & L & E & R & P).
  assert (W : match demo with Some (m, t) => match erase_range dkey dhash m t 1 0 with Some (m', t') => Some (walk dkey dhash 9 m' t' 2, cnt t') | None => None end | None => None end
    = Some (Some [(102, 20)], 1)) by (vm_compute; reflexivity).
  rewrite E in W. destruct (erase_range dkey dhash m t 1 0) as [[m' t']|] eqn:E1; [|discriminate]. exists m, t, m', t'. split; [exact E|]. split; [exact E1|]. injection W as W1 W2. auto.
Qed.
(** C115 *)
Theorem hash_erase_multi_refuted : exists m t L, drep m t L /\ count dkey dhash Z.eqb m t 7 = Some 1 /\ erase_multi dkey dhash Z.eqb m t 7 = None.
Proof.
  destruct demo_rep as (m & t & L & E & R & P). exists m, t, L. split; [exact R|]. split.
  - assert (W : match demo with Some (m, t) => count dkey dhash Z.eqb m t 7 | None => None end = Some 1) by (vm_compute; reflexivity). rewrite E in W. exact W.
  - apply (hash_erase_multi_undefined dkey dhash Z.eqb demo_ok m t L 7 (7, 70) R); [|reflexivity]. apply (Permutation_in _ (Permutation_sym P)). cbn. auto.
Qed.
(** C116 *)
Theorem hash_construct_range_refuted : exists t, construct_range 3 0 = Some t /\ cnt t = 3 /\ begin t = Some 0.
Proof. apply hash_construct_range. lia. Qed.
Theorem hash_moved_from_refuted : exists m t L, drep m t L /\ snd (move_construct t) = moved /\ forall k, find dkey dhash Z.eqb m (snd (move_construct t)) k = None.
Proof. destruct demo_rep as (m & t & L & E & R & P). exists m, t, L. split; [exact R|]. split; [reflexivity|]. intros k. reflexivity. Qed.
Theorem hash_bucket_begin_refuted : exists m t L, drep m t L /\ bucket_size m t 7 = Some 1 /\ bucket_begin t 7 = None.
Proof.
  destruct demo_rep as (m & t & L & E & R & P). exists m, t, L. split; [exact R|].
  assert (W : match demo with Some (m, t) => (bucket_size m t 7, bucket_begin t 7) | None => (None, None) end = (Some 1, None)) by (vm_compute; reflexivity).
  rewrite E in W. split; [exact (f_equal fst W)|exact (f_equal snd W)].
Qed.
Example hash_copy_ex : exists m t L m' t' L', drep m t L /\ copy_construct m t = Some (m', t') /\ drep m' t' L' /\ drep m' t L /\ apart L' L /\ length (vals L) = 4%nat.
Proof.
  destruct demo_rep as (m & t & L & E & R & P). destruct (hash_copy dkey dhash Z.eqb m t L R) as (m' & t' & L' & E' & R' & R0 & AP & _). exists m, t, L, m', t', L'.
  repeat (split; [assumption|]). now apply Permutation_length in P.
Qed.
(** C117 *)
Example hash_history_ex : plains dkey Z.eqb [OInsert (1, 1); OInserts [(2, 2); (1, 5); (3, 3)]; ORehash 500; OErase 2; OInsert (3, 9); OCopy; OInsert (4, 4)] [] = [(4, 4); (3, 3); (1, 1)].
Proof. reflexivity. Qed.
