(** The doubly linked list (C96 to C99) *)
From Coq Require Import ZArith List Bool Lia Permutation Sorted.
From Verif Require Import F64 ArrModel SortSpec SetProps MergeProps ListModel ListSpec ListProof ListProof2 ListProof3 ListProof4 ListProof5.
Import ListNotations.
Open Scope Z_scope.
Open Scope opt_scope.

(** the values met on the way from begin() to end(), and from end() back to begin() *)
Fixpoint forward {V} (fuel : nat) (m : @memory V) (L : obj) (i : Z) : option (list V) :=
  match fuel with
  | O => None
  | S fuel => if i =? node L then Some [] else let* v := deref m i in let* j := inc m i in let* r := forward fuel m L j in Some (v :: r)
  end.
Fixpoint backward {V} (fuel : nat) (m : @memory V) (L : obj) (i : Z) : option (list V) :=
  match fuel with
  | O => None
  | S fuel => let* b := inc m (node L) in if i =? b then Some [] else let* j := dec m i in let* v := deref m j in let* r := backward fuel m L j in Some (v :: r)
  end.

Section Props.
Context {V : Type}.
Notation mem := (@memory V).
Implicit Types (m : mem) (L X : obj) (xs ys P Q N A B : list (Z * V)) (comp : V -> V -> bool).

Lemma forward_ok fuel m L P Q : is_list m L (P ++ Q) -> (length Q < fuel)%nat -> forward fuel m L (pos L Q) = Some (map snd Q).
Proof.
  revert fuel P. induction Q as [|x Q IH]; intros [|fuel] P H FU; cbn [length] in FU; try lia; cbn [forward pos].
  - now rewrite Z.eqb_refl.
  - destruct (node_at _ _ _ _ _ H) as (_ & _ & NE). destruct (Z.eqb_spec (fst x) (node L)) as [B|_]; [easy|]. rewrite (deref_at _ _ _ _ _ H), (inc_at _ _ _ _ _ H). cbn [obind].
    rewrite (IH fuel (P ++ [x])); [reflexivity|rewrite <- app_assoc; exact H|lia].
Qed.
Lemma backward_ok fuel m L P Q : is_list m L (P ++ Q) -> (length P < fuel)%nat -> backward fuel m L (pos L Q) = Some (rev (map snd P)).
Proof.
  revert fuel Q. induction P as [|x P IH] using rev_ind; intros [|fuel] Q H FU; try lia; cbn [backward]; rewrite (inc_end _ _ _ H); cbn [obind].
  - cbn [app]. now rewrite Z.eqb_refl.
  - destruct (Z.eqb_spec (pos L Q) (pos L ((P ++ [x]) ++ Q))) as [B|_]; [exfalso; apply (pos_begin _ _ _ _ H) in B; destruct P; discriminate B|].
    rewrite (dec_pos _ _ _ _ H). cbn [obind]. rewrite lst_snoc. rewrite <- app_assoc in H. rewrite (deref_at _ _ _ _ _ H). cbn [obind].
    rewrite app_length in FU. cbn [length] in FU. pose proof (IH fuel (x :: Q) H ltac:(lia)) as IHE. cbn [pos] in IHE. rewrite IHE. cbn [obind]. rewrite map_app, rev_app_distr. reflexivity.
Qed.

(** C96: what can be read off a list: its size, both ends, and all values in either direction *)
Theorem C96_read m L xs : is_list m L xs ->
  size L = Z.of_nat (length xs) /\ empty m L = Some (match xs with [] => true | _ => false end) /\
  (forall x t, xs = x :: t -> front m L = Some (snd x)) /\ (forall x t, xs = t ++ [x] -> back m L = Some (snd x)) /\
  (exists b, inc m (node L) = Some b /\ forward (S (length xs)) m L b = Some (map snd xs)) /\
  backward (S (length xs)) m L (node L) = Some (rev (map snd xs)) /\
  forall P x Q, xs = P ++ x :: Q -> deref m (fst x) = Some (snd x) /\ inc m (fst x) = Some (pos L Q).
Proof.
  intros H. split; [apply H|]. split; [exact (empty_ok _ _ _ H)|]. split; [intros x t ->; exact (front_ok _ _ _ _ H)|]. split; [intros x t ->; exact (back_ok _ _ _ _ H)|]. split; [|split].
  - exists (pos L xs). split; [exact (inc_end _ _ _ H)|]. apply (forward_ok _ m L [] xs H). lia.
  - apply (backward_ok _ m L xs []); [now rewrite app_nil_r|lia].
  - intros P x Q ->. split; [exact (deref_at _ _ _ _ _ H)|exact (inc_at _ _ _ _ _ H)].
Qed.
(** C96: one new element at the front, at the back or before any position; all other nodes keep address and value *)
Theorem C96_add m L P Q a v : is_list m L (P ++ Q) -> a <> 0 -> m a = None -> size L < max_size ->
  (exists m' L', emplace m L (pos L Q) a v = Some (m', L') /\ node L' = node L /\ is_list m' L' (P ++ (a, v) :: Q) /\ only (places L (P ++ (a, v) :: Q)) m m') /\
  (exists m' L', insert m L (pos L Q) a v = Some (m', L') /\ node L' = node L /\ is_list m' L' (P ++ (a, v) :: Q) /\ only (places L (P ++ (a, v) :: Q)) m m') /\
  (P = [] -> exists m' L', push_front m L a v = Some (m', L') /\ node L' = node L /\ is_list m' L' ((a, v) :: Q) /\ only (places L ((a, v) :: Q)) m m') /\
  (Q = [] -> exists m' L', push_back m L a v = Some (m', L') /\ node L' = node L /\ is_list m' L' (P ++ [(a, v)]) /\ only (places L (P ++ [(a, v)])) m m').
Proof.
  intros H N E S. split; [now apply emplace_ok|]. split; [now apply insert_ok|]. split; [intros ->; now apply push_front_ok|]. intros ->. rewrite app_nil_r in H. now apply push_back_ok.
Qed.
(** C96: several new elements before any position; the iterator returned is the first new one, the position when there is none *)
Theorem C96_add_many m L P Q N : is_list m L (P ++ Q) -> fresh m (map fst N) -> size L + Z.of_nat (length N) <= max_size ->
  exists m' L', insert_many m L (pos L Q) N = Some (m', L', pos L (N ++ Q)) /\ node L' = node L /\ is_list m' L' (P ++ N ++ Q) /\ only (places L (P ++ N ++ Q)) m m'.
Proof. apply insert_many_ok. Qed.
(** C96: a list that is full takes no more: an exception *)
Theorem C96_full m L p a v new : max_size - Z.of_nat (length ((a, v) :: new)) < size L ->
  insert_many m L p ((a, v) :: new) = None /\ (new = [] -> push_front m L a v = None /\ push_back m L a v = None /\ emplace m L p a v = None /\ insert m L p a v = None).
Proof.
  intros H. assert (R : forall n, max_size - n < size L -> room L n = None) by (intros n Hn; unfold room; destruct (Z.ltb_spec (max_size - n) (size L)); [reflexivity|lia]).
  unfold insert_many, push_front, push_back, emplace, insert. split; [now rewrite R|]. intros ->. rewrite (R 1) by exact H. repeat split.
Qed.
(** C96: one element is removed, its node freed; the iterator returned is the following one *)
Theorem C96_remove m L P x Q : is_list m L (P ++ x :: Q) ->
  (exists m' L', erase m L (fst x) = Some (m', L', pos L Q) /\ node L' = node L /\ is_list m' L' (P ++ Q) /\ freed [fst x] m' /\ only (places L (P ++ x :: Q)) m m') /\
  (P = [] -> exists m' L', pop_front m L = Some (m', L') /\ node L' = node L /\ is_list m' L' Q /\ freed [fst x] m' /\ only (places L (x :: Q)) m m') /\
  (Q = [] -> exists m' L', pop_back m L = Some (m', L') /\ node L' = node L /\ is_list m' L' P /\ freed [fst x] m' /\ only (places L (P ++ [x])) m m').
Proof. intros H. split; [now apply erase_ok|]. split; [intros ->; now apply pop_front_ok|]. intros ->. now apply pop_back_ok. Qed.
(** C96: several elements, or all, are removed and freed *)
Theorem C96_remove_many m L P N Q : is_list m L (P ++ N ++ Q) ->
  (exists m' L', erase_range m L (pos L (N ++ Q)) (pos L Q) = Some (m', L') /\ node L' = node L /\ is_list m' L' (P ++ Q) /\ freed (map fst N) m' /\ only (places L (P ++ N ++ Q)) m m') /\
  (exists m' L', clear m L = Some (m', L') /\ node L' = node L /\ is_list m' L' [] /\ freed (map fst (P ++ N ++ Q)) m' /\ only (places L (P ++ N ++ Q)) m m').
Proof. intros H. split; [now apply erase_range_ok|now apply clear_ok]. Qed.
(** C96: resize keeps the first n elements and fills up with new ones *)
Theorem C96_resize m L xs n N : is_list m L xs -> length N = (n - length xs)%nat -> Z.of_nat n <= max_size -> fresh m (map fst N) ->
  exists m' L', resize m L (Z.of_nat n) N = Some (m', L') /\ node L' = node L /\ is_list m' L' (firstn n xs ++ N) /\ freed (map fst (skipn n xs)) m' /\ only (places L (xs ++ N)) m m'.
Proof. apply resize_ok. Qed.
(** C96: assignment of values uses the nodes there are, then new ones, and frees what is left *)
Theorem C96_assign m L xs vs ads : is_list m L xs -> length ads = (length vs - length xs)%nat -> Z.of_nat (length vs) <= max_size -> fresh m ads ->
  exists m' L', assign m L vs ads = Some (m', L') /\ node L' = node L /\ is_list m' L' (combine (map fst xs ++ ads) vs) /\ freed (map fst (skipn (length vs) xs)) m' /\
    only (node L :: map fst xs ++ ads) m m'.
Proof. apply assign_ok. Qed.
(** C96: the operations that need an element fail on an empty list *)
Theorem C96_empty m L : is_list m L [] -> pop_front m L = None /\ pop_back m L = None /\ front m L = None /\ back m L = None /\ erase m L (node L) = None.
Proof. intros H. destruct (pop_empty _ _ H) as (-> & -> & -> & ->). repeat split. unfold erase. now rewrite Z.eqb_refl. Qed.

(** C97: nodes of another list, all, one or a range, are moved before a position; none is copied or freed *)
Theorem C97_splice m L P Q X A N B : is_list m L (P ++ Q) -> is_list m X (A ++ N ++ B) -> apart L (P ++ Q) X (A ++ N ++ B) -> size L + Z.of_nat (length N) <= max_size ->
  (exists m' L' X', splice_range m L (pos L Q) X (pos X (N ++ B)) (pos X B) = Some (m', L', X') /\ node L' = node L /\ node X' = node X /\ is_list m' L' (P ++ N ++ Q) /\ is_list m' X' (A ++ B) /\
    apart L (P ++ N ++ Q) X (A ++ B) /\ only (places L (P ++ Q) ++ places X (A ++ N ++ B)) m m') /\
  (forall x, N = [x] -> exists m' L' X', splice_one m L (pos L Q) X (fst x) = Some (m', L', X') /\ node L' = node L /\ node X' = node X /\ is_list m' L' (P ++ x :: Q) /\ is_list m' X' (A ++ B) /\
    apart L (P ++ x :: Q) X (A ++ B) /\ only (places L (P ++ Q) ++ places X (A ++ x :: B)) m m') /\
  (A = [] -> B = [] -> exists m' L' X', splice m L (pos L Q) X = Some (m', L', X') /\ node L' = node L /\ node X' = node X /\ is_list m' L' (P ++ N ++ Q) /\ is_list m' X' [] /\
    apart L (P ++ N ++ Q) X [] /\ only (places L (P ++ Q) ++ places X N) m m').
Proof.
  intros HL HX AP RM. split; [now apply splice_range_ok|]. split.
  - intros x ->. apply splice_one_ok; [exact HL|exact HX|exact AP|]. cbn [length] in RM. lia.
  - intros -> ->. cbn [app] in *. rewrite app_nil_r in *. apply splice_ok; [exact HL|exact HX|exact AP|]. destruct HX as (_ & -> & _). exact RM.
Qed.
(** C97: a node is moved to any other place of its own list *)
Theorem C97_splice_own m L A x B P Q : is_list m L (A ++ x :: B) -> A ++ B = P ++ Q -> size L < max_size ->
  (exists m', splice_own m L (pos L Q) (fst x) = Some (m', L) /\ is_list m' L (P ++ x :: Q) /\ only (places L (A ++ x :: B)) m m') /\ splice_own m L (fst x) (fst x) = Some (m, L).
Proof. intros H E S. split; [now apply splice_own_ok|]. unfold splice_own. now rewrite Z.eqb_refl. Qed.
(** C97: remove and remove_if keep the other elements in their order; every removed node is freed *)
Theorem C97_remove (p : V -> bool) (eqb : V -> V -> bool) (v : V) m L xs : is_list m L xs ->
  (exists m' L', remove_if (fun _ w => Some (p w)) m L = Some (m', L') /\ node L' = node L /\ is_list m' L' (filter (fun x => negb (p (snd x))) xs) /\
    freed (map fst (filter (fun x => p (snd x)) xs)) m' /\ only (places L xs) m m') /\
  (exists m' L', remove eqb m L v = Some (m', L') /\ node L' = node L /\ is_list m' L' (filter (fun x => negb (eqb (snd x) v)) xs) /\
    freed (map fst (filter (fun x => eqb (snd x) v) xs)) m' /\ only (places L xs) m m').
Proof. intros H. split; [now apply remove_if_ok|]. now apply (remove_if_ok (fun w => eqb w v)). Qed.
(** C97: unique removes the elements alike to the last one kept *)
Theorem C97_unique pred m L xs : is_list m L xs ->
  exists m' L', unique pred m L = Some (m', L') /\ node L' = node L /\ is_list m' L' (uniq pred xs) /\ (forall z, In z (map fst xs) -> ~ In z (map fst (uniq pred xs)) -> m' z = None) /\ only (places L xs) m m'.
Proof. apply unique_ok. Qed.
(** C97: what is left by unique has no two neighbours alike, and is everything if there were none *)
Theorem C97_unique_sound (pred : V -> V -> bool) xs :
  (forall P x y Q, uniq pred xs = P ++ x :: y :: Q -> pred (snd x) (snd y) = false) /\
  ((forall P x y Q, xs = P ++ x :: y :: Q -> pred (snd x) (snd y) = false) -> uniq pred xs = xs).
Proof.
  assert (HD : forall x ys, match uniq_from pred x ys with [] => True | y :: _ => pred (snd x) (snd y) = false end).
  { intros x ys. revert x. induction ys as [|y ys IH]; intros x; cbn [uniq_from]; [exact I|]. destruct (pred (snd x) (snd y)) eqn:E; [apply IH|exact E]. }
  assert (A1 : forall x ys P a b Q, x :: uniq_from pred x ys = P ++ a :: b :: Q -> pred (snd a) (snd b) = false).
  { intros x ys. revert x. induction ys as [|y ys IH]; intros x P a b Q; cbn [uniq_from].
    - intros E. destruct P as [|p [|p' P]]; discriminate E.
    - destruct (pred (snd x) (snd y)) eqn:E0; [apply IH|]. intros E. destruct P as [|p P]; cbn [app] in E; [injection E as -> -> _; exact E0|]. injection E as _ E. exact (IH _ _ _ _ _ E). }
  assert (A2 : forall ys x, (forall P a b Q, x :: ys = P ++ a :: b :: Q -> pred (snd a) (snd b) = false) -> uniq_from pred x ys = ys).
  { induction ys as [|y ys IH]; intros x H; cbn [uniq_from]; [reflexivity|]. rewrite (H [] x y ys eq_refl). f_equal. apply IH. intros P a b Q E. apply (H (x :: P) a b Q). cbn [app]. now rewrite E. }
  destruct xs as [|x xs]; cbn [uniq]; split; try reflexivity.
  - intros P x y Q E. destruct P; discriminate E.
  - apply A1.
  - intros H. f_equal. now apply A2.
Qed.
(** C97: reverse *)
Theorem C97_reverse m L xs : is_list m L xs -> exists m', reverse m L = Some m' /\ is_list m' L (rev xs) /\ only (places L xs) m m'.
Proof. apply reverse_ok. Qed.

(** C98: merge for any comparison: both lists in one, no node created, copied or freed, the other list empty *)
Theorem C98_merge comp m L xs X ys : is_list m L xs -> is_list m X ys -> apart L xs X ys -> size L + size X <= max_size ->
  exists m' L' X' zs, merge comp m L X = Some (m', L', X') /\ node L' = node L /\ node X' = node X /\ is_list m' L' zs /\ is_list m' X' [] /\ only (places L xs ++ places X ys) m m' /\
    Permutation (xs ++ ys) zs /\
    (strict_weak comp -> ordered (fun x y => comp (snd x) (snd y)) xs -> ordered (fun x y => comp (snd x) (snd y)) ys -> is_merge (fun x y => comp (snd x) (snd y)) xs ys zs).
Proof.
  intros HL HX AP RM. destruct (merge_ok comp _ _ _ _ _ HL HX AP RM) as (m' & L' & X' & E & NL & NX & H1 & H2 & O). exists m', L', X', (mrg comp xs ys).
  repeat (split; [assumption|]). split; [apply mrg_perm|]. intros SW OX OY. exact (mrg_is_merge comp xs ys SW OX OY).
Qed.
(** C98: sort for any comparison: it comes to an end, no node is created, copied or freed, and the result is a permutation;
    for a strict weak order the list is sorted, and equivalent elements keep their order *)
Theorem C98_sort comp m L xs : is_list m L xs ->
  exists m' ys, sort comp m L = Some m' /\ is_list m' L ys /\ Permutation xs ys /\ only (places L xs) m m' /\
    (strict_weak comp -> ordered (fun x y => comp (snd x) (snd y)) ys /\ forall v, alike (fun x y => comp (snd x) (snd y)) v ys = alike (fun x y => comp (snd x) (snd y)) v xs).
Proof.
  intros H. destruct (sort_ok comp _ _ _ H) as (m' & ys & E & HY & S & O). exists m', ys. split; [exact E|]. split; [exact HY|]. split; [exact (srt_perm _ _ _ S)|]. split; [exact O|]. intros SW. exact (srt_sorted comp xs ys SW S).
Qed.

(** C99: a new list of any values (fill, range, copy and initialiser-list construction) *)
Theorem C99_construct m h N : fresh m (h :: map fst N) -> Z.of_nat (length N) <= max_size ->
  exists m' L, init m h N = Some (m', L) /\ node L = h /\ is_list m' L N /\ only (h :: map fst N) m m'.
Proof. apply init_ok. Qed.
(** C99: construction and destruction leave the memory as it was *)
Theorem C99_destroy m L xs : is_list m L xs -> exists m', destruct_list m L = Some m' /\ freed (places L xs) m' /\ only (places L xs) m m'.
Proof. apply destruct_ok. Qed.
Theorem C99_leak m h N : fresh m (h :: map fst N) -> Z.of_nat (length N) <= max_size ->
  exists m' L m'', init m h N = Some (m', L) /\ destruct_list m' L = Some m'' /\ forall z, m'' z = m z.
Proof.
  intros FR LE. destruct (init_ok m h N FR LE) as (m' & L & E & NL & HL & O). destruct (destruct_ok _ _ _ HL) as (m'' & E2 & FD & O2). exists m', L, m''. split; [exact E|]. split; [exact E2|]. intros z.
  unfold places in FD, O2. rewrite NL in FD, O2. destruct (in_dec Z.eq_dec z (h :: map fst N)) as [I|I].
  - rewrite (FD z I). symmetry. now apply FR.
  - rewrite O2, O; trivial.
Qed.
(** C99: move construction takes the nodes as they are; the destructor of the object moved from does nothing *)
Theorem C99_move m X xs : is_list m X xs -> let (L, X') := move_construct X in is_list m L xs /\ destruct_list m X' = Some m /\ size X' = 0.
Proof. intros H. repeat split; try apply H. Qed.
(** C99: move assignment from another list: the old elements are freed, the nodes of the other list taken over *)
Theorem C99_move_assign m L xs X ys : is_list m L xs -> is_list m X ys -> apart L xs X ys ->
  exists m' L' X', move_assign m L X = Some (m', L', X') /\ node L' = node L /\ node X' = node X /\ is_list m' L' ys /\ is_list m' X' [] /\ freed (map fst xs) m' /\ only (places L xs ++ places X ys) m m'.
Proof.
  intros HL HX AP. unfold move_assign. destruct (clear_ok _ _ _ HL) as (m1 & L1 & E1 & NL & H1 & FD & O1). rewrite E1. cbn [obind].
  assert (HX1 : is_list m1 X ys) by (apply list_frame with (2 := HX); intros z I; apply O1; intros J; exact (AP z J I)).
  assert (AP1 : apart L1 ([] ++ []) X ys). { intros z [I|[]] J. apply (AP z); [left; rewrite <- I; now symmetry|exact J]. }
  destruct (splice_ok m1 L1 [] [] X ys H1 HX1 AP1) as (m2 & L2 & X2 & E2 & NL2 & NX2 & H2 & HX2 & _ & O2). { destruct H1 as (_ & -> & _). destruct HX as (_ & _ & SM). cbn [length]. lia. }
  cbn [pos app] in E2, H2, O2. rewrite app_nil_r in H2. exists m2, L2, X2. split; [exact E2|]. split; [now rewrite NL2|]. split; [exact NX2|]. split; [exact H2|]. split; [exact HX2|].
  assert (O2' : forall z, ~ In z (node L :: places X ys) -> m2 z = m1 z) by (intros z Hz; apply O2; unfold places in *; rewrite NL; exact Hz). split.
  - intros z I. rewrite O2'; [exact (FD z I)|]. intros [J|J].
    + pose proof (list_nodup _ _ _ HL) as ND. apply NoDup_cons_iff in ND as [NI _]. apply NI. now rewrite J.
    + apply (AP z); [right; exact I|exact J].
  - intros z Hz. rewrite O2'; [apply O1; intros I; apply Hz; apply in_or_app; now left|]. intros [J|J]; apply Hz; apply in_or_app; [left; now left|now right].
Qed.
(** C99: operator== compares the values *)
Theorem C99_equal eqb m L X xs ys : is_list m L xs -> is_list m X ys -> exists b, equal eqb m L X = Some b /\ (b = true <-> Forall2 (fun x y => eqb (snd x) (snd y) = true) xs ys).
Proof. apply equal_ok. Qed.
End Props.

(** ** concrete cases *)
Definition none : @memory Z := fun _ => None.
Definition show (r : option (@memory Z * obj)) : option (list Z * list Z * Z) :=
  let* (m, L) := r in let* b := inc m (node L) in let* f := forward 20 m L b in let* g := backward 20 m L (node L) in Some (f, g, size L).
(** [5; 3; 8; 3; 1] in the nodes 10 to 14 with the end node 9 *)
Definition five : list (Z * Z) := [(10, 5); (11, 3); (12, 8); (13, 3); (14, 1)].
Lemma ex_fresh (m : @memory Z) l : (forall a, In a l -> m a = None) -> NoDup l -> ~ In 0 l -> fresh m l.
Proof. intros E ND NZ. split; [exact ND|]. intros a I. split; [intros ->; exact (NZ I)|exact (E a I)]. Qed.
Lemma ex_list : exists m L, init none 9 five = Some (m, L) /\ node L = 9 /\ size L = 5 /\ is_list m L five /\ m 20 = None.
Proof.
  destruct (C99_construct none 9 five) as (m & L & E & NL & H & O).
  - apply ex_fresh; [reflexivity| |cbn; lia]. repeat constructor; cbn; lia.
  - unfold max_size. cbn. lia.
  - exists m, L. split; [exact E|]. split; [exact NL|]. split; [apply H|]. split; [exact H|]. apply O. cbn. lia.
Qed.
Example C96_example : exists m L, is_list m L ([(10, 5); (11, 3)] ++ [(12, 8); (13, 3); (14, 1)]) /\ 20 <> 0 /\ m 20 = None /\ size L < max_size /\
  (let* (m, L) := init none 9 five in show (insert m L 12 20 7)) = Some ([5; 3; 7; 8; 3; 1], [1; 3; 8; 7; 3; 5], 6) /\
  (let* (m, L) := init none 9 five in show (let* (m, L, _) := erase m L 12 in Some (m, L))) = Some ([5; 3; 3; 1], [1; 3; 3; 5], 4) /\
  (let* (m, L) := init none 9 five in show (erase_range m L 11 14)) = Some ([5; 1], [1; 5], 2) /\
  (let* (m, L) := init none 9 five in show (resize m L 7 [(20, 0); (21, 0)])) = Some ([5; 3; 8; 3; 1; 0; 0], [0; 0; 1; 3; 8; 3; 5], 7) /\
  (let* (m, L) := init none 9 five in show (resize m L 2 [])) = Some ([5; 3], [3; 5], 2) /\
  (let* (m, L) := init none 9 five in show (assign m L [1; 2; 3; 4; 5; 6] [20])) = Some ([1; 2; 3; 4; 5; 6], [6; 5; 4; 3; 2; 1], 6).
Proof.
  destruct ex_list as (m & L & _ & _ & S & H & F). exists m, L. split; [exact H|]. split; [lia|]. split; [exact F|]. split; [rewrite S; unfold max_size; lia|]. vm_compute. repeat split.
Qed.
(** a second list [4; 6] in the nodes 31 and 32 with the end node 30 *)
Definition two : list (Z * Z) := [(31, 4); (32, 6)].
Definition both : option (@memory Z * obj * obj) := let* (m, L) := init none 9 five in let* (m, X) := init m 30 two in Some (m, L, X).
Definition show2 (r : option (@memory Z * obj * obj)) : option (list Z * list Z * Z * (list Z * list Z * Z)) :=
  let* (m, L, X) := r in let* a := show (Some (m, L)) in let* b := show (Some (m, X)) in Some (a, b).
Lemma ex_both : exists m L X, both = Some (m, L, X) /\ is_list m L five /\ is_list m X two /\ apart L five X two /\ size L = 5 /\ size X = 2.
Proof.
  destruct (C99_construct none 9 five) as (m & L & E & NL & H & O).
  - apply ex_fresh; [reflexivity| |cbn; lia]. repeat constructor; cbn; lia.
  - unfold max_size. cbn. lia.
  - destruct (C99_construct m 30 two) as (m' & X & E' & NX & H' & O').
    + apply ex_fresh; [|repeat constructor; cbn; lia|cbn; lia]. intros a I. rewrite O; [reflexivity|]. cbn in *. lia.
    + unfold max_size. cbn. lia.
    + assert (AP : apart L five X two) by (intros z I J; unfold places in *; rewrite NL in I; rewrite NX in J; cbn in I, J; lia).
      exists m', L, X. unfold both. rewrite E. cbn [obind]. rewrite E'. split; [reflexivity|]. split; [|split; [exact H'|split; [exact AP|split; [apply H|apply H']]]].
      apply list_frame with (2 := H). intros z I. apply O'. intros J. apply (AP z I). unfold places. rewrite NX. exact J.
Qed.
Example C97_example : exists m L X, is_list m L ([(10, 5)] ++ [(11, 3); (12, 8); (13, 3); (14, 1)]) /\ is_list m X ([] ++ [(31, 4)] ++ [(32, 6)]) /\ apart L five X two /\ size L + 1 <= max_size /\
  show2 (let* (m, L, X) := both in splice_range m L 11 X 31 32) = Some ([5; 4; 3; 8; 3; 1], [1; 3; 8; 3; 4; 5], 6, ([6], [6], 1)) /\
  show2 (let* (m, L, X) := both in splice m L 9 X) = Some ([5; 3; 8; 3; 1; 4; 6], [6; 4; 1; 3; 8; 3; 5], 7, ([], [], 0)) /\
  (let* (m, L) := init none 9 five in show (splice_own m L 10 13)) = Some ([3; 5; 3; 8; 1], [1; 8; 3; 5; 3], 5) /\
  (let* (m, L) := init none 9 five in show (remove Z.eqb m L 3)) = Some ([5; 8; 1], [1; 8; 5], 3) /\
  (let* (m, L) := init none 9 five in show (unique (fun a b => Z.eqb (a mod 2) (b mod 2)) m L)) = Some ([5; 8; 3], [3; 8; 5], 3) /\
  (let* (m, L) := init none 9 five in show (let* m := reverse m L in Some (m, L))) = Some ([1; 3; 8; 3; 5], [5; 3; 8; 3; 1], 5).
Proof.
  destruct ex_both as (m & L & X & _ & HL & HX & AP & SL & SX). exists m, L, X. split; [exact HL|]. split; [exact HX|]. split; [exact AP|]. split; [rewrite SL; unfold max_size; lia|]. vm_compute. repeat split.
Qed.
Lemma ltb_sw : strict_weak Z.ltb.
Proof. split; intros *; rewrite ?Z.ltb_lt, ?Z.ltb_irrefl; lia. Qed.
Example C98_example : exists m L X, is_list m L five /\ is_list m X two /\ apart L five X two /\ size L + size X <= max_size /\ strict_weak Z.ltb /\
  (let* (m, L) := init none 9 five in show (let* m := sort Z.ltb m L in Some (m, L))) = Some ([1; 3; 3; 5; 8], [8; 5; 3; 3; 1], 5) /\
  show2 (let* (m, L, X) := both in let* m := sort Z.ltb m L in merge Z.ltb m L X) = Some ([1; 3; 3; 4; 5; 6; 8], [8; 6; 5; 4; 3; 3; 1], 7, ([], [], 0)) /\
  (** the comparison need not be an order *)
  (let* (m, L) := init none 9 five in show (let* m := sort (fun _ _ => true) m L in Some (m, L))) = Some ([1; 3; 8; 3; 5], [5; 3; 8; 3; 1], 5).
Proof.
  destruct ex_both as (m & L & X & _ & HL & HX & AP & SL & SX). exists m, L, X. split; [exact HL|]. split; [exact HX|]. split; [exact AP|]. split; [rewrite SL, SX; unfold max_size; lia|]. split; [exact ltb_sw|]. vm_compute. repeat split.
Qed.
Example C99_example : fresh none (9 :: map fst five) /\ Z.of_nat (length five) <= max_size /\
  show2 (let* (m, L, X) := both in move_assign m L X) = Some ([4; 6], [6; 4], 2, ([], [], 0)) /\
  (let* (m, L, X) := both in equal Z.eqb m L X) = Some false /\
  (let* (m, L, X) := both in let* (m, L) := assign m L [4; 6] [] in equal Z.eqb m L X) = Some true.
Proof.
  split; [apply ex_fresh; [reflexivity| |cbn; lia]; repeat constructor; cbn; lia|]. split; [unfold max_size; cbn; lia|]. vm_compute. repeat split.
Qed.

(** ** what does not hold *)
(** C97: a range spliced within its own list is to be moved there; nothing happens *)
Theorem C97_splice_range_own_refuted : exists (m : @memory Z) L A N B P Q, is_list m L (A ++ N ++ B) /\ A ++ B = P ++ Q /\ size L < max_size /\
  forall m' L', splice_range_own m L (pos L Q) (pos L (N ++ B)) (pos L B) = Some (m', L') -> ~ is_list m' L' (P ++ N ++ Q).
Proof.
  destruct ex_list as (m & L & _ & _ & S & H & _). exists m, L, [(10, 5)], [(11, 3); (12, 8)], [(13, 3); (14, 1)], [], [(10, 5); (13, 3); (14, 1)]. split; [exact H|]. split; [reflexivity|]. split; [rewrite S; unfold max_size; lia|].
  intros m' L' E. injection E as <- <-. intros H'. pose proof (front_ok _ _ _ _ H) as F1. pose proof (front_ok _ _ (11, 3) _ H') as F2. rewrite F1 in F2. discriminate F2.
Qed.
(** C97: remove with a reference to an element of the list itself: the reference is read after its node has been freed *)
Theorem C97_remove_ref_refuted : exists (m : @memory Z) L xs r, is_list m L xs /\ In r (map fst xs) /\ remove_ref Z.eqb m L r = None.
Proof.
  destruct ex_list as (m & L & E & _ & S & H & _). exists m, L, five, 11. split; [exact H|]. split; [cbn; lia|].
  assert (R : (let* (m, L) := init none 9 five in remove_ref Z.eqb m L 11) = None) by (vm_compute; reflexivity). rewrite E in R. exact R.
Qed.
(** C99: a list assigned to itself by move does not keep its elements: the assertion fails, or without assertions all elements are lost *)
Theorem C99_self_move_refuted : exists (m : @memory Z) L xs, is_list m L xs /\ xs <> [] /\ move_assign_self m L = None /\
  exists m' L', move_assign_self_release m L = Some (m', L') /\ is_list m' L' [].
Proof.
  destruct ex_list as (m & L & _ & _ & _ & H & _). exists m, L, five. split; [exact H|]. split; [discriminate|]. destruct (clear_ok _ _ _ H) as (m' & L' & E & _ & H' & _). unfold move_assign_self, move_assign_self_release. rewrite E. split; [reflexivity|]. now exists m', L'.
Qed.
(** C99: a list moved from is not an empty list: it has no end node, so that empty, begin and every insertion are undefined *)
Theorem C99_moved_from_refuted : forall (m : @memory Z) X a v, let (_, X') := move_construct X in
  empty m X' = None /\ push_back m X' a v = None /\ push_front m X' a v = None /\ forall L, move_assign m L X' = None.
Proof.
  intros m X a v. cbn [move_construct]. assert (B : forall m : @memory Z, inc m 0 = None) by reflexivity.
  split; [reflexivity|]. split; [|split].
  - unfold push_back, link_back. cbn [node]. destruct (room _ 1); [|reflexivity]. cbn [obind]. destruct (set_nxt _ a 0); reflexivity.
  - unfold push_front, link_front. cbn [node]. destruct (room _ 1); [|reflexivity]. cbn [obind]. destruct (set_prv _ a 0); reflexivity.
  - intros L. unfold move_assign. destruct (clear m L) as [[m' L']|]; reflexivity.
Qed.
