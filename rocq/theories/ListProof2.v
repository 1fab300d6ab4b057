(** Adding and removing elements. *)
From Coq Require Import ZArith List Bool Lia Permutation.
From Verif Require Import F64 ListModel ListSpec ListProof.
Import ListNotations.
Open Scope Z_scope.
Open Scope opt_scope.

Section Proof.
Context {V : Type}.
Notation mem := (@memory V).
Notation cell := (Z * option V)%type.
Notation adrs := (map (@fst Z (option V))).
Implicit Types (m : mem) (L : obj) (xs P Q N : list (Z * V)).

Lemma nd_app (A B : list Z) : NoDup (A ++ B) <-> NoDup A /\ NoDup B /\ forall z, In z A -> In z B -> False.
Proof.
  induction A as [|a A IH]; cbn [app]; [split; [intros H; repeat split; [constructor|exact H|easy]|now intros (_ & H & _)]|]. rewrite !NoDup_cons_iff, IH, in_app_iff. cbn [In]. split.
  - intros (N & HA & HB & D). split; [split; tauto|]. split; [exact HB|]. intros z [<-|I] J; [tauto|exact (D z I J)].
  - intros ((N & HA) & HB & D). split; [intros [I|I]; [tauto|exact (D a (or_introl eq_refl) I)]|]. split; [exact HA|]. split; [exact HB|]. intros z I. apply (D z). now right.
Qed.
Lemma adrs_cs xs : adrs (cs xs) = map fst xs. Proof. unfold cs. rewrite map_map. reflexivity. Qed.
Lemma cs_app xs ys : cs (xs ++ ys) = cs xs ++ cs ys. Proof. apply map_app. Qed.
Lemma cs_ne xs : xs <> [] -> cs xs <> []. Proof. destruct xs; easy. Qed.
Lemma first_cs n xs : first n (cs xs) = match xs with [] => n | x :: _ => fst x end. Proof. now destruct xs. Qed.
Lemma pos_first L P Q : first 0 (cs Q ++ (node L, None) :: cs P) = pos L Q. Proof. now destruct Q. Qed.
Lemma chain_at m p C n z : chain m p C n -> In z (adrs C) -> z <> 0 /\ exists k, m z = Some k.
Proof.
  revert p. induction C as [|c C IH]; intros p H I; [easy|]. destruct H as (N & E & H). destruct I as [<-|I]; [split; [exact N|eexists; exact E]|exact (IH _ H I)].
Qed.
Lemma ring_at m C z : ring m C -> In z (adrs C) -> z <> 0 /\ exists k, m z = Some k.
Proof. intros (_ & _ & H). apply (chain_at _ _ _ _ _ H). Qed.
Lemma ring_frame m m' C : (forall z, In z (adrs C) -> m' z = m z) -> ring m C -> ring m' C.
Proof. intros F (N & ND & H). split; [exact N|]. split; [exact ND|]. now apply chain_frame with (m := m). Qed.
Lemma open_at m L P Q : ring m ((node L, None) :: cs (P ++ Q)) -> ring m (cs Q ++ (node L, None) :: cs P).
Proof. rewrite cs_app. apply (ring_rot m ((node L, None) :: cs P) (cs Q)). Qed.
Lemma close_at m L P Q : ring m (cs Q ++ (node L, None) :: cs P) -> ring m ((node L, None) :: cs (P ++ Q)).
Proof. rewrite cs_app. intros H. apply (ring_rot m (cs Q)) in H. exact H. Qed.
Lemma rot3 m L P N Q : ring m ((node L, None) :: cs (P ++ N ++ Q)) -> ring m (cs N ++ cs Q ++ (node L, None) :: cs P).
Proof. intros H. apply open_at in H. rewrite cs_app, <- app_assoc in H. exact H. Qed.
Lemma unrot3 m L P N Q : ring m (cs N ++ cs Q ++ (node L, None) :: cs P) -> ring m ((node L, None) :: cs (P ++ N ++ Q)).
Proof. intros H. apply close_at. rewrite cs_app, <- app_assoc. exact H. Qed.
Lemma places_adrs L xs : adrs ((node L, None) :: cs xs) = places L xs.
Proof. cbn [map fst]. now rewrite adrs_cs. Qed.
Lemma end_ne C (c : cell) D : C ++ c :: D <> []. Proof. now destruct C. Qed.
Lemma in_rot3 L P N Q z : In z (adrs (cs N ++ cs Q ++ (node L, @None V) :: cs P)) <-> In z (places L (P ++ N ++ Q)).
Proof. unfold places. rewrite !map_app. cbn [map fst]. rewrite !adrs_cs. cbn [In]. rewrite !in_app_iff. cbn [In]. tauto. Qed.
Lemma in_rot2 L P Q z : In z (adrs (cs Q ++ (node L, @None V) :: cs P)) <-> In z (places L (P ++ Q)).
Proof. unfold places. rewrite !map_app. cbn [map fst]. rewrite !adrs_cs. cbn [In]. rewrite !in_app_iff. cbn [In]. tauto. Qed.

Lemma list_nodup m L xs : is_list m L xs -> NoDup (places L xs).
Proof. intros ((_ & ND & _) & _). now rewrite places_adrs in ND. Qed.
Lemma list_at m L xs z : is_list m L xs -> In z (places L xs) -> z <> 0 /\ exists k, m z = Some k.
Proof. intros (R & _) H. apply (ring_at _ _ _ R). now rewrite places_adrs. Qed.
Lemma u64_small z : 0 <= z <= max_size -> u64 z = z.
Proof. unfold u64, max_size. intros H. apply Z.mod_small. lia. Qed.
Lemma room_ok L n : size L + n <= max_size -> room L n = Some tt.
Proof. unfold room. intros H. destruct (Z.ltb_spec (max_size - n) (size L)); [lia|reflexivity]. Qed.

(** a list at a place somewhere else stays as it is *)
Lemma list_frame m m' L xs : (forall z, In z (places L xs) -> m' z = m z) -> is_list m L xs -> is_list m' L xs.
Proof. intros F (R & S). split; [|exact S]. apply ring_frame with (2 := R). now rewrite places_adrs. Qed.

(** ** reading *)
Lemma inc_end m L xs : is_list m L xs -> inc m (node L) = Some (pos L xs).
Proof.
  intros (R & _). apply (open_at m L [] xs) in R. destruct xs as [|x xs].
  - destruct R as (NE & _ & H). apply (inc_last m _ _ _ NE) in H. exact H.
  - cbn [cs map] in R. destruct R as (NE & _ & H). apply (inc_last m _ _ _ NE) in H. rewrite lst_app in H. exact H.
Qed.
Lemma dec_pos m L P Q : is_list m L (P ++ Q) -> dec m (pos L Q) = Some (lst (node L) (cs P)).
Proof.
  intros (R & _). apply open_at in R. destruct R as (NE & _ & H). apply (dec_first m _ _ _ NE) in H. rewrite pos_first, lst_app in H. exact H.
Qed.
Lemma node_at m L P x Q : is_list m L (P ++ x :: Q) -> get m (fst x) = Some (mkNd (lst (node L) (cs P)) (pos L Q) (Some (snd x))) /\ fst x <> 0 /\ fst x <> node L.
Proof.
  intros (R & _). pose proof R as (_ & ND & _). rewrite places_adrs in ND. apply open_at in R. destruct R as (NE & _ & H). rewrite lst_app in H. cbn [lst fst] in H.
  cbn [cs map app chain fst snd] in H. destruct H as (N & E & _).
  split; [|split; [exact N|]].
  - rewrite (get_ok _ _ _ N E). f_equal. f_equal. destruct Q; reflexivity.
  - unfold places in ND. apply NoDup_cons_iff in ND as [NI _]. intros E'. apply NI. rewrite <- E', map_app. apply in_or_app. right. now left.
Qed.
Lemma inc_at m L P x Q : is_list m L (P ++ x :: Q) -> inc m (fst x) = Some (pos L Q).
Proof. intros H. unfold inc. destruct (node_at _ _ _ _ _ H) as [-> _]. reflexivity. Qed.
Lemma deref_at m L P x Q : is_list m L (P ++ x :: Q) -> deref m (fst x) = Some (snd x).
Proof. intros H. unfold deref. destruct (node_at _ _ _ _ _ H) as [-> _]. reflexivity. Qed.
Lemma pos_end m L P Q : is_list m L (P ++ Q) -> (pos L Q = node L <-> Q = []).
Proof. intros H. destruct Q as [|x Q]; [cbn; tauto|]. cbn [pos]. split; [|easy]. intros E. now destruct (node_at _ _ _ _ _ H) as (_ & _ & N). Qed.
Lemma pos_begin m L P Q : is_list m L (P ++ Q) -> (pos L Q = pos L (P ++ Q) <-> P = []).
Proof.
  intros H. split; [|intros ->; reflexivity]. destruct P as [|x P]; [reflexivity|]. intros E. exfalso. cbn [app pos] in E. pose proof (list_nodup _ _ _ H) as ND. unfold places in ND. cbn [map app] in ND.
  apply NoDup_cons_iff in ND as [N0 ND]. apply NoDup_cons_iff in ND as [N1 _]. rewrite map_app in N1. destruct Q as [|y Q]; cbn [pos] in E.
  - apply N0. rewrite E. now left.
  - apply N1. rewrite <- E. apply in_or_app. right. now left.
Qed.
Lemma empty_ok m L xs : is_list m L xs -> empty m L = Some (match xs with [] => true | _ => false end).
Proof.
  intros H. unfold empty. rewrite (inc_end _ _ _ H). cbn [obind]. f_equal. destruct xs as [|x xs]; cbn [pos]; [apply Z.eqb_refl|]. apply Z.eqb_neq. now destruct (node_at _ _ [] _ _ H) as (_ & _ & N).
Qed.
Lemma front_ok m L x xs : is_list m L (x :: xs) -> front m L = Some (snd x).
Proof. intros H. unfold front. rewrite (empty_ok _ _ _ H). cbn [obind]. rewrite (inc_end _ _ _ H). cbn [obind pos]. apply (deref_at _ _ [] _ _ H). Qed.
Lemma lst_snoc p xs x : lst p (cs (xs ++ [x])) = fst x. Proof. rewrite cs_app, lst_app. reflexivity. Qed.
Lemma back_ok m L x xs : is_list m L (xs ++ [x]) -> back m L = Some (snd x).
Proof.
  intros H. unfold back. rewrite (empty_ok _ _ _ H). replace (match xs ++ [x] with [] => true | _ => false end) with false by (destruct xs; reflexivity). cbn [obind].
  pose proof H as H'. rewrite <- (app_nil_r (xs ++ [x])) in H'. apply (dec_pos m L (xs ++ [x]) []) in H'. cbn [pos] in H'. rewrite H'. cbn [obind]. rewrite lst_snoc. apply (deref_at _ _ _ _ [] H).
Qed.

(** ** adding *)
Lemma fresh_out m L xs a : is_list m L xs -> m a = None -> ~ In a (places L xs).
Proof. intros H E I. destruct (list_at _ _ _ _ H I) as (_ & k & E'). rewrite E in E'. discriminate E'. Qed.
Lemma create_frame m L xs a v : is_list m L xs -> m a = None -> is_list (create_node m a v) L xs.
Proof. intros H E. apply list_frame with (2 := H). intros z Hz. apply put_ne. intros ->. now apply (fresh_out _ _ _ _ H E). Qed.
(** a chain of nodes outside the list is put in front of Q *)
Lemma add_ok m L P Q N p n : is_list m L (P ++ Q) -> N <> [] -> chain m p (cs N) n -> NoDup (map fst N) -> (forall z, In z (map fst N) -> ~ In z (places L (P ++ Q))) ->
  size L + Z.of_nat (length N) <= max_size ->
  exists m', link_nodes m (pos L Q) (pos L N) (lst 0 (cs N)) = Some m' /\ is_list m' (mkObj (node L) (u64 (size L + Z.of_nat (length N)))) (P ++ N ++ Q) /\ only (places L (P ++ N ++ Q)) m m'.
Proof.
  intros (R & SZ & SM) NN HC ND D RM. apply open_at in R.
  assert (NDA : NoDup (adrs (cs N ++ cs Q ++ (node L, None) :: cs P))).
  { apply nodup_app. rewrite adrs_cs. split; [exact ND|]. split; [exact (proj1 (proj2 R))|]. intros z Hz Hr. apply (D z Hz). now apply in_rot2 in Hr. }
  destruct (link_ok m (cs N) _ p n (cs_ne _ NN) R HC NDA) as (m' & E & R' & F). exists m'. rewrite pos_first in E.
  assert (EN : first 0 (cs N) = pos L N) by (destruct N; [easy|reflexivity]). rewrite EN in E. split; [exact E|]. split.
  - split; [cbn [node]; now apply unrot3 in R'|]. cbn [size]. rewrite !app_length in *. rewrite u64_small by lia. lia.
  - intros z Hz. apply F. intros I. apply Hz. now apply in_rot3 in I.
Qed.
Lemma one_chain m a v : a <> 0 -> chain (create_node m a v) 0 (cs [(a, v)]) 0.
Proof. intros N. cbn. split; [exact N|]. split; [apply put_eq|exact I]. Qed.
Lemma emplace_ok m L P Q a v : is_list m L (P ++ Q) -> a <> 0 -> m a = None -> size L < max_size ->
  exists m' L', emplace m L (pos L Q) a v = Some (m', L') /\ node L' = node L /\ is_list m' L' (P ++ (a, v) :: Q) /\ only (places L (P ++ (a, v) :: Q)) m m'.
Proof.
  intros H N E S. unfold emplace. rewrite room_ok by lia. cbn [obind].
  destruct (add_ok (create_node m a v) L P Q [(a, v)] 0 0 (create_frame _ _ _ _ v H E) ltac:(discriminate) (one_chain m a v N)) as (m' & E' & H' & F).
  - cbn. constructor; [easy|constructor].
  - intros z [<-|[]]. now apply (fresh_out m).
  - cbn [length]. lia.
  - cbn [pos fst cs map lst] in E'. rewrite E'. cbn [obind]. do 2 eexists. split; [reflexivity|]. split; [reflexivity|]. split; [exact H'|].
    intros z Hz. rewrite F by exact Hz. apply put_ne. intros ->. apply Hz. unfold places. right. rewrite map_app. apply in_or_app. right. now left.
Qed.
(** the same by way of the front and the back *)
Lemma front_add m L Q a v : is_list m L Q -> a <> 0 -> m a = None -> size L < max_size ->
  exists m', link_front (create_node m a v) L a a = Some m' /\ is_list m' (mkObj (node L) (u64 (size L + 1))) ((a, v) :: Q) /\ only (places L ((a, v) :: Q)) m m'.
Proof.
  intros H N E SS. pose proof (fresh_out _ _ _ _ H E) as FR. pose proof (create_frame m L Q a v H E) as (R & SZ & SM). apply (open_at _ _ [] Q) in R.
  destruct (link_front_ok (create_node m a v) L (cs [(a, v)]) _ 0 0 ltac:(discriminate) R ltac:(rewrite lst_app; reflexivity) (one_chain m a v N)) as (m' & E' & R' & F).
  - apply nodup_app. split; [cbn; constructor; [easy|constructor]|]. split; [exact (proj1 (proj2 R))|]. intros z Hz Hr. apply (in_rot2 L [] Q) in Hr. destruct Hz as [<-|[]]. exact (FR Hr).
  - cbn [cs map first fst lst] in E'. exists m'. split; [exact E'|]. split.
    + split; [cbn [node]; exact (unrot3 _ L [] [(a, v)] Q R')|]. cbn [size length]. rewrite u64_small by lia. lia.
    + intros z Hz. rewrite F by (intros I; apply Hz; now apply (in_rot3 L [] [(a, v)] Q) in I). apply put_ne. intros ->. apply Hz. right. now left.
Qed.
Lemma back_add m L P a v : is_list m L P -> a <> 0 -> m a = None -> size L < max_size ->
  exists m', link_back (create_node m a v) L a a = Some m' /\ is_list m' (mkObj (node L) (u64 (size L + 1))) (P ++ [(a, v)]) /\ only (places L (P ++ [(a, v)])) m m'.
Proof.
  intros H N E SS. pose proof (fresh_out _ _ _ _ H E) as FR. pose proof (create_frame m L P a v H E) as (R & SZ & SM).
  destruct (link_back_ok (create_node m a v) L (cs [(a, v)]) _ 0 0 ltac:(discriminate) R eq_refl (one_chain m a v N)) as (m' & E' & R' & F).
  - apply nodup_app. split; [cbn; constructor; [easy|constructor]|]. split; [exact (proj1 (proj2 R))|]. intros z Hz Hr. rewrite places_adrs in Hr. destruct Hz as [<-|[]]. exact (FR Hr).
  - cbn [cs map first fst lst] in E'. exists m'. split; [exact E'|]. split.
    + split; [cbn [node]; exact (unrot3 _ L P [(a, v)] [] R')|]. cbn [size length]. rewrite app_length. cbn [length]. rewrite u64_small by lia. lia.
    + intros z Hz. rewrite F by (intros I; apply Hz; now apply (in_rot3 L P [(a, v)] []) in I). apply put_ne. intros ->. apply Hz. right. rewrite map_app. apply in_or_app. right. now left.
Qed.
Lemma push_front_ok m L Q a v : is_list m L Q -> a <> 0 -> m a = None -> size L < max_size ->
  exists m' L', push_front m L a v = Some (m', L') /\ node L' = node L /\ is_list m' L' ((a, v) :: Q) /\ only (places L ((a, v) :: Q)) m m'.
Proof.
  intros H N E SS. unfold push_front. rewrite room_ok by lia. cbn [obind]. destruct (front_add m L Q a v H N E SS) as (m' & E' & H' & F). rewrite E'. cbn [obind].
  do 2 eexists. split; [reflexivity|]. now split.
Qed.
Lemma push_back_ok m L P a v : is_list m L P -> a <> 0 -> m a = None -> size L < max_size ->
  exists m' L', push_back m L a v = Some (m', L') /\ node L' = node L /\ is_list m' L' (P ++ [(a, v)]) /\ only (places L (P ++ [(a, v)])) m m'.
Proof.
  intros H N E SS. unfold push_back. rewrite room_ok by lia. cbn [obind]. destruct (back_add m L P a v H N E SS) as (m' & E' & H' & F). rewrite E'. cbn [obind].
  do 2 eexists. split; [reflexivity|]. now split.
Qed.
Lemma insert_ok m L P Q a v : is_list m L (P ++ Q) -> a <> 0 -> m a = None -> size L < max_size ->
  exists m' L', insert m L (pos L Q) a v = Some (m', L') /\ node L' = node L /\ is_list m' L' (P ++ (a, v) :: Q) /\ only (places L (P ++ (a, v) :: Q)) m m'.
Proof.
  intros H N E SS. unfold insert. rewrite room_ok by lia. cbn [obind]. unfold link_iter_node. rewrite (inc_end _ _ _ (create_frame _ _ _ _ v H E)). cbn [obind].
  destruct (Z.eqb_spec (pos L Q) (pos L (P ++ Q))) as [B|B].
  - apply (pos_begin m) in B; [|exact H]. subst P. destruct (front_add m L Q a v H N E SS) as (m' & E' & H' & F). rewrite E'. cbn [obind]. do 2 eexists. split; [reflexivity|]. now split.
  - destruct (Z.eqb_spec (pos L Q) (node L)) as [B'|B'].
    + apply (pos_end m L P) in B'; [|exact H]. subst Q. rewrite app_nil_r in H. destruct (back_add m L P a v H N E SS) as (m' & E' & H' & F). rewrite E'. cbn [obind]. do 2 eexists. split; [reflexivity|]. now split.
    + destruct (emplace_ok m L P Q a v H N E SS) as (m' & L' & E' & H'). unfold emplace in E'. rewrite room_ok in E' by lia. cbn [obind] in E'. exists m', L'. now split.
Qed.
(** several nodes *)
Lemma insert_loop_ok m p D a v N : chain m p (cs (D ++ [(a, v)])) 0 -> NoDup (map fst (D ++ (a, v) :: N)) -> (forall z, In z (map fst N) -> z <> 0 /\ m z = None) ->
  exists m' e, insert_loop m a N = Some (m', e) /\ chain m' p (cs (D ++ (a, v) :: N)) 0 /\ e = lst 0 (cs (D ++ (a, v) :: N)) /\ only (map fst (D ++ (a, v) :: N)) m m'.
Proof.
  revert m D a v. induction N as [|[b w] N IH]; intros m D a v HC ND FR.
  - cbn [insert_loop]. do 2 eexists. split; [reflexivity|]. split; [exact HC|]. split; [now rewrite lst_snoc|]. intros z _. reflexivity.
  - cbn [insert_loop]. destruct (FR b ltac:(now left)) as [Nb Eb].
    assert (ND1 : NoDup (adrs (cs (D ++ [(a, v)])))). { rewrite adrs_cs. replace (D ++ (a, v) :: (b, w) :: N) with ((D ++ [(a, v)]) ++ (b, w) :: N) in ND by (rewrite <- app_assoc; reflexivity). rewrite map_app in ND. now apply nd_app in ND. }
    assert (NI : ~ In b (map fst (D ++ [(a, v)]))). { replace (D ++ (a, v) :: (b, w) :: N) with ((D ++ [(a, v)]) ++ (b, w) :: N) in ND by (rewrite <- app_assoc; reflexivity). rewrite map_app in ND. apply NoDup_remove_2 in ND. intros I. apply ND. apply in_or_app. now left. }
    assert (NE : cs (D ++ [(a, v)]) <> []) by (apply cs_ne; destruct D; discriminate).
    assert (HC0 : chain (create_node m b w) p (cs (D ++ [(a, v)])) 0). { apply chain_frame with (2 := HC). intros z Hz. apply put_ne. intros ->. rewrite adrs_cs in Hz. exact (NI Hz). }
    destruct (set_last _ _ _ _ b NE ND1 HC0) as (m1 & E1 & HC1 & F1). rewrite lst_snoc in E1. cbn [fst] in E1. rewrite E1. cbn [obind].
    assert (EB : m1 b = Some (mkNd 0 0 (Some w))). { rewrite F1; [apply put_eq|]. rewrite lst_snoc. cbn [fst]. intros ->. apply NI. rewrite map_app. apply in_or_app. right. now left. }
    unfold set_prv. rewrite (get_ok _ _ _ Nb EB). cbn [obind nxt val].
    set (m2 := put m1 b (mkNd a 0 (Some w))).
    assert (HC2 : chain m2 p (cs (D ++ [(a, v)])) b). { apply chain_frame with (2 := HC1). intros z Hz. apply put_ne. intros ->. rewrite adrs_cs in Hz. exact (NI Hz). }
    pose proof (inc_last _ _ _ _ NE HC2) as EI. rewrite lst_snoc in EI. cbn [fst] in EI. rewrite EI. cbn [obind].
    assert (HC3 : chain m2 p (cs ((D ++ [(a, v)]) ++ [(b, w)])) 0).
    { rewrite cs_app. apply chain_app. split; [exact HC2|]. rewrite lst_snoc. cbn. split; [exact Nb|]. split; [apply put_eq|exact I]. }
    destruct (IH m2 (D ++ [(a, v)]) b w HC3) as (m' & e & E' & HC' & EE & F').
    + rewrite <- app_assoc. exact ND.
    + intros z Hz. destruct (FR z ltac:(now right)) as [Nz Ez]. split; [exact Nz|].
      assert (NBZ : z <> b). { intros ->. replace (D ++ (a, v) :: (b, w) :: N) with ((D ++ [(a, v)]) ++ (b, w) :: N) in ND by (rewrite <- app_assoc; reflexivity). rewrite map_app in ND. apply NoDup_remove_2 in ND. apply ND. apply in_or_app. now right. }
      unfold m2. rewrite put_ne by exact NBZ. rewrite F1; [unfold create_node; rewrite put_ne by exact NBZ; exact Ez|]. rewrite lst_snoc. cbn [fst]. intros ->.
      rewrite map_app in ND. cbn [map fst] in ND. apply NoDup_remove_2 in ND. apply ND. apply in_or_app. right. now right.
    + rewrite <- app_assoc in HC', EE, F'. exists m', e. split; [exact E'|]. split; [exact HC'|]. split; [exact EE|].
      intros z Hz. cbn [app] in F'. rewrite F' by exact Hz. rewrite map_app in Hz. cbn [map fst] in Hz. unfold m2. rewrite put_ne by (intros ->; apply Hz; apply in_or_app; right; right; now left).
      rewrite F1 by (rewrite lst_snoc; cbn [fst]; intros ->; apply Hz; apply in_or_app; right; now left). unfold create_node. apply put_ne. intros ->. apply Hz. apply in_or_app. right. right. now left.
Qed.
Lemma insert_many_ok m L P Q N : is_list m L (P ++ Q) -> fresh m (map fst N) -> size L + Z.of_nat (length N) <= max_size ->
  exists m' L', insert_many m L (pos L Q) N = Some (m', L', pos L (N ++ Q)) /\ node L' = node L /\ is_list m' L' (P ++ N ++ Q) /\ only (places L (P ++ N ++ Q)) m m'.
Proof.
  intros H (ND & FR) RM. unfold insert_many. rewrite room_ok by lia. cbn [obind]. destruct N as [|[a v] N]; [exists m, L; repeat split; try easy; apply H|].
  destruct (FR a ltac:(now left)) as [Na Ea]. unfold set_prv. rewrite (get_ok (create_node m a v) a _ Na (put_eq m a _)). cbn [obind nxt val].
  set (m0 := put (create_node m a v) a (mkNd 0 0 (Some v))).
  assert (M0 : forall z, z <> a -> m0 z = m z) by (intros z Hz; unfold m0, create_node; now rewrite !put_ne).
  cbn [map fst] in ND. pose proof ND as ND'. apply NoDup_cons_iff in ND' as [NIa _].
  destruct (insert_loop_ok m0 0 [] a v N) as (m1 & e & E1 & HC & EE & F1).
  - cbn. split; [exact Na|]. split; [apply put_eq|exact I].
  - exact ND.
  - intros z Hz. destruct (FR z ltac:(now right)) as [Nz Ez]. split; [exact Nz|]. rewrite M0; [exact Ez|]. intros ->. exact (NIa Hz).
  - rewrite E1. cbn [obind].
    assert (OUT : forall z, In z (map fst ((a, v) :: N)) -> ~ In z (places L (P ++ Q))) by (intros z Hz; apply (fresh_out _ _ _ _ H); now apply FR).
    assert (H1 : is_list m1 L (P ++ Q)). { apply list_frame with (2 := H). intros z Hz. rewrite F1 by (intros I; exact (OUT z I Hz)). apply M0. intros ->. apply (OUT a ltac:(now left) Hz). }
    destruct (add_ok m1 L P Q ((a, v) :: N) 0 0 H1 ltac:(discriminate) HC ND OUT RM) as (m2 & E2 & H2 & F2). cbn [app] in EE. rewrite <- EE in E2. cbn [pos fst] in E2. rewrite E2. cbn [obind].
    do 2 eexists. split; [reflexivity|]. split; [reflexivity|]. split; [exact H2|]. intros z Hz. rewrite F2 by exact Hz.
    assert (NIz : ~ In z (map fst ((a, v) :: N))) by (intros I; apply Hz; right; rewrite map_app; apply in_or_app; right; rewrite map_app; apply in_or_app; now left).
    rewrite F1 by exact NIz. apply M0. intros ->. apply NIz. now left.
Qed.

(** ** construction *)
Lemma init_loop_ok m L P N : is_list m L P -> fresh m (map fst N) -> size L + Z.of_nat (length N) <= max_size ->
  exists m', init_loop m L N = Some m' /\ is_list m' (mkObj (node L) (size L + Z.of_nat (length N))) (P ++ N) /\ only (places L (P ++ N)) m m'.
Proof.
  revert m L P. induction N as [|[a v] N IH]; intros m L P H (ND & FR) RM.
  - exists m. cbn [init_loop length]. rewrite Z.add_0_r, app_nil_r. destruct L. split; [reflexivity|]. split; [exact H|easy].
  - cbn [init_loop]. destruct (FR a ltac:(now left)) as [Na Ea]. cbn [length] in RM. destruct (back_add m L P a v H Na Ea ltac:(lia)) as (m1 & E1 & H1 & F1). rewrite E1. cbn [obind].
    set (L1 := mkObj (node L) (u64 (size L + 1))) in *. assert (EL : init_loop m1 L N = init_loop m1 L1 N).
    { clear. revert m1. induction N as [|[b w] N IH]; intros m1; [reflexivity|]. cbn [init_loop]. change (link_back (create_node m1 b w) L1 b b) with (link_back (create_node m1 b w) L b b). destruct (link_back _ L b b); [|reflexivity]. cbn [obind]. apply IH. }
    rewrite EL. cbn [map fst] in ND. apply NoDup_cons_iff in ND as [NI ND].
    assert (S1 : size L1 = size L + 1). { cbn [size L1]. apply u64_small. destruct H as (_ & SZ & _). lia. }
    destruct (IH m1 L1 (P ++ [(a, v)]) H1) as (m' & E' & H' & F').
    + split; [exact ND|]. intros z Hz. destruct (FR z ltac:(now right)) as [Nz Ez]. split; [exact Nz|]. rewrite F1; [exact Ez|]. intros I. unfold places in I. destruct I as [I|I].
      * apply (fresh_out _ _ _ _ H Ez). now left.
      * rewrite map_app in I. apply in_app_iff in I as [I|[I|[]]]; [apply (fresh_out _ _ _ _ H Ez); now right|]. cbn [fst] in I. subst z. exact (NI Hz).
    + rewrite S1. lia.
    + exists m'. split; [exact E'|]. rewrite <- app_assoc in H', F'. rewrite S1 in H'. cbn [L1 node] in H'. split; [replace (size L + Z.of_nat (length ((a, v) :: N))) with (size L + 1 + Z.of_nat (length N)) by (cbn [length]; lia); exact H'|].
      intros z Hz. cbn [app] in F'. rewrite F' by exact Hz. apply F1. intros [I|I]; apply Hz; [now left|]. right. rewrite map_app in I |- *. apply in_app_iff in I as [I|[I|[]]]; apply in_or_app; [now left|right; now left].
Qed.
Lemma end_list m h : h <> 0 -> is_list (put m h (mkNd h h None)) (mkObj h 0) [].
Proof.
  intros N. split; [|split; [reflexivity|cbn; discriminate]]. split; [discriminate|]. split; [cbn; constructor; [easy|constructor]|].
  cbn. split; [exact N|]. split; [apply put_eq|exact I].
Qed.
Lemma init_ok m h N : fresh m (h :: map fst N) -> Z.of_nat (length N) <= max_size ->
  exists m' L, init m h N = Some (m', L) /\ node L = h /\ is_list m' L N /\ only (h :: map fst N) m m'.
Proof.
  intros (ND & FR) RM. apply NoDup_cons_iff in ND as [NI ND]. unfold init. destruct (FR h ltac:(now left)) as [Nh Eh].
  assert (EL : forall m L L' X, node L = node L' -> @init_loop V m L X = init_loop m L' X).
  { clear. intros m L L' X. revert m. induction X as [|[b w] X IH]; intros m E; [reflexivity|]. cbn [init_loop]. replace (link_back (create_node m b w) L b b) with (link_back (create_node m b w) L' b b) by (unfold link_back; now rewrite E). destruct (link_back _ L' b b); [|reflexivity]. cbn [obind]. now apply IH. }
  rewrite (EL _ _ (mkObj h 0)) by reflexivity.
  destruct (init_loop_ok (put m h (mkNd h h None)) (mkObj h 0) [] N (end_list m h Nh)) as (m' & E & H & F).
  - split; [exact ND|]. intros z Hz. destruct (FR z ltac:(now right)) as [Nz Ez]. split; [exact Nz|]. rewrite put_ne; [exact Ez|]. intros ->. exact (NI Hz).
  - exact RM.
  - rewrite E. cbn [obind]. do 2 eexists. split; [reflexivity|]. split; [reflexivity|]. split; [exact H|]. intros z Hz. rewrite F by exact Hz. apply put_ne. intros ->. apply Hz. now left.
Qed.
End Proof.
