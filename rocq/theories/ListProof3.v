(** Removing elements; resize and assignment of values. *)
From Coq Require Import ZArith List Bool Lia Permutation.
From Verif Require Import F64 ListModel ListSpec ListProof ListProof2.
Import ListNotations.
Open Scope Z_scope.
Open Scope opt_scope.

Section Proof.
Context {V : Type}.
Notation mem := (@memory V).
Notation cell := (Z * option V)%type.
Notation adrs := (map (@fst Z (option V))).
Implicit Types (m : mem) (L : obj) (xs P Q N : list (Z * V)).

Lemma first_pos L N : N <> [] -> first 0 (cs N) = pos L N. Proof. now destruct N. Qed.
(** the nodes N are taken out, linked among each other as before *)
Lemma cut_ok m L P N Q : is_list m L (P ++ N ++ Q) -> N <> [] ->
  exists m', unlink_nodes m (pos L N) (lst 0 (cs N)) = Some m' /\ is_list m' (mkObj (node L) (Z.of_nat (length (P ++ Q)))) (P ++ Q) /\
    chain m' (lst (node L) (cs P)) (cs N) (pos L Q) /\ only (places L (P ++ Q)) m m' /\ NoDup (map fst N) /\ (forall z, In z (map fst N) -> ~ In z (places L (P ++ Q))).
Proof.
  intros (R & SZ & SM) NN. apply rot3 in R. pose proof (proj1 (proj2 R)) as ND. apply nodup_app in ND as (ND & _ & D). rewrite adrs_cs in ND.
  destruct (unlink_ok m (cs N) _ (cs_ne _ NN) (end_ne _ _ _) R) as (m' & E & R' & C & F). exists m'. rewrite (first_pos L) in E by exact NN. split; [exact E|]. split; [|split; [|split; [|split; [exact ND|]]]].
  - split; [cbn [node]; now apply close_at in R'|]. cbn [size]. split; [reflexivity|]. rewrite !app_length in *. lia.
  - rewrite lst_app in C. rewrite pos_first in C. exact C.
  - intros z Hz. apply F. intros I. apply Hz. now apply in_rot2 in I.
  - intros z I J. apply (D z); [now rewrite adrs_cs|]. now apply in_rot2.
Qed.
Lemma chain_out m p C n z : chain m p C n -> m z = None -> ~ In z (adrs C).
Proof. intros H E I. destruct (chain_at _ _ _ _ _ H I) as (_ & k & E'). rewrite E in E'. discriminate E'. Qed.
Lemma destroy_ok m a w p n : a <> 0 -> m a = Some (mkNd p n (Some w)) -> destroy_node m a = Some (free m a).
Proof. intros N E. unfold destroy_node, deref. rewrite (get_ok _ _ _ N E). reflexivity. Qed.

(** ** one element *)
Lemma take_ok m L P x Q : is_list m L (P ++ x :: Q) ->
  exists m1, unlink_nodes m (fst x) (fst x) = Some m1 /\ destroy_node m1 (fst x) = Some (free m1 (fst x)) /\
    is_list (free m1 (fst x)) (mkObj (node L) (u64 (size L - 1))) (P ++ Q) /\ freed [fst x] (free m1 (fst x)) /\ only (places L (P ++ x :: Q)) m (free m1 (fst x)).
Proof.
  intros H. destruct (cut_ok m L P [x] Q H ltac:(discriminate)) as (m1 & E & H1 & C & F & _ & D). cbn [pos cs map lst fst] in E. exists m1. split; [exact E|].
  cbn [cs map chain fst snd] in C. destruct C as (NZ & EX & _). split; [exact (destroy_ok _ _ _ _ _ NZ EX)|]. split; [|split].
  - replace (mkObj (node L) (u64 (size L - 1))) with (mkObj (node L) (Z.of_nat (length (P ++ Q)))).
    + apply list_frame with (2 := H1). intros z Hz. apply free_ne. intros ->. apply (D (fst x) ltac:(now left)). exact Hz.
    + destruct H as (_ & SZ & SM). rewrite app_length in SZ. cbn [length] in SZ. rewrite app_length. f_equal. rewrite u64_small by lia. lia.
  - intros z [<-|[]]. apply free_eq.
  - intros z Hz. rewrite free_ne by (intros ->; apply Hz; right; rewrite map_app; apply in_or_app; right; now left). apply F. intros I. apply Hz. destruct I as [I|I]; [now left|].
    right. rewrite map_app in I |- *. apply in_app_iff in I as [I|I]; apply in_or_app; [now left|right; now right].
Qed.
Lemma erase_ok m L P x Q : is_list m L (P ++ x :: Q) ->
  exists m' L', erase m L (fst x) = Some (m', L', pos L Q) /\ node L' = node L /\ is_list m' L' (P ++ Q) /\ freed [fst x] m' /\ only (places L (P ++ x :: Q)) m m'.
Proof.
  intros H. unfold erase. destruct (node_at _ _ _ _ _ H) as (_ & _ & NE). destruct (Z.eqb_spec (fst x) (node L)) as [B|_]; [easy|]. rewrite (inc_at _ _ _ _ _ H). cbn [obind].
  destruct (take_ok _ _ _ _ _ H) as (m1 & -> & E2 & H'). cbn [obind]. rewrite E2. cbn [obind]. do 2 eexists. split; [reflexivity|]. now split.
Qed.
Lemma pop_front_ok m L x xs : is_list m L (x :: xs) ->
  exists m' L', pop_front m L = Some (m', L') /\ node L' = node L /\ is_list m' L' xs /\ freed [fst x] m' /\ only (places L (x :: xs)) m m'.
Proof.
  intros H. unfold pop_front. rewrite (empty_ok _ _ _ H). cbn [obind]. rewrite (inc_end _ _ _ H). cbn [obind pos].
  destruct (take_ok _ _ [] _ _ H) as (m1 & -> & E2 & H'). cbn [obind]. rewrite E2. cbn [obind]. do 2 eexists. split; [reflexivity|]. now split.
Qed.
Lemma dec_end m L P : is_list m L P -> dec m (node L) = Some (lst (node L) (cs P)).
Proof. intros H. apply (dec_pos m L P []). now rewrite app_nil_r. Qed.
Lemma pop_back_ok m L x xs : is_list m L (xs ++ [x]) ->
  exists m' L', pop_back m L = Some (m', L') /\ node L' = node L /\ is_list m' L' xs /\ freed [fst x] m' /\ only (places L (xs ++ [x])) m m'.
Proof.
  intros H. unfold pop_back. rewrite (empty_ok _ _ _ H). replace (match xs ++ [x] with [] => true | _ => false end) with false by (destruct xs; reflexivity). cbn [obind].
  rewrite (dec_end _ _ _ H). cbn [obind]. rewrite lst_snoc. destruct (take_ok _ _ xs _ [] H) as (m1 & -> & E2 & H'). rewrite app_nil_r in H'. cbn [obind]. rewrite E2. cbn [obind]. do 2 eexists. split; [reflexivity|]. now split.
Qed.
(** on an empty list both fail *)
Lemma pop_empty m L : is_list m L [] -> pop_front m L = None /\ pop_back m L = None /\ front m L = None /\ back m L = None.
Proof. intros H. unfold pop_front, pop_back, front, back. rewrite (empty_ok _ _ _ H). repeat split. Qed.

(** ** several elements *)
Lemma erase_loop_ok fuel m L p N l : chain m p (cs N) l -> NoDup (map fst N) -> ~ In l (map fst N) -> (length N < fuel)%nat -> Z.of_nat (length N) <= size L <= max_size ->
  exists m', erase_loop fuel m L (first l (cs N)) l = Some (m', mkObj (node L) (size L - Z.of_nat (length N))) /\ freed (map fst N) m' /\ only (map fst N) m m'.
Proof.
  revert fuel m L p. induction N as [|x N IH]; intros [|fuel] m L p C ND NI FU SL; cbn [length] in FU; try lia; cbn [erase_loop].
  - cbn [cs map first]. rewrite Z.eqb_refl. exists m. cbn [length]. rewrite Z.sub_0_r. destruct L. now repeat split.
  - cbn [cs map chain fst snd first] in C |- *. destruct C as (NZ & EX & C). destruct (Z.eqb_spec (fst x) l) as [B|_]; [exfalso; apply NI; left; exact B|].
    unfold inc. rewrite (get_ok _ _ _ NZ EX). cbn [obind nxt]. rewrite (destroy_ok _ _ _ _ _ NZ EX). cbn [obind]. cbn [map] in ND. apply NoDup_cons_iff in ND as [NX ND].
    cbn [length] in SL. destruct (IH fuel (free m (fst x)) (mkObj (node L) (u64 (size L - 1))) (fst x)) as (m' & E' & FD & O).
    + apply chain_frame with (2 := C). intros z Hz. apply free_ne. intros ->. apply NX. now rewrite <- adrs_cs.
    + exact ND.
    + intros I. apply NI. now right.
    + lia.
    + cbn [size]. rewrite u64_small by lia. lia.
    + exists m'. unfold cs in E'. rewrite E'. cbn [size node]. split; [f_equal; f_equal; f_equal; rewrite u64_small by lia; cbn [length]; lia|]. split.
      * intros z [<-|I]; [|exact (FD z I)]. rewrite O by exact NX. apply free_eq.
      * intros z Hz. rewrite O by (intros I; apply Hz; now right). apply free_ne. intros ->. apply Hz. now left.
Qed.
Lemma places_sub L P N Q z : In z (places L (P ++ Q)) -> In z (places L (P ++ N ++ Q)).
Proof. unfold places. intros [I|I]; [now left|]. right. rewrite !map_app in *. rewrite !in_app_iff in *. tauto. Qed.
Lemma nodes_sub L P N Q z : In z (map fst N) -> In z (places L (P ++ N ++ Q)).
Proof. unfold places. intros I. right. rewrite !map_app, !in_app_iff. tauto. Qed.
Lemma pos_in L P Q : In (pos L Q) (places L (P ++ Q)).
Proof. unfold places. destruct Q as [|x Q]; [now left|]. right. rewrite map_app. apply in_or_app. right. now left. Qed.
Lemma erase_range_ok m L P N Q : is_list m L (P ++ N ++ Q) ->
  exists m' L', erase_range m L (pos L (N ++ Q)) (pos L Q) = Some (m', L') /\ node L' = node L /\ is_list m' L' (P ++ Q) /\ freed (map fst N) m' /\ only (places L (P ++ N ++ Q)) m m'.
Proof.
  intros H. unfold erase_range. destruct N as [|x N].
  - rewrite Z.eqb_refl. exists m, L. split; [reflexivity|]. split; [reflexivity|]. split; [exact H|]. split; [easy|]. intros z _. reflexivity.
  - destruct (cut_ok m L P (x :: N) Q H ltac:(discriminate)) as (m1 & E & H1 & C & F & ND & D).
    destruct (Z.eqb_spec (pos L ((x :: N) ++ Q)) (pos L Q)) as [B|B].
    + exfalso. apply (D (fst x) ltac:(now left)). cbn [app pos] in B. rewrite B. apply pos_in.
    + pose proof H as HD. rewrite app_assoc in HD. rewrite (dec_pos _ _ _ _ HD). cbn [obind]. rewrite cs_app, lst_app. rewrite (lst_ne _ 0) by discriminate.
      change (pos L ((x :: N) ++ Q)) with (pos L (x :: N)). rewrite E. cbn [obind].
      pose proof H as (_ & SZ & SM). rewrite !app_length in SZ.
      destruct (erase_loop_ok (S (Z.to_nat (size L))) m1 L _ (x :: N) (pos L Q) C ND) as (m' & E' & FD & O).
      * intros I. apply (D _ I). apply pos_in.
      * lia.
      * lia.
      * cbn [cs map first fst] in E'. cbn [pos]. rewrite E'. do 2 eexists. split; [reflexivity|]. split; [reflexivity|]. split; [|split; [exact FD|]].
        -- replace (size L - Z.of_nat (length (x :: N))) with (Z.of_nat (length (P ++ Q))) by (rewrite app_length; lia). apply list_frame with (2 := H1). intros z Hz. apply O. intros I. exact (D z I Hz).
        -- intros z Hz. rewrite O by (intros I; apply Hz; now apply nodes_sub). apply F. intros I. apply Hz. now apply places_sub.
Qed.
Lemma clear_loop_ok fuel m L p N next k : chain m p (cs N) (node L) -> NoDup (map fst N) -> ~ In (node L) (map fst N) -> node L <> 0 -> m (node L) = Some k -> (length N < fuel)%nat ->
  (N <> [] -> inc m (pos L N) = Some next) ->
  exists m', clear_loop fuel m L (pos L N) next = Some m' /\ freed (map fst N) m' /\ only (map fst N) m m'.
Proof.
  revert fuel m p next. induction N as [|x N IH]; intros [|fuel] m p next C ND NI NH EH FU IN; cbn [length] in FU; try lia; cbn [clear_loop].
  - cbn [pos]. rewrite Z.eqb_refl. exists m. now repeat split.
  - cbn [cs map chain fst snd pos] in C |- *. destruct C as (NZ & EX & C). destruct (Z.eqb_spec (fst x) (node L)) as [B|NX0]; [exfalso; apply NI; left; exact B|].
    rewrite (destroy_ok _ _ _ _ _ NZ EX). cbn [obind]. cbn [map] in ND. apply NoDup_cons_iff in ND as [NX ND].
    specialize (IN ltac:(discriminate)). cbn [pos] in IN. unfold inc in IN. rewrite (get_ok _ _ _ NZ EX) in IN. cbn [obind nxt] in IN. injection IN as <-.
    set (m0 := free m (fst x)).
    assert (C0 : chain m0 (fst x) (cs N) (node L)) by (apply chain_frame with (2 := C); intros z Hz; apply free_ne; intros ->; apply NX; now rewrite <- adrs_cs).
    assert (EH0 : m0 (node L) = Some k) by (unfold m0; rewrite free_ne by (intros E; now apply NX0); exact EH).
    assert (EP : first (node L) (cs N) = pos L N) by (destruct N; reflexivity).
    assert (EN : exists next', inc m0 (pos L N) = Some next').
    { destruct N as [|y N]; [cbn [pos]; unfold inc; rewrite (get_ok _ _ _ NH EH0); now eexists|]. cbn [cs map chain fst snd] in C0. destruct C0 as (NY & EY & _). cbn [pos]. unfold inc. rewrite (get_ok _ _ _ NY EY). now eexists. }
    destruct EN as [next' EN]. change (map (fun x0 => (fst x0, Some (snd x0))) N) with (cs N). rewrite EP, EN. cbn [obind].
    destruct (IH fuel m0 (fst x) next' C0 ND) as (m' & E' & FD & O); [intros I; apply NI; now right|exact NH|exact EH0|lia|intros _; exact EN|].
    exists m'. split; [exact E'|]. split.
    + intros z [<-|I]; [|exact (FD z I)]. rewrite O by exact NX. apply free_eq.
    + intros z Hz. rewrite O by (intros I; apply Hz; now right). apply free_ne. intros ->. apply Hz. now left.
Qed.
Lemma clear_ok m L xs : is_list m L xs -> exists m' L', clear m L = Some (m', L') /\ node L' = node L /\ is_list m' L' [] /\ freed (map fst xs) m' /\ only (places L xs) m m'.
Proof.
  intros H. pose proof H as (R & SZ & SM). unfold clear. destruct xs as [|x xs].
  - rewrite SZ. cbn [length Z.of_nat]. rewrite Z.eqb_refl. exists m, L. split; [reflexivity|]. split; [reflexivity|]. split; [exact H|]. split; [easy|]. intros z _. reflexivity.
  - destruct (Z.eqb_spec (size L) 0) as [B|_]; [cbn [length] in SZ; lia|]. rewrite (inc_end _ _ _ H). cbn [obind]. cbn [pos]. rewrite (inc_at _ _ [] _ _ H). cbn [obind].
    destruct R as (_ & ND & C). pose proof ND as ND'. rewrite places_adrs in ND'. apply NoDup_cons_iff in ND' as [NI ND']. cbn [chain fst snd] in C. destruct C as (NH & EH & C).
    destruct (clear_loop_ok (S (Z.to_nat (size L))) m L (node L) (x :: xs) (pos L xs) _ C ND' NI NH EH) as (m1 & E1 & FD & O); [lia|intros _; exact (inc_at _ _ [] _ _ H)|].
    cbn [pos] in E1. rewrite E1. cbn [obind].
    assert (E1H : m1 (node L) = Some (mkNd (lst 0 ((node L, None) :: cs (x :: xs))) (first (node L) (cs (x :: xs))) None)) by (rewrite O by exact NI; exact EH).
    unfold set_prv. rewrite (get_ok _ _ _ NH E1H). cbn [obind nxt val]. unfold set_nxt at 1. rewrite (get_ok _ _ _ NH (put_eq _ _ _)). cbn [obind prv val].
    do 2 eexists. split; [reflexivity|]. split; [reflexivity|]. split; [apply end_list; exact NH|]. split.
    + intros z I. rewrite !put_ne by (intros ->; exact (NI I)). now apply FD.
    + intros z Hz. rewrite !put_ne by (intros ->; apply Hz; now left). apply O. intros I. apply Hz. now right.
Qed.
Lemma destruct_ok m L xs : is_list m L xs -> exists m', destruct_list m L = Some m' /\ freed (places L xs) m' /\ only (places L xs) m m'.
Proof.
  intros H. unfold destruct_list. destruct (list_at _ _ _ (node L) H ltac:(now left)) as (NH & _). destruct (Z.eqb_spec (node L) 0) as [B|_]; [easy|].
  destruct (clear_ok _ _ _ H) as (m' & L' & -> & EL & H' & FD & O). cbn [obind]. destruct (list_at _ _ _ (node L') H' ltac:(now left)) as (NH' & k & EK). rewrite (get_ok _ _ _ NH' EK). cbn [obind]. rewrite EL.
  eexists. split; [reflexivity|]. split.
  - intros z [<-|I]; [apply free_eq|]. destruct (Z.eq_dec z (node L)) as [->|NE]; [apply free_eq|]. rewrite free_ne by exact NE. now apply FD.
  - intros z Hz. rewrite free_ne by (intros ->; apply Hz; now left). now apply O.
Qed.

(** ** resize *)
Lemma resize_loop_ok fuel m L P Q ns : is_list m L (P ++ Q) -> (length Q < fuel)%nat -> Z.of_nat (length P) <= ns ->
  exists P' Q', P ++ Q = P' ++ Q' /\ resize_loop fuel m L (pos L Q) (Z.of_nat (length P)) ns = Some (pos L Q', Z.of_nat (length P')) /\ Z.of_nat (length P') <= ns /\
    (Q' = [] \/ Z.of_nat (length P') = ns).
Proof.
  revert fuel P. induction Q as [|x Q IH]; intros [|fuel] P H FU LE; cbn [length] in FU; try lia; cbn [resize_loop].
  - cbn [pos]. rewrite Z.eqb_refl. cbn [negb andb]. exists P, []. split; [reflexivity|]. split; [reflexivity|]. split; [exact LE|]. now left.
  - cbn [pos]. destruct (node_at _ _ _ _ _ H) as (_ & _ & NE). destruct (Z.eqb_spec (fst x) (node L)) as [B|_]; [easy|]. cbn [negb andb].
    destruct (Z.ltb_spec (Z.of_nat (length P)) ns) as [B|B].
    + rewrite (inc_at _ _ _ _ _ H). cbn [obind]. replace (Z.of_nat (length P) + 1) with (Z.of_nat (length (P ++ [x]))) by (rewrite app_length; cbn [length]; lia).
      destruct (IH fuel (P ++ [x])) as (P' & Q' & EQ & E & LE' & D); [rewrite <- app_assoc; exact H|lia|rewrite app_length; cbn [length]; lia|].
      exists P', Q'. rewrite <- app_assoc in EQ. now repeat split.
    + exists P, (x :: Q). split; [reflexivity|]. split; [reflexivity|]. split; [exact LE|]. right. lia.
Qed.
Lemma resize_ok m L xs n N : is_list m L xs -> length N = (n - length xs)%nat -> Z.of_nat n <= max_size -> fresh m (map fst N) ->
  exists m' L', resize m L (Z.of_nat n) N = Some (m', L') /\ node L' = node L /\ is_list m' L' (firstn n xs ++ N) /\ freed (map fst (skipn n xs)) m' /\ only (places L (xs ++ N)) m m'.
Proof.
  intros H LN NM FR. unfold resize. rewrite (inc_end _ _ _ H). cbn [obind]. pose proof H as (_ & SZ & SM).
  destruct (resize_loop_ok (S (Z.to_nat (size L))) m L [] xs (Z.of_nat n) H ltac:(lia) ltac:(cbn; lia)) as (P' & Q' & EQ & E & LE & D). cbn [app length Z.of_nat] in EQ, E. change (Z.of_nat 0) with 0 in E. rewrite E. cbn [obind].
  destruct (Z.eqb_spec (Z.of_nat (length P')) (Z.of_nat n)) as [B|B].
  - subst xs. assert (N0 : N = []) by (destruct N; [reflexivity|]; rewrite app_length in LN; cbn [length] in LN; lia). subst N.
    pose proof H as H'. rewrite <- (app_nil_r Q') in H'. destruct (erase_range_ok _ _ _ _ _ H') as (m' & L' & E' & NL & HL & FD & O). rewrite app_nil_r in E', O. cbn [pos] in E'. rewrite E'.
    replace n with (length P' + 0)%nat by lia. rewrite firstn_app_2, skipn_app, skipn_all2 by lia. replace (length P' + 0 - length P')%nat with 0%nat by lia. cbn [firstn skipn app]. rewrite app_nil_r in HL. rewrite !app_nil_r.
    exists m', L'. split; [reflexivity|]. split; [exact NL|]. split; [exact HL|]. split; [exact FD|exact O].
  - destruct D as [D|D]; [|lia]. subst Q'. rewrite app_nil_r in EQ. subst P'. rewrite LN. replace (Z.of_nat (n - length xs)) with (Z.of_nat n - Z.of_nat (length xs)) by lia. rewrite Z.eqb_refl.
    pose proof H as H'. rewrite <- (app_nil_r xs) in H'. destruct (insert_many_ok m L xs [] N H' FR ltac:(lia)) as (m' & L' & E' & NL & HL & O). cbn [pos] in E'. rewrite E'. cbn [obind].
    rewrite firstn_all2, skipn_all2 by lia. rewrite app_nil_r in HL, O. exists m', L'. split; [reflexivity|]. split; [exact NL|]. split; [exact HL|]. split; [intros z []|exact O].
Qed.

(** ** assignment of values *)
Lemma set_val_ok m L P a w Q v : is_list m L (P ++ (a, w) :: Q) -> exists m', set_val m a v = Some m' /\ is_list m' L (P ++ (a, v) :: Q) /\ only [a] m m'.
Proof.
  intros H. destruct (node_at _ _ _ _ _ H) as (G & NZ & NH). cbn [fst snd] in G, NZ, NH. unfold set_val. rewrite G. cbn [obind val prv nxt].
  eexists. split; [reflexivity|]. split; [|intros z Hz; apply put_ne; intros ->; apply Hz; now left]. destruct H as (R & SZ & SM). split; [|rewrite app_length in *; now split].
  apply close_at. apply open_at in R. destruct R as (_ & ND & C). split; [discriminate|]. split; [rewrite map_app in *; cbn [cs map fst] in *; exact ND|].
  rewrite lst_app in *. cbn [cs map fst lst app first] in *. cbn [chain fst snd] in C |- *. destruct C as (_ & _ & C). split; [exact NZ|]. split; [rewrite put_eq; do 2 f_equal; destruct Q; reflexivity|].
  apply chain_frame with (2 := C). intros z Hz. apply put_ne. intros ->. cbn [app map fst] in ND. apply NoDup_cons_iff in ND as [NI _]. exact (NI Hz).
Qed.
Lemma assign_loop_ok m L P Q vs : is_list m L (P ++ Q) ->
  exists m', assign_loop m (node L) (pos L Q) vs = Some (m', pos L (skipn (length vs) Q), skipn (length Q) vs) /\
    is_list m' L (P ++ combine (map fst Q) vs ++ skipn (length vs) Q) /\ only (map fst Q) m m'.
Proof.
  revert m P Q. induction vs as [|v vs IH]; intros m P Q H; cbn [assign_loop].
  - exists m. rewrite skipn_nil. cbn [length skipn]. split; [reflexivity|]. replace (combine (map fst Q) (@nil V)) with (@nil (Z * V)) by (destruct Q; reflexivity). split; [exact H|]. now intros z _.
  - destruct Q as [|[a w] Q]; cbn [pos fst].
    + rewrite Z.eqb_refl. exists m. cbn [length skipn map combine pos]. split; [reflexivity|]. split; [exact H|]. now intros z _.
    + destruct (node_at _ _ _ _ _ H) as (_ & _ & NH). cbn [fst] in NH. destruct (Z.eqb_spec a (node L)) as [B|_]; [easy|].
      destruct (set_val_ok _ _ _ _ _ _ v H) as (m1 & -> & H1 & O1). cbn [obind]. pose proof (inc_at _ _ _ _ _ H1) as EI. cbn [fst] in EI. rewrite EI. cbn [obind].
      destruct (IH m1 (P ++ [(a, v)]) Q) as (m' & E & H' & O); [rewrite <- app_assoc; exact H1|]. rewrite E. cbn [length skipn]. eexists. split; [reflexivity|]. rewrite <- app_assoc in H'. split; [exact H'|].
      intros z Hz. rewrite O by (intros I; apply Hz; now right). apply O1. intros [->|[]]. apply Hz. now left.
Qed.
Lemma assign_ok m L xs vs ads : is_list m L xs -> length ads = (length vs - length xs)%nat -> Z.of_nat (length vs) <= max_size -> fresh m ads ->
  exists m' L', assign m L vs ads = Some (m', L') /\ node L' = node L /\ is_list m' L' (combine (map fst xs ++ ads) vs) /\ freed (map fst (skipn (length vs) xs)) m' /\
    only (node L :: map fst xs ++ ads) m m'.
Proof.
  intros H LA NM FR. unfold assign. rewrite (inc_end _ _ _ H). cbn [obind]. pose proof H as (_ & SZ & SM). destruct (assign_loop_ok m L [] xs vs H) as (m1 & E1 & H1 & O1). rewrite E1. cbn [obind].
  assert (CB : forall (A : list Z) (B : list Z) (C : list V), (length A <= length C)%nat -> combine (A ++ B) C = combine A C ++ combine B (skipn (length A) C)).
  { clear. induction A as [|a A IH]; intros B [|c C] LE; cbn [length] in LE; try reflexivity; try lia. cbn [app combine length skipn]. f_equal. apply IH. lia. }
  assert (CF : forall (A : list Z) (B : list Z) (C : list V), (length C <= length A)%nat -> combine (A ++ B) C = combine A C).
  { clear. induction A as [|a A IH]; intros B [|c C] LE; cbn [length] in LE; try lia; cbn [app combine]; try (destruct B; reflexivity). f_equal. apply IH. lia. }
  destruct (Nat.le_gt_cases (length vs) (length xs)) as [LE|LE].
  - rewrite (skipn_all2 vs) by exact LE. rewrite <- (app_nil_r (skipn (length vs) xs)) in H1. destruct (erase_range_ok m1 L (combine (map fst xs) vs) (skipn (length vs) xs) [] H1) as (m' & L' & E' & NL & HL & FD & O). rewrite app_nil_r in E'. cbn [pos] in E'. rewrite E'.
    exists m', L'. rewrite CF by (rewrite map_length; exact LE). split; [reflexivity|]. split; [exact NL|]. cbn [app] in HL. rewrite app_nil_r in HL. split; [exact HL|]. split; [exact FD|].
    intros z Hz. rewrite O.
    + apply O1. intros I. apply Hz. right. apply in_or_app. now left.
    + intros I. apply Hz. unfold places in I. destruct I as [I|I]; [now left|]. right. apply in_or_app. left. cbn [app] in I. rewrite app_nil_r, map_app in I. apply in_app_iff in I as [I|I].
      * apply in_map_iff in I as ([a w] & <- & I). apply in_combine_l in I. exact I.
      * rewrite <- (firstn_skipn (length vs) xs), map_app. apply in_or_app. now right.
  - destruct (skipn (length xs) vs) as [|v0 vs0] eqn:EV; [apply (f_equal (@length V)) in EV; rewrite skipn_length in EV; cbn [length] in EV; lia|].
    assert (LV : length (v0 :: vs0) = length ads) by (rewrite <- EV, skipn_length; lia). rewrite LV, Nat.eqb_refl. rewrite (skipn_all2 xs) in * by lia. cbn [app] in H1.
    assert (MF : map fst (combine ads (v0 :: vs0)) = ads). { clear - LV. revert LV. generalize (v0 :: vs0). induction ads as [|a ads IH]; intros [|c C] LV; cbn [length] in LV; try discriminate; [reflexivity|]. cbn. f_equal. apply IH. lia. }
    destruct (insert_many_ok m1 L _ [] (combine ads (v0 :: vs0)) H1) as (m' & L' & E' & NL & HL & O).
    + rewrite MF. destruct FR as [ND FR]. split; [exact ND|]. intros a I. destruct (FR a I) as [NZ EZ]. split; [exact NZ|]. rewrite O1; [exact EZ|]. intros J. apply (fresh_out _ _ _ _ H EZ). now right.
    + rewrite combine_length. lia.
    + cbn [pos] in E'. rewrite E'. cbn [obind]. exists m', L'. rewrite CB by (rewrite map_length; lia). rewrite map_length, EV. rewrite app_nil_r in HL, O. split; [reflexivity|]. split; [exact NL|]. split; [exact HL|]. split; [intros z []|].
      intros z Hz. rewrite O.
      * apply O1. intros I. apply Hz. right. apply in_or_app. now left.
      * intros I. apply Hz. unfold places in I. destruct I as [I|I]; [now left|]. right. rewrite map_app, MF in I. apply in_app_iff in I as [I|I]; apply in_or_app; [left|now right]. apply in_map_iff in I as ([a w] & <- & I). apply in_combine_l in I. exact I.
Qed.
End Proof.
