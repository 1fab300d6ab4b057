(** Moving nodes: splice, merge, sort, reverse; removing by a predicate. *)
From Coq Require Import ZArith List Bool Lia Permutation.
From Verif Require Import F64 ListModel ListSpec ListProof ListProof2 ListProof3.
Import ListNotations.
Open Scope Z_scope.
Open Scope opt_scope.

Section Proof.
Context {V : Type}.
Notation mem := (@memory V).
Notation cell := (Z * option V)%type.
Notation adrs := (map (@fst Z (option V))).
Implicit Types (m : mem) (L X : obj) (xs ys P Q N A B D F G : list (Z * V)).

Lemma relist m L L' xs : is_list m L' xs -> node L' = node L -> size L = Z.of_nat (length xs) -> is_list m L xs.
Proof. intros (R & SZ & SM) E S. split; [now rewrite <- E|]. split; [exact S|]. lia. Qed.
Lemma places_app L P Q z : In z (places L (P ++ Q)) <-> In z (places L P) \/ In z (map fst Q).
Proof. unfold places. rewrite map_app. cbn [In]. rewrite in_app_iff. tauto. Qed.

(** ** within one list *)
Lemma shift_ok m L A N B P Q : is_list m L (A ++ N ++ B) -> N <> [] -> A ++ B = P ++ Q ->
  exists m1 m2, unlink_nodes m (pos L N) (lst 0 (cs N)) = Some m1 /\ is_list m1 (mkObj (node L) (Z.of_nat (length (P ++ Q)))) (P ++ Q) /\
    link_nodes m1 (pos L Q) (pos L N) (lst 0 (cs N)) = Some m2 /\ is_list m2 L (P ++ N ++ Q) /\ only (places L (A ++ N ++ B)) m m2.
Proof.
  intros H NN E. destruct (cut_ok m L A N B H NN) as (m1 & E1 & H1 & C & F & ND & DJ). rewrite E in H1, F, DJ. pose proof H as (_ & SZ & SM).
  assert (LE : length (A ++ N ++ B) = (length (P ++ Q) + length N)%nat) by (rewrite <- E, !app_length; lia).
  destruct (add_ok m1 _ P Q N _ _ H1 NN C ND DJ) as (m2 & E2 & H2 & F2); [cbn [size]; lia|]. exists m1, m2. split; [exact E1|]. split; [exact H1|]. split; [exact E2|]. split.
  - apply relist with (1 := H2); [reflexivity|]. rewrite SZ, LE, !app_length. lia.
  - assert (IN : forall z, In z (places L (P ++ N ++ Q)) -> In z (places L (A ++ N ++ B))).
    { intros z. rewrite !places_app. rewrite !map_app, !in_app_iff. assert (EM : In z (map fst (A ++ B)) <-> In z (map fst (P ++ Q))) by (rewrite E; tauto). rewrite !map_app, !in_app_iff in EM. unfold places. cbn [In]. tauto. }
    intros z Hz. rewrite F2 by (intros I; apply Hz, IN; exact I). apply F. intros I. apply Hz, IN. now apply places_sub.
Qed.
Lemma splice_own_ok m L A x B P Q : is_list m L (A ++ x :: B) -> A ++ B = P ++ Q -> size L < max_size ->
  exists m', splice_own m L (pos L Q) (fst x) = Some (m', L) /\ is_list m' L (P ++ x :: Q) /\ only (places L (A ++ x :: B)) m m'.
Proof.
  intros H E S. unfold splice_own. pose proof (list_nodup _ _ _ H) as ND.
  assert (NI : ~ In (fst x) (places L (A ++ B))). { destruct (cut_ok m L A [x] B H ltac:(discriminate)) as (_ & _ & _ & _ & _ & _ & DJ). apply DJ. now left. }
  destruct (Z.eqb_spec (pos L Q) (fst x)) as [B0|B0]; [exfalso; apply NI; rewrite <- B0, E; apply pos_in|].
  rewrite (inc_at _ _ _ _ _ H). cbn [obind orb]. destruct (Z.eqb_spec (pos L Q) (pos L B)) as [B1|B1].
  - assert (EQ : Q = B /\ P = A).
    { pose proof H as HL. destruct (cut_ok m L A [x] B H ltac:(discriminate)) as (m1 & _ & H1 & _). assert (ND1 : NoDup (places L (A ++ B))) by exact (list_nodup _ _ _ H1). clear - ND1 E B1.
      revert P E. induction A as [|a A IH]; intros P E.
      - destruct P as [|p P]; [now split|exfalso]. cbn [app] in E. rewrite E in B1. change (p :: P ++ Q) with ((p :: P) ++ Q) in B1.
        cbn [app] in ND1. rewrite E in ND1. cbn [app pos] in B1. unfold places in ND1. cbn [map] in ND1. apply NoDup_cons_iff in ND1 as [N0 ND1]. apply NoDup_cons_iff in ND1 as [N1 _].
        destruct Q as [|q Q]; cbn [pos] in B1; [apply N0; left; now symmetry|]. apply N1. rewrite <- B1, map_app. apply in_or_app. right. now left.
      - destruct P as [|p P].
        + exfalso. cbn [app] in E. rewrite <- E in B1. cbn [pos] in B1. unfold places in ND1. cbn [map app] in ND1. apply NoDup_cons_iff in ND1 as [N0 ND1]. apply NoDup_cons_iff in ND1 as [N1 _].
          destruct B as [|b B]; cbn [pos] in B1; [apply N0; now left|]. apply N1. rewrite B1, map_app. apply in_or_app. right. now left.
        + cbn [app] in E. injection E as -> E. destruct (IH) with (P := P) as [E1 E2]; [|exact E|now subst].
          unfold places in ND1 |- *. cbn [map app] in ND1. apply NoDup_cons_iff in ND1 as [N0 ND1]. apply NoDup_cons_iff in ND1 as [_ ND1]. constructor; [intros I; apply N0; now right|exact ND1]. }
    destruct EQ as [-> ->]. exists m. split; [reflexivity|]. split; [exact H|]. now intros z _.
  - rewrite room_ok by lia. cbn [obind]. destruct (shift_ok m L A [x] B P Q H ltac:(discriminate) E) as (m1 & m2 & E1 & _ & E2 & H2 & O). cbn [pos cs map lst fst] in E1, E2. rewrite E1. cbn [obind]. rewrite E2. cbn [obind].
    exists m2. split; [|split; [exact H2|exact O]]. pose proof H as (_ & SZ & SM). rewrite (u64_small (size L + 1)) by lia. replace (size L + 1 - 1) with (size L) by lia. rewrite u64_small by lia. now destruct L.
Qed.

(** ** between two lists *)
Lemma move_ok m L P Q X A N B : is_list m L (P ++ Q) -> is_list m X (A ++ N ++ B) -> apart L (P ++ Q) X (A ++ N ++ B) -> N <> [] -> size L + Z.of_nat (length N) <= max_size ->
  exists m1 m2, unlink_nodes m (pos X N) (lst 0 (cs N)) = Some m1 /\ link_nodes m1 (pos L Q) (pos X N) (lst 0 (cs N)) = Some m2 /\
    is_list m2 (mkObj (node L) (size L + Z.of_nat (length N))) (P ++ N ++ Q) /\ is_list m2 (mkObj (node X) (size X - Z.of_nat (length N))) (A ++ B) /\
    apart L (P ++ N ++ Q) X (A ++ B) /\ only (places L (P ++ Q) ++ places X (A ++ N ++ B)) m m2.
Proof.
  intros HL HX AP NN RM. destruct (cut_ok m X A N B HX NN) as (m1 & E1 & H1 & C & F & ND & DJ). exists m1.
  assert (HL1 : is_list m1 L (P ++ Q)). { apply list_frame with (2 := HL). intros z Hz. apply F. intros I. apply (AP z Hz). now apply places_sub. }
  destruct (add_ok m1 L P Q N _ _ HL1 NN C ND) as (m2 & E2 & H2 & F2); [intros z I J; apply (AP z J); now apply nodes_sub|exact RM|].
  exists m2. split; [exact E1|]. replace (pos X N) with (pos L N) by (destruct N; [easy|reflexivity]). split; [exact E2|].
  pose proof HL as (_ & SZL & SML). pose proof HX as (_ & SZX & SMX).
  assert (AP' : apart L (P ++ N ++ Q) X (A ++ B)). { intros z I J. apply places_app in I. rewrite map_app, in_app_iff in I. destruct I as [I|[I|I]]; [apply (AP z); [apply places_app; now left|now apply places_sub]|exact (DJ z I J)|apply (AP z); [apply places_app; now right|now apply places_sub]]. }
  split; [|split; [|split; [exact AP'|]]].
  - rewrite u64_small in H2 by lia. exact H2.
  - replace (size X - Z.of_nat (length N)) with (Z.of_nat (length (A ++ B))) by (rewrite SZX, !app_length; lia). apply list_frame with (2 := H1). intros z Hz. apply F2. intros I. exact (AP' z I Hz).
  - intros z Hz. rewrite F2.
    + apply F. intros I. apply Hz. apply in_or_app. right. now apply places_sub.
    + intros I. apply Hz. apply in_or_app. apply places_app in I. rewrite map_app, in_app_iff in I. destruct I as [I|[I|I]]; [left; apply places_app; now left|right; now apply nodes_sub|left; apply places_app; now right].
Qed.
Lemma splice_ok m L P Q X ys : is_list m L (P ++ Q) -> is_list m X ys -> apart L (P ++ Q) X ys -> size L + size X <= max_size ->
  exists m' L' X', splice m L (pos L Q) X = Some (m', L', X') /\ node L' = node L /\ node X' = node X /\ is_list m' L' (P ++ ys ++ Q) /\ is_list m' X' [] /\
    apart L (P ++ ys ++ Q) X [] /\ only (places L (P ++ Q) ++ places X ys) m m'.
Proof.
  intros HL HX AP RM. unfold splice. rewrite (empty_ok _ _ _ HX). cbn [obind]. destruct ys as [|y ys].
  - exists m, L, X. split; [reflexivity|]. split; [reflexivity|]. split; [reflexivity|]. split; [exact HL|]. split; [exact HX|]. split; [exact AP|]. now intros z _.
  - rewrite room_ok by lia. cbn [obind]. rewrite (inc_end _ _ _ HX), (dec_end _ _ _ HX). cbn [obind]. pose proof HX as HX'. rewrite <- (app_nil_r (y :: ys)) in HX', AP. pose proof HX as (_ & SZX & _). pose proof HL as (_ & SZL & _).
    destruct (move_ok m L P Q X [] (y :: ys) [] HL HX' AP ltac:(discriminate) ltac:(lia)) as (m1 & m2 & E1 & E2 & H1 & H2 & AP' & O). rewrite (lst_ne _ 0) by discriminate. rewrite E1. cbn [obind]. rewrite E2. cbn [obind].
    do 3 eexists. split; [reflexivity|]. split; [reflexivity|]. split; [reflexivity|]. rewrite <- SZX in H1, H2. split; [rewrite u64_small by lia; exact H1|]. split; [rewrite Z.sub_diag in H2; exact H2|]. split; [exact AP'|].
    rewrite app_nil_r in O. exact O.
Qed.
Lemma pos_diff L P Q X ys zs : apart L (P ++ Q) X (ys ++ zs) -> pos L Q <> pos X zs.
Proof. intros AP E. apply (AP (pos L Q)); [apply pos_in|]. rewrite E. apply pos_in. Qed.
Lemma splice_one_ok m L P Q X A x B : is_list m L (P ++ Q) -> is_list m X (A ++ x :: B) -> apart L (P ++ Q) X (A ++ x :: B) -> size L < max_size ->
  exists m' L' X', splice_one m L (pos L Q) X (fst x) = Some (m', L', X') /\ node L' = node L /\ node X' = node X /\ is_list m' L' (P ++ x :: Q) /\ is_list m' X' (A ++ B) /\
    apart L (P ++ x :: Q) X (A ++ B) /\ only (places L (P ++ Q) ++ places X (A ++ x :: B)) m m'.
Proof.
  intros HL HX AP RM. unfold splice_one. destruct (Z.eqb_spec (pos L Q) (fst x)) as [B0|_]; [exfalso; exact (pos_diff _ _ _ _ _ _ AP B0)|].
  rewrite (inc_at _ _ _ _ _ HX). cbn [obind orb]. destruct (Z.eqb_spec (pos L Q) (pos X B)) as [B1|_].
  { exfalso. revert B1. apply pos_diff with (P := P) (ys := A ++ [x]). now rewrite <- app_assoc. }
  rewrite room_ok by lia. cbn [obind]. pose proof HX as (_ & SZX & _). pose proof HL as (_ & SZL & _). rewrite app_length in SZX. cbn [length] in SZX. pose proof HX as (_ & _ & SMX).
  destruct (move_ok m L P Q X A [x] B HL HX AP ltac:(discriminate)) as (m1 & m2 & E1 & E2 & H1 & H2 & AP' & O); [cbn [length]; lia|]. cbn [pos cs map lst fst length] in E1, E2, H1, H2. rewrite E1. cbn [obind]. rewrite E2. cbn [obind].
  do 3 eexists. split; [reflexivity|]. split; [reflexivity|]. split; [reflexivity|]. split; [rewrite u64_small by lia; exact H1|]. split; [rewrite u64_small by lia; exact H2|]. split; [exact AP'|exact O].
Qed.
Lemma distance_ok fuel m X A N B : is_list m X (A ++ N ++ B) -> (length N < fuel)%nat -> distance fuel m (pos X (N ++ B)) (pos X B) = Some (Z.of_nat (length N)).
Proof.
  revert fuel A. induction N as [|x N IH]; intros [|fuel] A H FU; cbn [length] in FU; try lia; cbn [distance].
  - cbn [app]. rewrite Z.eqb_refl. reflexivity.
  - destruct (Z.eqb_spec (pos X ((x :: N) ++ B)) (pos X B)) as [E|_].
    + exfalso. destruct (cut_ok m X A (x :: N) B H ltac:(discriminate)) as (_ & _ & _ & _ & _ & _ & DJ). apply (DJ (fst x) ltac:(now left)). cbn [app pos] in E. rewrite E. apply pos_in.
    + cbn [app pos]. rewrite (inc_at m X A x (N ++ B) H). cbn [obind]. rewrite (IH fuel (A ++ [x]) ltac:(rewrite <- app_assoc; exact H) ltac:(lia)). cbn [obind length]. f_equal. lia.
Qed.
Lemma splice_range_ok m L P Q X A N B : is_list m L (P ++ Q) -> is_list m X (A ++ N ++ B) -> apart L (P ++ Q) X (A ++ N ++ B) -> size L + Z.of_nat (length N) <= max_size ->
  exists m' L' X', splice_range m L (pos L Q) X (pos X (N ++ B)) (pos X B) = Some (m', L', X') /\ node L' = node L /\ node X' = node X /\ is_list m' L' (P ++ N ++ Q) /\ is_list m' X' (A ++ B) /\
    apart L (P ++ N ++ Q) X (A ++ B) /\ only (places L (P ++ Q) ++ places X (A ++ N ++ B)) m m'.
Proof.
  intros HL HX AP RM. unfold splice_range. destruct N as [|x N].
  - cbn [app]. rewrite Z.eqb_refl. exists m, L, X. split; [reflexivity|]. split; [reflexivity|]. split; [reflexivity|]. split; [exact HL|]. split; [exact HX|]. split; [exact AP|]. now intros z _.
  - destruct (Z.eqb_spec (pos X ((x :: N) ++ B)) (pos X B)) as [E|_].
    + exfalso. destruct (cut_ok m X A (x :: N) B HX ltac:(discriminate)) as (_ & _ & _ & _ & _ & _ & DJ). apply (DJ (fst x) ltac:(now left)). cbn [app pos] in E. rewrite E. apply pos_in.
    + pose proof HX as (_ & SZX & SMX). pose proof HL as (_ & SZL & _). rewrite !app_length in SZX. rewrite (distance_ok _ m X A (x :: N) B HX) by lia. cbn [obind]. rewrite room_ok by lia. cbn [obind].
      pose proof HX as HD. rewrite app_assoc in HD. rewrite (dec_pos _ _ _ _ HD). cbn [obind]. rewrite cs_app, lst_app, (lst_ne _ 0) by discriminate. change (pos X ((x :: N) ++ B)) with (pos X (x :: N)).
      destruct (move_ok m L P Q X A (x :: N) B HL HX AP ltac:(discriminate) RM) as (m1 & m2 & E1 & E2 & H1 & H2 & AP' & O). rewrite E1. cbn [obind]. rewrite E2. cbn [obind].
      do 3 eexists. split; [reflexivity|]. split; [reflexivity|]. split; [reflexivity|]. split; [rewrite u64_small by lia; exact H1|]. split; [rewrite u64_small by lia; exact H2|]. split; [exact AP'|exact O].
Qed.

(** ** removing by a predicate *)
Lemma remove_loop_ok fuel (p : V -> bool) m L P Q : is_list m L (P ++ Q) -> (length Q < fuel)%nat ->
  exists m' L', remove_loop fuel (fun _ w => Some (p w)) m L (pos L Q) (pos L Q) = Some (m', L') /\ node L' = node L /\ is_list m' L' (P ++ filter (fun x => negb (p (snd x))) Q) /\
    freed (map fst (filter (fun x => p (snd x)) Q)) m' /\ only (places L (P ++ Q)) m m'.
Proof.
  revert fuel m L P. induction Q as [|x Q IH]; intros [|fuel] m L P H FU; cbn [length] in FU; try lia; cbn [remove_loop].
  - cbn [pos]. rewrite Z.eqb_refl. exists m, L. split; [reflexivity|]. split; [reflexivity|]. split; [exact H|]. split; [intros z []|]. now intros z _.
  - cbn [pos]. destruct (node_at _ _ _ _ _ H) as (_ & _ & NE). destruct (Z.eqb_spec (fst x) (node L)) as [B|_]; [easy|]. rewrite (inc_at _ _ _ _ _ H), (deref_at _ _ _ _ _ H). cbn [obind filter].
    destruct (p (snd x)) eqn:EP; cbn [negb].
    + destruct (erase_ok _ _ _ _ _ H) as (m1 & L1 & E1 & NL & H1 & FD & O1). rewrite E1. cbn [obind]. replace (pos L Q) with (pos L1 Q) by (destruct Q; cbn; [exact NL|reflexivity]).
      destruct (IH fuel m1 L1 P H1 ltac:(lia)) as (m' & L' & E' & NL' & H' & FD' & O'). exists m', L'. split; [exact E'|]. split; [now rewrite NL'|]. split; [exact H'|].
      assert (NI : ~ In (fst x) (places L1 (P ++ Q))). { unfold places. rewrite NL. destruct (cut_ok m L P [x] Q H ltac:(discriminate)) as (_ & _ & _ & _ & _ & _ & DJ). apply DJ. now left. }
      split.
      * intros z [<-|I]; [|exact (FD' z I)]. rewrite O' by exact NI. apply FD. now left.
      * intros z Hz. rewrite O'; [apply O1; exact Hz|]. intros I. apply Hz. unfold places in I. rewrite NL in I. now apply (places_sub L P [x] Q).
    + destruct (IH fuel m L (P ++ [x])) as (m' & L' & E' & NL' & H' & FD' & O'); [rewrite <- app_assoc; exact H|lia|]. rewrite <- app_assoc in H', O'. exists m', L'. split; [exact E'|]. split; [exact NL'|]. split; [exact H'|]. split; [exact FD'|exact O'].
Qed.
Lemma remove_if_ok (p : V -> bool) m L xs : is_list m L xs ->
  exists m' L', remove_if (fun _ w => Some (p w)) m L = Some (m', L') /\ node L' = node L /\ is_list m' L' (filter (fun x => negb (p (snd x))) xs) /\
    freed (map fst (filter (fun x => p (snd x)) xs)) m' /\ only (places L xs) m m'.
Proof. intros H. unfold remove_if. rewrite (inc_end _ _ _ H). cbn [obind]. pose proof H as (_ & SZ & _). apply (remove_loop_ok _ p m L [] xs H). lia. Qed.
Lemma uniq_in pred x ys z : In z (uniq_from pred x ys) -> In z ys.
Proof. revert x. induction ys as [|y ys IH]; intros x I; [easy|]. cbn [uniq_from] in I. destruct (pred _ _); [right; exact (IH _ I)|]. destruct I as [I|I]; [now left|right; exact (IH _ I)]. Qed.
Lemma unique_loop_ok fuel pred m L P x Q : is_list m L (P ++ x :: Q) -> (length Q < fuel)%nat ->
  exists m' L', unique_loop fuel pred m L (fst x) (pos L Q) = Some (m', L') /\ node L' = node L /\ is_list m' L' (P ++ x :: uniq_from pred x Q) /\
    (forall z, In z (map fst Q) -> ~ In z (map fst (uniq_from pred x Q)) -> m' z = None) /\ only (places L (P ++ x :: Q)) m m'.
Proof.
  revert fuel m L P x. induction Q as [|y Q IH]; intros [|fuel] m L P x H FU; cbn [length] in FU; try lia; cbn [unique_loop].
  - cbn [pos]. rewrite Z.eqb_refl. exists m, L. split; [reflexivity|]. split; [reflexivity|]. split; [exact H|]. split; [intros z []|]. now intros z _.
  - assert (H' : is_list m L ((P ++ [x]) ++ y :: Q)) by (rewrite <- app_assoc; exact H). cbn [pos]. destruct (node_at _ _ _ _ _ H') as (_ & _ & NE). destruct (Z.eqb_spec (fst y) (node L)) as [B|_]; [easy|].
    rewrite (deref_at _ _ _ _ _ H), (deref_at _ _ _ _ _ H'). cbn [obind uniq_from].
    assert (NI : ~ In (fst y) (places L ((P ++ [x]) ++ Q))). { destruct (cut_ok m L (P ++ [x]) [y] Q H' ltac:(discriminate)) as (_ & _ & _ & _ & _ & _ & DJ). apply DJ. now left. }
    destruct (pred (snd x) (snd y)).
    + destruct (erase_ok _ _ _ _ _ H') as (m1 & L1 & E1 & NL & H1 & FD & O1). rewrite E1. cbn [obind]. rewrite <- app_assoc in H1, O1, NI. cbn [app] in H1, O1, NI. rewrite (inc_at _ _ _ _ _ H1). cbn [obind].
      destruct (IH fuel m1 L1 P x H1 ltac:(lia)) as (m' & L' & E' & NL' & HL & FD' & O'). exists m', L'. split; [exact E'|]. split; [now rewrite NL'|]. split; [exact HL|]. unfold places in O'. rewrite NL in O'. split.
      * intros z [<-|I] NU; [|exact (FD' z I NU)]. rewrite O' by exact NI. apply FD. now left.
      * intros z Hz. rewrite O'; [apply O1; exact Hz|]. intros I. apply Hz. change (P ++ x :: y :: Q) with (P ++ [x] ++ [y] ++ Q). rewrite app_assoc. apply places_sub. rewrite <- app_assoc. exact I.
    + rewrite (inc_at _ _ _ _ _ H'). cbn [obind]. destruct (IH fuel m L (P ++ [x]) y H' ltac:(lia)) as (m' & L' & E' & NL' & HL & FD' & O'). rewrite <- app_assoc in HL, O'. exists m', L'. split; [exact E'|]. split; [exact NL'|]. split; [exact HL|]. split; [|exact O'].
      intros z [<-|I] NU; [exfalso; apply NU; now left|]. apply FD'; [exact I|]. intros J. apply NU. now right.
Qed.
Lemma unique_ok pred m L xs : is_list m L xs ->
  exists m' L', unique pred m L = Some (m', L') /\ node L' = node L /\ is_list m' L' (uniq pred xs) /\ (forall z, In z (map fst xs) -> ~ In z (map fst (uniq pred xs)) -> m' z = None) /\ only (places L xs) m m'.
Proof.
  intros H. unfold unique. rewrite (inc_end _ _ _ H). cbn [obind]. destruct xs as [|x xs].
  - cbn [pos]. rewrite (inc_end _ _ _ H). cbn [obind pos unique_loop]. rewrite Z.eqb_refl. exists m, L. split; [reflexivity|]. split; [reflexivity|]. split; [exact H|]. split; [intros z []|]. now intros z _.
  - cbn [pos]. rewrite (inc_at _ _ [] _ _ H). cbn [obind]. pose proof H as (_ & SZ & _). cbn [length] in SZ.
    destruct (unique_loop_ok (S (Z.to_nat (size L))) pred m L [] x xs H ltac:(lia)) as (m' & L' & E' & NL' & HL & FD' & O'). exists m', L'. split; [exact E'|]. split; [exact NL'|]. split; [exact HL|]. split; [|exact O'].
    intros z [<-|I] NU; [exfalso; apply NU; now left|]. apply FD'; [exact I|]. intros J. apply NU. now right.
Qed.

(** ** reverse *)
Definition swp (k : option (@nd V)) : option nd := match k with Some k => Some (mkNd (nxt k) (prv k) (val k)) | None => None end.
Lemma chain_rev m m' p C n : chain m p C n -> (forall z, In z (adrs C) -> m' z = swp (m z)) -> chain m' n (rev C) p.
Proof.
  revert p. induction C as [|c C IH]; intros p H S; [exact I|]. cbn [chain rev] in H |- *. destruct H as (NZ & E & H). apply chain_app. split.
  - cbn [first fst]. apply IH; [exact H|]. intros z I. apply S. now right.
  - cbn [chain]. split; [exact NZ|]. split; [|exact I]. rewrite (S (fst c) ltac:(now left)), E. cbn [swp prv nxt val first]. do 2 f_equal. clear. destruct C as [|d C]; [reflexivity|]. cbn [rev first]. rewrite lst_app. reflexivity.
Qed.
Lemma reverse_loop_ok fuel m p L Q : chain m p (cs Q) (node L) -> NoDup (map fst Q) -> ~ In (node L) (map fst Q) -> (length Q < fuel)%nat ->
  exists m', reverse_loop fuel m (pos L Q) (node L) = Some m' /\ (forall z, In z (map fst Q) -> m' z = swp (m z)) /\ only (map fst Q) m m'.
Proof.
  revert fuel m p. induction Q as [|x Q IH]; intros [|fuel] m p C ND NI FU; cbn [length] in FU; try lia; cbn [reverse_loop].
  - cbn [pos]. rewrite Z.eqb_refl. exists m. split; [reflexivity|]. split; [intros z []|]. now intros z _.
  - cbn [cs map chain fst snd pos] in C |- *. destruct C as (NZ & EX & C). destruct (Z.eqb_spec (fst x) (node L)) as [B|_]; [exfalso; apply NI; left; exact B|].
    cbn [map] in ND. apply NoDup_cons_iff in ND as [NX ND]. unfold swap_links. rewrite (get_ok _ _ _ NZ EX). cbn [obind prv nxt val]. unfold dec. rewrite (get_ok _ _ _ NZ (put_eq _ _ _)). cbn [obind prv].
    match goal with |- context [put m (fst x) ?k] => set (m0 := put m (fst x) k) end.
    change (map (fun x0 => (fst x0, Some (snd x0))) Q) with (cs Q). replace (first (node L) (cs Q)) with (pos L Q) by (destruct Q; reflexivity).
    destruct (IH fuel m0 (fst x)) as (m' & E' & S & O).
    + apply chain_frame with (2 := C). intros z Hz. apply put_ne. intros ->. apply NX. now rewrite <- adrs_cs.
    + exact ND.
    + intros I. apply NI. now right.
    + lia.
    + exists m'. split; [exact E'|]. split.
      * intros z [<-|I].
        -- rewrite O by exact NX. unfold m0. rewrite put_eq, EX. reflexivity.
        -- rewrite S by exact I. f_equal. apply put_ne. intros ->. exact (NX I).
      * intros z Hz. rewrite O by (intros I; apply Hz; now right). apply put_ne. intros ->. apply Hz. now left.
Qed.
Lemma reverse_ok m L xs : is_list m L xs -> exists m', reverse m L = Some m' /\ is_list m' L (rev xs) /\ only (places L xs) m m'.
Proof.
  intros H. pose proof H as (R & SZ & SM). unfold reverse. destruct (Z.leb_spec (size L) 1) as [B|B].
  - exists m. split; [reflexivity|]. split; [|now intros z _]. destruct xs as [|x [|y xs]]; [exact H|exact H|cbn [length] in SZ; lia].
  - rewrite (inc_end _ _ _ H). cbn [obind]. destruct R as (_ & ND & C). pose proof ND as ND'. rewrite places_adrs in ND'. apply NoDup_cons_iff in ND' as [NI NDX]. pose proof C as C'. cbn [chain fst snd] in C'. destruct C' as (NH & EH & CX).
    destruct (reverse_loop_ok (S (Z.to_nat (size L))) m _ L xs CX NDX NI ltac:(lia)) as (m1 & E1 & S1 & O1). rewrite E1. cbn [obind]. unfold swap_links.
    rewrite (get_ok m1 (node L) (mkNd (lst 0 ((node L, None) :: cs xs)) (first (node L) (cs xs)) None) NH) by (rewrite O1 by exact NI; exact EH). cbn [obind prv nxt val].
    eexists. split; [reflexivity|]. match goal with |- is_list ?k _ _ /\ _ => set (m2 := k) end.
    assert (S2 : forall z, In z (adrs ((node L, None) :: cs xs)) -> m2 z = swp (m z)).
    { intros z [<-|I]; [cbn [fst]; unfold m2; rewrite put_eq; rewrite EH; reflexivity|]. rewrite adrs_cs in I. unfold m2. rewrite put_ne by (intros ->; exact (NI I)). now apply S1. }
    split.
    + split; [|split; [now rewrite rev_length|exact SM]]. pose proof (chain_rev _ _ _ _ _ C S2) as CR. cbn [rev] in CR.
      assert (RR : ring m2 (rev (cs xs) ++ [(node L, None)])).
      { split; [apply end_ne|]. split.
        - change (rev (cs xs) ++ [(node L, None)]) with (rev ((node L, @None V) :: cs xs)). rewrite map_rev. now apply NoDup_rev.
        - rewrite lst_app. cbn [lst fst]. replace (first 0 (rev (cs xs) ++ [(node L, None)])) with (lst 0 ((node L, None) :: cs xs)); [exact CR|].
          cbn [lst fst]. clear. generalize (node L) as h. induction xs as [|x xs IH]; intros h; [reflexivity|]. cbn [cs map rev lst fst]. change (map (fun x0 => (fst x0, Some (snd x0))) xs) with (cs xs).
          rewrite IH. rewrite <- !app_assoc. cbn [app]. destruct (rev (cs xs)); reflexivity. }
      apply ring_rot in RR. unfold cs in RR |- *. rewrite <- map_rev in RR. exact RR.
    + intros z Hz. unfold m2. rewrite put_ne by (intros ->; apply Hz; now left). apply O1. intros I. apply Hz. now right.
Qed.
End Proof.
