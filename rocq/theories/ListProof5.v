(** Merge and sort. *)
From Coq Require Import ZArith List Bool Lia Permutation Sorted.
From Verif Require Import F64 ArrModel SortSpec SetProps MergeProps ListModel ListSpec ListProof ListProof2 ListProof3 ListProof4.
Import ListNotations.
Open Scope Z_scope.
Open Scope opt_scope.

Section Proof.
Context {V : Type}.
Notation mem := (@memory V).
Implicit Types (m : mem) (L X : obj) (xs ys P Q N A B D F G : list (Z * V)) (comp : V -> V -> bool).

Ltac memb := unfold places in *; repeat (progress (cbn [map In app] in *; rewrite ?map_app, ?in_app_iff in *)); tauto.
(** ** the functions *)
Lemma mrg_nil comp xs : mrg comp xs [] = xs. Proof. destruct xs; reflexivity. Qed.
Lemma mrg_nil_l comp ys : mrg comp [] ys = ys. Proof. destruct ys; reflexivity. Qed.
Lemma mrg_cons comp x xs y ys : mrg comp (x :: xs) (y :: ys) = if comp (snd y) (snd x) then y :: mrg comp (x :: xs) ys else x :: mrg comp xs (y :: ys).
Proof. reflexivity. Qed.
Lemma mrg_run comp x xs N G : (forall y, In y N -> comp (snd y) (snd x) = true) -> mrg comp (x :: xs) (N ++ G) = N ++ mrg comp (x :: xs) G.
Proof. induction N as [|y N IH]; intros H; [reflexivity|]. cbn [app]. rewrite mrg_cons, (H y) by now left. f_equal. apply IH. intros z I. apply H. now right. Qed.
Lemma mrg_stop comp x xs G : (G = [] \/ exists y G', G = y :: G' /\ comp (snd y) (snd x) = false) -> mrg comp (x :: xs) G = x :: mrg comp xs G.
Proof. intros [->|(y & G' & -> & E)]; [now rewrite !mrg_nil|]. now rewrite mrg_cons, E. Qed.
Lemma mrg_perm comp xs ys : Permutation (xs ++ ys) (mrg comp xs ys).
Proof.
  revert ys. induction xs as [|x xs IH]; intros ys; [now rewrite mrg_nil_l|]. induction ys as [|y ys IHy]; [now rewrite mrg_nil, app_nil_r|]. rewrite mrg_cons. destruct (comp _ _).
  - rewrite <- IHy. symmetry. apply (Permutation_middle (x :: xs) ys y).
  - cbn [app]. apply perm_skip. apply IH.
Qed.
Lemma srt_perm comp xs ys : srt comp xs ys -> Permutation xs ys.
Proof. induction 1 as [|x|A B A' B' _ _ _ IHA _ IHB]; [constructor|reflexivity|]. rewrite <- mrg_perm. now apply Permutation_app. Qed.
Definition by_val comp (x y : Z * V) : bool := comp (snd x) (snd y).
Lemma by_val_sw comp : strict_weak comp -> strict_weak (by_val comp).
Proof. intros [I T N]. unfold by_val. split; intros; eauto. Qed.

Lemma mrg_is_merge comp xs ys : strict_weak comp -> ordered (by_val comp) xs -> ordered (by_val comp) ys -> is_merge (by_val comp) xs ys (mrg comp xs ys).
Proof.
  intros SW. pose proof (by_val_sw _ SW) as SW'. revert ys. induction xs as [|x xs IH]; intros ys OX OY.
  { rewrite mrg_nil_l. split; [reflexivity|]. split; [exact OY|]. reflexivity. }
  induction ys as [|y ys IHy].
  { rewrite mrg_nil. split; [now rewrite app_nil_r|]. split; [exact OX|]. intros v. cbn. now rewrite app_nil_r. }
  rewrite mrg_cons. pose proof OX as OX0. pose proof OY as OY0. apply StronglySorted_inv in OX0 as [OX' FX]. apply StronglySorted_inv in OY0 as [OY' FY]. rewrite Forall_forall in FX, FY.
  destruct (comp (snd y) (snd x)) eqn:E.
  - destruct (IHy OY') as (PM & O & AL). split; [rewrite <- PM; symmetry; apply (Permutation_middle (x :: xs) ys y)|]. split.
    + constructor; [exact O|]. rewrite Forall_forall. intros z I. apply Permutation_in with (1 := Permutation_sym PM) in I. apply in_app_iff in I as [[<-|I]|I].
      * unfold by_val. destruct (comp (snd x) (snd y)) eqn:E2; [|reflexivity]. pose proof (sw_trans _ SW _ _ _ E E2) as T. now rewrite (sw_irr _ SW) in T.
      * unfold by_val. destruct (comp (snd z) (snd y)) eqn:E2; [|reflexivity]. pose proof (sw_trans _ SW _ _ _ E2 E) as T. specialize (FX z I). unfold by_val in FX. congruence.
      * exact (FY z I).
    + intros v. cbn [SetProps.alike filter]. fold (SetProps.alike (by_val comp) v). specialize (AL v). unfold SetProps.alike in *. cbn [filter] in *.
      destruct (negb (by_val comp v y) && negb (by_val comp y v)) eqn:AY; [|exact AL]. rewrite AL.
      assert (NX : forall z, In z (x :: xs) -> (negb (by_val comp v z) && negb (by_val comp z v)) = false).
      { intros z I. assert (LT : by_val comp y z = true). { destruct I as [<-|I]; [exact E|]. destruct (sw_neg _ SW' y z x E) as [T|T]; [exact T|]. specialize (FX z I). cbn beta in FX. congruence. }
        apply andb_true_iff in AY as [A1 A2]. apply negb_true_iff in A1, A2. destruct (sw_neg _ SW' y v z LT) as [T|T]; [congruence|]. now rewrite T. }
      assert (FE : filter (fun z => negb (by_val comp v z) && negb (by_val comp z v)) (x :: xs) = []).
      { clear - NX. induction (x :: xs) as [|w l IH]; [reflexivity|]. cbn [filter]. rewrite (NX w) by now left. apply IH. intros z I. apply NX. now right. }
      cbn [filter] in FE. rewrite FE. reflexivity.
  - destruct (IH (y :: ys) OX' OY) as (PM & O & AL). split; [cbn [app]; now apply perm_skip|]. split.
    + constructor; [exact O|]. rewrite Forall_forall. intros z I. apply Permutation_in with (1 := Permutation_sym PM) in I. apply in_app_iff in I as [I|[<-|I]].
      * exact (FX z I).
      * exact E.
      * unfold by_val. destruct (comp (snd z) (snd x)) eqn:E2; [|reflexivity]. destruct (sw_neg _ SW _ (snd y) _ E2) as [T|T]; [|congruence]. specialize (FY z I). unfold by_val in FY. congruence.
    + intros v. specialize (AL v). unfold SetProps.alike in *. cbn [filter] in *. destruct (negb (by_val comp v x) && negb (by_val comp x v)); [cbn [app]; f_equal; exact AL|exact AL].
Qed.
Lemma srt_sorted comp xs ys : strict_weak comp -> srt comp xs ys -> ordered (by_val comp) ys /\ forall v, alike (by_val comp) v ys = alike (by_val comp) v xs.
Proof.
  intros SW. induction 1 as [|x|A B A' B' _ _ _ IHA _ IHB].
  - split; [constructor|reflexivity].
  - split; [repeat constructor|reflexivity].
  - destruct IHA as [OA AA], IHB as [OB AB]. destruct (mrg_is_merge comp A' B' SW OA OB) as (_ & O & AL). split; [exact O|]. intros v. rewrite AL, AA, AB. unfold alike. now rewrite filter_app.
Qed.

(** ** the run of smaller elements *)
Lemma run_ok fuel comp m X A G B f1 b : is_list m X (A ++ G ++ B) -> deref m f1 = Some b -> (length G < fuel)%nat ->
  exists N G', G = N ++ G' /\ run fuel comp m (pos X (G ++ B)) (pos X B) f1 = Some (pos X (G' ++ B)) /\ (forall y, In y N -> comp (snd y) b = true) /\
    (G' = [] \/ exists y G'', G' = y :: G'' /\ comp (snd y) b = false).
Proof.
  revert fuel A. induction G as [|g G IH]; intros [|fuel] A H DF FU; cbn [length] in FU; try lia; cbn [run].
  - cbn [app]. rewrite Z.eqb_refl. exists [], []. split; [reflexivity|]. split; [reflexivity|]. split; [intros y []|now left].
  - destruct (Z.eqb_spec (pos X ((g :: G) ++ B)) (pos X B)) as [E|_].
    + exfalso. destruct (cut_ok m X A (g :: G) B H ltac:(discriminate)) as (_ & _ & _ & _ & _ & _ & DJ). apply (DJ (fst g) ltac:(now left)). cbn [app pos] in E. rewrite E. apply pos_in.
    + cbn [app pos]. rewrite (deref_at m X A g (G ++ B) H), DF. cbn [obind]. destruct (comp (snd g) b) eqn:EC.
      * rewrite (inc_at m X A g (G ++ B) H). cbn [obind]. destruct (IH fuel (A ++ [g])) as (N & G' & EG & E & HN & HG); [rewrite <- app_assoc; exact H|exact DF|lia|].
        exists (g :: N), G'. split; [cbn [app]; now rewrite EG|]. split; [exact E|]. split; [intros y [<-|I]; [exact EC|exact (HN y I)]|exact HG].
      * exists [], (g :: G). split; [reflexivity|]. split; [reflexivity|]. split; [intros y []|]. right. now exists g, G.
Qed.

(** ** merge *)
Lemma pos_nd m L P N Q : is_list m L (P ++ N ++ Q) -> N <> [] -> pos L (N ++ Q) <> pos L Q.
Proof.
  intros H NN E. destruct (cut_ok m L P N Q H NN) as (_ & _ & _ & _ & _ & _ & DJ). destruct N as [|x N]; [easy|]. apply (DJ (fst x) ltac:(now left)). cbn [app pos] in E. rewrite E. apply pos_in.
Qed.
Lemma merge_loop_ok fuel comp m L X D F G : is_list m L (D ++ F) -> is_list m X G -> apart L (D ++ F) X G -> (length F + length G < fuel)%nat -> size L + size X <= max_size ->
  exists m' D' F' G' L' X', merge_loop fuel comp m (pos L F) (node L) (pos X G) (node X) = Some (m', pos X G') /\ node L' = node L /\ node X' = node X /\
    is_list m' L' (D' ++ F') /\ is_list m' X' G' /\ apart L (D' ++ F') X G' /\ (F' = [] \/ G' = []) /\ D' ++ mrg comp F' G' = D ++ mrg comp F G /\
    size L' + size X' = size L + size X /\ only (places L (D ++ F) ++ places X G) m m' /\
    (forall z, In z (places L (D' ++ F') ++ places X G') -> In z (places L (D ++ F) ++ places X G)).
Proof.
  revert fuel m L X D G. induction F as [|f F IH]; intros [|fuel] m L X D G HL HX AP FU RM; try lia; cbn [merge_loop].
  - cbn [pos]. rewrite Z.eqb_refl. cbn [orb]. exists m, D, [], G, L, X. repeat (split; [first [reflexivity|assumption|now left]|]). split; [now intros z _|trivial].
  - assert (HF : is_list m L (D ++ (f :: F) ++ [])) by (rewrite app_nil_r; exact HL).
    destruct (Z.eqb_spec (pos L (f :: F)) (node L)) as [B|_]; [exfalso; apply (pos_nd _ _ _ _ _ HF); [discriminate|rewrite app_nil_r; exact B]|]. cbn [orb].
    destruct G as [|g G].
    { cbn [pos]. rewrite Z.eqb_refl. exists m, D, (f :: F), [], L, X. repeat (split; [first [reflexivity|assumption|now right]|]). split; [now intros z _|trivial]. }
    assert (HG : is_list m X ([] ++ (g :: G) ++ [])) by (rewrite app_nil_r; exact HX).
    destruct (Z.eqb_spec (pos X (g :: G)) (node X)) as [B|_]; [exfalso; apply (pos_nd _ _ _ _ _ HG); [discriminate|rewrite app_nil_r; exact B]|].
    cbn [pos]. rewrite (deref_at m X [] g G HX), (deref_at m L D f F HL). cbn [obind]. rewrite mrg_cons. destruct (comp (snd g) (snd f)) eqn:EC.
    + rewrite (inc_at m X [] g G HX). cbn [obind].
      destruct (run_ok (S fuel) comp m X [g] G [] (fst f) (snd f)) as (N & G' & EG & ER & HN & HS); [rewrite app_nil_r; exact HX|exact (deref_at _ _ _ _ _ HL)|cbn [length] in FU; lia|].
      rewrite !app_nil_r in ER. cbn [pos] in ER. rewrite ER. cbn [obind].
      assert (HX' : is_list m X ([] ++ (g :: N) ++ G')) by (cbn [app]; rewrite <- EG; exact HX).
      assert (AP' : apart L (D ++ f :: F) X ([] ++ (g :: N) ++ G')) by (cbn [app]; rewrite <- EG; exact AP).
      pose proof HX as (_ & SZX & SMX). pose proof HL as (_ & SZL & _). assert (LG : length (g :: G) = (length (g :: N) + length G')%nat) by (cbn [length]; rewrite EG, app_length; lia).
      pose proof (dec_pos m X (g :: N) G' HX') as ED. rewrite ED. cbn [obind]. rewrite (lst_ne _ 0) by discriminate.
      destruct (move_ok m L D (f :: F) X [] (g :: N) G' HL HX' AP' ltac:(discriminate) ltac:(lia)) as (m1 & m2 & E1 & E2 & H1 & H2 & AP2 & O). cbn [pos] in E1, E2. rewrite E1. cbn [obind]. rewrite E2. cbn [obind].
      set (L1 := mkObj (node L) (size L + Z.of_nat (length (g :: N)))) in *. set (X1 := mkObj (node X) (size X - Z.of_nat (length (g :: N)))) in *.
      assert (H1' : is_list m2 L1 (((D ++ g :: N) ++ [f]) ++ F)) by (rewrite <- !app_assoc; exact H1).
      pose proof (inc_at m2 L1 (D ++ g :: N) f F ltac:(rewrite <- app_assoc; exact H1)) as EI. rewrite EI. cbn [obind app] in H2 |- *.
      assert (AP3 : apart L1 (((D ++ g :: N) ++ [f]) ++ F) X1 G') by (rewrite <- !app_assoc; exact AP2).
      destruct (IH fuel m2 L1 X1 ((D ++ g :: N) ++ [f]) G' H1' H2 AP3) as (m' & D' & F' & G'' & L' & X' & E' & NL & NX & HL' & HX'' & APE & DE & EM & SE & OE & PE); [cbn [length] in FU, LG; lia|cbn [size L1 X1]; lia|].
      exists m', D', F', G'', L', X'. split; [exact E'|]. split; [exact NL|]. split; [exact NX|]. split; [exact HL'|]. split; [exact HX''|]. split; [exact APE|]. split; [exact DE|]. split; [|split; [|split]].
      * rewrite EM, EG, <- !app_assoc. f_equal. cbn [app]. f_equal. rewrite mrg_run by exact HN. f_equal. rewrite mrg_stop by exact HS. reflexivity.
      * rewrite SE. cbn [size L1 X1]. lia.
      * intros z Hz. rewrite OE; [apply O; cbn [app]; rewrite <- EG; exact Hz|]. intros I. apply Hz. rewrite EG. clear - I. unfold places in *. cbn [node L1 X1] in I. rewrite !in_app_iff in *. cbn [In map] in *. rewrite !map_app in *. cbn [map] in *. rewrite !in_app_iff in *. cbn [In] in *. rewrite ?in_app_iff in *. cbn [In] in *. tauto.
      * intros z I. apply PE in I. rewrite EG. clear - I. unfold places in *. cbn [node L1 X1] in I. rewrite !in_app_iff in *. cbn [In map] in *. rewrite !map_app in *. cbn [map] in *. rewrite !in_app_iff in *. cbn [In] in *. rewrite ?in_app_iff in *. cbn [In] in *. tauto.
    + rewrite (inc_at m L D f F HL). cbn [obind].
      destruct (IH fuel m L X (D ++ [f]) (g :: G)) as (m' & D' & F' & G'' & L' & X' & E' & NL & NX & HL' & HX'' & APE & DE & EM & SE & OE & PE); [rewrite <- app_assoc; exact HL|exact HX|rewrite <- app_assoc; exact AP|cbn [length] in FU |- *; lia|exact RM|].
      rewrite <- app_assoc in EM, OE, PE. exists m', D', F', G'', L', X'. repeat (split; [assumption|]). assumption.
Qed.
Lemma merge_ok comp m L xs X ys : is_list m L xs -> is_list m X ys -> apart L xs X ys -> size L + size X <= max_size ->
  exists m' L' X', merge comp m L X = Some (m', L', X') /\ node L' = node L /\ node X' = node X /\ is_list m' L' (mrg comp xs ys) /\ is_list m' X' [] /\ only (places L xs ++ places X ys) m m'.
Proof.
  intros HL HX AP RM. unfold merge. rewrite room_ok by lia. cbn [obind]. rewrite (inc_end _ _ _ HL), (inc_end _ _ _ HX). cbn [obind].
  pose proof HL as (_ & SZL & SML). pose proof HX as (_ & SZX & SMX).
  destruct (merge_loop_ok (S (Z.to_nat (size L + size X))) comp m L X [] xs ys HL HX AP ltac:(lia) RM) as (m1 & D & F & G & L1 & X1 & E1 & NL & NX & HL1 & HX1 & AP1 & DE & EM & SE & O & PE).
  rewrite E1. cbn [obind app] in *. pose proof HL1 as (_ & SZL1 & SML1). pose proof HX1 as (_ & SZX1 & SMX1). rewrite u64_small by lia.
  assert (PX : forall l : list (Z * V), pos X l = pos X1 l) by (intros [|a l]; [exact (eq_sym NX)|reflexivity]).
  assert (PL : forall l : list (Z * V), pos L l = pos L1 l) by (intros [|a l]; [exact (eq_sym NL)|reflexivity]).
  destruct G as [|g G].
  - cbn [pos]. rewrite Z.eqb_refl. cbn [obind]. rewrite mrg_nil in EM. do 3 eexists. split; [reflexivity|]. split; [reflexivity|]. split; [reflexivity|]. split; [|split; [|exact O]].
    + rewrite <- EM. apply relist with (1 := HL1); [exact NL|]. cbn [size]. cbn [length] in SZX1. lia.
    + apply relist with (1 := HX1); [exact NX|reflexivity].
  - destruct DE as [->|DE]; [|discriminate DE]. rewrite mrg_nil_l in EM. rewrite app_nil_r in HL1, SZL1, AP1.
    destruct (Z.eqb_spec (pos X (g :: G)) (node X)) as [B|_]; [exfalso; rewrite <- NX, PX in B; apply (pos_nd m1 X1 [] (g :: G) []); [rewrite app_nil_r; exact HX1|discriminate|rewrite app_nil_r; exact B]|].
    rewrite <- NX, (dec_end _ _ _ HX1). cbn [obind]. rewrite (lst_ne _ 0) by discriminate.
    destruct (move_ok m1 L1 D [] X1 [] (g :: G) [] ) as (m2 & m3 & E2 & E3 & H2 & H3 & _ & O3).
    + rewrite app_nil_r. exact HL1.
    + rewrite app_nil_r. exact HX1.
    + rewrite !app_nil_r. unfold apart, places. rewrite NL, NX. exact AP1.
    + discriminate.
    + rewrite SZL1. lia.
    + cbn [pos] in E2, E3. cbn [pos]. rewrite E2. cbn [obind]. rewrite <- NL, E3. cbn [obind]. do 3 eexists. split; [reflexivity|]. split; [reflexivity|]. split; [reflexivity|]. split; [|split].
      * rewrite <- EM. rewrite app_nil_r in H2. apply relist with (1 := H2); [reflexivity|]. cbn [size]. rewrite app_length. lia.
      * apply relist with (1 := H3); reflexivity.
      * intros z Hz. rewrite O3; [apply O; exact Hz|]. intros I. apply Hz. unfold places in *. apply PE. rewrite !app_nil_r in I. rewrite app_nil_r. rewrite NL, NX in I. exact I.
Qed.

(** ** sort *)
Lemma sort_loop_ok fuel comp m L D F G Q : is_list m L (D ++ F ++ G ++ Q) -> (length F + length G < fuel)%nat ->
  exists m', sort_loop fuel comp m (pos L (F ++ G ++ Q)) (pos L (G ++ Q)) (pos L (G ++ Q)) (pos L Q) = Some m' /\ is_list m' L (D ++ mrg comp F G ++ Q) /\ only (places L (D ++ F ++ G ++ Q)) m m'.
Proof.
  revert fuel m D G. induction F as [|f F IH]; intros [|fuel] m D G H FU; try lia; cbn [sort_loop].
  - cbn [app]. rewrite Z.eqb_refl. cbn [orb]. exists m. rewrite mrg_nil_l. split; [reflexivity|]. split; [exact H|]. now intros z _.
  - destruct (Z.eqb_spec (pos L ((f :: F) ++ G ++ Q)) (pos L (G ++ Q))) as [B|_]; [exfalso; revert B; now apply (pos_nd _ _ _ _ _ H)|]. cbn [orb].
    destruct G as [|g G].
    { cbn [app]. rewrite Z.eqb_refl. exists m. rewrite mrg_nil. split; [reflexivity|]. split; [exact H|]. now intros z _. }
    assert (HG : is_list m L ((D ++ f :: F) ++ (g :: G) ++ Q)) by (rewrite <- app_assoc; exact H).
    destruct (Z.eqb_spec (pos L ((g :: G) ++ Q)) (pos L Q)) as [B|_]; [exfalso; revert B; now apply (pos_nd _ _ _ _ _ HG)|].
    cbn [app pos]. rewrite (deref_at m L (D ++ f :: F) g (G ++ Q) HG), (deref_at m L D f (F ++ g :: G ++ Q) H). cbn [obind]. rewrite mrg_cons. destruct (comp (snd g) (snd f)) eqn:EC.
    + rewrite (inc_at m L (D ++ f :: F) g (G ++ Q) HG). cbn [obind].
      destruct (run_ok (S fuel) comp m L ((D ++ f :: F) ++ [g]) G Q (fst f) (snd f)) as (N & G' & EG & ER & HN & HS); [rewrite <- app_assoc; exact HG|exact (deref_at _ _ _ _ _ H)|cbn [length] in FU; lia|].
      rewrite ER. cbn [obind].
      assert (HN' : is_list m L ((D ++ f :: F) ++ (g :: N) ++ (G' ++ Q))). { rewrite EG in HG. cbn [app] in HG |- *. rewrite <- (app_assoc N) in HG. exact HG. }
      pose proof HN' as HD. rewrite app_assoc in HD. rewrite (dec_pos _ _ _ _ HD). cbn [obind]. rewrite cs_app, lst_app, (lst_ne _ 0) by discriminate. rewrite Z.eqb_refl.
      destruct (shift_ok m L (D ++ f :: F) (g :: N) (G' ++ Q) D ((f :: F) ++ G' ++ Q) HN' ltac:(discriminate)) as (m1 & m2 & E1 & H1 & E2 & H2 & O); [rewrite <- app_assoc; reflexivity|].
      cbn [pos app] in E1, E2. rewrite E1. cbn [obind]. pose proof (inc_at m1 _ D f (F ++ G' ++ Q) H1) as EI. rewrite EI. cbn [obind]. rewrite E2. cbn [obind].
      change (pos (mkObj (node L) (Z.of_nat (length (D ++ (f :: F) ++ G' ++ Q)))) (F ++ G' ++ Q)) with (pos L (F ++ G' ++ Q)).
      destruct (IH fuel m2 ((D ++ g :: N) ++ [f]) G') as (m' & E' & H' & O'); [rewrite <- !app_assoc; exact H2|cbn [length] in FU; rewrite EG, app_length in FU; lia|].
      exists m'. split; [exact E'|]. split.
      * rewrite EG, mrg_run by exact HN. rewrite mrg_stop by exact HS. rewrite <- !app_assoc in H'. cbn [app] in H' |- *. rewrite <- app_assoc. exact H'.
      * intros z Hz. rewrite O'.
        -- apply O. intros I. apply Hz. rewrite EG. clear - I. memb.
        -- intros I. apply Hz. rewrite EG. clear - I. memb.
    + rewrite (inc_at m L D f (F ++ g :: G ++ Q) H). cbn [obind]. destruct (IH fuel m (D ++ [f]) (g :: G)) as (m' & E' & H' & O'); [rewrite <- app_assoc; exact H|cbn [length] in FU |- *; lia|].
      rewrite <- app_assoc in H', O'. exists m'. split; [exact E'|]. split; [exact H'|exact O'].
Qed.
Lemma places_perm L P xs ys Q z : Permutation xs ys -> In z (places L (P ++ xs ++ Q)) <-> In z (places L (P ++ ys ++ Q)).
Proof.
  intros PM. apply (Permutation_map fst) in PM. assert (E : In z (map fst xs) <-> In z (map fst ys)) by (split; apply Permutation_in; [exact PM|now symmetry]).
  unfold places. cbn [In]. rewrite !map_app, !in_app_iff. tauto.
Qed.
Lemma advance_ok m L P A Q : is_list m L (P ++ A ++ Q) -> advance m (pos L (A ++ Q)) (length A) = Some (pos L Q).
Proof.
  revert P. induction A as [|a A IH]; intros P H; [reflexivity|]. cbn [length advance app pos]. rewrite (inc_at m L P a (A ++ Q) H). cbn [obind]. apply (IH (P ++ [a])). rewrite <- app_assoc. exact H.
Qed.
Lemma list_sort_ok depth comp m L P xs Q : is_list m L (P ++ xs ++ Q) -> (length xs < depth)%nat ->
  exists m' ys, list_sort depth comp m (pos L (xs ++ Q)) (pos L Q) (Z.of_nat (length xs)) = Some (m', pos L (ys ++ Q)) /\ is_list m' L (P ++ ys ++ Q) /\ srt comp xs ys /\ only (places L (P ++ xs ++ Q)) m m'.
Proof.
  revert m P xs Q. induction depth as [|depth IH]; intros m P xs Q H FU; [lia|]. cbn [list_sort].
  destruct (Z.ltb_spec (Z.of_nat (length xs)) 2) as [B|B].
  { exists m, xs. split; [reflexivity|]. split; [exact H|]. split; [|now intros z _]. destruct xs as [|x [|y xs]]; [constructor|constructor|cbn [length] in B; lia]. }
  destruct (Z.eqb_spec (Z.of_nat (length xs)) 2) as [B2|B2].
  - destruct xs as [|x [|y [|w xs]]]; cbn [length] in B2; try lia. change ([x; y] ++ Q) with (x :: y :: Q). assert (HY : is_list m L ((P ++ [x]) ++ y :: Q)) by (rewrite <- app_assoc; exact H).
    assert (HD : is_list m L ((P ++ [x; y]) ++ Q)) by (rewrite <- app_assoc; exact H). rewrite (dec_pos _ _ _ _ HD). cbn [obind]. rewrite cs_app, lst_app. cbn [cs map lst fst pos].
    rewrite (deref_at _ _ _ _ _ HY), (deref_at m L P x (y :: Q) H). cbn [obind]. destruct (comp (snd y) (snd x)) eqn:EC.
    + destruct (shift_ok m L (P ++ [x]) [y] Q P (x :: Q) HY ltac:(discriminate)) as (m1 & m2 & E1 & _ & E2 & H2 & O); [rewrite <- app_assoc; reflexivity|]. cbn [pos cs map lst fst] in E1, E2. rewrite E1. cbn [obind]. rewrite E2. cbn [obind].
      exists m2, [y; x]. split; [reflexivity|]. split; [exact H2|]. split; [|rewrite <- app_assoc in O; exact O].
      replace [y; x] with (mrg comp [x] [y]) by (cbn; rewrite EC; reflexivity). apply (srt_two comp [x] [y] [x] [y]); try discriminate; constructor.
    + exists m, [x; y]. split; [reflexivity|]. split; [exact H|]. split; [|now intros z _].
      replace [x; y] with (mrg comp [x] [y]) at 2 by (cbn; rewrite EC; reflexivity). apply (srt_two comp [x] [y] [x] [y]); try discriminate; constructor.
  - set (n2 := (length xs / 2)%nat). assert (EN2 : Z.of_nat (length xs) / 2 = Z.of_nat n2) by (unfold n2; rewrite Nat2Z.inj_div; reflexivity).
    assert (R2 : (1 <= n2 /\ n2 + n2 <= length xs)%nat) by (unfold n2; pose proof (Nat.div_mod_eq (length xs) 2); pose proof (Nat.mod_upper_bound (length xs) 2); lia).
    set (A := firstn n2 xs). set (B0 := skipn n2 xs). assert (EX : xs = A ++ B0) by (symmetry; apply firstn_skipn).
    assert (LA : length A = n2) by (unfold A; rewrite firstn_length; lia). assert (LB : length B0 = (length xs - n2)%nat) by (unfold B0; apply skipn_length).
    clearbody A B0. clearbody n2. rewrite EN2, Nat2Z.id. assert (EP : pos L (xs ++ Q) = pos L (A ++ B0 ++ Q)) by (rewrite EX, <- app_assoc; reflexivity). rewrite EP. assert (HA : is_list m L (P ++ A ++ (B0 ++ Q))) by (rewrite EX, <- app_assoc in H; exact H).
    pose proof (advance_ok m L P A (B0 ++ Q) HA) as EA. rewrite LA in EA. rewrite EA. cbn [obind].
    destruct (IH m P A (B0 ++ Q) HA ltac:(lia)) as (m1 & A' & E1 & H1 & S1 & O1). rewrite LA in E1. rewrite E1. cbn [obind].
    assert (H1' : is_list m1 L ((P ++ A') ++ B0 ++ Q)) by (rewrite <- app_assoc; exact H1).
    destruct (IH m1 (P ++ A') B0 Q H1' ltac:(lia)) as (m2 & B' & E2 & H2 & S2 & O2). replace (Z.of_nat (length xs) - Z.of_nat n2) with (Z.of_nat (length B0)) by lia. rewrite E2. cbn [obind].
    pose proof (srt_perm _ _ _ S1) as PA. pose proof (srt_perm _ _ _ S2) as PB. pose proof (Permutation_length PA) as LA'. pose proof (Permutation_length PB) as LB'.
    destruct A' as [|a A']; [cbn [length] in LA'; lia|]. destruct B' as [|b B']; [cbn [length] in LB'; lia|].
    assert (H2' : is_list m2 L (P ++ (a :: A') ++ (b :: B') ++ Q)) by (rewrite <- app_assoc in H2; exact H2).
    assert (HS : srt comp xs (mrg comp (a :: A') (b :: B'))) by (rewrite EX; apply srt_two; [destruct A; [cbn [length] in LA; lia|discriminate]|destruct B0; [cbn [length] in LB; lia|discriminate]|exact S1|exact S2]).
    assert (OO : only (places L (P ++ xs ++ Q)) m m2).
    { intros z Hz. rewrite O2; [apply O1; intros I; apply Hz; rewrite EX, <- app_assoc; exact I|]. intros I. apply Hz. rewrite EX. rewrite <- !app_assoc in *. revert I. apply places_perm. now symmetry. }
    set (fl := S (Z.to_nat (Z.of_nat (length xs)))).
    destruct (sort_loop_ok (S fl) comp m2 L P (a :: A') (b :: B') Q H2') as (m' & E3 & H3 & O3).
    { unfold fl. rewrite <- LA', <- LB'. lia. }
    assert (OF : only (places L (P ++ xs ++ Q)) m m').
    { intros z Hz. rewrite O3; [now apply OO|]. intros I. apply Hz. rewrite EX. rewrite <- app_assoc. revert I. intros I. apply (places_perm L P A (a :: A') (B0 ++ Q) z PA). unfold places in *. destruct I as [I|I]; [now left|]. right.
      rewrite !map_app, !in_app_iff in *. apply (Permutation_map fst) in PB. destruct I as [I|[I|[I|I]]]; [now left|right; now left| |tauto]. right. right. left. apply Permutation_in with (2 := I). now symmetry. }
    cbn [sort_loop] in E3. destruct (Z.eqb_spec (pos L ((a :: A') ++ (b :: B') ++ Q)) (pos L ((b :: B') ++ Q))) as [EE|_]; [exfalso; revert EE; now apply (pos_nd _ _ _ _ _ H2')|]. cbn [orb] in E3.
    destruct (Z.eqb_spec (pos L ((b :: B') ++ Q)) (pos L Q)) as [EE|_]; [exfalso; revert EE; apply (pos_nd m2 L (P ++ a :: A')); [exact H2|discriminate]|].
    assert (DB : deref m2 (fst b) = Some (snd b)) by exact (deref_at m2 L (P ++ a :: A') b (B' ++ Q) H2). assert (DA : deref m2 (fst a) = Some (snd a)) by exact (deref_at m2 L P a (A' ++ (b :: B') ++ Q) H2').
    cbn [app pos] in E3 |- *. rewrite DB, DA in E3 |- *. cbn [obind] in E3 |- *. rewrite mrg_cons in H3, HS. destruct (comp (snd b) (snd a)) eqn:EC.
    + assert (IB : inc m2 (fst b) = Some (pos L (B' ++ Q))) by exact (inc_at m2 L (P ++ a :: A') b (B' ++ Q) H2). rewrite IB in E3 |- *. cbn [obind] in E3 |- *.
      destruct (run_ok fl comp m2 L ((P ++ a :: A') ++ [b]) B' Q (fst a) (snd a)) as (N & G' & EG & ER & HN & HSt); [rewrite <- app_assoc; exact H2|exact DA|unfold fl; cbn [length] in LB'; lia|].
      destruct (run_ok (S fl) comp m2 L ((P ++ a :: A') ++ [b]) B' Q (fst a) (snd a)) as (N1 & G1 & EG1 & ER1 & HN1 & HSt1); [rewrite <- app_assoc; exact H2|exact DA|unfold fl; cbn [length] in LB'; lia|].
      assert (EGG : G1 = G').
      { clear - EG EG1 HN HN1 HSt HSt1. subst B'. revert N1 EG1 HN1. induction N as [|n N IHN]; intros [|n1 N1] EG1 HN1; cbn [app] in EG1.
        - now symmetry.
        - exfalso. destruct HSt as [->|(y & G'' & -> & E)]; [discriminate|]. injection EG1 as -> _. rewrite (HN1 n1) in E by now left. discriminate.
        - exfalso. destruct HSt1 as [->|(y & G'' & -> & E)]; [discriminate|]. injection EG1 as -> _. rewrite (HN y) in E by now left. discriminate.
        - injection EG1 as -> EG1. apply IHN with (2 := EG1); [intros y I; apply HN; now right|intros y I; apply HN1; now right]. }
      subst G1. rewrite ER1 in E3. rewrite ER. cbn [obind] in E3 |- *. rewrite Z.eqb_refl in E3.
      destruct (dec m2 (pos L (G' ++ Q))) as [l|]; [|discriminate E3]. cbn [obind] in E3 |- *. destruct (unlink_nodes m2 (fst b) l) as [m3|]; [|discriminate E3]. cbn [obind] in E3 |- *.
      destruct (inc m3 (fst a)) as [j|]; [|discriminate E3]. cbn [obind] in E3 |- *. destruct (link_nodes m3 (fst a) (fst b) l) as [m4|]; [|discriminate E3]. cbn [obind] in E3 |- *. rewrite E3. cbn [obind].
      eexists. eexists. split; [|split; [exact H3|split; [exact HS|exact OF]]]. reflexivity.
    + destruct (inc m2 (fst a)) as [j|]; [|discriminate E3]. cbn [obind] in E3 |- *. rewrite E3. cbn [obind]. eexists. eexists. split; [|split; [exact H3|split; [exact HS|exact OF]]]. reflexivity.
Qed.
Lemma sort_ok comp m L xs : is_list m L xs -> exists m' ys, sort comp m L = Some m' /\ is_list m' L ys /\ srt comp xs ys /\ only (places L xs) m m'.
Proof.
  intros H. unfold sort. rewrite (inc_end _ _ _ H). cbn [obind]. pose proof H as (_ & SZ & _). pose proof H as H'. rewrite <- (app_nil_r xs) in H'.
  destruct (list_sort_ok (S (Z.to_nat (size L))) comp m L [] xs [] H' ltac:(lia)) as (m' & ys & E & HY & S & O). rewrite app_nil_r in E. cbn [pos] in E. rewrite <- SZ in E. rewrite E. cbn [obind].
  exists m', ys. rewrite app_nil_r in HY, O. split; [reflexivity|]. split; [exact HY|]. split; [exact S|exact O].
Qed.

(** ** comparison *)
Fixpoint same (eqb : V -> V -> bool) xs ys : bool :=
  match xs, ys with [], [] => true | x :: xs, y :: ys => eqb (snd x) (snd y) && same eqb xs ys | _, _ => false end.
Lemma equal_loop_ok fuel eqb m L X P xs Q ys : is_list m L (P ++ xs) -> is_list m X (Q ++ ys) -> (length xs < fuel)%nat ->
  equal_loop fuel eqb m (pos L xs) (node L) (pos X ys) (node X) = Some (same eqb xs ys).
Proof.
  revert fuel P Q ys. induction xs as [|x xs IH]; intros [|fuel] P Q ys HL HX FU; cbn [length] in FU; try lia; cbn [equal_loop].
  - cbn [pos]. rewrite Z.eqb_refl. cbn [negb andb]. f_equal. destruct ys as [|y ys]; [cbn [pos same]; now rewrite Z.eqb_refl|]. cbn [pos same]. apply Z.eqb_neq. now destruct (node_at _ _ _ _ _ HX) as (_ & _ & NE).
  - cbn [pos]. destruct (node_at _ _ _ _ _ HL) as (_ & _ & NE). destruct (Z.eqb_spec (fst x) (node L)) as [B|_]; [easy|]. cbn [negb andb]. destruct ys as [|y ys].
    + cbn [pos]. rewrite Z.eqb_refl. reflexivity.
    + cbn [pos]. destruct (node_at _ _ _ _ _ HX) as (_ & _ & NEX). destruct (Z.eqb_spec (fst y) (node X)) as [B|_]; [easy|]. cbn [negb].
      rewrite (deref_at _ _ _ _ _ HL), (deref_at _ _ _ _ _ HX). cbn [obind same]. destruct (eqb (snd x) (snd y)); cbn [andb]; [|reflexivity].
      rewrite (inc_at _ _ _ _ _ HL), (inc_at _ _ _ _ _ HX). cbn [obind]. apply (IH fuel (P ++ [x]) (Q ++ [y])); [rewrite <- app_assoc; exact HL|rewrite <- app_assoc; exact HX|lia].
Qed.
Lemma same_spec eqb xs ys : same eqb xs ys = true <-> Forall2 (fun x y => eqb (snd x) (snd y) = true) xs ys.
Proof.
  revert ys. induction xs as [|x xs IH]; intros [|y ys]; cbn [same]; split; intros H; try discriminate; try constructor; try now inversion H.
  - now apply andb_true_iff in H.
  - apply IH. now apply andb_true_iff in H.
  - inversion H; subst. apply andb_true_iff. split; [assumption|]. now apply IH.
Qed.
Lemma equal_ok eqb m L X xs ys : is_list m L xs -> is_list m X ys -> exists b, equal eqb m L X = Some b /\ (b = true <-> Forall2 (fun x y => eqb (snd x) (snd y) = true) xs ys).
Proof.
  intros HL HX. unfold equal. rewrite (inc_end _ _ _ HL), (inc_end _ _ _ HX). cbn [obind]. pose proof HL as (_ & SZ & _).
  rewrite (equal_loop_ok _ eqb m L X [] xs [] ys HL HX) by lia. eexists. split; [reflexivity|]. apply same_spec.
Qed.
End Proof.
