(** Rings of linked nodes: taking a stretch out and putting one in. *)
From Coq Require Import ZArith List Bool Lia Permutation.
From Verif Require Import F64 ListModel ListSpec.
Import ListNotations.
Open Scope Z_scope.
Open Scope opt_scope.

Section Proof.
Context {V : Type}.
Notation mem := (@memory V).
Notation cell := (Z * option V)%type.
Implicit Types (m : mem) (A B C R S T : list cell).

Notation adrs := (map (@fst Z (option V))).

Lemma first_app n A B : first n (A ++ B) = first (first n B) A. Proof. now destruct A. Qed.
Lemma lst_app p A B : lst p (A ++ B) = lst (lst p A) B.
Proof. revert p. induction A as [|c A IH]; intros p; [reflexivity|]. cbn [app lst]. apply IH. Qed.
Lemma first_ne n n' C : C <> [] -> first n C = first n' C. Proof. destruct C; easy. Qed.
Lemma lst_ne p p' C : C <> [] -> lst p C = lst p' C. Proof. destruct C; easy. Qed.
Lemma lst_in p C : C <> [] -> In (lst p C) (adrs C).
Proof.
  revert p. induction C as [|c C IH]; intros p H; [easy|]. cbn [lst map]. destruct C as [|c' C]; [left; reflexivity|]. right. now apply IH.
Qed.
Lemma first_in n C : C <> [] -> In (first n C) (adrs C). Proof. destruct C; [easy|]. intros _. now left. Qed.
Lemma chain_app m p A B n : chain m p (A ++ B) n <-> chain m p A (first n B) /\ chain m (lst p A) B n.
Proof.
  revert p. induction A as [|c A IH]; intros p; [cbn; tauto|]. cbn [app chain lst]. rewrite IH, first_app. tauto.
Qed.
Lemma chain_frame m m' p C n : (forall z, In z (adrs C) -> m' z = m z) -> chain m p C n -> chain m' p C n.
Proof.
  revert p. induction C as [|c C IH]; intros p F; [easy|]. cbn [chain]. intros (N & E & H). split; [exact N|].
  split; [rewrite F; [exact E|now left]|]. apply IH; [|exact H]. intros z Hz. apply F. now right.
Qed.
Lemma nodup_app A B : NoDup (adrs (A ++ B)) <-> NoDup (adrs A) /\ NoDup (adrs B) /\ forall z, In z (adrs A) -> In z (adrs B) -> False.
Proof.
  induction A as [|c A IH]; cbn [app map]; [split; [intros H; repeat split; [constructor|exact H|easy]|tauto]|].
  rewrite !NoDup_cons_iff, IH, map_app, in_app_iff. split.
  - intros (N & NA & NB & D). repeat split; try tauto. intros z [<-|H] HB; [tauto|]. exact (D z H HB).
  - intros ((N & NA) & NB & D). repeat split; try tauto; [|intros z HA HB; apply (D z); [now right|exact HB]].
    intros [H|H]; [tauto|]. apply (D (fst c)); [now left|exact H].
Qed.
Lemma ring_chain m A B : A <> [] -> B <> [] -> ring m (A ++ B) <-> NoDup (adrs (A ++ B)) /\ chain m (lst 0 B) A (first 0 B) /\ chain m (lst 0 A) B (first 0 A).
Proof.
  intros NA NB. unfold ring. rewrite chain_app, lst_app, first_app. rewrite (lst_ne (lst 0 A) 0 B NB), (lst_ne (lst 0 B) 0 A NA), (first_ne (first 0 B) 0 A NA), (first_ne (first 0 A) 0 B NB).
  split; [tauto|]. intros H. split; [destruct A; easy|tauto].
Qed.
Lemma ring_rot m A B : ring m (A ++ B) -> ring m (B ++ A).
Proof.
  destruct A as [|a A]; [rewrite app_nil_r; easy|]. destruct B as [|b B]; [rewrite app_nil_r; easy|].
  rewrite !ring_chain by discriminate. intros (N & H1 & H2). split; [|split; assumption].
  apply (Permutation_NoDup (l := adrs ((a :: A) ++ b :: B))); [|exact N]. rewrite !map_app. apply Permutation_app_comm.
Qed.

Lemma get_ok m a (n : nd) : a <> 0 -> m a = Some n -> get m a = Some n.
Proof. intros H E. unfold get. destruct (Z.eqb_spec a 0); easy. Qed.
Lemma put_eq m a n : put m a n a = Some n. Proof. unfold put. now rewrite Z.eqb_refl. Qed.
Lemma put_ne m a n z : z <> a -> put m a n z = m z. Proof. intros H. unfold put. destruct (Z.eqb_spec z a); easy. Qed.
Lemma free_eq m a : free m a a = None. Proof. unfold free. now rewrite Z.eqb_refl. Qed.
Lemma free_ne m a z : z <> a -> free m a z = m z. Proof. intros H. unfold free. destruct (Z.eqb_spec z a); easy. Qed.

(** the links at the two ends of a chain *)
Lemma dec_first m p C n : C <> [] -> chain m p C n -> dec m (first 0 C) = Some p.
Proof. destruct C as [|c C]; [easy|]. intros _ (N & E & _). unfold dec. cbn [first]. now rewrite (get_ok _ _ _ N E). Qed.
Lemma inc_last m p C n : C <> [] -> chain m p C n -> inc m (lst 0 C) = Some n.
Proof.
  revert p. generalize 0 as q. induction C as [|c C IH]; intros q p H; [easy|]. intros (N & E & H'). cbn [lst]. destruct C as [|c' C].
  - cbn [lst]. unfold inc. now rewrite (get_ok _ _ _ N E).
  - now apply (IH (fst c) (fst c)).
Qed.
Lemma set_first m p C n p' : C <> [] -> NoDup (adrs C) -> chain m p C n ->
  exists m', set_prv m (first 0 C) p' = Some m' /\ chain m' p' C n /\ forall z, z <> first 0 C -> m' z = m z.
Proof.
  destruct C as [|c C]; [easy|]. intros _ ND (N & E & H). cbn [first]. unfold set_prv. rewrite (get_ok _ _ _ N E). cbn [obind nxt val].
  eexists. split; [reflexivity|]. split; [|intros z Hz; now apply put_ne]. cbn [chain]. split; [exact N|]. split; [apply put_eq|].
  apply chain_frame with (2 := H). intros z Hz. apply put_ne. intros ->. cbn [map] in ND. apply NoDup_cons_iff in ND. tauto.
Qed.
Lemma set_last m p C n n' : C <> [] -> NoDup (adrs C) -> chain m p C n ->
  exists m', set_nxt m (lst 0 C) n' = Some m' /\ chain m' p C n' /\ forall z, z <> lst 0 C -> m' z = m z.
Proof.
  revert p. generalize 0 as q. induction C as [|c C IH]; intros q p HN ND; [easy|]. intros (N & E & H). cbn [lst]. destruct C as [|c' C].
  - cbn [lst]. unfold set_nxt. rewrite (get_ok _ _ _ N E). cbn [obind]. eexists. split; [reflexivity|]. split; [|intros z Hz; now apply put_ne].
    cbn [chain]. split; [exact N|]. split; [apply put_eq|exact I].
  - cbn [map] in ND. apply NoDup_cons_iff in ND as [NI ND]. destruct (IH (fst c) (fst c) ltac:(discriminate) ND H) as (m' & E' & H' & F). exists m'. split; [exact E'|]. split; [|exact F].
    split; [exact N|]. split; [|exact H']. rewrite F; [exact E|]. intros Q. apply NI. rewrite Q. now apply lst_in.
Qed.

(** a stretch is taken out of a ring *)
Lemma unlink_ok m S R : S <> [] -> R <> [] -> ring m (S ++ R) ->
  exists m', unlink_nodes m (first 0 S) (lst 0 S) = Some m' /\ ring m' R /\ chain m' (lst 0 R) S (first 0 R) /\ forall z, ~ In z (adrs R) -> m' z = m z.
Proof.
  intros NS NR H. apply (ring_chain m S R NS NR) in H as (ND & HS & HR). apply nodup_app in ND as (ND1 & ND2 & D).
  unfold unlink_nodes. rewrite (dec_first m _ S _ NS HS). cbn [obind]. rewrite (inc_last m _ S _ NS HS). cbn [obind].
  destruct (set_last m _ R _ (first 0 R) NR ND2 HR) as (m1 & E1 & HR1 & F1). rewrite E1. cbn [obind].
  assert (HS1 : chain m1 (lst 0 R) S (first 0 R)). { apply chain_frame with (2 := HS). intros z Hz. apply F1. intros ->. apply (D _ Hz). now apply lst_in. }
  rewrite (inc_last m1 _ S _ NS HS1). cbn [obind]. rewrite (dec_first m1 _ S _ NS HS1). cbn [obind].
  destruct (set_first m1 _ R _ (lst 0 R) NR ND2 HR1) as (m2 & E2 & HR2 & F2). rewrite E2. exists m2. split; [reflexivity|]. split; [|split].
  - split; [exact NR|]. split; [exact ND2|exact HR2].
  - apply chain_frame with (2 := HS1). intros z Hz. apply F2. intros ->. apply (D _ Hz). now apply first_in.
  - intros z Hz. rewrite F2, F1; [reflexivity| |]; intros ->; apply Hz; [now apply lst_in|now apply first_in].
Qed.
(** a stretch is put in front of the first node of a ring *)
Lemma link_ok m S R p n : S <> [] -> ring m R -> chain m p S n -> NoDup (adrs (S ++ R)) ->
  exists m', link_nodes m (first 0 R) (first 0 S) (lst 0 S) = Some m' /\ ring m' (S ++ R) /\ forall z, ~ In z (adrs (S ++ R)) -> m' z = m z.
Proof.
  intros NS (NR & ND2 & HR) HS ND. pose proof ND as ND0. apply nodup_app in ND as (ND1 & _ & D).
  unfold link_nodes. rewrite (dec_first m _ R _ NR HR). cbn [obind].
  destruct (set_last m _ R _ (first 0 S) NR ND2 HR) as (m1 & E1 & HR1 & F1). rewrite E1. cbn [obind]. rewrite (dec_first m1 _ R _ NR HR1). cbn [obind].
  assert (HS1 : chain m1 p S n). { apply chain_frame with (2 := HS). intros z Hz. apply F1. intros ->. apply (D _ Hz). now apply lst_in. }
  destruct (set_first m1 _ S _ (lst 0 R) NS ND1 HS1) as (m2 & E2 & HS2 & F2). rewrite E2. cbn [obind].
  assert (HR2 : chain m2 (lst 0 R) R (first 0 S)). { apply chain_frame with (2 := HR1). intros z Hz. apply F2. intros ->. apply (D (first 0 S)); [now apply first_in|exact Hz]. }
  destruct (set_first m2 _ R _ (lst 0 S) NR ND2 HR2) as (m3 & E3 & HR3 & F3). rewrite E3. cbn [obind].
  assert (HS3 : chain m3 (lst 0 R) S n). { apply chain_frame with (2 := HS2). intros z Hz. apply F3. intros ->. apply (D _ Hz). now apply first_in. }
  destruct (set_last m3 _ S _ (first 0 R) NS ND1 HS3) as (m4 & E4 & HS4 & F4). rewrite E4. exists m4. split; [reflexivity|]. split.
  - apply (ring_chain m4 S R NS NR). split; [exact ND0|]. split; [exact HS4|]. apply chain_frame with (2 := HR3). intros z Hz. apply F4. intros ->. apply (D (lst 0 S)); [now apply lst_in|exact Hz].
  - intros z Hz. rewrite map_app, in_app_iff in Hz. rewrite F4, F3, F2, F1; [reflexivity| | | |]; intros ->; apply Hz; (right; now apply lst_in) || (left; now apply first_in) || (right; now apply first_in) || (left; now apply lst_in).
Qed.
Lemma link_front_ok m L S R p n : S <> [] -> ring m R -> lst 0 R = node L -> chain m p S n -> NoDup (adrs (S ++ R)) ->
  exists m', link_front m L (first 0 S) (lst 0 S) = Some m' /\ ring m' (S ++ R) /\ forall z, ~ In z (adrs (S ++ R)) -> m' z = m z.
Proof.
  intros NS (NR & ND2 & HR) EL HS ND. pose proof ND as ND0. apply nodup_app in ND as (ND1 & _ & D). unfold link_front. rewrite <- EL.
  destruct (set_first m _ S _ (lst 0 R) NS ND1 HS) as (m1 & E1 & HS1 & F1). rewrite E1. cbn [obind].
  assert (HR1 : chain m1 (lst 0 R) R (first 0 R)). { apply chain_frame with (2 := HR). intros z Hz. apply F1. intros ->. apply (D (first 0 S)); [now apply first_in|exact Hz]. }
  rewrite (inc_last m1 _ R _ NR HR1). cbn [obind].
  destruct (set_last m1 _ S _ (first 0 R) NS ND1 HS1) as (m2 & E2 & HS2 & F2). rewrite E2. cbn [obind]. rewrite (inc_last m2 _ S _ NS HS2). cbn [obind].
  assert (HR2 : chain m2 (lst 0 R) R (first 0 R)). { apply chain_frame with (2 := HR1). intros z Hz. apply F2. intros ->. apply (D (lst 0 S)); [now apply lst_in|exact Hz]. }
  destruct (set_first m2 _ R _ (lst 0 S) NR ND2 HR2) as (m3 & E3 & HR3 & F3). rewrite E3. cbn [obind].
  assert (HS3 : chain m3 (lst 0 R) S (first 0 R)). { apply chain_frame with (2 := HS2). intros z Hz. apply F3. intros ->. apply (D _ Hz). now apply first_in. }
  destruct (set_last m3 _ R _ (first 0 S) NR ND2 HR3) as (m4 & E4 & HR4 & F4). rewrite E4. exists m4. split; [reflexivity|]. split.
  - apply (ring_chain m4 S R NS NR). split; [exact ND0|]. split; [|exact HR4]. apply chain_frame with (2 := HS3). intros z Hz. apply F4. intros ->. apply (D _ Hz). now apply lst_in.
  - intros z Hz. rewrite map_app, in_app_iff in Hz. rewrite F4, F3, F2, F1; [reflexivity| | | |]; intros ->; apply Hz; (right; now apply lst_in) || (left; now apply first_in) || (right; now apply first_in) || (left; now apply lst_in).
Qed.
Lemma link_back_ok m L S R p n : S <> [] -> ring m R -> first 0 R = node L -> chain m p S n -> NoDup (adrs (S ++ R)) ->
  exists m', link_back m L (first 0 S) (lst 0 S) = Some m' /\ ring m' (S ++ R) /\ forall z, ~ In z (adrs (S ++ R)) -> m' z = m z.
Proof.
  intros NS (NR & ND2 & HR) EL HS ND. pose proof ND as ND0. apply nodup_app in ND as (ND1 & _ & D). unfold link_back. rewrite <- EL.
  destruct (set_last m _ S _ (first 0 R) NS ND1 HS) as (m1 & E1 & HS1 & F1). rewrite E1. cbn [obind].
  assert (HR1 : chain m1 (lst 0 R) R (first 0 R)). { apply chain_frame with (2 := HR). intros z Hz. apply F1. intros ->. apply (D (lst 0 S)); [now apply lst_in|exact Hz]. }
  rewrite (dec_first m1 _ R _ NR HR1). cbn [obind].
  destruct (set_first m1 _ S _ (lst 0 R) NS ND1 HS1) as (m2 & E2 & HS2 & F2). rewrite E2. cbn [obind]. rewrite (dec_first m2 _ S _ NS HS2). cbn [obind].
  assert (HR2 : chain m2 (lst 0 R) R (first 0 R)). { apply chain_frame with (2 := HR1). intros z Hz. apply F2. intros ->. apply (D (first 0 S)); [now apply first_in|exact Hz]. }
  destruct (set_last m2 _ R _ (first 0 S) NR ND2 HR2) as (m3 & E3 & HR3 & F3). rewrite E3. cbn [obind].
  assert (HS3 : chain m3 (lst 0 R) S (first 0 R)). { apply chain_frame with (2 := HS2). intros z Hz. apply F3. intros ->. apply (D _ Hz). now apply lst_in. }
  destruct (set_first m3 _ R _ (lst 0 S) NR ND2 HR3) as (m4 & E4 & HR4 & F4). rewrite E4. exists m4. split; [reflexivity|]. split.
  - apply (ring_chain m4 S R NS NR). split; [exact ND0|]. split; [|exact HR4]. apply chain_frame with (2 := HS3). intros z Hz. apply F4. intros ->. apply (D _ Hz). now apply first_in.
  - intros z Hz. rewrite map_app, in_app_iff in Hz. rewrite F4, F3, F2, F1; [reflexivity| | | |]; intros ->; apply Hz; (right; now apply lst_in) || (left; now apply first_in) || (right; now apply first_in) || (left; now apply lst_in).
Qed.
End Proof.
