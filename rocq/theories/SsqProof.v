(** Proofs about jieya and the leap month rule. *)
From Coq Require Import ZArith Lia Bool List Ascii String Permutation.
From Verif Require Import F64 Str StrModel StrSpec StrProof FmtModel SsqTab SsqModel SsqSpec.
Import ListNotations.
Open Scope Z_scope.

(** ** jieya *)
Fixpoint lk (rules : list (ascii * bytes)) (x : ascii) : bytes :=
  match rules with
  | [] => [x]
  | (c, d) :: rules => if Ascii.eqb x c then d else lk rules x
  end.
Lemma subst1_flat c d s : subst1 c d s = flat_map (fun x => if Ascii.eqb x c then d else [x]) s.
Proof. reflexivity. Qed.
Lemma flat_map_flat_map {A C D} (f : C -> list D) (g : A -> list C) l : flat_map f (flat_map g l) = flat_map (fun x => flat_map f (g x)) l.
Proof. induction l as [|x l IH]; [reflexivity|]. cbn. now rewrite flat_map_app, IH. Qed.
Lemma flat_map_ext' {A C} (f g : A -> list C) l : (forall x, In x l -> f x = g x) -> flat_map f l = flat_map g l.
Proof. induction l as [|x l IH]; [easy|]. intros H. cbn. rewrite H by now left. rewrite IH; [easy|]. intros; apply H; now right. Qed.
Lemma lk_other rules x : ~ In x (map fst rules) -> lk rules x = [x].
Proof.
  induction rules as [|[c d] rules IH]; [easy|]. cbn. intros H. destruct (Ascii.eqb_spec x c) as [->|]; [exfalso; apply H; now left|].
  apply IH. intros ?; apply H; now right.
Qed.
Lemma lk_key rules c d : NoDup (map fst rules) -> In (c, d) rules -> lk rules c = d.
Proof.
  induction rules as [|[c' d'] rules IH]; [easy|]. cbn [map fst lk]. intros N [E|H].
  - injection E as -> ->. now rewrite Ascii.eqb_refl.
  - inversion N as [|? ? N1 N2]; subst. destruct (Ascii.eqb_spec c c') as [->|]; [|now apply IH].
    exfalso. apply N1. now apply (in_map fst) in H.
Qed.
(** no expansion contains a key letter *)
Definition clean (rules : list (ascii * bytes)) : Prop :=
  NoDup (map fst rules) /\ forall c d x, In (c, d) rules -> In x d -> ~ In x (map fst rules).

Lemma flat_map_id (d : bytes) (f : ascii -> bytes) : (forall x, In x d -> f x = [x]) -> flat_map f d = d.
Proof. induction d as [|x d IH]; [easy|]. intros H. cbn. rewrite H by now left. cbn. rewrite IH; [easy|]. intros; apply H; now right. Qed.

Lemma replace_all_ok rules : clean rules -> forall s r, replace_all rules s r <-> r = flat_map (lk rules) s.
Proof.
  induction rules as [|[c d] rules IH]; intros [N C] s r.
  - cbn [replace_all]. assert (E : flat_map (lk []) s = s) by (apply flat_map_id; easy). rewrite E. easy.
  - inversion N as [|? ? N1 N2]; subst.
    assert (C' : clean rules).
    { split; [exact N2|]. intros c1 d1 x H1 H2 H3. apply (C c1 d1 x); [now right|exact H2|now right]. }
    assert (E : flat_map (lk rules) (subst1 c d s) = flat_map (lk ((c, d) :: rules)) s).
    { rewrite subst1_flat, flat_map_flat_map. apply flat_map_ext'. intros x _. cbn [lk].
      destruct (Ascii.eqb_spec x c) as [->|].
      - apply flat_map_id. intros x H. apply lk_other. intros H'. apply (C c d x); [now left|exact H|now right].
      - cbn. apply app_nil_r. }
    cbn [replace_all]. split.
    + intros (m & H1 & H2). rewrite (string_replace_det _ _ _ _ _ H1 (string_replace_one c d s)) in H2.
      apply (IH C') in H2. now rewrite H2, E.
    + intros ->. exists (subst1 c d s). split; [apply string_replace_one|]. apply (IH C'). now rewrite E.
Qed.

Lemma expands_ok rules : NoDup (map fst rules) -> forall s r, expands rules s r <-> r = flat_map (lk rules) s.
Proof.
  intros N s. induction s as [|c s IH]; intros r.
  - split; [intros H; now inversion H|intros ->; constructor].
  - split.
    + intros H. inversion H as [|? d ? r' H1 H2|? ? r' H1 H2]; subst; cbn; rewrite <- (proj1 (IH r') H2).
      * now rewrite (lk_key _ _ _ N H1).
      * now rewrite lk_other.
    + intros ->. cbn. destruct (in_dec Ascii.ascii_dec c (map fst rules)) as [H|H].
      * apply in_map_iff in H as ([c' d] & E & H). cbn in E. subst c'. rewrite (lk_key _ _ _ N H).
        constructor; [exact H|]. now apply IH.
      * rewrite lk_other by exact H. cbn [app]. constructor; [exact H|]. now apply IH.
Qed.

Lemma expands_perm rules rules' s r : Permutation rules rules' -> expands rules s r -> expands rules' s r.
Proof.
  intros P. induction 1 as [|c d s r H _ IH|c s r H _ IH]; [constructor| |].
  - constructor; [|exact IH]. now apply (Permutation_in _ P).
  - constructor; [|exact IH]. intros H'. apply H. apply (Permutation_in _ (Permutation_map fst (Permutation_sym P))). exact H'.
Qed.
Lemma clean_perm rules rules' : Permutation rules rules' -> clean rules -> clean rules'.
Proof.
  intros P [N C]. split.
  - exact (Permutation_NoDup (Permutation_map fst P) N).
  - intros c d x H1 H2 H3. apply (C c d x); [now apply (Permutation_in _ (Permutation_sym P))|exact H2|].
    exact (Permutation_in _ (Permutation_map fst (Permutation_sym P)) H3).
Qed.
(** decidable form for the shipped rules *)
Definition nodupb (l : list ascii) : bool :=
  (fix go l := match l with [] => true | x :: l => negb (existsb (Ascii.eqb x) l) && go l end) l.
Lemma existsb_In x l : existsb (Ascii.eqb x) l = true <-> In x l.
Proof.
  rewrite existsb_exists. split; [intros (y & H & E); apply Ascii.eqb_eq in E; now subst|].
  intros H. exists x. split; [exact H|apply Ascii.eqb_refl].
Qed.
Lemma nodupb_ok l : nodupb l = true -> NoDup l.
Proof.
  induction l as [|x l IH]; [constructor|]. cbn. rewrite andb_true_iff, negb_true_iff. intros [H1 H2].
  constructor; [|now apply IH]. rewrite <- existsb_In. congruence.
Qed.
Definition cleanb (rules : list (ascii * bytes)) : bool :=
  nodupb (map fst rules) && forallb (fun p => forallb (fun x => negb (existsb (Ascii.eqb x) (map fst rules))) (snd p)) rules.
Lemma cleanb_ok rules : cleanb rules = true -> clean rules.
Proof.
  unfold cleanb. rewrite andb_true_iff. intros [H1 H2]. split; [now apply nodupb_ok|].
  intros c d x I1 I2. rewrite forallb_forall in H2. specialize (H2 _ I1). cbn [snd] in H2.
  rewrite forallb_forall in H2. specialize (H2 _ I2). rewrite <- existsb_In. rewrite negb_true_iff in H2. congruence.
Qed.
Lemma jieya_clean : clean jieya_rules.
Proof. apply cleanb_ok. vm_compute. reflexivity. Qed.

Definition expanded (type : Z) : bytes := flat_map (lk jieya_rules) (if type =? 0 then qiS else suoS).
Lemma jieya_is type r : jieya type r <-> r = expanded type.
Proof. apply (replace_all_ok _ jieya_clean). Qed.

(** ** Leap month *)
Lemma at_some {A} (l : list A) i : 0 <= i < Z.of_nat (List.length l) -> exists x, at_ l i = Some x.
Proof.
  intros H. unfold at_. destruct (Z.leb_spec 0 i); [|lia]. destruct (nth_error l (Z.to_nat i)) eqn:E; [eauto|].
  apply nth_error_None in E. lia.
Qed.
Definition tab (l : list Z) (i : Z) : Z := nth (Z.to_nat i) l 0.
Lemma at_tab l i : 0 <= i < Z.of_nat (List.length l) -> at_ l i = Some (tab l i).
Proof.
  intros H. unfold at_, tab. destruct (Z.leb_spec 0 i); [|lia]. apply nth_error_nth'. lia.
Qed.

Lemma leap_loop_ok (A B : list Z) fuel i : List.length A = 25%nat -> List.length B = 15%nat ->
  tab B 13 <= tab A 24 -> 1 <= i <= 12 -> 13 - i <= Z.of_nat fuel ->
  exists k, leap_loop fuel A B i = Some k /\ i <= k <= 12 /\ tab B (k + 1) <= tab A (2 * k) /\
    (forall j, i <= j < k -> tab A (2 * j) < tab B (j + 1)).
Proof.
  intros LA LB H. revert i. induction fuel as [|fuel IH]; intros i Hi Hf; [lia|]. cbn [leap_loop].
  rewrite (at_tab B) by lia. cbn [obind]. rewrite (at_tab A) by lia. cbn [obind].
  destruct (Z.ltb_spec (tab A (2 * i)) (tab B (i + 1))) as [L|L]; cbn [andb].
  - destruct (Z.ltb_spec i 13); [|lia].
    destruct (Z.eq_dec i 12) as [->|].
    { exfalso. change (2 * 12) with 24 in L. change (12 + 1) with 13 in L. lia. }
    destruct (IH (i + 1) ltac:(lia) ltac:(lia)) as (k & E & K1 & K2 & K3). exists k. split; [exact E|]. split; [lia|].
    split; [exact K2|]. intros j Hj. destruct (Z.eq_dec j i) as [->|]; [exact L|]. apply K3. lia.
  - exists i. split; [reflexivity|]. split; [lia|]. split; [exact L|]. intros j Hj. lia.
Qed.

Lemma B_mono (A B : Z -> Z) : natural A B -> forall i j, 0 <= i <= j -> j <= 14 -> 29 * (j - i) <= B j - B i <= 30 * (j - i).
Proof.
  intros (HB & _) i j Hi Hj. replace j with (i + Z.of_nat (Z.to_nat (j - i))) in * by lia.
  induction (Z.to_nat (j - i)) as [|n IH]; [rewrite Z.add_0_r; lia|].
  specialize (IH ltac:(lia) ltac:(lia)). specialize (HB (i + Z.of_nat n) ltac:(lia)).
  replace (i + Z.of_nat n + 1) with (i + Z.of_nat (S n)) in HB by lia. lia.
Qed.
Lemma A_mono (A B : Z -> Z) : natural A B -> forall i j, 0 <= i <= j -> j <= 12 -> 29 * (j - i) <= A (2 * j) - A (2 * i) <= 32 * (j - i).
Proof.
  intros (_ & HA & _) i j Hi Hj. replace j with (i + Z.of_nat (Z.to_nat (j - i))) in * by lia.
  induction (Z.to_nat (j - i)) as [|n IH]; [rewrite Z.add_0_r; lia|].
  specialize (IH ltac:(lia) ltac:(lia)). specialize (HA (i + Z.of_nat n) ltac:(lia)).
  replace (2 * (i + Z.of_nat n) + 2) with (2 * (i + Z.of_nat (S n))) in HA by lia. lia.
Qed.

(** the month found has no major term; every earlier month from 1 on has exactly its own *)
Lemma leap_meaning A B k : natural A B -> thirteen A B -> 1 <= k <= 12 -> B (k + 1) <= A (2 * k) ->
  (forall j, 1 <= j < k -> A (2 * j) < B (j + 1)) ->
  ~ has_major A B k /\ (forall j, 0 <= j < k -> has_major A B j).
Proof.
  intros N T Hk L F. pose proof (B_mono A B N) as BM. pose proof (A_mono A B N) as AM.
  destruct N as (NB & NA & NY & N0). unfold thirteen, in_month in *.
  assert (A0B0 : A 0 - B 0 >= 11) by (pose proof (BM 0 13 ltac:(lia) ltac:(lia)); lia).
  split.
  - intros (j & Hj & H1 & H2). destruct (Z_lt_le_dec j k) as [C|C].
    + destruct (Z.eq_dec j 0) as [->|].
      * pose proof (BM 1 k ltac:(lia) ltac:(lia)). change (0 + 1) with 1 in *. change (2 * 0) with 0 in *. lia.
      * pose proof (F j ltac:(lia)). pose proof (BM (j + 1) k ltac:(lia) ltac:(lia)). lia.
    + pose proof (AM k j ltac:(lia) ltac:(lia)). lia.
  - intros j Hj. exists j. split; [lia|]. split.
    + pose proof (BM 0 j ltac:(lia) ltac:(lia)). pose proof (AM 0 j ltac:(lia) ltac:(lia)). change (2 * 0) with 0 in *. lia.
    + destruct (Z.eq_dec j 0) as [->|]; [exact (proj2 N0)|]. apply F. lia.
Qed.
