(** Proofs about the era table (OBB::getNH). *)
From Coq Require Import ZArith Lia Bool List Ascii String.
From Verif Require Import F64 F64R Str DecSpec ItoaModel ItoaProof StrModel StrSpec StrProof SsqModel ObTab ObSpec ObModel.
Import ListNotations.
Open Scope Z_scope.
Open Scope opt_scope.

(** the numbers of an era are ints and so are the sums the code forms *)
Definition era_wf (e : era) : Prop :=
  int_min <= e_start e /\ 0 <= e_years e /\ 0 <= e_used e /\ e_start e + e_years e <= int_max /\ e_years e + e_used e <= int_max.

Lemma at_0 {A : Type} (x : A) l : at_ (x :: l) 0 = Some x.
Proof. reflexivity. Qed.

Lemma era_entry_nonempty y e t : era_entry y e t -> t <> [].
Proof. intros (n & _ & ->) E. discriminate E. Qed.
Lemma join_snoc c l x : l <> [] -> join c (l ++ [x]) = join c l ++ c :: x.
Proof.
  induction l as [|a l IH]; intros N; [congruence|]. destruct l as [|b l]; [reflexivity|].
  cbn [app] in *. change (join c (a :: b :: l ++ [x])) with (a ++ c :: join c (b :: l ++ [x])).
  rewrite IH by discriminate. change (join c (a :: b :: l)) with (a ++ c :: join c (b :: l)). rewrite <- app_assoc. reflexivity.
Qed.
Lemma join_nil c l : Forall (fun t => t <> []) l -> join c l = [] -> l = [].
Proof.
  intros F E. destruct l as [|a l]; [reflexivity|]. inversion F as [|? ? N _]; subst. destruct l as [|b l].
  - cbn in E. congruence.
  - change (a ++ c :: join c (b :: l) = []) in E. destruct a; discriminate E.
Qed.

Lemma nh_loop_ok y es : int_min <= y <= int_max -> Forall era_wf es -> forall fs, Forall2 era_fields es fs ->
  forall fuel done, (List.length (List.concat fs) < fuel)%nat -> Forall (fun t => t <> []) done ->
  exists ts, Forall2 (era_entry y) (filter (e_covers y) es) ts /\
    nh_loop fuel y (List.concat fs) false (join ";" done) = Some (false, join ";" (done ++ ts)).
Proof.
  intros Hy. induction es as [|e es IH]; intros W fs F fuel done L N.
  - inversion F; subst. destruct fuel; [cbn in L; lia|]. exists []. rewrite app_nil_r. split; [constructor|reflexivity].
  - inversion W as [|? ? W1 W2]; subst. inversion F as [|? l ? fs' F1 F2]; subst.
    destruct F1 as (a & b & c & A & Bb & C & ->). cbn [List.concat app] in *.
    destruct fuel as [|fuel]; [cbn in L; lia|]. cbn [List.length] in L.
    assert (L' : (List.length (List.concat fs') < fuel)%nat) by lia.
    destruct W1 as (V1 & V2 & V3 & V4 & V5). unfold int_min, int_max in *.
    cbn [nh_loop]. rewrite (my_stoi_text _ _ A) by (unfold int_min, int_max; lia).
    cbn [filter]. unfold e_covers at 1. rewrite Z.leb_antisym. destruct (Z.ltb_spec y (e_start e)) as [L1|L1].
    { cbn [negb andb]. apply (IH W2 _ F2); assumption. }
    change (at_ (a :: b :: ?x) 1) with (Some b). cbn [obind negb andb].
    rewrite (my_stoi_text _ _ Bb) by (unfold int_min, int_max; lia).
    rewrite mk_int_in by (unfold int_min, int_max; lia). cbn [obind].
    rewrite Z.ltb_antisym. destruct (Z.leb_spec (e_start e + e_years e) y) as [L2|L2].
    { cbn [negb]. apply (IH W2 _ F2); assumption. }
    cbn [negb].
    repeat match goal with
    | |- context [at_ (?z :: ?x) 6] => change (at_ (z :: x) 6) with (Some (e_name e))
    | |- context [at_ (?z :: ?x) 5] => change (at_ (z :: x) 5) with (Some (e_emperor e))
    | |- context [at_ (?z :: ?x) 4] => change (at_ (z :: x) 4) with (Some (e_temple e))
    | |- context [at_ (?z :: ?x) 3] => change (at_ (z :: x) 3) with (Some (e_dynasty e))
    | |- context [at_ (?z :: ?x) 2] => change (at_ (z :: x) 2) with (Some c)
    end. cbn [obind].
    rewrite (my_stoi_text _ _ C) by (unfold int_min, int_max; lia).
    rewrite mk_int_in by (unfold int_min, int_max; lia). cbn [obind].
    rewrite mk_int_in by (unfold int_min, int_max; lia). cbn [obind].
    rewrite mk_int_in by (unfold int_min, int_max; lia). cbn [obind].
    destruct (to_str_int_ok 32 (y - e_start e + 1 + e_used e) ltac:(now left)) as (n & E & T & _).
    { change (2 ^ (32 - 1)) with 2147483648. change (2 ^ 32) with 4294967296. lia. }
    change (to_str (y - e_start e + 1 + e_used e)) with (to_str_int 32 (y - e_start e + 1 + e_used e) 0 false). rewrite E. cbn [obind].
    set (t := B "[" ++ e_dynasty e ++ B "]" ++ e_temple e ++ B " " ++ e_emperor e ++ B " " ++ e_name e ++ n ++ B "年").
    assert (Et : era_entry y e t) by (exists n; split; [exact T|reflexivity]).
    destruct (IH W2 fs' F2 fuel (done ++ [t]) L') as (ts & F3 & R).
    { apply Forall_app. split; [exact N|]. constructor; [exact (era_entry_nonempty _ _ _ Et)|constructor]. }
    exists (t :: ts). split; [constructor; assumption|].
    replace (done ++ t :: ts) with ((done ++ [t]) ++ ts) by (rewrite <- app_assoc; reflexivity). rewrite <- R.
    change (skipn 7 (a :: ?x)) with (List.concat fs').
    f_equal. fold t. destruct done as [|x done']; [reflexivity|].
    rewrite join_snoc by discriminate. destruct (join ";" (x :: done')) eqn:J; [|reflexivity].
    apply join_nil in J; [discriminate J|exact N].
Qed.

(** the fields of an era as texts *)
Definition num_text (x : Z) : bytes := match to_str x with Some t => t | None => [] end.
Definition fields_of (e : era) : list bytes :=
  [num_text (e_start e); num_text (e_years e); num_text (e_used e); e_dynasty e; e_temple e; e_emperor e; e_name e].
Lemma num_text_ok x : int_min <= x <= int_max -> int_text x (num_text x).
Proof.
  unfold int_min, int_max. intros H. destruct (to_str_int_ok 32 x ltac:(now left)) as (n & E & T & _).
  { change (2 ^ (32 - 1)) with 2147483648. change (2 ^ 32) with 4294967296. lia. }
  unfold num_text, to_str. rewrite E. exact T.
Qed.
Lemma fields_of_ok e : era_wf e -> era_fields e (fields_of e).
Proof.
  intros (V1 & V2 & V3 & V4 & V5). unfold int_min, int_max in *. exists (num_text (e_start e)), (num_text (e_years e)), (num_text (e_used e)).
  repeat split; apply num_text_ok; unfold int_min, int_max; lia.
Qed.
Lemma fields_all es : Forall era_wf es -> Forall2 era_fields es (map fields_of es).
Proof. induction 1; cbn [map]; constructor; [now apply fields_of_ok|assumption]. Qed.
Definition era_wfb (e : era) : bool :=
  (int_min <=? e_start e) && (0 <=? e_years e) && (0 <=? e_used e) && (e_start e + e_years e <=? int_max) && (e_years e + e_used e <=? int_max).
Lemma era_wfb_ok es : forallb era_wfb es = true -> Forall era_wf es.
Proof.
  intros H. apply Forall_forall. intros e He. rewrite forallb_forall in H. specialize (H e He).
  unfold era_wfb in H. rewrite !andb_true_iff, !Z.leb_le in H. unfold era_wf. tauto.
Qed.
Fixpoint lbeq (a b : list bytes) : bool :=
  match a, b with [], [] => true | x :: a, y :: b => beq x y && lbeq a b | _, _ => false end.
Lemma lbeq_eq a : forall b, lbeq a b = true -> a = b.
Proof.
  induction a as [|x a IH]; intros [|y b] H; try discriminate H; [reflexivity|]. cbn in H. apply andb_prop in H. destruct H as [H1 H2].
  apply beq_eq in H1. apply IH in H2. congruence.
Qed.

(** with errno set the first conversion throws *)
Lemma getNH_stale es fs y : Forall era_wf es -> Forall2 era_fields es fs -> es <> [] -> getNH (List.concat fs) y true = None.
Proof.
  intros W F N. destruct F as [|e l es fs' F1 F2]; [congruence|]. inversion W as [|? ? W1 W2]; subst.
  destruct F1 as (a & b & c & A & _ & _ & ->). destruct W1 as (V1 & V2 & V3 & V4 & V5). unfold int_min, int_max in *.
  unfold getNH. cbn [List.concat app List.length nh_loop].
  rewrite (my_stoi_stale _ _ A) by (unfold int_min, int_max; lia). reflexivity.
Qed.
