(** Property C85: the kind of a solar eclipse always has a name in the table, and what the names say. *)
From Coq Require Import String Ascii ZArith List Bool Lia Sorted SpecFloat.
From Verif Require Import F64 SortSpec RbModel RbSpec RbClient RbProof RbUnlink RbHold RbOps RbHint RbDel RbFind RbRun LxbModel.
Import ListNotations.
Open Scope Z_scope.
Open Scope opt_scope.
Local Open Scope string_scope.

(** ** the order of strings *)
Lemma ascii_lt_trans a b c : Ascii.compare a b = Lt -> Ascii.compare b c = Lt -> Ascii.compare a c = Lt.
Proof. unfold Ascii.compare. rewrite !N.compare_lt_iff. lia. Qed.
Lemma ascii_refl a : Ascii.compare a a = Eq.
Proof. unfold Ascii.compare. apply N.compare_refl. Qed.
Lemma str_refl s : String.compare s s = Eq.
Proof. induction s as [|a s IH]; simpl; [reflexivity|]. now rewrite ascii_refl. Qed.
Lemma str_lt_trans : forall s1 s2 s3, String.compare s1 s2 = Lt -> String.compare s2 s3 = Lt -> String.compare s1 s3 = Lt.
Proof.
  induction s1 as [|a s1 IH]; intros [|b s2] [|c s3]; simpl; try discriminate; auto. intros H1 H2.
  destruct (Ascii.compare a b) eqn:Q1; [|destruct (Ascii.compare b c) eqn:Q2|discriminate].
  - apply Ascii.compare_eq_iff in Q1. subst b. destruct (Ascii.compare a c); [eauto|reflexivity|discriminate].
  - apply Ascii.compare_eq_iff in Q2. subst c. now rewrite Q1.
  - now rewrite (ascii_lt_trans _ _ _ Q1 Q2).
  - discriminate.
Qed.
Lemma str_ltb s1 s2 : String.ltb s1 s2 = true <-> String.compare s1 s2 = Lt.
Proof. unfold String.ltb. destruct (String.compare s1 s2); split; congruence. Qed.
Lemma str_eq s1 s2 : String.ltb s1 s2 = false -> String.ltb s2 s1 = false -> s1 = s2.
Proof. unfold String.ltb. rewrite (String.compare_antisym s2 s1). destruct (String.compare s1 s2) eqn:Q; simpl; try discriminate. intros _ _. now apply String.compare_eq_iff. Qed.
Lemma sw_str : strict_weak String.ltb.
Proof.
  constructor.
  - intros s. unfold String.ltb. now rewrite str_refl.
  - intros s1 s2 s3 H1 H2. apply str_ltb in H1, H2. apply str_ltb. now apply (str_lt_trans _ s2).
  - intros s1 s2 s3 H. destruct (String.ltb s1 s2) eqn:Q; [auto|]. right. apply str_ltb. apply str_ltb in H. unfold String.ltb in Q. destruct (String.compare s1 s2) eqn:Q2; [|discriminate|].
    + apply String.compare_eq_iff in Q2. now subst.
    + assert (Q3 : String.compare s2 s1 = Lt) by (rewrite String.compare_antisym, Q2; reflexivity). now apply (str_lt_trans _ s1).
Qed.

(** the names the table must give, here once more so that a slip in the source table is seen *)
Definition names : list (string * string) :=
  [("P", "偏食"); ("T", "全食"); ("T0", "无中心全食"); ("T1", "部分本影有中心全食"); ("A", "环食"); ("A0", "无中心环食"); ("A1", "部分伪本影有中心全食");
   ("H", "全环全"); ("H2", "全全环"); ("H3", "环全全")].
(** the name of a kind: the text beside it in the list, the empty text if it is not there *)
Definition name_of (lx : string) : string := match List.find (fun x => String.eqb (fst x) lx) names with Some x => snd x | None => EmptyString end.
(** the table is made and read without error, wherever the allocator puts the nodes, and gives every name as listed *)
Theorem C85_names (m0 : memory) h al a lx : NoDup (h :: a :: al) -> ~ In 0 (h :: a :: al) -> Forall (fun x => m0 x = None) (h :: a :: al) -> length al = 10%nat ->
  exists m o, lxb_make m0 h al = Some (m, o) /\ lxb_read m o a lx = Some (name_of lx).
Proof.
  intros D N0 F L. assert (H0 : h <> 0) by (intros ->; apply N0; now left). assert (A0 : a <> 0) by (intros ->; apply N0; right; now left).
  inversion D as [|? ? Dh D1]; subst. inversion D1 as [|? ? Da D2]; subst. rewrite Forall_forall in F.
  destruct (init_ok m0 h H0) as (m1 & E1 & H1); [apply F; now left|]. unfold lxb_make. rewrite E1. cbn [obind].
  assert (M1 : forall z, z <> h -> m1 z = m0 z). { unfold init in E1. rewrite (proj2 (Z.eqb_neq _ _) H0) in E1. rewrite (F h (or_introl eq_refl)) in E1. injection E1 as <-. intros z Hz. now apply put_ne. }
  destruct al as [|a1 [|a2 [|a3 [|a4 [|a5 [|a6 [|a7 [|a8 [|a9 [|a10 [|]]]]]]]]]]]; try discriminate. clear L.
  assert (FR : forall z, In z [a1; a2; a3; a4; a5; a6; a7; a8; a9; a10] -> z <> 0 /\ m1 z = None).
  { intros z I. split; [intros ->; apply N0; right; now right|]. rewrite M1; [apply F; right; now right|]. intros ->. apply Dh. now right. }
  set (q := combine _ _).
  destruct (insert_range_ok String.ltb ekey sw_str m0 q m1 (mkObj h 0) [] H1 ltac:(constructor)) as (m2 & o2 & E2 & O2 & H2 & S2).
  { unfold q. apply Forall_forall. intros [z w] I. cbn [fst]. apply FR. now apply in_combine_l in I. }
  { exact D2. }
  exists m2, o2. split; [exact E2|]. set (e := added_all String.ltb ekey [] q) in *.
  assert (Ma : m2 a = None).
  { apply (holds_free m2 m0 o2 e a H2); [apply F; right; now left|exact A0|rewrite O2; cbn [hdr]; intros ->; apply Dh; now left|].
    unfold e, q. vm_compute added_all. cbn [ac]. rewrite !one_ne; [reflexivity| | | | | | | | | |]; intros ->; apply Da; simpl; tauto. }
  unfold lxb_read. destruct (map_index_ok String.ltb ekey sw_str m2 m0 o2 e a (lx, EmptyString) H2 S2 A0 Ma) as (m3 & o3 & p & E3 & O3 & H3 & P3). cbn [ekey fst] in E3, H3, P3.
  rewrite E3. cbn [obind].
  assert (VAL : forall e1 w e2, (if has String.ltb ekey lx e then e else added String.ltb ekey a (lx, EmptyString) e) = (e1 ++ (p, w) :: e2)%list -> (let* n := get m3 p in let* v := val n in Some (snd v)) = Some (snd w)).
  { intros e1 w e2 Q. rewrite Q in H3. destruct (holds_value _ _ _ _ _ _ _ H3) as (n & -> & Hv). cbn [obind]. rewrite Hv. reflexivity. }
  pose proof (strictly_weakly String.ltb ekey sw_str e S2) as S2'.
  change (ekey (lx, "")) with lx in *.
  destruct (same String.ltb ekey lx e) as [|[x w] r] eqn:Q.
  - cbn [head] in P3. subst p. rewrite (proj2 (has_same String.ltb ekey lx e) Q) in VAL. unfold added in VAL. rewrite (VAL _ _ _ eq_refl). cbn [snd]. f_equal. unfold name_of.
    destruct (List.find (fun x => (fst x =? lx)%string) names) as [[k0 n0]|] eqn:Q2; [|reflexivity]. exfalso. apply find_some in Q2 as [I Q2]. apply String.eqb_eq in Q2. cbn [fst] in Q2. subst k0.
    apply has_same in Q. apply has_false in Q. rewrite Forall_forall in Q.
    assert (X : exists z, In (z, (lx, n0)) e).
    { clear - I. unfold e, q. vm_compute added_all. simpl in I. repeat (destruct I as [I|I]; [injection I as <- <-; eexists; simpl; tauto|]). contradiction. }
    destruct X as (z & I2). specialize (Q _ I2). unfold equiv, keyof, ekey in Q. cbn [snd fst] in Q. rewrite (sw_irr _ sw_str) in Q. discriminate.
  - cbn [head] in P3. subst p. assert (J : In (x, w) (same String.ltb ekey lx e)) by (rewrite Q; now left). apply filter_In in J as [J1 J2].
    assert (Hh : has String.ltb ekey lx e = true) by (destruct (has String.ltb ekey lx e) eqn:Hh; [reflexivity|apply has_same in Hh; congruence]). rewrite Hh in VAL.
    rewrite (three String.ltb ekey sw_str lx e S2'), Q in VAL. rewrite (VAL _ _ _ eq_refl). f_equal.
    apply andb_true_iff in J2 as [J2 J3]. apply negb_true_iff in J2, J3. pose proof (str_eq _ _ J2 J3) as J4. unfold keyof, ekey in J4. cbn [snd] in J4. subst lx.
    clear - J1. unfold e, q in J1. vm_compute added_all in J1. simpl in J1. repeat (destruct J1 as [J1|J1]; [injection J1 as _ <-; reflexivity|]). contradiction.
Qed.
(** every kind but "N" (which is not printed with the table) has a name *)
Theorem C85_every_kind central d r1c ar2c sfc ar2p sfp sf2 sf3 : let lx := kind central d r1c ar2c sfc ar2p sfp sf2 sf3 in
  lx = "N" \/ (In lx (map fst lxb) /\ name_of lx <> EmptyString).
Proof.
  cbv zeta. unfold kind. destruct (negb central).
  - destruct (fgtb d (fadd _ r1c)); [auto|]. right. destruct (fgtb d (fadd _ ar2c)); [|destruct (fltb sfc (fZ 1))]; (split; [simpl; tauto|discriminate]).
  - right. destruct (fgtb d (fsub _ ar2p)); [destruct (fltb sfp (fZ 1)); (split; [simpl; tauto|discriminate])|]. destruct (fgeb sfp (fZ 1)); [|split; [simpl; tauto|discriminate]]. cbv zeta.
    destruct (fgtb sf2 (fZ 1)), (fgtb sf3 (fZ 1)); (split; [simpl; tauto|discriminate]).
Qed.
(** where the whole umbra falls on the Earth, the three signs of a mixed name should be the kinds at the beginning, the middle and the end:
    total where the magnitude is over 1 *)
Definition total : string := "全".
Definition annular : string := "环".
Definition sign (sf : f64) : string := if fgtb sf (fZ 1) then total else annular.
(** so it is for H2 and H3 *)
Theorem C85_mixed_names d r1c ar2c sfc ar2p sfp sf2 sf3 : let lx := kind true d r1c ar2c sfc ar2p sfp sf2 sf3 in
  lx = "H2" \/ lx = "H3" -> name_of lx = (sign sf2 ++ total ++ sign sf3)%string /\ fgeb sfp (fZ 1) = true.
Proof.
  cbv zeta. unfold kind, sign. cbn [negb]. destruct (fgtb d (fsub _ ar2p)); [destruct (fltb sfp (fZ 1)); intros [Q|Q]; discriminate|]. destruct (fgeb sfp (fZ 1)); [|intros [Q|Q]; discriminate]. cbv zeta.
  destruct (fgtb sf2 (fZ 1)), (fgtb sf3 (fZ 1)); cbn [andb]; intros [Q|Q]; try discriminate; split; reflexivity.
Qed.
(** the name of H says the opposite: total, annular, total *)
Theorem C85_name_H_refuted : exists d r1c ar2c sfc ar2p sfp sf2 sf3, kind true d r1c ar2c sfc ar2p sfp sf2 sf3 = "H" /\
  fgtb sfp (fZ 1) = true /\ fltb sf2 (fZ 1) = true /\ fltb sf3 (fZ 1) = true /\ (sign sf2 ++ sign sfp ++ sign sf3)%string = "环全环" /\ name_of "H" = "全环全".
Proof. exists (lit 1 10), (lit 55 100), (lit 1 100), (lit 101 100), (lit 1 100), (lit 101 100), (lit 99 100), (lit 99 100). repeat split; vm_compute; reflexivity. Qed.
(** the name of A1, an annular eclipse (magnitude under 1), ends in "total eclipse" *)
Theorem C85_name_A1_refuted : exists d r1c ar2c sfc ar2p sfp sf2 sf3, kind true d r1c ar2c sfc ar2p sfp sf2 sf3 = "A1" /\ fltb sfp (fZ 1) = true /\ name_of "A1" = "部分伪本影有中心全食" /\ name_of "T" = "全食".
Proof. exists (lit 99 100), (lit 55 100), (lit 1 100), (lit 99 100), (lit 1 100), (lit 98 100), (lit 97 100), (lit 97 100). repeat split; vm_compute; reflexivity. Qed.
Example C85_ex : (let* (m, o) := lxb_make (fun _ => None) 1 [2; 3; 4; 5; 6; 7; 8; 9; 10; 11] in let* x := lxb_read m o 12 "T" in let* y := lxb_read m o 12 "A0" in let* z := lxb_read m o 12 "B" in Some (x, y, z)) = Some ("全食", "无中心环食", "").
Proof. vm_compute. reflexivity. Qed.
Print Assumptions C85_names.
Print Assumptions C85_every_kind.
Print Assumptions C85_mixed_names.
Print Assumptions C85_name_H_refuted.
