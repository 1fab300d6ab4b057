(** Proofs about the place table. *)
From Coq Require Import ZArith List Ascii String Bool Lia Reals Lra.
From Flocq Require Import Core.
From Verif Require Import F64 Str StrModel PosModel PosSpec F64R.
Import ListNotations.
Open Scope Z_scope.
Open Scope opt_scope.

Lemma isalnum_alphabet c : isalnum c = in_alphabet c.
Proof. destruct c as [[] [] [] [] [] [] [] []]; vm_compute; reflexivity. Qed.
Lemma alnum_not_space c : in_alphabet c = true -> Ascii.eqb c " " = false.
Proof. intros H. destruct (Ascii.eqb_spec c " "); [subst; discriminate H|reflexivity]. Qed.

Lemma cut_code w s j m cur done : forallb in_alphabet w = true -> cut (w ++ s) j m cur done = cut s j m cur done.
Proof.
  induction w as [|c w IH]; cbn [app forallb]; [reflexivity|]. intros H. apply andb_true_iff in H. destruct H as [H1 H2].
  cbn [cut]. rewrite (alnum_not_space c H1), isalnum_alphabet, H1. apply IH, H2.
Qed.
Lemma cut_plain w : forall s j m cur done, forallb plain w = true -> (j < 210)%nat -> (m + List.length w <= 48)%nat ->
  cut (w ++ s) j m cur done = cut s j (m + List.length w) (rev w ++ cur) done.
Proof.
  induction w as [|c w IH]; cbn [app forallb List.length]; intros s j m cur done H J M; [rewrite Nat.add_0_r; reflexivity|].
  apply andb_true_iff in H. destruct H as [H1 H2]. unfold plain in H1. apply andb_true_iff in H1. destruct H1 as [H1 H3].
  apply negb_true_iff in H1, H3. cbn [cut]. rewrite H3, isalnum_alphabet, H1.
  replace (j <? 210)%nat with true by (symmetry; apply Nat.ltb_lt; lia). replace (m <? 48)%nat with true by (symmetry; apply Nat.ltb_lt; lia).
  cbn [andb]. rewrite IH by (auto; lia). cbn [rev]. rewrite <- app_assoc. cbn [app]. f_equal. lia.
Qed.
Lemma cut_entries es : forall j m cur done, forallb entry_ok es = true -> (j + List.length es < 210)%nat ->
  cut (places_text es) j m cur done = Some (rev done ++ rev cur :: map snd es).
Proof.
  unfold places_text. induction es as [|[c n] es IH]; cbn [flat_map forallb List.length map]; intros j m cur done H J.
  - cbn [cut rev]. reflexivity.
  - apply andb_true_iff in H. destruct H as [H1 H2]. unfold entry_ok, name_ok in H1. cbn [fst snd] in *.
    rewrite !andb_true_iff in H1. destruct H1 as [[H1 H3] [[H4 H5] H6]]. apply Nat.ltb_lt in H5.
    cbn [app]. rewrite <- app_assoc. cbn [cut]. replace (Ascii.eqb " " " ") with true by reflexivity. cbv iota.
    rewrite (cut_code c) by exact H3. rewrite (cut_plain n) by (auto; lia). rewrite IH by (auto; lia).
    cbn [rev]. rewrite app_nil_r, rev_involutive, <- app_assoc. reflexivity.
Qed.
Lemma names_text p : province_ok p = true -> names (text_of p) = Some (fst p :: map snd (snd p)).
Proof.
  unfold province_ok, name_ok. rewrite !andb_true_iff. intros [[[[[_ H2] H3] H4] [_ H5]] _]. apply Nat.ltb_lt in H2, H5.
  unfold count in H5. unfold names, text_of. rewrite cut_plain by (auto; lia). rewrite app_nil_r, cut_entries by (auto; lia). cbn [rev app]. rewrite rev_involutive. reflexivity.
Qed.
Definition shown (t : list province) : list (list bytes) := map (fun p => fst p :: map snd (snd p)) t.
Lemma all_names_text t : forallb province_ok t = true -> all_names (map text_of t) = Some (shown t).
Proof.
  induction t as [|p t IH]; cbn [forallb map all_names]; [reflexivity|]. intros H. apply andb_true_iff in H. destruct H as [H1 H2].
  rewrite names_text by exact H1. cbn [obind]. rewrite IH by exact H2. reflexivity.
Qed.

Lemma ok_prov t i p : table_ok t = true -> nth_error t i = Some p -> province_ok p = true /\ (i < 32)%nat.
Proof.
  unfold table_ok. rewrite andb_true_iff. intros [H1 H2] E. apply Nat.eqb_eq in H1. split.
  - rewrite forallb_forall in H2. apply H2. apply nth_error_In in E. exact E.
  - assert (i < List.length t)%nat by (apply nth_error_Some; congruence). lia.
Qed.
Lemma ok_name n : name_ok n = true -> (1 <= List.length n < 48)%nat.
Proof. unfold name_ok. rewrite !andb_true_iff. intros [[H1 H2] _]. apply Nat.leb_le in H1. apply Nat.ltb_lt in H2. lia. Qed.
Lemma nth_short (l : list bytes) j : (forall x, In x l -> (List.length x < 48)%nat) -> (List.length (nth j l []) < 48)%nat.
Proof.
  intros H. destruct (Nat.lt_ge_cases j (List.length l)) as [Q|Q]; [apply H, nth_In, Q|].
  rewrite nth_overflow by exact Q. cbn. lia.
Qed.
Lemma cell_shown t i j p : table_ok t = true -> nth_error t i = Some p -> (j < 210)%nat ->
  cell (shown t) (Z.of_nat i) (Z.of_nat j) = Some (nth j (fst p :: map snd (snd p)) []).
Proof.
  intros T E J. destruct (ok_prov t i p T E) as [P I]. unfold cell. rewrite !Nat2Z.id.
  replace (0 <=? Z.of_nat i) with true by (symmetry; apply Z.leb_le; lia). replace (Z.of_nat i <? 32) with true by (symmetry; apply Z.ltb_lt; lia).
  replace (0 <=? Z.of_nat j) with true by (symmetry; apply Z.leb_le; lia). replace (Z.of_nat j <? 210) with true by (symmetry; apply Z.ltb_lt; lia). cbn [andb].
  assert (N : nth i (shown t) [] = fst p :: map snd (snd p)).
  { unfold shown. apply nth_error_nth. apply (map_nth_error (fun p : province => fst p :: map snd (snd p)) i t E). }
  rewrite N. unfold province_ok in P. rewrite !andb_true_iff in P. destruct P as [[[P1 P2] [_ P3]] _].
  assert (L : (List.length (nth j (fst p :: map snd (snd p)) []) < 48)%nat).
  { apply nth_short. intros x [<-|Q]; [apply ok_name, P1|]. apply in_map_iff in Q. destruct Q as (e & <- & Q).
    rewrite forallb_forall in P2. apply P2 in Q. unfold entry_ok in Q. rewrite !andb_true_iff in Q. apply ok_name, Q. }
  apply Nat.ltb_lt in L. rewrite L. reflexivity.
Qed.
Lemma listing_ok t i p : table_ok t = true -> nth_error t i = Some p ->
  forall n j, (1 <= j)%nat -> (count p + 2 <= n + j)%nat -> (j <= count p + 1)%nat -> listing n (shown t) (Z.of_nat i) (Z.of_nat j) = Some tt.
Proof.
  intros T E. destruct (ok_prov t i p T E) as [P _]. unfold province_ok in P. rewrite !andb_true_iff in P. destruct P as [[[_ P2] [_ P3]] _]. apply Nat.ltb_lt in P3.
  induction n as [|n IH]; intros j J1 J2 J3; [lia|]. cbn [listing]. rewrite (cell_shown t i j p T E) by lia. cbn [obind].
  destruct j as [|j]; [lia|]. cbn [nth]. destruct (Nat.eq_dec j (count p)) as [->|Q].
  - rewrite nth_overflow by (rewrite map_length; unfold count; apply le_n). reflexivity.
  - destruct (nth j (map snd (snd p)) []) as [|c r] eqn:N.
    + reflexivity.
    + replace (Z.of_nat (S j) + 1) with (Z.of_nat (S (S j))) by lia. apply IH; lia.
Qed.

Lemma prefixb_firstn pat : forall s, prefixb pat s = true <-> firstn (List.length pat) s = pat.
Proof.
  induction pat as [|c pat IH]; intros [|d s]; cbn [prefixb firstn List.length]; try (split; congruence).
  rewrite andb_true_iff, IH, Ascii.eqb_eq. split; [intros [-> ->]; reflexivity|intros H; injection H; auto].
Qed.
Lemma find_at_skip pat : forall n s i, (forall k, (k < n)%nat -> prefixb pat (skipn k s) = false) -> (n <= List.length s)%nat ->
  find_at pat s i = find_at pat (skipn n s) (i + Z.of_nat n).
Proof.
  induction n as [|n IH]; intros s i H L; [cbn; f_equal; lia|].
  destruct s as [|c s]; [cbn in L; lia|]. cbn [skipn]. pose proof (H 0%nat ltac:(lia)) as H0. cbn [skipn] in H0.
  cbn [find_at]. rewrite H0. rewrite IH; [f_equal; lia| |cbn in L; lia]. intros k K. apply (H (S k)). lia.
Qed.
Lemma skipn_add {A} (a b : nat) : forall l : list A, skipn a (skipn b l) = skipn (b + a) l.
Proof. induction b as [|b IH]; intros l; [reflexivity|]. destruct l as [|x l]; [rewrite !skipn_nil; reflexivity|]. cbn [skipn Nat.add]. apply IH. Qed.
Lemma find_first r pat n : (8 <= n <= List.length r)%nat -> (forall k, (8 <= k < n)%nat -> ~ occurs_at pat r k) -> firstn (List.length pat) (skipn n r) = pat ->
  find r pat 8 = Some (Z.of_nat n).
Proof.
  intros N H F. unfold find, len. replace (8 <=? Z.of_nat (List.length r)) with true by (symmetry; apply Z.leb_le; lia).
  change (Z.to_nat 8) with 8%nat. rewrite (find_at_skip pat (n - 8)).
  - rewrite skipn_add. replace (8 + (n - 8))%nat with n by lia. replace (8 + Z.of_nat (n - 8)) with (Z.of_nat n) by lia.
    apply prefixb_firstn in F. destruct (skipn n r); cbn [find_at]; rewrite F; reflexivity.
  - intros k K. rewrite skipn_add. destruct (prefixb pat (skipn (8 + k) r)) eqn:Q; [|reflexivity]. apply prefixb_firstn in Q.
    exfalso. apply (H (8 + k)%nat); [lia|]. split; [exact Q|lia].
  - rewrite skipn_length. lia.
Qed.
Lemma find_none r pat : (8 <= List.length r)%nat -> (forall k, (8 <= k)%nat -> ~ occurs_at pat r k) -> find r pat 8 = None.
Proof.
  intros N H. unfold find, len. replace (8 <=? Z.of_nat (List.length r)) with true by (symmetry; apply Z.leb_le; lia).
  change (Z.to_nat 8) with 8%nat. assert (Q : forall k, (k <= List.length (skipn 8 r))%nat -> prefixb pat (skipn k (skipn 8 r)) = false).
  { intros k K. rewrite skipn_add. destruct (prefixb pat (skipn (8 + k) r)) eqn:Q; [|reflexivity]. apply prefixb_firstn in Q.
    exfalso. apply (H (8 + k)%nat); [lia|]. split; [exact Q|]. rewrite skipn_length in K. lia. }
  rewrite (find_at_skip pat (List.length (skipn 8 r))); [|intros k K; apply Q; lia|lia]. specialize (Q _ (le_n _)).
  rewrite skipn_all in *. cbn [find_at]. rewrite Q. reflexivity.
Qed.
(** strstr finds something at most at the end of the text *)
Lemma find_at_range pat : forall s i k, find_at pat s i = Some k -> i <= k <= i + Z.of_nat (List.length s).
Proof.
  induction s as [|c s IH]; intros i k; cbn [find_at List.length].
  - destruct (prefixb pat []); [intros E; injection E as <-; lia|discriminate].
  - destruct (prefixb pat (c :: s)); [intros E; injection E as <-; lia|]. intros E. apply IH in E. lia.
Qed.
Lemma find_range r pat k : find r pat 8 = Some k -> 8 <= k <= len r.
Proof.
  unfold find. destruct (Z.leb_spec 8 (len r)); [|discriminate]. intros E. apply find_at_range in E. rewrite skipn_length in E.
  unfold len in *. change (Z.to_nat 8) with 8%nat in E. lia.
Qed.

Lemma skipn_cons5 {A} (x : A) s : skipn 5 (x :: s) = skipn 4 s.
Proof. reflexivity. Qed.
Lemma text_at p j c n : province_ok p = true -> nth_error (snd p) j = Some (c, n) ->
  exists rest, skipn (offset p j - 4) (text_of p) = c ++ n ++ rest /\ skipn (offset p j) (text_of p) = n ++ rest /\ (8 <= offset p j <= List.length (text_of p))%nat /\ name_ok n = true
   /\ List.length c = 4%nat /\ (j < count p < 209)%nat.
Proof.
  intros P E. unfold province_ok in P. rewrite !andb_true_iff in P. destruct P as [[[P1 P2] [_ P3]] P4]. apply Nat.ltb_lt in P3. apply Nat.leb_le in P4.
  rewrite forallb_forall in P2. pose proof (P2 _ (nth_error_In _ _ E)) as EO. unfold entry_ok in EO. cbn [fst snd] in EO. rewrite !andb_true_iff in EO.
  destruct EO as [[E1 E2] E3]. apply Nat.eqb_eq in E1. apply ok_name in P1.
  destruct (nth_error_split _ _ E) as (l1 & l2 & S1 & S2).
  assert (F1 : firstn j (snd p) = l1) by (rewrite S1, <- S2, firstn_app, Nat.sub_diag, firstn_all, firstn_O, app_nil_r; reflexivity).
  exists (places_text l2). unfold offset. rewrite F1.
  set (pre := fst p ++ places_text l1).
  assert (T : text_of p = pre ++ " "%char :: c ++ n ++ places_text l2).
  { unfold text_of, pre, places_text. rewrite S1, flat_map_app. cbn [flat_map fst snd app]. rewrite <- !app_assoc. reflexivity. }
  assert (LP : (3 <= List.length pre)%nat) by (unfold pre; rewrite app_length; lia). clearbody pre.
  rewrite T. replace (List.length pre + 5 - 4)%nat with (List.length pre + 1)%nat by lia.
  assert (SK : forall k s, skipn (List.length pre + k) (pre ++ s) = skipn k s).
  { intros k s. rewrite <- skipn_add. f_equal. rewrite skipn_app, skipn_all, Nat.sub_diag. reflexivity. }
  rewrite !SK. split; [reflexivity|]. split.
  { rewrite skipn_cons5, <- E1. rewrite skipn_app, skipn_all, Nat.sub_diag. reflexivity. }
  split; [|split; [exact E3|]; split; [exact E1|split; [apply nth_error_Some; congruence|exact P3]]].
  rewrite app_length. cbn [List.length]. rewrite !app_length. rewrite E1. split; [|lia]. lia.
Qed.

(** the search *)
Lemma text_long p : province_ok p = true -> (8 <= List.length (text_of p))%nat.
Proof.
  intros P. pose proof P as P'. unfold province_ok in P'. rewrite !andb_true_iff in P'. destruct P' as [[_ [P3 _]] _]. apply Nat.leb_le in P3. unfold count in P3.
  destruct (snd p) as [|[c n] es] eqn:E; [cbn in P3; lia|]. destruct (text_at p 0 c n P) as (r & _ & _ & H & _); [rewrite E; reflexivity|lia].
Qed.
Lemma search_skip (f : list (list bytes)) str : forall t1 rows i, (forall p, In p t1 -> province_ok p = true /\ forall k, (8 <= k)%nat -> ~ occurs_at str (text_of p) k) ->
  search (map text_of t1 ++ rows) f i str = search rows f (i + Z.of_nat (List.length t1)) str.
Proof.
  induction t1 as [|p t1 IH]; intros rows i H; cbn [map app List.length]; [f_equal; lia|].
  cbn [search]. destruct (H p (or_introl eq_refl)) as [HP HO]. pose proof (text_long p HP) as LP. replace (len (text_of p) <? 8) with false by (symmetry; apply Z.ltb_ge; unfold len; lia).
  rewrite find_none by auto.
  rewrite IH; [f_equal; lia|]. intros q Q. apply H. right. exact Q.
Qed.

Lemma choose_listed t i j p c n : table_ok t = true -> nth_error t i = Some p -> nth_error (snd p) j = Some (c, n) ->
  choose (shown t) (Z.of_nat i + 1) (Z.of_nat j + 1) [] = Some n.
Proof.
  intros T E EJ. destruct (ok_prov t i p T E) as [P I]. destruct (text_at p j c n P EJ) as (_ & _ & _ & _ & _ & _ & J). unfold choose.
  replace (Z.of_nat i + 1 =? 0) with false by (symmetry; apply Z.eqb_neq; lia). replace (Z.of_nat i + 1 <? 33) with true by (symmetry; apply Z.ltb_lt; lia).
  replace (Z.of_nat i + 1 - 1) with (Z.of_nat i) by lia. pose proof (listing_ok t i p T E 210 1 ltac:(lia) ltac:(lia) ltac:(lia)) as LI. change (Z.of_nat 1) with 1 in LI. rewrite LI. cbn [obind].
  replace (Z.of_nat j + 1 =? 0) with false by (symmetry; apply Z.eqb_neq; lia). replace (Z.of_nat j + 1) with (Z.of_nat (S j)) by lia.
  rewrite (cell_shown t i (S j) p T E) by lia. cbn [nth]. f_equal. apply nth_error_nth. exact (map_nth_error snd j (snd p) EJ).
Qed.
Lemma search_listed t i j p a0 a1 a2 a3 n : table_ok t = true -> nth_error t i = Some p -> nth_error (snd p) j = Some ([a0; a1; a2; a3], n) ->
  first_of_its_name t i j n ->
  search (map text_of t) (shown t) 0 n = Some (mkJW (fst (position a0 a1 a2 a3)) (snd (position a0 a1 a2 a3)) (fst p) n).
Proof.
  intros T E EJ [F1 F2]. destruct (ok_prov t i p T E) as [P I]. destruct (text_at p j _ n P EJ) as (rest & S4 & S0 & R & _ & _ & J).
  destruct (nth_error_split _ _ E) as (t1 & t2 & ET & L1).
  assert (M : map text_of t = map text_of t1 ++ text_of p :: map text_of t2) by (rewrite ET at 1; rewrite map_app; reflexivity).
  rewrite M, search_skip.
  - cbn [search]. pose proof (text_long p P) as LP. replace (len (text_of p) <? 8) with false by (symmetry; apply Z.ltb_ge; unfold len; lia).
    rewrite (find_first (text_of p) n (offset p j)); [|exact R|intros k K; exact (F2 p k E K)|].
    + replace (0 + Z.of_nat (List.length t1)) with (Z.of_nat i) by lia. change 0 with (Z.of_nat 0) at 1.
      rewrite (cell_shown t i 0 p T E) by lia. cbn [obind nth]. replace (Z.to_nat (Z.of_nat (offset p j) - 4)) with (offset p j - 4)%nat by lia.
      rewrite S4. cbn [app]. destruct (position a0 a1 a2 a3). reflexivity.
    + rewrite S0, firstn_app, Nat.sub_diag, firstn_all. cbn [firstn]. apply app_nil_r.
  - intros q Q. apply In_nth_error in Q. destruct Q as [i' Q]. assert (I' : (i' < i)%nat) by (rewrite <- L1; apply nth_error_Some; congruence).
    assert (EQ : nth_error t i' = Some q) by (rewrite ET, nth_error_app1 by lia; exact Q).
    destruct (ok_prov t i' q T EQ) as [PQ _]. split; [exact PQ|]. intros k K. apply (F1 i' q k I' EQ K).
Qed.
Lemma search_defined (f : list (list bytes)) str : forall t2 t1, table_ok (t1 ++ t2) = true ->
  exists r, search (map text_of t2) (shown (t1 ++ t2)) (Z.of_nat (List.length t1)) str = Some r.
Proof.
  induction t2 as [|p t2 IH]; intros t1 T; cbn [map search]; [eexists; reflexivity|].
  assert (E : nth_error (t1 ++ p :: t2) (List.length t1) = Some p) by (rewrite nth_error_app2, Nat.sub_diag by lia; reflexivity).
  destruct (ok_prov _ _ p T E) as [P _]. pose proof (text_long p P) as LP. replace (len (text_of p) <? 8) with false by (symmetry; apply Z.ltb_ge; unfold len; lia).
  destruct (find (text_of p) str 8) as [k|] eqn:F.
  - apply find_range in F. change 0 with (Z.of_nat 0). rewrite (cell_shown _ _ 0 p T E) by lia. cbn [obind].
    assert (L : (4 <= List.length (skipn (Z.to_nat (k - 4)) (text_of p)))%nat) by (rewrite skipn_length; unfold len in F; lia).
    destruct (skipn (Z.to_nat (k - 4)) (text_of p)) as [|b0 [|b1 [|b2 [|b3 r]]]]; try (cbn in L; lia). destruct (position b0 b1 b2 b3). eexists; reflexivity.
  - destruct (IH (t1 ++ [p])) as (r & R); [rewrite <- app_assoc; exact T|]. exists r. rewrite <- R. rewrite <- app_assoc, app_length. cbn [app List.length]. f_equal. lia.
Qed.
Lemma choose_defined t num num0 typed : table_ok t = true -> 0 <= num <= 32 -> 0 <= num0 < 210 -> (List.length typed < 48)%nat ->
  exists s, choose (shown t) num num0 typed = Some s.
Proof.
  intros T N N0 L. unfold choose, scan. apply Nat.ltb_lt in L. rewrite L. destruct (Z.eqb_spec num 0); [eexists; reflexivity|].
  replace (num <? 33) with true by (symmetry; apply Z.ltb_lt; lia). unfold table_ok in T. pose proof T as T'. apply andb_true_iff in T'. destruct T' as [TL _]. apply Nat.eqb_eq in TL.
  destruct (nth_error t (Z.to_nat (num - 1))) as [p|] eqn:E; [|apply nth_error_None in E; lia].
  replace (num - 1) with (Z.of_nat (Z.to_nat (num - 1))) by lia.
  assert (C : (count p < 209)%nat). { destruct (ok_prov t _ p T E) as [P _]. unfold province_ok in P. rewrite !andb_true_iff in P. apply Nat.ltb_lt, P. }
  pose proof (listing_ok t _ p T E 210 1 ltac:(lia) ltac:(lia) ltac:(lia)) as LI. change (Z.of_nat 1) with 1 in LI. rewrite LI. cbn [obind]. destruct (num0 =? 0); [eexists; reflexivity|].
  replace num0 with (Z.of_nat (Z.to_nat num0)) by lia. rewrite (cell_shown t _ _ p T E) by lia. eexists; reflexivity.
Qed.

(** codes *)
Lemma in62 : forall n, 0 <= n < 62 -> In n (map Z.of_nat (seq 0 62)).
Proof. intros n H. apply in_map_iff. exists (Z.to_nat n). split; [lia|]. apply in_seq. lia. Qed.
Lemma unpack_sym n : 0 <= n < 62 -> unpack (sym n) = n.
Proof.
  intros H. assert (Q : forallb (fun n => unpack (sym n) =? n) (map Z.of_nat (seq 0 62)) = true) by (vm_compute; reflexivity).
  rewrite forallb_forall in Q. apply Z.eqb_eq, Q, in62, H.
Qed.
Lemma sym_surj c : in_alphabet c = true -> exists n, 0 <= n < 62 /\ c = sym n.
Proof.
  unfold in_alphabet. rewrite existsb_exists. intros (x & I & E). apply Ascii.eqb_eq in E. subst x.
  apply In_nth with (d := " "%char) in I. destruct I as (k & K & E). exists (Z.of_nat k). split; [vm_compute in K; lia|]. unfold sym. rewrite Nat2Z.id. symmetry. exact E.
Qed.
Open Scope R_scope.
Lemma minutes_ok m : (0 <= m < 62)%Z -> ok (fdiv (fZ m) (fZ 60)) /\ Rabs (R64 (fdiv (fZ m) (fZ 60)) - IZR m / 60) <= bpow radix2 (-53).
Proof.
  intros M. destruct (fZ_ok m ltac:(lia)) as [O1 R1]. destruct (fZ_ok 60 ltac:(lia)) as [O2 R2].
  assert (B1 : 0 <= IZR m <= 62) by (split; apply IZR_le; lia). assert (B : Rabs (IZR m / 60) <= bpow radix2 1) by (apply Rabs_le; change (bpow radix2 1) with 2; lra).
  destruct (fdiv_ok (fZ m) (fZ 60) O1 O2) as [O3 R3].
  - rewrite R2. lra.
  - rewrite R1, R2. apply (Rle_trans _ _ _ B). apply bpow_le. lia.
  - split; [exact O3|]. rewrite R3, R1, R2. apply (rnd_err _ 1); [lia|exact B].
Qed.
Lemma angle_ok d m : (0 <= d < 62)%Z -> (0 <= m < 62)%Z -> let x := fadd (fZ d) (fdiv (fZ m) (fZ 60)) in ok x /\ Rabs (R64 x - degrees d m) <= bpow radix2 (-47).
Proof.
  intros D M. cbv zeta. destruct (minutes_ok m M) as [OM EM]. destruct (fZ_ok d ltac:(lia)) as [OD RD]. set (q := fdiv (fZ m) (fZ 60)) in *. clearbody q.
  assert (B1 : 0 <= IZR m <= 61) by (split; apply IZR_le; lia). assert (B2 : 0 <= IZR d <= 61) by (split; apply IZR_le; lia).
  apply Rabs_le_inv in EM. change (bpow radix2 (-53)) with (/ 9007199254740992) in EM.
  assert (B : Rabs (IZR d + R64 q) <= bpow radix2 6) by (apply Rabs_le; change (bpow radix2 6) with 64; lra).
  destruct (fadd_ok (fZ d) q OD OM) as [OX RX]; [rewrite RD; apply (Rle_trans _ _ _ B), bpow_le; lia|]. split; [exact OX|]. rewrite RX, RD. unfold degrees.
  pose proof (rnd_err _ 6 ltac:(lia) B) as E. apply Rabs_le_inv in E. change (bpow radix2 (6 - 54)) with (/ 281474976710656) in E.
  change (bpow radix2 (-47)) with (/ 140737488355328). apply Rabs_le. lra.
Qed.
Lemma position_encode wd wm jd jm : (0 <= wd < 62)%Z -> (0 <= wm < 62)%Z -> (73 <= jd < 135)%Z -> (0 <= jm < 62)%Z ->
  let (J, W) := position (sym wd) (sym wm) (sym (jd - 73)) (sym jm) in
  ok J /\ ok W /\ Rabs (R64 J - degrees jd jm) <= bpow radix2 (-45) /\ Rabs (R64 W - degrees wd wm) <= bpow radix2 (-47).
Proof.
  intros H1 H2 H3 H4. unfold position. rewrite !unpack_sym by lia. destruct (angle_ok wd wm H1 H2) as [OW EW].
  destruct (angle_ok (jd - 73) jm ltac:(lia) H4) as [OX EX]. cbv zeta in *. set (x := fadd (fZ (jd - 73)) _) in *. clearbody x.
  destruct (fZ_ok 73 ltac:(lia)) as [O73 R73]. unfold degrees in EX. rewrite minus_IZR in EX.
  assert (B1 : 0 <= IZR jm <= 61) by (split; apply IZR_le; lia). assert (B2 : 73 <= IZR jd <= 134) by (split; apply IZR_le; lia).
  apply Rabs_le_inv in EX. change (bpow radix2 (-47)) with (/ 140737488355328) in EX.
  assert (B : Rabs (R64 x + 73) <= bpow radix2 8) by (apply Rabs_le; change (bpow radix2 8) with 256; lra).
  destruct (fadd_ok x (fZ 73) OX O73) as [OJ RJ]; [rewrite R73; apply (Rle_trans _ _ _ B), bpow_le; lia|].
  refine (conj OJ (conj OW (conj _ EW))). rewrite RJ, R73. unfold degrees. pose proof (rnd_err _ 8 ltac:(lia) B) as E. apply Rabs_le_inv in E.
  change (bpow radix2 (8 - 54)) with (/ 70368744177664) in E. change (bpow radix2 (-45)) with (/ 35184372088832). apply Rabs_le. lra.
Qed.
