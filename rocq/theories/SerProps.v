(** C33: the precession quantities.  C34, C35: the evaluation of the planet and moon series. *)
From Coq Require Import ZArith Reals Lia Lra Bool List Ascii String.
From Coq Require Import Floats.SpecFloat.
From Flocq Require Import Core.
From Verif Require Import F64 F64R F64T Str StrModel SsqModel AngModel AngProps DtProof SerModel SerSpec SerProof.
Import ListNotations.
Open Scope R_scope.

(** ** C33 *)
Definition same_coef (p : Z * Z) (c : Z) : bool := (fst p * 10000000000 =? c * snd p)%Z && (0 <? snd p)%Z.
Fixpoint same_row (r : list (Z * Z)) (cs : list Z) : bool :=
  match r, cs with [], [] => true | p :: r, c :: cs => same_coef p c && same_row r cs | _, _ => false end.
Lemma same_row_poly T : forall r cs, same_row r cs = true -> exact_poly r T = poly cs T.
Proof.
  induction r as [|p r IH]; intros [|c cs] H; cbn in *; try discriminate H; [reflexivity|]. apply andb_prop in H as [H1 H2]. rewrite (IH cs H2).
  unfold same_coef in H1. apply andb_prop in H1 as [H1 H3]. apply Z.eqb_eq in H1. apply Z.ltb_lt in H3. f_equal. unfold dec.
  apply (f_equal IZR) in H1. rewrite !mult_IZR in H1. apply IZR_lt in H3. apply (Rmult_eq_reg_r (IZR (snd p) * 10000000000)); [|nra]. field_simplify; [|lra..]. lra.
Qed.
(** the position of the name, and the rows *)
Definition entry_ok (k : Z) (e : bytes * (list Z * list Z * list Z)) : bool :=
  let '(nm, (a, b, c)) := e in
  (len nm <=? 2)%Z && match find prece_names (nm ++ B " ") 0 with Some i => (Z.quot i 3 =? k)%Z | None => false end
  && same_row (row 4 lits_IAU1976 k) a && same_row (row 6 lits_IAU2000 k) b && same_row (row 6 lits_P03 k) c.
Lemma entries_ok : forallb (fun ke => entry_ok (fst ke) (snd ke)) (combine (upto 12) quantities) = true.
Proof. vm_compute. reflexivity. Qed.
Lemma in_combine_ex {X Y : Type} (b : Y) : forall (u : list X) (l : list Y), List.length u = List.length l -> In b l -> exists a, In (a, b) (combine u l).
Proof. induction u as [|a u IH]; intros [|c l] L H; cbn in *; try lia; try tauto. destruct H as [->|H]; [eauto|]. destruct (IH l ltac:(lia) H) as (a' & ?). eauto. Qed.
Lemma entry nm a b c : In (nm, (a, b, c)) quantities -> exists k, (0 <= k < 12)%Z /\ entry_ok k (nm, (a, b, c)) = true.
Proof.
  intros H. destruct (in_combine_ex _ (upto 12) quantities eq_refl H) as (k & Hk). exists k. split; [apply in_combine_l in Hk; unfold upto in Hk; apply in_map_iff in Hk as (j & <- & Hj); apply in_seq in Hj; lia|].
  exact (proj1 (forallb_forall _ _) entries_ok _ Hk).
Qed.
Lemma value4 t l k cs : ok t -> Rabs (R64 t) <= 50 -> (0 <= k < 12)%Z -> row_ok (row 4 l k) = true -> List.length (row 4 l k) = 4%nat -> same_row (row 4 l k) cs = true ->
  exists c, prece_loop 4 (table_of l) (k * 4) t (fZ 1) (fZ 0) = Some c /\ ok (fdiv c rad) /\ Rabs (R64 (fdiv c rad) - in_radians (R64 dpi) (poly cs (R64 t))) <= / 30000000000000.
Proof.
  intros Ot Bt Hk HR HL HS. rewrite <- (same_row_poly _ _ _ HS). pose proof (row_at 4 l k) as RA. destruct (row 4 l k) as [|x0 [|x1 [|x2 [|x3 [|]]]]]; try discriminate HL. clear HL HS.
  cbn [row_ok] in HR. rewrite !andb_true_iff in HR. destruct HR as (((H0 & H1) & H2) & H3).
  pose proof (RA 0%Z x0 ltac:(lia) ltac:(lia) ltac:(lia) eq_refl) as A0. rewrite Z.add_0_r in A0.
  pose proof (RA 1%Z x1 ltac:(lia) ltac:(lia) ltac:(lia) eq_refl) as A1. pose proof (RA 2%Z x2 ltac:(lia) ltac:(lia) ltac:(lia) eq_refl) as A2. pose proof (RA 3%Z x3 ltac:(lia) ltac:(lia) ltac:(lia) eq_refl) as A3.
  rewrite (loop4 _ _ _ _ _ _ _ A0 A1 A2 A3). eexists. split; [reflexivity|].
  destruct (lit_in_abs _ _ _ H0 ltac:(lia)) as (B0 & O0 & E0). destruct (lit_in_near x1 13 8192 2199023255552 H1 ltac:(lia) eq_refl eq_refl) as [O1 N1]. destruct (lit_in_abs _ _ _ H1 ltac:(lia)) as (B1 & _).
  destruct (lit_in_near x2 2 4 4503599627370496 H2 ltac:(lia) eq_refl eq_refl) as [O2 N2]. destruct (lit_in_abs _ _ _ H2 ltac:(lia)) as (B2 & _).
  destruct (lit_in_small x3 4 16 H3 ltac:(lia) eq_refl) as (O3 & N3 & B3).
  assert (N0' : Rabs (R64 (lit (fst x0) (snd x0)) - dec x0) <= / 17179869184) by (rewrite E0; apply (rn 20 1048576); [lia|reflexivity|reflexivity|lra]).
  destruct (fZ_ok 0 ltac:(lia)) as [Oz Ez].
  destruct (poly_ok t _ _ _ _ (fZ 0) (fZ 0) (dec x0) (dec x1) (dec x2) (dec x3) 0 0 Ot Bt O0 O1 O2 O3 Oz Oz N0' N1 N2) as [(Oa & Na & Ba) _]; [lra|rewrite Ez, Rminus_0_r, Rabs_R0; lra|rewrite Ez, Rminus_0_r, Rabs_R0; lra|lra|lra|lra|lra|rewrite Rabs_R0; lra|rewrite Rabs_R0; lra|].
  destruct (div_rad_ok _ _ _ Oa Na ltac:(lra) ltac:(lra)) as [O E]. split; [exact O|].
  match type of E with Rabs (_ - ?x * _ / _) <= _ => replace (exact_poly [x0; x1; x2; x3] (R64 t)) with x by (cbn [exact_poly]; ring) end.
  unfold in_radians. replace (180 * 3600) with 648000 by lra. exact E.
Qed.
Lemma value6 t l k cs : ok t -> Rabs (R64 t) <= 50 -> (0 <= k < 12)%Z -> row_ok (row 6 l k) = true -> List.length (row 6 l k) = 6%nat -> same_row (row 6 l k) cs = true ->
  exists c, prece_loop 6 (table_of l) (k * 6) t (fZ 1) (fZ 0) = Some c /\ ok (fdiv c rad) /\ Rabs (R64 (fdiv c rad) - in_radians (R64 dpi) (poly cs (R64 t))) <= / 30000000000000.
Proof.
  intros Ot Bt Hk HR HL HS. rewrite <- (same_row_poly _ _ _ HS). pose proof (row_at 6 l k) as RA. destruct (row 6 l k) as [|x0 [|x1 [|x2 [|x3 [|x4 [|x5 [|]]]]]]]; try discriminate HL. clear HL HS.
  cbn [row_ok] in HR. rewrite !andb_true_iff in HR. destruct HR as (((((H0 & H1) & H2) & H3) & H4) & H5).
  pose proof (RA 0%Z x0 ltac:(lia) ltac:(lia) ltac:(lia) eq_refl) as A0. rewrite Z.add_0_r in A0.
  pose proof (RA 1%Z x1 ltac:(lia) ltac:(lia) ltac:(lia) eq_refl) as A1. pose proof (RA 2%Z x2 ltac:(lia) ltac:(lia) ltac:(lia) eq_refl) as A2. pose proof (RA 3%Z x3 ltac:(lia) ltac:(lia) ltac:(lia) eq_refl) as A3.
  pose proof (RA 4%Z x4 ltac:(lia) ltac:(lia) ltac:(lia) eq_refl) as A4. pose proof (RA 5%Z x5 ltac:(lia) ltac:(lia) ltac:(lia) eq_refl) as A5.
  rewrite (loop6 _ _ _ _ _ _ _ _ _ A0 A1 A2 A3 A4 A5). eexists. split; [reflexivity|].
  destruct (lit_in_abs _ _ _ H0 ltac:(lia)) as (B0 & O0 & E0). destruct (lit_in_near x1 13 8192 2199023255552 H1 ltac:(lia) eq_refl eq_refl) as [O1 N1]. destruct (lit_in_abs _ _ _ H1 ltac:(lia)) as (B1 & _).
  destruct (lit_in_near x2 2 4 4503599627370496 H2 ltac:(lia) eq_refl eq_refl) as [O2 N2]. destruct (lit_in_abs _ _ _ H2 ltac:(lia)) as (B2 & _).
  destruct (lit_in_small x3 4 16 H3 ltac:(lia) eq_refl) as (O3 & N3 & B3). destruct (lit_in_small x4 12 4096 H4 ltac:(lia) eq_refl) as (O4 & N4 & B4). destruct (lit_in_small x5 20 1048576 H5 ltac:(lia) eq_refl) as (O5 & N5 & B5).
  assert (N0' : Rabs (R64 (lit (fst x0) (snd x0)) - dec x0) <= / 17179869184) by (rewrite E0; apply (rn 20 1048576); [lia|reflexivity|reflexivity|lra]).
  destruct (poly_ok t _ _ _ _ _ _ (dec x0) (dec x1) (dec x2) (dec x3) (dec x4) (dec x5) Ot Bt O0 O1 O2 O3 O4 O5 N0' N1 N2 ltac:(lra) N4 N5 ltac:(lra) ltac:(lra) ltac:(lra) B3 B4 B5) as [_ (Oa & Na & Ba)].
  destruct (div_rad_ok _ _ _ Oa Na ltac:(lra) ltac:(lra)) as [O E]. split; [exact O|].
  match type of E with Rabs (_ - ?x * _ / _) <= _ => replace (exact_poly [x0; x1; x2; x3; x4; x5] (R64 t)) with x by (cbn [exact_poly]; ring) end.
  unfold in_radians. replace (180 * 3600) with 648000 by lra. exact E.
Qed.
Lemma row_len (l : list (Z * Z)) n k : (List.length l = Z.to_nat (12 * n))%nat -> (0 < n)%Z -> (0 <= k < 12)%Z -> List.length (row n l k) = Z.to_nat n.
Proof. intros H Hn Hk. unfold row. rewrite firstn_length, skipn_length, H. nia. Qed.

(** For every one of the twelve quantities and three models, at every time within 5000 years of 2000 the value returned is
    the polynomial of that quantity, converted to radians, to within 3.4e-14 rad (7 nano-arcseconds). *)
Theorem C33_value t nm c76 c00 c03 : ok t -> Rabs (R64 t) <= 50 -> In (nm, (c76, c00, c03)) quantities ->
  forall mx cs, In (mx, cs) [(B "IAU1976", c76); (B "IAU2000", c00); (B "P03", c03)] ->
  exists v, prece t nm mx = Some v /\ ok v /\ Rabs (R64 v - in_radians (R64 dpi) (poly cs (R64 t))) <= / 30000000000000.
Proof.
  intros Ot Bt H mx cs Hm. destruct (entry _ _ _ _ H) as (k & Hk & E). unfold entry_ok in E. rewrite !andb_true_iff in E. destruct E as ((((E0 & E1) & Ea) & Eb) & Ec).
  apply Z.leb_le in E0. pose proof (proj1 (forallb_forall _ _) rows_ok k (upto_in 12 k ltac:(lia))) as RO. rewrite !andb_true_iff in RO. destruct RO as ((Ra & Rb) & Rc).
  unfold prece. replace (4 <? len nm + 2)%Z with false by (symmetry; apply Z.ltb_ge; lia).
  cbv zeta. destruct (find prece_names (nm ++ B " ") 0) as [i|] eqn:F; [|discriminate E1]. apply Z.eqb_eq in E1. rewrite E1. clear F E1.
  destruct Hm as [Hm|[Hm|[Hm|[]]]]; injection Hm as <- <-; cbv zeta.
  - destruct (list_eq_dec ascii_dec (B "IAU1976") (B "IAU1976")); [|contradiction].
    destruct (value4 t lits_IAU1976 k c76 Ot Bt Hk Ra (row_len lits_IAU1976 4 k eq_refl ltac:(lia) Hk) Ea) as (c & Ec' & Hc). change (Z.of_nat 4) with 4%Z. rewrite Ec'. cbn [obind]. eexists. split; [reflexivity|exact Hc].
  - destruct (list_eq_dec ascii_dec (B "IAU2000") (B "IAU1976")) as [X|_]; [discriminate X|]. destruct (list_eq_dec ascii_dec (B "IAU2000") (B "IAU2000")); [|contradiction].
    destruct (value6 t lits_IAU2000 k c00 Ot Bt Hk Rb (row_len lits_IAU2000 6 k eq_refl ltac:(lia) Hk) Eb) as (c & Ec' & Hc). change (Z.of_nat 6) with 6%Z. rewrite Ec'. cbn [obind]. eexists. split; [reflexivity|exact Hc].
  - destruct (list_eq_dec ascii_dec (B "P03") (B "IAU1976")) as [X|_]; [discriminate X|]. destruct (list_eq_dec ascii_dec (B "P03") (B "IAU2000")) as [X|_]; [discriminate X|]. destruct (list_eq_dec ascii_dec (B "P03") (B "P03")); [|contradiction].
    destruct (value6 t lits_P03 k c03 Ot Bt Hk Rc (row_len lits_P03 6 k eq_refl ltac:(lia) Hk) Ec) as (c & Ec' & Hc). change (Z.of_nat 6) with 6%Z. rewrite Ec'. cbn [obind]. eexists. split; [reflexivity|exact Hc].
Qed.
(** Any name of at most two bytes, with any model name and any time at all, is looked up inside the buffer and the tables. *)
Theorem C33_short_names t nm mx : (len nm <= 2)%Z -> exists v, prece t nm mx = Some v.
Proof.
  intros L. unfold prece. replace (4 <? len nm + 2)%Z with false by (symmetry; apply Z.ltb_ge; lia). cbv zeta.
  assert (G : forall n l, List.length l = (12 * n)%nat -> exists v, match find prece_names (nm ++ B " ") 0 with None => Some (fZ 0) | Some i => obind (prece_loop n (table_of l) (Z.quot i 3 * Z.of_nat n) t (fZ 1) (fZ 0)) (fun c => Some (fdiv c rad)) end = Some v).
  { intros n l Hl. destruct (find prece_names (nm ++ B " ") 0) as [i|] eqn:F; [|eauto]. unfold find in F.
    destruct (0 <=? len prece_names)%Z; [|discriminate F]. cbn [Z.to_nat skipn] in F. apply find_at_bound in F.
    assert (Z.of_nat (List.length prece_names) = 35)%Z by reflexivity. rewrite app_length in F. change (List.length (B " ")) with 1%nat in F.
    assert (0 <= Z.quot i 3 <= 11)%Z. { rewrite Z.quot_div_nonneg by lia. Z.div_mod_to_equations; lia. }
    destruct (loop_inside (table_of l) t n (Z.quot i 3 * Z.of_nat n) (fZ 1) (fZ 0)) as (c & ->); [nia| |cbn [obind]; eauto]. unfold table_of. rewrite map_length, Hl. nia. }
  repeat match goal with |- context [list_eq_dec ?a ?b ?c] => destruct (list_eq_dec a b c) end; cbn [negb]; try (apply G; reflexivity). eauto.
Qed.
(** A name of three bytes does not fit: [strcat] writes behind [char s[4]]. *)
Theorem C33_long_names_refuted : exists nm, len nm = 3%Z /\ forall t mx, prece t nm mx = None.
Proof. exists (B "phi"). split; [reflexivity|]. intros t mx. reflexivity. Qed.
(** Texts that name no quantity are nevertheless answered: the empty name and "i" give psi, "I" gives Pi, "h" theta. *)
Theorem C33_no_quantity_refuted : exists nm t v, ~ In nm (map fst quantities) /\ prece t nm (B "P03") = Some v /\ fltb (fZ 0) v = true.
Proof.
  exists (B "I"), (fZ 1). eexists. split; [|split; [vm_compute; reflexivity|vm_compute; reflexivity]].
  intros H. vm_compute in H. repeat (destruct H as [H|H]; [discriminate H|]). exact H.
Qed.
Example C33_value_example : exists v, prece (fZ 1) (B "p") (B "P03") = Some v /\ ok v /\ Rabs (R64 v - in_radians (R64 dpi) (poly [0; 50287961950000; 11054348000; 796400; -238570; 383]%Z 1)) <= / 30000000000000.
Proof.
  destruct (fZ_ok 1 ltac:(lia)) as [O E]. rewrite <- E.
  apply (C33_value (fZ 1) (B "p") [0; 50290966000000; 11111300000; 60000]%Z [0; 50287969500000; 11111300000; 60000; 0; 0]%Z [0; 50287961950000; 11054348000; 796400; -238570; 383]%Z O).
  - rewrite E, Rabs_R1. lra.
  - unfold quantities. cbv. do 8 right. left. reflexivity.
  - right; right; left; reflexivity.
Qed.
Print Assumptions C33_value.
Print Assumptions C33_short_names.
