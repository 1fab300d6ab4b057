(** Position codes (C50), choice of a place (C66, C67). *)
From Coq Require Import ZArith List Ascii String Bool Lia Reals Lra.
From Flocq Require Import Core.
From Verif Require Import F64 F64R Str StrModel PosModel PosSpec PosTab PosProof.
Import ListNotations.
Open Scope Z_scope.

(** C50: decoding inverts encoding, up to the rounding of the doubles. *)
Theorem C50_decode_encode wd wm jd jm : 0 <= wd < 62 -> 0 <= wm < 62 -> 73 <= jd < 135 -> 0 <= jm < 62 ->
  match encode wd wm jd jm with
  | [a0; a1; a2; a3] => let (J, W) := position a0 a1 a2 a3 in
      ok J /\ ok W /\ (Rabs (R64 J - degrees jd jm) <= bpow radix2 (-45))%R /\ (Rabs (R64 W - degrees wd wm) <= bpow radix2 (-47))%R
  | _ => False
  end.
Proof. intros. apply position_encode; assumption. Qed.
(** degree and minute can be read back from the coordinates *)
Theorem C50_minutes_back wd wm jd jm : 0 <= wd < 62 -> 0 <= wm < 60 -> 73 <= jd < 135 -> 0 <= jm < 60 ->
  match encode wd wm jd jm with
  | [a0; a1; a2; a3] => let (J, W) := position a0 a1 a2 a3 in
      Zfloor (60 * R64 J + 1 / 2) = 60 * jd + jm /\ Zfloor (60 * R64 W + 1 / 2) = 60 * wd + wm
  | _ => False
  end.
Proof.
  intros H1 H2 H3 H4. pose proof (C50_decode_encode wd wm jd jm H1 ltac:(lia) H3 ltac:(lia)) as Q. unfold encode in *.
  destruct (position _ _ _ _) as [J W]. destruct Q as (_ & _ & E1 & E2). apply Rabs_le_inv in E1, E2. unfold degrees in *.
  change (bpow radix2 (-45)) with (/ 35184372088832)%R in E1. change (bpow radix2 (-47)) with (/ 140737488355328)%R in E2.
  split; apply Zfloor_imp; rewrite !plus_IZR, mult_IZR; lra.
Qed.
(** every code over the alphabet gives coordinates in range *)
Theorem C50_range a0 a1 a2 a3 : forallb in_alphabet [a0; a1; a2; a3] = true ->
  let (J, W) := position a0 a1 a2 a3 in ok J /\ ok W /\ (72.99 <= R64 J <= 135.02)%R /\ (- 0.01 <= R64 W <= 62.02)%R.
Proof.
  cbn [forallb]. rewrite !andb_true_iff. intros (H0 & H1 & H2 & H3 & _).
  destruct (sym_surj _ H0) as (n0 & N0 & ->). destruct (sym_surj _ H1) as (n1 & N1 & ->). destruct (sym_surj _ H2) as (n2 & N2 & ->). destruct (sym_surj _ H3) as (n3 & N3 & ->).
  pose proof (position_encode n0 n1 (n2 + 73) n3 N0 N1 ltac:(lia) N3) as Q. replace (n2 + 73 - 73) with n2 in Q by lia.
  destruct (position _ _ _ _) as [J W]. destruct Q as (O1 & O2 & E1 & E2). apply Rabs_le_inv in E1, E2. unfold degrees in *.
  change (bpow radix2 (-45)) with (/ 35184372088832)%R in E1. change (bpow radix2 (-47)) with (/ 140737488355328)%R in E2. rewrite plus_IZR in E1.
  assert (0 <= IZR n0 <= 61)%R by (split; apply IZR_le; lia). assert (0 <= IZR n1 <= 61)%R by (split; apply IZR_le; lia).
  assert (0 <= IZR n2 <= 61)%R by (split; apply IZR_le; lia). assert (0 <= IZR n3 <= 61)%R by (split; apply IZR_le; lia).
  refine (conj O1 (conj O2 _)). lra.
Qed.
(** the example of the comment lat_lon_data.cpp:14-26: 79 48' east, 12 49' north *)
Example C50_case : encode 12 49 79 48 = B "Cn6m" /\ 0 <= 12 < 62 /\ 0 <= 49 < 60 /\ 73 <= 79 < 135 /\ 0 <= 48 < 60 /\ forallb in_alphabet (B "Cn6m") = true.
Proof. vm_compute. repeat split; discriminate. Qed.

(** the table of the program as provinces, codes and names *)
Definition places : list province := map structure JW.
Theorem C66_table : table_ok places = true /\ map text_of places = JW.
Proof.
  split; [vm_compute; reflexivity|].
  assert (Q : forallb (fun r => beq (text_of (structure r)) r) JW = true) by (vm_compute; reflexivity).
  unfold places. rewrite map_map. rewrite <- (map_id JW) at 2. apply map_ext_in. intros r I. rewrite forallb_forall in Q. apply beq_eq, Q, I.
Qed.

(** C66: for every table, a listed place whose name does not occur earlier in the table is found, whether chosen by number or typed. *)
Theorem C66_listed_place t i j p a0 a1 a2 a3 name : table_ok t = true -> nth_error t i = Some p -> nth_error (snd p) j = Some ([a0; a1; a2; a3], name) ->
  first_of_its_name t i j name ->
  let r := Some (mkJW (fst (position a0 a1 a2 a3)) (snd (position a0 a1 a2 a3)) (fst p) name) in
  GeographicalPosition (map text_of t) (Z.of_nat i + 1) (Z.of_nat j + 1) [] = r /\ GeographicalPosition (map text_of t) 0 0 name = r.
Proof.
  intros T E EJ F. unfold GeographicalPosition. assert (TT := T). unfold table_ok in TT. apply andb_true_iff in TT. rewrite all_names_text by apply TT. cbn [obind].
  rewrite (choose_listed t i j p _ name T E EJ). cbn [obind]. rewrite (search_listed t i j p a0 a1 a2 a3 name T E EJ F). split; [reflexivity|].
  destruct (ok_prov t i p T E) as [P I]. destruct (text_at p j _ name P EJ) as (_ & _ & _ & _ & N & _). apply ok_name in N.
  unfold choose, scan. cbn [Z.eqb]. replace (List.length name <? 48)%nat with true by (symmetry; apply Nat.ltb_lt; lia). cbn [obind].
  rewrite (search_listed t i j p a0 a1 a2 a3 name T E EJ F). reflexivity.
Qed.
(** 福州市, the first place of the second province *)

(** 福州市, the first place of the second province *)
Lemma no_occurrence pat s lo hi : forallb (fun k => negb (beq (firstn (List.length pat) (skipn k s)) pat)) (seq lo (hi - lo)) = true ->
  forall k, (lo <= k < hi)%nat -> ~ occurs_at pat s k.
Proof.
  intros F k K [O _]. rewrite forallb_forall in F. specialize (F k ltac:(apply in_seq; lia)). apply beq_eq in O. rewrite O in F. discriminate F.
Qed.
Example C66_case : exists p, nth_error places 1 = Some p /\ nth_error (snd p) 0 = Some (B "Q5kI", B "福州市") /\ first_of_its_name places 1 0 (B "福州市").
Proof.
  eexists. split; [vm_compute; reflexivity|]. split; [vm_compute; reflexivity|]. split.
  - intros i' p k I E K O. assert (i' = 0)%nat by lia. subst i'. pose proof (proj2 O) as L.
    assert (text_of p = row0) as TX.
    { change (nth_error (map structure JW) 0 = Some p) in E. apply (map_nth_error text_of) in E. fold places in E. rewrite (proj2 C66_table) in E. injection E as <-. reflexivity. }
    rewrite TX in *. assert (LR : List.length row0 = 295%nat) by (vm_compute; reflexivity). rewrite LR in L.
    apply (no_occurrence (B "福州市") row0 8 296) with (k := k); [vm_compute; reflexivity|lia|exact O].
  - intros p k E K O. assert (nth_error places 1 = Some (structure row1)) as E1 by reflexivity. rewrite E1 in E. injection E as <-.
    assert (OF : offset (structure row1) 0 = 14%nat) by (vm_compute; reflexivity). rewrite OF in K.
    assert (text_of (structure row1) = row1) as TX by (apply beq_eq; vm_compute; reflexivity). rewrite TX in O.
    apply (no_occurrence (B "福州市") row1 8 14) with (k := k); [vm_compute; reflexivity|lia|exact O].
Qed.

(** C66 for the table of the program: choosing 鞍山市 of 辽宁省 (province 17, place 8) finds the name inside 马鞍山市 of 安徽省, decodes bytes of that
    name and answers the longitude 196 degrees. *)
Theorem C66_listed_place_refuted : exists i j p c name r, table_ok places = true /\ nth_error places i = Some p /\ nth_error (snd p) j = Some (c, name)
  /\ fst p = B "辽宁省" /\ name = B "鞍山市" /\ c = encode 41 6 122 59
  /\ GeographicalPosition (map text_of places) (Z.of_nat i + 1) (Z.of_nat j + 1) [] = Some r /\ ps r = B "安徽省" /\ fltb (fZ 196) (pJ r) = true.
Proof.
  exists 16%nat, 7%nat. do 4 eexists. split; [apply C66_table|]. rewrite (proj2 C66_table).
  split; [vm_compute; reflexivity|]. split; [vm_compute; reflexivity|]. split; [vm_compute; reflexivity|]. split; [vm_compute; reflexivity|]. split; [vm_compute; reflexivity|].
  split; [vm_compute; reflexivity|]. split; vm_compute; reflexivity.
Qed.
(** 白云区 of 贵州省 (7, 10) is answered with the one of 广东省. *)
Theorem C66_namesake_refuted : exists i j p c name r, nth_error places i = Some p /\ nth_error (snd p) j = Some (c, name)
  /\ fst p = B "贵州省" /\ name = B "白云区" /\ GeographicalPosition (map text_of places) (Z.of_nat i + 1) (Z.of_nat j + 1) [] = Some r /\ ps r = B "广东省".
Proof.
  exists 6%nat, 9%nat. do 4 eexists. rewrite (proj2 C66_table).
  split; [vm_compute; reflexivity|]. split; [vm_compute; reflexivity|]. split; [vm_compute; reflexivity|]. split; [vm_compute; reflexivity|].
  split; vm_compute; reflexivity.
Qed.

(** C67: all answers in the range of the menus, and typed names of up to 47 bytes, are handled without undefined behaviour ... *)
Theorem C67_answers_handled t num num0 typed : table_ok t = true -> 0 <= num <= 32 -> 0 <= num0 < 210 -> (List.length typed < 48)%nat ->
  exists r, GeographicalPosition (map text_of t) num num0 typed = Some r.
Proof.
  intros T N N0 L. unfold GeographicalPosition. assert (TT := T). unfold table_ok in TT. apply andb_true_iff in TT. rewrite all_names_text by apply TT. cbn [obind].
  destruct (choose_defined t num num0 typed T N N0 L) as (s & ->). cbn [obind]. exact (search_defined [] s t [] T).
Qed.
Example C67_case : table_ok places = true /\ 0 <= 17 <= 32 /\ 0 <= 209 < 210 /\ (List.length (B "鞍山市") < 48)%nat.
Proof. split; [apply C66_table|]. split; [lia|]. split; [lia|]. cbn. lia. Qed.
(** ... but any other number is not: from 33 on the uninitialised text is searched, below 0 and from place 210 on the read is outside the array. *)
Theorem C67_other_numbers_refuted t num num0 typed : table_ok t = true -> num < 0 \/ 33 <= num \/ 1 <= num <= 32 /\ (num0 < 0 \/ 210 <= num0) ->
  GeographicalPosition (map text_of t) num num0 typed = None.
Proof.
  intros T H. unfold GeographicalPosition. assert (TT := T). unfold table_ok in TT. apply andb_true_iff in TT. rewrite all_names_text by apply TT. cbn [obind].
  assert (C : choose (shown t) num num0 typed = None); [|rewrite C; reflexivity]. unfold choose.
  destruct (Z.eqb_spec num 0); [lia|]. destruct (Z.ltb_spec num 33); [|reflexivity]. destruct H as [H|[H|[H H']]]; [|lia|].
  - cbn [listing]. unfold cell. replace (0 <=? num - 1) with false by (symmetry; apply Z.leb_gt; lia). reflexivity.
  - destruct (listing 210 (shown t) (num - 1) 1); [|reflexivity]. cbn [obind]. destruct (Z.eqb_spec num0 0); [lia|]. unfold cell.
    replace ((0 <=? num0) && (num0 <? 210))%bool with false by (symmetry; apply andb_false_iff; destruct H'; [left; apply Z.leb_gt; lia|right; apply Z.ltb_ge; lia]).
    rewrite <- andb_assoc. replace ((0 <=? num0) && (num0 <? 210))%bool with false by (symmetry; apply andb_false_iff; destruct H'; [left; apply Z.leb_gt; lia|right; apply Z.ltb_ge; lia]).
    rewrite andb_false_r. reflexivity.
Qed.
Print Assumptions C50_decode_encode.
Print Assumptions C50_minutes_back.
Print Assumptions C50_range.
Print Assumptions C66_table.
Print Assumptions C66_listed_place.
Print Assumptions C66_listed_place_refuted.
Print Assumptions C66_namesake_refuted.
Print Assumptions C67_answers_handled.
Print Assumptions C67_other_numbers_refuted.
