(** C35: the moon series. *)
From Coq Require Import ZArith Reals Lia Lra Bool List Ascii String.
From Coq Require Import Floats.SpecFloat.
From Flocq Require Import Core.
From Verif Require Import F64 F64R F64T Str StrModel SsqModel AngModel AngProps DtProof SerModel SerSpec SerProof SerProof2.
Import ListNotations.
Ltac Zify.zify_post_hook ::= idtac.
Open Scope Z_scope.
Open Scope opt_scope.

Section S.
Variable cosd : f64 -> f64.
Variables (t t2 t3 t4 : f64).
Definition acc6 (c : f64) (x : six) : f64 :=
  let '(a, b, d, e, f, g) := x in fadd c (fmul a (cosd (fadd (fadd (fadd (fadd b (fmul t d)) (fmul t2 e)) (fmul t3 f)) (fmul t4 g)))).
Lemma terms6_ok F : Z.of_nat (List.length F) <= 1000000 -> forall fuel j N c, 0 <= j -> Z.max 0 (N - j) < Z.of_nat fuel -> (0 < N - j -> j + 6 * ((N - j + 5) / 6) <= Z.of_nat (List.length F)) ->
  xl1_terms cosd fuel F t t2 t3 t4 j N c = Some (fold_left acc6 (firstn (Z.to_nat ((N - j + 5) / 6)) (sixes (skipn (Z.to_nat j) F))) c).
Proof.
  intros HF. induction fuel as [|fuel IH]; intros j N c Hj Hf Hb; [lia|]. cbn [xl1_terms].
  destruct (Z.ltb_spec j N) as [L|L].
  - specialize (Hb ltac:(lia)). assert (K : (N - j + 5) / 6 = (N - (j + 6) + 5) / 6 + 1) by (Z.div_mod_to_equations; lia).
    assert (0 <= (N - (j + 6) + 5) / 6) by (Z.div_mod_to_equations; lia).
    destruct (at_in F j ltac:(lia)) as (a & A1 & A2). destruct (at_in F (j + 1) ltac:(lia)) as (b & B1 & B2). destruct (at_in F (j + 2) ltac:(lia)) as (d & D1 & D2).
    destruct (at_in F (j + 3) ltac:(lia)) as (e & E1 & E2). destruct (at_in F (j + 4) ltac:(lia)) as (f & F1 & F2). destruct (at_in F (j + 5) ltac:(lia)) as (g & G1 & G2).
    rewrite A1. cbn [obind]. rewrite B1. cbn [obind]. rewrite D1. cbn [obind]. rewrite E1. cbn [obind]. rewrite F1. cbn [obind]. rewrite G1. cbn [obind]. rewrite mk_int_in by (unfold int_min, int_max; lia). cbn [obind].
    rewrite IH; [|lia|lia|intros; lia]. f_equal.
    rewrite (skipn_cons _ _ _ A2). replace (Datatypes.S (Z.to_nat j)) with (Z.to_nat (j + 1)) by lia. rewrite (skipn_cons _ _ _ B2). replace (Datatypes.S (Z.to_nat (j + 1))) with (Z.to_nat (j + 2)) by lia.
    rewrite (skipn_cons _ _ _ D2). replace (Datatypes.S (Z.to_nat (j + 2))) with (Z.to_nat (j + 3)) by lia. rewrite (skipn_cons _ _ _ E2). replace (Datatypes.S (Z.to_nat (j + 3))) with (Z.to_nat (j + 4)) by lia.
    rewrite (skipn_cons _ _ _ F2). replace (Datatypes.S (Z.to_nat (j + 4))) with (Z.to_nat (j + 5)) by lia. rewrite (skipn_cons _ _ _ G2). replace (Datatypes.S (Z.to_nat (j + 5))) with (Z.to_nat (j + 6)) by lia.
    rewrite K. replace (Z.to_nat ((N - (j + 6) + 5) / 6 + 1)) with (Datatypes.S (Z.to_nat ((N - (j + 6) + 5) / 6))) by lia. reflexivity.
  - replace (Z.to_nat ((N - j + 5) / 6)) with 0%nat by (Z.div_mod_to_equations; lia). reflexivity.
Qed.
Lemma sixes_length : forall m (L : list f64), List.length L = (6 * m)%nat -> List.length (sixes L) = m.
Proof. induction m as [|m IH]; intros L HL; [now destruct L|]. destruct L as [|a [|b [|d [|e [|f [|g L]]]]]]; cbn [List.length] in HL; try lia. cbn. f_equal. apply IH. lia. Qed.
(** the number of doubles read of a table; [n6]: what the code made of n *)
Lemma end6_ok n m m0 i : 0 < m0 <= 442 -> 0 < m <= 442 -> 0 <= i -> n <= 134960 -> let n6 := if n <? 0 then 6 * m0 else 6 * n in
  exists N, xl1_end n6 (6 * m) (6 * m0) i = Some N /\ 0 <= N <= 6 * m /\ (N + 5) / 6 = wanted6 n m0 i m.
Proof.
  intros H0 Hm Hi Hn n6. unfold xl1_end, wanted6.
  assert (B : 0 <= n6 * (6 * m) <= int_max) by (unfold n6, int_max; destruct (Z.ltb_spec n 0); nia).
  rewrite mk_int_in by (unfold int_min, int_max in *; lia). cbn [obind]. destruct (Z.eqb_spec (6 * m0) 0); [lia|]. rewrite Z.quot_div_nonneg by lia.
  set (q := n6 * (6 * m) / (6 * m0)). assert (Q : 0 <= q <= 358000000). { unfold q, int_max in *. split; [apply Z.div_pos; lia|apply Z.div_le_upper_bound; lia]. }
  rewrite half_int by (unfold int_max; lia). cbn [obind].
  assert (E : (q + 5) / 6 = if n <? 0 then m else (6 * n * m + 5 * m0) / (6 * m0)).
  { unfold q, n6. destruct (Z.ltb_spec n 0).
    - replace (6 * m0 * (6 * m)) with ((6 * m) * (6 * m0)) by ring. rewrite Z.div_mul by lia. replace (6 * m + 5) with (5 + m * 6) by ring. rewrite Z.div_add by lia. reflexivity.
    - replace (6 * n * (6 * m)) with (6 * (6 * n * m)) by ring. rewrite Z.div_mul_cancel_l by lia. replace (6 * m0) with (m0 * 6) by ring. rewrite <- Z.div_div by lia. rewrite Z.div_add by lia. reflexivity. }
  assert (M : n < 0 -> q = 6 * m). { intros Hneg. unfold q, n6. destruct (Z.ltb_spec n 0); [|lia]. replace (6 * m0 * (6 * m)) with ((6 * m) * (6 * m0)) by ring. now rewrite Z.div_mul by lia. }
  clearbody q. destruct (Z.eqb_spec i 0) as [->|Hi0].
  - cbn [obind]. destruct (Z.leb_spec (6 * m) q); eexists; (split; [reflexivity|]); (split; [lia|]); destruct (Z.ltb_spec n 0); try (specialize (M ltac:(lia))); try rewrite <- E; Z.div_mod_to_equations; lia.
  - rewrite mk_int_in by (unfold int_min, int_max; lia). cbn [obind].
    destruct (Z.leb_spec (6 * m) (q + 6)); eexists; (split; [reflexivity|]); (split; [lia|]); destruct (Z.ltb_spec n 0); try (specialize (M ltac:(lia))); try rewrite <- E; Z.div_mod_to_equations; lia.
Qed.
Lemma loop6_ok n m0 lens : n <= 134960 -> 0 < m0 <= 442 -> at_ lens 0 = Some (6 * m0) -> forall ms Fs pre preF i tn v, (forall m, In m ms -> 0 < m <= 442) ->
  lens = pre ++ map (Z.mul 6) ms -> Z.of_nat (List.length pre) = i -> List.length preF = List.length pre -> map (fun F => Z.of_nat (List.length F)) Fs = map (Z.mul 6) ms ->
  xl1_loop cosd (List.length ms) (preF ++ Fs) lens (if n <? 0 then 6 * m0 else 6 * n) t t2 t3 t4 i tn v =
  Some (sum_tables cosd t t2 t3 t4 n m0 i (map sixes Fs) tn v).
Proof.
  intros Hn H0 A0. induction ms as [|m ms IH]; intros Fs pre preF i tn v Hms HL Hi HpF HF.
  - destruct Fs as [|F Fs]; [|discriminate HF]. reflexivity.
  - destruct Fs as [|F Fs]; [discriminate HF|]. cbn [map] in HF. assert (HF1 : Z.of_nat (List.length F) = 6 * m) by congruence. assert (HF2 : map (fun F => Z.of_nat (List.length F)) Fs = map (Z.mul 6) ms) by congruence. clear HF. pose proof (Hms m (or_introl eq_refl)) as Hm. cbn [List.length xl1_loop].
    assert (at_ (preF ++ F :: Fs) i = Some F) as ->. { unfold at_. destruct (Z.leb_spec 0 i); [|lia]. rewrite nth_error_app2 by lia. replace (Z.to_nat i - List.length preF)%nat with 0%nat by lia. reflexivity. }
    assert (at_ lens i = Some (6 * m)) as ->. { rewrite HL. unfold at_. destruct (Z.leb_spec 0 i); [|lia]. rewrite nth_error_app2 by lia. replace (Z.to_nat i - List.length pre)%nat with 0%nat by lia. reflexivity. }
    cbn [obind]. rewrite A0. cbn [obind]. destruct (end6_ok n m m0 i H0 Hm ltac:(lia) Hn) as (N & E1 & E2 & E3). cbv zeta in E1. rewrite E1. cbn [obind].
    rewrite terms6_ok; [|lia|lia|lia|intros _; rewrite Z.sub_0_r; Z.div_mod_to_equations; lia]. cbn [obind]. rewrite Z.sub_0_r, E3. cbn [Z.to_nat skipn].
    replace (preF ++ F :: Fs) with ((preF ++ [F]) ++ Fs) by (rewrite <- app_assoc; reflexivity).
    rewrite (IH Fs (pre ++ [6 * m]) (preF ++ [F]) (i + 1)); [|intros; apply Hms; now right|rewrite HL, <- app_assoc; reflexivity|rewrite app_length; cbn [List.length]; lia|rewrite !app_length; cbn [List.length]; lia|exact HF2].
    cbn [map sum_tables]. rewrite (sixes_length (Z.to_nat m)) by lia. rewrite Z2Nat.id by lia. reflexivity.
Qed.
End S.

(** For every coordinate, every time (any double) and every n from -357913941 to 134960, with tables of the lengths given:
    the value is the mean part (in arcseconds for longitude, 0 else) plus the sum of exactly the wanted terms of each table times
    its power of t; longitude and latitude are then divided by [rad].  Nothing outside the tables is read. *)
Theorem C35_value cosd obs zn t n Fs : 0 <= zn <= 2 -> -357913941 <= n <= 134960 -> nth_error obs (Z.to_nat zn) = Some Fs -> moon_tables zn Fs ->
  let t2 := fmul t t in let t3 := fmul t2 t in let t4 := fmul t3 t in
  let s := sum_tables cosd t (fdiv t2 (fZ 10000)) (fdiv t3 (fZ 100000000)) (fdiv t4 (fZ 100000000)) n (nth 0 (moon_terms zn) 0) 0 (map sixes Fs) (fZ 1) (xl1_mean zn t) in
  XL1_calc cosd obs zn t n = Some (if zn =? 2 then s else fdiv s rad).
Proof.
  intros Hz Hn HF HM t2 t3 t4 s. unfold XL1_calc. assert (at_ obs zn = Some Fs) as -> by (unfold at_; destruct (Z.leb_spec 0 zn); [exact HF|lia]).
  cbn [obind]. cbv zeta. rewrite mk_int_in by (unfold int_min, int_max; lia). cbn [obind]. unfold moon_tables in HM.
  assert (G : forall lens, at_ len_M zn = Some lens -> lens = map (Z.mul 6) (moon_terms zn) -> forall m0, at_ lens 0 = Some (6 * m0) -> m0 = nth 0 (moon_terms zn) 0 -> (forall m, In m (moon_terms zn) -> 0 < m <= 442) -> 0 < m0 <= 442 ->
    (let* lens0 := at_ len_M zn in let* l0 := at_ lens0 0 in let* v := xl1_loop cosd (List.length lens0) Fs lens0 (if n * 6 <? 0 then l0 else n * 6) t (fdiv (fmul t t) (fZ 10000)) (fdiv (fmul (fmul t t) t) (fZ 100000000)) (fdiv (fmul (fmul (fmul t t) t) t) (fZ 100000000)) 0 (fZ 1) (xl1_mean zn t) in Some (if zn =? 2 then v else fdiv v rad)) = Some (if zn =? 2 then s else fdiv s rad)).
  { intros lens A1 A2 m0 A3 A4 A5 A6. rewrite A1. cbn [obind]. rewrite A3. cbn [obind].
    replace (if n * 6 <? 0 then 6 * m0 else n * 6) with (if n <? 0 then 6 * m0 else 6 * n) by (destruct (Z.ltb_spec n 0), (Z.ltb_spec (n * 6) 0); lia).
    assert (List.length lens = List.length (moon_terms zn)) as -> by (rewrite A2, map_length; reflexivity).
    rewrite (loop6_ok cosd t _ _ _ n m0 lens ltac:(lia) A6 A3 (moon_terms zn) Fs [] [] 0 _ _ A5 A2 eq_refl eq_refl HM). cbn [obind]. unfold s. rewrite <- A4. reflexivity. }
  assert (zn = 0 \/ zn = 1 \/ zn = 2) as [->|[->| ->]] by lia.
  - apply (G [2652; 894; 204; 12] eq_refl eq_refl 442 eq_refl eq_refl); [|lia]. intros m [<-|[<-|[<-|[<-|[]]]]]; lia.
  - apply (G [1236; 270; 72] eq_refl eq_refl 206 eq_refl eq_refl); [|lia]. intros m [<-|[<-|[<-|[]]]]; lia.
  - apply (G [1326; 312; 72] eq_refl eq_refl 221 eq_refl eq_refl); [|lia]. intros m [<-|[<-|[<-|[]]]]; lia.
Qed.
(** exactly n terms of the first table, or all of them *)
Theorem C35_first_table n m0 : 0 < m0 -> wanted6 n m0 0 m0 = if n <? 0 then m0 else Z.min m0 n.
Proof.
  intros H. unfold wanted6. destruct (Z.ltb_spec n 0); [reflexivity|]. change (0 =? 0) with true. cbv iota. replace (6 * n * m0 + 5 * m0) with (5 * m0 + n * (6 * m0)) by ring. rewrite Z.div_add by lia. rewrite Z.div_small by lia. f_equal. lia.
Qed.
(** one term more than 134960 of the longitude overflows [n * len_M[zn][i]] *)
Theorem C35_overflow_refuted : exists n, n = 134961 /\ forall cosd obs Fs t, nth_error obs 0 = Some Fs -> moon_tables 0 Fs -> XL1_calc cosd obs 0 t n = None.
Proof.
  exists 134961. split; [reflexivity|]. intros cosd obs Fs t H HM. unfold XL1_calc. assert (at_ obs 0 = Some Fs) as -> by exact H. cbn [obind]. cbv zeta. rewrite mk_int_in by (unfold int_min, int_max; lia). cbn [obind].
  change (at_ len_M 0) with (Some [2652; 894; 204; 12]). cbn [obind]. change (at_ [2652; 894; 204; 12] 0) with (Some 2652). cbn [obind List.length xl1_loop].
  destruct Fs as [|F Fs]; [discriminate HM|]. change (at_ (F :: Fs) 0) with (Some F). cbn [obind]. change (at_ [2652; 894; 204; 12] 0) with (Some 2652). cbn [obind]. reflexivity.
Qed.
Example C35_hypotheses : exists Fs, moon_tables 1 Fs /\ moon_terms 1 = [206; 45; 12].
Proof. exists [repeat (fZ 1) 1236; repeat (fZ 2) 270; repeat (fZ 3) 72]. split; [|reflexivity]. unfold moon_tables. cbn [map]. rewrite !repeat_length. reflexivity. Qed.
Print Assumptions C35_value.
