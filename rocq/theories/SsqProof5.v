(** Proofs about the month names of the years -721..-104, continued. *)
From Coq Require Import ZArith Reals Lia Lra Bool List Ascii String.
From Coq Require Import Floats.SpecFloat.
From Flocq Require Import Core.
From Verif Require Import F64 F64R F64T CalProof Str StrModel FmtModel FmtProof2 SsqTab SsqModel SsqSpec SsqProof SsqProof2 SsqProof3 SsqProof4.
Import ListNotations.
Ltac Zify.zify_post_hook ::= idtac.
Open Scope R_scope.
Open Scope opt_scope.

Lemma mapM_ok {A C} (f : A -> option C) (P : A -> C -> Prop) l : (forall x, In x l -> exists y, f x = Some y /\ P x y) ->
  exists r, mapM f l = Some r /\ Forall2 P l r.
Proof.
  induction l as [|x l IH]; intros H; [now exists []|].
  destruct (H x) as (y & E & Py); [now left|]. destruct IH as (r & Er & Pr); [intros; apply H; now right|].
  exists (y :: r). cbn [mapM]. rewrite E. cbn [obind]. rewrite Er. cbn [obind]. split; [reflexivity|]. now constructor.
Qed.
Lemma Forall2_at {A C} (P : A -> C -> Prop) (l : list A) (r : list C) i x : Forall2 P l r -> at_ l i = Some x -> exists y, at_ r i = Some y /\ P x y.
Proof.
  intros H. unfold at_. destruct (0 <=? i)%Z; [|easy]. revert r H. generalize (Z.to_nat i) as n.
  intros n r H. revert n. induction H as [|a c l r P1 _ IH]; intros [|n] E; try easy; cbn in *.
  - injection E as ->. now exists c.
  - now apply IH.
Qed.
Lemma Forall2_len {A C} (P : A -> C -> Prop) l r : Forall2 P l r -> List.length l = List.length r.
Proof. induction 1; cbn; congruence. Qed.
Lemma at_upto n i : (0 <= i < Z.of_nat n)%Z -> at_ (upto n) i = Some i.
Proof.
  intros H. unfold at_, upto. destruct (Z.leb_spec 0 i); [|lia]. rewrite nth_error_map.
  rewrite (nth_error_nth' _ O) by (rewrite seq_length; lia). rewrite seq_nth by lia. cbn. f_equal. lia.
Qed.
Lemma in_upto n i : In i (upto n) -> (0 <= i < Z.of_nat n)%Z.
Proof. unfold upto. intros H. apply in_map_iff in H as (k & <- & H). apply in_seq in H. lia. Qed.

(** the new moons of a year in the linear era *)
Lemma sui_months_ok e A0 : (-993847 <= A0 <= -505000)%Z ->
  exists HS, sui_months (calc e) A0 = Some HS /\ List.length HS = 15%nat /\
    forall i hs, at_ HS i = Some hs -> (-993847 <= hs <= 0)%Z /\ IZR A0 - 465 / 10 <= IZR hs.
Proof.
  intros HA. destruct (fZ_ok A0) as [O1 E1]; [lia|].
  assert (BA : -993847 <= IZR A0 <= -505000) by (split; apply IZR_le; lia).
  destruct (calc_suo_mean e (fZ A0) O1) as (q & EQ & BQ & LQ & DQ); [lra|]. rewrite E1 in BQ.
  unfold sui_months. rewrite EQ. cbn [obind].
  destruct (fZ_ok q) as [O2 E2]. { assert (q <= 0)%Z by (apply le_IZR; lra). lia. }
  assert (W : exists w, (if fgtb (fZ q) (fZ A0) then fsub (fZ q) (lit 2953 100) else fZ q) = w /\ ok w /\
                        -993848 <= R64 w /\ IZR A0 - 297 / 10 <= R64 w <= IZR A0).
  { eexists. split; [reflexivity|]. destruct (fgtb (fZ q) (fZ A0)) eqn:G; change (fgtb (fZ q) (fZ A0)) with (fltb (fZ A0) (fZ q)) in G.
    - apply fltb_true in G; try assumption. rewrite E1, E2 in G. apply lt_IZR in G.
      destruct (lit_near 2953 100 5) as [O3 L3]; try lia. change (bpow radix2 (5 - 54)) with (/ 562949953421312) in L3. apply Rabs_le_inv in L3.
      assert (Q1 : (-993818 <= q)%Z) by lia. assert (Q2 : (A0 + 1 <= q)%Z) by lia. apply IZR_le in Q1, Q2. rewrite plus_IZR in Q2.
      destruct (fsub_near (fZ q) (lit 2953 100) 2000000) as [O4 E4]; try assumption; [rewrite E2; apply Rabs_le; lra|lra|].
      split; [exact O4|]. rewrite E2 in E4. lra.
    - apply fltb_false in G; try assumption. rewrite E1, E2 in G. split; [exact O2|]. rewrite E2. apply IZR_le in LQ. lra. }
  destruct W as (w & -> & Ow & Bw1 & Bw2).
  destruct (mapM_ok (fun i => calc e (fadd w (fmul synodic (fZ i))) 0) (fun _ hs => (-993847 <= hs <= 0)%Z /\ IZR A0 - 465 / 10 <= IZR hs) (upto 15))
    as (HS & EH & PH).
  { intros i Hi. apply in_upto in Hi. destruct (fZ_ok i) as [O3 E3]; [lia|]. destruct syn_ok as [O4 _]. pose proof syn_bounds as S4.
    assert (BI : 0 <= IZR i <= 15) by (split; apply IZR_le; lia).
    assert (SI : 0 <= R64 synodic * IZR i <= 450) by (split; nra).
    assert (OP : ok (fmul synodic (fZ i)) /\ 0 <= R64 (fmul synodic (fZ i)) <= 451).
    { destruct (fmul_near synodic (fZ i) 500 O4 O3) as [O5 E5]; [rewrite E3; apply Rabs_le; lra|lra|]. split; [exact O5|].
      rewrite E3 in E5. split; [|lra]. destruct (fmul_ok synodic (fZ i)) as [_ ->]; try assumption; [rewrite E3; abs_small 500|].
      apply rnd_ge_repr; [apply repr_0|]. rewrite E3. lra. }
    destruct OP as [O5 B5]. set (p := fmul synodic (fZ i)) in *. clearbody p.
    destruct (fadd_near w p 2000000 Ow O5) as [O6 E6]; [apply Rabs_le; lra|lra|].
    set (t := fadd w p) in *. clearbody t.
    destruct (calc_suo_mean e t O6) as (d & ED & BD & LD & _); [lra|]. exists d. split; [exact ED|]. split; [|lra].
    split; [exact LD|]. apply le_IZR. lra. }
  exists HS. split; [exact EH|]. split; [rewrite <- (Forall2_len _ _ _ PH); reflexivity|].
  intros i hs Ehs. assert (Hi : (0 <= i < 15)%Z).
  { unfold at_ in Ehs. destruct (Z.leb_spec 0 i); [|easy]. split; [easy|].
    assert (Z.to_nat i < List.length HS)%nat by (apply nth_error_Some; congruence). rewrite <- (Forall2_len _ _ _ PH) in H0. change (List.length (upto 15)) with 15%nat in H0. lia. }
  destruct (Forall2_at _ _ _ i i PH (at_upto 15 i Hi)) as (y & Ey & Py). rewrite Ehs in Ey. injection Ey as <-. exact Py.
Qed.

(** the head of a year *)
Lemma year_head_ok e yy : (-721 <= yy <= -103)%Z ->
  exists d lp jian, year_head (calc e) yy = Some (d, lp, jian) /\ (-993847 <= d <= 0)%Z /\ (lp = 0 \/ lp = 1)%Z /\ (jian = 2 \/ jian = 11)%Z /\
    IZR d <= 3652421 / 10000 * (IZR yy - 1999) - 250 /\ (yy = (-721)%Z -> d = (-993847)%Z).
Proof.
  intros Hy. assert (BY : -721 <= IZR yy <= -103) by (split; apply IZR_le; lia). pose proof syn_bounds as S.
  destruct (lit_near 342 1000 0) as [Oa La]; try lia. destruct (lit_near 500 1000 0) as [Ob Lb]; try lia. destruct (lit_near 866 1000 0) as [Oc Lc]; try lia.
  destruct (lit_near 12368422 1000000 4) as [Or Lr]; try lia. destruct (lit_near 12369000 1000000 4) as [Os Ls]; try lia.
  apply Rabs_le_inv in La, Lb, Lc, Lr, Ls.
  change (bpow radix2 (0 - 54)) with (/ 18014398509481984) in *. change (bpow radix2 (4 - 54)) with (/ 1125899906842624) in *.
  assert (H1 : exists d, head_day (calc e) 1457698 (lit 342 1000) yy 721 (lit 12368422 1000000) = Some d /\ (-993847 <= d <= 0)%Z /\
    (yy = (-721)%Z -> d = (-993847)%Z) /\ ((yy <= -220)%Z -> IZR d <= 3652421 / 10000 * (IZR yy - 1999) - 250)).
  { destruct (head_day_ok e 1457698 (lit 342 1000) yy 721 (lit 12368422 1000000)) as (d & E1 & R1 & D1 & B1); try assumption; try lra; try lia.
    { rewrite plus_IZR. lra. }
    rewrite plus_IZR in B1. exists d. split; [exact E1|]. split; [exact R1|]. split.
    - intros ->. replace (-721 + 721) with 0 in B1 by lra. rewrite Rmult_0_l in B1.
      assert (d < -993818)%Z by (apply lt_IZR; nra). lia.
    - intros H. apply IZR_le in H. assert (IZR yy + 721 >= 0) by lra.
      assert (U1 : R64 synodic * (R64 (lit 342 1000) + (IZR yy + 721) * R64 (lit 12368422 1000000) + / 1000) <= 29531 / 1000 * (344 / 1000 + (IZR yy + 721) * (1236843 / 100000))).
      { apply Rmult_le_compat; nra. }
      lra. }
  assert (H2 : (-479 <= yy)%Z -> exists d, head_day (calc e) 1546083 (lit 500 1000) yy 479 (lit 12368422 1000000) = Some d /\ (-993847 <= d <= 0)%Z /\
    IZR d <= 3652421 / 10000 * (IZR yy - 1999) - 250).
  { intros H. destruct (head_day_ok e 1546083 (lit 500 1000) yy 479 (lit 12368422 1000000)) as (d & E1 & R1 & D1 & B1); try assumption; try lra; try lia.
    { rewrite plus_IZR. lra. }
    rewrite plus_IZR in B1. exists d. split; [exact E1|]. split; [exact R1|].
    apply IZR_le in H. 
      assert (U1 : R64 synodic * (R64 (lit 500 1000) + (IZR yy + 479) * R64 (lit 12368422 1000000) + / 1000) <= 29531 / 1000 * (502 / 1000 + (IZR yy + 479) * (1236843 / 100000))).
      { apply Rmult_le_compat; nra. }
      lra. }
  assert (H3 : (-220 <= yy)%Z -> exists d, head_day (calc e) 1640641 (lit 866 1000) yy 220 (lit 12369000 1000000) = Some d /\ (-993847 <= d <= 0)%Z /\
    IZR d <= 3652421 / 10000 * (IZR yy - 1999) - 250).
  { intros H. destruct (head_day_ok e 1640641 (lit 866 1000) yy 220 (lit 12369000 1000000)) as (d & E1 & R1 & D1 & B1); try assumption; try lra; try lia.
    { rewrite plus_IZR. lra. }
    rewrite plus_IZR in B1. exists d. split; [exact E1|]. split; [exact R1|].
    apply IZR_le in H. 
      assert (U1 : R64 synodic * (R64 (lit 866 1000) + (IZR yy + 220) * R64 (lit 12369000 1000000) + / 1000) <= 29531 / 1000 * (868 / 1000 + (IZR yy + 220) * (1236901 / 100000))).
      { apply Rmult_le_compat; nra. }
      lra. }
  destruct H1 as (d1 & E1 & R1 & M1 & B1). unfold year_head.
  replace (-721 <=? yy)%Z with true by (symmetry; apply Z.leb_le; lia). rewrite E1. cbn [obind].
  destruct (Z.leb_spec (-479) yy) as [C2|C2].
  - destruct (H2 C2) as (d2 & E2 & R2 & B2). rewrite E2. cbn [obind]. destruct (Z.leb_spec (-220) yy) as [C3|C3].
    + destruct (H3 C3) as (d3 & E3 & R3 & B3). rewrite E3. cbn [obind]. exists d3, 1%Z, 11%Z.
      refine (conj eq_refl (conj R3 (conj (or_intror eq_refl) (conj (or_intror eq_refl) (conj B3 _))))). lia.
    + exists d2, 0%Z, 2%Z. refine (conj eq_refl (conj R2 (conj (or_introl eq_refl) (conj (or_introl eq_refl) (conj B2 _))))). lia.
  - cbn [obind]. replace (-220 <=? yy)%Z with false by (symmetry; apply Z.leb_gt; lia).
    exists d1, 0%Z, 2%Z. refine (conj eq_refl (conj R1 (conj (or_introl eq_refl) (conj (or_introl eq_refl) (conj (B1 _) M1))))). lia.
Qed.

(** names *)
Definition month_names_all : list bytes := str_ymc ++ [B "十三"; B "后九"].
Lemma at_in {A} (l : list A) i x : at_ l i = Some x -> In x l.
Proof. unfold at_. destruct (0 <=? i)%Z; [|easy]. apply nth_error_In. Qed.
Lemma rem12 v : (0 <= v)%Z -> exists m, at_ str_ymc (Z.rem v 12) = Some m /\ In m str_ymc.
Proof.
  intros H. destruct (at_some str_ymc (Z.rem v 12)) as [m E].
  - change (Z.of_nat (List.length str_ymc)) with 12%Z. pose proof (Z.rem_bound_pos v 12). lia.
  - exists m. split; [exact E|]. now apply at_in in E.
Qed.

Definition head_fine (h : Z * Z * Z) : Prop :=
  let '(d, lp, jian) := h in (-993847 <= d <= 0)%Z /\ (lp = 0 \/ lp = 1)%Z /\ (0 <= jian <= 11)%Z.
Lemma old_name_ok (ns : list (Z * Z * Z)) hs : List.length ns = 3%nat -> Forall head_fine ns -> (-993847 <= hs <= 0)%Z ->
  (exists i d lp jian, (0 <= i <= 2)%Z /\ at_ ns i = Some (d, lp, jian) /\ (d <= hs)%Z) ->
  (0 <= head_search ns hs <= 2)%Z /\ exists m, old_name ns hs = Some m /\ In m month_names_all.
Proof.
  intros L F Hh (i & d & lp & jian & Hi & Ei & Hd).
  assert (S : exists j h, head_search ns hs = j /\ (0 <= j <= 2)%Z /\ at_ ns j = Some h /\ (fst (fst h) <= hs)%Z).
  { unfold head_search. destruct (at_some ns 2) as [h2 E2]; [lia|]. destruct (at_some ns 1) as [h1 E1]; [lia|]. destruct (at_some ns 0) as [h0 E0]; [lia|].
    destruct h2 as [[a2 b2] c2], h1 as [[a1 b1] c1], h0 as [[a0 b0] c0]. rewrite E2, E1, E0.
    destruct (Z.leb_spec a2 hs); [exists 2%Z, (a2, b2, c2); cbn [fst]; refine (conj eq_refl (conj _ (conj E2 _))); lia|].
    destruct (Z.leb_spec a1 hs); [exists 1%Z, (a1, b1, c1); cbn [fst]; refine (conj eq_refl (conj _ (conj E1 _))); lia|].
    destruct (Z.leb_spec a0 hs); [exists 0%Z, (a0, b0, c0); cbn [fst]; refine (conj eq_refl (conj _ (conj E0 _))); lia|].
    exfalso. assert (i = 0 \/ i = 1 \/ i = 2)%Z as [->|[->| ->]] by lia.
    - rewrite Ei in E0. injection E0 as <- <- <-. lia.
    - rewrite Ei in E1. injection E1 as <- <- <-. lia.
    - rewrite Ei in E2. injection E2 as <- <- <-. lia. }
  destruct S as (j & h & EJ & HJ & AJ & HD). split; [lia|]. unfold old_name. rewrite EJ, AJ. destruct h as [[d' lp'] jian']. cbn [obind fst] in *.
  assert (FH : head_fine (d', lp', jian')). { rewrite Forall_forall in F. apply F. now apply at_in in AJ. }
  destruct FH as (B1 & B2 & B3).
  rewrite mk_int_in by (unfold int_min, int_max; lia). cbn [obind].
  rewrite mk_int_in by (unfold int_min, int_max; lia). cbn [obind].
  set (v := (hs - d' + 15)%Z) in *. assert (Bv : (15 <= v <= 993862)%Z) by lia. clearbody v.
  destruct (fZ_ok v) as [O1 E1]; [lia|]. assert (RV : 15 <= IZR v <= 993862) by (split; apply IZR_le; lia).
  destruct syn_ok as [O2 S2]. destruct (quo_bounds (fZ v) synodic 100000 O1 O2) as [O3 B4]; rewrite ?E1; try lra.
  destruct (int2_range (fdiv (fZ v) synodic) 100001 O3) as (f & EF & BF); [lra|lia|]. rewrite EF. cbn [obind].
  destruct (Z.ltb_spec f 12).
  - destruct (rem12 (f + jian')) as (m & Em & Im); [lia|]. exists m. split; [exact Em|]. apply in_or_app. now left.
  - destruct B2 as [->| ->]; eexists; (split; [reflexivity|]); apply in_or_app; right; [now left|right; now left].
Qed.

(** years counted from the solstices *)
Lemma int2_tropical v : (Z.abs v <= 1500000)%Z -> int2 (fdiv (fZ v) tropical) = Some (v * 10000 / 3652422)%Z.
Proof.
  intros Hv. destruct (fZ_ok v) as [O1 E1]; [lia|]. destruct trop_ok as [O2 B2].
  destruct (lit_near 3652422 10000 9) as [_ L]; try lia. fold tropical in L. change (bpow radix2 (9 - 54)) with (/ 35184372088832) in L.
  apply Rabs_le_inv in L.
  assert (RV : -1500000 <= IZR v <= 1500000) by (split; apply IZR_le; lia).
  assert (I : / R64 tropical - / (3652422 / 10000) = (3652422 / 10000 - R64 tropical) * (/ R64 tropical * / (3652422 / 10000))) by (field; lra).
  assert (I1 : 0 < / R64 tropical <= 1) by (split; [apply Rinv_0_lt_compat; lra|rewrite <- Rinv_1; apply Rinv_le; lra]).
  assert (I2 : 0 < / (3652422 / 10000) <= 1) by lra.
  assert (I3 : 0 < / R64 tropical * / (3652422 / 10000) <= 1) by (split; nra).
  assert (I4 : - / 35184372088832 <= / R64 tropical - / (3652422 / 10000) <= / 35184372088832) by (rewrite I; split; nra).
  assert (Q : - / 20000000 <= IZR v / R64 tropical - IZR v / (3652422 / 10000) <= / 20000000).
  { replace (IZR v / R64 tropical - IZR v / (3652422 / 10000)) with (IZR v * (/ R64 tropical - / (3652422 / 10000))) by (field; lra).
    split; nra. }
  assert (Q2 : - 5000 <= IZR v / (3652422 / 10000) <= 5000) by lra.
  destruct (fdiv_ok (fZ v) tropical) as [O3 E3]; try assumption; [lra|rewrite E1; abs_small 6000|]. rewrite E1 in E3.
  pose proof (rnd_near (IZR v / R64 tropical) 13 ltac:(lia)) as R1. change (bpow radix2 13) with 8192 in R1. specialize (R1 ltac:(lra)).
  change (bpow radix2 (13 - 54)) with (/ 2199023255552) in R1. rewrite <- E3 in R1.
  rewrite int2_ok by exact O3.
  assert (F : Zfloor (R64 (fdiv (fZ v) tropical)) = (v * 10000 / 3652422)%Z).
  { destruct (Z.eq_dec v 0) as [->|NZ].
    { apply Zfloor_imp. assert (Z0 : R64 (fdiv (fZ 0) tropical) = 0).
      { rewrite E3. unfold Rdiv. rewrite Rmult_0_l. apply rnd_repr, repr_0. }
      rewrite Z0. change (0 * 10000 / 3652422)%Z with 0%Z. split; simpl IZR; lra. }
    pose proof (Z.div_mod (v * 10000) 3652422 ltac:(lia)) as DM. pose proof (Z.mod_pos_bound (v * 10000) 3652422 ltac:(lia)) as MB.
    set (n := (v * 10000 / 3652422)%Z) in *. set (r := ((v * 10000) mod 3652422)%Z) in *. clearbody n r.
    assert (NR : r <> 0%Z).
    { intros ->. assert (E5 : (5000 * v = 1826211 * n)%Z) by lia.
      assert (D : (1826211 | v)%Z).
      { apply (Z.gauss 1826211 5000); [exists n; lia|vm_compute; reflexivity]. }
      destruct D as [k Dk]. assert (k = 0)%Z by lia. subst k. lia. }
    apply IZR_eq in DM. rewrite plus_IZR, !mult_IZR in DM.
    assert (1 <= IZR r <= 3652421) by (split; apply IZR_le; lia).
    apply Zfloor_imp. rewrite plus_IZR. split; lra. }
  rewrite F. apply mk_int_in. unfold int_min, int_max. Z.div_mod_to_equations. lia.
Qed.

Lemma old_years e jd ZQ pe A0 YY : sui_terms (calc e) jd = Some (ZQ, pe) -> at_ ZQ 0 = Some A0 ->
  YY = (2000 + (A0 + 190) * 10000 / 3652422)%Z -> (-721 <= YY <= -104)%Z -> (YY = (-721)%Z -> (-993847 <= A0)%Z) ->
  exists s, calcY (calc e) jd = Some s /\ s_leap s = 0%Z /\ List.length (s_ym s) = 14%nat /\ forall m, In m (s_ym s) -> In m month_names_all.
Proof.
  intros ET EA EY HY H721. unfold calcY. rewrite ET. cbn [obind]. rewrite EA. cbn [obind].
  assert (A1 : ((YY - 2000) * 3652422 <= (A0 + 190) * 10000 < (YY - 1999) * 3652422)%Z).
  { subst YY. pose proof (Z.div_mod ((A0 + 190) * 10000) 3652422 ltac:(lia)). pose proof (Z.mod_pos_bound ((A0 + 190) * 10000) 3652422 ltac:(lia)). lia. }
  assert (BA : (-993847 <= A0 <= -505000)%Z).
  { destruct (Z.eq_dec YY (-721)) as [E|]; [specialize (H721 E)|]; lia. }
  destruct (sui_months_ok e A0 BA) as (HS & EH & LH & PH). rewrite EH. cbn [obind].
  destruct (mapM_ok (fun i => let* a := at_ HS (i + 1)%Z in let* b := at_ HS i in mk_int (a - b)) (fun _ _ => True) (upto 14)) as (dx & EX & _).
  { intros i Hi. apply in_upto in Hi. destruct (at_some HS (i + 1)%Z) as [a Ea]; [lia|]. destruct (at_some HS i) as [b Eb]; [lia|].
    rewrite Ea, Eb. cbn [obind]. pose proof (PH _ _ Ea). pose proof (PH _ _ Eb). eexists. split; [|exact I].
    apply mk_int_in. unfold int_min, int_max. lia. }
  rewrite EX. cbn [obind].
  rewrite mk_int_in by (unfold int_min, int_max; lia). cbn [obind]. rewrite int2_tropical by lia. cbn [obind].
  rewrite mk_int_in by (unfold int_min, int_max; lia). cbn [obind].
  replace ((A0 + 190) * 10000 / 3652422 + 2000)%Z with YY by lia.
  replace (-721 <=? YY)%Z with true by (symmetry; apply Z.leb_le; lia). replace (YY <=? -104)%Z with true by (symmetry; apply Z.leb_le; lia).
  cbn [andb].
  destruct (mapM_ok (fun i => year_head (calc e) (YY + i - 1)) (fun i h => head_fine h /\
     ((-721 <= YY + i - 1)%Z -> IZR (fst (fst h)) <= 3652421 / 10000 * (IZR (YY + i - 1) - 1999) - 250 /\ (YY + i - 1 = -721 -> fst (fst h) = -993847)%Z)) (upto 3))
    as (ns & EN & PN).
  { intros i Hi. apply in_upto in Hi. destruct (Z.eq_dec (YY + i - 1) (-722)) as [E|N].
    - rewrite E. exists (0, 0, 0)%Z. split; [reflexivity|]. split; [unfold head_fine; lia|lia].
    - destruct (year_head_ok e (YY + i - 1)) as (d & lp & jian & E & B1 & B2 & B3 & B4 & B5); [lia|]. exists (d, lp, jian).
      split; [exact E|]. split; [unfold head_fine; lia|]. intros _. cbn [fst]. split; [exact B4|exact B5]. }
  rewrite EN. cbn [obind].
  assert (LN : List.length ns = 3%nat) by (rewrite <- (Forall2_len _ _ _ PN); reflexivity).
  assert (FN : Forall head_fine ns).
  { clear -PN. induction PN as [|? ? ? ? [P1 _] _ IH]; constructor; assumption. }
  destruct (mapM_ok (fun i => let* hs := at_ HS i in old_name ns hs) (fun _ m => In m month_names_all) (upto 14)) as (ym & EM & PM).
  { intros i Hi. apply in_upto in Hi. destruct (at_some HS i) as [hs Eh]; [lia|]. rewrite Eh. cbn [obind]. destruct (PH _ _ Eh) as [B1 B2].
    destruct (old_name_ok ns hs LN FN B1) as (_ & m & Em & Im); [|now exists m].
    destruct (Z.eq_dec YY (-721)) as [E|N].
    - destruct (Forall2_at _ _ _ 1%Z 1%Z PN (at_upto 3 1 ltac:(lia))) as (h & Eh1 & _ & Ph1). destruct h as [[d lp] jian]. cbn [fst] in Ph1.
      exists 1%Z, d, lp, jian. split; [lia|]. split; [exact Eh1|]. destruct Ph1 as [_ Q]; [lia|]. rewrite Q by lia. lia.
    - destruct (Forall2_at _ _ _ 0%Z 0%Z PN (at_upto 3 0 ltac:(lia))) as (h & Eh1 & _ & Ph1). destruct h as [[d lp] jian]. cbn [fst] in Ph1.
      exists 0%Z, d, lp, jian. split; [lia|]. split; [exact Eh1|]. destruct Ph1 as [Q _]; [lia|].
      apply le_IZR. destruct A1 as [A1 _]. apply IZR_le in A1. rewrite !mult_IZR, minus_IZR, plus_IZR in A1. rewrite !minus_IZR, !plus_IZR in Q.
      assert (-720 <= IZR YY <= -104) by (split; apply IZR_le; lia). lra. }
  rewrite EM. cbn [obind]. eexists. split; [reflexivity|]. cbn [s_leap s_ym]. split; [reflexivity|].
  split; [rewrite <- (Forall2_len _ _ _ PM); reflexivity|].
  intros m Hm. clear -PM Hm. induction PM as [|? ? ? ? P1 _ IH]; [easy|]. destruct Hm as [->|Hm]; [exact P1|now apply IH].
Qed.
