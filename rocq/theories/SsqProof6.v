(** Proofs about leap months and month names after -104. *)
From Coq Require Import ZArith Reals Lia Lra Bool List Ascii String.
From Coq Require Import Floats.SpecFloat.
From Flocq Require Import Core.
From Verif Require Import F64 F64R F64T CalProof Str StrModel FmtModel FmtProof2 SsqTab SsqModel SsqSpec SsqProof SsqProof2 SsqProof3 SsqProof4 SsqProof5.
Import ListNotations.
Ltac Zify.zify_post_hook ::= idtac.
Open Scope Z_scope.
Open Scope opt_scope.

Lemma mk_int_inv a b : mk_int a = Some b -> a = b /\ (int_min <= b <= int_max)%Z.
Proof.
  unfold mk_int. destruct (in_int a) eqn:E; [|easy]. intros H. injection H as <-. split; [reflexivity|].
  unfold in_int in E. apply andb_true_iff in E as [E1 E2]. apply Z.leb_le in E1, E2. lia.
Qed.

Lemma int2_tropical_all v : int_min <= v <= int_max ->
  exists y, int2 (fdiv (fZ v) tropical) = Some y /\ (1500000 <= v -> 4000 <= y <= 6000000) /\ (v <= -1500000 -> -6000000 <= y <= -4000) /\
    (Z.abs v <= 1500000 -> y = v * 10000 / 3652422).
Proof.
  intros Hv. unfold int_min, int_max in Hv. destruct (fZ_ok v) as [O1 E1]; [lia|]. destruct trop_ok as [O2 B2].
  assert (RV : (-2147483648 <= IZR v <= 2147483647)%R) by (split; apply IZR_le; lia).
  assert (I1 : (/ 366 <= / R64 tropical <= / 365)%R) by (split; apply Rinv_le; lra).
  assert (Q : (-5900000 <= IZR v / R64 tropical <= 5900000)%R) by (unfold Rdiv; split; nra).
  destruct (fdiv_ok (fZ v) tropical) as [O3 E3]; try assumption; [lra|rewrite E1; abs_small 6000000%R|]. rewrite E1 in E3.
  pose proof (rnd_near (IZR v / R64 tropical) 23 ltac:(lia)) as R1. change (bpow radix2 23) with 8388608%R in R1. specialize (R1 ltac:(lra)).
  change (bpow radix2 (23 - 54)) with (/ 2147483648)%R in R1. rewrite <- E3 in R1.
  pose proof (Zfloor_lb (R64 (fdiv (fZ v) tropical))) as L. pose proof (Zfloor_ub (R64 (fdiv (fZ v) tropical))) as U.
  pose proof (int2_tropical v) as EX. rewrite int2_ok in * by exact O3. set (y := Zfloor (R64 (fdiv (fZ v) tropical))) in *. clearbody y.
  assert (Y : -6000000 < y < 6000000) by (split; apply lt_IZR; lra).
  rewrite mk_int_in in * by (unfold int_min, int_max; lia).
  exists y. split; [reflexivity|]. split; [|split].
  - intros H. apply IZR_le in H. split; [|lia]. assert (3999 < y); [|lia]. apply lt_IZR. unfold Rdiv in *. nra.
  - intros H. apply IZR_le in H. split; [lia|]. assert (y < -3999); [|lia]. apply lt_IZR. unfold Rdiv in *. nra.
  - intros H. specialize (EX H). congruence.
Qed.

(** what calcY returns outside the old era *)
Lemma mapM_at {A C} (f : A -> option C) l r : mapM f l = Some r -> List.length r = List.length l /\
  forall i x, at_ l i = Some x -> exists y, at_ r i = Some y /\ f x = Some y.
Proof.
  intros H. assert (F : Forall2 (fun x y => f x = Some y) l r).
  { revert r H. induction l as [|x l IH]; intros r H; [injection H as <-; constructor|]. cbn [mapM] in H.
    destruct (f x) as [y|] eqn:E; [|discriminate H]. cbn [obind] in H. destruct (mapM f l) as [ys|]; [|discriminate H]. cbn [obind] in H.
    injection H as <-. constructor; [exact E|]. now apply IH. }
  split; [symmetry; exact (Forall2_len _ _ _ F)|]. intros i x Hx. exact (Forall2_at _ _ _ _ _ F Hx).
Qed.

Lemma calcY_new cal jd s : calcY cal jd = Some s -> ~ old_era (tab (s_ZQ s) 0) ->
  List.length (s_ZQ s) = 25%nat /\ List.length (s_HS s) = 15%nat /\ List.length (s_ym s) = 14%nat /\
  leap_of (s_ZQ s) (s_HS s) = Some (s_leap s) /\
  (forall i, 0 <= i < 14 -> exists m, at_ (s_ym s) i = Some m /\ month_name (tab (s_HS s) i + 2451545) (month_no (s_leap s) i) = Some m).
Proof.
  unfold calcY. destruct (sui_terms cal jd) as [[ZQ pe]|] eqn:ET; [|easy]. cbn [obind].
  assert (LZ : List.length ZQ = 25%nat).
  { unfold sui_terms in ET. destruct (int2 _); [|easy]. cbn [obind] in ET. destruct (cal _ _); [|easy]. cbn [obind] in ET.
    destruct (mapM _ (upto 25)) as [Z'|] eqn:EM; [|easy]. cbn [obind] in ET. destruct (cal _ _); [|easy]. cbn [obind] in ET.
    destruct (cal _ _); [|easy]. cbn [obind] in ET. injection ET as <- <-. apply mapM_at in EM as [EM _]. exact EM. }
  rewrite at_tab by lia. cbn [obind]. set (A0 := tab ZQ 0).
  destruct (sui_months cal A0) as [HS|] eqn:EH; [|easy]. cbn [obind].
  assert (LH : List.length HS = 15%nat).
  { unfold sui_months in EH. destruct (cal _ _); [|easy]. cbn [obind] in EH. apply mapM_at in EH as [EH _]. exact EH. }
  destruct (mapM _ (upto 14)) as [dx|]; [|easy]. cbn [obind].
  destruct (mk_int (A0 + 190)) as [t|] eqn:E1; [|easy]. cbn [obind]. apply mk_int_inv in E1 as [<- R1].
  destruct (int2_tropical_all _ R1) as (y & E2 & Y1 & Y2 & Y3). rewrite E2. cbn [obind].
  destruct (mk_int (y + 2000)) as [YY|] eqn:E3; [|easy]. cbn [obind]. apply mk_int_inv in E3 as [<- _].
  destruct (_ && _) eqn:C.
  - apply andb_true_iff in C as [C1 C2]. apply Z.leb_le in C1, C2.
    destruct (mapM _ (upto 3)) as [ns|]; [|easy]. cbn [obind]. destruct (mapM _ (upto 14)) as [ym|]; [|easy]. cbn [obind].
    intros H NO. injection H as <-. exfalso. apply NO. cbn [s_ZQ]. fold A0. unfold old_era, sui_year.
    destruct (Z_le_gt_dec (Z.abs (A0 + 190)) 1500000) as [S|S]; [rewrite <- (Y3 S); lia|]. exfalso. lia.
  - destruct (leap_of ZQ HS) as [leap|] eqn:EL; [|easy]. cbn [obind].
    destruct (mapM _ (upto 14)) as [ym|] eqn:EM; [|easy]. cbn [obind]. intros H _. injection H as <-. cbn [s_ZQ s_HS s_ym s_leap].
    apply mapM_at in EM as [LM PM]. split; [exact LZ|]. split; [exact LH|]. split; [exact LM|]. split; [exact EL|].
    intros i Hi. destruct (PM i i) as (m & E & N); [now apply at_upto|]. exists m. split; [exact E|].
    rewrite at_tab in N by lia. cbn [obind] in N. destruct (mk_int (tab HS i + 2451545)) as [Dm|] eqn:ED; [|easy]. cbn [obind] in N.
    apply mk_int_inv in ED as [<- _]. exact N.
Qed.

Lemma leap_of_ok A B leap : List.length A = 25%nat -> List.length B = 15%nat -> leap_of A B = Some leap ->
  (thirteen (tab A) (tab B) /\ 1 <= leap <= 12 /\ tab B (leap + 1) <= tab A (2 * leap) /\ (forall j, 1 <= j < leap -> tab A (2 * j) < tab B (j + 1))) \/
  (~ thirteen (tab A) (tab B) /\ leap = 0).
Proof.
  intros LA LB. unfold leap_of. rewrite !at_tab by lia. cbn [obind]. unfold thirteen. destruct (Z.leb_spec (tab B 13) (tab A 24)) as [C|C].
  - destruct (leap_loop_ok A B 14 1 LA LB C ltac:(lia) ltac:(lia)) as (k & E & K1 & K2 & K3). rewrite E. intros H. injection H as <-. left. easy.
  - intros H. injection H as <-. right. split; [lia|reflexivity].
Qed.

Lemma month_name_plain Dm v2 m : ~ decreed Dm -> month_name Dm v2 = Some m -> at_ str_ymc (Z.rem v2 12) = Some m.
Proof.
  unfold decreed, month_name. intros N. destruct (at_ str_ymc (Z.rem v2 12)) as [mc|]; [|easy]. cbn [obind].
  repeat match goal with |- context [(?a <=? ?b) && (?c <=? ?d)] =>
    replace ((a <=? b) && (c <=? d)) with false by (symmetry; apply andb_false_iff; rewrite !Z.leb_gt; lia) end.
  cbn [obind]. replace (Dm =? 1729794) with false by (symmetry; apply Z.eqb_neq; lia).
  replace (Dm =? 1808699) with false by (symmetry; apply Z.eqb_neq; lia). cbn [orb]. easy.
Qed.
Lemma month_no_ok leap i : 0 <= i < 14 -> 0 <= leap <= 12 ->
  0 <= month_no leap i <= 13 /\ month_no leap 0 = 0 /\ (i + 1 < 14 -> month_no leap (i + 1) = if (i + 1 =? leap) then month_no leap i else month_no leap i + 1).
Proof.
  intros Hi Hl. unfold month_no. destruct (Z.eqb_spec leap 0); cbn [orb].
  - split; [lia|]. split; [reflexivity|]. destruct (Z.eqb_spec (i + 1) leap); lia.
  - destruct (Z.ltb_spec i leap), (Z.ltb_spec (i + 1) leap), (Z.eqb_spec (i + 1) leap), (Z.ltb_spec 0 leap); lia.
Qed.
