(** C100: the list of solar eclipses goes through the new moons one by one. *)
From Coq Require Import ZArith Reals Lia Lra Bool List String Ascii.
From Coq Require Import Floats.SpecFloat.
From Flocq Require Import Core IEEE754.BinarySingleNaN.
From Verif Require Import F64 F64R F64T F64E AngModel PiBound ErrExpr SmTab SerModel SerSpec FormModel FormSpec FormProps SmModel EsProof.
From Verif Require Import CalModel CalSpec CalZ CalZ2 CalProof CalProps Str DecSpec FmtModel FmtSpec FmtProps TermDay.
From Verif Require RsgsModel RsgsProps.
From Verif Require Import EcModel EcSpec EcProof EcProps EsModel EsSpec IllProps.
Import ListNotations.
Open Scope R_scope.
Open Scope list_scope.

Section Lib.
Variables (fsin fcos : f64 -> f64) (XL1 : list (list (list f64))) (feature : bool -> Z -> f64 * string).
Hypothesis Gs : good_lib fsin sin.
Hypothesis Gc : good_lib fcos cos.
Hypothesis H1 : nth_error XL1 0 = Some moon_lon_tables.

(** the two ways of numbering agree *)
Lemma lunation_num jd k : ok jd -> Rabs (R64 jd) <= 2950000 -> R64 (ec_num jd) = IZR k -> (Z.abs k <= 100000)%Z -> lunation jd = Some k.
Proof.
  intros O B V K. pose proof (given_ok jd 2950000 O B) as N. assert (E : env_ok [jd] [R64 jd] [given 2950000]) by (constructor; [exact N|constructor]). unfold ec_num in V. unfold lunation.
  assert (X : ok (fdiv (fadd jd (fZ 8)) (lit 295306 10000)) /\ Rabs (R64 (fdiv (fadd jd (fZ 8)) (lit 295306 10000)) - (R64 jd + 8) / 29.5306) <= IZR 126765060022822940149 * U).
  { eapply (formula_ok fsin fcos Gs Gc _ _ _ (EDiv (EAdd (EV 0) (EZ 8)) (EL 295306 10000)) _ _ _ E); [reflexivity|cbn [evR nth]; decs; reflexivity|vm_compute; reflexivity]. }
  destruct X as [Ox _]. destruct (ffloor_ok _ Ox) as [_ Vf]. rewrite Vf in V. apply eq_IZR in V. rewrite int2_ok by exact Ox. rewrite V. apply mk_int_in. unfold int_min, int_max. lia.
Qed.
Lemma num_of jd k : ok jd -> Rabs (R64 jd) <= 2950000 -> lunation jd = Some k -> ok (ec_num jd) /\ R64 (ec_num jd) = IZR k.
Proof.
  intros O B L. destruct (num_val jd O B) as (On & k' & V & K & _). rewrite (lunation_num jd k' O B V K) in L. injection L as <-. split; assumption.
Qed.

(** the date of an entry *)
Lemma date_part jd : ok jd -> Rabs (R64 jd) <= 2950000 -> exists t d, JD2str (fadd jd (fZ 2451545)) = Some t /\ substr t 0 11 = Some d /\ forall lx, entry jd lx (d ++ B lx).
Proof.
  intros O Bj. apply Rabs_le_inv in Bj. assert (E : env_ok [jd] [R64 jd] [given 2950000]) by (constructor; [apply given_ok; [exact O|apply Rabs_le; lra]|constructor]).
  assert (X : ok (fadd jd (fZ 2451545)) /\ Rabs (R64 (fadd jd (fZ 2451545)) - (R64 jd + 2451545)) <= IZR 1267650600228229401496703 * U) by formula2 fsin fcos Gs Gc [jd] E.
  destruct X as [Ox Dx]. set (x := fadd jd (fZ 2451545)) in *. clearbody x. apply Rabs_le_inv in Dx. assert (EU : 1267650600228229401496703 * U <= 1 / 1000000) by (unfold U, one; lra).
  destruct (C06_JD2str_partial x 26 Ox ltac:(lia) ltac:(lra)) as (t & n & y & mo & d & hh & mm & ss & Et & Dt & Dn & Hh & Hm & Hs & H24 & Hi). { change (bpow radix2 26) with 67108864. apply Rabs_le. lra. }
  destruct Dt as (ty & tmo & td & th & tm & ts & -> & By & Bm & Bd & _). pose proof By as (kk & dd & _ & _ & Ly). pose proof Bm as (Lm & _). pose proof Bd as (Ld & _).
  eexists. exists (ty ++ B "-" ++ tmo ++ B "-" ++ td). split; [exact Et|]. split.
  - unfold substr. match goal with |- context [(0 <=? len ?s)%Z] => replace (0 <=? len s)%Z with true by (symmetry; apply Z.leb_le; unfold len; lia) end. change ((0 <=? 0)%Z) with true. cbn [andb]. f_equal. change (Z.to_nat 11) with 11%nat. change (Z.to_nat 0) with 0%nat. cbn [skipn].
    replace (ty ++ B "-" ++ tmo ++ B "-" ++ td ++ B " " ++ th ++ B ":" ++ tm ++ B ":" ++ ts) with ((ty ++ B "-" ++ tmo ++ B "-" ++ td) ++ B " " ++ th ++ B ":" ++ tm ++ B ":" ++ ts) by (rewrite <- !app_assoc; reflexivity).
    set (p := ty ++ B "-" ++ tmo ++ B "-" ++ td). assert (L : List.length p = 11%nat) by (unfold p; rewrite !app_length, Ly, Lm, Ld; reflexivity). rewrite firstn_app, L, Nat.sub_diag, firstn_O, app_nil_r, <- L. apply firstn_all.
  - intros lx. exists n, y, mo, d, ty, tmo, td. split; [reflexivity|]. split; [exact By|]. split; [exact Bm|]. split; [exact Bd|]. split; [exact Dn|].
    change (bpow radix2 (26 - 52)) with (/ 67108864) in Hi. apply Rabs_le_inv in Hi. assert (S1 : (0 <= hh * 3600 + mm * 60 + ss <= 86400)%Z) by (destruct (Z.eq_dec hh 24) as [->|]; [destruct (H24 eq_refl); lia|lia]).
    destruct S1 as [S1 S2]. apply IZR_le in S1, S2. split; lra.
Qed.

(** the close examination finds a moment within eight days of the mean new moon *)
Hypothesis near_mean : forall fs k, (Z.abs k <= 99000)%Z -> ok (fst (feature fs k)) /\ Rabs (R64 (fst (feature fs k)) - 36525 * mean_new (IZR k)) <= 8.

Lemma one_round fs jd k : ok jd -> Rabs (R64 jd) <= 2950000 -> ok (ec_num jd) -> R64 (ec_num jd) = IZR k -> (Z.abs k < 99000)%Z ->
  exists it, answer fsin fcos feature fs jd = Some it /\ item (feature fs) k it /\ ok (fst it) /\ Rabs (R64 (fst it) - 36525 * mean_new (IZR k)) <= 8.
Proof.
  intros O B On V K. destruct (eclipse_of fsin fcos jd k Gs Gc V On ltac:(lia)) as (Oj & D & CS). unfold answer. set (r := ecFast fsin fcos jd) in *. clearbody r. destruct (ec_ac r) eqn:A.
  - exists (ec_jd r, ec_lx r). split; [reflexivity|]. cbn [fst]. split; [|split; [exact Oj|lra]]. destruct CS as [(L & A' & N & M)|(N & M & C & _)].
    + rewrite L. now apply far_from_node.
    + destruct (C eq_refl) as [C1 C2]. now apply certain.
  - rewrite (lunation_num jd k O B V ltac:(lia)). cbn [obind]. exists (feature fs k). split; [reflexivity|]. split; [|apply near_mean; lia]. destruct CS as [(L & A' & N & M)|(N & M & _ & C)].
    + congruence.
    + apply examined; [exact N|]. now apply C.
Qed.
Lemma next_of jd k : ok jd -> (Z.abs k < 99000)%Z -> Rabs (R64 jd - 36525 * mean_new (IZR k)) <= 8 -> Rabs (R64 jd) <= 2950000 /\
  (let x := fadd jd (lit 295306 10000) in ok x /\ ok (ec_num x) /\ R64 (ec_num x) = IZR (k + 1) /\ Rabs (R64 x) <= 2950000).
Proof.
  intros O K D. assert (BK : Rabs (IZR k) <= 99000) by (rewrite <- abs_IZR; apply IZR_le; lia). pose proof (mean_line (IZR k) ltac:(lra)) as M.
  assert (BJ : Rabs (R64 jd) <= 2940000) by (apply Rabs_le_inv in D, BK; revert M; decs; intros M; apply Rabs_le_inv in M; apply Rabs_le; lra). split; [lra|]. cbv zeta.
  assert (E : env_ok [jd] [R64 jd] [given 2940000]) by (constructor; [apply given_ok; assumption|constructor]).
  assert (X : ok (fadd jd (lit 295306 10000)) /\ Rabs (R64 (fadd jd (lit 295306 10000)) - (R64 jd + 29.5306)) <= IZR 1267650600228229401496703 * U) by formula2 fsin fcos Gs Gc [jd] E.
  destruct X as [Ox Dx]. set (x := fadd jd (lit 295306 10000)) in *. clearbody x. assert (EU : 1267650600228229401496703 * U <= 1 / 1000000) by (unfold U, one; lra).
  revert Dx. decs. intros Dx. apply Rabs_le_inv in Dx. apply Rabs_le_inv in BJ. split; [exact Ox|].
  destruct (num_next x k Ox K) as [A V]. { apply Rabs_le_inv in D. decs. apply Rabs_le. lra. }
  split; [exact A|]. split; [exact V|]. apply Rabs_le. lra.
Qed.

Lemma loop_ok fs : forall i jd k c s s2, ok jd -> Rabs (R64 jd) <= 2950000 -> ok (ec_num jd) -> R64 (ec_num jd) = IZR k -> (-99000 < k)%Z -> (k + Z.of_nat i < 99000)%Z ->
  exists items t, search_loop fsin fcos feature fs i jd (Z.of_nat c) s s2 = Some (s2 ++ s ++ t) /\ Forall2 (item (feature fs)) (numbers_from k i) items /\ report c items t.
Proof.
  induction i as [|i IH]; intros jd k c s s2 O Bj On V K1 K2.
  - exists [], []. cbn [search_loop numbers_from]. rewrite app_nil_r. split; [reflexivity|]. split; constructor.
  - cbn [search_loop numbers_from]. destruct (String.eqb_spec (ec_lx (ecFast fsin fcos jd)) "NN") as [NN|_].
    { pose proof (C88_letters fsin fcos jd) as L. rewrite NN in L. cbn [In] in L. exfalso. repeat (destruct L as [L|L]; [discriminate L|]). exact L. }
    destruct (one_round fs jd k O Bj On V ltac:(lia)) as ([rjd lx] & -> & IT & Or & Dr). cbn [obind fst] in *.
    destruct (next_of rjd k Or ltac:(lia) Dr) as (Br & Ox & Onx & Vx & Bx). destruct (String.eqb_spec lx "N") as [->|NL].
    + destruct (IH _ (k + 1)%Z c s s2 Ox Bx Onx Vx ltac:(lia) ltac:(lia)) as (items & t & E & F & R). exists ((rjd, "N"%string) :: items), t. split; [exact E|]. split; [now constructor|now constructor].
    + destruct (date_part rjd Or Br) as (txt & d & -> & Ed & EN). cbn [obind]. rewrite Ed. cbn [obind].
      replace (Z.of_nat c + 1)%Z with (Z.of_nat (S c)) by lia. rewrite !Z.rem_mod_nonneg by lia.
      assert (M5 : (Z.of_nat (S c) mod 5 =? 0)%Z = Nat.eqb (S c mod 5) 0).
      { change 5%Z with (Z.of_nat 5). rewrite <- Nat2Z.inj_mod. destruct (Nat.eqb_spec (S c mod 5) 0) as [->|N]; [reflexivity|]. apply Z.eqb_neq. lia. }
      rewrite M5. set (nl := if Nat.eqb (S c mod 5) 0 then [ascii_of_nat 10] else []).
      assert (S' : (if Nat.eqb (S c mod 5) 0 then ((s ++ d) ++ B lx) ++ B (String (ascii_of_nat 10) "") else (s ++ d) ++ B lx) = s ++ (d ++ B lx) ++ nl) by (unfold nl; destruct (Nat.eqb (S c mod 5) 0); rewrite ?app_nil_r, <- ?app_assoc; reflexivity).
      rewrite S'. clear S'.
      destruct (Z.of_nat (S c) mod 100 =? 0)%Z.
      * destruct (IH _ (k + 1)%Z (S c) [] (s2 ++ s ++ (d ++ B lx) ++ nl) Ox Bx Onx Vx ltac:(lia) ltac:(lia)) as (items & t & E & F & R). exists ((rjd, lx) :: items), ((d ++ B lx) ++ nl ++ t). split; [|split; [now constructor|constructor; auto]].
        rewrite E. f_equal. rewrite <- !app_assoc. reflexivity.
      * destruct (IH _ (k + 1)%Z (S c) (s ++ (d ++ B lx) ++ nl) s2 Ox Bx Onx Vx ltac:(lia) ltac:(lia)) as (items & t & E & F & R). exists ((rjd, lx) :: items), ((d ++ B lx) ++ nl ++ t). split; [|split; [now constructor|constructor; auto]].
        rewrite E. f_equal. rewrite <- !app_assoc. reflexivity.
Qed.

(** the low-precision new moon of lunation k is in lunation k *)
Theorem start_ok k : (Z.abs k <= 37060)%Z -> exists t, MS_aLon_t2 fsin fcos XL1 (fmul (fmul (fZ k) dpi) (fZ 2)) = Some t /\
  let j := fmul t (fZ 36525) in ok j /\ Rabs (R64 j - 36525 * mean_new (IZR k)) <= 5 /\ Rabs (R64 j) <= 2950000 /\ ok (ec_num j) /\ R64 (ec_num j) = IZR k /\ lunation j = Some k.
Proof.
  intros K. assert (BK : Rabs (IZR k) <= 37060) by (rewrite <- abs_IZR; apply IZR_le; lia). destruct (fZ_ok k ltac:(lia)) as [Ok' Vk]. assert (Bk : Rabs (R64 (fZ k)) <= 37060) by (now rewrite Vk). set (fk := fZ k) in *. clearbody fk.
  assert (E : env_ok [fk] [R64 fk] [given 37060]) by (constructor; [apply given_ok; assumption|constructor]).
  set (W := fmul (fmul fk dpi) (fZ 2)).
  assert (H : ok W /\ Rabs (R64 W - R64 fk * (2 * PI)) <= IZR 1267650600228229401000 * U) by (unfold W; formula2 fsin fcos Gs Gc [fk] E).
  destruct H as [OW DW]. clearbody W. rewrite Vk in DW. assert (EU : 1267650600228229401000 * U <= 1 / 1000000000) by (unfold U, one; lra). apply Rabs_le_inv in DW. apply Rabs_le_inv in BK.
  pose proof PI_bounds as P. revert P. decs. intros P.
  assert (BW : Rabs (R64 W) <= 232900) by (apply Rabs_le; split; nra).
  destruct (quick_coarse fsin fcos XL1 W Gs Gc H1 OW BW) as (t & Et & Ot & Dt). exists t. split; [exact Et|]. cbv zeta.
  assert (DM : Rabs (R64 t - mean_new (IZR k)) <= 11 / 100000).
  { unfold mean_new. revert Dt. decs. intros Dt. apply Rabs_le_inv in Dt. apply Rabs_le.
    match type of Dt with _ <= _ - ?a <= _ => match goal with |- _ <= _ - ?b <= _ => assert (X : Rabs (a - b) <= 1 / 1000000000) end end.
    { match goal with |- Rabs ?x <= _ => replace x with ((R64 W - IZR k * (2 * PI)) * (100000000000 / 777137714500204)) by field end. apply Rabs_le. lra. }
    apply Rabs_le_inv in X. lra. }
  assert (M := mean_line (IZR k) ltac:(apply Rabs_le; lra)). revert M. decs. intros M. apply Rabs_le_inv in M, DM.
  assert (BT : Rabs (R64 t) <= 31) by (apply Rabs_le; lra).
  assert (E2 : env_ok [t] [R64 t] [given 31]) by (constructor; [apply given_ok; assumption|constructor]).
  assert (H : ok (fmul t (fZ 36525)) /\ Rabs (R64 (fmul t (fZ 36525)) - R64 t * 36525) <= IZR 1267650600228229401496 * U) by formula2 fsin fcos Gs Gc [t] E2.
  destruct H as [Oj Dj]. set (j := fmul t (fZ 36525)) in *. clearbody j. assert (EU2 : 1267650600228229401496 * U <= 1 / 100000000) by (unfold U, one; lra). apply Rabs_le_inv in Dj.
  split; [exact Oj|]. split; [apply Rabs_le; lra|]. assert (BJ : Rabs (R64 j) <= 2950000) by (apply Rabs_le; lra). split; [exact BJ|].
  destruct (num_val j Oj BJ) as (On & m & V & Km & I). revert I. decs. intros I. assert (m = k).
  { assert (L1 : (k - 1 < m)%Z) by (apply lt_IZR; rewrite minus_IZR; lra). assert (L2 : (m < k + 1)%Z) by (apply lt_IZR; rewrite plus_IZR; lra). lia. }
  subst m. split; [exact On|]. split; [exact V|]. exact (lunation_num j k Oj BJ V Km).
Qed.

(** C100: the search from the first of a month, of dates about -993 to 4993: the text reports the new moons k0, k0+1, ..., k0+n-1, each once and in order; the first is the one
    nearest to the first of the month, and the new moon before it is over by then *)
Theorem C100_search fs Y M n d : day_number d (mkc Y M 1) -> (1358000 <= d <= 3545000)%Z -> (n <= 60000)%Z ->
  exists k0 items t, rs_search fsin fcos XL1 feature Y M n fs = Some t /\ Forall2 (item (feature fs)) (numbers_from k0 (Z.to_nat n)) items /\ report 0 items t /\
    let first := IZR d - 1 / 2 - 2451545 in -18 <= 36525 * mean_new (IZR k0) - first <= 15 /\ 36525 * mean_new (IZR (k0 - 1)) <= first - 15.
Proof.
  intros Hd Bd Hn. unfold rs_search. pose proof Hd as Hd'. apply day_number_iff in Hd' as [RD JD].
  destruct (year_bound _ _ Hd ltac:(lia)) as (BY & _). cbn [cy] in BY.
  assert (YL : (-4716 < Y)%Z).
  { destruct RD as (Hm & Hdd & _). pose proof (month_len_bounds Y M) as ML. cbn [cy cm cd] in *. rewrite JD, jdn_split in Bd. cbn [cy cm cd] in Bd.
    assert (Bm : (122 <= 153 * (sm (mkc Y M 1) + 1) / 5 <= 459)%Z) by (unfold sm; cbn [cm]; destruct (Z.leb_spec M 2); Z.div_mod_to_equations; lia).
    assert (BS : (sy (mkc Y M 1) <= Y <= sy (mkc Y M 1) + 1)%Z) by (unfold sy; cbn [cy cm]; destruct (Z.leb_spec M 2); lia).
    destruct (greg_key Y M 1) eqn:K; unfold greg_key in K; [apply Z.leb_le in K; lia|]. Z.div_mod_to_equations; lia. }
  destruct (fZ_ok 0 ltac:(lia)) as [O0 V0].
  destruct (C01_toJD_instant d 22 (mkDate Y M 1 0 0 (fZ 0)) Hd ltac:(cbn [CalModel.Y]; lia) ltac:(left; exact YL) ltac:(cbn; lia) ltac:(cbn; lia) O0 ltac:(cbn [CalModel.s]; rewrite V0; lra) ltac:(lia) ltac:(lia)) as (x & -> & Ox & Dx).
  cbn [CalModel.h CalModel.m CalModel.s obind] in *. rewrite V0 in Dx. change (bpow radix2 (22 - 53)) with (/ 2147483648) in Dx. replace ((0 * 3600 + 0 * 60 + 0) / 86400) with 0 in Dx by field. apply Rabs_le_inv in Dx.
  assert (BD : 1358000 <= IZR d <= 3545000) by (split; apply IZR_le; lia).
  assert (Bx : Rabs (R64 x) <= 4000000) by (apply Rabs_le; lra).
  assert (E : env_ok [x] [R64 x] [given 4000000]) by (constructor; [apply given_ok; assumption|constructor]).
  assert (X : ok (fsub x (fZ 2451545)) /\ Rabs (R64 (fsub x (fZ 2451545)) - (R64 x - 2451545)) <= IZR 1267650600228229401496703 * U) by formula2 fsin fcos Gs Gc [x] E.
  destruct X as [Oj Dj]. set (j := fsub x (fZ 2451545)) in *. clearbody j. assert (EU : 1267650600228229401496703 * U <= 1 / 1000000) by (unfold U, one; lra). apply Rabs_le_inv in Dj.
  assert (BJ : Rabs (R64 j) <= 2950000) by (apply Rabs_le; lra). destruct (num_val j Oj BJ) as (On & k0 & V & K & I). rewrite (lunation_num j k0 Oj BJ V K). cbn [obind].
  assert (K' : (Z.abs k0 <= 37060)%Z). { revert I. decs. intros I. assert (-37060 < k0 < 37060)%Z by (split; apply lt_IZR; lra). lia. }
  destruct (start_ok k0 K') as (t & -> & Ot & Dt & Bt & Ont & Vt & _). cbn [obind].
  destruct (loop_ok fs (Z.to_nat n) _ k0 0 [] [] Ot Bt Ont Vt ltac:(lia) ltac:(lia)) as (items & txt & EQ & F & R). exists k0, items, txt. split; [exact EQ|]. split; [exact F|]. split; [exact R|]. cbv zeta.
  assert (BK : Rabs (IZR k0) <= 37060) by (rewrite <- abs_IZR; apply IZR_le; lia). assert (M0 := mean_line (IZR k0) ltac:(lra)).
  assert (BK1 : Rabs (IZR (k0 - 1)) <= 37061) by (rewrite <- abs_IZR; apply IZR_le; lia). assert (M1 := mean_line (IZR (k0 - 1)) ltac:(lra)). rewrite minus_IZR in *.
  revert I M0 M1. decs. intros I M0 M1. apply Rabs_le_inv in M0, M1. split; [split|]; lra.
Qed.
End Lib.
Print Assumptions C100_search.
(** the search never leaves out a month as impossible without looking at it: the test for "NN" (eph/eph_show.cpp:129) never holds *)
Theorem C100_no_shortcut fsin fcos jd : ec_lx (ecFast fsin fcos jd) <> "NN"%string.
Proof. intros NN. pose proof (C88_letters fsin fcos jd) as L. rewrite NN in L. cbn [In] in L. repeat (destruct L as [L|L]; [discriminate L|]). exact L. Qed.
(** the hypotheses can be met; 1 August 2008 *)
Example C100_example : exists fsin fcos XL1 feature, good_lib fsin sin /\ good_lib fcos cos /\ nth_error XL1 0 = Some moon_lon_tables /\
  (forall (fs : bool) k, (Z.abs k <= 99000)%Z -> ok (fst (feature fs k : f64 * string)) /\ Rabs (R64 (fst (feature fs k)) - 36525 * mean_new (IZR k)) <= 8) /\ day_number 2454680 (mkc 2008 8 1).
Proof.
  destruct good_lib_exists as (fsin & fcos & _ & Gs & Gc & _). exists fsin, fcos, [moon_lon_tables], (fun (_ : bool) k => (fZ (Zfloor (36525 * mean_new (IZR k))), "P"%string)).
  split; [exact Gs|]. split; [exact Gc|]. split; [reflexivity|]. split.
  - intros fs k K. cbn [fst]. assert (BK : Rabs (IZR k) <= 99000) by (rewrite <- abs_IZR; apply IZR_le; lia). pose proof (mean_line (IZR k) ltac:(lra)) as M. revert M. set (x := 36525 * mean_new (IZR k)). clearbody x. decs. intros M. apply Rabs_le_inv in M, BK.
    pose proof (Zfloor_lb x) as LB. pose proof (Zfloor_ub x) as UB. destruct (fZ_ok (Zfloor x)) as [O V]. { assert (-3000000 < Zfloor x < 3000000)%Z by (split; apply lt_IZR; lra). lia. }
    split; [exact O|]. rewrite V. apply Rabs_le. lra.
  - apply day_number_iff. split; [|reflexivity]. unfold real_date. cbn. lia.
Qed.
(** The condition of C42 on the new moon holds for the function the program has, for every day from about the year -993 to 4993 *)
Theorem C42_proper fsin fcos XL1 MS jd n : good_lib fsin sin -> good_lib fcos cos -> nth_error XL1 0 = Some moon_lon_tables -> (forall W t, MS_aLon_t2 fsin fcos XL1 W = Some t -> MS W = t) ->
  ok jd -> Rabs (R64 jd) <= 1094000 -> (1 <= n <= 1000000)%Z -> RsgsProps.proper MS (jd, n).
Proof.
  intros Gs Gc H1 HM O Bj Hn. split; [|exact Hn]. cbn [fst]. destruct (num_val jd O ltac:(lra)) as (On & k & V & K & I).
  pose proof (lunation_num fsin fcos Gs Gc jd k O ltac:(lra) V K) as L. exists k. split; [exact L|].
  assert (K' : (Z.abs k <= 37060)%Z). { apply Rabs_le_inv in Bj. revert I. decs. intros I. assert (-37060 < k < 37060)%Z by (split; apply lt_IZR; lra). lia. }
  destruct (start_ok fsin fcos XL1 Gs Gc H1 k K') as (t & E & _ & _ & _ & _ & _ & L'). unfold RsgsProps.new_moon. rewrite (HM _ _ E). exact L'.
Qed.
Print Assumptions C42_proper.
