(** C88: the quick search for eclipses finds the new moon of its lunation, and a kind it gives as certain is the kind. *)
From Coq Require Import String ZArith Reals Lia Lra Bool List.
From Coq Require Import Floats.SpecFloat.
From Flocq Require Import Core IEEE754.BinarySingleNaN.
From Verif Require Import PiBound F64 F64R F64S F64T F64E ErrExpr FormModel FormSpec FormProps EcModel EcSpec EcReal EcProof EcGeom EcKind IllProps.
Import ListNotations.
Open Scope R_scope.

Lemma lit4 : ok (lit 4 10) /\ Rabs (R64 (lit 4 10) - 0.4) <= 1 / 1000000000000.
Proof. destruct (lit_near 4 10 0) as [O N]; [lia|lia|lia|lia|]. split; [exact O|]. change (bpow radix2 (0 - 54)) with (/ 18014398509481984) in N. decs. apply Rle_trans with (1 := N). lra. Qed.
Lemma num_val jd : ok jd -> Rabs (R64 jd) <= 2950000 -> ok (ec_num jd) /\ exists k, R64 (ec_num jd) = IZR k /\ (Z.abs k <= 100000)%Z /\
  IZR k * 29.5306 - 1e-8 <= R64 jd + 8 <= (IZR k + 1) * 29.5306 + 1e-8.
Proof.
  intros O B. destruct good_lib_exists as (fsin & fcos & _ & Gs & Gc & _). pose proof (given_ok jd 2950000 O B) as N.
  assert (E : env_ok [jd] [R64 jd] [given 2950000]) by (constructor; [exact N|constructor]). unfold ec_num.
  assert (X : ok (fdiv (fadd jd (fZ 8)) (lit 295306 10000)) /\ Rabs (R64 (fdiv (fadd jd (fZ 8)) (lit 295306 10000)) - (R64 jd + 8) / 29.5306) <= IZR 126765060022822940149 * U).
  { eapply (formula_ok fsin fcos Gs Gc _ _ _ (EDiv (EAdd (EV 0) (EZ 8)) (EL 295306 10000)) _ _ _ E); [reflexivity|cbn [evR nth]; decs; reflexivity|vm_compute; reflexivity]. }
  destruct X as [Ox Dx]. destruct (ffloor_ok _ Ox) as [Of Vf]. split; [exact Of|]. exists (Zfloor (R64 (fdiv (fadd jd (fZ 8)) (lit 295306 10000)))). split; [exact Vf|].
  revert Dx. generalize (R64 (fdiv (fadd jd (fZ 8)) (lit 295306 10000))). intros x Dx. pose proof (Zfloor_lb x) as F1. pose proof (Zfloor_ub x) as F2.
  apply Rabs_le_inv in Dx, B. assert (EU : 126765060022822940149 * U <= 1 / 10000000000) by (unfold U, one; lra).
  assert (Y : R64 jd + 8 = (R64 jd + 8) / 29.5306 * 29.5306) by (decs; field). revert Dx Y. generalize ((R64 jd + 8) / 29.5306). intros y Dx Y.
  assert (YB : -99900 <= y <= 99900) by (revert Y; decs; intros; lra). split.
  - assert (Z1 : (-100000 <= Zfloor x)%Z) by (apply Zfloor_lub; lra). assert (Z2 : (Zfloor x < 100000)%Z) by (apply lt_IZR; lra). lia.
  - rewrite Y. revert Y. decs. intros. lra.
Qed.

Theorem eclipse_of fsin fcos jd k : good_lib fsin sin -> good_lib fcos cos -> R64 (ec_num jd) = IZR k -> ok (ec_num jd) -> (Z.abs k <= 100000)%Z ->
  let r := ecFast fsin fcos jd in let T := true_new (IZR k) in
  ok (ec_jd r) /\ Rabs (R64 (ec_jd r) - 36525 * mean_new (IZR k)) <= 4 /\
  ((ec_lx r = "N"%string /\ ec_ac r = true /\ 0.4 - 1e-8 < Rabs (sin (node_arg (mean_new (IZR k)))) /\ Rabs (R64 (ec_jd r) - 36525 * mean_new (IZR k)) <= 1e-7) \/
   (Rabs (sin (node_arg (mean_new (IZR k)))) < 0.4 + 1e-8 /\ Rabs (R64 (ec_jd r) - 36525 * T) <= 1e-7 /\ (ec_ac r = true -> kind_at T (ec_lx r) /\ clear_of_limits T) /\ (ec_ac r = false -> doubtful T))).
Proof.
  intros Gs Gc V On B. cbv zeta. pose proof (W_near fsin fcos Gs Gc _ k On V B) as NW. pose proof (mean_near fsin fcos Gs Gc _ _ NW) as N0.
  assert (BK : Rabs (IZR k) <= 100000) by (rewrite <- abs_IZR; now apply IZR_le).
  pose proof (new_near fsin fcos Gs Gc _ _ BK NW N0) as N2. pose proof (F_near fsin fcos Gs Gc _ _ N0) as NF.
  unfold ecFast. cbv zeta. destruct (nearB_nums _ _ _ NF (-1000000000001) 1000000000001 1071) as (Os & _ & Ds); [vm_compute; reflexivity|].
  destruct (abs_close _ _ _ Os Ds) as [Oa Da]. destruct lit4 as [O4 D4]. apply Rabs_le_inv in Da, D4.
  change (fgtb ?x (lit 4 10)) with (fltb (lit 4 10) x). rewrite (fltb_ok _ _ O4 Oa). pose proof (new_range _ BK) as NR. apply Rabs_le_inv in NR.
  assert (E8 : 1e-8 = 1 / 100000000) by (decs; lra). assert (E7 : 1e-7 = 1 / 10000000) by (decs; lra). assert (E6 : 0.000104 = 104 / 1000000) by (decs; lra).
  rewrite E8, E7. rewrite E6 in NR.
  destruct (Rlt_bool_spec (R64 (lit 4 10)) (R64 (ffabs (fsin (ec_F (ec_mean (ec_W (ec_num jd)))))))) as [L|L].
  - cbn [ec_jd ec_lx ec_ac]. destruct (nearB_nums _ _ _ (jd0_near fsin fcos Gs Gc _ _ N0) (-5000000000000000000) 5000000000000000000 10000) as (Oj & _ & Dj); [vm_compute; reflexivity|].
    split; [exact Oj|]. split; [lra|]. left. split; [reflexivity|]. split; [reflexivity|]. split; lra.
  - revert N2. generalize (ec_new fsin fcos (ec_step fcos (ec_mean (ec_W (ec_num jd)))) (ec_W (ec_num jd))). intros t N2. set (T := true_new (IZR k)) in *.
    pose proof (jd_near fsin fcos Gs Gc _ _ N2) as NJ. pose proof (mB_near fsin fcos Gs Gc _ _ N2) as NB. pose proof (mR_near fsin fcos Gs Gc _ _ N2) as NRm.
    pose proof (sR_near fsin fcos Gs Gc _ _ NJ) as NS. pose proof (vL_near fsin fcos Gs Gc _ _ NJ) as NvL. pose proof (vB_near fsin fcos Gs Gc _ _ NJ) as NvB. pose proof (vR_near fsin fcos Gs Gc _ _ NJ) as NvR.
    pose proof (gm_near fsin fcos Gs Gc _ _ _ _ _ NRm NB NvL NvB) as Ng. pose proof (h_near _ _ Ng) as Nh.
    pose proof (dr_near fsin fcos Gs Gc _ _ _ _ _ NvR Nh NvL NRm) as Nd. pose proof (r1_near fsin fcos Gs Gc _ _ _ NRm NS) as N1. pose proof (r2_near fsin fcos Gs Gc _ _ _ NRm NS) as Nr2.
    pose proof (fh_near fsin fcos Gs Gc _ _ _ NRm NS) as Nf. pose proof (H1_near fsin fcos Gs Gc _ _ _ _ NRm NS Nd) as NH1. pose proof (H2_near fsin fcos Gs Gc _ _ _ _ NRm NS Nd) as NH2.
    pose proof (change_small _ _ _ _ NvR NvL NRm) as CS.
    destruct (nearB_nums _ _ _ NJ (-5000000000000000000) 5000000000000000000 100000) as (Oj & _ & Dj); [vm_compute; reflexivity|].
    destruct (nearB_nums _ _ _ Ng (-10000000000000) 10000000000000 100000) as (Og & Bg & Dg); [vm_compute; reflexivity|].
    destruct (nearB_nums _ _ _ N1 (-10000000000000) 10000000000000 100000) as (O1 & B1 & D1); [vm_compute; reflexivity|].
    destruct (nearB_nums _ _ _ Nr2 (-10000000000000) 10000000000000 100000) as (O2 & B2 & D2); [vm_compute; reflexivity|].
    destruct (nearB_nums _ _ _ Nf (-10000000000000) 10000000000000 100000) as (Of & Bf & Df); [vm_compute; reflexivity|].
    destruct (nearB_nums _ _ _ Nh 0 1000000000000 401000000) as (Oh & Bh & Dh); [vm_compute; reflexivity|].
    destruct (nearB_nums _ _ _ NH1 (-10000000000000) 10000000000000 1000000000) as (OH1 & _ & DH1); [vm_compute; reflexivity|].
    destruct (nearB_nums _ _ _ NH2 (-10000000000000) 10000000000000 1000000000) as (OH2 & _ & DH2); [vm_compute; reflexivity|].
    match goal with |- context [ec_kind ?a ?b ?c ?d ?e ?f ?g] => destruct (ec_kind a b c d e f g) as [ac lx] eqn:K end. cbn [ec_jd ec_lx ec_ac].
    split; [exact Oj|]. split. { apply Rabs_le_inv in Dj. apply Rabs_le. lra. }
    right. split; [lra|]. split; [lra|].
    assert (Ag : Rabs (gamma T) <= 10) by (apply Rabs_le; lra). assert (A1 : Rabs (penumbra T) <= 10) by (apply Rabs_le; lra). assert (A2 : Rabs (umbra T) <= 10) by (apply Rabs_le; lra).
    assert (Af : Rabs (vertex T) <= 10) by (apply Rabs_le; lra). assert (Ah : 0 <= surface T <= 1) by lra.
    replace (100000 / 1000000000000) with (1 / 10000000) in * by lra. replace (401000000 / 1000000000000) with (401 / 1000000) in * by lra. replace (1000000000 / 1000000000000) with (1 / 1000) in * by lra.
    split; intros ->; [split|].
    + exact (kind_ok T _ _ _ _ _ _ _ Og O1 O2 Of Oh OH1 OH2 Dg Ag D1 A1 D2 A2 Df Af Dh Ah DH1 DH2 CS lx K).
    + exact (kind_clear T _ _ _ _ _ _ _ Og O1 O2 Dg Ag D1 A1 D2 A2 lx K).
    + exact (kind_doubt T _ _ _ _ _ _ _ Og O1 O2 Of Oh OH1 OH2 Dg Ag D1 A1 D2 A2 Df Af Dh Ah DH1 DH2 lx K).
Qed.
(** C88: at any day within 8000 years *)
Theorem C88_eclipse fsin fcos jd : good_lib fsin sin -> good_lib fcos cos -> ok jd -> Rabs (R64 jd) <= 2950000 ->
  exists k, (Z.abs k <= 100000)%Z /\ IZR k * 29.5306 - 1e-8 <= R64 jd + 8 <= (IZR k + 1) * 29.5306 + 1e-8 /\
  let r := ecFast fsin fcos jd in let T := true_new (IZR k) in
  ok (ec_jd r) /\ Rabs (R64 (ec_jd r) - 36525 * mean_new (IZR k)) <= 4 /\
  ((ec_lx r = "N"%string /\ ec_ac r = true /\ 0.4 - 1e-8 < Rabs (sin (node_arg (mean_new (IZR k)))) /\ Rabs (R64 (ec_jd r) - 36525 * mean_new (IZR k)) <= 1e-7) \/
   (Rabs (sin (node_arg (mean_new (IZR k)))) < 0.4 + 1e-8 /\ Rabs (R64 (ec_jd r) - 36525 * T) <= 1e-7 /\ (ec_ac r = true -> kind_at T (ec_lx r) /\ clear_of_limits T) /\ (ec_ac r = false -> doubtful T))).
Proof.
  intros Gs Gc O B. destruct (num_val jd O B) as (On & k & V & K & I). exists k. split; [exact K|]. split; [exact I|]. exact (eclipse_of fsin fcos jd k Gs Gc V On K).
Qed.
Print Assumptions C88_eclipse.

(** every answer of ecFast, certain or not, for every double (also NaN and infinity) and any library *)
Theorem C88_letters fsin fcos jd : In (ec_lx (ecFast fsin fcos jd)) ["N"; "P"; "T0"; "A0"; "T1"; "A1"; "T"; "A"; "H"; "H2"; "H3"]%string.
Proof.
  unfold ecFast. cbv zeta. destruct (fgtb _ (lit 4 10)); [left; reflexivity|].
  match goal with |- context [ec_kind ?a ?b ?c ?d ?e ?f ?g] => generalize a b c d e f g end. clear. intros gm r1 r2 fh2 h H1 H2.
  destruct (ec_kind gm r1 r2 fh2 h H1 H2) as [ac lx] eqn:K. cbn [ec_lx]. unfold ec_kind in K. cbv zeta in K. revert K.
  repeat match goal with |- context [if ?b then _ else _] => generalize b; intros [|] end; cbn [andb append]; intros [= _ <-]; cbn [In]; tauto.
Qed.
(** 36525 mean_new k is nearly 29.5306 k + 5.1 *)
Lemma mean_line k : Rabs k <= 100000 -> Rabs (36525 * mean_new k - 29.5306 * k - 5.098) <= 1.2.
Proof. intros B. apply Rabs_le_inv in B. unfold mean_new. pose proof PI_bounds as P. revert P. decs. intros P. apply Rabs_le. split; nra. Qed.
(** a day near the next new moon is counted with it: 8 days before to 21.5 days after *)
Lemma num_next x k : ok x -> (Z.abs k < 99000)%Z -> Rabs (R64 x - 36525 * mean_new (IZR k) - 29.5306) <= 10 -> ok (ec_num x) /\ R64 (ec_num x) = IZR (k + 1).
Proof.
  intros O K D. assert (BK : Rabs (IZR k) <= 99000) by (rewrite <- abs_IZR; apply IZR_le; lia). assert (BK' : Rabs (IZR k) <= 100000) by lra.
  pose proof (mean_line _ BK') as M. apply Rabs_le_inv in M, D, BK. revert M D. decs. intros M D.
  assert (BX : Rabs (R64 x) <= 2950000) by (apply Rabs_le; lra). destruct (num_val x O BX) as (On & m & V & _ & I). split; [exact On|]. rewrite V. f_equal.
  revert I. decs. intros I. assert (L1 : (k < m)%Z) by (apply lt_IZR; lra). assert (L2 : (m < k + 2)%Z) by (apply lt_IZR; rewrite plus_IZR; lra). lia.
Qed.
(** C88: stepping by a mean month from the answer leads to the very next new moon *)
Theorem C88_next fsin fcos jd k : good_lib fsin sin -> good_lib fcos cos -> ok jd -> R64 (ec_num jd) = IZR k -> ok (ec_num jd) -> (Z.abs k < 99000)%Z ->
  let jd' := fadd (ec_jd (ecFast fsin fcos jd)) (lit 295306 10000) in ok jd' /\ ok (ec_num jd') /\ R64 (ec_num jd') = IZR (k + 1).
Proof.
  intros Gs Gc O V On K. cbv zeta. destruct (eclipse_of fsin fcos jd k Gs Gc V On ltac:(lia)) as (Oj & D & _).
  assert (BK : Rabs (IZR k) <= 100000) by (rewrite <- abs_IZR; apply IZR_le; lia). pose proof (mean_line _ BK) as M. apply Rabs_le_inv in M, D, BK. revert M. decs. intros M.
  set (x := ec_jd (ecFast fsin fcos jd)) in *. clearbody x. assert (BX : Rabs (R64 x) <= 3000000) by (apply Rabs_le; lra).
  pose proof (given_ok x 3000000 Oj BX) as N. assert (E : env_ok [x] [R64 x] [given 3000000]) by (constructor; [exact N|constructor]).
  assert (X : ok (fadd x (lit 295306 10000)) /\ Rabs (R64 (fadd x (lit 295306 10000)) - (R64 x + 29.5306)) <= IZR 1267650600228229401496703205 * U).
  { eapply (formula_ok fsin fcos Gs Gc _ _ _ (EAdd (EV 0) (EL 295306 10000)) _ _ _ E); [reflexivity|cbn [evR nth]; decs; reflexivity|vm_compute; reflexivity]. }
  destruct X as [Ox Dx]. split; [exact Ox|]. apply num_next; [exact Ox|exact K|]. assert (EU : 1267650600228229401496703205 * U <= 1 / 1000) by (unfold U, one; lra).
  apply Rabs_le_inv in Dx. revert Dx. decs. intros Dx. apply Rabs_le. lra.
Qed.
(** the eclipse of 1 August 2008 *)
Example C88_example : exists fsin fcos, good_lib fsin sin /\ good_lib fcos cos /\ ok (fZ 3135) /\ Rabs (R64 (fZ 3135)) <= 2950000 /\ ok (ec_num (fZ 3135)) /\ R64 (ec_num (fZ 3135)) = IZR 106.
Proof.
  destruct good_lib_exists as (fsin & fcos & _ & Gs & Gc & _). exists fsin, fcos. split; [exact Gs|]. split; [exact Gc|].
  destruct (fZ_ok 3135 ltac:(lia)) as [O V]. split; [exact O|]. assert (B : Rabs (R64 (fZ 3135)) <= 2950000) by (rewrite V; rewrite Rabs_pos_eq; lra). split; [exact B|].
  destruct (num_val _ O B) as (On & k & Vk & _ & I). split; [exact On|]. rewrite Vk. f_equal. rewrite V in I. revert I. decs. intros I.
  assert (L1 : (105 < k)%Z) by (apply lt_IZR; lra). assert (L2 : (k < 107)%Z) by (apply lt_IZR; lra). lia.
Qed.
Print Assumptions C88_letters.
Print Assumptions C88_next.
