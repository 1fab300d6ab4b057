(** C87: the closed formulas in doubles are within small distances of the published ones. *)
From Coq Require Import ZArith Reals Lia Lra Bool List.
From Coq Require Import Floats.SpecFloat.
From Flocq Require Import Core IEEE754.BinarySingleNaN.
From Verif Require Import F64 F64R F64T F64E AngModel AngProps PiBound ErrExpr FormModel FormSpec IllProps.
Import ListNotations.
Open Scope R_scope.

Ltac expand := cbv beta zeta iota delta [hcjj gxc_sunLon gxc_moonLat E_v M_v pGST moonRad cs_sMoon rad pi2 nut_loop nut_round nutB nutation2 nutationLon2 fst snd].
Ltac form fsin fcos Gs Gc xs E eps :=
  lazymatch goal with |- ok ?F /\ Rabs (R64 ?F - ?r) <= _ =>
    let F' := eval cbv beta zeta iota delta [hcjj gxc_sunLon gxc_moonLat E_v M_v pGST moonRad cs_sMoon rad pi2 nut_loop nut_round nutB nutation2 nutationLon2 fst snd] in F in
    let e := reify fsin fcos xs F' in
    let H := fresh in
    assert (H : ok F /\ Rabs (R64 F - r) <= IZR eps * U);
    [apply (formula_ok fsin fcos Gs Gc _ _ _ e F r eps E); [expand; cbn [evF nth]; reflexivity| |vm_compute; reflexivity]; cbn [evR nth]
    |destruct H as [H1 H2]; split; [exact H1|]; apply Rle_trans with (1 := H2); unfold U, one; lra]
  end.
Lemma pi_pos : PI <> 0.
Proof. pose proof PI_bounds. lra. Qed.
Ltac decs := unfold Q2R; cbn [QArith_base.Qnum QArith_base.Qden]; repeat match goal with |- context [Z.pow_pos 10 ?p] => let v := eval vm_compute in (Z.pow_pos 10 p) in change (Z.pow_pos 10 p) with v end.
(** name each sine and cosine; arguments that differ only in shape share the name *)
Ltac share :=
  repeat match goal with
  | |- context [sin ?a] =>
    first [ match goal with Hs : ?s = sin ?b |- _ => replace (sin a) with s by (rewrite Hs; apply f_equal; field) end
          | let s := fresh "s" in let Hs := fresh "Hs" in remember (sin a) as s eqn:Hs ]
  | |- context [cos ?a] =>
    first [ match goal with Hs : ?s = cos ?b |- _ => replace (cos a) with s by (rewrite Hs; apply f_equal; field) end
          | let s := fresh "s" in let Hs := fresh "Hs" in remember (cos a) as s eqn:Hs ]
  end;
  repeat match goal with Hs : _ = sin _ |- _ => clear Hs | Hs : _ = cos _ |- _ => clear Hs end.

Section Lib.
Variables fsin fcos : f64 -> f64.
Hypothesis Gs : good_lib fsin sin.
Hypothesis Gc : good_lib fcos cos.
Variable t : f64.
Hypothesis Ot : ok t.

Lemma env1 M : Rabs (R64 t) <= IZR M -> env_ok [t] [R64 t] [given M].
Proof. intros B. constructor; [now apply given_ok|constructor]. Qed.
Lemma hcjj_near : Rabs (R64 t) <= 100 -> ok (hcjj t) /\ Rabs (R64 (hcjj t) - obliquity (R64 t)) <= 5e-16.
Proof.
  intros B. pose proof (env1 100 B) as E. form fsin fcos Gs Gc [t] E 633825300114114%Z.
  unfold obliquity, arcsec. cbn [map fold_right fst snd]. decs. share. pose proof pi_pos. field. assumption.
Qed.
Lemma sun_near : Rabs (R64 t) <= 100 -> ok (gxc_sunLon fcos t) /\ Rabs (R64 (gxc_sunLon fcos t) - sun_aberration (R64 t)) <= 7e-17.
Proof.
  intros B. pose proof (env1 100 B) as E. form fsin fcos Gs Gc [t] E 88735542015976%Z.
  unfold sun_aberration, arcsec. cbn [map fold_right fst snd]. decs. share. pose proof pi_pos. field. assumption.
Qed.
Lemma moonlat_near : Rabs (R64 t) <= 100 -> ok (gxc_moonLat fsin t) /\ Rabs (R64 (gxc_moonLat fsin t) - moon_aberration (R64 t)) <= 2e-16.
Proof.
  intros B. pose proof (env1 100 B) as E. form fsin fcos Gs Gc [t] E 253530120045645%Z.
  unfold moon_aberration, arcsec. cbn [map fold_right fst snd]. decs. share. pose proof pi_pos. field. assumption.
Qed.
Lemma Ev_near : Rabs (R64 t) <= 100 -> ok (E_v fsin t) /\ Rabs (R64 (E_v fsin t) - earth_speed (R64 t)) <= 1e-9.
Proof.
  intros B. pose proof (env1 100 B) as E. form fsin fcos Gs Gc [t] E 1267650600228229401496%Z.
  unfold earth_speed. cbn [map fold_right fst snd]. decs. share. field.
Qed.
Lemma Mv_near : Rabs (R64 t) <= 100 -> ok (M_v fsin t) /\ Rabs (R64 (M_v fsin t) - moon_speed (R64 t)) <= 6e-7.
Proof.
  intros B. pose proof (env1 100 B) as E. form fsin fcos Gs Gc [t] E 760590360136937640898021%Z.
  unfold moon_speed, moon_speed_terms, sum. cbn [map fold_right fst snd]. decs. share. field.
Qed.
Lemma nutlon_near : Rabs (R64 t) <= 100 -> ok (fst (nutation2 fsin fcos t)) /\ Rabs (R64 (fst (nutation2 fsin fcos t)) - nut_lon (R64 t)) <= 2e-15.
Proof.
  intros B. pose proof (env1 100 B) as E. form fsin fcos Gs Gc [t] E 2535301200456458%Z.
  unfold nut_lon, nutation_terms, nut_arg, arcsec, sum. cbn [map fold_right fst snd]. decs. share. pose proof pi_pos. field. assumption.
Qed.
Lemma nutobl_near : Rabs (R64 t) <= 100 -> ok (snd (nutation2 fsin fcos t)) /\ Rabs (R64 (snd (nutation2 fsin fcos t)) - nut_obl (R64 t)) <= 2e-15.
Proof.
  intros B. pose proof (env1 100 B) as E. form fsin fcos Gs Gc [t] E 2535301200456458%Z.
  unfold nut_obl, nutation_terms, nut_arg, arcsec, sum. cbn [map fold_right fst snd]. decs. share. pose proof pi_pos. field. assumption.
Qed.
Lemma nutlon2_same : nutationLon2 fsin fcos t = fst (nutation2 fsin fcos t).
Proof. unfold nutationLon2, nutation2. cbv zeta. destruct (nut_loop fsin fcos t (fmul t t) 0 nutB (fZ 0, fZ 0)). reflexivity. Qed.
End Lib.

(** sidereal time *)
Lemma rate_near : nearB gst_rate 1.00273781191135448 (mkB one (2 * one) 300000000000000).
Proof.
  destruct (lit_near 4515929636074283 4503599627370496 1) as [O N]; [lia|lia|lia|lia|].
  fold gst_rate in O, N. split; [exact O|]. cbn [lo hi er]. rewrite mult_IZR. unfold U, one. decs. split; [lra|].
  change (bpow radix2 (1 - 54)) with (/ 9007199254740992) in N.
  apply Rabs_le_inv in N. apply Rabs_le. lra.
Qed.
Section Lib2.
Variables fsin fcos : f64 -> f64.
Hypothesis Gs : good_lib fsin sin.
Hypothesis Gc : good_lib fcos cos.
Lemma gst_near T dt : ok T -> ok dt -> Rabs (R64 T) <= 3652500 -> Rabs (R64 dt) <= 10 ->
  ok (pGST T dt) /\ Rabs (R64 (pGST T dt) - sidereal_time (R64 T) (R64 dt)) <= 5e-8.
Proof.
  intros OT Od BT Bd.
  assert (E : env_ok [gst_rate; T; dt] [1.00273781191135448; R64 T; R64 dt] [mkB one (2 * one) 300000000000000; given 3652500; given 10]).
  { constructor; [exact rate_near|]. constructor; [apply given_ok; assumption|]. constructor; [apply given_ok; assumption|constructor]. }
  form fsin fcos Gs Gc [gst_rate; T; dt] E 63382530011411470074835%Z.
  unfold sidereal_time, arcsec. cbv zeta. decs. pose proof pi_pos. field. assumption.
Qed.
Definition between (a b : Z) : bnd := mkB (a * one) (b * one) 0.
Lemma between_ok x a b : ok x -> IZR a <= R64 x <= IZR b -> nearB x (R64 x) (between a b).
Proof.
  intros O B. pose proof oneU as OU. split; [exact O|]. unfold between. cbn [lo hi er]. rewrite !mult_IZR.
  rewrite !Rmult_assoc, OU, Rmult_0_l. split; [lra|]. unfold Rminus. rewrite Rplus_opp_r, Rabs_R0. lra.
Qed.
Lemma moonRad_near r h : ok r -> ok h -> 350000 <= R64 r <= 420000 -> Rabs (R64 h) <= 2 ->
  ok (moonRad fsin r h) /\ Rabs (R64 (moonRad fsin r h) - moon_radius (R64 r) (R64 h)) <= 1e-11.
Proof.
  intros Or Oh Br Bh.
  assert (E : env_ok [r; h] [R64 r; R64 h] [between 350000 420000; given 2]).
  { constructor; [apply between_ok; assumption|]. constructor; [apply given_ok; assumption|constructor]. }
  form fsin fcos Gs Gc [r; h] E 12676506002282294014%Z.
  unfold moon_radius. decs. pose proof pi_pos. field. split; [lra|assumption].
Qed.
End Lib2.

(** C87, for every sine and cosine routine that is correct to within one unit in the last place *)
Theorem C87_formulas fsin fcos : good_lib fsin sin -> good_lib fcos cos ->
  (forall t, ok t -> Rabs (R64 t) <= 100 ->
     (ok (hcjj t) /\ Rabs (R64 (hcjj t) - obliquity (R64 t)) <= 5e-16) /\
     (ok (gxc_sunLon fcos t) /\ Rabs (R64 (gxc_sunLon fcos t) - sun_aberration (R64 t)) <= 7e-17) /\
     (ok (gxc_moonLat fsin t) /\ Rabs (R64 (gxc_moonLat fsin t) - moon_aberration (R64 t)) <= 2e-16) /\
     (ok (E_v fsin t) /\ Rabs (R64 (E_v fsin t) - earth_speed (R64 t)) <= 1e-9) /\
     (ok (M_v fsin t) /\ Rabs (R64 (M_v fsin t) - moon_speed (R64 t)) <= 6e-7) /\
     (ok (fst (nutation2 fsin fcos t)) /\ Rabs (R64 (fst (nutation2 fsin fcos t)) - nut_lon (R64 t)) <= 2e-15) /\
     (ok (snd (nutation2 fsin fcos t)) /\ Rabs (R64 (snd (nutation2 fsin fcos t)) - nut_obl (R64 t)) <= 2e-15) /\
     nutationLon2 fsin fcos t = fst (nutation2 fsin fcos t)) /\
  (forall T dt, ok T -> ok dt -> Rabs (R64 T) <= 3652500 -> Rabs (R64 dt) <= 10 ->
     ok (pGST T dt) /\ Rabs (R64 (pGST T dt) - sidereal_time (R64 T) (R64 dt)) <= 5e-8) /\
  (forall r h, ok r -> ok h -> 350000 <= R64 r <= 420000 -> Rabs (R64 h) <= 2 ->
     ok (moonRad fsin r h) /\ Rabs (R64 (moonRad fsin r h) - moon_radius (R64 r) (R64 h)) <= 1e-11).
Proof.
  intros Gs Gc. split; [|split].
  - intros t O B.
    split; [exact (hcjj_near fsin fcos Gs Gc t O B)|]. split; [exact (sun_near fsin fcos Gs Gc t O B)|]. split; [exact (moonlat_near fsin fcos Gs Gc t O B)|].
    split; [exact (Ev_near fsin fcos Gs Gc t O B)|]. split; [exact (Mv_near fsin fcos Gs Gc t O B)|]. split; [exact (nutlon_near fsin fcos Gs Gc t O B)|].
    split; [exact (nutobl_near fsin fcos Gs Gc t O B)|]. exact (nutlon2_same fsin fcos t).
  - intros T dt OT Od BT Bd. exact (gst_near fsin fcos Gs Gc T dt OT Od BT Bd).
  - intros r h Or Oh Br Bh. exact (moonRad_near fsin fcos Gs Gc r h Or Oh Br Bh).
Qed.
(** the hypotheses are met: there are such routines, and by the theorem the obliquity in 1900, t = -1, is 84428.24" to within 0.005" *)
Example C87_example :
  (exists fsin fcos, good_lib fsin sin /\ good_lib fcos cos) /\
  ok (fZ (-1)) /\ Rabs (R64 (fZ (-1))) <= 100 /\ Rabs (R64 (hcjj (fZ (-1))) - arcsec 84428.24) <= 3e-8.
Proof.
  destruct (fZ_ok (-1)) as [O V]; [lia|]. assert (B : Rabs (R64 (fZ (-1))) <= 100) by (rewrite V, <- abs_IZR; apply IZR_le; lia).
  destruct good_lib_exists as (fsin & fcos & _ & Gs & Gc & _).
  split; [exists fsin, fcos; split; assumption|]. split; [exact O|]. split; [exact B|].
  destruct (hcjj_near fsin fcos Gs Gc (fZ (-1)) O B) as [_ H]. rewrite V in H. apply Rabs_le_inv in H. apply Rabs_le. revert H.
  generalize (R64 (hcjj (fZ (-1)))). intros x. unfold obliquity, arcsec. decs. pose proof PI_bounds as P. revert P. decs. intros. lra.
Qed.
Print Assumptions C87_formulas.
