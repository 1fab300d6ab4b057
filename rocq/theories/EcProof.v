(** ecFast stage by stage: each double is close to the real number it stands for. *)
From Coq Require Import String ZArith Reals Lia Lra Bool List.
From Coq Require Import Floats.SpecFloat.
From Flocq Require Import Core IEEE754.BinarySingleNaN.
From Verif Require Import F64 F64R F64S F64T F64E AngModel AngProps PiBound ErrExpr FormModel FormSpec FormProps EcModel EcSpec.
Import ListNotations.
Open Scope R_scope.

Definition getb (x : option bnd) : bnd := match x with Some b => b | None => mkB 0 0 0 end.
Ltac opened F := eval cbv beta zeta iota delta [ec_W ec_mean ec_F ec_step ec_lon ec_den ec_new ec_mB ec_mR ec_sR ec_vL ec_vB ec_vR ec_gm ec_r1 ec_f2 ec_r2 ec_fh2 ec_dr ec_H1 ec_H2 mk sk bb rad] in F.
Ltac unfolds := cbv beta zeta iota delta [ec_W ec_mean ec_F ec_step ec_lon ec_den ec_new ec_mB ec_mR ec_sR ec_vL ec_vB ec_vR ec_gm ec_r1 ec_f2 ec_r2 ec_fh2 ec_dr ec_H1 ec_H2 mk sk bb rad].
(** goal nearB F r b, the environment given; leaves the equation for the real value *)
Ltac stage fsin fcos Gs Gc xs E :=
  lazymatch goal with |- nearB ?F ?r ?b =>
    let F' := opened F in
    let e := reify fsin fcos xs F' in
    apply (formula_near fsin fcos Gs Gc _ _ _ e F r b E); [unfolds; cbn [evF nth]; reflexivity| |vm_compute; reflexivity]; cbn [evR nth]
  end.
Ltac env E := repeat first [apply env_nil|apply env_cons; [eassumption|]].

Section Lib.
Variables fsin fcos : f64 -> f64.
Hypothesis Gs : good_lib fsin sin.
Hypothesis Gc : good_lib fcos cos.
(** bounds of the stages, computed *)
Section Bounds.
Variables n W t L D jd : f64.
Ltac bnd_of xs bs F := let F' := opened F in let e := reify fsin fcos xs F' in let b := eval vm_compute in (getb (bound bs e)) in exact b.
Definition bn : bnd := Eval vm_compute in given 100000.
Definition bW : bnd := ltac:(bnd_of [n] [bn] (ec_W n)).
Definition b0 : bnd := ltac:(bnd_of [W] [bW] (ec_mean W)).
Definition bF : bnd := ltac:(bnd_of [t] [b0] (fsin (ec_F t))).
Definition b1 : bnd := ltac:(bnd_of [t] [b0] (ec_step fcos t)).
Definition bL : bnd := ltac:(bnd_of [t] [b1] (ec_lon fcos t)).
Definition bD : bnd := ltac:(bnd_of [t] [b1] (ec_den fsin t)).
Definition bXw : bnd := ltac:(bnd_of [W; L] [bW; bL] (fsub W L)).
Definition bX : bnd := Eval vm_compute in mkB (- one / 2) (one / 2) (er bXw).
Definition b2w : bnd := ltac:(bnd_of [t; L; D] [b1; bX; bD] (fadd t (fdiv L D))).
Definition b2 : bnd := Eval vm_compute in mkB (-82 * one) (82 * one) (er b2w).
Definition bjd : bnd := ltac:(bnd_of [t] [b2] (fmul t (fZ 36525))).
Definition bjd0 : bnd := ltac:(bnd_of [t] [b0] (fmul t (fZ 36525))).
Definition bmB : bnd := ltac:(bnd_of [t] [b2] (ec_mB fcos t)).
Definition bmR : bnd := ltac:(bnd_of [t] [b2] (ec_mR fcos t)).
Definition bsR : bnd := ltac:(bnd_of [jd] [bjd] (ec_sR fcos jd)).
Definition bvL : bnd := ltac:(bnd_of [jd] [bjd] (ec_vL fsin jd)).
Definition bvB : bnd := ltac:(bnd_of [jd] [bjd] (ec_vB fsin jd)).
Definition bvR : bnd := ltac:(bnd_of [jd] [bjd] (ec_vR fsin jd)).
Definition bsBw : bnd := ltac:(bnd_of [t] [bmB] (fsin t)).
Definition bsB : bnd := Eval vm_compute in mkB (- mag bmB) (mag bmB) (er bsBw).
Variables sB mR sR vL vB vR h dr : f64.
Definition bgm : bnd := ltac:(bnd_of [mR; sB; vL; vB] [bmR; bsB; bvL; bvB] (fdiv (fmul (fmul mR sB) vL) (fsqrt (fadd (fmul vB vB) (fmul vL vL))))).
Definition br1 : bnd := ltac:(bnd_of [mR; sR] [bmR; bsR] (ec_r1 mR sR)).
Definition br2 : bnd := ltac:(bnd_of [mR; sR] [bmR; bsR] (ec_r2 mR sR)).
Definition bfh : bnd := ltac:(bnd_of [mR; sR] [bmR; bsR] (ec_fh2 mR sR)).
Definition bh : bnd := Eval vm_compute in mkB 0 one (one * 4 / 10000).
Definition bdr : bnd := ltac:(bnd_of [vR; h; vL; mR] [bvR; bh; bvL; bmR] (ec_dr vR h vL mR)).
Definition bH1 : bnd := ltac:(bnd_of [mR; sR; dr] [bmR; bsR; bdr] (ec_H1 mR sR dr)).
Definition bH2 : bnd := ltac:(bnd_of [mR; sR; dr] [bmR; bsR; bdr] (ec_H2 mR sR dr)).
End Bounds.

Ltac env1 H := (constructor; [exact H|constructor]).
Lemma W_near n z : ok n -> R64 n = IZR z -> (Z.abs z <= 100000)%Z -> nearB (ec_W n) (2 * PI * IZR z) bW.
Proof.
  intros O V B. assert (N : nearB n (IZR z) bn). { rewrite <- V. apply (given_ok n 100000 O). rewrite V, <- abs_IZR. now apply IZR_le. }
  assert (E : env_ok [n] [IZR z] [bn]) by env1 N. stage fsin fcos Gs Gc [n] E. ring.
Qed.
Lemma mean_near W k : nearB W (2 * PI * k) bW -> nearB (ec_mean W) (mean_new k) b0.
Proof.
  intros N. assert (E : env_ok [W] [2 * PI * k] [bW]) by env1 N. stage fsin fcos Gs Gc [W] E. unfold mean_new. decs. field.
Qed.
Lemma F_near t r : nearB t r b0 -> nearB (fsin (ec_F t)) (sin (node_arg r)) bF.
Proof.
  intros N. assert (E : env_ok [t] [r] [b0]) by env1 N. stage fsin fcos Gs Gc [t] E. unfold node_arg. decs. apply f_equal. field.
Qed.
Lemma step_near t r : nearB t r b0 -> nearB (ec_step fcos t) (first_new r) b1.
Proof.
  intros N. assert (E : env_ok [t] [r] [b0]) by env1 N. stage fsin fcos Gs Gc [t] E. unfold first_new. decs. share. field.
Qed.
Lemma lon_near t r : nearB t r b1 -> nearB (ec_lon fcos t) (elongation r) bL.
Proof.
  intros N. assert (E : env_ok [t] [r] [b1]) by env1 N. stage fsin fcos Gs Gc [t] E. unfold elongation, arcsec, sum, elongation_terms. cbn [map fold_right wave4]. decs. share.
  pose proof pi_pos. field. assumption.
Qed.
Lemma den_near t r : nearB t r b1 -> nearB (ec_den fsin t) (elongation_speed r) bD.
Proof.
  intros N. assert (E : env_ok [t] [r] [b1]) by env1 N. stage fsin fcos Gs Gc [t] E. unfold elongation_speed. decs. share. field.
Qed.
Lemma mB_near t r : nearB t r b2 -> nearB (ec_mB fcos t) (latitude r) bmB.
Proof.
  intros N. assert (E : env_ok [t] [r] [b2]) by env1 N. stage fsin fcos Gs Gc [t] E. unfold latitude, arcsec, sum, latitude_terms. cbn [map fold_right wave5]. decs. share.
  pose proof pi_pos. field. assumption.
Qed.
Lemma mR_near t r : nearB t r b2 -> nearB (ec_mR fcos t) (distance r) bmR.
Proof.
  intros N. assert (E : env_ok [t] [r] [b2]) by env1 N. stage fsin fcos Gs Gc [t] E. unfold distance, sum, distance_terms. cbn [map fold_right wave5]. decs. share. field.
Qed.
Lemma jd_near t r : nearB t r b2 -> nearB (fmul t (fZ 36525)) (36525 * r) bjd.
Proof.
  intros N. assert (E : env_ok [t] [r] [b2]) by env1 N. stage fsin fcos Gs Gc [t] E. ring.
Qed.
Lemma jd0_near t r : nearB t r b0 -> nearB (fmul t (fZ 36525)) (36525 * r) bjd0.
Proof.
  intros N. assert (E : env_ok [t] [r] [b0]) by env1 N. stage fsin fcos Gs Gc [t] E. ring.
Qed.
Lemma sR_near jd r : nearB jd (36525 * r) bjd -> nearB (ec_sR fcos jd) (sun_distance r) bsR.
Proof.
  intros N. assert (E : env_ok [jd] [36525 * r] [bjd]) by env1 N. stage fsin fcos Gs Gc [jd] E. unfold sun_distance. cbv zeta. decs. share. field.
Qed.
Lemma vL_near jd r : nearB jd (36525 * r) bjd -> nearB (ec_vL fsin jd) (lon_speed r) bvL.
Proof.
  intros N. assert (E : env_ok [jd] [36525 * r] [bjd]) by env1 N. stage fsin fcos Gs Gc [jd] E. unfold lon_speed. decs. share. field.
Qed.
Lemma vB_near jd r : nearB jd (36525 * r) bjd -> nearB (ec_vB fsin jd) (lat_speed r) bvB.
Proof.
  intros N. assert (E : env_ok [jd] [36525 * r] [bjd]) by env1 N. stage fsin fcos Gs Gc [jd] E. unfold lat_speed. decs. share. field.
Qed.
Lemma vR_near jd r : nearB jd (36525 * r) bjd -> nearB (ec_vR fsin jd) (dist_speed r) bvR.
Proof.
  intros N. assert (E : env_ok [jd] [36525 * r] [bjd]) by env1 N. stage fsin fcos Gs Gc [jd] E. unfold dist_speed. decs. share. field.
Qed.
End Lib.
