(** Property C158: the text of the place of a planet, the Sun or the Moon. *)
From Coq Require Import ZArith Reals Lia Lra Bool List Ascii String.
From Coq Require Import Floats.SpecFloat.
From Verif Require Import F64 F64R F64T CalModel Str FmtModel FmtSpec FmtProps DtoaModel DtoaProps YearModel RptModel MtxProps XgtModel.
Import ListNotations.
Open Scope R_scope.
Open Scope list_scope.

(** ** Specification *)
(** a line of two angles, the first in hours if [tim], and the text of a distance with [p] decimals *)
Definition place_shown (beyond : Z -> option Z) (l1 : string) (tim : bool) (l2 l3 : string) (p : Z) (v : f64 * f64 * f64) (t : bytes) : Prop := exists x y d, t = B l1 ++ x ++ B l2 ++ y ++ B l3 ++ d ++ NL /\
  angle_shown tim (R64 (fst (fst v))) x /\ angle_shown false (R64 (snd (fst v))) y /\ number_shown beyond p (R64 (snd v)) d.
Definition place_ok (v : f64 * f64 * f64) : Prop := in_size (fst (fst v)) 17 /\ in_size (snd (fst v)) 17 /\ ok (snd v).

(** ** Proofs *)
Ltac rw E := rewrite E; cbn [obind].
Section Lib.
Variable beyond : Z -> option Z.
Hypothesis HB : forall i, (10 <= i <= 16)%Z -> beyond i <> None.
Lemma place_line_ok l1 tim l2 l3 p v : place_ok v -> (0 <= p <= 8)%Z -> exists t, place_line beyond l1 tim l2 l3 p v = Some t /\ place_shown beyond l1 tim l2 l3 p v t.
Proof.
  destruct v as [[a b] r]. intros (Ha & Hb & Hr) Hp. cbn [fst snd] in *. unfold place_line. destruct (angle_ok tim a Ha) as (x & Ex & Tx), (angle_ok false b Hb) as (y & Ey & Ty), (exact_ok beyond HB r p Hr Hp) as (d & Ed & Td).
  rw Ex. rw Ey. rw Ed. eexists. split; [reflexivity|]. exists x, y, d. auto.
Qed.
(** C158: the lines of a body.  Planets and the Sun (0 to 9) have the heliocentric place first and distances with 8 decimals, the Moon (10) has no such line and distances with 2 *)
Theorem C158_text xt r : (0 <= xt <= 10)%Z -> place_ok (g_hel r) -> place_ok (g_ecl r) -> place_ok (g_equ r) -> place_ok (g_top r) -> in_size (fst (g_hor r)) 17 -> in_size (snd (g_hor r)) 17 -> in_size (g_gp r) 17 -> in_size (g_gt r) 17 ->
  exists p h e q t a b m g, xingX_text beyond xt r = Some (h ++ e ++ q ++ t ++ B "方位角 " ++ a ++ B " 高度角 " ++ b ++ NL ++ B "恒星时 " ++ m ++ B "(平) " ++ g ++ B "(真)" ++ NL) /\
  (xt = 10%Z -> p = 2%Z /\ h = []) /\ (xt <> 10%Z -> p = 8%Z /\ place_shown beyond "黄经一 " false " 黄纬一 " " 向径一 " p (g_hel r) h) /\
  place_shown beyond "视黄经 " false " 视黄纬 " " 地心距 " p (g_ecl r) e /\ place_shown beyond "视赤经 " true " 视赤纬 " " 光行距 " p (g_equ r) q /\ place_shown beyond "站赤经 " true " 站赤纬 " " 视距离 " p (g_top r) t /\
  angle_shown false (R64 (fst (g_hor r))) a /\ angle_shown false (R64 (snd (g_hor r))) b /\ angle_shown true (R64 (g_gp r)) m /\ angle_shown true (R64 (g_gt r)) g.
Proof.
  intros Bx H1 H2 H3 H4 H5 H6 H7 H8. unfold xingX_text. set (p := (if (xt =? 10)%Z then 2 else 8)%Z). assert (Bp : (0 <= p <= 8)%Z) by (subst p; destruct (xt =? 10)%Z; lia).
  assert (Hd : exists h, (if (xt =? 10)%Z then Some [] else if (xt <? 10)%Z && (0 <=? xt)%Z then place_line beyond "黄经一 " false " 黄纬一 " " 向径一 " p (g_hel r) else None) = Some h /\
    (xt = 10%Z -> p = 2%Z /\ h = []) /\ (xt <> 10%Z -> p = 8%Z /\ place_shown beyond "黄经一 " false " 黄纬一 " " 向径一 " p (g_hel r) h)).
  { destruct (Z.eqb_spec xt 10) as [E|E].
    - exists []. split; [reflexivity|]. split; [intros _; split; reflexivity|contradiction].
    - replace (xt <? 10)%Z with true by (symmetry; apply Z.ltb_lt; lia). replace (0 <=? xt)%Z with true by (symmetry; apply Z.leb_le; lia). cbn [andb].
      destruct (place_line_ok "黄经一 " false " 黄纬一 " " 向径一 " p (g_hel r) H1 Bp) as (h & Eh & Th). exists h. split; [exact Eh|]. split; [contradiction|]. intros _. split; [reflexivity|exact Th]. }
  destruct Hd as (h & Eh & T1 & T2). rw Eh. clearbody p.
  destruct (place_line_ok "视黄经 " false " 视黄纬 " " 地心距 " p _ H2 Bp) as (e & Ee & Te). rw Ee. destruct (place_line_ok "视赤经 " true " 视赤纬 " " 光行距 " p _ H3 Bp) as (q & Eq & Tq). rw Eq.
  destruct (place_line_ok "站赤经 " true " 站赤纬 " " 视距离 " p _ H4 Bp) as (t & Et & Tt). rw Et.
  destruct (angle_ok false _ H5) as (a & Ea & Ta). rw Ea. destruct (angle_ok false _ H6) as (b & Eb & Tb). rw Eb. destruct (angle_ok true _ H7) as (m & Em & Tm). rw Em. destruct (angle_ok true _ H8) as (g & Eg & Tg). rw Eg.
  exists p, h, e, q, t, a, b, m, g. split; [reflexivity|]. repeat (split; [assumption|]). assumption.
Qed.
End Lib.
(** a number that names no body is not refused: a distance without a value is printed *)
Theorem C158_no_body_refuted : exists xt, forall beyond r, xingX_text beyond xt r = None.
Proof. exists 11%Z. reflexivity. Qed.
(** the hypotheses can be met *)
Example C158_example : let v := (fZ 6, fZ (-1), fZ 5) in let r := mkXgt v v v v (fZ 3, fZ 1) (fZ 2) (fZ 2) in place_ok (g_hel r) /\ in_size (fst (g_hor r)) 17 /\ in_size (g_gp r) 17.
Proof.
  assert (K : forall n k, (-1000 <= n <= 1000000)%Z -> IZR (Z.abs n) <= k -> in_size (fZ n) k). { intros n k Hn Hk. destruct (fZ_ok n ltac:(lia)) as [O V]. split; [exact O|]. rewrite V, <- abs_IZR. exact Hk. }
  cbv zeta. unfold place_ok. cbn [g_hel g_hor g_gp fst snd]. split; [split; [apply K; [lia|cbn; lra]|split; [apply K; [lia|cbn; lra]|apply fZ_ok; lia]]|]. split; apply K; try lia; cbn; lra.
Qed.
Print Assumptions C158_text.
