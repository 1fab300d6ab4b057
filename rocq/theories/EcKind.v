(** ecFast: a kind that is given as certain is the kind. *)
From Coq Require Import String ZArith Reals Lia Lra Bool List.
From Coq Require Import Floats.SpecFloat.
From Flocq Require Import Core IEEE754.BinarySingleNaN.
From Verif Require Import F64 F64R F64S F64T F64E ErrExpr FormModel FormSpec FormProps EcModel EcSpec EcReal EcProof EcGeom.
Import ListNotations.
Open Scope R_scope.

Lemma ac_all gm r1 r2 fh2 h H1 H2 lx : ec_kind gm r1 r2 fh2 h H1 H2 = (true, lx) ->
  fltb (ffabs (fsub (ffabs gm) (fadd bb r1))) (lit 16 1000) = false /\ fltb (ffabs (fsub (ffabs gm) (fadd bb (ffabs r2)))) (lit 16 1000) = false /\
  fltb (ffabs (fsub (ffabs gm) bb)) (lit 16 1000) = false /\ fltb (ffabs (fsub (ffabs gm) (fsub bb (ffabs r2)))) (lit 16 1000) = false.
Proof.
  unfold ec_kind. set (c1 := fltb (ffabs (fsub (ffabs gm) (fadd bb r1))) _). set (c2 := fltb (ffabs (fsub (ffabs gm) (fadd bb (ffabs r2)))) _). set (c3 := fltb (ffabs (fsub (ffabs gm) bb)) _).
  set (c4 := fltb (ffabs (fsub (ffabs gm) (fsub bb (ffabs r2)))) _). cbv zeta. intros H.
  assert (A : (if c4 then false else if c3 then false else if c2 then false else negb c1) = true).
  { revert H. generalize (if c4 then false else if c3 then false else if c2 then false else negb c1). intros a H. destruct a; [reflexivity|].
    repeat match goal with H : context [if ?b then _ else _] |- _ => destruct b end; discriminate. }
  destruct c1, c2, c3, c4; try discriminate. repeat split; reflexivity.
Qed.
Lemma abs_lt0 (a : R) : 0 < a -> a <> 0. Proof. lra. Qed.
Lemma surface_low T : Rabs (gamma T) <= 9973 / 10000 -> 7 / 100 <= surface T.
Proof.
  intros H. apply Rabs_le_inv in H. unfold surface. rewrite <- (sqrt_square (7 / 100)) by lra. apply sqrt_le_1_alt. nra.
Qed.
Section Kind.
Variable T : R.
Variables gm r1 r2 fh2 h H1 H2 : f64.
Hypothesis Og : ok gm. Hypothesis O1 : ok r1. Hypothesis O2 : ok r2. Hypothesis Of : ok fh2. Hypothesis Oh : ok h. Hypothesis OH1 : ok H1. Hypothesis OH2 : ok H2.
Hypothesis Dg : Rabs (R64 gm - gamma T) <= 1 / 10000000. Hypothesis Bg : Rabs (gamma T) <= 10.
Hypothesis D1 : Rabs (R64 r1 - penumbra T) <= 1 / 10000000. Hypothesis B1 : Rabs (penumbra T) <= 10.
Hypothesis D2 : Rabs (R64 r2 - umbra T) <= 1 / 10000000. Hypothesis B2 : Rabs (umbra T) <= 10.
Hypothesis Df : Rabs (R64 fh2 - vertex T) <= 1 / 10000000. Hypothesis Bf : Rabs (vertex T) <= 10.
Hypothesis Dh : Rabs (R64 h - surface T) <= 401 / 1000000. Hypothesis Bh : 0 <= surface T <= 1.
Hypothesis DH1 : Rabs (R64 H1 - (vertex T - change T)) <= 1 / 1000.
Hypothesis DH2 : Rabs (R64 H2 - (vertex T + change T)) <= 1 / 1000.
Hypothesis CS : Rabs (change T) <= 11 / 100 * surface T.
Definition ls (i : nat) : f64 := nth i [fsub (ffabs gm) (fadd bb r1); fsub (ffabs gm) (fadd bb (ffabs r2)); fsub (ffabs gm) bb; fsub (ffabs gm) (fsub bb (ffabs r2))] (fZ 0).
Lemma ls_close i : (i < 4)%nat -> ok (ls i) /\ Rabs (R64 (ls i) - (Rabs (gamma T) - nth i (limits T) 0)) <= 1 / 1000000.
Proof.
  intros I. destruct bb_near as [Ob Db].
  assert (Bb : Rabs earth_b <= 100) by (unfold earth_b; decs; rewrite Rabs_pos_eq; lra).
  destruct (abs_close gm _ _ Og Dg) as [Oa Da]. destruct (abs_close r2 _ _ O2 D2) as [Oa2 Da2].
  assert (BA : Rabs (Rabs (gamma T)) <= 100) by (rewrite Rabs_Rabsolu; lra). assert (BA2 : Rabs (Rabs (umbra T)) <= 100) by (rewrite Rabs_Rabsolu; lra).
  destruct (add_close bb r1 _ _ _ _ Ob O1 Db D1 Bb ltac:(lra) ltac:(lra) ltac:(lra)) as [Os1 Ds1].
  destruct (add_close bb (ffabs r2) _ _ _ _ Ob Oa2 Db Da2 Bb ltac:(lra) ltac:(lra) ltac:(lra)) as [Os2 Ds2].
  destruct (sub_close bb (ffabs r2) _ _ _ _ Ob Oa2 Db Da2 Bb ltac:(lra) ltac:(lra) ltac:(lra)) as [Os4 Ds4].
  assert (Eb : 0 <= earth_b <= 1) by (unfold earth_b; decs; lra).
  assert (X1 : Rabs (earth_b + penumbra T) <= 100) by (apply Rabs_le_inv in B1; apply Rabs_le; lra).
  assert (X2 : Rabs (earth_b + Rabs (umbra T)) <= 100) by (apply Rabs_le_inv in BA2; apply Rabs_le; rewrite Rabs_Rabsolu in *; pose proof (Rabs_pos (umbra T)); lra).
  assert (X4 : Rabs (earth_b - Rabs (umbra T)) <= 100) by (apply Rabs_le; pose proof (Rabs_pos (umbra T)); lra).
  destruct (sub_close (ffabs gm) _ _ _ _ _ Oa Os1 Da Ds1 BA X1 ltac:(lra) ltac:(lra)) as [Ol1 Dl1].
  destruct (sub_close (ffabs gm) _ _ _ _ _ Oa Os2 Da Ds2 BA X2 ltac:(lra) ltac:(lra)) as [Ol2 Dl2].
  destruct (sub_close (ffabs gm) _ _ _ _ _ Oa Ob Da Db BA Bb ltac:(lra) ltac:(lra)) as [Ol3 Dl3].
  destruct (sub_close (ffabs gm) _ _ _ _ _ Oa Os4 Da Ds4 BA X4 ltac:(lra) ltac:(lra)) as [Ol4 Dl4].
  unfold ls, limits. destruct i as [|[|[|[|i]]]]; [..|lia]; cbn [nth]; (split; [assumption|]); (eapply Rle_trans; [eassumption|lra]).
Qed.
Lemma fh_close : ok (fsub fh2 h) /\ Rabs (R64 (fsub fh2 h) - (vertex T - surface T)) <= 402 / 1000000.
Proof.
  destruct (sub_close fh2 h _ _ _ _ Of Oh Df Dh ltac:(lra) ltac:(apply Rabs_le; lra) ltac:(lra) ltac:(lra)) as [Od Dd]. split; [exact Od|]. apply Rle_trans with (1 := Dd). lra.
Qed.
Lemma near_of x a c m e : ok x -> ok c -> R64 c <= m -> Rabs (R64 x - a) <= e -> fltb (ffabs x) c = true -> Rabs a < m + e.
Proof.
  intros O Oc M D H. destruct (fabs_ok x O) as [Oa Va]. rewrite (fltb_ok _ _ Oa Oc), Va in H. destruct (Rlt_bool_spec (Rabs (R64 x)) (R64 c)) as [L|]; [|discriminate].
  apply Rabs_lt_inv in L. apply Rabs_le_inv in D. apply Rabs_lt. lra.
Qed.
Lemma far_of x a c m e : ok x -> ok c -> m <= R64 c -> Rabs (R64 x - a) <= e -> fltb (ffabs x) c = false -> m - e <= Rabs a.
Proof.
  intros O Oc M D H. destruct (fabs_ok x O) as [Oa Va]. rewrite (fltb_ok _ _ Oa Oc), Va in H. destruct (Rlt_bool_spec (Rabs (R64 x)) (R64 c)) as [|L]; [discriminate|].
  pose proof (Rabs_triang_inv (R64 x) a). pose proof (Rabs_triang_inv (R64 x) (R64 x - a)). replace (R64 x - (R64 x - a)) with a in * by ring. lra.
Qed.
Lemma kind_clear lx : ec_kind gm r1 r2 fh2 h H1 H2 = (true, lx) -> clear_of_limits T.
Proof.
  intros H. destruct (ac_all _ _ _ _ _ _ _ _ H) as (C1 & C2 & C3 & C4). destruct lit16 as [O16 [L16 _]].
  assert (A : forall i, (i < 4)%nat -> 0.0159 < Rabs (Rabs (gamma T) - nth i (limits T) 0)).
  { intros i I. destruct (ls_close i I) as [Ol Dl]. assert (C : fltb (ffabs (ls i)) (lit 16 1000) = false) by (destruct i as [|[|[|[|i]]]]; [assumption..|lia]).
    pose proof (far_of _ _ _ _ _ Ol O16 L16 Dl C). decs. lra. }
  intros l [<-|[<-|[<-|[<-|[]]]]]; [exact (A 0%nat ltac:(lia))|exact (A 1%nat ltac:(lia))|exact (A 2%nat ltac:(lia))|exact (A 3%nat ltac:(lia))].
Qed.
Lemma kind_doubt lx : ec_kind gm r1 r2 fh2 h H1 H2 = (false, lx) -> doubtful T.
Proof.
  intros H. destruct lit16 as [O16 [_ L16]]. destruct lit19 as [O19 [_ L19]].
  assert (A : forall i, (i < 4)%nat -> fltb (ffabs (ls i)) (lit 16 1000) = true -> doubtful T).
  { intros i I C. destruct (ls_close i I) as [Ol Dl]. left. exists (nth i (limits T) 0). split; [apply nth_In; exact I|]. pose proof (near_of _ _ _ _ _ Ol O16 L16 Dl C). decs. lra. }
  unfold ec_kind in H. cbv zeta in H.
  destruct (fltb (ffabs (fsub (ffabs gm) (fadd bb r1))) (lit 16 1000)) eqn:C1; [exact (A 0%nat ltac:(lia) C1)|].
  destruct (fltb (ffabs (fsub (ffabs gm) (fadd bb (ffabs r2)))) (lit 16 1000)) eqn:C2; [exact (A 1%nat ltac:(lia) C2)|].
  destruct (fltb (ffabs (fsub (ffabs gm) bb)) (lit 16 1000)) eqn:C3; [exact (A 2%nat ltac:(lia) C3)|].
  destruct (fltb (ffabs (fsub (ffabs gm) (fsub bb (ffabs r2)))) (lit 16 1000)) eqn:C4; [exact (A 3%nat ltac:(lia) C4)|].
  destruct (fltb (ffabs (fsub fh2 h)) (lit 19 1000)) eqn:C5.
  { right. left. destruct fh_close as [Od Dd]. pose proof (near_of _ _ _ _ _ Od O19 L19 Dd C5). decs. lra. }
  destruct (fltb (ffabs H1) (lit 19 1000)) eqn:C6.
  { right. right. left. pose proof (near_of _ _ _ _ _ OH1 O19 L19 DH1 C6). decs. lra. }
  destruct (fltb (ffabs H2) (lit 19 1000)) eqn:C7.
  { right. right. right. pose proof (near_of _ _ _ _ _ OH2 O19 L19 DH2 C7). decs. lra. }
  exfalso. cbn [negb] in H. revert H. repeat match goal with |- context [if ?b then _ else _] => destruct b end; discriminate.
Qed.
Lemma kind_ok lx : ec_kind gm r1 r2 fh2 h H1 H2 = (true, lx) -> kind_at T lx.
Proof.
  intros H. destruct (ac_all _ _ _ _ _ _ _ _ H) as (C1 & C2 & C3 & C4).
  destruct lit16 as [O16 [L16 _]]. destruct lit19 as [O19 [L19 _]]. destruct bb_near as [Ob Db].
  assert (Bb : Rabs earth_b <= 100) by (unfold earth_b; decs; rewrite Rabs_pos_eq; lra).
  destruct (abs_close gm _ _ Og Dg) as [Oa Da]. destruct (abs_close r2 _ _ O2 D2) as [Oa2 Da2].
  assert (BA : Rabs (Rabs (gamma T)) <= 100) by (rewrite Rabs_Rabsolu; lra). assert (BA2 : Rabs (Rabs (umbra T)) <= 100) by (rewrite Rabs_Rabsolu; lra).
  destruct (add_close bb r1 _ _ _ _ Ob O1 Db D1 Bb ltac:(lra) ltac:(lra) ltac:(lra)) as [Os1 Ds1].
  destruct (add_close bb (ffabs r2) _ _ _ _ Ob Oa2 Db Da2 Bb ltac:(lra) ltac:(lra) ltac:(lra)) as [Os2 Ds2].
  destruct (sub_close bb (ffabs r2) _ _ _ _ Ob Oa2 Db Da2 Bb ltac:(lra) ltac:(lra) ltac:(lra)) as [Os4 Ds4].
  assert (Eb : 0 <= earth_b <= 1) by (unfold earth_b; decs; lra).
  assert (X1 : Rabs (earth_b + penumbra T) <= 100) by (apply Rabs_le_inv in B1; apply Rabs_le; lra).
  assert (X2 : Rabs (earth_b + Rabs (umbra T)) <= 100) by (apply Rabs_le_inv in BA2; apply Rabs_le; rewrite Rabs_Rabsolu in *; pose proof (Rabs_pos (umbra T)); lra).
  assert (X4 : Rabs (earth_b - Rabs (umbra T)) <= 100) by (apply Rabs_le; pose proof (Rabs_pos (umbra T)); lra).
  destruct (sub_close (ffabs gm) _ _ _ _ _ Oa Os1 Da Ds1 BA X1 ltac:(lra) ltac:(lra)) as [Ol1 Dl1].
  destruct (sub_close (ffabs gm) _ _ _ _ _ Oa Os2 Da Ds2 BA X2 ltac:(lra) ltac:(lra)) as [Ol2 Dl2].
  destruct (sub_close (ffabs gm) _ _ _ _ _ Oa Ob Da Db BA Bb ltac:(lra) ltac:(lra)) as [Ol3 Dl3].
  destruct (sub_close (ffabs gm) _ _ _ _ _ Oa Os4 Da Ds4 BA X4 ltac:(lra) ltac:(lra)) as [Ol4 Dl4].
  destruct (sub_close fh2 h _ _ _ _ Of Oh Df Dh ltac:(lra) ltac:(apply Rabs_le; lra) ltac:(lra) ltac:(lra)) as [Od Dd].
  pose proof (sure _ _ _ _ _ Ol1 O16 L16 Dl1 ltac:(lra) C1) as S1. pose proof (sure _ _ _ _ _ Ol2 O16 L16 Dl2 ltac:(lra) C2) as S2.
  pose proof (sure _ _ _ _ _ Ol3 O16 L16 Dl3 ltac:(lra) C3) as S3. pose proof (sure _ _ _ _ _ Ol4 O16 L16 Dl4 ltac:(lra) C4) as S4.
  clear Dl1 Dl2 Dl3 Dl4 Ol1 Ol2 Ol3 Ol4 X1 X2 X4 Ds1 Ds2 Ds4.
  unfold ec_kind in H. cbv zeta in H. rewrite C1, C2, C3, C4 in H. cbn [negb] in H. clear C1 C2 C3 C4.
  assert (LET : letter (1 / 1000) T (if fltb fh2 h then "T" else "A")).
  { rewrite (fltb_ok _ _ Of Oh). apply Rabs_le_inv in Df, Dh. unfold letter. destruct (Rlt_bool_spec (R64 fh2) (R64 h)); [left|right]; (split; [reflexivity|lra]). }
  destruct S1 as [[S1 T1]|[S1 T1]]; rewrite S1 in H; [injection H as <-; apply K_none; lra|].
  destruct S2 as [[S2 T2]|[S2 T2]]; rewrite S2 in H; [injection H as <-; apply K_partial; lra|].
  assert (TOL : 0.001 = 1 / 1000) by (decs; lra).
  destruct S3 as [[S3 T3]|[S3 T3]]; rewrite S3 in H; [injection H as <-; apply K_off; [lra|rewrite TOL; exact LET]|].
  destruct S4 as [[S4 T4]|[S4 T4]]; rewrite S4 in H; [injection H as <-; apply K_edge; [lra|rewrite TOL; exact LET]|].
  assert (G0 : Rabs (gamma T) <= earth_b - Rabs (umbra T)) by lra.
  assert (SL : 7 / 100 <= surface T). { apply surface_low. pose proof (Rabs_pos (umbra T)). revert G0. unfold earth_b. decs. lra. }
  destruct (fltb (ffabs (fsub fh2 h)) (lit 19 1000)) eqn:C5.
  { exfalso. destruct (fltb (ffabs fh2) h); [|discriminate]. destruct (fltb (ffabs H1) _), (fltb (ffabs H2) _); discriminate. }
  pose proof (sure _ _ _ _ _ Od O19 L19 Dd ltac:(lra) C5) as S5. destruct (fZ_ok 0) as [O0 V0]; [lia|].
  assert (S5' : (fltb fh2 h = false /\ surface T < vertex T) \/ (fltb fh2 h = true /\ vertex T < surface T)).
  { rewrite (fltb_ok _ _ Of Oh). apply Rabs_le_inv in Df, Dh, Dd. destruct (fabs_ok _ Od) as [Oad Vad]. rewrite (fltb_ok _ _ Oad O19), Vad in C5.
    destruct (Rlt_bool_spec (Rabs (R64 (fsub fh2 h))) (R64 (lit 19 1000))) as [|G]; [discriminate|].
    destruct S5 as [[_ S5]|[_ S5]]; [left|right]; (split; [|lra]).
    - apply Rlt_bool_false. assert (0 <= R64 (fsub fh2 h)). { destruct (Rle_lt_dec 0 (R64 (fsub fh2 h))); [assumption|]. rewrite Rabs_left in G by lra. lra. } rewrite Rabs_pos_eq in G by lra. lra.
    - apply Rlt_bool_true. assert (R64 (fsub fh2 h) <= 0). { destruct (Rle_lt_dec (R64 (fsub fh2 h)) 0); [assumption|]. rewrite Rabs_pos_eq in G by lra. lra. } rewrite Rabs_left1 in G by lra. lra. }
  destruct (fabs_ok _ Of) as [Oaf Vaf]. rewrite (fltb_ok _ _ Oaf Oh), Vaf in H. apply Rabs_le_inv in CS.
  destruct (Rlt_bool_spec (Rabs (R64 fh2)) (R64 h)) as [L|L].
  - apply Rabs_lt_inv in L. destruct (fltb (ffabs H1) (lit 19 1000)) eqn:C6; [destruct (fltb (ffabs H2) (lit 19 1000)); discriminate|].
    destruct (fltb (ffabs H2) (lit 19 1000)) eqn:C7; [discriminate|].
    pose proof (sure _ _ _ _ _ OH1 O19 L19 DH1 ltac:(lra) C6) as S6. pose proof (sure _ _ _ _ _ OH2 O19 L19 DH2 ltac:(lra) C7) as S7.
    assert (VS : fltb fh2 h = true /\ vertex T < surface T). { destruct S5' as [[Z _]|Z]; [|exact Z]. exfalso. rewrite (fltb_ok _ _ Of Oh) in Z. rewrite Rlt_bool_true in Z by lra. discriminate. }
    destruct VS as [VT VS]. rewrite VT in H. destruct S6 as [[S6 T6]|[S6 T6]], S7 as [[S7 T7]|[S7 T7]]; rewrite S6, S7 in H; cbn [andb] in H; injection H as <-.
    + apply K_ATA; lra.
    + apply K_ATT; lra.
    + apply K_TTA; lra.
    + apply K_total; lra.
  - destruct S5' as [[Z V]|[Z V]]; rewrite Z in H; injection H as <-.
    + apply K_annular; lra.
    + assert (R64 fh2 < R64 h) by (rewrite (fltb_ok _ _ Of Oh) in Z; destruct (Rlt_bool_spec (R64 fh2) (R64 h)); [assumption|discriminate]).
      assert (R64 fh2 <= - R64 h) by (destruct (Rle_lt_dec 0 (R64 fh2)); [rewrite Rabs_pos_eq in L by lra; lra|rewrite Rabs_left in L by lra; lra]).
      apply Rabs_le_inv in Df, Dh. apply K_total; lra.
Qed.
End Kind.
