(** C43: the table of risings and settings. *)
From Coq Require Import ZArith Lia Bool List Ascii String.
From Coq Require Import Floats.SpecFloat.
From Verif Require Import F64 Str SsqModel SzjModel.
Import ListNotations.
Open Scope Z_scope.
Open Scope opt_scope.

Lemma at_range {A} (l : list A) i : 0 <= i < Z.of_nat (List.length l) -> exists x, at_ l i = Some x.
Proof. intros H. unfold at_. destruct (Z.leb_spec 0 i); [|lia]. destruct (nth_error l (Z.to_nat i)) eqn:E; [eauto|]. apply nth_error_None in E. lia. Qed.
Lemma put_ok rts i f : 0 <= i < Z.of_nat (List.length rts) -> exists r, put rts i f = Some r /\ List.length r = List.length rts /\
  forall d, at_ r d = if d =? i then option_map f (at_ rts d) else at_ rts d.
Proof.
  intros H. unfold put. destruct (at_range rts i H) as (x & E). rewrite E. cbn [obind]. eexists. split; [reflexivity|].
  assert (E' : nth_error rts (Z.to_nat i) = Some x) by (unfold at_ in E; destruct (Z.leb_spec 0 i); [exact E|lia]).
  split.
  - rewrite app_length, firstn_length. cbn [List.length]. rewrite skipn_length. lia.
  - intros d. unfold at_. destruct (Z.leb_spec 0 d); [|destruct (Z.eqb_spec d i); [lia|reflexivity]].
    destruct (Z.eqb_spec d i) as [->|N].
    + rewrite E'. cbn [option_map]. rewrite nth_error_app2 by (rewrite firstn_length; lia). rewrite firstn_length. replace (Z.to_nat i - Nat.min (Z.to_nat i) (List.length rts))%nat with 0%nat by lia. reflexivity.
    + destruct (Z.lt_ge_cases d i).
      * rewrite nth_error_app1 by (rewrite firstn_length; lia). assert (G : forall m (j : nat) (q : list sjs), (j < m)%nat -> nth_error (firstn m q) j = nth_error q j).
        { induction m as [|m IH]; intros j q Hj; [lia|]. destruct q as [|y q]; [destruct j; reflexivity|]. destruct j; [reflexivity|]. cbn. apply IH. lia. }
        apply G. lia.
      * rewrite nth_error_app2 by (rewrite firstn_length; lia). rewrite firstn_length. replace (Z.to_nat d - Nat.min (Z.to_nat i) (List.length rts))%nat with (S (Z.to_nat d - Z.to_nat i - 1))%nat by lia. cbn [nth_error].
        assert (G : forall u v (q : list sjs), nth_error (skipn u q) v = nth_error q (u + v)).
        { induction u as [|u IH]; intros v q; [reflexivity|]. destruct q as [|y q]; [destruct v; reflexivity|]. apply IH. }
        rewrite G. f_equal. lia.
Qed.

(** ** specification: the latest of a list of dated texts *)
Definition latest (d : Z) (events : list (Z * bytes)) (before : bytes) : bytes :=
  fold_left (fun cur e => if fst e =? d then snd e else cur) events before.

Section S.
Variables (St Mt : f64 -> f64 -> f64 -> sj) (timeStr : f64 -> bytes).
Variables (jd L fa sq : f64).
(** the local noon of day i *)
Definition noon (i : Z) : f64 := fadd (fadd jd (fZ i)) sq.
(** the day in the table of an event at time x, counted from the first day *)
Definition day_of (x : f64) : Z := match slot jd sq x with Some c => c | None => -1 end.
Definition event (get : sj -> f64) (i : Z) : Z * bytes := let x := get (Mt L fa (noon i)) in (day_of x, timeStr (fsub x sq)).
Definition span (i : Z) (k : nat) : list Z := map (fun j => i + Z.of_nat j) (seq 0 k).
Definition events (get : sj -> f64) (i : Z) (k : nat) : list (Z * bytes) := map (event get) (span i k).
(** the conversions to int are defined *)
Definition defined (i : Z) : Prop := forall get, In get [t_s; t_z; t_j] -> slot jd sq (get (Mt L fa (noon i))) <> None.
(** an entry that got the moon texts of some events, and the sun texts of its day if that is among those *)
Definition updated (n i : Z) (k : nat) (d : Z) (x : sjs) : sjs :=
  let y := if (0 <=? d) && (d <? n) && (i <=? d) && (d <? i + Z.of_nat k) then set_sun timeStr sq (St L fa (noon d)) x else x in
  if (0 <=? d) && (d <? n) then
  mkSjs (e_s y) (e_z y) (e_j y) (e_c y) (e_h y) (e_ch y) (e_sj y)
    (latest d (events t_s i k) (e_Ms x)) (latest d (events t_z i k) (e_Mz x)) (latest d (events t_j i k) (e_Mj x))
  else x.
Lemma set_moon_ok rts n x set : n <= Z.of_nat (List.length rts) -> slot jd sq x <> None ->
  exists r, set_moon timeStr rts jd sq x n set = Some r /\ List.length r = List.length rts /\
  forall d, at_ r d = if (0 <=? d) && (d <? n) && (day_of x =? d) then option_map (set (timeStr (fsub x sq))) (at_ rts d) else at_ rts d.
Proof.
  intros Hn HS. unfold set_moon, day_of. destruct (slot jd sq x) as [c|]; [|contradiction]. cbn [obind].
  destruct (Z.leb_spec 0 c); cbn [andb].
  - destruct (Z.ltb_spec c n).
    + destruct (put_ok rts c (set (timeStr (fsub x sq))) ltac:(lia)) as (r & E & LR & A). exists r. split; [exact E|]. split; [exact LR|]. intros d. rewrite A.
      destruct (Z.eqb_spec d c), (Z.eqb_spec c d), (Z.leb_spec 0 d), (Z.ltb_spec d n); cbn [andb]; try lia; reflexivity.
    + exists rts. split; [reflexivity|]. split; [reflexivity|]. intros d. destruct (Z.eqb_spec c d), (Z.leb_spec 0 d), (Z.ltb_spec d n); cbn [andb]; try lia; reflexivity.
  - exists rts. split; [reflexivity|]. split; [reflexivity|]. intros d. destruct (Z.eqb_spec c d), (Z.leb_spec 0 d), (Z.ltb_spec d n); cbn [andb]; try lia; reflexivity.
Qed.
Lemma day_ok rts n i : n <= Z.of_nat (List.length rts) -> defined i ->
  exists r, rts_day St Mt timeStr rts jd L fa sq n i = Some r /\ List.length r = List.length rts /\ forall d, at_ r d = option_map (updated n i 1 d) (at_ rts d).
Proof.
  intros Hn HD. unfold rts_day. cbv zeta. fold (noon i).
  assert (A : exists r0, (if (0 <=? i) && (i <? n) then put rts i (set_sun timeStr sq (St L fa (noon i))) else Some rts) = Some r0 /\ List.length r0 = List.length rts /\
    forall d, at_ r0 d = if (0 <=? d) && (d <? n) && (d =? i) then option_map (set_sun timeStr sq (St L fa (noon i))) (at_ rts d) else at_ rts d).
  { destruct (Z.leb_spec 0 i); cbn [andb]; [destruct (Z.ltb_spec i n)|].
    - destruct (put_ok rts i (set_sun timeStr sq (St L fa (noon i))) ltac:(lia)) as (r & E & LR & A). exists r. split; [exact E|]. split; [exact LR|]. intros d. rewrite A. destruct (Z.eqb_spec d i), (Z.leb_spec 0 d), (Z.ltb_spec d n); cbn [andb]; try lia; reflexivity.
    - exists rts. split; [reflexivity|]. split; [reflexivity|]. intros d. destruct (Z.eqb_spec d i), (Z.leb_spec 0 d), (Z.ltb_spec d n); cbn [andb]; try lia; reflexivity.
    - exists rts. split; [reflexivity|]. split; [reflexivity|]. intros d. destruct (Z.eqb_spec d i), (Z.leb_spec 0 d), (Z.ltb_spec d n); cbn [andb]; try lia; reflexivity. }
  destruct A as (r0 & E0 & L0 & A0). rewrite E0. cbn [obind].
  destruct (set_moon_ok r0 n (t_s (Mt L fa (noon i))) set_Ms ltac:(lia) (HD t_s ltac:(cbn; tauto))) as (r1 & E1 & L1 & A1). rewrite E1. cbn [obind].
  destruct (set_moon_ok r1 n (t_z (Mt L fa (noon i))) set_Mz ltac:(lia) (HD t_z ltac:(cbn; tauto))) as (r2 & E2 & L2 & A2). rewrite E2. cbn [obind].
  destruct (set_moon_ok r2 n (t_j (Mt L fa (noon i))) set_Mj ltac:(lia) (HD t_j ltac:(cbn; tauto))) as (r3 & E3 & L3 & A3). exists r3. split; [exact E3|]. split; [congruence|].
  intros d. rewrite A3, A2, A1, A0. unfold updated, latest, events, span. cbn [seq map fold_left]. rewrite Z.add_0_r. cbn [fst snd event].
  destruct (Z.leb_spec 0 d), (Z.ltb_spec d n); cbn [andb option_map]; try (destruct (at_ rts d); reflexivity).
  destruct (at_ rts d) as [x|]; [|repeat (match goal with |- context [if ?b then _ else _] => destruct b end); reflexivity].
  destruct (Z.eqb_spec d i) as [->|N].
  - replace (i <=? i) with true by (symmetry; apply Z.leb_refl). replace (i <? i + Z.of_nat 1) with true by (symmetry; apply Z.ltb_lt; lia). cbn [andb option_map].
    destruct (day_of (t_s (Mt L fa (noon i))) =? i), (day_of (t_z (Mt L fa (noon i))) =? i), (day_of (t_j (Mt L fa (noon i))) =? i); reflexivity.
  - assert (Q : (i <=? d) && (d <? i + Z.of_nat 1) = false) by (apply andb_false_iff; destruct (Z.leb_spec i d); [right; apply Z.ltb_ge; lia|now left]).
    cbn [option_map]. rewrite Q.
    destruct x. destruct (day_of (t_s (Mt L fa (noon i))) =? d), (day_of (t_z (Mt L fa (noon i))) =? d), (day_of (t_j (Mt L fa (noon i))) =? d); reflexivity.
Qed.
Lemma span_S i k : span i (S k) = i :: span (i + 1) k.
Proof. unfold span. cbn [seq map]. rewrite Z.add_0_r. f_equal. rewrite <- seq_shift, map_map. apply map_ext. intros a. lia. Qed.
Lemma days_ok n : forall k rts i, n <= Z.of_nat (List.length rts) -> (forall j, i <= j < i + Z.of_nat k -> defined j) ->
  exists r, rts_days St Mt timeStr k rts jd L fa sq n i = Some r /\ List.length r = List.length rts /\ forall d, at_ r d = option_map (updated n i k d) (at_ rts d).
Proof.
  induction k as [|k IH]; intros rts i Hn HD.
  - exists rts. split; [reflexivity|]. split; [reflexivity|]. intros d. destruct (at_ rts d) as [x|]; [|reflexivity]. cbn [option_map]. unfold updated, events, latest. cbn [span seq map fold_left].
    replace ((0 <=? d) && (d <? n) && (i <=? d) && (d <? i + Z.of_nat 0)) with false; [destruct ((0 <=? d) && (d <? n)); [destruct x|]; reflexivity|].
    symmetry. destruct (Z.leb_spec i d); [|rewrite andb_false_r; reflexivity]. assert (d <? i + Z.of_nat 0 = false) as -> by (apply Z.ltb_ge; lia). apply andb_false_r.
  - cbn [rts_days]. destruct (day_ok rts n i Hn (HD i ltac:(lia))) as (r1 & E1 & L1 & A1). rewrite E1. cbn [obind].
    destruct (IH r1 (i + 1) ltac:(lia)) as (r & E & LR & A); [intros j Hj; apply HD; lia|]. exists r. split; [exact E|]. split; [congruence|]. intros d. rewrite A, A1.
    destruct (at_ rts d) as [x|]; [|reflexivity]. cbn [option_map]. f_equal. unfold updated. destruct ((0 <=? d) && (d <? n)) eqn:D; [|reflexivity]. cbn [andb].
    assert (S1 : span i 1 = [i]) by (rewrite span_S; reflexivity).
    unfold events. rewrite S1, (span_S i k). unfold latest. cbn [map fold_left].
    destruct (Z.leb_spec (i + 1) d).
    + replace (i <=? d) with true by (symmetry; apply Z.leb_le; lia). replace (d <? i + Z.of_nat 1) with false by (symmetry; apply Z.ltb_ge; lia). cbn [andb].
      replace (d <? i + Z.of_nat (S k)) with (d <? i + 1 + Z.of_nat k) by (f_equal; lia).
      destruct (d <? i + 1 + Z.of_nat k); cbn [e_s e_z e_j e_c e_h e_ch e_sj e_Ms e_Mz e_Mj set_sun]; reflexivity.
    + cbn [andb]. destruct (Z.leb_spec i d); cbn [andb].
      * replace (d <? i + Z.of_nat 1) with true by (symmetry; apply Z.ltb_lt; lia). replace (d <? i + Z.of_nat (S k)) with true by (symmetry; apply Z.ltb_lt; lia).
        cbn [e_s e_z e_j e_c e_h e_ch e_sj e_Ms e_Mz e_Mj set_sun]. reflexivity.
      * cbn [e_s e_z e_j e_c e_h e_ch e_sj e_Ms e_Mz e_Mj]. reflexivity.
Qed.
End S.

(** What one call does to the table: on each of its n days the sun texts are those of that day; each moon text is that of the last
    event of this call falling on the day, or else what was there before.  Other entries are not touched. *)
Theorem C43_one_call St Mt timeStr rts jd n L fa sq : 0 <= n -> let rts0 := match rts with [] => repeat sjs0 31 | _ => rts end in let z := fdiv sq (fZ 24) in
  n <= Z.of_nat (List.length rts0) -> (forall i, -1 <= i <= n -> defined Mt jd L fa z i) ->
  exists r, calcRTS St Mt timeStr rts jd n L fa sq = Some r /\ List.length r = List.length rts0 /\
  (forall d, n <= d -> at_ r d = at_ rts0 d) /\
  (forall d x, 0 <= d < n -> at_ rts0 d = Some x -> at_ r d = Some (
     let s := St L fa (noon jd z d) in
     mkSjs (timeStr (fsub (t_s s) z)) (timeStr (fsub (t_z s) z)) (timeStr (fsub (t_j s) z)) (timeStr (fsub (t_c s) z)) (timeStr (fsub (t_h s) z))
       (timeStr (fsub (fsub (t_h s) (t_c s)) (lit 5 10))) (timeStr (fsub (fsub (t_j s) (t_s s)) (lit 5 10)))
       (latest d (events Mt timeStr jd L fa z t_s (-1) (Z.to_nat (n + 2))) (e_Ms x))
       (latest d (events Mt timeStr jd L fa z t_z (-1) (Z.to_nat (n + 2))) (e_Mz x))
       (latest d (events Mt timeStr jd L fa z t_j (-1) (Z.to_nat (n + 2))) (e_Mj x)))).
Proof.
  intros H0 rts0 z Hn HD. unfold calcRTS. fold rts0. cbv zeta. fold z. unfold reads_ok. replace (n <=? Z.of_nat (List.length rts0)) with true by (symmetry; now apply Z.leb_le).
  destruct (days_ok St Mt timeStr jd L fa z n (Z.to_nat (n + 2)) rts0 (-1) Hn) as (r & E & LR & A); [intros j Hj; apply HD; lia|].
  exists r. split; [exact E|]. split; [exact LR|]. split.
  - intros d Hd. rewrite A. destruct (at_ rts0 d) as [x|]; [|reflexivity]. cbn [option_map]. unfold updated. replace (d <? n) with false by (symmetry; apply Z.ltb_ge; lia). rewrite andb_false_r. reflexivity.
  - intros d x Hd Hx. rewrite A, Hx. cbn [option_map]. unfold updated. replace (0 <=? d) with true by (symmetry; apply Z.leb_le; lia). replace (d <? n) with true by (symmetry; apply Z.ltb_lt; lia).
    replace (-1 <=? d) with true by (symmetry; apply Z.leb_le; lia). replace (d <? -1 + Z.of_nat (Z.to_nat (n + 2))) with true by (symmetry; apply Z.ltb_lt; lia). reflexivity.
Qed.
Lemma latest_hit d evs : forall a b, In d (map fst evs) -> latest d evs a = latest d evs b.
Proof.
  unfold latest. induction evs as [|[c t] evs IH]; intros a b H; [contradiction|]. cbn [map fst fold_left snd] in *. destruct (Z.eqb_spec c d) as [->|N]; [reflexivity|]. destruct H as [H|H]; [contradiction|]. now apply IH.
Qed.
Lemma latest_miss d evs : forall a, ~ In d (map fst evs) -> latest d evs a = a.
Proof.
  unfold latest. induction evs as [|[c t] evs IH]; intros a H; [reflexivity|]. cbn [map fst fold_left snd] in *. destruct (Z.eqb_spec c d) as [->|N]; [exfalso; apply H; now left|]. apply IH. intros Q. apply H. now right.
Qed.
(** Days on which the moon rises, culminates and sets come out the same whatever the table contained before. *)
Theorem C43_full_days St Mt timeStr rts rts' jd n L fa sq d : 0 <= d < n -> n <= 31 -> let z := fdiv sq (fZ 24) in
  List.length rts = 31%nat -> List.length rts' = 31%nat -> (forall i, -1 <= i <= n -> defined Mt jd L fa z i) ->
  (forall get, In get [t_s; t_z; t_j] -> exists i, -1 <= i <= n /\ slot jd z (get (Mt L fa (noon jd z i))) = Some d) ->
  exists r r' x, calcRTS St Mt timeStr rts jd n L fa sq = Some r /\ calcRTS St Mt timeStr rts' jd n L fa sq = Some r' /\ at_ r d = Some x /\ at_ r' d = Some x.
Proof.
  intros Hd Hn z L1 L2 HD HE.
  assert (N1 : match rts with [] => repeat sjs0 31 | _ => rts end = rts) by (destruct rts; [discriminate L1|reflexivity]).
  assert (N2 : match rts' with [] => repeat sjs0 31 | _ => rts' end = rts') by (destruct rts'; [discriminate L2|reflexivity]).
  destruct (C43_one_call St Mt timeStr rts jd n L fa sq ltac:(lia)) as (r & E & _ & _ & A); [rewrite N1; lia|exact HD|].
  destruct (C43_one_call St Mt timeStr rts' jd n L fa sq ltac:(lia)) as (r' & E' & _ & _ & A'); [rewrite N2; lia|exact HD|].
  rewrite N1 in A. rewrite N2 in A'. destruct (at_range rts d ltac:(lia)) as (x & X). destruct (at_range rts' d ltac:(lia)) as (x' & X').
  exists r, r'. eexists. split; [exact E|]. split; [exact E'|]. split; [exact (A d x ltac:(lia) X)|]. rewrite (A' d x' ltac:(lia) X'). fold z.
  assert (G : forall get, In get [t_s; t_z; t_j] -> forall a b, latest d (events Mt timeStr jd L fa z get (-1) (Z.to_nat (n + 2))) a = latest d (events Mt timeStr jd L fa z get (-1) (Z.to_nat (n + 2))) b).
  { intros get Hg a b. apply latest_hit. destruct (HE get Hg) as (i & Hi & Hs). unfold events. rewrite map_map. apply in_map_iff. exists i. split; [unfold event, day_of; cbn [fst]; rewrite Hs; reflexivity|].
    unfold span. apply in_map_iff. exists (Z.to_nat (i + 1)). split; [lia|]. apply in_seq. lia. }
  cbv zeta. rewrite (G t_s ltac:(cbn; tauto) (e_Ms x') (e_Ms x)), (G t_z ltac:(cbn; tauto) (e_Mz x') (e_Mz x)), (G t_j ltac:(cbn; tauto) (e_Mj x') (e_Mj x)). reflexivity.
Qed.
Definition wit_St (L fa t : f64) : sj := mkSj t t t t t.
Definition wit_Mt (L fa t : f64) : sj := mkSj (if feqb t (fZ 6) then fZ 7 else t) t t t t.
Definition wit_str (t : f64) : bytes := match int2 t with Some 1 => B "1" | _ => B "*" end.
Lemma wit_runs :
  match calcRTS wit_St wit_Mt wit_str [] (fZ 0) 3 (fZ 0) (fZ 0) (fZ 0) with Some r1 =>
  match calcRTS wit_St wit_Mt wit_str r1 (fZ 5) 3 (fZ 0) (fZ 0) (fZ 0) with Some r2 =>
  match calcRTS wit_St wit_Mt wit_str [] (fZ 5) 3 (fZ 0) (fZ 0) (fZ 0) with Some fr =>
  match at_ r2 1, at_ fr 1 with Some a, Some b => Some (e_Ms a, e_Ms b) | _, _ => None end | None => None end | None => None end | None => None end = Some (B "1", []).
Proof. vm_compute. reflexivity. Qed.
(** Otherwise the old text stays: the moon rises at noon of every day but one; after a call for the days 0-2 and one for the days
    5-7, the entry of day 6, on which there is no moonrise, shows the time of another month's day. *)
Theorem C43_history_refuted : exists (St Mt : f64 -> f64 -> f64 -> sj) (timeStr : f64 -> bytes) r1 r2 fresh a b,
  calcRTS St Mt timeStr [] (fZ 0) 3 (fZ 0) (fZ 0) (fZ 0) = Some r1 /\
  calcRTS St Mt timeStr r1 (fZ 5) 3 (fZ 0) (fZ 0) (fZ 0) = Some r2 /\
  calcRTS St Mt timeStr [] (fZ 5) 3 (fZ 0) (fZ 0) (fZ 0) = Some fresh /\
  at_ r2 1 = Some a /\ at_ fresh 1 = Some b /\ e_Ms a = B "1" /\ e_Ms b = [].
Proof.
  exists wit_St, wit_Mt, wit_str. pose proof wit_runs as H.
  destruct (calcRTS wit_St wit_Mt wit_str [] (fZ 0) 3 (fZ 0) (fZ 0) (fZ 0)) as [r1|]; [|discriminate H].
  destruct (calcRTS wit_St wit_Mt wit_str r1 (fZ 5) 3 (fZ 0) (fZ 0) (fZ 0)) as [r2|] eqn:E2; [|discriminate H].
  destruct (calcRTS wit_St wit_Mt wit_str [] (fZ 5) 3 (fZ 0) (fZ 0) (fZ 0)) as [fr|]; [|discriminate H].
  destruct (at_ r2 1) as [a|] eqn:A2; [|discriminate H]. destruct (at_ fr 1) as [b|] eqn:A3; [|discriminate H].
  exists r1, r2, fr, a, b. injection H as H1 H2. repeat (split; [assumption || exact (eq_refl _)|]). exact H2.
Qed.
(** More than 31 days do not fit. *)
Theorem C43_too_many_days_refuted St Mt timeStr jd L fa sq : calcRTS St Mt timeStr [] jd 32 L fa sq = None.
Proof. reflexivity. Qed.
Example C43_example : defined (fun _ _ t => mkSj t t t t t) (fZ 5) (fZ 0) (fZ 0) (fdiv (fZ (-8)) (fZ 24)) 2.
Proof. intros get [<-|[<-|[<-|[]]]]; vm_compute; discriminate. Qed.
Print Assumptions C43_one_call.
Print Assumptions C43_full_days.
Print Assumptions C43_history_refuted.
