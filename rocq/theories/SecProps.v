(** C104: the local circumstances of a solar eclipse. *)
From Coq Require Import ZArith Reals Lra Lia Psatz List.
From Flocq Require Import Core.
From Verif Require Import GeoModel GeoSpec GeoProof GeoProps ObsModel ObsSpec ObsProps SecModel.
Import ListNotations.
Open Scope R_scope.

(** what the search over seconds finds *)
Lemma search_ok XY jd is : forall st, let st' := search XY jd is st in
  fst st <= fst st' /\ (forall i, In i is -> magnitude (XY (jd + IZR i / 86400)) <= fst st') /\
  (st' = st \/ exists i, In i is /\ fst st < fst st' /\ st' = (magnitude (XY (jd + IZR i / 86400)), jd + IZR i / 86400)).
Proof.
  unfold search. induction is as [|i is IH]; intros st; cbn [fold_left].
  - split; [lra|]. split; [intros i []|left; reflexivity].
  - set (f := search_step XY jd) in *. cbv zeta in IH |- *.
    assert (B : fst st <= fst (f st i) /\ magnitude (XY (jd + IZR i / 86400)) <= fst (f st i) /\
      (f st i = st \/ (fst st < fst (f st i) /\ f st i = (magnitude (XY (jd + IZR i / 86400)), jd + IZR i / 86400)))).
    { unfold f, search_step. cbv zeta. destruct (Rlt_dec (fst st) (magnitude (XY (jd + IZR i / 86400)))) as [L|L]; cbn [fst].
      2: { split; [lra|]. split; [lra|left; reflexivity]. }
      split; [lra|]. split; [lra|right; split; [exact L|reflexivity]]. }
    destruct B as (B1 & B2 & B3). destruct (IH (f st i)) as (I1 & I2 & I3). split; [eapply Rle_trans; [exact B1|exact I1]|]. split.
    + intros k [->|K]; [eapply Rle_trans; [exact B2|exact I1]|apply I2, K].
    + destruct I3 as [->|(k & K & L & E)].
      * destruct B3 as [->|(L & E)]; [left; reflexivity|right; exists i; split; [left; reflexivity|split; [exact L|exact E]]].
      * right. exists k. split; [right; exact K|split; [eapply Rle_lt_trans; [exact B1|exact L]|exact E]].
Qed.

(** the moments tried: 10 moments 6 seconds apart around a, and 10 moments one second apart around b *)
Definition tried (a b s : R) : Prop :=
  (exists i, (-5 <= i <= 4)%Z /\ s = a + 6 * IZR i / 86400) \/ (exists i, (-5 <= i <= 4)%Z /\ s = b + IZR i / 86400).
(** one estimate: the first (last) meeting, with the circle, of the straight path through the place at s; 0 if there is none *)
Definition next (XY : R -> re0) (v u : R) (rd : re0 -> R) (n : bool) (s c : R) : Prop :=
  ((exists s', path (XY s) v u s' <= rd (XY s)) -> meets (XY s) v u (rd (XY s)) n c) /\
  (~ (exists s', path (XY s) v u s' <= rd (XY s)) -> c = 0).
Fixpoint chain (XY : R -> re0) (v u : R) (rd : re0 -> R) (n : bool) (k : nat) (s c : R) : Prop :=
  match k with O => c = s | S k => exists s', next XY v u rd n s s' /\ chain XY v u rd n k s' c end.
Lemma next_ok XY v u rd n s : 0 < v -> 0 <= rd (XY s) -> next XY v u rd n s (lineT0 (XY s) v u (rd (XY s)) n).
Proof. intros Hv Hr. split; intros H; [apply lineT0_meets|apply lineT0_none]; assumption. Qed.
(** for a circle whose radius may become negative on the way, lineT uses its absolute value *)
Lemma lineT0_abs G v u r n : lineT0 G v u r n = lineT0 G v u (Rabs r) n.
Proof.
  unfold lineT0, lineT. assert (E : Rabs r * Rabs r = r * r) by (pose proof (Rsqr_abs r) as Q; unfold Rsqr in Q; lra).
  rewrite E. reflexivity.
Qed.
Lemma chain_ok XY v u rd n : 0 < v -> (forall s, 0 <= rd (XY s)) -> forall k s, chain XY v u rd n k s (repeatT XY v u rd n k s).
Proof. intros Hv Hr. induction k as [|k IH]; intros s; cbn; [reflexivity|]. eexists. split; [apply next_ok; auto|apply IH]. Qed.
Lemma repeatT_abs XY v u rd n : forall k s, repeatT XY v u rd n k s = repeatT XY v u (fun g => Rabs (rd g)) n k s.
Proof. induction k as [|k IH]; intros s; cbn; [reflexivity|]. rewrite lineT0_abs. apply IH. Qed.

Definition shown (rise set c : R) : R := if Rlt_dec c rise then 0 else if Rlt_dec set c then 0 else c.
Lemma cut_ok rise set kind sf b1 sf2 sf3 T dur : let l := cut rise set kind sf b1 sf2 sf3 T dur in
  c_kind l = kind /\ c_b1 l = b1 /\ c_dur l = dur /\ (forall i, c_T l i = shown rise set (T i)) /\
  (rise <= T 1%nat <= set -> c_sf l = sf /\ c_sflx l = sf_plain) /\
  (T 1%nat < rise -> rise <= set -> ~ 0 < sf2 -> c_sf l = sf /\ c_sflx l = sf_plain) /\
  (set < T 1%nat -> rise <= set -> ~ 0 < sf3 -> c_sf l = sf /\ c_sflx l = sf_plain) /\
  (T 1%nat < rise -> rise <= set -> 0 < sf2 -> c_sf l = sf2 /\ c_sflx l = sf_rise) /\
  (set < T 1%nat -> rise <= set -> 0 < sf3 -> c_sf l = sf3 /\ c_sflx l = sf_set).
Proof.
  unfold cut, shown. destruct (Rlt_dec (T 1%nat) rise), (Rlt_dec set (T 1%nat)), (Rlt_dec 0 sf2), (Rlt_dec 0 sf3); cbn; repeat split; intros; try lra; try reflexivity.
Qed.

Lemma clip x : 0 < x -> (if Rlt_dec x 0 then 0 else x) = x.
Proof. intros. destruct (Rlt_dec x 0); lra. Qed.
Lemma clip_not x : x <= 0 -> ~ 0 < (if Rlt_dec x 0 then 0 else x).
Proof. intros. destruct (Rlt_dec x 0); lra. Qed.
(** Outcome of secMax for any motion.  j: the moment of greatest eclipse; G: the place and radii at it. *)
Definition Rsum (g : re0) := re_mr g + re_sr g.
Definition Rdif (g : re0) := Rabs (re_mr g - re_sr g).
Lemma search_best XY a : let st1 := search XY a [-30; -24; -18; -12; -6; 0; 6; 12; 18; 24]%Z (0, a) in
  let st2 := search XY (snd st1) [-5; -4; -3; -2; -1; 0; 1; 2; 3; 4]%Z st1 in
  (tried a a (snd st2) \/ tried a (snd st1) (snd st2)) /\ (forall s, tried a (snd st1) s -> magnitude (XY s) <= 0 \/ magnitude (XY s) <= magnitude (XY (snd st2))).
Proof.
  intros st1 st2.
  pose proof (search_ok XY a [-30; -24; -18; -12; -6; 0; 6; 12; 18; 24]%Z (0, a)) as S1. fold st1 in S1. cbv zeta in S1.
  pose proof (search_ok XY (snd st1) [-5; -4; -3; -2; -1; 0; 1; 2; 3; 4]%Z st1) as S2. fold st2 in S2. cbv zeta in S2.
  assert (L1 : forall i, (-5 <= i <= 4)%Z -> In (6 * i)%Z [-30; -24; -18; -12; -6; 0; 6; 12; 18; 24]%Z).
  { intros i Hi. assert (C : (i = -5 \/ i = -4 \/ i = -3 \/ i = -2 \/ i = -1 \/ i = 0 \/ i = 1 \/ i = 2 \/ i = 3 \/ i = 4)%Z) by lia. cbn. intuition (subst; lia). }
  assert (L1' : forall k, In k [-30; -24; -18; -12; -6; 0; 6; 12; 18; 24]%Z -> exists i, (-5 <= i <= 4)%Z /\ k = (6 * i)%Z).
  { cbn. intros k K. exists (k / 6)%Z. intuition (subst; cbn; lia). }
  assert (L2 : forall i, (-5 <= i <= 4)%Z -> In i [-5; -4; -3; -2; -1; 0; 1; 2; 3; 4]%Z) by (intros i Hi; cbn; lia).
  assert (L2' : forall i, In i [-5; -4; -3; -2; -1; 0; 1; 2; 3; 4]%Z -> (-5 <= i <= 4)%Z) by (cbn; intros i Hi; lia).
   destruct S1 as (A1 & A2 & A3). destruct S2 as (B1 & B2 & B3). clearbody st2. clearbody st1.
    assert (E1 : (st1 = (0, a)) \/ (fst st1 = magnitude (XY (snd st1)) /\ tried a a (snd st1))).
    { destruct A3 as [->|(k & K & _ & ->)]; [left; reflexivity|right]. split; [reflexivity|]. destruct (L1' k K) as (i & Hi & ->). left. exists i. split; [exact Hi|]. cbn [snd]. rewrite mult_IZR. reflexivity. }
    assert (E2 : st2 = st1 \/ (fst st2 = magnitude (XY (snd st2)) /\ tried a (snd st1) (snd st2))).
    { destruct B3 as [->|(i & K & _ & ->)]; [left; reflexivity|right]. split; [reflexivity|]. right. exists i. split; [apply L2', K|reflexivity]. }
    assert (UB : forall s, tried a (snd st1) s -> magnitude (XY s) <= fst st2).
    { intros s [(i & Hi & ->)|(i & Hi & ->)].
      - pose proof (A2 _ (L1 i Hi)) as K. rewrite mult_IZR in K. lra.
      - apply (B2 _ (L2 i Hi)). }
    assert (T0 : tried a a a) by (right; exists 0%Z; split; [lia|lra]).
    destruct E2 as [->|(E2 & T2)].
    - destruct E1 as [->|(E1 & T1)]; cbn [fst snd] in *.
      + split; [left; exact T0|]. intros s K. left. apply UB, K.
      + split; [left; exact T1|]. intros s K. right. rewrite <- E1. apply UB, K.
    - split; [right; exact T2|]. intros s K. right. rewrite <- E2. apply UB, K. 
Qed.
Lemma outcome_ok XY j u v rise set : (forall s, re_t (XY s) = s) -> (forall s, 0 < re_mr (XY s) /\ 0 < re_sr (XY s)) ->
  let G := XY j in
  let l := outcome XY j G u v rise set in
  let M s := magnitude (XY s) in
  let D := distance (re_x G) (re_y G) in
  (c_kind l = sec_none <-> Rsum G < D) /\
  (c_kind l = sec_annular <-> D <= re_sr G - re_mr G) /\
  (c_kind l = sec_total <-> D <= re_mr G - re_sr G /\ ~ D <= re_sr G - re_mr G) /\
  (c_kind l <> sec_none -> c_b1 l = re_mr G / re_sr G /\
     (rise <= j <= set -> c_sf l = M j /\ c_sflx l = sf_plain) /\
     (j < rise -> rise <= set -> M rise <= 0 -> c_sf l = M j /\ c_sflx l = sf_plain) /\
     (set < j -> rise <= set -> M set <= 0 -> c_sf l = M j /\ c_sflx l = sf_plain) /\
     (j < rise -> rise <= set -> 0 < M rise -> c_sf l = M rise /\ c_sflx l = sf_rise) /\
     (set < j -> rise <= set -> 0 < M set -> c_sf l = M set /\ c_sflx l = sf_set)) /\
  (forall i, c_T l i = 0 \/ rise <= c_T l i <= set) /\
  (c_kind l <> sec_none -> c_T l 1%nat = shown rise set j) /\
  (0 < v -> c_kind l <> sec_none -> exists c0 c2 s0 s2,
     meets G v u (Rsum G) false s0 /\ chain XY v u Rsum false 3 s0 c0 /\ c_T l 0%nat = shown rise set c0 /\
     meets G v u (Rsum G) true s2 /\ chain XY v u Rsum true 3 s2 c2 /\ c_T l 2%nat = shown rise set c2) /\
  (0 < v -> c_kind l = sec_total \/ c_kind l = sec_annular -> exists c3 c4 s3 s4,
     meets G v u (Rdif G) false s3 /\ chain XY v u Rdif false 1 s3 c3 /\ c_T l 3%nat = shown rise set c3 /\
     meets G v u (Rdif G) true s4 /\ chain XY v u Rdif true 1 s4 c4 /\ c_T l 4%nat = shown rise set c4 /\
     c_dur l = c4 - c3) /\
  (c_kind l = sec_none \/ c_kind l = sec_partial -> c_T l 3%nat = 0 /\ c_T l 4%nat = 0 /\ c_dur l = 0).
Proof.
  intros Ht HR G l M D. unfold M. clear M.
  assert (EL : l = outcome XY j G u v rise set) by reflexivity. clearbody l. unfold outcome in EL. cbv zeta in EL.
  change (sqrt (re_x G * re_x G + re_y G * re_y G)) with (distance (re_x G) (re_y G)) in EL. fold D in EL.
  assert (MG : magnitude (XY j) = (re_mr G + re_sr G - D) / re_sr G / 2) by reflexivity.
  pose proof (HR j) as (HG1 & HG2). fold G in HG1, HG2. assert (D0 : 0 <= D) by apply sqrt_pos.
  assert (SH : forall c, shown rise set c = 0 \/ rise <= shown rise set c <= set).
  { intros c. unfold shown. destruct (Rlt_dec c rise); [left; reflexivity|]. destruct (Rlt_dec set c); [left; reflexivity|]. right. lra. }
  assert (ED : path G v u j = D). { unfold path, D. unfold G. rewrite Ht. f_equal; ring. }
  assert (P1 : D <= Rsum G -> 0 < v -> forall n, exists s, meets G v u (Rsum G) n s /\ chain XY v u Rsum n 3 s (contactT XY G v u (fun g => re_mr g + re_sr g) n 3)).
  { intros H Hv n. exists (lineT0 G v u (Rsum G) n). split; [apply lineT0_meets; [exact Hv|unfold Rsum; lra|exists j; lra]|].
    apply chain_ok; [exact Hv|]. intros s. pose proof (HR s). unfold Rsum. lra. }
  assert (P2 : D <= Rdif G -> 0 < v -> forall n, exists s, meets G v u (Rdif G) n s /\
    chain XY v u Rdif n 1 s (contactT XY G v u (fun g => re_mr g - re_sr g) n 1) /\ chain XY v u Rdif n 1 s (contactT XY G v u (fun g => re_sr g - re_mr g) n 1)).
  { intros H Hv n. exists (lineT0 G v u (Rdif G) n). split; [apply lineT0_meets; [exact Hv|apply Rabs_pos|exists j; lra]|].
    unfold contactT. rewrite (repeatT_abs XY v u (fun g => re_mr g - re_sr g) n 1), (repeatT_abs XY v u (fun g => re_sr g - re_mr g) n 1). rewrite (lineT0_abs G v u (re_mr G - re_sr G) n), (lineT0_abs G v u (re_sr G - re_mr G) n).
    assert (AB : Rabs (re_sr G - re_mr G) = Rabs (re_mr G - re_sr G)) by apply Rabs_minus_sym. rewrite AB. fold (Rdif G).
    split; [apply chain_ok; [exact Hv|intros; apply Rabs_pos]|].
    set (x := repeatT _ _ _ _ _ _ _). assert (EX : x = repeatT XY v u Rdif n 1 (lineT0 G v u (Rdif G) n)).
    { unfold x. cbn. rewrite (Rabs_minus_sym (re_sr _)). reflexivity. }
    rewrite EX. apply chain_ok; [exact Hv|intros; apply Rabs_pos]. }
  assert (RD1 : D <= re_mr G - re_sr G -> D <= Rdif G) by (intros H; unfold Rdif; pose proof (Rle_abs (re_mr G - re_sr G)); lra).
  assert (RD2 : D <= re_sr G - re_mr G -> D <= Rdif G) by (intros H; unfold Rdif; rewrite Rabs_minus_sym; pose proof (Rle_abs (re_sr G - re_mr G)); lra).
  fold (Rsum G) in EL |- *.
  revert EL. destruct (Rle_dec D (Rsum G)) as [H1|H1]; destruct (Rle_dec D (re_mr G - re_sr G)) as [H2|H2]; destruct (Rle_dec D (re_sr G - re_mr G)) as [H3|H3];
    try (exfalso; unfold Rsum in *; lra); intros EL; cbv zeta beta iota in EL.
  all: match type of EL with _ = cut _ _ ?k ?sf ?b1 ?sf2 ?sf3 ?T ?dur => destruct (cut_ok rise set k sf b1 sf2 sf3 T dur) as (K1 & K2 & K3 & K4 & K5 & K8 & K9 & K6 & K7) end;
    rewrite <- EL in K1, K2, K3, K4, K5, K6, K7, K8, K9; cbn [upd Nat.eqb] in K5, K6, K7, K8, K9; clear EL.
  all: pose proof (K4 0%nat) as T0; pose proof (K4 1%nat) as T1; pose proof (K4 2%nat) as T2; pose proof (K4 3%nat) as T3; pose proof (K4 4%nat) as T4; cbn [upd Nat.eqb] in T0, T1, T2, T3, T4.
  all: rewrite K1; repeat match goal with |- _ /\ _ => split | |- _ <-> _ => split end; try (intros; discriminate); try (intros; reflexivity); try (intros; exfalso; unfold Rsum in *; lra).
  all: try (intros i; rewrite K4; apply SH).
  all: try (intros; exact T1).
  all: try (intros ?; exfalso; congruence).
  all: try (intros ? ?; exfalso; congruence).
  all: try (intros [?|?]; exfalso; congruence).
  all: try (intros ? [?|?]; exfalso; congruence).
  all: try (intros _; split; lra). all: try (intros _; unfold Rsum in *; lra).
  all: match goal with
    | |- _ <> sec_none -> c_b1 _ = _ /\ _ => intros _; split; [exact K2|]; split; [intros Q; exact (K5 Q)|]; split; [|split; [|split]]; intros Q1 Q2 Q3;
        [apply K8; [exact Q1|exact Q2|apply clip_not, Q3]|apply K9; [exact Q1|exact Q2|apply clip_not, Q3]|rewrite (clip _ Q3) in K6; exact (K6 Q1 Q2 Q3)|rewrite (clip _ Q3) in K7; exact (K7 Q1 Q2 Q3)]
    | |- 0 < _ -> _ <> sec_none -> _ => intros Hv _; destruct (P1 H1 Hv false) as (s0 & M0 & C0); destruct (P1 H1 Hv true) as (s2 & M2 & C2);
        eexists _, _, s0, s2; split; [exact M0|]; split; [exact C0|]; split; [exact T0|]; split; [exact M2|]; split; [exact C2|exact T2]
    | |- 0 < _ -> _ \/ _ -> _ => intros Hv _; destruct (P2 ltac:(auto) Hv false) as (s3 & M3 & C3 & C3'); destruct (P2 ltac:(auto) Hv true) as (s4 & M4 & C4 & C4');
        eexists _, _, s3, s4; refine (conj M3 (conj _ (conj T3 (conj M4 (conj _ (conj T4 _)))))); first [exact C3|exact C3'|exact C4|exact C4'|exact K3]
    | |- _ \/ _ -> c_T _ _ = 0 /\ _ => intros _; rewrite T3, T4, K3; unfold shown; destruct (Rlt_dec 0 rise), (Rlt_dec set 0); repeat split
    | |- _ => idtac
    end.
Qed.

Theorem C104_general XY sun jd : (forall s, re_t (XY s) = s) -> (forall s, 0 < re_mr (XY s) /\ 0 < re_sr (XY s)) ->
  exists a0 a b j rise set, let l := secMax XY sun jd in
  let G := XY j in
  let v := (re_x (XY (a0 + 1 / 1440)) - re_x (XY a0)) / (1 / 1440) in
  let u := (re_y (XY (a0 + 1 / 1440)) - re_y (XY a0)) / (1 / 1440) in
  let M s := magnitude (XY s) in
  let D := distance (re_x G) (re_y G) in
  sun j = (rise, set) /\
  (0 < v -> forall s, path (XY a0) v u a <= path (XY a0) v u s) /\
  (tried a a j \/ tried a b j) /\ (forall s, tried a b s -> M s <= 0 \/ M s <= M j) /\
  (c_kind l = sec_none <-> Rsum G < D) /\
  (c_kind l = sec_annular <-> D <= re_sr G - re_mr G) /\
  (c_kind l = sec_total <-> D <= re_mr G - re_sr G /\ ~ D <= re_sr G - re_mr G) /\
  (c_kind l <> sec_none -> c_b1 l = re_mr G / re_sr G /\
     (rise <= j <= set -> c_sf l = M j /\ c_sflx l = sf_plain) /\
     (j < rise -> rise <= set -> M rise <= 0 -> c_sf l = M j /\ c_sflx l = sf_plain) /\
     (set < j -> rise <= set -> M set <= 0 -> c_sf l = M j /\ c_sflx l = sf_plain) /\
     (j < rise -> rise <= set -> 0 < M rise -> c_sf l = M rise /\ c_sflx l = sf_rise) /\
     (set < j -> rise <= set -> 0 < M set -> c_sf l = M set /\ c_sflx l = sf_set)) /\
  (forall i, c_T l i = 0 \/ rise <= c_T l i <= set) /\
  (c_kind l <> sec_none -> c_T l 1%nat = shown rise set j) /\
  (0 < v -> c_kind l <> sec_none -> exists c0 c2 s0 s2,
     meets G v u (Rsum G) false s0 /\ chain XY v u Rsum false 3 s0 c0 /\ c_T l 0%nat = shown rise set c0 /\
     meets G v u (Rsum G) true s2 /\ chain XY v u Rsum true 3 s2 c2 /\ c_T l 2%nat = shown rise set c2) /\
  (0 < v -> c_kind l = sec_total \/ c_kind l = sec_annular -> exists c3 c4 s3 s4,
     meets G v u (Rdif G) false s3 /\ chain XY v u Rdif false 1 s3 c3 /\ c_T l 3%nat = shown rise set c3 /\
     meets G v u (Rdif G) true s4 /\ chain XY v u Rdif true 1 s4 c4 /\ c_T l 4%nat = shown rise set c4 /\
     c_dur l = c4 - c3) /\
  (c_kind l = sec_none \/ c_kind l = sec_partial -> c_T l 3%nat = 0 /\ c_T l 4%nat = 0 /\ c_dur l = 0).
Proof.
  intros Ht HR.
  set (j0 := jd - re_x (XY jd) / 0.2128). destruct (newton XY j0) as [[a0 u'] v'] eqn:N1.
  exists a0. destruct (newton XY a0) as [[a u] v] eqn:N2.
  set (st1 := search XY a [-30; -24; -18; -12; -6; 0; 6; 12; 18; 24]%Z (0, a)).
  set (st2 := search XY (snd st1) [-5; -4; -3; -2; -1; 0; 1; 2; 3; 4]%Z st1).
  destruct (sun (snd st2)) as [rise set] eqn:ES.
  exists a, (snd st1), (snd st2), rise, set. cbv zeta. replace (1 / 1440) with (60 / 86400) by lra.
  assert (EU : (re_y (XY (a0 + 60 / 86400)) - re_y (XY a0)) / (60 / 86400) = u) by (unfold newton in N2; congruence).
  assert (EV : (re_x (XY (a0 + 60 / 86400)) - re_x (XY a0)) / (60 / 86400) = v) by (unfold newton in N2; congruence).
  assert (EA : a0 + - (re_y (XY a0) * u + re_x (XY a0) * v) / (u * u + v * v) = a) by (rewrite <- EU, <- EV; unfold newton in N2; congruence).
  rewrite EU, EV. clear EU EV.
  split; [exact ES|].
  split. { intros Hv s. destruct (path_min (XY a0) v u Hv) as (_ & P). cbv zeta in P. rewrite Ht, EA in P. apply P. }
  destruct (search_best XY a) as (ST1 & ST2). fold st1 in ST1, ST2. fold st2 in ST1, ST2. split; [exact ST1|]. split; [exact ST2|].
  assert (EL : secMax XY sun jd = outcome XY (snd st2) (XY (snd st2)) u v rise set).
  { unfold secMax. fold j0. rewrite N1, N2. fold st1. fold st2. rewrite ES. reflexivity. }
  rewrite EL. exact (outcome_ok XY (snd st2) u v rise set Ht HR).
Qed.
(** ** straight motion *)
Lemma straight_path x0 y0 v u mr sr Er j s : path (straight x0 y0 v u mr sr Er j) v u s = distance (x0 + v * s) (y0 + u * s).
Proof. unfold path. cbn. f_equal; ring. Qed.
Lemma straight_meets x0 y0 v u mr sr Er j r n c : meets (straight x0 y0 v u mr sr Er j) v u r n c ->
  (if n then last_time else first_time) (fun s => distance (x0 + v * s) (y0 + u * s) <= r) c.
Proof.
  intros (_ & H). destruct n; destruct H as (H1 & H2); rewrite straight_path in H1; (split; [exact H1|]); intros s' K; apply H2; rewrite straight_path; exact K.
Qed.
Lemma straight_chain x0 y0 v u mr sr Er rd r n : (forall s, rd (straight x0 y0 v u mr sr Er s) = r) -> (exists s, distance (x0 + v * s) (y0 + u * s) <= r) ->
  forall k s c, chain (straight x0 y0 v u mr sr Er) v u rd n (S k) s c ->
  (if n then last_time else first_time) (fun s => distance (x0 + v * s) (y0 + u * s) <= r) c.
Proof.
  intros Hr (s0 & H0). induction k as [|k IH]; intros s c (s' & (N & _) & C).
  - cbn in C. subst c. rewrite Hr in N. eapply straight_meets. apply N. exists s0. rewrite straight_path. exact H0.
  - exact (IH s' c C).
Qed.
(** When the moon passes the sun on a straight line with constant speed and radii: the moments are exact, up to the cut at sunrise and sunset. *)
Theorem C104_straight x0 y0 v u mr sr Er sun jd : 0 < v -> 0 < mr -> 0 < sr ->
  let D s := distance (x0 + v * s) (y0 + u * s) in
  let l := secMax (straight x0 y0 v u mr sr Er) sun jd in
  let between r c c' := first_time (fun s => D s <= r) c /\ last_time (fun s => D s <= r) c' in
  (exists s, D s < mr + sr) ->
  exists m, (forall s, D m <= D s) /\ exists rise set, sun m = (rise, set) /\
    c_T l 1%nat = shown rise set m /\ c_b1 l = mr / sr /\ (rise <= m <= set -> c_sf l = (mr + sr - D m) / (2 * sr)) /\
    (m < rise -> rise <= set -> mr + sr <= D rise -> c_sf l = (mr + sr - D m) / (2 * sr) /\ c_sflx l = sf_plain) /\
    (exists c0 c2, between (mr + sr) c0 c2 /\ c_T l 0%nat = shown rise set c0 /\ c_T l 2%nat = shown rise set c2) /\
    (c_kind l = sec_annular <-> D m <= sr - mr) /\ (c_kind l = sec_total <-> D m <= mr - sr /\ ~ D m <= sr - mr) /\ c_kind l <> sec_none /\
    (D m <= Rabs (mr - sr) -> exists c3 c4, between (Rabs (mr - sr)) c3 c4 /\ c_T l 3%nat = shown rise set c3 /\ c_T l 4%nat = shown rise set c4 /\ c_dur l = c4 - c3).
Proof.
  intros Hv Hm Hs D l between (w & Hw). set (XY := straight x0 y0 v u mr sr Er) in *.
  destruct (C104_general XY sun jd) as (a0 & a & b & j & rise & set & C); [reflexivity|intros; cbn; lra|]. cbv zeta in C.
  assert (EU : (re_y (XY (a0 + 1 / 1440)) - re_y (XY a0)) / (1 / 1440) = u) by (cbn; field).
  assert (EV : (re_x (XY (a0 + 1 / 1440)) - re_x (XY a0)) / (1 / 1440) = v) by (cbn; field).
  rewrite EU, EV in C. clear EU EV. fold l in C.
  assert (PE : forall i s, path (XY i) v u s = D s) by (intros; apply straight_path).
  destruct C as (C1 & C2 & C3 & C4 & C5 & C6 & C7 & C8 & C9 & C10 & C11 & C12 & C13).
  assert (MA : forall s, D a <= D s) by (intros s; pose proof (C2 Hv s) as K; rewrite !PE in K; exact K).
  assert (MG : forall s, magnitude (XY s) = (mr + sr - D s) / sr / 2) by reflexivity.
  assert (UQ : forall s, D s <= D a -> s = a).
  { intros s K. assert (K2 : D s = D a) by (pose proof (MA s); lra). clear K.
    set (mm := - (y0 * u + x0 * v) / (u * u + v * v)). pose proof (q_min' x0 y0 v u Hv) as Q. fold mm in Q. pose proof (A_pos' v u Hv) as HA.
    assert (SQ : forall t, D t * D t = (x0 + v * t) * (x0 + v * t) + (y0 + u * t) * (y0 + u * t)) by (intros t; apply sqrt_sqrt; apply Rplus_le_le_0_compat; apply Rle_0_sqr).
    assert (Z : forall t, D t = D a -> t = mm).
    { intros t E. assert (E2 : D mm = D t) by (pose proof (MA mm); assert (D mm <= D t); [|lra]; apply sqrt_le_1_alt; rewrite (Q t); rewrite Rmult_assoc; pose proof (Rmult_le_pos _ _ (Rlt_le _ _ HA) (Rle_0_sqr (t - mm))) as P; unfold Rsqr in P; lra).
      pose proof (SQ t) as S1. pose proof (SQ mm) as S2. rewrite E2 in S2. rewrite S1, (Q t) in S2.
      assert (P : (u * u + v * v) * ((t - mm) * (t - mm)) = 0) by lra. apply Rmult_integral in P. destruct P as [P|P]; [lra|]. apply Rmult_integral in P. lra. }
    rewrite (Z s K2). symmetry. apply Z. reflexivity. }
  assert (EJ : j = a).
  { apply UQ. destruct (C4 a) as [K|K].
    - left. exists 0%Z. split; [lia|lra].
    - exfalso. rewrite MG in K. pose proof (MA w). assert (0 < (mr + sr - D a) / sr / 2); [|lra]. apply Rdiv_lt_0_compat; [|lra]. apply Rdiv_lt_0_compat; lra.
    - rewrite !MG in K. assert (Q : forall d, (mr + sr - d) / sr / 2 = (mr + sr - d) * (/ sr / 2)) by (intros; field; lra). rewrite !Q in K.
      assert (0 < / sr / 2) by (apply Rdiv_lt_0_compat; [apply Rinv_0_lt_compat|]; lra). apply Rmult_le_reg_r in K; lra. }
  subst j. clear C3 C4. exists a. split; [exact MA|]. exists rise, set. split; [exact C1|].
  assert (ED : distance (re_x (XY a)) (re_y (XY a)) = D a) by reflexivity. rewrite ED in *.
  assert (NN : c_kind l <> sec_none) by (intros K; apply C5 in K; unfold Rsum in K; cbn in K; unfold re_sr in K; cbn in K; pose proof (MA w); lra).
  split; [exact (C10 NN)|]. destruct (C8 NN) as (C8a & C8b & C8c & _). split; [exact C8a|].
  split. { intros K. destruct (C8b K) as (-> & _). rewrite MG. field. lra. }
  split. { intros K1 K2 K3. destruct (C8c K1 K2) as (-> & ->); [|split; [rewrite MG; field; lra|reflexivity]]. rewrite MG.
    assert (Q : (mr + sr - D rise) / sr / 2 = - ((D rise - (mr + sr)) * (/ sr / 2))) by (field; lra). rewrite Q.
    assert (0 < / sr / 2) by (apply Rdiv_lt_0_compat; [apply Rinv_0_lt_compat|]; lra).
    assert (0 <= (D rise - (mr + sr)) * (/ sr / 2)) by (apply Rmult_le_pos; lra). lra. }
  assert (EX1 : exists s, D s <= mr + sr) by (exists w; lra).
  split. { destruct (C11 Hv NN) as (c0 & c2 & s0 & s2 & _ & K1 & K2 & _ & K3 & K4). exists c0, c2.
    split; [split; [exact (straight_chain x0 y0 v u mr sr Er Rsum (mr + sr) false (fun _ => eq_refl) EX1 2 s0 c0 K1)|exact (straight_chain x0 y0 v u mr sr Er Rsum (mr + sr) true (fun _ => eq_refl) EX1 2 s2 c2 K3)]|].
    split; assumption. }
  split; [exact C6|]. split; [exact C7|]. split; [exact NN|]. intros K.
  assert (KD : c_kind l = sec_total \/ c_kind l = sec_annular).
  { destruct (Rle_dec (D a) (sr - mr)) as [L|L]; [right; apply C6; exact L|left; apply C7]. split; [|exact L].
    change (re_mr (XY a)) with mr. change (re_sr (XY a)) with sr. unfold Rabs in K. destruct (Rcase_abs (mr - sr)); lra. }
  destruct (C12 Hv KD) as (c3 & c4 & s3 & s4 & _ & K1 & K2 & _ & K3 & K4 & K5). exists c3, c4.
  assert (EX2 : exists s, D s <= Rabs (mr - sr)) by (exists a; exact K).
  split; [split; [exact (straight_chain x0 y0 v u mr sr Er Rdif (Rabs (mr - sr)) false (fun _ => eq_refl) EX2 0 s3 c3 K1)|exact (straight_chain x0 y0 v u mr sr Er Rdif (Rabs (mr - sr)) true (fun _ => eq_refl) EX2 0 s4 c4 K3)]|].
  split; [exact K2|]. split; [exact K4|exact K5].
Qed.
(** the moon (radius 1) passing the centre of the sun (radius 1/2) at time 10 with speed 1, the day being from 0 to 20 and from 20 to 30 *)
Definition central := straight (-10) 0 1 0 1 (1 / 2) 0.
Lemma central_D s : distance (-10 + 1 * s) (0 + 0 * s) = Rabs (s - 10).
Proof. unfold distance. rewrite <- sqrt_Rsqr_abs. f_equal. unfold Rsqr. ring. Qed.
Lemma central_0 : Rabs (10 - 10) = 0.
Proof. replace (10 - 10) with 0 by ring. apply Rabs_R0. Qed.
Lemma central_m m : (forall s, distance (-10 + 1 * m) (0 + 0 * m) <= distance (-10 + 1 * s) (0 + 0 * s)) -> m = 10.
Proof.
  intros H. pose proof (H 10) as K. rewrite !central_D, central_0 in K. pose proof (Rabs_pos (m - 10)). destruct (Req_dec (m - 10) 0) as [E|E]; [lra|]. apply Rabs_no_R0 in E. lra.
Qed.
Lemma central_first r m : 0 <= r -> first_time (fun s => distance (-10 + 1 * s) (0 + 0 * s) <= r) m -> m = 10 - r.
Proof.
  intros Hr (F1 & F2). rewrite central_D in F1. apply Rabs_le_inv in F1. pose proof (F2 (10 - r)) as K. rewrite central_D in K.
  assert (Rabs (10 - r - 10) <= r) by (replace (10 - r - 10) with (- r) by ring; rewrite Rabs_Ropp, Rabs_right; lra). specialize (K H). lra.
Qed.
Lemma central_last r m : 0 <= r -> last_time (fun s => distance (-10 + 1 * s) (0 + 0 * s) <= r) m -> m = 10 + r.
Proof.
  intros Hr (F1 & F2). rewrite central_D in F1. apply Rabs_le_inv in F1. pose proof (F2 (10 + r)) as K. rewrite central_D in K.
  assert (Rabs (10 + r - 10) <= r) by (rewrite Rabs_right; lra). specialize (K H). lra.
Qed.
Lemma shown_in rise set c : rise <= c <= set -> shown rise set c = c.
Proof. intros H. unfold shown. destruct (Rlt_dec c rise); [lra|]. destruct (Rlt_dec set c); [lra|reflexivity]. Qed.
Example C104_witness : let l := secMax central (fun _ => (0, 20)) 7 in
  c_kind l = sec_total /\ c_sf l = 3 / 2 /\ c_T l 0%nat = 8.5 /\ c_T l 1%nat = 10 /\ c_T l 2%nat = 11.5 /\ c_T l 3%nat = 9.5 /\ c_T l 4%nat = 10.5 /\ c_dur l = 1.
Proof.
  intros l. destruct (C104_straight (-10) 0 1 0 1 (1 / 2) 0 (fun _ => (0, 20)) 7) as (m & M & rise & set & S & C); [lra|lra|lra|exists 10; rewrite central_D, central_0; lra|].
  cbv zeta in C. change (secMax (straight (-10) 0 1 0 1 (1 / 2) 0) (fun _ => (0, 20)) 7) with l in C. apply central_m in M. subst m. rewrite central_D, central_0 in C. assert (rise = 0) by congruence. assert (set = 20) by congruence. subst rise set.
  assert (A : Rabs (1 - 1 / 2) = 1 / 2) by (rewrite Rabs_right; lra). rewrite A in C.
  destruct C as (C1 & _ & C2 & _ & (c0 & c2 & (F0 & L2) & C3 & C4) & C5 & C6 & _ & C7).
  destruct (C7 ltac:(lra)) as (c3 & c4 & (F3 & L4) & C8 & C9 & C10).
  apply central_first in F0; [|lra]. apply central_first in F3; [|lra]. apply central_last in L2; [|lra]. apply central_last in L4; [|lra]. subst c0 c2 c3 c4.
  rewrite shown_in in C1, C3, C4, C8, C9 by lra. split; [apply C6; lra|]. split; [rewrite C2; lra|]. lra.
Qed.
(** An eclipse that is over before sunrise is still announced with its kind and its magnitude, only the moments are left out. *)
Theorem C104_invisible_refuted : exists XY sun jd rise set, (forall s, re_t (XY s) = s) /\ (forall s, sun s = (rise, set)) /\ rise < set /\
  (forall s, rise <= s <= set -> re_mr (XY s) + re_sr (XY s) < distance (re_x (XY s)) (re_y (XY s))) /\
  let l := secMax XY sun jd in c_kind l = sec_total /\ c_sf l = 3 / 2 /\ c_sflx l = sf_plain /\ forall i, (i < 5)%nat -> c_T l i = 0.
Proof.
  exists central, (fun _ => (20, 30)), 7, 20, 30. split; [reflexivity|]. split; [reflexivity|]. split; [lra|].
  split. { intros s Hs. cbn. rewrite central_D. unfold re_sr. cbn. rewrite Rabs_right; lra. }
  intros l. destruct (C104_straight (-10) 0 1 0 1 (1 / 2) 0 (fun _ => (20, 30)) 7) as (m & M & rise & set & S & C); [lra|lra|lra|exists 10; rewrite central_D, central_0; lra|].
  cbv zeta in C. change (secMax (straight (-10) 0 1 0 1 (1 / 2) 0) (fun _ => (20, 30)) 7) with l in C. apply central_m in M. subst m. rewrite central_D, central_0 in C. assert (rise = 20) by congruence. assert (set = 30) by congruence. subst rise set.
  assert (A : Rabs (1 - 1 / 2) = 1 / 2) by (rewrite Rabs_right; lra). rewrite A in C.
  destruct C as (C1 & _ & C2 & CI & (c0 & c2 & (F0 & L2) & C3 & C4) & C5 & C6 & NN & C7).
  destruct (C7 ltac:(lra)) as (c3 & c4 & (F3 & L4) & C8 & C9 & C10).
  apply central_first in F0; [|lra]. apply central_first in F3; [|lra]. apply central_last in L2; [|lra]. apply central_last in L4; [|lra]. subst c0 c2 c3 c4.
  assert (Z : forall c, c < 20 -> shown 20 30 c = 0) by (intros c Hc; unfold shown; destruct (Rlt_dec c 20); [reflexivity|lra]).
  rewrite Z in C1, C3, C4, C8, C9 by lra. split; [apply C6; lra|].
  destruct (CI ltac:(lra) ltac:(lra)) as (E1 & E2). { rewrite central_D, Rabs_right; lra. }
  split; [rewrite E1; lra|]. split; [exact E2|].
  intros i Hi. destruct i as [|[|[|[|[|i]]]]]; [exact C3|exact C1|exact C4|exact C8|exact C9|lia].
Qed.
