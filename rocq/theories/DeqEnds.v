(** The operations of the deque at its ends, and those that give buffers back. *)
From Coq Require Import ZArith List Bool Lia.
From Verif Require Import F64 DeqModel DeqSpec DeqProof DeqOps.
Import ListNotations.
Open Scope Z_scope.
Open Scope opt_scope.

Ltac cases := repeat (match goal with
  | |- context [?a <=? ?b] => destruct (Z.leb_spec a b)
  | |- context [?a <? ?b] => destruct (Z.ltb_spec a b)
  | |- context [?a =? ?b] => destruct (Z.eqb_spec a b)
  end; cbn [andb orb negb]; try (exfalso; lia)).

Section Ends.
Context {T : Type} (bs : Z) (triv : bool).
Notation mem := (@memory T).
Implicit Types (m : mem) (d : deque) (xs : list T).
Hypothesis Hbs : 0 < bs.
Notation lin := (lin bs).
Notation slot := (slot bs).
Notation has := (has bs).
Notation rep := (rep bs triv).
Notation pt := (pt bs).
Notation nd := (nd bs).
Notation len xs := (Z.of_nat (length xs)).
Notation stands := (stands bs).

Lemma inc_at d i k : i = pt k -> nd d (k + 1) -> inc bs d i = Some (pt (k + 1)).
Proof. intros ->. now apply inc_ok. Qed.
Lemma dec_at d i k : i = pt k -> nd d (k - 1) -> dec bs d i = Some (pt (k - 1)).
Proof. intros ->. now apply dec_ok. Qed.
Lemma plus_at d i k j : i = pt k -> nd d (k + j) -> plus bs d i j = Some (pt (k + j)).
Proof. intros ->. now apply plus_ok. Qed.
Lemma minus_at d i k j : i = pt k -> nd d (k - j) -> minus bs d i j = Some (pt (k - j)).
Proof. intros ->. now apply minus_ok. Qed.
Lemma finish_beg m d m' B ys xs : rep m d ys -> shape m d m' -> (forall k, B <= k <= lin (fin d) -> has d k) -> lin (fin d) = B + len xs ->
  (forall k, B <= k < lin (fin d) -> slot m' d k = nz xs (k - B)) -> (triv = false -> forall k, k < B \/ lin (fin d) <= k -> slot m' d k = None) ->
  rep m' (set_beg d (pt B)) xs.
Proof.
  intros R S H1 H2 H3 H4. unfold set_beg. rewrite (fin_pt bs triv Hbs _ _ _ R). apply (finish bs triv Hbs m); auto. apply R.
Qed.
Lemma finish_fin m d m' E ys xs : rep m d ys -> shape m d m' -> (forall k, lin (beg d) <= k <= E -> has d k) -> E = lin (beg d) + len xs ->
  (forall k, lin (beg d) <= k < E -> slot m' d k = nz xs (k - lin (beg d))) -> (triv = false -> forall k, k < lin (beg d) \/ E <= k -> slot m' d k = None) ->
  rep m' (set_fin d (pt E)) xs.
Proof.
  intros R S H1 H2 H3 H4. unfold set_fin. rewrite (beg_pt bs triv Hbs _ _ _ R). apply (finish bs triv Hbs m); auto. apply R.
Qed.
Lemma deq_eta d : mkDeq (mid d) (mp d) (msz d) (beg d) (fin d) = d.
Proof. now destruct d. Qed.
Lemma finish_same m d m' ys xs : rep m d ys -> shape m d m' -> length xs = length ys ->
  (forall k, lin (beg d) <= k < lin (fin d) -> slot m' d k = nz xs (k - lin (beg d))) ->
  (triv = false -> forall k, k < lin (beg d) \/ lin (fin d) <= k -> slot m' d k = None) ->
  rep m' d xs.
Proof.
  intros R S H2 H3 H4. rewrite <- (deq_eta d), (beg_pt bs triv Hbs _ _ _ R), (fin_pt bs triv Hbs _ _ _ R).
  apply (finish bs triv Hbs m); auto; [apply R|apply R|]. pose proof (r_len _ _ _ _ _ R). lia.
Qed.
Lemma lin_nd m d xs k : rep m d xs -> lin (beg d) <= k <= lin (fin d) -> nd d k.
Proof. intros R H. eapply has_nd; [apply R|]. now apply (r_node _ _ _ _ _ R). Qed.
Lemma stands_pt d p i : stands d p i -> i = pt (lin (beg d) + p).
Proof. intros [H <-]. now apply pt_lin. Qed.
Lemma pt_stands d p : stands d p (pt (lin (beg d) + p)).
Proof. split. apply pt_off, Hbs. apply lin_pt, Hbs. Qed.
Lemma pt_stands' d p k : k = lin (beg d) + p -> stands d p (pt k).
Proof. intros ->. apply pt_stands. Qed.

(** ** giving buffers back *)
Lemma drop_ok m d xs k n : rep m d xs -> 0 <= k -> k + Z.of_nat n <= msz d -> k + Z.of_nat n <= fst (beg d) \/ fst (fin d) < k ->
  exists m' f, destroy_buffer n m d k = Some (m', set_mp d f) /\ rep m' (set_mp d f) xs /\ others m d m' (set_mp d f) /\
    nothing_lost m d m' (set_mp d f) /\ (forall j, f j = if (k <=? j) && (j <? k + Z.of_nat n) then None else mp d j).
Proof.
  intros R H1 H2 H3. pose proof (r_base _ _ _ _ _ R) as [B1 B2 B3 B4].
  destruct (destroy_ok n m d k H1 H2 (fun j a E => proj2 (B2 j a E)) B3) as (m' & f & E & N1 & M1 & F1 & D1 & K1).
  assert (KF : forall j a, f j = Some a -> mp d j = Some a /\ bufs m' a = bufs m a).
  { intros j a. rewrite F1. destruct ((k <=? j) && (j <? k + Z.of_nat n)) eqn:C; [congruence|]. intros Ej. split; [exact Ej|]. apply K1.
    intros i Hi Ei. pose proof (B3 _ _ _ Ei Ej). subst i. revert C. cases; congruence || lia. }
  assert (SL : forall j, ~ (k <= j / bs < k + Z.of_nat n) -> slot m' (set_mp d f) j = slot m d j).
  { intros j Hj. unfold DeqSpec.slot; cbn. destruct (f (j / bs)) as [a|] eqn:Ef.
    - destruct (KF _ _ Ef) as [-> ->]. reflexivity.
    - rewrite F1 in Ef. destruct ((k <=? j / bs) && (j / bs <? k + Z.of_nat n)) eqn:C; [revert C; cases; congruence || lia|]. now rewrite Ef. }
  assert (SN : forall j, slot m' (set_mp d f) j = slot m d j \/ slot m' (set_mp d f) j = None).
  { intros j. destruct (Z_le_dec k (j / bs)) as [C1|C1]; [|left; apply SL; lia]. destruct (Z_lt_dec (j / bs) (k + Z.of_nat n)) as [C2|C2]; [|left; apply SL; lia].
    right. unfold DeqSpec.slot; cbn. rewrite F1. cases. reflexivity. }
  assert (WN : forall j, lin (beg d) <= j <= lin (fin d) -> ~ (k <= j / bs < k + Z.of_nat n)).
  { intros j Hj. pose proof (Z.div_le_mono _ j bs Hbs (proj1 Hj)) as X1. pose proof (Z.div_le_mono j _ bs Hbs (proj2 Hj)) as X2.
    rewrite (lin_div bs Hbs) in X1, X2 by apply R. lia. }
  exists m', f. split; [exact E|]. split; [|split; [|split]].
  - split; cbn [set_mp beg fin]; try apply R.
    + split; cbn [set_mp mid mp msz].
      * now rewrite M1.
      * intros j a Ej. destruct (KF _ _ Ej) as [Ej' Eb]. destruct (B2 _ _ Ej') as [A1 A2]. split; [exact A1|]. unfold used. now rewrite Eb.
      * intros i j a E1 E2. apply KF in E1, E2. apply (B3 i j a); tauto.
      * rewrite N1. split; [exact (proj1 B4)|]. intros a [U|U].
        -- apply B4. left. intros Zz. apply U. destruct (holds_dec m d (r_base _ _ _ _ _ R) a) as [[j Hj]|N].
           ++ apply B2 in Hj. unfold used in Hj. tauto.
           ++ rewrite K1; [exact Zz|]. intros j _ Ej. apply N. now exists j.
        -- apply B4. right. now rewrite <- M1.
    + intros j Hj. unfold DeqSpec.has; cbn. rewrite F1. pose proof (WN j Hj). pose proof (r_node _ _ _ _ _ R j Hj) as Q. unfold DeqSpec.has in Q. cases; exact Q.
    + intros j Hj. rewrite SL; [now apply (r_val _ _ _ _ _ R)|]. apply WN. pose proof (r_len _ _ _ _ _ R). lia.
    + intros TF j Hj. destruct (SN j) as [->|]; [|assumption]. now apply (r_raw _ _ _ _ _ R).
  - split.
    + intros a U N. split; [apply K1; intros j _ Ej; apply N; now exists j|]. intros [j Ej]. apply KF in Ej. apply N. exists j. tauto.
    + intros a U N. rewrite M1. auto.
    + lia.
  - split.
    + intros a U. destruct (holds_dec m d (r_base _ _ _ _ _ R) a) as [[j Hj]|N].
      * right. exists j. cbn. rewrite F1. cases; try exact Hj. exfalso. apply U. eapply D1; eauto; lia.
      * left. split; [|exact N]. unfold used in *. rewrite <- K1; [exact U|]. intros j _ Ej. apply N. now exists j.
    + intros a U. rewrite M1 in U. cbn. destruct (Z.eq_dec a (mid d)); auto.
  - exact F1.
Qed.
Lemma shrink_ok m d xs : rep m d xs ->
  exists m' d', shrink_to_fit m d = Some (m', d') /\ rep m' d' xs /\ others m d m' d' /\ nothing_lost m d m' d' /\ tight d' /\
    beg d' = beg d /\ fin d' = fin d /\ (forall k, fst (beg d) <= k <= fst (fin d) -> mp d' k = mp d k).
Proof.
  intros R. destruct (node_bounds bs triv Hbs _ _ _ R) as (N1 & N2 & N3). unfold shrink_to_fit.
  destruct (drop_ok m d xs 0 (Z.to_nat (fst (beg d))) R) as (m1 & f1 & E1 & R1 & O1 & L1 & F1); try lia.
  rewrite E1. cbn [obind fst snd].
  destruct (drop_ok m1 (set_mp d f1) xs (fst (fin d) + 1) (Z.to_nat (msz d - (fst (fin d) + 1))) R1) as (m2 & f2 & E2 & R2 & O2 & L2 & F2); try (cbn; lia).
  cbn in *. exists m2, (set_mp d f2). split; [exact E2|]. split; [exact R2|]. split; [eapply others_trans; eauto|]. split; [eapply lost_trans; eauto|].
  split; [|split; [reflexivity|split; [reflexivity|]]].
  - intros k. cbn. rewrite F2, F1. cases; try congruence; try lia; intros H3.
    + destruct (mp d k) as [a|] eqn:E; [|congruence]. pose proof (b_in _ _ (r_base _ _ _ _ _ R) _ _ E). lia.
    + destruct (mp d k) as [a|] eqn:E; [|congruence]. pose proof (b_in _ _ (r_base _ _ _ _ _ R) _ _ E). lia.
  - intros k Hk. cbn. rewrite F2, F1. cases; reflexivity.
Qed.

(** ** the ends *)
Lemma off_pred k : k mod bs <> 0 -> (k - 1) / bs = k / bs.
Proof.
  intros H. destruct (split_k bs Hbs k) as (q & r & Hr & ->). rewrite (div_unique bs Hbs _ q r Hr eq_refl).
  rewrite Z.add_comm, Z.mod_add, Z.mod_small in H by lia. apply (div_unique bs Hbs _ q (r - 1)); lia.
Qed.
Lemma off_zero k : k mod bs = 0 -> (k - 1) / bs = k / bs - 1.
Proof.
  intros H. destruct (split_k bs Hbs k) as (q & r & Hr & ->). rewrite (div_unique bs Hbs _ q r Hr eq_refl).
  rewrite Z.add_comm, Z.mod_add, Z.mod_small in H by lia. apply (div_unique bs Hbs _ (q - 1) (bs - 1)); lia.
Qed.
Lemma off_succ k : k mod bs <> bs - 1 -> (k + 1) / bs = k / bs.
Proof.
  intros H. destruct (split_k bs Hbs k) as (q & r & Hr & ->). rewrite (div_unique bs Hbs _ q r Hr eq_refl).
  rewrite (Z.add_comm (q * bs) r), Z.mod_add, Z.mod_small in H by lia. apply (div_unique bs Hbs _ q (r + 1)); lia.
Qed.
Lemma off_last k : k mod bs = bs - 1 -> (k + 1) / bs = k / bs + 1.
Proof.
  intros H. destruct (split_k bs Hbs k) as (q & r & Hr & ->). rewrite (div_unique bs Hbs _ q r Hr eq_refl).
  rewrite (Z.add_comm (q * bs) r), Z.mod_add, Z.mod_small in H by lia. apply (div_unique bs Hbs _ (q + 1) 0); lia.
Qed.
Lemma lin_mod i : 0 <= snd i < bs -> lin i mod bs = snd i.
Proof. intros H. unfold DeqSpec.lin. rewrite Z.add_comm, Z.mod_add, Z.mod_small by lia. reflexivity. Qed.

Lemma push_front_core m d xs v : rep m d xs -> has d (lin (beg d) - 1) ->
  exists m', con bs m d (pt (lin (beg d) - 1)) v = Some m' /\ shape m d m' /\ rep m' (set_beg d (pt (lin (beg d) - 1))) (v :: xs).
Proof.
  intros R H. destruct (wrt_ok bs Hbs true m d (lin (beg d) - 1) v (r_base _ _ _ _ _ R) H) as (m' & E & S & V). congruence.
  unfold wrt in E. exists m'. split; [exact E|]. split; [exact S|]. pose proof (r_len _ _ _ _ _ R) as L.
  apply (finish_beg m d m' _ xs); auto.
  - intros k Hk. destruct (Z.eq_dec k (lin (beg d) - 1)) as [->|]; [exact H|]. apply (r_node _ _ _ _ _ R). lia.
  - cbn [length]. lia.
  - intros k Hk. rewrite V, nz_cons. cases; try reflexivity. rewrite (rep_val bs triv _ _ _ _ R) by lia. f_equal. lia.
  - intros TF k Hk. rewrite V. cases. apply (r_raw _ _ _ _ _ R TF). lia.
Qed.
Lemma push_back_core m d xs v : rep m d xs -> has d (lin (fin d) + 1) ->
  exists m', con bs m d (pt (lin (fin d))) v = Some m' /\ shape m d m' /\ rep m' (set_fin d (pt (lin (fin d) + 1))) (xs ++ [v]).
Proof.
  intros R H. pose proof (r_len _ _ _ _ _ R) as L.
  destruct (wrt_ok bs Hbs true m d (lin (fin d)) v (r_base _ _ _ _ _ R)) as (m' & E & S & V). { apply (r_node _ _ _ _ _ R). lia. } congruence.
  unfold wrt in E. exists m'. split; [exact E|]. split; [exact S|].
  apply (finish_fin m d m' _ xs); auto.
  - intros k Hk. destruct (Z.eq_dec k (lin (fin d) + 1)) as [->|]; [exact H|]. apply (r_node _ _ _ _ _ R). lia.
  - rewrite app_length. cbn [length]. lia.
  - intros k Hk. rewrite V, nz_app, nz_cons. cases; try reflexivity. rewrite (rep_val bs triv _ _ _ _ R) by lia. f_equal.
  - intros TF k Hk. rewrite V. cases. apply (r_raw _ _ _ _ _ R TF). lia.
Qed.
Lemma push_front_ok m d xs v : rep m d xs ->
  exists m' d', push_front bs m d v = Some (m', d') /\ rep m' d' (v :: xs) /\ others m d m' d' /\
    (1 < bs -> tight d -> tight d' /\ nothing_lost m d m' d').
Proof.
  intros R. pose proof (r_beg _ _ _ _ _ R) as O. pose proof (r_base _ _ _ _ _ R) as B. unfold push_front.
  destruct (Z.eqb_spec (snd (beg d)) 0) as [Q|Q]; cbn [negb].
  - destruct (rc_front bs triv Hbs m d xs 1 R) as (m1 & d1 & t & E1 & G1 & R1 & H1 & T1); [lia|]. rewrite E1. cbn [obind fst snd].
    assert (X : has d1 (lin (beg d1) - 1)) by (apply H1; pose proof (r_len _ _ _ _ _ R1); lia).
    destruct (push_front_core m1 d1 xs v R1 X) as (m2 & E2 & S2 & R2).
    rewrite (dec_at _ _ _ (beg_pt bs triv Hbs _ _ _ R1)) by (eapply has_nd; [apply R1|exact X]). cbn [obind]. rewrite E2. cbn [obind].
    exists m2, (set_beg d1 (pt (lin (beg d1) - 1))). split; [reflexivity|]. split; [exact R2|]. split.
    + eapply others_trans; [eapply grown_others; eauto|]. apply others_shape; auto.
    + intros Hb Tt. split.
      * intros k Hk. cbn in Hk |- *. specialize (T1 Tt k Hk). rewrite off_zero.
        -- rewrite (lin_div bs Hbs) by apply R1. unfold need_front in T1. rewrite Q in T1. cbn [Z.ltb Z.compare] in T1. rewrite Z.sub_0_r, Z.div_small in T1 by lia. lia.
        -- rewrite lin_mod by apply R1. rewrite (g_beg _ _ _ _ _ G1). exact Q.
      * eapply lost_trans; [eapply grown_lost; eauto|]. apply lost_shape; auto. apply R1. eapply holds_dec. apply R1.
  - assert (P : (fst (beg d), snd (beg d) - 1) = pt (lin (beg d) - 1)).
    { unfold DeqSpec.lin. rewrite (pt_of bs Hbs _ (fst (beg d)) (snd (beg d) - 1)) by lia. reflexivity. }
    rewrite P. assert (X : has d (lin (beg d) - 1)).
    { pose proof (r_node _ _ _ _ _ R (lin (beg d)) ltac:(pose proof (r_len _ _ _ _ _ R); lia)) as Y. unfold DeqSpec.has in *. rewrite off_pred; [exact Y|]. now rewrite lin_mod. }
    destruct (push_front_core m d xs v R X) as (m2 & E2 & S2 & R2). rewrite E2. cbn [obind].
    exists m2, (set_beg d (pt (lin (beg d) - 1))). split; [reflexivity|]. split; [exact R2|]. split; [apply others_shape; auto|].
    intros Hb Tt. split.
    + intros k Hk. cbn in Hk |- *. apply Tt in Hk. rewrite off_pred by (now rewrite lin_mod). now rewrite (lin_div bs Hbs).
    + apply lost_shape; auto. eapply holds_dec; eauto.
Qed.
Lemma push_back_ok m d xs v : rep m d xs ->
  exists m' d', push_back bs m d v = Some (m', d') /\ rep m' d' (xs ++ [v]) /\ others m d m' d' /\
    (1 < bs -> tight d -> tight d' /\ nothing_lost m d m' d').
Proof.
  intros R. pose proof (r_fin _ _ _ _ _ R) as O. pose proof (r_base _ _ _ _ _ R) as B. unfold push_back.
  destruct (Z.eqb_spec (snd (fin d)) (bs - 1)) as [Q|Q]; cbn [negb].
  - destruct (rc_back bs triv Hbs m d xs 1 R) as (m1 & d1 & t & E1 & G1 & R1 & H1 & T1); [lia|]. rewrite E1. cbn [obind fst snd].
    assert (X : has d1 (lin (fin d1) + 1)) by (apply H1; pose proof (r_len _ _ _ _ _ R1); lia).
    destruct (push_back_core m1 d1 xs v R1 X) as (m2 & E2 & S2 & R2).
    rewrite <- (fin_pt bs triv Hbs _ _ _ R1) in E2. rewrite E2. cbn [obind]. rewrite (inc_at _ _ _ (fin_pt bs triv Hbs _ _ _ R1)) by (eapply has_nd; [apply R1|exact X]). cbn [obind].
    exists m2, (set_fin d1 (pt (lin (fin d1) + 1))). split; [reflexivity|]. split; [exact R2|]. split.
    + eapply others_trans; [eapply grown_others; eauto|]. apply others_shape; auto.
    + intros Hb Tt. split.
      * intros k Hk. cbn in Hk |- *. specialize (T1 Tt k Hk). rewrite off_last.
        -- rewrite (lin_div bs Hbs) by apply R1. unfold need_back in T1. rewrite Q in T1. replace (bs - (bs - 1) - 1) with 0 in T1 by lia. cbn [Z.ltb Z.compare] in T1. rewrite Z.sub_0_r, Z.div_small in T1 by lia. lia.
        -- rewrite lin_mod by apply R1. rewrite (g_fin _ _ _ _ _ G1). exact Q.
      * eapply lost_trans; [eapply grown_lost; eauto|]. apply lost_shape; auto. apply R1. eapply holds_dec. apply R1.
  - assert (P : (fst (fin d), snd (fin d) + 1) = pt (lin (fin d) + 1)).
    { unfold DeqSpec.lin. rewrite (pt_of bs Hbs _ (fst (fin d)) (snd (fin d) + 1)) by lia. reflexivity. }
    rewrite P. assert (X : has d (lin (fin d) + 1)).
    { pose proof (r_node _ _ _ _ _ R (lin (fin d)) ltac:(pose proof (r_len _ _ _ _ _ R); lia)) as Y. unfold DeqSpec.has in *. rewrite off_succ; [exact Y|]. now rewrite lin_mod. }
    destruct (push_back_core m d xs v R X) as (m2 & E2 & S2 & R2). rewrite <- (fin_pt bs triv Hbs _ _ _ R) in E2. rewrite E2. cbn [obind].
    exists m2, (set_fin d (pt (lin (fin d) + 1))). split; [reflexivity|]. split; [exact R2|]. split; [apply others_shape; auto|].
    intros Hb Tt. split.
    + intros k Hk. cbn in Hk |- *. apply Tt in Hk. rewrite off_succ by (now rewrite lin_mod). now rewrite (lin_div bs Hbs).
    + apply lost_shape; auto. eapply holds_dec; eauto.
Qed.
Lemma empty_ok m d xs : rep m d xs -> empty d = match xs with [] => true | _ => false end.
Proof.
  intros R. unfold empty. rewrite (beg_pt bs triv Hbs _ _ _ R), (fin_pt bs triv Hbs _ _ _ R), ieq_ok by exact Hbs. pose proof (r_len _ _ _ _ _ R) as L.
  destruct xs; cbn [length] in L; cases; reflexivity.
Qed.
Lemma size_ok m d xs : rep m d xs -> size bs d = len xs.
Proof.
  intros R. unfold size. rewrite (beg_pt bs triv Hbs _ _ _ R), (fin_pt bs triv Hbs _ _ _ R), diff_ok by exact Hbs. pose proof (r_len _ _ _ _ _ R). lia.
Qed.
Lemma index_ok m d xs n : rep m d xs -> 0 <= n -> index bs m d n = nz xs n.
Proof.
  intros R Hn. unfold index. rewrite (size_ok _ _ _ R). pose proof (r_len _ _ _ _ _ R). cases.
  - rewrite (beg_pt bs triv Hbs _ _ _ R), plus_ok; [|exact Hbs|apply (lin_nd _ _ _ _ R); lia]. cbn [obind]. rewrite rd_ok by exact Hbs.
    rewrite (rep_val bs triv _ _ _ _ R) by lia. f_equal. lia.
  - symmetry. apply nz_none. lia.
Qed.
Lemma front_ok m d v xs : rep m d (v :: xs) -> front bs m d = Some v.
Proof.
  intros R. unfold front. rewrite (empty_ok _ _ _ R), (beg_pt bs triv Hbs _ _ _ R), rd_ok by exact Hbs. pose proof (r_len _ _ _ _ _ R) as L. cbn [length] in L.
  rewrite (rep_val bs triv _ _ _ _ R) by lia. rewrite Z.sub_diag. reflexivity.
Qed.
Lemma back_ok m d v xs : rep m d (xs ++ [v]) -> back bs m d = Some v.
Proof.
  intros R. unfold back. rewrite (empty_ok _ _ _ R). pose proof (r_len _ _ _ _ _ R) as L. rewrite app_length in L. cbn [length] in L.
  assert (match xs ++ [v] with [] => true | _ => false end = false) as -> by (destruct xs; reflexivity).
  rewrite (fin_pt bs triv Hbs _ _ _ R), minus_ok; [|exact Hbs|apply (lin_nd _ _ _ _ R); lia]. cbn [obind]. rewrite rd_ok by exact Hbs.
  rewrite (rep_val bs triv _ _ _ _ R) by lia. rewrite nz_app, nz_cons. cases. reflexivity.
Qed.
Lemma pop_front_ok m d v xs : rep m d (v :: xs) ->
  exists m' d', pop_front bs triv m d = Some (m', d') /\ rep m' d' xs /\ others m d m' d' /\
    (tight d -> tight d') /\ nothing_lost m d m' d' /\ lin (beg d') = lin (beg d) + 1 /\ fin d' = fin d.
Proof.
  intros R. pose proof (r_beg _ _ _ _ _ R) as O. pose proof (r_base _ _ _ _ _ R) as B. pose proof (r_len _ _ _ _ _ R) as L. cbn [length] in L.
  unfold pop_front. rewrite (empty_ok _ _ _ R).
  destruct (des_ok bs triv Hbs m d (lin (beg d)) B) as (m1 & E1 & S1 & V1). { apply (rep_some bs triv _ _ _ _ R). lia. }
  rewrite <- (beg_pt bs triv Hbs _ _ _ R) in E1. rewrite E1. cbn [obind].
  assert (R1 : rep m1 (set_beg d (pt (lin (beg d) + 1))) xs).
  { apply (finish_beg m d m1 _ (v :: xs)); auto.
    - intros k Hk. apply (r_node _ _ _ _ _ R). lia.
    - lia.
    - intros k Hk. rewrite V1. cases. rewrite (rep_val bs triv _ _ _ _ R), nz_cons by lia. cases. f_equal. lia.
    - intros TF k Hk. rewrite V1, TF. cases; [reflexivity|]. apply (r_raw _ _ _ _ _ R TF). lia. }
  destruct (Z.eqb_spec (snd (beg d)) (bs - 1)) as [Q|Q]; cbn [negb].
  - rewrite (inc_at _ _ _ (beg_pt bs triv Hbs _ _ _ R)) by (apply (lin_nd _ _ _ _ R); lia). cbn [obind].
    assert (F : fst (pt (lin (beg d) + 1)) = fst (beg d) + 1).
    { cbn. rewrite off_last by (now rewrite lin_mod). now rewrite (lin_div bs Hbs). }
    destruct (node_bounds bs triv Hbs _ _ _ R) as (N1 & N2 & N3). 
    destruct (drop_ok m1 _ xs (fst (pt (lin (beg d) + 1)) - 1) 1 R1) as (m2 & f2 & E2 & R2 & O2 & L2 & F2); try (cbn [set_beg msz beg]; rewrite F; lia).
    rewrite E2. exists m2, (set_mp (set_beg d (pt (lin (beg d) + 1))) f2). split; [reflexivity|]. split; [exact R2|]. split; [|split; [|split; [|split]]].
    + eapply others_trans; [|exact O2]. apply others_shape; auto.
    + intros Tt k. cbn [set_mp mp beg fin set_beg]. rewrite F2, F. cbn [set_beg mp]. intros Hk.
      assert (mp d k <> None) by (revert Hk; cases; congruence). apply Tt in H. revert Hk. cases; try congruence; lia.
    + eapply lost_trans; [|exact L2]. apply lost_shape; auto. eapply holds_dec; eauto.
    + cbn [set_mp beg set_beg]. now rewrite lin_pt.
    + reflexivity.
  - assert (P : (fst (beg d), snd (beg d) + 1) = pt (lin (beg d) + 1)).
    { unfold DeqSpec.lin. rewrite (pt_of bs Hbs _ (fst (beg d)) (snd (beg d) + 1)) by lia. reflexivity. }
    rewrite P. eexists _, _. split; [reflexivity|]. split; [exact R1|]. split; [apply others_shape; auto|]. split; [|split; [|split]].
    + intros Tt k Hk. cbn in Hk |- *. apply Tt in Hk. rewrite off_succ by (now rewrite lin_mod). now rewrite (lin_div bs Hbs).
    + apply lost_shape; auto. eapply holds_dec; eauto.
    + cbn [set_mp beg set_beg]. now rewrite lin_pt.
    + reflexivity.
Qed.
Lemma pop_back_ok m d v xs : rep m d (xs ++ [v]) ->
  exists m' d', pop_back bs triv m d = Some (m', d') /\ rep m' d' xs /\ others m d m' d' /\
    (tight d -> tight d') /\ nothing_lost m d m' d' /\ lin (fin d') = lin (fin d) - 1 /\ beg d' = beg d.
Proof.
  intros R. pose proof (r_fin _ _ _ _ _ R) as O. pose proof (r_base _ _ _ _ _ R) as B. pose proof (r_len _ _ _ _ _ R) as L. rewrite app_length in L. cbn [length] in L.
  unfold pop_back. rewrite (empty_ok _ _ _ R). assert (match xs ++ [v] with [] => true | _ => false end = false) as -> by (destruct xs; reflexivity).
  destruct (des_ok bs triv Hbs m d (lin (fin d) - 1) B) as (m1 & E1 & S1 & V1). { apply (rep_some bs triv _ _ _ _ R). lia. }
  assert (R1 : rep m1 (set_fin d (pt (lin (fin d) - 1))) xs).
  { apply (finish_fin m d m1 _ (xs ++ [v])); auto.
    - intros k Hk. apply (r_node _ _ _ _ _ R). lia.
    - lia.
    - intros k Hk. rewrite V1. cases. rewrite (rep_val bs triv _ _ _ _ R), nz_app by lia. cases. reflexivity.
    - intros TF k Hk. rewrite V1, TF. cases; [reflexivity|]. apply (r_raw _ _ _ _ _ R TF). lia. }
  destruct (Z.eqb_spec (snd (fin d)) 0) as [Q|Q]; cbn [negb].
  - rewrite (dec_at _ _ _ (fin_pt bs triv Hbs _ _ _ R)) by (apply (lin_nd _ _ _ _ R); lia). cbn [obind]. rewrite E1. cbn [obind].
    assert (F : fst (pt (lin (fin d) - 1)) = fst (fin d) - 1).
    { cbn. rewrite off_zero by (now rewrite lin_mod). now rewrite (lin_div bs Hbs). }
    destruct (node_bounds bs triv Hbs _ _ _ R) as (N1 & N2 & N3).
    destruct (drop_ok m1 _ xs (fst (pt (lin (fin d) - 1)) + 1) 1 R1) as (m2 & f2 & E2 & R2 & O2 & L2 & F2); try (cbn [set_fin msz fin]; rewrite F; lia).
    rewrite E2. exists m2, (set_mp (set_fin d (pt (lin (fin d) - 1))) f2). split; [reflexivity|]. split; [exact R2|]. split; [|split; [|split; [|split]]].
    + eapply others_trans; [|exact O2]. apply others_shape; auto.
    + intros Tt k. cbn [set_mp mp beg fin set_fin]. rewrite F2, F. cbn [set_fin mp]. intros Hk.
      assert (mp d k <> None) by (revert Hk; cases; congruence). apply Tt in H. revert Hk. cases; try congruence; lia.
    + eapply lost_trans; [|exact L2]. apply lost_shape; auto. eapply holds_dec; eauto.
    + cbn [set_mp fin set_fin]. now rewrite lin_pt.
    + reflexivity.
  - assert (P : (fst (fin d), snd (fin d) - 1) = pt (lin (fin d) - 1)).
    { unfold DeqSpec.lin. rewrite (pt_of bs Hbs _ (fst (fin d)) (snd (fin d) - 1)) by lia. reflexivity. }
    rewrite P, E1. cbn [obind]. eexists _, _. split; [reflexivity|]. split; [exact R1|]. split; [apply others_shape; auto|]. split; [|split; [|split]].
    + intros Tt k Hk. cbn in Hk |- *. apply Tt in Hk. rewrite off_pred by (now rewrite lin_mod). now rewrite (lin_div bs Hbs).
    + apply lost_shape; auto. eapply holds_dec; eauto.
    + cbn [set_mp fin set_fin]. now rewrite lin_pt.
    + reflexivity.
Qed.
End Ends.
