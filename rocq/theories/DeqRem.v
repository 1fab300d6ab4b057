(** Removing from the deque: clear, erase of one element and of a range, resize, assign. *)
From Coq Require Import ZArith List Bool Lia.
From Verif Require Import F64 DeqModel DeqSpec DeqProof DeqOps DeqEnds DeqIns DeqFill.
Import ListNotations.
Open Scope Z_scope.
Open Scope opt_scope.

Section Rem.
Context {T : Type} (bs : Z) (triv : bool).
Notation mem := (@memory T).
Implicit Types (m : mem) (d : deque) (xs : list T).
Hypothesis Hbs : 0 < bs.
Notation lin := (lin bs).
Notation slot := (slot bs).
Notation has := (has bs).
Notation rep := (rep bs triv).
Notation pt := (pt bs).
Notation nd := (nd bs).
Notation len xs := (Z.of_nat (length xs)).
Notation stands := (stands bs).

(** ** clear *)
Lemma des_bufs_ok n : forall m d k, base m d -> (forall j, k * bs <= j < (k + Z.of_nat n) * bs -> slot m d j <> None) ->
  exists m', des_bufs bs triv n m d k = Some m' /\ shape m d m' /\
    forall j, slot m' d j = if (k * bs <=? j) && (j <? (k + Z.of_nat n) * bs) && negb triv then None else slot m d j.
Proof.
  induction n as [|n IH]; intros m d k B H.
  - exists m. cbn [des_bufs Z.of_nat]. rewrite Z.add_0_r. split; [reflexivity|]. split; [apply shape_refl|]. intros j. cases; reflexivity || lia.
  - rewrite Nat2Z.inj_succ in *. cbn [des_bufs].
    destruct (des_n_ok bs triv Hbs (Z.to_nat bs) m d k 0 B) as (m1 & E1 & S1 & V1); try lia. { intros j Hj. apply H. nia. }
    rewrite E1. cbn [obind]. rewrite Z2Nat.id in V1 by lia. 
    destruct (IH m1 d (k + 1)) as (m2 & E2 & S2 & V2).
    + eapply base_shape; eauto.
    + intros j Hj. rewrite V1. destruct (Z.leb_spec (k * bs + 0) j), (Z.ltb_spec j (k * bs + 0 + bs)); cbn [andb]; try lia; apply H; nia.
    + exists m2. rewrite E2. split; [reflexivity|]. split; [eapply shape_trans; eauto|]. intros j. rewrite V2, V1.
      destruct triv; cbn [negb]; rewrite ?andb_false_r, ?andb_true_r; [reflexivity|].
      replace ((k + 1 + Z.of_nat n) * bs) with ((k + Z.succ (Z.of_nat n)) * bs) by lia. 
      destruct (Z.leb_spec ((k + 1) * bs) j), (Z.ltb_spec j ((k + Z.succ (Z.of_nat n)) * bs)), (Z.leb_spec (k * bs + 0) j), (Z.ltb_spec j (k * bs + 0 + bs)), (Z.leb_spec (k * bs) j); cbn [andb]; try reflexivity; nia.
Qed.
Lemma destroy_set_fin n : forall m d k i m' d', destroy_buffer n m d k = Some (m', d') -> destroy_buffer n m (set_fin d i) k = Some (m', set_fin d' i).
Proof.
  induction n as [|n IH]; intros m d k i m' d'; cbn [destroy_buffer].
  - now intros [= -> ->].
  - unfold drop. change (msz (set_fin d i)) with (msz d). change (mp (set_fin d i)) with (mp d). destruct (within k (msz d)); [|discriminate].
    destruct (mp d k) as [a|]; cbn [obind fst snd].
    + destruct (bufs m a); [|discriminate]. cbn [obind fst snd]. intros E. exact (IH _ _ _ i _ _ E).
    + apply IH.
Qed.
Lemma clear_ok m d xs : rep m d xs ->
  exists m' d', clear bs triv m d = Some (m', d') /\ rep m' d' [] /\ others m d m' d' /\ nothing_lost m d m' d' /\
    mid d' = mid d /\ msz d' = msz d /\ beg d' = beg d /\ fin d' = beg d /\
    (forall k, mp d' k = if (fst (beg d) <=? k) && (k <=? fst (fin d)) then mp d k else None).
Proof.
  intros R. pose proof (r_base _ _ _ _ _ R) as B. pose proof (r_len _ _ _ _ _ R) as L. destruct (node_bounds bs triv Hbs _ _ _ R) as (N1 & N2 & N3).
  pose proof (r_beg _ _ _ _ _ R) as O1. pose proof (r_fin _ _ _ _ _ R) as O2.
  assert (SM : forall k, lin (beg d) <= k < lin (fin d) -> slot m d k <> None) by (intros k Hk; apply (rep_some bs triv _ _ _ _ R); lia).
  unfold clear.
  assert (D : exists m1, (let* m := des_bufs bs triv (Z.to_nat (fst (fin d) - (fst (beg d) + 1))) m d (fst (beg d) + 1) in
     if negb (fst (beg d) =? fst (fin d)) then
      let* m := des_n bs triv (Z.to_nat (bs - snd (beg d))) m d (fst (beg d)) (snd (beg d)) in
      des_n bs triv (Z.to_nat (snd (fin d))) m d (fst (fin d)) 0
    else des_n bs triv (Z.to_nat (snd (fin d) - snd (beg d))) m d (fst (beg d)) (snd (beg d))) = Some m1 /\ shape m d m1 /\
    forall k, slot m1 d k = if (lin (beg d) <=? k) && (k <? lin (fin d)) && negb triv then None else slot m d k).
  { destruct (des_bufs_ok (Z.to_nat (fst (fin d) - (fst (beg d) + 1))) m d (fst (beg d) + 1) B) as (m1 & E1 & S1 & V1).
    { intros j Hj. apply SM. unfold DeqSpec.lin. destruct (Z.eq_dec (fst (beg d)) (fst (fin d))); nia. }
    rewrite E1. cbn [obind]. pose proof (base_shape _ _ _ B S1) as B1. unfold DeqSpec.lin in *.
    destruct (Z.eqb_spec (fst (beg d)) (fst (fin d))) as [Q|Q]; cbn [negb].
    - destruct (des_n_ok bs triv Hbs (Z.to_nat (snd (fin d) - snd (beg d))) m1 d (fst (beg d)) (snd (beg d)) B1) as (m2 & E2 & S2 & V2); try nia.
      { intros j Hj. rewrite V1. destruct (Z.leb_spec ((fst (beg d) + 1) * bs) j); cbn [andb]; [nia|]. apply SM. nia. }
      exists m2. split; [exact E2|]. split; [eapply shape_trans; eauto|]. intros k. rewrite V2, V1.
      replace (Z.to_nat (fst (fin d) - (fst (beg d) + 1))) with 0%nat by lia. cbn [Z.of_nat].
      replace (fst (beg d) * bs + snd (beg d) + Z.of_nat (Z.to_nat (snd (fin d) - snd (beg d)))) with (fst (fin d) * bs + snd (fin d)) by nia.
      destruct (_ && _ && negb triv) eqn:C; [reflexivity|].
      destruct (Z.leb_spec ((fst (beg d) + 1) * bs) k), (Z.ltb_spec k ((fst (beg d) + 1 + 0) * bs)); cbn [andb]; try reflexivity. lia.
    - destruct (des_n_ok bs triv Hbs (Z.to_nat (bs - snd (beg d))) m1 d (fst (beg d)) (snd (beg d)) B1) as (m2 & E2 & S2 & V2); try lia.
      { intros j Hj. rewrite V1. destruct (Z.leb_spec ((fst (beg d) + 1) * bs) j); cbn [andb]; [nia|]. apply SM. nia. }
      rewrite E2. cbn [obind]. pose proof (base_shape _ _ _ B1 S2) as B2.
      rewrite !Z2Nat.id in V1 by lia. rewrite !Z2Nat.id in V2 by lia.
      replace ((fst (beg d) + 1 + (fst (fin d) - (fst (beg d) + 1))) * bs) with (fst (fin d) * bs) in V1 by lia.
      destruct (des_n_ok bs triv Hbs (Z.to_nat (snd (fin d))) m2 d (fst (fin d)) 0 B2) as (m3 & E3 & S3 & V3); try lia.
      { intros j Hj. rewrite V2, V1. destruct (Z.ltb_spec j (fst (beg d) * bs + snd (beg d) + (bs - snd (beg d)))), (Z.ltb_spec j (fst (fin d) * bs)); rewrite ?andb_false_r; cbn [andb]; try nia. apply SM. nia. }
      rewrite Z2Nat.id in V3 by lia.
      exists m3. split; [exact E3|]. split; [eapply shape_trans; [exact S1|]; eapply shape_trans; eauto|]. intros k. rewrite V3, V2, V1.
      destruct triv; cbn [negb]; rewrite ?andb_false_r, ?andb_true_r; [reflexivity|].
      assert (fst (beg d) * bs + bs <= fst (fin d) * bs) by nia.
      replace ((fst (beg d) + 1) * bs) with (fst (beg d) * bs + bs) by lia. set (X := fst (beg d) * bs) in *. set (Y := fst (fin d) * bs) in *.
      cases; reflexivity || lia. }
  destruct D as (m1 & E1 & S1 & V1).
  destruct (des_bufs bs triv (Z.to_nat (fst (fin d) - (fst (beg d) + 1))) m d (fst (beg d) + 1)) as [m0|]; [|discriminate]. cbn [obind] in E1 |- *. rewrite E1. cbn [obind].
  set (d0 := set_fin d (beg d)).
  assert (R0 : rep m1 d0 []).
  { unfold d0. rewrite (beg_pt bs triv Hbs _ _ _ R). apply (finish_fin bs triv Hbs m d m1 _ xs); auto.
    - intros k Hk. apply (r_node _ _ _ _ _ R). cbn in Hk. lia.
    - cbn. lia.
    - cbn. intros; lia.
    - intros TF k Hk. rewrite V1, TF. cbn [negb]. cases; try reflexivity; apply (r_raw _ _ _ _ _ R TF); lia. }
  unfold shrink_to_fit.
  destruct (drop_ok bs triv Hbs m1 d0 [] 0 (Z.to_nat (fst (beg d))) R0) as (m2 & f2 & E2 & R2 & O2' & L2 & F2); try (cbn; lia).
  destruct (drop_ok bs triv Hbs m2 (set_mp d0 f2) [] (fst (fin d) + 1) (Z.to_nat (msz d - (fst (fin d) + 1))) R2) as (m3 & f3 & E3 & R3 & O3 & L3 & F3); try (cbn; lia).
  apply (destroy_set_fin _ _ _ _ (fin d)) in E2, E3. 
  change (set_fin d0 (fin d)) with (mkDeq (mid d) (mp d) (msz d) (beg d) (fin d)) in E2. rewrite deq_eta in E2. rewrite E2. cbn [obind fst snd].
  change (set_fin (set_mp d0 f2) (fin d)) with (mkDeq (mid d) f2 (msz d) (beg d) (fin d)) in E3 |- *. rewrite E3. cbn [obind fst snd].
  exists m3, (set_mp d0 f3). split; [reflexivity|]. split; [exact R3|]. split; [|split].
  - eapply others_trans; [|exact O3]. eapply others_trans; [|exact O2']. apply others_shape; auto.
  - eapply lost_trans; [|exact L3]. eapply lost_trans; [|exact L2]. apply lost_shape; auto. eapply holds_dec; eauto.
  - do 4 (split; [reflexivity|]).
    intros k. cbn [set_mp mp]. rewrite F3. change (mp (set_mp d0 f2) k) with (f2 k). rewrite F2. change (mp d0 k) with (mp d k). cases; try reflexivity; try lia.
    + destruct (mp d k) as [a|] eqn:Ek; [|reflexivity]. pose proof (b_in _ _ B _ _ Ek). lia.
    + destruct (mp d k) as [a|] eqn:Ek; [|reflexivity]. pose proof (b_in _ _ B _ _ Ek). lia.
Qed.

(** ** erase *)
Lemma nz_cut p q xs k : 0 <= p <= q -> q <= len xs -> nz (cut p q xs) k = if k <? p then nz xs k else nz xs (k + (q - p)).
Proof.
  intros H1 H2. unfold cut. rewrite nz_app, nz_firstn, nz_skipn, firstn_length. cases; try reflexivity; try (f_equal; lia).
Qed.
Lemma len_cut p q xs : 0 <= p <= q -> q <= len xs -> len (cut p q xs) = len xs - (q - p).
Proof. intros H1 H2. unfold cut. rewrite app_length, firstn_length, skipn_length. lia. Qed.

Lemma erase_ok m d xs p i : rep m d xs -> 0 <= p < len xs -> stands d p i ->
  exists m' d' i', erase bs triv m d i = Some (m', d', i') /\ rep m' d' (cut p (p + 1) xs) /\ stands d' p i' /\ others m d m' d' /\ nothing_lost m d m' d' /\ (tight d -> tight d').
Proof.
  intros R Hp St. rewrite (stands_pt bs Hbs _ _ _ St). pose proof (r_len _ _ _ _ _ R) as L. pose proof (r_base _ _ _ _ _ R) as B0.
  pose proof (fun k => lin_nd bs triv _ _ _ k R) as ND. unfold erase.
  rewrite (inc_ok bs Hbs) by (apply ND; lia). cbn [obind]. rewrite (diff_beg bs triv Hbs _ _ _ _ R). replace (lin (beg d) + p - lin (beg d)) with p by lia.
  rewrite (size_ok bs triv Hbs _ _ _ R). pose proof (len_cut p (p + 1) xs ltac:(lia) ltac:(lia)) as LC.
  destruct (Z.ltb_spec p (len xs / 2)) as [C|C].
  - pose proof (beg_pt bs triv Hbs _ _ _ R) as Bp. set (B := lin (beg d)) in *.
    assert (span bs (beg d) (pt (B + p)) = Z.to_nat p) as -> by (rewrite Bp, span_ok by exact Hbs; lia).
    destruct (copy_back_ok bs Hbs (Z.to_nat p) m d (B + p) (B + p + 1) B0) as (m1 & E1 & S1 & V1); try lia; try (apply ND; lia); try (intros k Hk; apply (rep_some bs triv _ _ _ _ R); fold B; lia).
    rewrite E1. cbn [obind fst snd]. rewrite Z2Nat.id in V1 by lia.
    pose proof (nz_some xs 0 ltac:(lia)) as NZ. destruct (nz xs 0) as [x|] eqn:Ex; [|congruence].
    assert (R1 : rep m1 d (x :: cut p (p + 1) xs)).
    { apply (finish_same bs triv Hbs m d m1 xs); auto.
      - apply Nat2Z.inj. cbn [length]. lia.
      - fold B. intros k Hk. rewrite V1, nz_cons, nz_cut by lia. cases; try (rewrite (rep_val bs triv _ _ _ _ R) by (fold B; lia); fold B; first [f_equal; lia | rewrite <- Ex; f_equal; lia]).
      - fold B. intros TF k Hk. rewrite V1. cases; apply (r_raw _ _ _ _ _ R TF); fold B; lia. }
    destruct (pop_front_ok bs triv Hbs m1 d x _ R1) as (m2 & d2 & E2 & R2 & O2 & T2 & L2 & P2 & Q2). rewrite E2. cbn [obind fst snd].
    pose proof (r_len _ _ _ _ _ R2) as LL.
    rewrite (plus_at bs Hbs _ _ _ _ (beg_pt bs triv Hbs _ _ _ R2)) by (apply (lin_nd bs triv _ _ _ _ R2); lia). cbn [obind].
    eexists _, _, _. split; [reflexivity|]. split; [exact R2|]. split; [apply pt_stands, Hbs|]. split; [|split; [|exact T2]].
    + eapply others_trans; [|exact O2]. apply others_shape; auto.
    + eapply lost_trans; [|exact L2]. apply lost_shape; auto. eapply holds_dec; eauto.
  - pose proof (fin_pt bs triv Hbs _ _ _ R) as Ep. set (B := lin (beg d)) in *. set (E := lin (fin d)) in *.
    assert (span bs (pt (B + p + 1)) (fin d) = Z.to_nat (E - B - p - 1)) as -> by (rewrite Ep, span_ok by exact Hbs; lia).
    destruct (copy_ok bs Hbs false (Z.to_nat (E - B - p - 1)) m d (B + p + 1) (B + p) B0) as (m1 & E1 & S1 & V1); try lia; try (apply ND; lia); try (intros k Hk; apply (rep_some bs triv _ _ _ _ R); fold B E; lia).
    { intros k Hk. split; [apply (r_node _ _ _ _ _ R); fold B E; lia|]. intros _. apply (rep_some bs triv _ _ _ _ R). fold B E. lia. }
    rewrite E1. cbn [obind fst snd]. rewrite Z2Nat.id in V1 by lia.
    pose proof (nz_some xs (len xs - 1) ltac:(lia)) as NZ. destruct (nz xs (len xs - 1)) as [x|] eqn:Ex; [|congruence].
    assert (R1 : rep m1 d (cut p (p + 1) xs ++ [x])).
    { apply (finish_same bs triv Hbs m d m1 xs); auto.
      - apply Nat2Z.inj. rewrite app_length. cbn [length]. lia.
      - fold B E. intros k Hk. rewrite V1, nz_app, nz_cons, nz_cut by lia. cases; try (rewrite (rep_val bs triv _ _ _ _ R) by (fold B E; lia); fold B; first [f_equal; lia | rewrite <- Ex; f_equal; lia]).
      - fold B E. intros TF k Hk. rewrite V1. cases; apply (r_raw _ _ _ _ _ R TF); fold B E; lia. }
    destruct (pop_back_ok bs triv Hbs m1 d x _ R1) as (m2 & d2 & E2 & R2 & O2 & T2 & L2 & P2 & Q2). rewrite E2. cbn [obind fst snd].
    pose proof (r_len _ _ _ _ _ R2) as LL.
    rewrite (plus_at bs Hbs _ _ _ _ (beg_pt bs triv Hbs _ _ _ R2)) by (apply (lin_nd bs triv _ _ _ _ R2); lia). cbn [obind].
    eexists _, _, _. split; [reflexivity|]. split; [exact R2|]. split; [apply pt_stands, Hbs|]. split; [|split; [|exact T2]].
    + eapply others_trans; [|exact O2]. apply others_shape; auto.
    + eapply lost_trans; [|exact L2]. apply lost_shape; auto. eapply holds_dec; eauto.
Qed.

(** ** erase of a range *)
Lemma des_ptr_ok m d i j : base m d -> i <= j -> (forall k, i <= k < j -> slot m d k <> None) -> triv = true \/ i / bs = j / bs ->
  exists m', des_ptr bs triv m d (pt i) (pt j) = Some m' /\ shape m d m' /\ forall k, slot m' d k = if (i <=? k) && (k <? j) && negb triv then None else slot m d k.
Proof.
  intros B Hij H C. unfold des_ptr. destruct triv eqn:TF.
  - exists m. split; [reflexivity|]. split; [apply shape_refl|]. intros k. cbn [negb]. rewrite !andb_false_r. reflexivity.
  - destruct C as [C|C]; [discriminate|]. unfold DeqProof.pt. cbn [fst snd]. rewrite <- C, Z.eqb_refl.
    pose proof (Z.div_mod i bs ltac:(lia)) as D1. pose proof (Z.div_mod j bs ltac:(lia)) as D2. rewrite <- C in D2.
    pose proof (Z.mod_pos_bound i bs Hbs). pose proof (Z.mod_pos_bound j bs Hbs).
    destruct (Z.leb_spec (i mod bs) (j mod bs)); [|lia]. cbn [andb].
    destruct (des_n_ok bs false Hbs (Z.to_nat (j mod bs - i mod bs)) m d (i / bs) (i mod bs) B) as (m1 & E1 & S1 & V1); try lia.
    { intros k Hk. apply H. lia. }
    exists m1. split; [exact E1|]. split; [exact S1|]. intros k. rewrite V1. 
    replace (i / bs * bs + i mod bs) with i by lia. replace (i + Z.of_nat (Z.to_nat (j mod bs - i mod bs))) with j by lia. reflexivity.
Qed.
Lemma des_ptr_none m d i j : triv = false -> i / bs <> j / bs -> des_ptr bs triv m d (pt i) (pt j) = None.
Proof.
  intros -> N. unfold des_ptr, DeqProof.pt. cbn [fst snd]. destruct (Z.eqb_spec (i / bs) (j / bs)); [contradiction|reflexivity].
Qed.
Lemma erase_front m d xs p q : rep m d xs -> 0 <= p <= q -> q <= len xs -> triv = true \/ lin (beg d) / bs = (lin (beg d) + (q - p)) / bs ->
  exists m' d' i',
    (let* md := (let* mr := copy_back bs (span bs (beg d) (pt (lin (beg d) + p))) m d (pt (lin (beg d) + p)) (pt (lin (beg d) + q)) in
        let* new_begin := plus bs d (beg d) (q - p) in
        let* m := des_ptr bs triv (fst mr) d (beg d) new_begin in Some (m, set_beg d new_begin)) in
     let* i := plus bs (snd md) (beg (snd md)) p in Some (fst md, snd md, i)) = Some (m', d', i') /\
    rep m' d' (cut p q xs) /\ stands d' p i' /\ others m d m' d' /\ nothing_lost m d m' d'.
Proof.
  intros R Hp Hq C. pose proof (r_len _ _ _ _ _ R) as L. pose proof (r_base _ _ _ _ _ R) as B0. pose proof (fun k => lin_nd bs triv _ _ _ k R) as ND.
  pose proof (len_cut p q xs ltac:(lia) ltac:(lia)) as LC. pose proof (beg_pt bs triv Hbs _ _ _ R) as Bp. set (B := lin (beg d)) in *. set (E := lin (fin d)) in *.
  assert (span bs (beg d) (pt (B + p)) = Z.to_nat p) as -> by (rewrite Bp, span_ok by exact Hbs; lia).
  destruct (copy_back_ok bs Hbs (Z.to_nat p) m d (B + p) (B + q) B0) as (m1 & E1 & S1 & V1); try lia; try (apply ND; lia);
    try (intros k Hk; apply (rep_some bs triv _ _ _ _ R); fold B E; lia).
  rewrite E1. cbn [obind fst snd]. rewrite Z2Nat.id in V1 by lia.
  rewrite (plus_at bs Hbs _ _ _ _ Bp) by (apply ND; lia). cbn [obind].
  destruct (des_ptr_ok m1 d B (B + (q - p)) (base_shape _ _ _ B0 S1)) as (m2 & E2 & S2 & V2).
  { lia. } { intros k Hk. rewrite V1. cases; apply (rep_some bs triv _ _ _ _ R); fold B E; lia. } { exact C. }
  rewrite <- Bp in E2. rewrite E2. cbn [obind fst snd].
  assert (S12 : shape m d m2) by (eapply shape_trans; eauto).
  assert (R2 : rep m2 (set_beg d (pt (B + (q - p)))) (cut p q xs)).
  { apply (finish_beg bs triv Hbs m d m2 _ xs); auto.
    - intros k Hk. apply (r_node _ _ _ _ _ R). fold B E. fold E in Hk. lia.
    - fold E. lia.
    - fold E. intros k Hk. rewrite V2, V1, nz_cut by lia. cases; try (rewrite (rep_val bs triv _ _ _ _ R) by (fold B E; lia); fold B; f_equal; lia).
    - fold E. intros TF k Hk. rewrite V2, V1, TF. cases; try reflexivity; apply (r_raw _ _ _ _ _ R TF); fold B E; lia. }
  rewrite (plus_at bs Hbs _ _ _ _ (beg_pt bs triv Hbs _ _ _ R2)) by (apply (lin_nd bs triv _ _ _ _ R2); pose proof (r_len _ _ _ _ _ R2); lia).
  cbn [obind]. eexists _, _, _. split; [reflexivity|]. split; [exact R2|]. split; [apply pt_stands, Hbs|]. split.
  - apply others_shape; auto.
  - apply lost_shape; auto. eapply holds_dec; eauto.
Qed.
Lemma erase_back m d xs p q : rep m d xs -> 0 <= p <= q -> q <= len xs -> triv = true \/ (lin (fin d) - (q - p)) / bs = lin (fin d) / bs ->
  exists m' d' i',
    (let* md := (let* mr := copy bs false (span bs (pt (lin (beg d) + q)) (fin d)) m d (pt (lin (beg d) + q)) (pt (lin (beg d) + p)) in
        let* new_end := minus bs d (fin d) (q - p) in
        let* m := des_ptr bs triv (fst mr) d new_end (fin d) in Some (m, set_fin d new_end)) in
     let* i := plus bs (snd md) (beg (snd md)) p in Some (fst md, snd md, i)) = Some (m', d', i') /\
    rep m' d' (cut p q xs) /\ stands d' p i' /\ others m d m' d' /\ nothing_lost m d m' d'.
Proof.
  intros R Hp Hq C. pose proof (r_len _ _ _ _ _ R) as L. pose proof (r_base _ _ _ _ _ R) as B0. pose proof (fun k => lin_nd bs triv _ _ _ k R) as ND.
  pose proof (len_cut p q xs ltac:(lia) ltac:(lia)) as LC. pose proof (fin_pt bs triv Hbs _ _ _ R) as Ep. set (B := lin (beg d)) in *. set (E := lin (fin d)) in *.
  assert (span bs (pt (B + q)) (fin d) = Z.to_nat (E - B - q)) as -> by (rewrite Ep, span_ok by exact Hbs; lia).
  destruct (copy_ok bs Hbs false (Z.to_nat (E - B - q)) m d (B + q) (B + p) B0) as (m1 & E1 & S1 & V1); try lia; try (apply ND; lia).
  { intros k Hk. apply (rep_some bs triv _ _ _ _ R). fold B E. lia. }
  { intros k Hk. split; [apply (r_node _ _ _ _ _ R); fold B E; lia|]. intros _. apply (rep_some bs triv _ _ _ _ R). fold B E. lia. }
  rewrite E1. cbn [obind fst snd]. rewrite Z2Nat.id in V1 by lia.
  rewrite (minus_at bs Hbs _ _ _ _ Ep) by (apply ND; lia). cbn [obind].
  destruct (des_ptr_ok m1 d (E - (q - p)) E (base_shape _ _ _ B0 S1)) as (m2 & E2 & S2 & V2).
  { lia. } { intros k Hk. rewrite V1. cases; apply (rep_some bs triv _ _ _ _ R); fold B E; lia. } { exact C. }
  rewrite <- Ep in E2. rewrite E2. cbn [obind fst snd].
  assert (S12 : shape m d m2) by (eapply shape_trans; eauto).
  assert (R2 : rep m2 (set_fin d (pt (E - (q - p)))) (cut p q xs)).
  { apply (finish_fin bs triv Hbs m d m2 _ xs); auto.
    - intros k Hk. apply (r_node _ _ _ _ _ R). fold B E. fold B in Hk. lia.
    - fold B. lia.
    - fold B. intros k Hk. rewrite V2, V1, nz_cut by lia. cases; try (rewrite (rep_val bs triv _ _ _ _ R) by (fold B E; lia); fold B; f_equal; lia).
    - fold B. intros TF k Hk. rewrite V2, V1, TF. cases; try reflexivity; apply (r_raw _ _ _ _ _ R TF); fold B E; lia. }
  rewrite (plus_at bs Hbs _ _ _ _ (beg_pt bs triv Hbs _ _ _ R2)) by (apply (lin_nd bs triv _ _ _ _ R2); pose proof (r_len _ _ _ _ _ R2); lia).
  cbn [obind]. eexists _, _, _. split; [reflexivity|]. split; [exact R2|]. split; [apply pt_stands, Hbs|]. split.
  - apply others_shape; auto.
  - apply lost_shape; auto. eapply holds_dec; eauto.
Qed.
Lemma erase_range_step m d xs p q i j : rep m d xs -> 0 <= p <= q -> q <= len xs -> stands d p i -> stands d q j -> ~ (p = 0 /\ q = len xs) ->
  erase_range bs triv m d i j =
    (let* md := (if p <? (len xs - (q - p)) / 2 then
        let* mr := copy_back bs (span bs (beg d) (pt (lin (beg d) + p))) m d (pt (lin (beg d) + p)) (pt (lin (beg d) + q)) in
        let* new_begin := plus bs d (beg d) (q - p) in
        let* m := des_ptr bs triv (fst mr) d (beg d) new_begin in Some (m, set_beg d new_begin)
       else
        let* mr := copy bs false (span bs (pt (lin (beg d) + q)) (fin d)) m d (pt (lin (beg d) + q)) (pt (lin (beg d) + p)) in
        let* new_end := minus bs d (fin d) (q - p) in
        let* m := des_ptr bs triv (fst mr) d new_end (fin d) in Some (m, set_fin d new_end)) in
     let* i := plus bs (snd md) (beg (snd md)) p in Some (fst md, snd md, i)).
Proof.
  intros R Hp Hq St1 St2 NW. rewrite (stands_pt bs Hbs _ _ _ St1), (stands_pt bs Hbs _ _ _ St2). pose proof (r_len _ _ _ _ _ R) as L. unfold erase_range.
  rewrite (ieq_beg bs triv Hbs _ _ _ _ R), (ieq_fin bs triv Hbs _ _ _ _ R).
  assert ((lin (beg d) + p =? lin (beg d)) && (lin (beg d) + q =? lin (fin d)) = false) as -> by (cases; lia || reflexivity).
  cbv zeta. rewrite diff_ok, (diff_beg bs triv Hbs _ _ _ _ R), (size_ok bs triv Hbs _ _ _ R) by exact Hbs.
  replace (lin (beg d) + p - lin (beg d)) with p by lia. replace (lin (beg d) + q - (lin (beg d) + p)) with (q - p) by lia. reflexivity.
Qed.
Lemma erase_range_ok m d xs p q i j : rep m d xs -> 0 <= p <= q -> q <= len xs -> stands d p i -> stands d q j ->
  triv = true \/ in_one bs d (len xs) p q ->
  exists m' d' i', erase_range bs triv m d i j = Some (m', d', i') /\ rep m' d' (cut p q xs) /\ stands d' p i' /\ others m d m' d' /\
    nothing_lost m d m' d'.
Proof.
  intros R Hp Hq St1 St2 C. pose proof (r_len _ _ _ _ _ R) as L.
  destruct (Z.eq_dec p 0) as [P|P], (Z.eq_dec q (len xs)) as [Q|Q].
  1: { subst p q. unfold erase_range. rewrite (stands_pt bs Hbs _ _ _ St1), (stands_pt bs Hbs _ _ _ St2). rewrite (ieq_beg bs triv Hbs _ _ _ _ R), (ieq_fin bs triv Hbs _ _ _ _ R).
    rewrite Z.add_0_r, L, !Z.eqb_refl. cbn [andb].
    destruct (clear_ok m d xs R) as (m1 & d1 & E1 & R1 & O1 & L1 & _ & _ & X1 & X2 & _). rewrite E1. cbn [obind fst snd].
    exists m1, d1, (fin d1). split; [reflexivity|]. split; [|split; [|split; assumption]].
    - replace (cut 0 (len xs) xs) with (@nil T); [exact R1|]. unfold cut. cbn. rewrite Nat2Z.id, skipn_all. reflexivity.
    - pose proof (r_len _ _ _ _ _ R1) as LL. cbn in LL. split; [apply R1|lia]. }
  all: rewrite (erase_range_step _ _ _ _ _ _ _ R Hp Hq St1 St2) by lia; unfold in_one in C.
  all: destruct (Z.ltb_spec p ((len xs - (q - p)) / 2)); [apply erase_front|apply erase_back]; auto; destruct C as [C|[C|C]]; auto; lia.
Qed.
Lemma erase_range_none m d xs p q i j : rep m d xs -> 0 <= p <= q -> q <= len xs -> stands d p i -> stands d q j ->
  triv = false -> ~ in_one bs d (len xs) p q -> erase_range bs triv m d i j = None.
Proof.
  intros R Hp Hq St1 St2 TF C. pose proof (r_len _ _ _ _ _ R) as L. unfold in_one in C.
  rewrite (erase_range_step _ _ _ _ _ _ _ R Hp Hq St1 St2) by tauto.
  pose proof (fun k => lin_nd bs triv _ _ _ k R) as ND. pose proof (beg_pt bs triv Hbs _ _ _ R) as Bp. pose proof (fin_pt bs triv Hbs _ _ _ R) as Ep.
  destruct (Z.ltb_spec p ((len xs - (q - p)) / 2)).
  - destruct (copy_back bs _ m d _ _) as [[m1 r1]|]; [|reflexivity]. cbn [obind fst snd].
    rewrite (plus_at bs Hbs _ _ _ _ Bp) by (apply ND; lia). cbn [obind]. rewrite Bp at 1. rewrite des_ptr_none; auto.
  - destruct (copy bs false _ m d _ _) as [[m1 r1]|]; [|reflexivity]. cbn [obind fst snd].
    rewrite (minus_at bs Hbs _ _ _ _ Ep) by (apply ND; lia). cbn [obind]. rewrite Ep at 2. rewrite des_ptr_none; auto.
Qed.

(** ** resize and assign *)
Lemma cut_all n xs : 0 <= n -> cut n (len xs) xs = firstn (Z.to_nat n) xs.
Proof. intros H. unfold cut. rewrite Nat2Z.id, skipn_all, app_nil_r. reflexivity. Qed.
Lemma fin_stands m d xs : rep m d xs -> stands d (len xs) (fin d).
Proof. intros R. split; [apply R|apply (r_len _ _ _ _ _ R)]. Qed.
Lemma put_end ys xs : put_at (len xs) ys xs = xs ++ ys.
Proof. unfold put_at. rewrite Nat2Z.id, firstn_all, skipn_all, app_nil_r. reflexivity. Qed.

Lemma resize_ok m d xs n v : rep m d xs -> 0 <= n -> triv = true \/ len xs <= n \/ in_one bs d (len xs) n (len xs) ->
  exists m' d', resize bs triv m d n v = Some (m', d') /\ rep m' d' (sized n v xs) /\ others m d m' d'.
Proof.
  intros R Hn C. unfold resize. rewrite (size_ok bs triv Hbs _ _ _ R). pose proof (r_len _ _ _ _ _ R) as L. destruct (Z.ltb_spec n (len xs)) as [Q|Q].
  - rewrite (plus_at bs Hbs _ _ _ _ (beg_pt bs triv Hbs _ _ _ R)) by (apply (lin_nd bs triv _ _ _ _ R); lia). cbn [obind].
    destruct (erase_range_ok m d xs n (len xs) (pt (lin (beg d) + n)) (fin d) R) as (m1 & d1 & i1 & E1 & R1 & _ & O1 & _); try lia.
    { apply pt_stands, Hbs. } { eapply fin_stands; eauto. } { destruct C as [C|[C|C]]; auto. lia. }
    rewrite E1. cbn [obind fst]. exists m1, d1. split; [reflexivity|]. split; [|exact O1]. rewrite cut_all in R1 by lia. unfold sized.
    replace (Z.to_nat n - length xs)%nat with 0%nat by lia. cbn [repeat]. rewrite app_nil_r. exact R1.
  - destruct (insert_n_ok bs triv Hbs m d xs (len xs) (fin d) (n - len xs) v R) as (m1 & d1 & E1 & R1 & O1); try lia. { eapply fin_stands; eauto. }
    exists m1, d1. split; [exact E1|]. split; [|exact O1]. rewrite put_end in R1. unfold sized. rewrite firstn_all2 by lia.
    replace (Z.to_nat n - length xs)%nat with (Z.to_nat (n - len xs)) by lia. exact R1.
Qed.
Lemma fill_all m d xs v : rep m d xs ->
  exists m' r, fill bs false (len xs) m d (beg d) v = Some (m', r) /\ shape m d m' /\ rep m' d (repeat v (length xs)).
Proof.
  intros R. pose proof (r_len _ _ _ _ _ R) as L. pose proof (fun k => lin_nd bs triv _ _ _ k R) as ND.
  destruct (fill_ok bs Hbs false (len xs) m d (lin (beg d)) v) as (m1 & E1 & S1 & V1); try lia; try (apply ND; lia).
  { apply R. } { intros k Hk. split; [apply (r_node _ _ _ _ _ R); lia|]. intros _. apply (rep_some bs triv _ _ _ _ R); lia. }
  rewrite <- (beg_pt bs triv Hbs _ _ _ R) in E1. exists m1. eexists. split; [exact E1|]. split; [exact S1|].
  apply (finish_same bs triv Hbs m d m1 xs); auto.
  - apply repeat_length.
  - intros k Hk. rewrite V1, nz_repeat. cases. reflexivity.
  - intros TF k Hk. rewrite V1. cases; apply (r_raw _ _ _ _ _ R TF); lia.
Qed.
Lemma assign_n_ok m d xs n v : rep m d xs -> 0 <= n -> triv = true \/ len xs < n \/ in_one bs d (len xs) n (len xs) ->
  exists m' d', assign_n bs triv m d n v = Some (m', d') /\ rep m' d' (repeat v (Z.to_nat n)) /\ others m d m' d'.
Proof.
  intros R Hn C. unfold assign_n. rewrite (size_ok bs triv Hbs _ _ _ R). pose proof (r_len _ _ _ _ _ R) as L. destruct (Z.ltb_spec (len xs) n) as [Q|Q].
  - destruct (fill_all m d xs v R) as (m1 & r1 & E1 & S1 & R1). rewrite E1. cbn [obind fst].
    assert (LR : len (repeat v (length xs)) = len xs) by (now rewrite repeat_length).
    destruct (insert_n_ok bs triv Hbs m1 d _ (len xs) (fin d) (n - len xs) v R1) as (m2 & d2 & E2 & R2 & O2); try lia. { rewrite <- LR. eapply fin_stands; eauto. }
    exists m2, d2. split; [exact E2|]. split.
    + rewrite <- LR, put_end, <- repeat_app in R2. rewrite repeat_length in R2. replace (Z.to_nat n) with (length xs + Z.to_nat (n - len xs))%nat by lia. exact R2.
    + eapply others_trans; [|exact O2]. apply others_shape; auto.
  - rewrite (plus_at bs Hbs _ _ _ _ (beg_pt bs triv Hbs _ _ _ R)) by (apply (lin_nd bs triv _ _ _ _ R); lia). cbn [obind].
    destruct (erase_range_ok m d xs n (len xs) (pt (lin (beg d) + n)) (fin d) R) as (m1 & d1 & i1 & E1 & R1 & _ & O1 & _); try lia.
    { apply pt_stands, Hbs. } { eapply fin_stands; eauto. } { destruct C as [C|[C|C]]; auto. lia. }
    rewrite E1. cbn [obind fst]. rewrite (size_ok bs triv Hbs _ _ _ R1). destruct (fill_all m1 d1 _ v R1) as (m2 & r2 & E2 & S2 & R2).
    rewrite E2. cbn [obind fst]. exists m2, d1. split; [reflexivity|]. split.
    + rewrite cut_all in R2 by lia. rewrite firstn_length in R2. replace (Nat.min (Z.to_nat n) (length xs)) with (Z.to_nat n) in R2 by lia. exact R2.
    + eapply others_trans; [exact O1|]. apply others_shape; auto.
Qed.
Lemma over m d xs ys : rep m d xs -> (length ys <= length xs)%nat ->
  exists m', copy_list bs false ys m d (beg d) = Some (m', pt (lin (beg d) + len ys)) /\ shape m d m' /\ rep m' d (ys ++ skipn (length ys) xs).
Proof.
  intros R H. pose proof (r_len _ _ _ _ _ R) as L. pose proof (fun k => lin_nd bs triv _ _ _ k R) as ND.
  destruct (copy_list_ok bs Hbs false ys m d (lin (beg d))) as (m1 & E1 & S1 & V1); try (apply ND; lia).
  { apply R. } { intros k Hk. split; [apply (r_node _ _ _ _ _ R); lia|]. intros _. apply (rep_some bs triv _ _ _ _ R); lia. }
  rewrite <- (beg_pt bs triv Hbs _ _ _ R) in E1. exists m1. split; [exact E1|]. split; [exact S1|].
  apply (finish_same bs triv Hbs m d m1 xs); auto.
  - rewrite app_length, skipn_length. lia.
  - intros k Hk. rewrite V1, nz_app, nz_skipn. cases; try reflexivity. rewrite (rep_val bs triv _ _ _ _ R) by lia. f_equal. lia.
  - intros TF k Hk. rewrite V1. cases; apply (r_raw _ _ _ _ _ R TF); lia.
Qed.
Lemma assign_range_ok m d xs ys : rep m d xs -> triv = true \/ len xs < len ys \/ in_one bs d (len xs) (len ys) (len xs) ->
  exists m' d', assign_range bs triv m d ys = Some (m', d') /\ rep m' d' ys /\ others m d m' d'.
Proof.
  intros R C. unfold assign_range. rewrite (size_ok bs triv Hbs _ _ _ R). pose proof (r_len _ _ _ _ _ R) as L. destruct (Z.ltb_spec (len xs) (len ys)) as [Q|Q].
  - rewrite Nat2Z.id. assert (LF : length (firstn (length xs) ys) = length xs) by (rewrite firstn_length; lia).
    destruct (over m d xs (firstn (length xs) ys) R) as (m1 & E1 & S1 & R1); [lia|]. rewrite E1. cbn [obind fst].
    rewrite LF, skipn_all, app_nil_r in R1.
    destruct (insert_range_ok bs triv Hbs m1 d _ (len xs) (fin d) (skipn (length xs) ys) R1) as (m2 & d2 & E2 & R2 & O2); try lia.
    { rewrite <- LF at 1. eapply fin_stands; eauto. }
    exists m2, d2. split; [exact E2|]. split.
    + rewrite <- LF in R2 at 1. rewrite put_end, firstn_skipn in R2. exact R2.
    + eapply others_trans; [|exact O2]. apply others_shape; auto.
  - destruct (over m d xs ys R) as (m1 & E1 & S1 & R1); [lia|]. rewrite E1. cbn [obind fst snd].
    assert (LA : len (ys ++ skipn (length ys) xs) = len xs) by (rewrite app_length, skipn_length; lia).
    destruct (erase_range_ok m1 d _ (len ys) (len xs) (pt (lin (beg d) + len ys)) (fin d) R1) as (m2 & d2 & i2 & E2 & R2 & _ & O2 & _); try lia.
    { apply pt_stands, Hbs. } { rewrite <- LA. eapply fin_stands; eauto. } { rewrite LA. destruct C as [C|[C|C]]; auto. lia. }
    rewrite E2. cbn [obind fst]. exists m2, d2. split; [reflexivity|]. split.
    + rewrite <- LA, cut_all, Nat2Z.id in R2 by lia. rewrite firstn_app, firstn_all, Nat.sub_diag in R2. cbn [firstn] in R2. rewrite app_nil_r in R2. exact R2.
    + eapply others_trans; [|exact O2]. apply others_shape; auto.
Qed.
End Rem.
