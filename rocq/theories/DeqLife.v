(** Construction, copies, moves and destruction of deques, and the buffers they leave behind. *)
From Coq Require Import ZArith List Bool Lia.
From Verif Require Import F64 DeqModel DeqSpec DeqProof DeqOps DeqEnds DeqIns DeqFill DeqRem.
Import ListNotations.
Open Scope Z_scope.
Open Scope opt_scope.

Section Life.
Context {T : Type} (bs : Z) (triv : bool).
Notation mem := (@memory T).
Implicit Types (m : mem) (d x : deque) (xs : list T).
Hypothesis Hbs : 0 < bs.
Notation lin := (lin bs).
Notation slot := (slot bs).
Notation has := (has bs).
Notation rep := (rep bs triv).
Notation pt := (pt bs).
Notation nd := (nd bs).
Notation len xs := (Z.of_nat (length xs)).
Notation stands := (stands bs).

(** ** construction *)
Lemma skip2 (a b : nat) xs : skipn a (skipn b xs) = skipn (b + a) xs.
Proof. revert xs. induction b as [|b IH]; intros xs; [reflexivity|]. destruct xs as [|v xs]; [now rewrite !skipn_nil|]. apply IH. Qed.
Lemma init_bufs_ok n : forall xs m d k, base m d -> Z.of_nat n * bs <= len xs -> (forall j, k <= j < k + Z.of_nat n -> mp d j <> None) ->
  exists m', init_bufs bs n xs m d k = Some (m', skipn (n * Z.to_nat bs) xs) /\ shape m d m' /\
    forall j, slot m' d j = if (k * bs <=? j) && (j <? (k + Z.of_nat n) * bs) then nz xs (j - k * bs) else slot m d j.
Proof.
  induction n as [|n IH]; intros xs m d k B L H.
  - exists m. cbn [init_bufs Z.of_nat Nat.mul]. rewrite Z.add_0_r. split; [reflexivity|]. split; [apply shape_refl|]. intros j. cases; reflexivity || lia.
  - rewrite Nat2Z.inj_succ in *. cbn [init_bufs].
    assert (LF : len (firstn (Z.to_nat bs) xs) = bs) by (rewrite firstn_length; nia).
    destruct (init_n_ok bs Hbs (firstn (Z.to_nat bs) xs) m d k 0 B) as (m1 & E1 & S1 & V1); try lia. { apply H. lia. }
    rewrite E1. cbn [obind]. rewrite LF in V1.
    destruct (IH (skipn (Z.to_nat bs) xs) m1 d (k + 1)) as (m2 & E2 & S2 & V2).
    + eapply base_shape; eauto.
    + rewrite skipn_length. nia.
    + intros j Hj. apply H. lia.
    + exists m2. rewrite E2. split.
      { do 2 f_equal. rewrite skip2. reflexivity. }
      split; [eapply shape_trans; eauto|]. intros j. rewrite V2, V1, nz_skipn, nz_firstn, Z2Nat.id by lia.
      replace ((k + 1 + Z.of_nat n) * bs) with ((k + Z.succ (Z.of_nat n)) * bs) by lia.
      assert (k * bs + bs <= (k + Z.succ (Z.of_nat n)) * bs) by nia.
      replace ((k + 1) * bs) with (k * bs + bs) by lia. set (X := k * bs) in *. set (Y := (k + Z.succ (Z.of_nat n)) * bs) in *.
      cases; try reflexivity; try lia; f_equal; lia.
Qed.
Lemma map_init_ok m n : heap m -> 0 <= n ->
  exists m' d, map_init bs m n = Some (m', d) /\ base m' d /\ others m nobody m' d /\ nothing_lost m nobody m' d /\ tight d /\
    snd (beg d) = 0 /\ 0 <= snd (fin d) < bs /\ lin (fin d) = lin (beg d) + n /\ (forall k, lin (beg d) <= k <= lin (fin d) -> has d k) /\
    (forall k, slot m' d k = None).
Proof.
  intros (H1 & H2 & H3) Hn. unfold map_init, alloc_map. pose proof (Z.div_pos n bs Hn Hbs) as Dp. cbv zeta.
  set (nodes := n / bs + 1). set (sz := Z.max 8 (nodes + 2)). set (s := (sz - nodes) / 2).
  assert (Hs : 0 <= s /\ s + nodes <= sz).
  { unfold s. assert (nodes + 2 <= sz) by lia. pose proof (Z.div_pos (sz - nodes) 2 ltac:(lia) ltac:(lia)). pose proof (Z.mul_div_le (sz - nodes) 2 ltac:(lia)). lia. }
  destruct (create_ok (Z.to_nat (s + nodes - 1 - s + 1)) (mkMem (bufs m) (upd (mblk m) (nxt m) true) (nxt m + 1)) (fun _ => None) sz s) as (m1 & f1 & E1 & N1 & B1 & F1 & U1); try lia.
  rewrite E1. cbn [obind fst snd]. replace (Z.of_nat (Z.to_nat (s + nodes - 1 - s + 1))) with nodes in * by lia. cbn [nxt mblk bufs] in *.
  pose proof (Z.mod_pos_bound n bs Hbs) as Mp. pose proof (Z.div_mod n bs ltac:(lia)) as DM.
  eexists _, _. split; [reflexivity|].
  assert (UM : forall a, used m a -> a < nxt m) by (intros; apply H3; auto).
  assert (F1' : forall k a, f1 k = Some a -> s <= k < s + nodes /\ a = nxt m + 1 + (k - s)).
  { intros k a. rewrite F1. destruct (Z.leb_spec s k), (Z.ltb_spec k (s + nodes)); cbn [andb]; try discriminate. intros [= <-]. lia. }
  split; [|split; [|split; [|split; [|split; [|split; [|split; [|split]]]]]]].
  - split; cbn [mid mp msz].
    + split; [lia|]. rewrite B1. unfold upd. now rewrite Z.eqb_refl.
    + intros k a Ek. apply F1' in Ek as [Hk ->]. split; [lia|]. unfold used. rewrite U1. cases. discriminate.
    + intros k j a Ek Ej. apply F1' in Ek, Ej. lia.
    + rewrite N1. split; [lia|]. intros a [U|U].
      * unfold used in U. rewrite U1 in U. revert U. cases; intros U; try lia; apply UM in U; lia.
      * rewrite B1 in U. unfold upd in U. revert U. cases; intros U; [lia|]. pose proof (H3 a (or_intror U)). lia.
  - split.
    + intros a U N. pose proof (UM a U). split.
      * rewrite U1. cases; reflexivity.
      * intros [k Ek]. cbn [mp] in Ek. apply F1' in Ek. lia.
    + intros a U N. pose proof (H3 a (or_intror U)). rewrite B1. unfold upd. cbn [mid]. cases. split; [exact U|lia].
    + lia.
  - split.
    + intros a U. unfold used in U. rewrite U1 in U. destruct (Z.leb_spec (nxt m + 1) a), (Z.ltb_spec a (nxt m + 1 + nodes)); cbn [andb] in U.
      * right. exists (s + (a - (nxt m + 1))). cbn [mp]. rewrite F1. cases. f_equal. lia.
      * left. split; [exact U|]. intros [k Ek]. discriminate.
      * left. split; [exact U|]. intros [k Ek]. discriminate.
      * left. split; [exact U|]. intros [k Ek]. discriminate.
    + intros a U. rewrite B1 in U. unfold upd in U. cbn [mid nobody]. destruct (Z.eqb_spec a (nxt m)); [now right|]. left. split; [exact U|]. intros ->. congruence.
  - intros k. cbn [mp beg fin fst]. rewrite F1. cases; try congruence. lia.
  - reflexivity.
  - cbn [fin snd]. lia.
  - unfold DeqSpec.lin. cbn [fin beg fst snd]. unfold nodes. lia.
  - unfold DeqSpec.lin, DeqSpec.has. cbn [fin beg fst snd mp]. intros k Hk. rewrite F1.
    assert (s <= k / bs) by (apply Z.div_le_lower_bound; lia). assert (k / bs < s + nodes) by (apply Z.div_lt_upper_bound; nia). cases. discriminate.
  - intros k. unfold DeqSpec.slot. cbn [mp]. destruct (f1 (k / bs)) as [a|] eqn:Ek; [|reflexivity]. apply F1' in Ek as [Hk ->]. rewrite U1. cases. reflexivity.
Qed.
Lemma copy_init_ok m xs : heap m ->
  exists m' d, copy_init bs m xs = Some (m', d) /\ rep m' d xs /\ others m nobody m' d /\ nothing_lost m nobody m' d /\ tight d.
Proof.
  intros Hm. destruct (map_init_ok m (len xs) Hm ltac:(lia)) as (m1 & d & E1 & B1 & O1 & L1 & T1 & Zb & Fb & Lb & Nb & Sb).
  unfold copy_init. rewrite E1. cbn [obind fst snd].
  assert (FF : lin (fin d) = fst (fin d) * bs + snd (fin d)) by reflexivity. assert (BB : lin (beg d) = fst (beg d) * bs) by (unfold DeqSpec.lin; lia).
  assert (fst (beg d) <= fst (fin d)) by nia.
  destruct (init_bufs_ok (Z.to_nat (fst (fin d) - fst (beg d))) xs m1 d (fst (beg d)) B1) as (m2 & E2 & S2 & V2).
  { nia. } { intros j Hj. specialize (Nb (j * bs)). unfold DeqSpec.has in Nb. rewrite Z.div_mul in Nb by lia. apply Nb. nia. }
  rewrite E2. cbn [obind fst snd]. rewrite Z2Nat.id in V2 by lia. replace (fst (beg d) + (fst (fin d) - fst (beg d))) with (fst (fin d)) in V2 by lia.
  set (k0 := (Z.to_nat (fst (fin d) - fst (beg d)) * Z.to_nat bs)%nat) in *. assert (K0 : Z.of_nat k0 = (fst (fin d) - fst (beg d)) * bs) by (unfold k0; rewrite Nat2Z.inj_mul, !Z2Nat.id by lia; reflexivity).
  assert (LS : len (skipn k0 xs) = snd (fin d)) by (rewrite skipn_length; lia).
  destruct (init_n_ok bs Hbs (skipn k0 xs) m2 d (fst (fin d)) 0 (base_shape _ _ _ B1 S2)) as (m3 & E3 & S3 & V3); try lia.
  { specialize (Nb (lin (fin d))). unfold DeqSpec.has in Nb. rewrite (lin_div bs Hbs) in Nb by exact Fb. apply Nb. lia. }
  rewrite E3. cbn [obind]. exists m3, d. split; [reflexivity|]. assert (S : shape m1 d m3) by (eapply shape_trans; eauto).
  split; [|split; [|split]].
  - rewrite <- (deq_eta d). rewrite (pt_lin bs Hbs (beg d)), (pt_lin bs Hbs (fin d)) by lia. apply (finish bs triv Hbs m1); auto.
    + intros k Hk. rewrite V3, V2, Sb, nz_skipn, LS, FF, BB in *. rewrite K0. cases; try lia; f_equal; lia.
    + intros TF k Hk. rewrite V3, V2, Sb, LS, FF, BB in *. cases; try reflexivity; lia.
  - eapply others_trans; [exact O1|]. apply others_shape; auto.
  - eapply lost_trans; [exact L1|]. apply lost_shape; auto. eapply holds_dec; eauto.
  - exact T1.
Qed.
Lemma fill_init_ok m n v : heap m -> 0 <= n ->
  exists m' d, fill_init bs m n v = Some (m', d) /\ rep m' d (repeat v (Z.to_nat n)) /\ others m nobody m' d /\ nothing_lost m nobody m' d /\ tight d.
Proof.
  intros Hm Hn. unfold fill_init. destruct (Z.eqb_spec n 0) as [->|]; [|now apply copy_init_ok].
  destruct (copy_init_ok m [] Hm) as (m1 & d & E1 & R). exists m1, d. split; [|exact R].
  unfold copy_init in E1. destruct (map_init_ok m 0 Hm ltac:(lia)) as (m2 & d2 & E2 & B2 & _ & _ & _ & Zb & Fb & Lb & _). cbn [length Z.of_nat] in E1. rewrite E2 in *. cbn [obind fst snd] in E1.
  assert (fst (fin d2) = fst (beg d2)) as Q by (unfold DeqSpec.lin in Lb; nia). rewrite Q, Z.sub_diag in E1. exact E1.
Qed.

(** ** destruction *)
(** exactly the buffers of the nodes after the first one are left behind *)
Lemma destroy_frees m d xs : rep m d xs ->
  exists m', destroy bs triv m d = Some m' /\ nxt m <= nxt m' /\
    (forall a, ~ holds d a -> bufs m' a = bufs m a) /\
    (forall k a, mp d k = Some a -> used m' a <-> fst (beg d) < k <= fst (fin d)) /\
    (forall a, mblk m' a = if a =? mid d then false else mblk m a).
Proof.
  intros R. pose proof (r_base _ _ _ _ _ R) as B. destruct (node_bounds bs triv Hbs _ _ _ R) as (N1 & N2 & N3). unfold destroy.
  destruct (Z.eqb_spec (mid d) 0) as [Q|Q]; [now pose proof (proj1 (b_map _ _ B))|].
  destruct (clear_ok bs triv Hbs m d xs R) as (m1 & d1 & E1 & R1 & O1 & L1 & M1 & Z1 & X1 & X2 & P1). rewrite E1. cbn [obind fst snd].
  pose proof (r_base _ _ _ _ _ R1) as B1. rewrite X1. unfold drop, within. rewrite Z1. destruct (Z.leb_spec 0 (fst (beg d))), (Z.ltb_spec (fst (beg d)) (msz d)); try lia. cbn [andb].
  rewrite P1. destruct (Z.leb_spec (fst (beg d)) (fst (beg d))), (Z.leb_spec (fst (beg d)) (fst (fin d))); try lia. cbn [andb].
  pose proof (node_some bs triv Hbs _ _ _ (fst (beg d)) R ltac:(lia)) as Nb. destruct (mp d (fst (beg d))) as [b|] eqn:Eb; [|congruence].
  assert (P1b : mp d1 (fst (beg d)) = Some b) by (rewrite P1, Eb; cases; reflexivity).
  pose proof (proj2 (b_in _ _ B1 _ _ P1b)) as Ub. unfold used in Ub. destruct (bufs m1 b) as [g|] eqn:Eg; [|congruence]. cbn [obind fst snd set_mp mid].
  rewrite M1. rewrite (free_map_ok _ (mid d)); cbn [mblk]; [|exact Q|rewrite <- M1; apply B1].
  eexists. split; [reflexivity|]. cbn [bufs mblk nxt].
  assert (MB : mblk m1 (mid d) = true) by (rewrite <- M1; apply B1).
  assert (HB : forall a, a <> mid d -> mblk m1 a = mblk m a).
  { intros a Ha. destruct (mblk m a) eqn:Em.
    - now apply (o_map _ _ _ _ O1).
    - destruct (mblk m1 a) eqn:Em1; [|reflexivity]. destruct (proj2 L1 a Em1) as [[Z2 _]|Z2]; congruence. }
  split; [apply (o_nxt _ _ _ _ O1)|]. split; [|split].
  - intros a Ha. unfold upd. destruct (Z.eqb_spec a b) as [->|]; [exfalso; apply Ha; now exists (fst (beg d))|].
    destruct (bufs m a) as [f|] eqn:Ea.
    + rewrite <- Ea. apply (o_buf _ _ _ _ O1); [|exact Ha]. unfold used. congruence.
    + destruct (bufs m1 a) as [f|] eqn:Ea1; [|reflexivity]. exfalso. destruct (proj1 L1 a) as [[U _]|[j Ej]].
      * unfold used. congruence.
      * now apply U.
      * rewrite P1 in Ej. revert Ej. cases; try discriminate. intros Ej. apply Ha. now exists j.
  - intros k a Ek. unfold used, upd. cbn [bufs]. destruct (Z.eqb_spec a b) as [->|].
    + pose proof (b_inj _ _ B _ _ _ Ek Eb). subst k. split; [congruence|lia].
    + assert (k <> fst (beg d)) by congruence. split.
      * intros U. destruct (proj1 L1 a U) as [[_ N]|[j Ej]]; [exfalso; apply N; now exists k|]. rewrite P1 in Ej. revert Ej. cases; try discriminate. intros Ej.
        pose proof (b_inj _ _ B _ _ _ Ek Ej). lia.
      * intros Hk. apply (b_in _ _ B1 k). rewrite P1. cases. exact Ek.
  - intros a. unfold upd. destruct (Z.eqb_spec a (mid d)); [reflexivity|]. now apply HB.
Qed.

(** ** two deques *)
Lemma apart_keeps m d m' d' x ys : rep m x ys -> apart d x -> others m d m' d' -> base m' d' -> rep m' x ys /\ apart d' x.
Proof.
  intros R [A1 A2] [O1 O2 O3] B. pose proof (r_base _ _ _ _ _ R) as [B1 B2 B3 B4].
  assert (H : forall k a, mp x k = Some a -> bufs m' a = bufs m a /\ ~ holds d' a).
  { intros k a E. apply O1; [now apply (B2 k)|]. intros Hd. apply (A2 a Hd). now exists k. }
  assert (Sl : forall k, slot m' x k = slot m x k).
  { intros k. unfold DeqSpec.slot. destruct (mp x (k / bs)) as [a|] eqn:E; [|reflexivity]. now rewrite (proj1 (H _ _ E)). }
  destruct (O2 (mid x) (proj2 B1)) as [M1 M2]; [congruence|]. split; [|split].
  - split; try apply R.
    + split.
      * split; [apply B1|exact M1].
      * intros k a E. split; [now apply (B2 k a)|]. unfold used. rewrite (proj1 (H _ _ E)). now apply (B2 k a).
      * exact B3.
      * apply B.
    + intros k Hk. rewrite Sl. now apply R.
    + intros TF k Hk. rewrite Sl. now apply (r_raw _ _ _ _ _ R TF).
  - congruence.
  - intros a Hd [k E]. now apply (proj2 (H _ _ E)).
Qed.
Lemma move_assign_ok m d xs x ys : rep m d xs -> rep m x ys -> apart d x ->
  exists m' rest, move_assign bs triv m d x = Some (m', x, rest) /\ rep m' x ys /\
    (mblk m' (mid d) = true /\ mid d <> mid x) /\ (forall k a, fst (beg d) <= k <= fst (fin d) -> mp d k = Some a -> used m' a /\ ~ holds x a) /\
    size bs rest = len ys /\ (forall k, 0 <= k < len ys -> index bs m' rest k = index bs m' x k) /\ mid rest = 0.
Proof.
  intros R Rx A. unfold move_assign.
  destruct (clear_ok bs triv Hbs m d xs R) as (m1 & d1 & E1 & R1 & O1 & L1 & M1 & Z1 & X1 & X2 & P1). rewrite E1. cbn [obind fst snd].
  pose proof (r_base _ _ _ _ _ R1) as B1. destruct (apart_keeps m d m1 d1 x ys Rx A O1 B1) as [Rx1 A1].
  exists m1. eexists. split; [reflexivity|]. split; [exact Rx1|]. split; [|split; [|split; [|split]]].
  - rewrite <- M1. split; [apply B1|apply A1].
  - intros k a Hk Ek. assert (P : mp d1 k = Some a) by (rewrite P1; cases; exact Ek). split; [now apply (b_in _ _ B1 k)|]. intros Hx. apply (proj2 A1 a); [now exists k|exact Hx].
  - exact (size_ok bs triv Hbs _ _ _ Rx1).
  - intros k Hk. reflexivity.
  - reflexivity.
Qed.
Lemma move_self_ok m d xs : rep m d xs ->
  exists m' d', move_self bs triv m d = Some (m', d') /\ mid d' = 0 /\ mblk m' (mid d) = true /\ used m' (match mp d (fst (beg d)) with Some a => a | None => 0 end).
Proof.
  intros R. unfold move_self.
  destruct (clear_ok bs triv Hbs m d xs R) as (m1 & d1 & E1 & R1 & O1 & L1 & M1 & Z1 & X1 & X2 & P1). rewrite E1. cbn [obind fst snd].
  pose proof (r_base _ _ _ _ _ R1) as B1. destruct (node_bounds bs triv Hbs _ _ _ R) as (N1 & N2 & N3).
  pose proof (node_some bs triv Hbs _ _ _ (fst (beg d)) R ltac:(lia)) as Nb. destruct (mp d (fst (beg d))) as [b|] eqn:Eb; [|congruence].
  eexists _, _. split; [reflexivity|]. split; [reflexivity|]. split; [rewrite <- M1; apply B1|]. apply (b_in _ _ B1 (fst (beg d))). rewrite P1. cases. exact Eb.
Qed.
End Life.
