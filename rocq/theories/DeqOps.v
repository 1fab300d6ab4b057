(** The operations of the deque: room, ends, inserting, removing. *)
From Coq Require Import ZArith List Bool Lia.
From Verif Require Import F64 DeqModel DeqSpec DeqProof.
Import ListNotations.
Open Scope Z_scope.
Open Scope opt_scope.

Section Ops.
Context {T : Type} (bs : Z) (triv : bool).
Notation mem := (@memory T).
Implicit Types (m : mem) (d : deque) (xs : list T).
Hypothesis Hbs : 0 < bs.
Notation lin := (lin bs).
Notation slot := (slot bs).
Notation has := (has bs).
Notation rep := (rep bs triv).
Notation pt := (pt bs).
Notation nd := (nd bs).
Notation len xs := (Z.of_nat (length xs)).

Lemma lin_div i : 0 <= snd i < bs -> lin i / bs = fst i.
Proof. intros H. unfold DeqSpec.lin. now apply (div_unique bs Hbs _ (fst i) (snd i)). Qed.
Lemma beg_pt m d xs : rep m d xs -> beg d = pt (lin (beg d)).
Proof. intros R. apply pt_lin, R. exact Hbs. Qed.
Lemma fin_pt m d xs : rep m d xs -> fin d = pt (lin (fin d)).
Proof. intros R. apply pt_lin, R. exact Hbs. Qed.
Lemma rep_val m d xs k : rep m d xs -> lin (beg d) <= k < lin (fin d) -> slot m d k = nz xs (k - lin (beg d)).
Proof.
  intros R H. pose proof (r_len _ _ _ _ _ R). unfold nz. destruct (Z.ltb_spec (k - lin (beg d)) 0); [lia|].
  rewrite <- (r_val _ _ _ _ _ R) by lia. f_equal. lia.
Qed.
Lemma rep_some m d xs k : rep m d xs -> lin (beg d) <= k < lin (fin d) -> slot m d k <> None.
Proof. intros R H. rewrite (rep_val _ _ _ _ R H). pose proof (r_len _ _ _ _ _ R). apply nz_some. lia. Qed.
Lemma finish m d m' B E xs : base m d -> shape m d m' -> (forall k, B <= k <= E -> has d k) -> E = B + len xs ->
  (forall k, B <= k < E -> slot m' d k = nz xs (k - B)) -> (triv = false -> forall k, k < B \/ E <= k -> slot m' d k = None) ->
  rep m' (mkDeq (mid d) (mp d) (msz d) (pt B) (pt E)) xs.
Proof.
  intros Bs S Hh He Hv Hr. split; cbn [beg fin].
  - eapply base_same; [..|eapply base_shape; eauto]; reflexivity.
  - apply pt_off, Hbs.
  - apply pt_off, Hbs.
  - rewrite !lin_pt by exact Hbs. exact He.
  - rewrite !lin_pt by exact Hbs. exact Hh.
  - rewrite !lin_pt by exact Hbs. intros k Hk. change (slot m' d (B + k) = nth_error xs (Z.to_nat k)). rewrite Hv by lia. unfold nz.
    replace (B + k - B) with k by lia. destruct (Z.ltb_spec k 0); [lia|reflexivity].
  - rewrite !lin_pt by exact Hbs. exact Hr.
Qed.

(** ** blocks of others *)
Lemma others_shape m d m' d' : mid d' = mid d -> mp d' = mp d -> shape m d m' -> others m d m' d'.
Proof.
  intros E1 E2 [S1 S2 S3 S4]. split.
  - intros a U N. split; [auto|]. unfold holds in *. now rewrite E2.
  - intros a H N. rewrite S3, E1. auto.
  - lia.
Qed.
Lemma others_trans m d m1 d1 m2 d2 : others m d m1 d1 -> others m1 d1 m2 d2 -> others m d m2 d2.
Proof.
  intros [A1 A2 A3] [B1 B2 B3]. split.
  - intros a U N. destruct (A1 a U N) as [E H]. destruct (B1 a) as [E' H']; auto. { unfold used in *. now rewrite E. } split; congruence || exact H'.
  - intros a U N. destruct (A2 a U N) as [E H]. exact (B2 a E H).
  - lia.
Qed.
Lemma lost_shape m d m' d' : base m d -> mid d' = mid d -> mp d' = mp d -> shape m d m' ->
  (forall a, {holds d a} + {~ holds d a}) -> nothing_lost m d m' d'.
Proof.
  intros B E1 E2 [S1 S2 S3 S4] D. split.
  - intros a U. destruct (D a) as [H|H]; [right|left; split; [now apply S1|exact H]]. unfold holds in *. now rewrite E2.
  - intros a U. rewrite S3 in U. rewrite E1. destruct (Z.eq_dec a (mid d)); auto.
Qed.
Lemma lost_trans m d m1 d1 m2 d2 : nothing_lost m d m1 d1 -> nothing_lost m1 d1 m2 d2 -> nothing_lost m d m2 d2.
Proof.
  intros [A1 A2] [B1 B2]. split.
  - intros a U. destruct (B1 a U) as [[U1 N1]|]; auto. destruct (A1 a U1) as [|]; auto; contradiction.
  - intros a U. destruct (B2 a U) as [[U1 N1]|]; auto. destruct (A2 a U1) as [|]; auto; contradiction.
Qed.
Lemma holds_dec m d : base m d -> forall a, {holds d a} + {~ holds d a}.
Proof.
  intros B a.
  assert (D : forall n, {exists k, 0 <= k < Z.of_nat n /\ mp d k = Some a} + {forall k, 0 <= k < Z.of_nat n -> mp d k <> Some a}).
  { induction n as [|n [IH|IH]].
    - right. intros; lia.
    - left. destruct IH as (k & H & E). exists k. split; [lia|exact E].
    - destruct (mp d (Z.of_nat n)) as [b|] eqn:E.
      + destruct (Z.eq_dec b a) as [->|N].
        * left. exists (Z.of_nat n). split; [lia|exact E].
        * right. intros k H. destruct (Z.eq_dec k (Z.of_nat n)) as [->|]; [congruence|]. apply IH; lia.
      + right. intros k H. destruct (Z.eq_dec k (Z.of_nat n)) as [->|]; [congruence|]. apply IH; lia. }
  destruct (D (Z.to_nat (msz d))) as [H|H].
  - left. destruct H as (k & _ & E). now exists k.
  - right. intros [k E]. destruct (b_in _ _ B _ _ E) as [K _]. apply (H k); [lia|exact E].
Qed.

(** ** room *)
(** a deque with the same buffers at nodes moved by t, and new buffers *)
Record grown m d m' d' (t : Z) : Prop := mkGrown {
  g_old : forall a, a < nxt m -> bufs m' a = bufs m a;
  g_raw : forall a, nxt m <= a -> bufs m' a = None \/ bufs m' a = Some (fun _ => None);
  g_nxt : nxt m <= nxt m' /\ forall a, used m' a \/ mblk m' a = true -> a < nxt m';
  g_blk : mid d' <> 0 /\ mblk m' (mid d') = true;
  g_blk2 : forall a, a <> mid d -> a <> mid d' -> mblk m' a = mblk m a;
  g_mid : mid d' = mid d \/ (nxt m <= mid d' /\ mblk m' (mid d) = false);
  g_beg : beg d' = (fst (beg d) + t, snd (beg d));
  g_fin : fin d' = (fst (fin d) + t, snd (fin d));
  g_map : forall k, fst (beg d) <= k <= fst (fin d) -> mp d' (k + t) = mp d k;
  g_new : forall k a, mp d' k = Some a -> 0 <= k < msz d' /\ (nxt m <= a /\ used m' a \/ mp d (k - t) = Some a);
  g_inj : forall k j a, mp d' k = Some a -> mp d' j = Some a -> nxt m <= a -> k = j;
  g_hold : forall a, nxt m <= a -> used m' a -> holds d' a
}.
Lemma lin_shift i t : lin (fst i + t, snd i) = lin i + t * bs.
Proof. unfold DeqSpec.lin; cbn [fst snd]. lia. Qed.
Lemma grown_slot m d m' d' t k : base m d -> grown m d m' d' t -> slot m' d' k = slot m d (k - t * bs) \/ slot m' d' k = None.
Proof.
  intros B G. unfold DeqSpec.slot. replace ((k - t * bs) / bs) with (k / bs - t) by (replace (k - t * bs) with (k + (- t) * bs) by lia; rewrite Z.div_add; lia).
  replace ((k - t * bs) mod bs) with (k mod bs) by (replace (k - t * bs) with (k + (- t) * bs) by lia; rewrite Z.mod_add; lia).
  destruct (mp d' (k / bs)) as [a|] eqn:E; [|now right]. destruct (g_new _ _ _ _ _ G _ _ E) as [_ [[N U]|O]].
  - right. destruct (g_raw _ _ _ _ _ G a N) as [->| ->]; reflexivity.
  - left. rewrite O. rewrite (g_old _ _ _ _ _ G); [reflexivity|]. apply (b_new _ _ B). left. apply (b_in _ _ B _ _ O).
Qed.
Lemma grown_rep m d m' d' t xs : rep m d xs -> grown m d m' d' t -> rep m' d' xs.
Proof.
  intros R G. pose proof (r_base _ _ _ _ _ R) as B. destruct B as [B1 B2 B3 B4].
  assert (NX : forall k a, mp d k = Some a -> a < nxt m) by (intros k a E; apply B4; left; apply (B2 k a E)).
  split.
  - split.
    + apply (g_blk _ _ _ _ _ G).
    + intros k a E. destruct (g_new _ _ _ _ _ G _ _ E) as [K [[_ U]|O]]; [auto|]. split; [exact K|]. unfold used.
      rewrite (g_old _ _ _ _ _ G); [apply (B2 _ _ O)|eauto].
    + intros k j a E1 E2. destruct (g_new _ _ _ _ _ G _ _ E1) as [_ [[N _]|O1]]; [now apply (g_inj _ _ _ _ _ G k j a)|].
      destruct (g_new _ _ _ _ _ G _ _ E2) as [_ [[N _]|O2]]; [apply NX in O1; lia|]. pose proof (B3 _ _ _ O1 O2). lia.
    + pose proof (g_nxt _ _ _ _ _ G). split; [lia|tauto].
  - rewrite (g_beg _ _ _ _ _ G). apply R.
  - rewrite (g_fin _ _ _ _ _ G). apply R.
  - rewrite (g_beg _ _ _ _ _ G), (g_fin _ _ _ _ _ G), !lin_shift. pose proof (r_len _ _ _ _ _ R). lia.
  - rewrite (g_beg _ _ _ _ _ G), (g_fin _ _ _ _ _ G), !lin_shift. intros k Hk.
    assert (H := r_node _ _ _ _ _ R (k - t * bs) ltac:(lia)). unfold DeqSpec.has in *.
    replace ((k - t * bs) / bs) with (k / bs - t) in H by (replace (k - t * bs) with (k + (- t) * bs) by lia; rewrite Z.div_add; lia).
    assert (Q : fst (beg d) <= k / bs - t <= fst (fin d)).
    { assert (X1 := Z.div_le_mono (lin (beg d) + t * bs) k bs Hbs ltac:(lia)). assert (X2 := Z.div_le_mono k (lin (fin d) + t * bs) bs Hbs ltac:(lia)).
      rewrite Z.div_add in X1, X2 by lia. 
      rewrite (lin_div (beg d)) in X1 by apply R.
      rewrite (lin_div (fin d)) in X2 by apply R. lia. }
    rewrite <- (g_map _ _ _ _ _ G) in H by exact Q. now replace (k / bs - t + t) with (k / bs) in H by lia.
  - rewrite (g_beg _ _ _ _ _ G), !lin_shift. intros k Hk. rewrite <- (r_val _ _ _ _ _ R) by exact Hk.
    assert (Kin : lin (beg d) <= lin (beg d) + k < lin (fin d)) by (pose proof (r_len _ _ _ _ _ R); lia).
    set (j := lin (beg d) + k) in *. replace (lin (beg d) + t * bs + k) with (j + t * bs) by (unfold j; lia).
    assert (Q : fst (beg d) <= j / bs <= fst (fin d)).
    { assert (X1 := Z.div_le_mono (lin (beg d)) j bs Hbs ltac:(lia)). assert (X2 := Z.div_le_mono j (lin (fin d)) bs Hbs ltac:(lia)).
      
      rewrite (lin_div (beg d)) in X1 by apply R.
      rewrite (lin_div (fin d)) in X2 by apply R. lia. }
    unfold DeqSpec.slot. rewrite Z.div_add, Z.mod_add, (g_map _ _ _ _ _ G) by (exact Q || lia).
    destruct (mp d (j / bs)) as [a|] eqn:E; [|reflexivity]. rewrite (g_old _ _ _ _ _ G); eauto.
  - rewrite (g_beg _ _ _ _ _ G), (g_fin _ _ _ _ _ G), !lin_shift. intros TF k Hk.
    destruct (grown_slot m d m' d' t k (mkBase _ _ B1 B2 B3 B4) G) as [->|]; [|assumption]. apply (r_raw _ _ _ _ _ R TF). lia.
Qed.
Lemma grown_others m d m' d' t : base m d -> grown m d m' d' t -> others m d m' d'.
Proof.
  intros [B1 B2 B3 B4] G. split.
  - intros a U N. assert (a < nxt m) by (apply B4; auto). split; [now apply (g_old _ _ _ _ _ G)|].
    intros [k E]. destruct (g_new _ _ _ _ _ G _ _ E) as [_ [[M _]|O]]; [lia|]. apply N. eexists; exact O.
  - intros a U N. assert (a < nxt m) by (apply B4; auto).
    assert (a <> mid d') by (destruct (g_mid _ _ _ _ _ G); lia). split; [|assumption]. rewrite (g_blk2 _ _ _ _ _ G); auto.
  - apply (g_nxt _ _ _ _ _ G).
Qed.
Lemma grown_lost m d m' d' t : base m d -> tight d -> grown m d m' d' t -> nothing_lost m d m' d'.
Proof.
  intros B Tt G. split.
  - intros a U. destruct (Z.lt_ge_cases a (nxt m)) as [L|L].
    + destruct (holds_dec m d B a) as [[k E]|N].
      * right. exists (k + t). rewrite (g_map _ _ _ _ _ G); [exact E|]. apply Tt. congruence.
      * left. split; [|exact N]. unfold used in *. now rewrite (g_old _ _ _ _ _ G) in U.
    + right. now apply (g_hold _ _ _ _ _ G).
  - intros a U. destruct (Z.eq_dec a (mid d')); [now right|]. left. destruct (Z.eq_dec a (mid d)) as [->|].
    + destruct (g_mid _ _ _ _ _ G) as [|[_ F]]; congruence.
    + rewrite (g_blk2 _ _ _ _ _ G) in U; auto.
Qed.

Lemma node_bounds m d xs : rep m d xs -> 0 <= fst (beg d) /\ fst (beg d) <= fst (fin d) /\ fst (fin d) < msz d.
Proof.
  intros R. pose proof (r_base _ _ _ _ _ R) as B. pose proof (r_len _ _ _ _ _ R) as L. pose proof (r_beg _ _ _ _ _ R) as O1. pose proof (r_fin _ _ _ _ _ R) as O2.
  assert (N1 : nd d (lin (beg d))) by (eapply has_nd; [exact B|]; apply (r_node _ _ _ _ _ R); lia).
  assert (N2 : nd d (lin (fin d))) by (eapply has_nd; [exact B|]; apply (r_node _ _ _ _ _ R); lia).
  unfold DeqProof.nd in *. rewrite lin_div in N1, N2 by assumption. unfold DeqSpec.lin in *.
  assert (fst (beg d) <= fst (fin d)) by nia. lia.
Qed.
Lemma node_some m d xs k : rep m d xs -> fst (beg d) <= k <= fst (fin d) -> mp d k <> None.
Proof.
  intros R H. pose proof (r_beg _ _ _ _ _ R) as O1. pose proof (r_fin _ _ _ _ _ R) as O2.
  destruct (Z.eq_dec k (fst (fin d))) as [->|].
  - assert (X := r_node _ _ _ _ _ R (lin (fin d)) ltac:(pose proof (r_len _ _ _ _ _ R); lia)).
    unfold DeqSpec.has in X. now rewrite lin_div in X by assumption.
  - assert (X := r_node _ _ _ _ _ R (k * bs + (bs - 1))). unfold DeqSpec.has in X.
    rewrite (div_unique bs Hbs _ k (bs - 1)) in X by lia. apply X. unfold DeqSpec.lin. nia.
Qed.
Lemma free_map_ok m a : a <> 0 -> mblk m a = true -> free_map m a = Some (mkMem (bufs m) (upd (mblk m) a false) (nxt m)).
Proof. intros H1 H2. unfold free_map. destruct (Z.eqb_spec a 0); [lia|]. now rewrite H2. Qed.

Lemma realloc_front_ok m d xs need : rep m d xs -> 1 <= need -> fst (beg d) < need ->
  exists m' d' t, reallocate_map_at_front m d need = Some (m', d') /\ grown m d m' d' t /\
    (forall k, fst (beg d') - need <= k <= fst (fin d') -> mp d' k <> None) /\
    (forall k, mp d' k <> None -> fst (beg d') - need <= k <= fst (fin d')).
Proof.
  intros R Hn Hb. destruct (node_bounds _ _ _ R) as (N1 & N2 & N3). pose proof (fun k => node_some _ _ _ k R) as NS.
  pose proof (r_base _ _ _ _ _ R) as [B1 B2 B3 B4].
  unfold reallocate_map_at_front. cbn [alloc_map]. cbv zeta.
  set (sz := Z.max (msz d * 2) (msz d + need + 8)). set (old := fst (fin d) - fst (beg d) + 1).
  set (b := (sz - (old + need)) / 2). assert (Hb0 : 0 <= b /\ b + need + old <= sz).
  { unfold b. assert (0 <= sz - (old + need)) by lia. pose proof (Z.div_mod (sz - (old + need)) 2 ltac:(lia)).
    pose proof (Z.mod_pos_bound (sz - (old + need)) 2 ltac:(lia)). lia. }
  unfold alloc_map. set (m0 := {| bufs := bufs m; mblk := upd (mblk m) (nxt m) true; nxt := nxt m + 1 |}).
  destruct (create_ok (Z.to_nat (b + need - b)) m0 (fun _ => None) sz b) as (m1 & f1 & E1 & X1 & M1 & F1 & U1); try lia.
  rewrite E1. cbn [obind fst snd].
  destruct (copy_ptr_ok (Z.to_nat (b + need + old - (b + need))) (mp d) (msz d) (fst (beg d)) f1 sz (b + need)) as (f2 & E2 & F2); try lia.
  rewrite E2. cbn [obind].
  replace (Z.of_nat (Z.to_nat (b + need - b))) with need in * by lia. replace (Z.of_nat (Z.to_nat (b + need + old - (b + need)))) with old in * by lia.
  cbn [m0 nxt mblk bufs] in X1, M1, F1, U1.
  assert (Md : mid d < nxt m) by (apply B4; right; apply B1).
  rewrite free_map_ok; [|apply B1|rewrite M1; unfold upd; destruct (Z.eqb_spec (mid d) (nxt m)); [lia|apply B1]]. cbn [obind].
  assert (EX : nxt m1 = nxt m + 1 + need) by (rewrite X1; unfold m0; cbn; lia).
  assert (NX : forall k a, mp d k = Some a -> a < nxt m) by (intros k a E; apply B4; left; apply (B2 k a E)).
  eexists _, _, (b + need - fst (beg d)). split; [reflexivity|]. split; [split; cbn|split; cbn].
  - intros a La. rewrite U1. unfold m0; cbn. leb; try lia; reflexivity.
  - intros a La. rewrite U1. unfold m0; cbn. leb; try lia; auto; left; (destruct (bufs m a) eqn:Ea; [|reflexivity]); assert (a < nxt m) by (apply B4; left; unfold used; congruence); lia.
  - rewrite EX. split; [lia|]. unfold used; cbn. intros a [H|H].
    + rewrite U1 in H. unfold m0 in H; cbn in H. revert H. leb; try lia; intros HH; assert (a < nxt m) by (apply B4; now left); lia.
    + rewrite M1 in H. unfold m0, upd in H; cbn in H. revert H. leb; try lia; try congruence; intros HH; assert (a < nxt m) by (apply B4; now right); lia.
  - split; [lia|]. unfold upd. rewrite M1. unfold m0, upd; cbn. leb; try lia; reflexivity.
  - intros a D1 D2. unfold upd. rewrite M1. unfold m0, upd; cbn. leb; try lia; reflexivity.
  - right. split; [lia|]. unfold upd. now rewrite Z.eqb_refl.
  - f_equal. lia.
  - f_equal. lia.
  - intros k Hk. rewrite F2. leb; try lia. f_equal. lia.
  - intros k a. rewrite F2, F1. unfold m0; cbn. leb; cbn [andb]; try lia; try congruence; try (intros E; split; [lia|]; right; rewrite <- E; f_equal; lia);
    (intros [= <-]; split; [lia|]; left; split; [lia|]; unfold used; cbn; rewrite U1; unfold m0; cbn; leb; try lia; congruence).
  - intros k j a. rewrite !F2, !F1. unfold m0; cbn. leb; try lia; try congruence; intros E F La; try (apply NX in E; lia); try (apply NX in F; lia); injection E; injection F; lia.
  - intros a La Ua. unfold used in Ua; cbn in Ua. rewrite U1 in Ua. unfold m0 in Ua; cbn in Ua.
    destruct ((nxt m + 1 <=? a) && (a <? nxt m + 1 + need)) eqn:C.
    + apply andb_true_iff in C. destruct C as [C1 C2]. apply Z.leb_le in C1. apply Z.ltb_lt in C2.
      exists (b + (a - (nxt m + 1))). cbn. rewrite F2, F1. unfold m0; cbn. leb; try lia. f_equal. lia.
    + exfalso. assert (a < nxt m) by (apply B4; left; exact Ua). lia.
  - intros k Hk. rewrite F2, F1. leb; try lia; try congruence; apply NS; lia.
  - intros k. rewrite F2, F1. leb; try lia; congruence.
Qed.
Lemma realloc_back_ok m d xs need : rep m d xs -> 1 <= need -> msz d - fst (fin d) - 1 < need ->
  exists m' d' t, reallocate_map_at_back m d need = Some (m', d') /\ grown m d m' d' t /\
    (forall k, fst (beg d') <= k <= fst (fin d') + need -> mp d' k <> None) /\
    (forall k, mp d' k <> None -> fst (beg d') <= k <= fst (fin d') + need).
Proof.
  intros R Hn Hb. destruct (node_bounds _ _ _ R) as (N1 & N2 & N3). pose proof (fun k => node_some _ _ _ k R) as NS.
  pose proof (r_base _ _ _ _ _ R) as [B1 B2 B3 B4].
  unfold reallocate_map_at_back. cbn [alloc_map]. cbv zeta.
  set (sz := Z.max (msz d * 2) (msz d + need + 8)). set (old := fst (fin d) - fst (beg d) + 1).
  set (b := (sz - (old + need)) / 2). assert (Hb0 : 0 <= b /\ b + need + old <= sz).
  { unfold b. assert (0 <= sz - (old + need)) by lia. pose proof (Z.div_mod (sz - (old + need)) 2 ltac:(lia)).
    pose proof (Z.mod_pos_bound (sz - (old + need)) 2 ltac:(lia)). lia. }
  unfold alloc_map. set (m0 := {| bufs := bufs m; mblk := upd (mblk m) (nxt m) true; nxt := nxt m + 1 |}).
  destruct (copy_ptr_ok (Z.to_nat (b + old - b)) (mp d) (msz d) (fst (beg d)) (fun _ => None) sz b) as (f2 & E2 & F2); try lia.
  rewrite E2. cbn [obind].
  destruct (create_ok (Z.to_nat (b + old + need - (b + old))) m0 f2 sz (b + old)) as (m1 & f1 & E1 & X1 & M1 & F1 & U1); try lia.
  rewrite E1. cbn [obind fst snd].
  replace (Z.of_nat (Z.to_nat (b + old + need - (b + old)))) with need in * by lia. replace (Z.of_nat (Z.to_nat (b + old - b))) with old in * by lia.
  cbn [m0 nxt mblk bufs] in X1, M1, F1, U1.
  assert (Md : mid d < nxt m) by (apply B4; right; apply B1).
  rewrite free_map_ok; [|apply B1|rewrite M1; unfold upd; destruct (Z.eqb_spec (mid d) (nxt m)); [lia|apply B1]]. cbn [obind].
  assert (EX : nxt m1 = nxt m + 1 + need) by (rewrite X1; unfold m0; cbn; lia).
  assert (NX : forall k a, mp d k = Some a -> a < nxt m) by (intros k a E; apply B4; left; apply (B2 k a E)).
  eexists _, _, (b - fst (beg d)). split; [reflexivity|]. split; [split; cbn|split; cbn].
  - intros a La. rewrite U1. unfold m0; cbn. leb; try lia; reflexivity.
  - intros a La. rewrite U1. unfold m0; cbn. leb; try lia; auto; left; (destruct (bufs m a) eqn:Ea; [|reflexivity]); assert (a < nxt m) by (apply B4; left; unfold used; congruence); lia.
  - rewrite EX. split; [lia|]. unfold used; cbn. intros a [H|H].
    + rewrite U1 in H. unfold m0 in H; cbn in H. revert H. leb; try lia; intros HH; assert (a < nxt m) by (apply B4; now left); lia.
    + rewrite M1 in H. unfold m0, upd in H; cbn in H. revert H. leb; try lia; try congruence; intros HH; assert (a < nxt m) by (apply B4; now right); lia.
  - split; [lia|]. unfold upd. rewrite M1. unfold m0, upd; cbn. leb; try lia; reflexivity.
  - intros a D1 D2. unfold upd. rewrite M1. unfold m0, upd; cbn. leb; try lia; reflexivity.
  - right. split; [lia|]. unfold upd. now rewrite Z.eqb_refl.
  - f_equal. lia.
  - f_equal. lia.
  - intros k Hk. rewrite F1, F2. leb; try lia. f_equal. lia.
  - intros k a. rewrite F1, F2. unfold m0; cbn. leb; cbn [andb]; try lia; try congruence; try (intros E; split; [lia|]; right; rewrite <- E; f_equal; lia);
    (intros [= <-]; split; [lia|]; left; split; [lia|]; unfold used; cbn; rewrite U1; unfold m0; cbn; leb; try lia; congruence).
  - intros k j a. rewrite !F1, !F2. unfold m0; cbn. leb; try lia; try congruence; intros E F La; try (apply NX in E; lia); try (apply NX in F; lia); injection E; injection F; lia.
  - intros a La Ua. unfold used in Ua; cbn in Ua. rewrite U1 in Ua. unfold m0 in Ua; cbn in Ua.
    destruct ((nxt m + 1 <=? a) && (a <? nxt m + 1 + need)) eqn:C.
    + apply andb_true_iff in C. destruct C as [C1 C2]. apply Z.leb_le in C1. apply Z.ltb_lt in C2.
      exists (b + old + (a - (nxt m + 1))). cbn. rewrite F1, F2. unfold m0; cbn. leb; try lia. f_equal. lia.
    + exfalso. assert (a < nxt m) by (apply B4; left; exact Ua). lia.
  - intros k Hk. rewrite F1, F2. leb; try lia; try congruence; apply NS; lia.
  - intros k. rewrite F1, F2. leb; try lia; congruence.
Qed.
(** new buffers in the map there is *)
Lemma create_grown m d xs k n : rep m d xs -> 0 <= n -> 0 <= k -> k + n <= msz d -> k + n <= fst (beg d) \/ fst (fin d) < k ->
  exists m' f, create_buffer (Z.to_nat n) m (mp d) (msz d) k = Some (m', f) /\ grown m d m' (set_mp d f) 0 /\
    (forall j, k <= j < k + n -> f j <> None) /\ (forall j, ~ (k <= j < k + n) -> f j = mp d j).
Proof.
  intros R Hn Hk Hs Ho. pose proof (r_base _ _ _ _ _ R) as [B1 B2 B3 B4]. destruct (node_bounds _ _ _ R) as (N1 & N2 & N3).
  destruct (create_ok (Z.to_nat n) m (mp d) (msz d) k) as (m1 & f1 & E1 & X1 & M1 & F1 & U1); try lia.
  replace (Z.of_nat (Z.to_nat n)) with n in * by lia.
  assert (NX : forall k a, mp d k = Some a -> a < nxt m) by (intros j a E; apply B4; left; apply (B2 j a E)).
  exists m1, f1. split; [exact E1|]. split; [split; cbn|split].
  - intros a La. rewrite U1. leb; try lia; reflexivity.
  - intros a La. rewrite U1. leb; try lia; auto; left; (destruct (bufs m a) eqn:Ea; [|reflexivity]); assert (a < nxt m) by (apply B4; left; unfold used; congruence); lia.
  - rewrite X1. split; [lia|]. unfold used; cbn. intros a [H|H].
    + rewrite U1 in H. revert H. leb; try lia; intros HH; assert (a < nxt m) by (apply B4; now left); lia.
    + rewrite M1 in H. assert (a < nxt m) by (apply B4; now right). lia.
  - now rewrite M1.
  - intros. now rewrite M1.
  - now left.
  - destruct (beg d); cbn. f_equal. lia.
  - destruct (fin d); cbn. f_equal. lia.
  - intros j Hj. rewrite F1. leb; try lia; f_equal; lia.
  - intros j a. rewrite F1. leb; try lia; cbn [andb];
      try (intros E; split; [apply (B2 _ _ E)|]; right; rewrite <- E; f_equal; lia);
      (intros [= <-]; split; [lia|]; left; split; [lia|]; unfold used; rewrite U1; leb; try lia; congruence).
  - intros j i a. rewrite !F1. leb; try lia; try congruence; intros E F La; try (apply NX in E; lia); try (apply NX in F; lia); injection E; injection F; lia.
  - intros a La Ua. unfold used in Ua. rewrite U1 in Ua.
    destruct ((nxt m <=? a) && (a <? nxt m + n)) eqn:C.
    + apply andb_true_iff in C. destruct C as [C1 C2]. apply Z.leb_le in C1. apply Z.ltb_lt in C2.
      exists (k + (a - nxt m)). cbn. rewrite F1. leb; try lia. f_equal. lia.
    + exfalso. assert (a < nxt m) by (apply B4; left; exact Ua). lia.
  - intros j Hj. rewrite F1. leb; try lia; congruence.
  - intros j Hj. rewrite F1. leb; try lia; reflexivity.
Qed.
(** number of new buffers *)
Definition need_front d n : Z := if snd (beg d) <? n then (n - snd (beg d)) / bs + 1 else 0.
Definition need_back d n : Z := if bs - snd (fin d) - 1 <? n then (n - (bs - snd (fin d) - 1)) / bs + 1 else 0.
Lemma grown_refl m d : base m d -> grown m d m d 0.
Proof.
  intros [B1 B2 B3 B4]. split; auto; try lia.
  - intros a La. left. destruct (bufs m a) eqn:Ea; [|reflexivity]. assert (a < nxt m) by (apply B4; left; unfold used; congruence). lia.
  - split; [lia|apply B4].
  - destruct (beg d); cbn. f_equal. lia.
  - destruct (fin d); cbn. f_equal. lia.
  - intros. f_equal. lia.
  - intros k a E. split; [apply (B2 _ _ E)|]. right. rewrite <- E. f_equal. lia.
  - intros k j a E1 E2 _. eapply B3; eauto.
  - intros a La U. assert (a < nxt m) by (apply B4; now left). lia.
Qed.
Lemma rc_front m d xs n : rep m d xs -> 0 <= n ->
  exists m' d' t, require_capacity bs m d n true = Some (m', d') /\ grown m d m' d' t /\ rep m' d' xs /\
    (forall k, lin (beg d') - n <= k <= lin (fin d') -> has d' k) /\
    (tight d -> forall k, mp d' k <> None -> fst (beg d') - need_front d n <= k <= fst (fin d')).
Proof.
  intros R Hn. destruct (node_bounds _ _ _ R) as (N1 & N2 & N3). pose proof (r_beg _ _ _ _ _ R) as O1. pose proof (r_base _ _ _ _ _ R) as B.
  unfold require_capacity, need_front. cbn [andb negb]. destruct (Z.ltb_spec (snd (beg d)) n) as [L|L].
  - set (need := (n - snd (beg d)) / bs + 1).
    assert (Hneed : 1 <= need /\ n <= need * bs + snd (beg d)).
    { unfold need. pose proof (Z.div_mod (n - snd (beg d)) bs ltac:(lia)). pose proof (Z.mod_pos_bound (n - snd (beg d)) bs Hbs).
      assert (0 <= (n - snd (beg d)) / bs) by (apply Z.div_pos; lia). lia. }
    assert (room : forall m' d' t, grown m d m' d' t -> (forall k, fst (beg d') - need <= k <= fst (fin d') -> mp d' k <> None) ->
                forall k, lin (beg d') - n <= k <= lin (fin d') -> has d' k).
    { intros m' d' t G H k Hk. unfold DeqSpec.has. pose proof (grown_rep _ _ _ _ _ _ R G) as R'. apply H.
      assert (X1 := Z.div_le_mono ((fst (beg d') - need) * bs) k bs Hbs). assert (X2 := Z.div_le_mono k (lin (fin d')) bs Hbs ltac:(lia)).
      rewrite Z.div_mul in X1 by lia. unfold DeqSpec.lin in Hk. rewrite (lin_div (fin d')) in X2 by apply R'.
      assert (snd (beg d') = snd (beg d)) by (rewrite (g_beg _ _ _ _ _ G); reflexivity). split; [apply X1|exact X2]. nia. }
    destruct (Z.ltb_spec (fst (beg d)) need) as [Q|Q].
    + destruct (realloc_front_ok m d xs need R ltac:(lia) Q) as (m' & d' & t & E & G & H1 & H2).
      exists m', d', t. split; [exact E|]. split; [exact G|]. split; [eapply grown_rep; eauto|]. split; [eapply room; eauto|]. intros _. exact H2.
    + destruct (create_grown m d xs (fst (beg d) - need) need R) as (m' & f & E & G & H1 & H2); try lia.
      rewrite E. cbn [obind fst snd]. exists m', (set_mp d f), 0. split; [reflexivity|]. split; [exact G|]. split; [eapply grown_rep; eauto|].
      split.
      * eapply room; eauto. cbn. intros k Hk. destruct (Z.lt_ge_cases k (fst (beg d))); [apply H1; lia|]. rewrite H2 by lia. apply (node_some _ _ _ _ R). lia.
      * intros Tt k. cbn. intros F. destruct (Z_le_dec (fst (beg d) - need) k); destruct (Z_lt_dec k (fst (beg d))); try lia.
        -- rewrite H2 in F by lia. apply Tt in F. lia.
        -- rewrite H2 in F by lia. apply Tt in F. lia.
  - exists m, d, 0. split; [reflexivity|]. split; [now apply grown_refl|]. split; [exact R|]. split.
    + intros k Hk. unfold DeqSpec.has. apply (node_some _ _ _ _ R).
      assert (X1 := Z.div_le_mono (fst (beg d) * bs) k bs Hbs). assert (X2 := Z.div_le_mono k (lin (fin d)) bs Hbs ltac:(lia)).
      rewrite Z.div_mul in X1 by lia. unfold DeqSpec.lin in Hk. rewrite (lin_div (fin d)) in X2 by apply R. lia.
    + intros Tt k F. apply Tt in F. lia.
Qed.
Lemma rc_back m d xs n : rep m d xs -> 0 <= n ->
  exists m' d' t, require_capacity bs m d n false = Some (m', d') /\ grown m d m' d' t /\ rep m' d' xs /\
    (forall k, lin (beg d') <= k <= lin (fin d') + n -> has d' k) /\
    (tight d -> forall k, mp d' k <> None -> fst (beg d') <= k <= fst (fin d') + need_back d n).
Proof.
  intros R Hn. destruct (node_bounds _ _ _ R) as (N1 & N2 & N3). pose proof (r_fin _ _ _ _ _ R) as O1. pose proof (r_base _ _ _ _ _ R) as B.
  unfold require_capacity, need_back. cbn [andb negb]. destruct (Z.ltb_spec (bs - snd (fin d) - 1) n) as [L|L].
  - set (need := (n - (bs - snd (fin d) - 1)) / bs + 1).
    assert (Hneed : 1 <= need /\ n + snd (fin d) < (need + 1) * bs).
    { unfold need. pose proof (Z.div_mod (n - (bs - snd (fin d) - 1)) bs ltac:(lia)). pose proof (Z.mod_pos_bound (n - (bs - snd (fin d) - 1)) bs Hbs).
      assert (0 <= (n - (bs - snd (fin d) - 1)) / bs) by (apply Z.div_pos; lia). lia. }
    assert (room : forall m' d' t, grown m d m' d' t -> (forall k, fst (beg d') <= k <= fst (fin d') + need -> mp d' k <> None) ->
                forall k, lin (beg d') <= k <= lin (fin d') + n -> has d' k).
    { intros m' d' t G H k Hk. unfold DeqSpec.has. pose proof (grown_rep _ _ _ _ _ _ R G) as R'. apply H.
      assert (snd (fin d') = snd (fin d)) by (rewrite (g_fin _ _ _ _ _ G); reflexivity).
      assert (X1 := Z.div_le_mono (lin (beg d')) k bs Hbs ltac:(lia)).
      unfold DeqSpec.lin in Hk. rewrite (lin_div (beg d')) in X1 by apply R'.
      split; [exact X1|]. enough (k / bs < fst (fin d') + need + 1) by lia. apply Z.div_lt_upper_bound; [lia|]. nia. }
    destruct (Z.ltb_spec (msz d - fst (fin d) - 1) need) as [Q|Q].
    + destruct (realloc_back_ok m d xs need R ltac:(lia) Q) as (m' & d' & t & E & G & H1 & H2).
      exists m', d', t. split; [exact E|]. split; [exact G|]. split; [eapply grown_rep; eauto|]. split; [eapply room; eauto|]. intros _. exact H2.
    + destruct (create_grown m d xs (fst (fin d) + 1) need R) as (m' & f & E & G & H1 & H2); try lia.
      rewrite E. cbn [obind fst snd]. exists m', (set_mp d f), 0. split; [reflexivity|]. split; [exact G|]. split; [eapply grown_rep; eauto|].
      split.
      * eapply room; eauto. cbn. intros k Hk. destruct (Z.lt_ge_cases (fst (fin d)) k); [apply H1; lia|]. rewrite H2 by lia. apply (node_some _ _ _ _ R). lia.
      * intros Tt k. cbn. intros F. destruct (Z_le_dec k (fst (fin d) + need)); destruct (Z_lt_dec (fst (fin d)) k); try lia.
        -- rewrite H2 in F by lia. apply Tt in F. lia.
        -- rewrite H2 in F by lia. apply Tt in F. lia.
  - exists m, d, 0. split; [reflexivity|]. split; [now apply grown_refl|]. split; [exact R|]. split.
    + intros k Hk. unfold DeqSpec.has. apply (node_some _ _ _ _ R).
      assert (X1 := Z.div_le_mono (lin (beg d)) k bs Hbs ltac:(lia)). unfold DeqSpec.lin in Hk.
      rewrite (lin_div (beg d)) in X1 by apply R. split; [exact X1|].
      enough (k / bs < fst (fin d) + 1) by lia. apply Z.div_lt_upper_bound; [lia|]. nia.
    + intros Tt k F. apply Tt in F. lia.
Qed.
End Ops.
