(** The steps of the operations of the deque. *)
From Coq Require Import ZArith List Bool Lia.
From Verif Require Import F64 DeqModel DeqSpec.
Import ListNotations.
Open Scope Z_scope.
Open Scope opt_scope.

Ltac leb := repeat match goal with
  | |- context [?a <=? ?b] => destruct (Z.leb_spec a b)
  | |- context [?a <? ?b] => destruct (Z.ltb_spec a b)
  | |- context [?a =? ?b] => destruct (Z.eqb_spec a b)
  end; cbn [andb orb negb].

Section Proof.
Context {T : Type} (bs : Z) (triv : bool).
Notation mem := (@memory T).
Implicit Types (m : mem) (d : deque) (xs : list T).
Hypothesis Hbs : 0 < bs.
Notation lin := (lin bs).
Notation slot := (slot bs).
Notation has := (has bs).
Notation rep := (rep bs triv).

(** ** iterators as numbers *)
Definition pt (k : Z) : Z * Z := (k / bs, k mod bs).
Lemma lin_pt k : lin (pt k) = k.
Proof. unfold DeqSpec.lin, pt; cbn [fst snd]. pose proof (Z.div_mod k bs ltac:(lia)). lia. Qed.
Lemma pt_lin i : 0 <= snd i < bs -> i = pt (lin i).
Proof.
  destruct i as [n c]; unfold DeqSpec.lin, pt; cbn [fst snd]; intros H.
  rewrite (Z.add_comm (n * bs)), Z.div_add, Z.mod_add, Z.div_small, Z.mod_small by lia. reflexivity.
Qed.
Lemma pt_off k : 0 <= snd (pt k) < bs.
Proof. cbn. apply Z.mod_pos_bound; lia. Qed.
Lemma within_off k : within (k mod bs) bs = true.
Proof. unfold within. pose proof (Z.mod_pos_bound k bs Hbs). leb; lia || reflexivity. Qed.
Lemma pt_eq n c : 0 <= c < bs -> (n, c) = pt (n * bs + c).
Proof. intros H. rewrite (pt_lin (n, c)) at 1 by (cbn; lia). reflexivity. Qed.

Definition nd d (k : Z) : Prop := 0 <= k / bs < msz d.
Lemma nd_mid d a b k : nd d a -> nd d b -> a <= k <= b -> nd d k.
Proof. unfold nd; intros H1 H2 H. pose proof (Z.div_le_mono a k bs Hbs ltac:(lia)). pose proof (Z.div_le_mono k b bs Hbs ltac:(lia)). lia. Qed.
Lemma set_node_ok d n : 0 <= n < msz d -> set_node d n = Some n.
Proof. intros H. unfold set_node, within. leb; try lia. reflexivity. Qed.

Lemma div_unique k q r : 0 <= r < bs -> k = q * bs + r -> k / bs = q.
Proof. intros H ->. rewrite Z.add_comm, Z.div_add, Z.div_small by lia. lia. Qed.
Lemma pt_of k q r : 0 <= r < bs -> k = q * bs + r -> pt k = (q, r).
Proof. intros H ->. symmetry. apply pt_eq, H. Qed.
Lemma split_k k : exists q r, 0 <= r < bs /\ k = q * bs + r.
Proof. exists (k / bs), (k mod bs). split. apply Z.mod_pos_bound, Hbs. pose proof (Z.div_mod k bs ltac:(lia)). lia. Qed.

Lemma inc_ok d k : nd d (k + 1) -> inc bs d (pt k) = Some (pt (k + 1)).
Proof.
  intros H. destruct (split_k k) as (q & r & Hr & ->). unfold inc. rewrite (pt_of _ q r Hr eq_refl). cbn [fst snd].
  destruct (Z.eqb_spec (r + 1) bs) as [E|E].
  - assert (P : pt (q * bs + r + 1) = (q + 1, 0)) by (apply pt_of; lia).
    rewrite set_node_ok. cbn [obind]. now rewrite P. unfold nd in H. change ((q * bs + r + 1) / bs) with (fst (pt (q * bs + r + 1))) in H. rewrite P in H. exact H.
  - rewrite (pt_of (q * bs + r + 1) q (r + 1)) by lia. reflexivity.
Qed.
Lemma dec_ok d k : nd d (k - 1) -> dec bs d (pt k) = Some (pt (k - 1)).
Proof.
  intros H. destruct (split_k k) as (q & r & Hr & ->). unfold dec. rewrite (pt_of _ q r Hr eq_refl). cbn [fst snd].
  destruct (Z.eqb_spec r 0) as [E|E].
  - assert (P : pt (q * bs + r - 1) = (q - 1, bs - 1)) by (apply pt_of; lia).
    rewrite set_node_ok. cbn [obind]. now rewrite P. unfold nd in H. change ((q * bs + r - 1) / bs) with (fst (pt (q * bs + r - 1))) in H. rewrite P in H. exact H.
  - rewrite (pt_of (q * bs + r - 1) q (r - 1)) by lia. reflexivity.
Qed.
Lemma plus_ok d k j : nd d (k + j) -> plus bs d (pt k) j = Some (pt (k + j)).
Proof.
  intros H. destruct (split_k k) as (q & r & Hr & ->). unfold plus. rewrite (pt_of _ q r Hr eq_refl). cbn [fst snd]. cbv zeta.
  destruct ((0 <=? j + r) && (j + r <? bs)) eqn:C.
  - apply andb_true_iff in C. destruct C as [C1 C2]. apply Z.leb_le in C1. apply Z.ltb_lt in C2.
    rewrite (pt_of (q * bs + r + j) q (r + j)) by lia. reflexivity.
  - set (no := if 0 <? j + r then (j + r) / bs else - ((- (j + r) - 1) / bs) - 1).
    assert (N : 0 <= j + r - no * bs < bs).
    { subst no. destruct (Z.ltb_spec 0 (j + r)).
      - pose proof (Z.div_mod (j + r) bs ltac:(lia)). pose proof (Z.mod_pos_bound (j + r) bs Hbs). lia.
      - assert (j + r < 0) by (destruct (Z.eq_dec (j + r) 0) as [E0|]; [rewrite E0 in C; cbn [Z.leb Z.compare andb] in C; apply Z.ltb_ge in C; lia | lia]).
        pose proof (Z.div_mod (- (j + r) - 1) bs ltac:(lia)). pose proof (Z.mod_pos_bound (- (j + r) - 1) bs Hbs). lia. }
    assert (P : pt (q * bs + r + j) = (q + no, j + r - no * bs)) by (apply pt_of; lia).
    rewrite set_node_ok. cbn [obind]. now rewrite P. unfold nd in H. change ((q * bs + r + j) / bs) with (fst (pt (q * bs + r + j))) in H. rewrite P in H. exact H.
Qed.
Lemma minus_ok d k j : nd d (k - j) -> minus bs d (pt k) j = Some (pt (k - j)).
Proof. intros H. unfold minus. rewrite plus_ok; exact H || reflexivity. Qed.
Lemma diff_ok i j : diff bs (pt i) (pt j) = i - j.
Proof. unfold diff, pt; cbn [fst snd]. pose proof (Z.div_mod i bs ltac:(lia)). pose proof (Z.div_mod j bs ltac:(lia)). lia. Qed.
Lemma ieq_ok i j : ieq (pt i) (pt j) = (i =? j).
Proof.
  unfold ieq, pt; cbn [fst snd]. destruct (Z.eqb_spec i j) as [->|N]. now rewrite !Z.eqb_refl.
  destruct (Z.eqb_spec (i / bs) (j / bs)); [|reflexivity]. destruct (Z.eqb_spec (i mod bs) (j mod bs)); [|reflexivity].
  exfalso. apply N. rewrite (Z.div_mod i bs), (Z.div_mod j bs) by lia. congruence.
Qed.
Lemma ilt_ok i j : ilt (pt i) (pt j) = (i <? j).
Proof.
  destruct (split_k i) as (q & r & Hr & ->), (split_k j) as (q' & r' & Hr' & ->). rewrite (pt_of _ q r Hr eq_refl), (pt_of _ q' r' Hr' eq_refl).
  unfold ilt; cbn [fst snd]. destruct (Z.eqb_spec q q'); leb; try reflexivity; nia.
Qed.
Lemma span_ok i j : span bs (pt i) (pt j) = Z.to_nat (j - i).
Proof. unfold span. now rewrite diff_ok. Qed.

(** ** one object *)
Record shape m d m' : Prop := mkShape {
  sh_used : forall a, used m' a <-> used m a;
  sh_buf : forall a, ~ holds d a -> bufs m' a = bufs m a;
  sh_blk : mblk m' = mblk m;
  sh_nxt : nxt m' = nxt m
}.
Lemma shape_refl m d : shape m d m.
Proof. split; intros; tauto || reflexivity. Qed.
Lemma shape_trans m d m1 m2 : shape m d m1 -> shape m1 d m2 -> shape m d m2.
Proof.
  intros [A1 A2 A3 A4] [B1 B2 B3 B4]. split; intros.
  - rewrite B1. apply A1.
  - rewrite B2, A2; auto.
  - congruence.
  - congruence.
Qed.
Lemma shape_map m d d' m' : mp d' = mp d -> shape m d m' -> shape m d' m'.
Proof. intros E [A1 A2 A3 A4]. split; auto. intros a H. apply A2. unfold holds in *. now rewrite <- E. Qed.
Lemma base_shape m d m' : base m d -> shape m d m' -> base m' d.
Proof.
  intros [B1 B2 B3 B4] [S1 S2 S3 S4]. split.
  - now rewrite S3.
  - intros k a H. destruct (B2 k a H). now rewrite S1.
  - exact B3.
  - destruct B4 as [B4 B5]. rewrite S4. split; [exact B4|]. intros a [H|H]; apply B5. left; now apply S1. right; now rewrite <- S3.
Qed.
Lemma base_same m d d' : mid d' = mid d -> mp d' = mp d -> msz d' = msz d -> base m d -> base m d'.
Proof. intros E1 E2 E3 [B1 B2 B3 B4]. split; rewrite ?E1, ?E2, ?E3; auto. Qed.

Lemma has_nd m d k : base m d -> has d k -> nd d k.
Proof. intros B H. unfold DeqSpec.has, nd in *. destruct (mp d (k / bs)) as [a|] eqn:E; [|congruence]. apply (b_in _ _ B _ _ E). Qed.
Lemma slot_has m d k v : slot m d k = Some v -> has d k.
Proof. unfold DeqSpec.slot, DeqSpec.has. destruct (mp d (k / bs)); congruence. Qed.
Lemma rd_ok m d k : rd bs m d (pt k) = slot m d k.
Proof.
  unfold rd, buf, DeqSpec.slot, pt; cbn [fst snd]. destruct (mp d (k / bs)) as [a|]; [|reflexivity]. cbn [obind].
  destruct (bufs m a); [|reflexivity]. cbn [obind]. rewrite within_off. reflexivity.
Qed.
Lemma put_ok m d k x : base m d -> has d k ->
  exists m', put bs m d (pt k) x = Some m' /\ shape m d m' /\ forall j, slot m' d j = if j =? k then x else slot m d j.
Proof.
  intros B H. unfold DeqSpec.has in H. destruct (mp d (k / bs)) as [a|] eqn:E; [|congruence]. clear H.
  destruct (b_in _ _ B _ _ E) as [_ U]. unfold used in U. destruct (bufs m a) as [f|] eqn:F; [|congruence].
  unfold put, buf, pt; cbn [fst snd]. rewrite E. cbn [obind]. rewrite F. cbn [obind]. rewrite within_off. cbn [obind fst snd].
  eexists; split; [reflexivity|]. split.
  - split; cbn; auto.
    + intros b. unfold used, upd; cbn. destruct (Z.eqb_spec b a) as [->|]; [|tauto]. rewrite F. split; congruence.
    + intros b Nb. unfold upd. destruct (Z.eqb_spec b a) as [->|]; [|reflexivity]. exfalso; apply Nb. now exists (k / bs).
  - intros j. unfold DeqSpec.slot at 1; cbn. unfold upd. destruct (mp d (j / bs)) as [b|] eqn:Ej.
    + destruct (Z.eqb_spec b a) as [->|Nb].
      * assert (Q := b_inj _ _ B _ _ _ E Ej). destruct (Z.eqb_spec (j mod bs) (k mod bs)) as [Em|Nm].
        -- assert (j = k) as -> by (rewrite (Z.div_mod j bs), (Z.div_mod k bs) by lia; congruence). now rewrite Z.eqb_refl.
        -- destruct (Z.eqb_spec j k); [congruence|]. unfold DeqSpec.slot. now rewrite Ej, F.
      * destruct (Z.eqb_spec j k) as [->|]; [congruence|]. unfold DeqSpec.slot. now rewrite Ej.
    + destruct (Z.eqb_spec j k) as [->|]; [congruence|]. unfold DeqSpec.slot. now rewrite Ej.
Qed.
Lemma wrt_ok new m d k v : base m d -> has d k -> (new = false -> slot m d k <> None) ->
  exists m', wrt bs new m d (pt k) v = Some m' /\ shape m d m' /\ forall j, slot m' d j = if j =? k then Some v else slot m d j.
Proof.
  intros B H N. unfold wrt, con, asg. destruct new.
  - now apply put_ok.
  - rewrite rd_ok. destruct (slot m d k); [|now destruct N]. cbn [obind]. now apply put_ok.
Qed.
Lemma des_ok m d k : base m d -> slot m d k <> None ->
  exists m', des bs triv m d (pt k) = Some m' /\ shape m d m' /\ forall j, slot m' d j = if (j =? k) && negb triv then None else slot m d j.
Proof.
  intros B N. unfold des. destruct triv.
  - exists m. split; [reflexivity|]. split; [apply shape_refl|]. intros j. rewrite andb_false_r. reflexivity.
  - rewrite rd_ok. destruct (slot m d k) eqn:E; [|congruence]. cbn [obind]. destruct (put_ok m d k None B (slot_has _ _ _ _ E)) as (m' & A1 & A2 & A3).
    exists m'. repeat (split; [assumption|]). intros j. rewrite andb_true_r. apply A3.
Qed.

(** ** ranges *)
Lemma copy_ok new n : forall m d f r, base m d ->
  (forall k, f <= k < f + Z.of_nat n -> slot m d k <> None) ->
  (forall k, r <= k < r + Z.of_nat n -> has d k /\ (new = false -> slot m d k <> None)) ->
  r <= f \/ f + Z.of_nat n <= r ->
  nd d f -> nd d (f + Z.of_nat n) -> nd d r -> nd d (r + Z.of_nat n) ->
  exists m', copy bs new n m d (pt f) (pt r) = Some (m', pt (r + Z.of_nat n)) /\ shape m d m' /\
    forall k, slot m' d k = if (r <=? k) && (k <? r + Z.of_nat n) then slot m d (k - r + f) else slot m d k.
Proof.
  induction n as [|n IH]; intros m d f r B Hf Hr Ho N1 N2 N3 N4.
  - exists m. cbn [copy Z.of_nat]. rewrite Z.add_0_r. split; [reflexivity|]. split; [apply shape_refl|]. intros k. leb; reflexivity || lia.
  - rewrite Nat2Z.inj_succ in *. cbn [copy]. rewrite rd_ok.
    destruct (slot m d f) as [v|] eqn:Ef; [|exfalso; apply (Hf f); [lia|exact Ef]]. cbn [obind].
    destruct (wrt_ok new m d r v B) as (m1 & E1 & S1 & V1). { apply Hr; lia. } { intros; apply Hr; auto; lia. } rewrite E1. cbn [obind].
    rewrite inc_ok by (apply (nd_mid d f (f + Z.succ (Z.of_nat n))); auto; lia). cbn [obind].
    rewrite inc_ok by (apply (nd_mid d r (r + Z.succ (Z.of_nat n))); auto; lia). cbn [obind].
    destruct (IH m1 d (f + 1) (r + 1)) as (m2 & E2 & S2 & V2).
    + eapply base_shape; eauto.
    + intros k Hk. rewrite V1. destruct (Z.eqb_spec k r); [congruence|]. apply Hf; lia.
    + intros k Hk. rewrite V1. destruct (Z.eqb_spec k r); [lia|]. apply Hr; lia.
    + lia.
    + apply (nd_mid d f (f + Z.succ (Z.of_nat n))); auto; lia.
    + replace (f + 1 + Z.of_nat n) with (f + Z.succ (Z.of_nat n)) by lia. exact N2.
    + apply (nd_mid d r (r + Z.succ (Z.of_nat n))); auto; lia.
    + replace (r + 1 + Z.of_nat n) with (r + Z.succ (Z.of_nat n)) by lia. exact N4.
    + exists m2. rewrite E2. split; [f_equal; f_equal; f_equal; lia|]. split; [eapply shape_trans; eauto|].
      intros k. rewrite V2, !V1. leb; try lia; try reflexivity; try (f_equal; lia).
      all: subst k; replace (r - r + f) with f by lia; congruence.
Qed.
Lemma copy_back_ok n : forall m d l r, base m d ->
  (forall k, l - Z.of_nat n <= k < l -> slot m d k <> None) ->
  (forall k, r - Z.of_nat n <= k < r -> slot m d k <> None) ->
  l <= r \/ r <= l - Z.of_nat n ->
  nd d l -> nd d (l - Z.of_nat n) -> nd d r -> nd d (r - Z.of_nat n) ->
  exists m', copy_back bs n m d (pt l) (pt r) = Some (m', pt (r - Z.of_nat n)) /\ shape m d m' /\
    forall k, slot m' d k = if (r - Z.of_nat n <=? k) && (k <? r) then slot m d (k - r + l) else slot m d k.
Proof.
  induction n as [|n IH]; intros m d l r B Hf Hr Ho N1 N2 N3 N4.
  - exists m. cbn [copy_back Z.of_nat]. rewrite Z.sub_0_r. split; [reflexivity|]. split; [apply shape_refl|]. intros k. leb; reflexivity || lia.
  - rewrite Nat2Z.inj_succ in *. cbn [copy_back].
    assert (M1 : nd d (l - 1)) by (apply (nd_mid d (l - Z.succ (Z.of_nat n)) l); auto; lia).
    assert (M2 : nd d (r - 1)) by (apply (nd_mid d (r - Z.succ (Z.of_nat n)) r); auto; lia).
    rewrite dec_ok by exact M1. cbn [obind]. rewrite dec_ok by exact M2. cbn [obind]. rewrite rd_ok.
    destruct (slot m d (l - 1)) as [v|] eqn:Ef; [|exfalso; apply (Hf (l - 1)); [lia|exact Ef]]. cbn [obind].
    assert (Q : slot m d (r - 1) <> None) by (apply Hr; lia). destruct (slot m d (r - 1)) as [w|] eqn:Eq; [|congruence].
    destruct (wrt_ok false m d (r - 1) v B (slot_has _ _ _ _ Eq)) as (m1 & E1 & S1 & V1). { congruence. }
    unfold wrt in E1. rewrite E1. cbn [obind].
    destruct (IH m1 d (l - 1) (r - 1)) as (m2 & E2 & S2 & V2).
    + eapply base_shape; eauto.
    + intros k Hk. rewrite V1. destruct (Z.eqb_spec k (r - 1)); [congruence|]. apply Hf; lia.
    + intros k Hk. rewrite V1. destruct (Z.eqb_spec k (r - 1)); [lia|]. apply Hr; lia.
    + lia.
    + exact M1.
    + replace (l - 1 - Z.of_nat n) with (l - Z.succ (Z.of_nat n)) by lia. exact N2.
    + exact M2.
    + replace (r - 1 - Z.of_nat n) with (r - Z.succ (Z.of_nat n)) by lia. exact N4.
    + exists m2. rewrite E2. split; [f_equal; f_equal; f_equal; lia|]. split; [eapply shape_trans; eauto|].
      intros k. rewrite V2, !V1. leb; try lia; try reflexivity; try (f_equal; lia).
      all: subst k; replace (r - 1 - r + l) with (l - 1) by lia; congruence.
Qed.
(** the value number k of a list *)
Definition nz (xs : list T) (k : Z) : option T := if k <? 0 then None else nth_error xs (Z.to_nat k).
Notation len xs := (Z.of_nat (length xs)).
Lemma nz_cons v xs k : nz (v :: xs) k = if k =? 0 then Some v else nz xs (k - 1).
Proof.
  unfold nz. destruct (Z.eqb_spec k 0) as [->|]. reflexivity. leb; try lia; try reflexivity.
  replace (Z.to_nat k) with (S (Z.to_nat (k - 1))) by lia. reflexivity.
Qed.
Lemma nz_none xs k : k < 0 \/ len xs <= k -> nz xs k = None.
Proof. intros H. unfold nz. leb; [reflexivity|]. apply nth_error_None. lia. Qed.
Lemma nz_some xs k : 0 <= k < len xs -> nz xs k <> None.
Proof. intros H. unfold nz. leb; [lia|]. apply nth_error_Some. lia. Qed.
Lemma nz_app xs ys k : nz (xs ++ ys) k = if k <? len xs then nz xs k else nz ys (k - len xs).
Proof.
  unfold nz. leb; try lia; try reflexivity. apply nth_error_app1; lia. rewrite nth_error_app2 by lia. f_equal; lia.
Qed.
Lemma nz_firstn n xs k : nz (firstn n xs) k = if k <? Z.of_nat n then nz xs k else None.
Proof.
  destruct (Z.ltb_spec k (Z.of_nat n)).
  - rewrite <- (firstn_skipn n xs) at 2. rewrite nz_app, firstn_length. destruct (Z.ltb_spec k (Z.of_nat (min n (length xs)))); [reflexivity|].
    rewrite nz_none by (rewrite firstn_length; lia). rewrite skipn_all2 by lia. symmetry. apply nz_none. cbn. lia.
  - apply nz_none. rewrite firstn_length. lia.
Qed.
Lemma nz_skipn n xs k : nz (skipn n xs) k = if k <? 0 then None else nz xs (k + Z.of_nat n).
Proof.
  destruct (Z.ltb_spec k 0); [apply nz_none; lia|]. destruct (Nat.le_gt_cases (length xs) n).
  - rewrite skipn_all2 by lia. rewrite !nz_none; cbn; lia || reflexivity.
  - rewrite <- (firstn_skipn n xs) at 2. rewrite nz_app, firstn_length. leb; [lia|]. f_equal. lia.
Qed.
Lemma nz_repeat v n k : nz (repeat v n) k = if (0 <=? k) && (k <? Z.of_nat n) then Some v else None.
Proof.
  unfold nz. leb; try lia; try reflexivity. apply nth_error_repeat; lia. apply nth_error_None. rewrite repeat_length. lia.
Qed.

Lemma copy_list_ok new xs : forall m d r, base m d ->
  (forall k, r <= k < r + len xs -> has d k /\ (new = false -> slot m d k <> None)) ->
  nd d r -> nd d (r + len xs) ->
  exists m', copy_list bs new xs m d (pt r) = Some (m', pt (r + len xs)) /\ shape m d m' /\
    forall k, slot m' d k = if (r <=? k) && (k <? r + len xs) then nz xs (k - r) else slot m d k.
Proof.
  induction xs as [|v xs IH]; intros m d r B Hr N3 N4.
  - exists m. cbn [copy_list length Z.of_nat]. rewrite Z.add_0_r. split; [reflexivity|]. split; [apply shape_refl|]. intros k. leb; reflexivity || lia.
  - cbn [length] in *. rewrite Nat2Z.inj_succ in *. cbn [copy_list].
    destruct (wrt_ok new m d r v B) as (m1 & E1 & S1 & V1). { apply Hr; lia. } { intros; apply Hr; auto; lia. } rewrite E1. cbn [obind].
    rewrite inc_ok by (apply (nd_mid d r (r + Z.succ (len xs))); auto; lia). cbn [obind].
    destruct (IH m1 d (r + 1)) as (m2 & E2 & S2 & V2).
    + eapply base_shape; eauto.
    + intros k Hk. rewrite V1. destruct (Z.eqb_spec k r); [lia|]. apply Hr; lia.
    + apply (nd_mid d r (r + Z.succ (len xs))); auto; lia.
    + replace (r + 1 + len xs) with (r + Z.succ (len xs)) by lia. exact N4.
    + exists m2. rewrite E2. split; [f_equal; f_equal; f_equal; lia|]. split; [eapply shape_trans; eauto|].
      intros k. rewrite V2, V1, nz_cons. leb; try lia; try reflexivity; try (f_equal; lia).
Qed.
Lemma fill_ok new n m d r v : 0 <= n -> base m d ->
  (forall k, r <= k < r + n -> has d k /\ (new = false -> slot m d k <> None)) ->
  nd d r -> nd d (r + n) ->
  exists m', fill bs new n m d (pt r) v = Some (m', pt (r + n)) /\ shape m d m' /\
    forall k, slot m' d k = if (r <=? k) && (k <? r + n) then Some v else slot m d k.
Proof.
  intros Hn B Hr N1 N2. assert (L : len (repeat v (Z.to_nat n)) = n) by (rewrite repeat_length; lia).
  destruct (copy_list_ok new (repeat v (Z.to_nat n)) m d r B) as (m1 & E1 & S1 & V1); rewrite ?L; auto.
  rewrite L in *. exists m1. split; [exact E1|]. split; [exact S1|]. intros k. rewrite V1, nz_repeat. leb; try lia; reflexivity.
Qed.
Lemma des_n_ok n : forall m d k c, base m d -> 0 <= c -> c + Z.of_nat n <= bs ->
  (forall j, k * bs + c <= j < k * bs + c + Z.of_nat n -> slot m d j <> None) ->
  exists m', des_n bs triv n m d k c = Some m' /\ shape m d m' /\
    forall j, slot m' d j = if (k * bs + c <=? j) && (j <? k * bs + c + Z.of_nat n) && negb triv then None else slot m d j.
Proof.
  induction n as [|n IH]; intros m d k c B C1 C2 H.
  - exists m. cbn [des_n Z.of_nat]. split; [reflexivity|]. split; [apply shape_refl|]. intros j. leb; reflexivity || lia.
  - rewrite Nat2Z.inj_succ in *. cbn [des_n]. rewrite pt_eq by lia.
    destruct (des_ok m d (k * bs + c) B) as (m1 & E1 & S1 & V1). { apply H; lia. } rewrite E1. cbn [obind].
    destruct (IH m1 d k (c + 1)) as (m2 & E2 & S2 & V2).
    + eapply base_shape; eauto.
    + lia.
    + lia.
    + intros j Hj. rewrite V1. destruct (Z.eqb_spec j (k * bs + c)); [lia|]. cbn [andb]. apply H; lia.
    + exists m2. rewrite E2. split; [reflexivity|]. split; [eapply shape_trans; eauto|].
      intros j. rewrite V2, V1. leb; try lia; try reflexivity; destruct triv; reflexivity.
Qed.
Lemma init_n_ok xs : forall m d k c, base m d -> 0 <= c -> c + len xs <= bs -> mp d k <> None ->
  exists m', init_n bs xs m d k c = Some m' /\ shape m d m' /\
    forall j, slot m' d j = if (k * bs + c <=? j) && (j <? k * bs + c + len xs) then nz xs (j - (k * bs + c)) else slot m d j.
Proof.
  induction xs as [|v xs IH]; intros m d k c B C1 C2 H.
  - exists m. cbn [init_n length Z.of_nat]. split; [reflexivity|]. split; [apply shape_refl|]. intros j. leb; reflexivity || lia.
  - cbn [length] in *. rewrite Nat2Z.inj_succ in *. cbn [init_n]. rewrite pt_eq by lia.
    destruct (wrt_ok true m d (k * bs + c) v B) as (m1 & E1 & S1 & V1). { unfold DeqSpec.has. now rewrite (div_unique _ k c) by lia. } { congruence. }
    unfold wrt in E1. rewrite E1. cbn [obind].
    destruct (IH m1 d k (c + 1)) as (m2 & E2 & S2 & V2); auto; try lia.
    + eapply base_shape; eauto.
    + exists m2. rewrite E2. split; [reflexivity|]. split; [eapply shape_trans; eauto|].
      intros j. rewrite V2, V1, nz_cons. leb; try lia; try reflexivity; try (f_equal; lia).
Qed.

(** ** blocks *)
Lemma create_ok n : forall m f sz k, 0 <= k -> k + Z.of_nat n <= sz ->
  exists m' f', create_buffer n m f sz k = Some (m', f') /\ nxt m' = nxt m + Z.of_nat n /\ mblk m' = mblk m /\
    (forall j, f' j = if (k <=? j) && (j <? k + Z.of_nat n) then Some (nxt m + (j - k)) else f j) /\
    (forall a, bufs m' a = if (nxt m <=? a) && (a <? nxt m + Z.of_nat n) then Some (fun _ => None) else bufs m a).
Proof.
  induction n as [|n IH]; intros m f sz k H1 H2.
  - exists m, f. cbn [create_buffer Z.of_nat]. split; [reflexivity|]. split; [lia|]. split; [reflexivity|].
    split; intros; leb; reflexivity || lia.
  - rewrite Nat2Z.inj_succ in *. cbn [create_buffer]. unfold within. destruct (Z.leb_spec 0 k), (Z.ltb_spec k sz); try lia. cbn [andb alloc].
    destruct (IH (snd (alloc m)) (upd f k (Some (nxt m))) sz (k + 1)) as (m1 & f1 & E1 & N1 & B1 & F1 & U1); try lia.
    unfold alloc in E1, N1, B1, U1; cbn [snd] in E1, N1, B1, U1; cbn [bufs nxt mblk] in N1, B1, U1.
    exists m1, f1. split; [exact E1|]. split; [lia|]. split; [exact B1|]. split.
    + intros j. rewrite F1. unfold upd. cbn [nxt]. leb; try lia; try reflexivity; f_equal; cbn; lia.
    + intros a. rewrite U1. unfold upd. leb; try lia; reflexivity.
Qed.
Lemma copy_ptr_ok n : forall f sz j g sz' k, 0 <= j -> j + Z.of_nat n <= sz -> 0 <= k -> k + Z.of_nat n <= sz' ->
  exists g', copy_ptr n f sz j g sz' k = Some g' /\ forall i, g' i = if (k <=? i) && (i <? k + Z.of_nat n) then f (i - k + j) else g i.
Proof.
  induction n as [|n IH]; intros f sz j g sz' k H1 H2 H3 H4.
  - exists g. split; [reflexivity|]. intros i. cbn [Z.of_nat]. leb; reflexivity || lia.
  - rewrite Nat2Z.inj_succ in *. cbn [copy_ptr]. unfold within. destruct (Z.leb_spec 0 k), (Z.ltb_spec k sz'), (Z.leb_spec 0 j), (Z.ltb_spec j sz); try lia. cbn [andb].
    destruct (IH f sz (j + 1) (upd g k (f j)) sz' (k + 1)) as (g1 & E1 & F1); try lia.
    exists g1. split; [exact E1|]. intros i. rewrite F1. unfold upd. leb; try lia; try reflexivity; f_equal; lia.
Qed.
Lemma destroy_ok n : forall m d k, 0 <= k -> k + Z.of_nat n <= msz d ->
  (forall j a, mp d j = Some a -> used m a) -> (forall i j a, mp d i = Some a -> mp d j = Some a -> i = j) ->
  exists m' f, destroy_buffer n m d k = Some (m', set_mp d f) /\ nxt m' = nxt m /\ mblk m' = mblk m /\
    (forall j, f j = if (k <=? j) && (j <? k + Z.of_nat n) then None else mp d j) /\
    (forall j a, k <= j < k + Z.of_nat n -> mp d j = Some a -> bufs m' a = None) /\
    (forall a, (forall j, k <= j < k + Z.of_nat n -> mp d j <> Some a) -> bufs m' a = bufs m a).
Proof.
  induction n as [|n IH]; intros m d k H1 H2 U I.
  - exists m, (mp d). cbn [destroy_buffer Z.of_nat]. split; [destruct d; reflexivity|]. do 2 (split; [reflexivity|]).
    split; [intros; leb; reflexivity || lia|]. split; [intros; lia|reflexivity].
  - rewrite Nat2Z.inj_succ in *. cbn [destroy_buffer]. unfold drop, within. destruct (Z.leb_spec 0 k), (Z.ltb_spec k (msz d)); try lia. cbn [andb].
    destruct (mp d k) as [a|] eqn:E.
    + assert (Ua := U _ _ E). unfold used in Ua. destruct (bufs m a) as [f|] eqn:F; [|congruence]. cbn [obind fst snd].
      destruct (IH (mkMem (upd (bufs m) a None) (mblk m) (nxt m)) (set_mp d (upd (mp d) k None)) (k + 1)) as (m1 & f1 & E1 & N1 & B1 & F1 & D1 & K1); try (cbn; lia).
      * cbn. unfold upd, used; cbn. intros j b. destruct (Z.eqb_spec j k); [congruence|]. intros Ej. destruct (Z.eqb_spec b a) as [->|]; [|apply (U j), Ej].
        now assert (j = k) by (eapply I; eauto).
      * cbn. unfold upd. intros i j b. destruct (Z.eqb_spec i k), (Z.eqb_spec j k); try congruence. apply I.
      * cbn in *. exists m1, f1. split; [exact E1|]. do 2 (split; [assumption|]). unfold upd in *. split.
        -- intros j. rewrite F1. leb; try lia; try reflexivity.
        -- split.
           ++ intros j b Hj Ej. destruct (Z.eq_dec j k) as [->|].
              ** assert (b = a) as -> by congruence. rewrite K1. now rewrite Z.eqb_refl. intros i Hi. destruct (Z.eqb_spec i k); [lia|].
                 intros Ei. pose proof (I _ _ _ Ei E). lia.
              ** apply (D1 j); [lia|]. destruct (Z.eqb_spec j k); [lia|]. exact Ej.
           ++ intros b Hb. rewrite K1. destruct (Z.eqb_spec b a) as [->|]; [|reflexivity]. exfalso; apply (Hb k); [lia|exact E].
              intros j Hj. destruct (Z.eqb_spec j k); [congruence|]. apply Hb; lia.
    + cbn [obind fst snd]. destruct (IH m d (k + 1)) as (m1 & f1 & E1 & N1 & B1 & F1 & D1 & K1); auto; try lia.
      exists m1, f1. split; [exact E1|]. do 2 (split; [assumption|]). split.
      * intros j. rewrite F1. leb; try lia; try reflexivity. now replace j with k by lia.
      * split.
        -- intros j b Hj Ej. apply (D1 j); [|exact Ej]. destruct (Z.eq_dec j k) as [->|]; [congruence|lia].
        -- intros b Hb. apply K1. intros j Hj. apply Hb; lia.
Qed.
End Proof.
