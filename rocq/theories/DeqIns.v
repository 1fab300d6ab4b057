(** The operations of the deque that insert. *)
From Coq Require Import ZArith List Bool Lia.
From Verif Require Import F64 DeqModel DeqSpec DeqProof DeqOps DeqEnds.
Import ListNotations.
Open Scope Z_scope.
Open Scope opt_scope.

Section Ins.
Context {T : Type} (bs : Z) (triv : bool).
Notation mem := (@memory T).
Implicit Types (m : mem) (d : deque) (xs : list T).
Hypothesis Hbs : 0 < bs.
Notation lin := (lin bs).
Notation slot := (slot bs).
Notation has := (has bs).
Notation rep := (rep bs triv).
Notation pt := (pt bs).
Notation nd := (nd bs).
Notation len xs := (Z.of_nat (length xs)).
Notation stands := (stands bs).

Lemma nz_put_at p ys xs k : 0 <= p <= len xs ->
  nz (put_at p ys xs) k = if k <? p then nz xs k else if k <? p + len ys then nz ys (k - p) else nz xs (k - len ys).
Proof.
  intros H. unfold put_at. rewrite !nz_app, nz_firstn, nz_skipn, firstn_length.
  replace (Z.of_nat (min (Z.to_nat p) (length xs))) with p by lia. replace (Z.of_nat (Z.to_nat p)) with p by lia. cases; try reflexivity; f_equal; lia.
Qed.
Lemma len_put_at p ys xs : 0 <= p <= len xs -> len (put_at p ys xs) = len xs + len ys.
Proof. intros H. unfold put_at. rewrite !app_length, firstn_length, skipn_length. lia. Qed.

Lemma front_some m d xs : rep m d xs -> 0 < len xs -> front bs m d = nz xs 0.
Proof. intros R H. destruct xs as [|v xs]; [cbn in H; lia|]. rewrite (front_ok bs triv Hbs _ _ _ _ R). reflexivity. Qed.
Lemma back_some m d xs : rep m d xs -> 0 < len xs -> back bs m d = nz xs (len xs - 1).
Proof.
  intros R H. destruct (exists_last (l := xs)) as (ys & v & ->). { intros ->. cbn in H. lia. }
  rewrite (back_ok bs triv Hbs _ _ _ _ R). rewrite nz_app, nz_cons, app_length in *. cbn [length]. cases. reflexivity.
Qed.

Lemma diff_beg m d xs k : rep m d xs -> diff bs (pt k) (beg d) = k - lin (beg d).
Proof. intros R. rewrite (beg_pt bs triv Hbs _ _ _ R) at 1. now apply diff_ok. Qed.
Lemma ieq_beg m d xs k : rep m d xs -> ieq (pt k) (beg d) = (k =? lin (beg d)).
Proof. intros R. rewrite (beg_pt bs triv Hbs _ _ _ R) at 1. now apply ieq_ok. Qed.
Lemma ieq_fin m d xs k : rep m d xs -> ieq (pt k) (fin d) = (k =? lin (fin d)).
Proof. intros R. rewrite (fin_pt bs triv Hbs _ _ _ R) at 1. now apply ieq_ok. Qed.

Ltac vals R := cases; try reflexivity; try (rewrite (rep_val bs triv _ _ _ _ R) by lia; first [reflexivity | f_equal; lia]).

Lemma insert_aux_ok m d xs p v : rep m d xs -> 0 < p < len xs ->
  exists m' d' i', insert_aux bs m d (pt (lin (beg d) + p)) v = Some (m', d', i') /\ rep m' d' (put_at p [v] xs) /\ stands d' p i' /\ others m d m' d'.
Proof.
  intros R Hp. unfold insert_aux. rewrite (diff_beg _ _ _ _ R). replace (lin (beg d) + p - lin (beg d)) with p by lia.
  rewrite (size_ok bs triv Hbs _ _ _ R). cbv zeta. destruct (Z.ltb_spec p (len xs / 2)) as [C|C].
  - rewrite (front_some _ _ _ R) by lia. pose proof (nz_some xs 0 ltac:(lia)) as NZ. destruct (nz xs 0) as [x|] eqn:Ex; [|congruence]. cbn [obind].
    destruct (push_front_ok bs triv Hbs m d xs x R) as (m1 & d1 & E1 & R1 & O1 & _). rewrite E1. cbn [obind fst snd].
    pose proof (r_len _ _ _ _ _ R1) as L1. cbn [length] in L1. pose proof (fun k => lin_nd bs triv _ _ _ k R1) as ND.
    rewrite (inc_at bs Hbs _ _ _ (beg_pt bs triv Hbs _ _ _ R1)) by (apply ND; lia). cbn [obind].
    rewrite (inc_ok bs Hbs) by (apply ND; lia). cbn [obind].
    rewrite (plus_at bs Hbs _ _ _ _ (beg_pt bs triv Hbs _ _ _ R1)) by (apply ND; lia). cbn [obind].
    rewrite (inc_ok bs Hbs) by (apply ND; lia). cbn [obind]. rewrite span_ok by exact Hbs.
    set (B := lin (beg d1)) in *. 
    destruct (copy_ok bs Hbs false (Z.to_nat (B + p + 1 - (B + 1 + 1))) m1 d1 (B + 1 + 1) (B + 1)) as (m2 & E2 & S2 & V2).
    + apply R1.
    + intros k Hk. apply (rep_some bs triv _ _ _ _ R1). lia.
    + intros k Hk. split; [apply (r_node _ _ _ _ _ R1); lia|]. intros _. apply (rep_some bs triv _ _ _ _ R1). lia.
    + lia.
    + apply ND; lia.
    + apply ND; lia.
    + apply ND; lia.
    + apply ND; lia.
    + rewrite E2. cbn [obind fst snd].
      replace (Z.of_nat (Z.to_nat (B + p + 1 - (B + 1 + 1)))) with (p - 1) in * by lia.
      destruct (wrt_ok bs Hbs false m2 d1 (B + p) v) as (m3 & E3 & S3 & V3).
      * eapply base_shape; [apply R1|exact S2].
      * apply (r_node _ _ _ _ _ R1). lia.
      * intros _. rewrite V2. cases. apply (rep_some bs triv _ _ _ _ R1). lia.
      * unfold wrt in E3. rewrite E3. cbn [obind]. exists m3, d1, (pt (B + p)). split; [reflexivity|].
        assert (S : shape m1 d1 m3) by (eapply shape_trans; eauto). split; [|split].
        -- apply (finish_same bs triv Hbs m1 d1 m3 (x :: xs)); auto.
           ++ apply Nat2Z.inj. rewrite len_put_at by lia. cbn [length]. lia.
           ++ fold B. intros k Hk. rewrite V3, V2, nz_put_at by lia. cbn [length]. rewrite nz_cons.
              cases; try reflexivity; try (rewrite (rep_val bs triv _ _ _ _ R1) by (fold B; lia); fold B; rewrite nz_cons; cases; try reflexivity; try (f_equal; lia)).
              symmetry. rewrite <- Ex. f_equal. lia.
           ++ fold B. intros TF k Hk. rewrite V3, !V2. cases; apply (r_raw _ _ _ _ _ R1 TF); lia.
        -- apply pt_stands, Hbs.
        -- eapply others_trans; [exact O1|]. apply others_shape; auto.
  - rewrite (back_some _ _ _ R) by lia. pose proof (nz_some xs (len xs - 1) ltac:(lia)) as NZ. destruct (nz xs (len xs - 1)) as [x|] eqn:Ex; [|congruence]. cbn [obind].
    destruct (push_back_ok bs triv Hbs m d xs x R) as (m1 & d1 & E1 & R1 & O1 & _). rewrite E1. cbn [obind fst snd].
    pose proof (r_len _ _ _ _ _ R1) as L1. rewrite app_length in L1. cbn [length] in L1. pose proof (fun k => lin_nd bs triv _ _ _ k R1) as ND.
    rewrite (dec_at bs Hbs _ _ _ (fin_pt bs triv Hbs _ _ _ R1)) by (apply ND; lia). cbn [obind].
    rewrite (dec_ok bs Hbs) by (apply ND; lia). cbn [obind].
    rewrite (plus_at bs Hbs _ _ _ _ (beg_pt bs triv Hbs _ _ _ R1)) by (apply ND; lia). cbn [obind]. rewrite span_ok by exact Hbs.
    set (B := lin (beg d1)) in *. set (E := lin (fin d1)) in *.
    destruct (copy_back_ok bs Hbs (Z.to_nat (E - 1 - 1 - (B + p))) m1 d1 (E - 1 - 1) (E - 1)) as (m2 & E2 & S2 & V2).
    + apply R1.
    + intros k Hk. apply (rep_some bs triv _ _ _ _ R1). lia.
    + intros k Hk. apply (rep_some bs triv _ _ _ _ R1). lia.
    + lia.
    + apply ND; lia.
    + apply ND; lia.
    + apply ND; lia.
    + apply ND; lia.
    + rewrite E2. cbn [obind fst snd].
      replace (Z.of_nat (Z.to_nat (E - 1 - 1 - (B + p)))) with (E - 2 - B - p) in * by lia.
      destruct (wrt_ok bs Hbs false m2 d1 (B + p) v) as (m3 & E3 & S3 & V3).
      * eapply base_shape; [apply R1|exact S2].
      * apply (r_node _ _ _ _ _ R1). lia.
      * intros _. rewrite V2. cases; apply (rep_some bs triv _ _ _ _ R1); lia.
      * unfold wrt in E3. rewrite E3. cbn [obind]. exists m3, d1, (pt (B + p)). split; [reflexivity|].
        assert (S : shape m1 d1 m3) by (eapply shape_trans; eauto). split; [|split].
        -- apply (finish_same bs triv Hbs m1 d1 m3 (xs ++ [x])); auto.
           ++ apply Nat2Z.inj. rewrite len_put_at by lia. rewrite app_length. cbn [length]. lia.
           ++ fold B E. intros k Hk. rewrite V3, V2, nz_put_at by lia. cbn [length]. rewrite nz_cons.
              cases; try reflexivity; try (rewrite (rep_val bs triv _ _ _ _ R1) by (fold B E; lia); fold B E; rewrite nz_app, nz_cons; cases; try reflexivity; try (f_equal; lia)).
              all: symmetry; rewrite <- Ex; f_equal; lia.
           ++ fold B E. intros TF k Hk. rewrite V3, !V2. cases; apply (r_raw _ _ _ _ _ R1 TF); lia.
        -- apply pt_stands, Hbs.
        -- eapply others_trans; [exact O1|]. apply others_shape; auto.
Qed.
Lemma insert_ok m d xs p i v : rep m d xs -> 0 <= p <= len xs -> stands d p i ->
  exists m' d' i', insert bs m d i v = Some (m', d', i') /\ rep m' d' (put_at p [v] xs) /\ stands d' p i' /\ others m d m' d'.
Proof.
  intros R Hp St. rewrite (stands_pt bs Hbs _ _ _ St). pose proof (r_len _ _ _ _ _ R) as L. unfold insert.
  rewrite (ieq_beg _ _ _ _ R), (ieq_fin _ _ _ _ R).
  destruct (Z.eqb_spec (lin (beg d) + p) (lin (beg d))) as [Q|Q].
  - assert (p = 0) as -> by lia. destruct (push_front_ok bs triv Hbs m d xs v R) as (m1 & d1 & E1 & R1 & O1 & _). rewrite E1. cbn [obind fst snd].
    exists m1, d1, (beg d1). split; [reflexivity|]. split; [exact R1|]. split; [split; [apply R1|lia]|exact O1].
  - destruct (Z.eqb_spec (lin (beg d) + p) (lin (fin d))) as [Q2|Q2].
    + assert (p = len xs) as -> by lia. destruct (push_back_ok bs triv Hbs m d xs v R) as (m1 & d1 & E1 & R1 & O1 & _). rewrite E1. cbn [obind fst snd].
      pose proof (r_len _ _ _ _ _ R1) as L1. rewrite app_length in L1. cbn [length] in L1.
      rewrite (dec_at bs Hbs _ _ _ (fin_pt bs triv Hbs _ _ _ R1)) by (apply (lin_nd bs triv _ _ _ _ R1); lia). cbn [obind].
      exists m1, d1, (pt (lin (fin d1) - 1)). split; [reflexivity|]. split; [|split; [apply pt_stands'; [exact Hbs|lia]|exact O1]].
      unfold put_at. rewrite firstn_all2, skipn_all2, app_nil_r by lia. exact R1.
    + apply insert_aux_ok; [exact R|lia].
Qed.

(** ** many at once *)
(** the range front of position p: room for n before begin_ *)
Lemma len_rep (v : T) n : 0 <= n -> len (repeat v (Z.to_nat n)) = n.
Proof. intros H. rewrite repeat_length. lia. Qed.

Lemma insert_begin m d xs ys : rep m d xs -> (forall k, lin (beg d) - len ys <= k <= lin (fin d) -> has d k) ->
  exists m', copy_list bs true ys m d (pt (lin (beg d) - len ys)) = Some (m', pt (lin (beg d))) /\ shape m d m' /\
    rep m' (set_beg d (pt (lin (beg d) - len ys))) (put_at 0 ys xs).
Proof.
  intros R H. pose proof (r_len _ _ _ _ _ R) as L. pose proof (r_base _ _ _ _ _ R) as B.
  destruct (copy_list_ok bs Hbs true ys m d (lin (beg d) - len ys) B) as (m1 & E1 & S1 & V1).
  - intros k Hk. split; [apply H; lia|congruence].
  - eapply has_nd; [exact B|]. apply H; lia.
  - eapply has_nd; [exact B|]. apply H; lia.
  - replace (lin (beg d) - len ys + len ys) with (lin (beg d)) in * by lia. exists m1. split; [exact E1|]. split; [exact S1|].
    apply (finish_beg bs triv Hbs m d m1 _ xs); auto.
    + rewrite len_put_at by lia. lia.
    + intros k Hk. rewrite V1, nz_put_at by lia. vals R; try (f_equal; lia).
    + intros TF k Hk. rewrite V1. cases; apply (r_raw _ _ _ _ _ R TF); lia.
Qed.
Lemma insert_end m d xs ys : rep m d xs -> (forall k, lin (beg d) <= k <= lin (fin d) + len ys -> has d k) ->
  exists m', copy_list bs true ys m d (pt (lin (fin d))) = Some (m', pt (lin (fin d) + len ys)) /\ shape m d m' /\
    rep m' (set_fin d (pt (lin (fin d) + len ys))) (put_at (len xs) ys xs).
Proof.
  intros R H. pose proof (r_len _ _ _ _ _ R) as L. pose proof (r_base _ _ _ _ _ R) as B.
  destruct (copy_list_ok bs Hbs true ys m d (lin (fin d)) B) as (m1 & E1 & S1 & V1).
  - intros k Hk. split; [apply H; lia|congruence].
  - eapply has_nd; [exact B|]. apply H; lia.
  - eapply has_nd; [exact B|]. apply H; lia.
  - exists m1. split; [exact E1|]. split; [exact S1|].
    apply (finish_fin bs triv Hbs m d m1 _ xs); auto.
    + rewrite len_put_at by lia. lia.
    + intros k Hk. rewrite V1, nz_put_at by lia. vals R; f_equal; lia.
    + intros TF k Hk. rewrite V1. cases; apply (r_raw _ _ _ _ _ R TF); lia.
Qed.

Lemma copy_insert_ok m d xs p ys : rep m d xs -> 0 < p < len xs ->
  exists m' d', copy_insert bs m d (pt (lin (beg d) + p)) ys = Some (m', d') /\ rep m' d' (put_at p ys xs) /\ others m d m' d'.
Proof.
  intros R Hp. unfold copy_insert. rewrite (diff_beg _ _ _ _ R). replace (lin (beg d) + p - lin (beg d)) with p by lia.
  rewrite (size_ok bs triv Hbs _ _ _ R). cbv zeta. set (n := len ys). assert (Hn : 0 <= n) by (unfold n; lia).
  destruct (Z.ltb_spec p (len xs / 2)) as [C|C].
  - destruct (rc_front bs triv Hbs m d xs n R Hn) as (m1 & d1 & t & E1 & G1 & R1 & H1 & _). rewrite E1. cbn [obind fst snd].
    pose proof (grown_others _ _ _ _ _ (r_base _ _ _ _ _ R) G1) as O1.
    pose proof (r_len _ _ _ _ _ R1) as L1. pose proof (r_base _ _ _ _ _ R1) as B1.
    assert (ND : forall k, lin (beg d1) - n <= k <= lin (fin d1) -> nd d1 k) by (intros k Hk; eapply has_nd; [exact B1|now apply H1]).
    rewrite (minus_at bs Hbs _ _ _ _ (beg_pt bs triv Hbs _ _ _ R1)) by (apply ND; lia). cbn [obind].
    rewrite (plus_at bs Hbs _ _ _ _ (beg_pt bs triv Hbs _ _ _ R1)) by (apply ND; lia). cbn [obind].
    destruct (Z.leb_spec n p) as [D|D].
    + rewrite (plus_at bs Hbs _ _ _ _ (beg_pt bs triv Hbs _ _ _ R1)) by (apply ND; lia). cbn [obind].
      pose proof (beg_pt bs triv Hbs _ _ _ R1) as Bp. set (B := lin (beg d1)) in *. rewrite Bp. rewrite !span_ok by exact Hbs.
      destruct (copy_ok bs Hbs true (Z.to_nat (B + n - B)) m1 d1 B (B - n) B1) as (m2 & E2 & S2 & V2); try (apply ND; lia); try lia.
      { intros k Hk. apply (rep_some bs triv _ _ _ _ R1). fold B. lia. }
      { intros k Hk. split; [apply H1; lia|congruence]. }
      rewrite E2. cbn [obind fst snd]. replace (Z.of_nat (Z.to_nat (B + n - B))) with n in * by lia.
      destruct (copy_ok bs Hbs false (Z.to_nat (B + p - (B + n))) m2 (set_beg d1 (pt (B - n))) (B + n) B) as (m3 & E3 & S3 & V3); try (apply ND; lia); try lia.
      { eapply base_same; [..|eapply base_shape; [exact B1|exact S2]]; reflexivity. }
      { intros k Hk. change (slot m2 d1 k <> None). rewrite V2. cases. apply (rep_some bs triv _ _ _ _ R1). fold B. lia. }
      { intros k Hk. split; [apply H1; lia|]. intros _. change (slot m2 d1 k <> None). rewrite V2. cases. apply (rep_some bs triv _ _ _ _ R1). fold B. lia. }
      rewrite E3. cbn [obind fst snd]. replace (Z.of_nat (Z.to_nat (B + p - (B + n)))) with (p - n) in * by lia.
      rewrite (minus_ok bs Hbs) by (apply ND; lia). cbn [obind].
      destruct (copy_list_ok bs Hbs false ys m3 (set_beg d1 (pt (B - n))) (B + p - n)) as (m4 & E4 & S4 & V4); try (apply ND; lia).
      { eapply base_shape; [|exact S3]. eapply base_same; [..|eapply base_shape; [exact B1|exact S2]]; reflexivity. }
      { fold n. intros k Hk. split; [apply H1; lia|]. intros _. rewrite V3. change (slot m2 (set_beg d1 (pt (B - n)))) with (slot m2 d1). rewrite !V2. cases; apply (rep_some bs triv _ _ _ _ R1); fold B; lia. }
      rewrite E4. cbn [obind fst]. exists m4, (set_beg d1 (pt (B - n))). split; [reflexivity|].
      assert (S : shape m1 d1 m4) by (eapply shape_trans; [exact S2|]; eapply shape_trans; [eapply shape_map; [|exact S3]; reflexivity|eapply shape_map; [|exact S4]; reflexivity]).
      split; [|eapply others_trans; [exact O1|]; apply others_shape; auto].
      fold n in V4. change (slot m4 (set_beg d1 (pt (B - n)))) with (slot m4 d1) in V4. change (slot m3 (set_beg d1 (pt (B - n)))) with (slot m3 d1) in V4, V3.
      change (slot m2 (set_beg d1 (pt (B - n)))) with (slot m2 d1) in V3.
      apply (finish_beg bs triv Hbs m1 d1 m4 _ xs); auto.
      * rewrite len_put_at by lia. fold n. lia.
      * intros k Hk. rewrite V4, nz_put_at by lia. fold n. rewrite !V3, !V2.
        cases; try reflexivity; try (f_equal; lia); try (rewrite (rep_val bs triv _ _ _ _ R1) by (fold B; lia); fold B; f_equal; lia).
      * intros TF k Hk. rewrite V4, !V3, !V2. cases; apply (r_raw _ _ _ _ _ R1 TF); fold B; lia.
    + pose proof (beg_pt bs triv Hbs _ _ _ R1) as Bp. set (B := lin (beg d1)) in *. rewrite Bp. rewrite !span_ok by exact Hbs.
      destruct (copy_ok bs Hbs true (Z.to_nat (B + p - B)) m1 d1 B (B - n) B1) as (m2 & E2 & S2 & V2); try (apply ND; lia); try lia.
      { intros k Hk. apply (rep_some bs triv _ _ _ _ R1). fold B. lia. }
      { intros k Hk. split; [apply H1; lia|congruence]. }
      rewrite E2. cbn [obind fst snd]. replace (Z.of_nat (Z.to_nat (B + p - B))) with p in * by lia.
      assert (LF : len (firstn (Z.to_nat (n - p)) ys) = n - p) by (rewrite firstn_length; fold n; unfold n in *; lia).
      assert (LS : len (skipn (Z.to_nat (n - p)) ys) = p) by (rewrite skipn_length; fold n; unfold n in *; lia).
      destruct (copy_list_ok bs Hbs true (firstn (Z.to_nat (n - p)) ys) m2 d1 (B - n + p)) as (m3 & E3 & S3 & V3); rewrite ?LF; try (apply ND; lia).
      { eapply base_shape; [exact B1|exact S2]. }
      { intros k Hk. split; [apply H1; lia|congruence]. }
      rewrite E3. cbn [obind fst snd]. rewrite LF in V3.
      destruct (copy_list_ok bs Hbs false (skipn (Z.to_nat (n - p)) ys) m3 (set_beg d1 (pt (B - n))) B) as (m4 & E4 & S4 & V4); rewrite ?LS; try (apply ND; lia).
      { eapply base_same; [..|eapply base_shape; [eapply base_shape; [exact B1|exact S2]|exact S3]]; reflexivity. }
      { intros k Hk. split; [apply H1; lia|]. intros _. change (slot m3 d1 k <> None). rewrite V3, !V2. cases. apply (rep_some bs triv _ _ _ _ R1). fold B. lia. }
      rewrite E4. cbn [obind fst]. rewrite LS in V4. exists m4, (set_beg d1 (pt (B - n))). split; [reflexivity|].
      assert (S : shape m1 d1 m4) by (eapply shape_trans; [exact S2|]; eapply shape_trans; [eapply shape_map; [|exact S3]; reflexivity|eapply shape_map; [|exact S4]; reflexivity]).
      split; [|eapply others_trans; [exact O1|]; apply others_shape; auto].
      change (slot m4 (set_beg d1 (pt (B - n)))) with (slot m4 d1) in V4. change (slot m3 (set_beg d1 (pt (B - n)))) with (slot m3 d1) in V4.
      apply (finish_beg bs triv Hbs m1 d1 m4 _ xs); auto.
      * rewrite len_put_at by lia. fold n. lia.
      * intros k Hk. rewrite V4, nz_put_at by lia. fold n. rewrite V3, V2, !nz_firstn, !nz_skipn. replace (Z.of_nat (Z.to_nat (n - p))) with (n - p) by lia.
        cases; try reflexivity; try (f_equal; lia); try (rewrite (rep_val bs triv _ _ _ _ R1) by (fold B; lia); fold B; f_equal; lia).
      * intros TF k Hk. rewrite V4, V3, V2. cases; apply (r_raw _ _ _ _ _ R1 TF); fold B; lia.
  - destruct (rc_back bs triv Hbs m d xs n R Hn) as (m1 & d1 & t & E1 & G1 & R1 & H1 & _). rewrite E1. cbn [obind fst snd].
    pose proof (grown_others _ _ _ _ _ (r_base _ _ _ _ _ R) G1) as O1.
    pose proof (r_len _ _ _ _ _ R1) as L1. pose proof (r_base _ _ _ _ _ R1) as B1.
    assert (ND : forall k, lin (beg d1) <= k <= lin (fin d1) + n -> nd d1 k) by (intros k Hk; eapply has_nd; [exact B1|now apply H1]).
    rewrite (plus_at bs Hbs _ _ _ _ (fin_pt bs triv Hbs _ _ _ R1)) by (apply ND; lia). cbn [obind].
    rewrite (minus_at bs Hbs _ _ _ _ (fin_pt bs triv Hbs _ _ _ R1)) by (apply ND; lia). cbn [obind].
    set (a := len xs - p) in *. pose proof (fin_pt bs triv Hbs _ _ _ R1) as Ep. set (E := lin (fin d1)) in *. set (B := lin (beg d1)) in *.
    destruct (Z.ltb_spec n a) as [D|D].
    + rewrite (minus_at bs Hbs _ _ _ _ Ep) by (apply ND; lia). cbn [obind]. rewrite Ep. rewrite !span_ok by exact Hbs.
      destruct (copy_ok bs Hbs true (Z.to_nat (E - (E - n))) m1 d1 (E - n) E B1) as (m2 & E2 & S2 & V2); try (apply ND; lia); try lia.
      { intros k Hk. apply (rep_some bs triv _ _ _ _ R1). fold B E. lia. }
      { intros k Hk. split; [apply H1; lia|congruence]. }
      rewrite E2. cbn [obind fst snd]. replace (Z.of_nat (Z.to_nat (E - (E - n)))) with n in * by lia.
      destruct (copy_back_ok bs Hbs (Z.to_nat (E - n - (E - a))) m2 (set_fin d1 (pt (E + n))) (E - n) E) as (m3 & E3 & S3 & V3); try (apply ND; lia); try lia.
      { eapply base_same; [..|eapply base_shape; [exact B1|exact S2]]; reflexivity. }
      { intros k Hk. change (slot m2 d1 k <> None). rewrite V2. cases. apply (rep_some bs triv _ _ _ _ R1). fold B E. lia. }
      { intros k Hk. change (slot m2 d1 k <> None). rewrite V2. cases. apply (rep_some bs triv _ _ _ _ R1). fold B E. lia. }
      rewrite E3. cbn [obind fst snd]. replace (Z.of_nat (Z.to_nat (E - n - (E - a)))) with (a - n) in * by lia.
      destruct (copy_list_ok bs Hbs false ys m3 (set_fin d1 (pt (E + n))) (E - a)) as (m4 & E4 & S4 & V4); try (apply ND; lia).
      { eapply base_shape; [|exact S3]. eapply base_same; [..|eapply base_shape; [exact B1|exact S2]]; reflexivity. }
      { fold n. intros k Hk. split; [apply H1; lia|]. intros _. rewrite V3. change (slot m2 (set_fin d1 (pt (E + n)))) with (slot m2 d1). rewrite !V2. cases; apply (rep_some bs triv _ _ _ _ R1); fold B E; lia. }
      rewrite E4. cbn [obind fst]. exists m4, (set_fin d1 (pt (E + n))). split; [reflexivity|].
      assert (S : shape m1 d1 m4) by (eapply shape_trans; [exact S2|]; eapply shape_trans; [eapply shape_map; [|exact S3]; reflexivity|eapply shape_map; [|exact S4]; reflexivity]).
      split; [|eapply others_trans; [exact O1|]; apply others_shape; auto].
      fold n in V4. change (slot m4 (set_fin d1 (pt (E + n)))) with (slot m4 d1) in V4. change (slot m3 (set_fin d1 (pt (E + n)))) with (slot m3 d1) in V4, V3.
      change (slot m2 (set_fin d1 (pt (E + n)))) with (slot m2 d1) in V3.
      apply (finish_fin bs triv Hbs m1 d1 m4 _ xs); auto.
      * rewrite len_put_at by lia. fold n B. lia.
      * fold B. intros k Hk. rewrite V4, nz_put_at by lia. fold n. rewrite !V3, !V2.
        cases; try reflexivity; try (f_equal; lia); try (rewrite (rep_val bs triv _ _ _ _ R1) by (fold B E; lia); fold B; f_equal; lia).
      * fold B. intros TF k Hk. rewrite V4, !V3, !V2. cases; apply (r_raw _ _ _ _ _ R1 TF); fold B E; lia.
    + assert (LF : len (firstn (Z.to_nat a) ys) = a) by (rewrite firstn_length; unfold n in *; lia).
      assert (LS : len (skipn (Z.to_nat a) ys) = n - a) by (rewrite skipn_length; unfold n in *; lia).
      rewrite Ep. destruct (copy_list_ok bs Hbs true (skipn (Z.to_nat a) ys) m1 d1 E B1) as (m2 & E2 & S2 & V2); rewrite ?LS; try (apply ND; lia).
      { intros k Hk. split; [apply H1; lia|congruence]. }
      rewrite E2. cbn [obind fst snd]. rewrite LS in *. rewrite !span_ok by exact Hbs.
      destruct (copy_ok bs Hbs true (Z.to_nat (E - (E - a))) m2 d1 (E - a) (E + (n - a))) as (m3 & E3 & S3 & V3); try (apply ND; lia); try lia.
      { eapply base_shape; [exact B1|exact S2]. }
      { intros k Hk. rewrite V2. cases. apply (rep_some bs triv _ _ _ _ R1). fold B E. lia. }
      { intros k Hk. split; [apply H1; lia|congruence]. }
      rewrite E3. cbn [obind fst snd]. replace (Z.of_nat (Z.to_nat (E - (E - a)))) with a in * by lia.
      destruct (copy_list_ok bs Hbs false (firstn (Z.to_nat a) ys) m3 (set_fin d1 (pt (E + n))) (E - a)) as (m4 & E4 & S4 & V4); rewrite ?LF; try (apply ND; lia).
      { eapply base_same; [..|eapply base_shape; [eapply base_shape; [exact B1|exact S2]|exact S3]]; reflexivity. }
      { intros k Hk. split; [apply H1; lia|]. intros _. change (slot m3 d1 k <> None). rewrite V3, !V2. cases. apply (rep_some bs triv _ _ _ _ R1). fold B E. lia. }
      rewrite E4. cbn [obind fst]. rewrite LF in V4. exists m4, (set_fin d1 (pt (E + n))). split; [reflexivity|].
      assert (S : shape m1 d1 m4) by (eapply shape_trans; [exact S2|]; eapply shape_trans; [eapply shape_map; [|exact S3]; reflexivity|eapply shape_map; [|exact S4]; reflexivity]).
      split; [|eapply others_trans; [exact O1|]; apply others_shape; auto].
      change (slot m4 (set_fin d1 (pt (E + n)))) with (slot m4 d1) in V4. change (slot m3 (set_fin d1 (pt (E + n)))) with (slot m3 d1) in V4.
      apply (finish_fin bs triv Hbs m1 d1 m4 _ xs); auto.
      * rewrite len_put_at by lia. fold n B. lia.
      * fold B. intros k Hk. rewrite V4, nz_put_at by lia. fold n. rewrite V3, !V2, !nz_firstn, !nz_skipn. replace (Z.of_nat (Z.to_nat a)) with a by lia.
        cases; try reflexivity; try (f_equal; lia); try (rewrite (rep_val bs triv _ _ _ _ R1) by (fold B E; lia); fold B; f_equal; lia).
      * fold B. intros TF k Hk. rewrite V4, V3, !V2. cases; apply (r_raw _ _ _ _ _ R1 TF); fold B E; lia.
Qed.
Lemma insert_range_ok m d xs p i ys : rep m d xs -> 0 <= p <= len xs -> stands d p i ->
  exists m' d', insert_range bs m d i ys = Some (m', d') /\ rep m' d' (put_at p ys xs) /\ others m d m' d'.
Proof.
  intros R Hp St. rewrite (stands_pt bs Hbs _ _ _ St). pose proof (r_len _ _ _ _ _ R) as L. unfold insert_range. cbv zeta.
  destruct (Z.leb_spec (len ys) 0) as [Q0|Q0].
  - assert (ys = []) as -> by (destruct ys; [reflexivity|cbn in Q0; lia]). exists m, d. split; [reflexivity|]. split; [|apply others_shape; auto; apply shape_refl].
    unfold put_at. cbn [app]. now rewrite firstn_skipn.
  - rewrite (ieq_beg _ _ _ _ R), (ieq_fin _ _ _ _ R).
    destruct (Z.eqb_spec (lin (beg d) + p) (lin (beg d))) as [Q|Q].
    + assert (p = 0) as -> by lia.
      destruct (rc_front bs triv Hbs m d xs (len ys) R ltac:(lia)) as (m1 & d1 & t & E1 & G1 & R1 & H1 & _). rewrite E1. cbn [obind fst snd].
      pose proof (r_len _ _ _ _ _ R1) as L1.
      rewrite (minus_at bs Hbs _ _ _ _ (beg_pt bs triv Hbs _ _ _ R1)) by (eapply has_nd; [apply R1|apply H1; lia]). cbn [obind].
      destruct (insert_begin m1 d1 xs ys R1 H1) as (m2 & E2 & S2 & R2). rewrite E2. cbn [obind fst].
      eexists _, _. split; [reflexivity|]. split; [exact R2|]. eapply others_trans; [eapply grown_others; [apply R|exact G1]|]. apply others_shape; auto.
    + destruct (Z.eqb_spec (lin (beg d) + p) (lin (fin d))) as [Q2|Q2].
      * assert (p = len xs) as -> by lia.
        destruct (rc_back bs triv Hbs m d xs (len ys) R ltac:(lia)) as (m1 & d1 & t & E1 & G1 & R1 & H1 & _). rewrite E1. cbn [obind fst snd].
        pose proof (r_len _ _ _ _ _ R1) as L1.
        rewrite (plus_at bs Hbs _ _ _ _ (fin_pt bs triv Hbs _ _ _ R1)) by (eapply has_nd; [apply R1|apply H1; lia]). cbn [obind].
        destruct (insert_end m1 d1 xs ys R1 H1) as (m2 & E2 & S2 & R2). rewrite <- (fin_pt bs triv Hbs _ _ _ R1) in E2. rewrite E2. cbn [obind fst].
        eexists _, _. split; [reflexivity|]. split; [exact R2|]. eapply others_trans; [eapply grown_others; [apply R|exact G1]|]. apply others_shape; auto.
      * apply copy_insert_ok; [exact R|lia].
Qed.
End Ins.
