(** Inserting n copies of a value into the deque: the same steps as inserting a range with n times this value. *)
From Coq Require Import ZArith List Bool Lia.
From Verif Require Import F64 DeqModel DeqSpec DeqProof DeqOps DeqEnds DeqIns.
Import ListNotations.
Open Scope Z_scope.
Open Scope opt_scope.

Section Fill.
Context {T : Type} (bs : Z) (triv : bool).
Notation mem := (@memory T).
Implicit Types (m : mem) (d : deque) (xs : list T).
Hypothesis Hbs : 0 < bs.
Notation lin := (lin bs).
Notation slot := (slot bs).
Notation has := (has bs).
Notation rep := (rep bs triv).
Notation pt := (pt bs).
Notation nd := (nd bs).
Notation len xs := (Z.of_nat (length xs)).
Notation stands := (stands bs).

Lemma firstn_repeat (v : T) k n : (k <= n)%nat -> firstn k (repeat v n) = repeat v k.
Proof. revert n. induction k; intros [|n] H; cbn; try lia; try reflexivity. f_equal. apply IHk. lia. Qed.
Lemma skipn_repeat (v : T) k n : skipn k (repeat v n) = repeat v (n - k).
Proof. revert n. induction k; intros [|n]; cbn; try reflexivity. apply IHk. Qed.

Lemma fill_insert_eq m d xs p n v : rep m d xs -> 0 < p < len xs -> 0 <= n ->
  fill_insert bs m d (pt (lin (beg d) + p)) n v = copy_insert bs m d (pt (lin (beg d) + p)) (repeat v (Z.to_nat n)).
Proof.
  intros R Hp Hn. unfold fill_insert, copy_insert. rewrite (diff_beg bs triv Hbs _ _ _ _ R). replace (lin (beg d) + p - lin (beg d)) with p by lia.
  rewrite (size_ok bs triv Hbs _ _ _ R). cbv zeta. rewrite len_rep by exact Hn.
  destruct (Z.ltb_spec p (len xs / 2)) as [C|C].
  - destruct (rc_front bs triv Hbs m d xs n R Hn) as (m1 & d1 & t & E1 & G1 & R1 & H1 & _). rewrite E1. cbn [obind fst snd].
    pose proof (r_len _ _ _ _ _ R1) as L1. pose proof (r_base _ _ _ _ _ R1) as B1.
    assert (ND : forall k, lin (beg d1) - n <= k <= lin (fin d1) -> nd d1 k) by (intros k Hk; eapply has_nd; [exact B1|now apply H1]).
    rewrite (minus_at bs Hbs _ _ _ _ (beg_pt bs triv Hbs _ _ _ R1)) by (apply ND; lia). cbn [obind].
    rewrite (plus_at bs Hbs _ _ _ _ (beg_pt bs triv Hbs _ _ _ R1)) by (apply ND; lia). cbn [obind].
    destruct (Z.leb_spec n p) as [D|D].
    + rewrite (plus_at bs Hbs _ _ _ _ (beg_pt bs triv Hbs _ _ _ R1)) by (apply ND; lia). cbn [obind].
      destruct (copy bs true _ m1 d1 (beg d1) _) as [[m2 r2]|]; [|reflexivity]. cbn [obind fst snd].
      destruct (copy bs false _ m2 _ _ _) as [[m3 r3]|]; [|reflexivity]. cbn [obind fst snd].
      rewrite (minus_ok bs Hbs) by (apply ND; lia). cbn [obind]. unfold fill. rewrite diff_ok by exact Hbs. do 4 f_equal; lia.
    + pose proof (beg_pt bs triv Hbs _ _ _ R1) as Bp. set (B := lin (beg d1)) in *. rewrite Bp. rewrite !span_ok by exact Hbs.
      destruct (copy_ok bs Hbs true (Z.to_nat (B + p - B)) m1 d1 B (B - n) B1) as (m2 & E2 & S2 & V2); try (apply ND; lia); try lia.
      { intros k Hk. apply (rep_some bs triv _ _ _ _ R1). fold B. lia. }
      { intros k Hk. split; [apply H1; lia|congruence]. }
      rewrite E2. cbn [obind fst snd]. replace (Z.of_nat (Z.to_nat (B + p - B))) with p in * by lia. unfold fill. rewrite !diff_ok by exact Hbs.
      rewrite firstn_repeat, skipn_repeat by lia. replace (B - (B - n + p)) with (n - p) by lia.
      destruct (copy_list bs true _ m2 d1 _) as [[m3 r3]|]; [|reflexivity]. cbn [obind fst snd]. do 4 f_equal; lia.
  - destruct (rc_back bs triv Hbs m d xs n R Hn) as (m1 & d1 & t & E1 & G1 & R1 & H1 & _). rewrite E1. cbn [obind fst snd].
    pose proof (r_len _ _ _ _ _ R1) as L1. pose proof (r_base _ _ _ _ _ R1) as B1.
    assert (ND : forall k, lin (beg d1) <= k <= lin (fin d1) + n -> nd d1 k) by (intros k Hk; eapply has_nd; [exact B1|now apply H1]).
    rewrite (plus_at bs Hbs _ _ _ _ (fin_pt bs triv Hbs _ _ _ R1)) by (apply ND; lia). cbn [obind].
    rewrite (minus_at bs Hbs _ _ _ _ (fin_pt bs triv Hbs _ _ _ R1)) by (apply ND; lia). cbn [obind].
    set (a := len xs - p) in *. pose proof (fin_pt bs triv Hbs _ _ _ R1) as Ep. set (E := lin (fin d1)) in *.
    destruct (Z.ltb_spec n a) as [D|D].
    + rewrite (minus_at bs Hbs _ _ _ _ Ep) by (apply ND; lia). cbn [obind].
      destruct (copy bs true _ m1 d1 _ _) as [[m2 r2]|]; [|reflexivity]. cbn [obind fst snd].
      destruct (copy_back bs _ m2 _ _ _) as [[m3 r3]|]; [|reflexivity]. cbn [obind fst snd].
      rewrite (plus_ok bs Hbs) by (apply ND; lia). cbn [obind]. unfold fill. rewrite diff_ok by exact Hbs. do 4 f_equal; lia.
    + rewrite (plus_ok bs Hbs) by (apply ND; lia). cbn [obind]. rewrite Ep. unfold fill. rewrite !diff_ok by exact Hbs.
      rewrite firstn_repeat, skipn_repeat by lia. replace (Z.to_nat (E - a + n - E)) with (Z.to_nat n - Z.to_nat a)%nat by lia.
      assert (LS : len (repeat v (Z.to_nat n - Z.to_nat a)) = n - a) by (rewrite repeat_length; lia).
      destruct (copy_list_ok bs Hbs true (repeat v (Z.to_nat n - Z.to_nat a)) m1 d1 E B1) as (m2 & E2 & S2 & V2); rewrite ?LS; try (apply ND; lia).
      { intros k Hk. split; [apply H1; lia|congruence]. }
      rewrite E2. cbn [obind fst snd]. rewrite LS. replace (E + (n - a)) with (E - a + n) by lia.
      destruct (copy bs true _ m2 d1 _ _) as [[m3 r3]|]; [|reflexivity]. cbn [obind fst snd]. do 4 f_equal; lia.
Qed.
Lemma insert_n_ok m d xs p i n v : rep m d xs -> 0 <= p <= len xs -> 0 <= n -> stands d p i ->
  exists m' d', insert_n bs m d i n v = Some (m', d') /\ rep m' d' (put_at p (repeat v (Z.to_nat n)) xs) /\ others m d m' d'.
Proof.
  intros R Hp Hn St. rewrite (stands_pt bs Hbs _ _ _ St). pose proof (r_len _ _ _ _ _ R) as L. unfold insert_n.
  pose proof (len_rep v n Hn) as LR. rewrite (ieq_beg bs triv Hbs _ _ _ _ R), (ieq_fin bs triv Hbs _ _ _ _ R).
  destruct (Z.eqb_spec (lin (beg d) + p) (lin (beg d))) as [Q|Q].
  - assert (p = 0) as -> by lia.
    destruct (rc_front bs triv Hbs m d xs n R Hn) as (m1 & d1 & t & E1 & G1 & R1 & H1 & _). rewrite E1. cbn [obind fst snd].
    pose proof (r_len _ _ _ _ _ R1) as L1.
    rewrite (minus_at bs Hbs _ _ _ _ (beg_pt bs triv Hbs _ _ _ R1)) by (eapply has_nd; [apply R1|apply H1; lia]). cbn [obind].
    destruct (insert_begin bs triv Hbs m1 d1 xs (repeat v (Z.to_nat n)) R1) as (m2 & E2 & S2 & R2). { now rewrite LR. }
    unfold fill. rewrite LR in *. rewrite E2. cbn [obind fst].
    eexists _, _. split; [reflexivity|]. split; [exact R2|]. eapply others_trans; [eapply grown_others; [apply R|exact G1]|]. apply others_shape; auto.
  - destruct (Z.eqb_spec (lin (beg d) + p) (lin (fin d))) as [Q2|Q2].
    + assert (p = len xs) as -> by lia.
      destruct (rc_back bs triv Hbs m d xs n R Hn) as (m1 & d1 & t & E1 & G1 & R1 & H1 & _). rewrite E1. cbn [obind fst snd].
      pose proof (r_len _ _ _ _ _ R1) as L1.
      rewrite (plus_at bs Hbs _ _ _ _ (fin_pt bs triv Hbs _ _ _ R1)) by (eapply has_nd; [apply R1|apply H1; lia]). cbn [obind].
      destruct (insert_end bs triv Hbs m1 d1 xs (repeat v (Z.to_nat n)) R1) as (m2 & E2 & S2 & R2). { now rewrite LR. }
      unfold fill. rewrite LR in *. rewrite <- (fin_pt bs triv Hbs _ _ _ R1) in E2. rewrite E2. cbn [obind fst].
      eexists _, _. split; [reflexivity|]. split; [exact R2|]. eapply others_trans; [eapply grown_others; [apply R|exact G1]|]. apply others_shape; auto.
    + rewrite (fill_insert_eq _ _ _ _ _ _ R) by lia. apply copy_insert_ok; auto. lia.
Qed.
End Fill.
