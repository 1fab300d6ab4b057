(** Lemmas on swap_ranges, reverse and rotate *)
From Coq Require Import ZArith Znumtheory List Bool Lia Permutation.
From Verif Require Import F64 ArrModel ArrLib RotModel.
Import ListNotations.
Open Scope Z_scope.

Section Lists.
Context {A : Type}.
Implicit Types (p q l m s a b x y : list A) (u v w : A).

Lemma rd_app_l p s i : i < len p -> rd (p ++ s) i = rd p i.
Proof. intros H. unfold rd. destruct (Z.ltb_spec i 0); [reflexivity|]. apply nth_error_app1. lia. Qed.
Lemma rd_app_r p s i : 0 <= i -> rd (p ++ s) (len p + i) = rd s i.
Proof.
  intros H. unfold rd. destruct (Z.ltb_spec (len p + i) 0); [lia|]. destruct (Z.ltb_spec i 0); [lia|].
  rewrite nth_error_app2 by lia. f_equal. lia.
Qed.
Lemma rd_at p u s i : i = len p -> rd (p ++ u :: s) i = Some u.
Proof. intros ->. replace (len p) with (len p + 0) by lia. now rewrite rd_app_r by lia. Qed.
Lemma upd_app p u s w : upd (p ++ u :: s) (length p) w = p ++ w :: s.
Proof. induction p as [|z p IH]; simpl; [reflexivity|now rewrite IH]. Qed.
Lemma up_at p u s w i : i = len p -> up (p ++ u :: s) i w = p ++ w :: s.
Proof. intros ->. unfold up. rewrite Nat2Z.id. apply upd_app. Qed.
Lemma wr_at p u s w i : i = len p -> wr (p ++ u :: s) i w = Some (p ++ w :: s).
Proof. intros E. rewrite wr_up by (rewrite app_length; simpl; lia). now rewrite up_at. Qed.

Lemma iter_swap_at p u m v s i j : i = len p -> j = len p + 1 + len m ->
  iter_swap (p ++ u :: m ++ v :: s) i j = Some (p ++ v :: m ++ u :: s).
Proof.
  intros Ei Ej. erewrite iter_swap_up with (x := u) (y := v).
  - rewrite up_at by exact Ei. replace (p ++ v :: m ++ v :: s) with ((p ++ v :: m) ++ v :: s) by (rewrite <- app_assoc; reflexivity).
    rewrite up_at by (rewrite app_length; simpl; lia). rewrite <- app_assoc. reflexivity.
  - now apply rd_at.
  - replace (p ++ u :: m ++ v :: s) with ((p ++ u :: m) ++ v :: s) by (rewrite <- app_assoc; reflexivity).
    apply rd_at. rewrite app_length; simpl; lia.
Qed.
Lemma iter_swap_self p u s i : i = len p -> iter_swap (p ++ u :: s) i i = Some (p ++ u :: s).
Proof.
  intros E. rewrite (iter_swap_up _ i i u u) by now apply rd_at. now rewrite !(up_at p u s u i E).
Qed.

(** first and last element *)
Lemma ends l : l = [] \/ (exists u, l = [u]) \/ exists u m v, l = u :: m ++ [v].
Proof.
  destruct l as [|u l]; [now left|]. right. destruct (@exists_last _ (u :: l)) as (m & v & E); [discriminate|].
  destruct m as [|z m]; simpl in E; injection E as -> E.
  - left. now exists v; subst.
  - right. exists z, m, v. now subst.
Qed.

(** ** reverse *)
Lemma reverse_bid_ok fuel : forall p l s i j, i = len p -> j = len p + len l -> (length l < fuel)%nat ->
  reverse_bid fuel (p ++ l ++ s) i j = Some (p ++ rev l ++ s).
Proof.
  induction fuel as [|fuel IH]; intros p l s i j Ei Ej Hf; [lia|]. cbn [reverse_bid].
  destruct (ends l) as [->|[[u ->]|(u & m & v & ->)]].
  - replace (i =? j) with true by (symmetry; apply Z.eqb_eq; simpl in *; lia). reflexivity.
  - replace (i =? j) with false by (symmetry; apply Z.eqb_neq; simpl in *; lia).
    replace (i =? j - 1) with true by (symmetry; apply Z.eqb_eq; simpl in *; lia). reflexivity.
  - simpl length in *. rewrite app_length in *. simpl length in *.
    replace (i =? j) with false by (symmetry; apply Z.eqb_neq; lia).
    replace (i =? j - 1) with false by (symmetry; apply Z.eqb_neq; lia).
    replace (p ++ (u :: m ++ [v]) ++ s) with (p ++ u :: m ++ v :: s) by (simpl; rewrite <- app_assoc; reflexivity).
    rewrite (iter_swap_at p u m v s) by lia. cbn [obind].
    replace (p ++ v :: m ++ u :: s) with ((p ++ [v]) ++ m ++ (u :: s)) by (rewrite <- app_assoc; reflexivity).
    rewrite IH by (rewrite ?app_length; simpl; lia). f_equal. simpl. rewrite rev_app_distr. simpl.
    rewrite <- !app_assoc. reflexivity.
Qed.
Lemma reverse_ran_ok fuel : forall p l s i j, i = len p -> j = len p + len l -> (length l < fuel)%nat ->
  reverse_ran fuel (p ++ l ++ s) i j = Some (p ++ rev l ++ s).
Proof.
  induction fuel as [|fuel IH]; intros p l s i j Ei Ej Hf; [lia|]. cbn [reverse_ran].
  destruct (ends l) as [->|[[u ->]|(u & m & v & ->)]].
  - destruct (Z.ltb_spec i j); [simpl in *; lia|]. reflexivity.
  - destruct (Z.ltb_spec i j); [|simpl in *; lia]. simpl app. replace (j - 1) with i by (simpl in *; lia).
    rewrite iter_swap_self by exact Ei. cbn [obind]. destruct fuel as [|fuel]; [simpl in Hf; lia|]. cbn [reverse_ran].
    destruct (Z.ltb_spec (i + 1) i); [lia|]. reflexivity.
  - simpl length in *. rewrite app_length in *. simpl length in *. destruct (Z.ltb_spec i j); [|lia].
    replace (p ++ (u :: m ++ [v]) ++ s) with (p ++ u :: m ++ v :: s) by (simpl; rewrite <- app_assoc; reflexivity).
    rewrite (iter_swap_at p u m v s) by lia. cbn [obind].
    replace (p ++ v :: m ++ u :: s) with ((p ++ [v]) ++ m ++ (u :: s)) by (rewrite <- app_assoc; reflexivity).
    rewrite IH by (rewrite ?app_length; simpl; lia). f_equal. simpl. rewrite rev_app_distr. simpl.
    rewrite <- !app_assoc. reflexivity.
Qed.
Lemma reverse_ok ran p l s i j : i = len p -> j = len p + len l -> reverse ran (p ++ l ++ s) i j = Some (p ++ rev l ++ s).
Proof.
  intros Ei Ej. unfold reverse. destruct ran; [apply reverse_ran_ok|apply reverse_bid_ok]; auto; lia.
Qed.

(** ** swap_ranges *)
Lemma swap_ranges_ok x : forall fuel y p m s i j k, length x = length y -> i = len p -> j = i + len x -> k = j + len m ->
  (length x < fuel)%nat ->
  swap_ranges fuel (p ++ x ++ m ++ y ++ s) i j k = Some (p ++ y ++ m ++ x ++ s, k + len y).
Proof.
  induction x as [|u x IH]; intros fuel y p m s i j k E Ei Ej Ek Hf; destruct y as [|v y]; try discriminate E; (destruct fuel as [|fuel]; [lia|]); cbn [swap_ranges].
  - replace (i =? j) with true by (symmetry; apply Z.eqb_eq; simpl in *; lia). simpl. now rewrite Z.add_0_r.
  - simpl length in *. replace (i =? j) with false by (symmetry; apply Z.eqb_neq; lia).
    replace (p ++ (u :: x) ++ m ++ (v :: y) ++ s) with (p ++ u :: (x ++ m) ++ v :: (y ++ s)) by (rewrite <- app_assoc; reflexivity).
    rewrite (iter_swap_at p u (x ++ m) v) by (rewrite ?app_length; lia). cbn [obind].
    replace (p ++ v :: (x ++ m) ++ u :: y ++ s) with ((p ++ [v]) ++ x ++ (m ++ [u]) ++ y ++ s) by (rewrite <- !app_assoc; reflexivity).
    rewrite IH by (rewrite ?app_length; simpl; lia). f_equal. f_equal; [rewrite <- !app_assoc; reflexivity|lia].
Qed.

(** ** rotate, forward iterators *)
Lemma rotate_fwd1_ok t : forall fuel p x1 x2 s i mid f2 last, x1 <> [] -> t <> [] -> i = len p -> mid = i + len x1 -> f2 = mid + len x2 ->
  last = f2 + len t -> (length t <= fuel)%nat ->
  exists z1 z2, rotate_fwd1 fuel (p ++ x1 ++ x2 ++ t ++ s) i mid f2 last = Some (p ++ t ++ z1 ++ z2 ++ s, i + len t, i + len t + len z1) /\
    z2 ++ z1 = x2 ++ x1 /\ z1 <> [].
Proof.
  induction t as [|v t IH]; intros fuel p x1 x2 s i mid f2 last N Nt Ei Em E2 El Hf; [congruence|].
  destruct fuel as [|fuel]; [simpl in Hf; lia|]. cbn [rotate_fwd1]. destruct x1 as [|u x1]; [congruence|]. simpl length in *.
  replace (p ++ (u :: x1) ++ x2 ++ (v :: t) ++ s) with (p ++ u :: (x1 ++ x2) ++ v :: (t ++ s)) by (rewrite <- app_assoc; reflexivity).
  rewrite (iter_swap_at p u (x1 ++ x2) v) by (rewrite ?app_length; lia). cbn [obind]. cbv zeta.
  assert (L : exists y1 y2, p ++ v :: (x1 ++ x2) ++ u :: t ++ s = (p ++ [v]) ++ y1 ++ y2 ++ t ++ s /\ y1 <> [] /\
     y2 ++ y1 = x2 ++ u :: x1 /\ (if i + 1 =? mid then f2 + 1 else mid) = i + 1 + len y1 /\ len y1 + len y2 = 1 + len x1 + len x2).
  { destruct x1 as [|w x1].
    - exists (x2 ++ [u]), []. replace (i + 1 =? mid) with true by (symmetry; apply Z.eqb_eq; simpl length in *; lia).
      split; [simpl; rewrite <- !app_assoc; reflexivity|]. split; [intros C; apply app_eq_nil in C as [_ C]; discriminate|].
      split; [reflexivity|]. rewrite !app_length; simpl length in *; lia.
    - exists (w :: x1), (x2 ++ [u]). replace (i + 1 =? mid) with false by (symmetry; apply Z.eqb_neq; simpl length in *; lia).
      split; [rewrite <- !app_assoc; simpl; rewrite <- ?app_assoc; reflexivity|]. split; [discriminate|].
      split; [rewrite <- app_assoc; reflexivity|]. rewrite !app_length; simpl length in *; lia. }
  destruct L as (y1 & y2 & -> & Ny & Ey & -> & Ly).
  destruct t as [|v' t].
  - replace (f2 + 1 =? last) with true by (symmetry; apply Z.eqb_eq; simpl length in *; lia).
    exists y1, y2. split; [|split; [exact Ey|exact Ny]]. f_equal. rewrite <- app_assoc. simpl. reflexivity.
  - replace (f2 + 1 =? last) with false by (symmetry; apply Z.eqb_neq; simpl length in *; lia).
    destruct (IH fuel (p ++ [v]) y1 y2 s (i + 1) (i + 1 + len y1) (f2 + 1) last) as (z1 & z2 & E & Ez & Nz);
      try (rewrite ?app_length; simpl length in *; lia); [exact Ny|discriminate|].
    exists z1, z2. rewrite E. split; [|split; [congruence|exact Nz]]. f_equal. rewrite <- app_assoc. simpl.
    f_equal; [f_equal|]; simpl length; lia.
Qed.
Lemma rotate_fwd2_ok fuel : forall p x1 x2 t s i mid f2 last, x1 <> [] -> (t = [] -> x2 = []) -> i = len p -> mid = i + len x1 -> f2 = mid + len x2 ->
  last = f2 + len t -> (length x1 + length x2 + length t < fuel)%nat ->
  rotate_fwd2 fuel (p ++ x1 ++ x2 ++ t ++ s) i mid f2 last = Some (p ++ t ++ x2 ++ x1 ++ s).
Proof.
  induction fuel as [|fuel IH]; intros p x1 x2 t s i mid f2 last N Nt Ei Em E2 El Hf; [lia|]. cbn [rotate_fwd2].
  destruct t as [|v t].
  - rewrite (Nt eq_refl). replace (f2 =? last) with true by (symmetry; apply Z.eqb_eq; simpl length in *; lia). reflexivity.
  - simpl length in *. replace (f2 =? last) with false by (symmetry; apply Z.eqb_neq; lia).
    destruct x1 as [|u x1]; [congruence|]. simpl length in *.
    replace (p ++ (u :: x1) ++ x2 ++ (v :: t) ++ s) with (p ++ u :: (x1 ++ x2) ++ v :: (t ++ s)) by (rewrite <- app_assoc; reflexivity).
    rewrite (iter_swap_at p u (x1 ++ x2) v) by (rewrite ?app_length; lia). cbn [obind]. cbv zeta.
    destruct x1 as [|w x1]; [|destruct t as [|v' t]].
    + replace (i + 1 =? mid) with true by (symmetry; apply Z.eqb_eq; simpl length in *; lia).
      replace (p ++ v :: ([] ++ x2) ++ u :: t ++ s) with ((p ++ [v]) ++ (x2 ++ [u]) ++ [] ++ t ++ s) by (simpl; rewrite <- !app_assoc; reflexivity).
      rewrite IH; try (rewrite ?app_length; simpl length in *; lia).
      * f_equal. simpl. rewrite <- !app_assoc. reflexivity.
      * intros C; apply app_eq_nil in C as [_ C]; discriminate.
      * reflexivity.
    + simpl length in *. replace (i + 1 =? mid) with false by (symmetry; apply Z.eqb_neq; lia).
      replace (f2 + 1 =? last) with true by (symmetry; apply Z.eqb_eq; lia).
      replace (p ++ v :: ((w :: x1) ++ x2) ++ u :: [] ++ s) with ((p ++ [v]) ++ (w :: x1) ++ [] ++ (x2 ++ [u]) ++ s) by (rewrite <- !app_assoc; simpl; rewrite <- ?app_assoc; reflexivity).
      rewrite IH; try (rewrite ?app_length; simpl length in *; lia).
      * f_equal. simpl. rewrite <- !app_assoc. reflexivity.
      * discriminate.
      * reflexivity.
    + simpl length in *. replace (i + 1 =? mid) with false by (symmetry; apply Z.eqb_neq; lia).
      replace (f2 + 1 =? last) with false by (symmetry; apply Z.eqb_neq; lia).
      replace (p ++ v :: ((w :: x1) ++ x2) ++ u :: (v' :: t) ++ s) with ((p ++ [v]) ++ (w :: x1) ++ (x2 ++ [u]) ++ (v' :: t) ++ s) by (rewrite <- !app_assoc; simpl; rewrite <- ?app_assoc; reflexivity).
      rewrite IH; try (rewrite ?app_length; simpl length in *; lia); try discriminate.
      f_equal. simpl. rewrite <- !app_assoc. reflexivity.
Qed.
Lemma rotate_forward_ok p x y s i mid last : x <> [] -> y <> [] -> i = len p -> mid = i + len x -> last = mid + len y ->
  rotate_forward (p ++ x ++ y ++ s) i mid last = Some (p ++ y ++ x ++ s, i + len y).
Proof.
  intros Nx Ny Ei Em El. unfold rotate_forward.
  destruct (rotate_fwd1_ok y (S (Z.to_nat (last - mid))) p x [] s i mid mid last Nx Ny Ei Em) as (z1 & z2 & E & Ez & Nz); try (simpl; lia).
  simpl app in E. rewrite E. cbn [obind]. clear E.
  assert (Lz : len z1 + len z2 = len x). { apply (f_equal (@length A)) in Ez. rewrite !app_length in Ez. simpl in Ez. lia. }
  assert (R : rotate_fwd2 (S (Z.to_nat (last - i))) (p ++ y ++ z1 ++ z2 ++ s) (i + len y) (i + len y + len z1) (i + len y + len z1) last = Some (p ++ y ++ x ++ s)).
  { replace (p ++ y ++ z1 ++ z2 ++ s) with ((p ++ y) ++ z1 ++ [] ++ z2 ++ s) by (rewrite <- app_assoc; reflexivity).
    rewrite rotate_fwd2_ok; try (rewrite ?app_length; simpl; lia); auto. simpl app in *. f_equal.
    rewrite <- app_assoc. f_equal. f_equal. rewrite app_assoc. now rewrite Ez. }
  rewrite R. reflexivity.
Qed.

(** ** rotate, bidirectional iterators *)
Lemma rotate_bid_loop_ok fuel : forall p x y s i mid last, i = len p -> mid = i + len x -> last = mid + len y -> (length x < fuel)%nat ->
  exists p' x' y' s', rotate_bid_loop fuel (p ++ x ++ y ++ s) i mid last = Some (p' ++ x' ++ y' ++ s', len p', len p' + len x' + len y') /\
    (x' = [] \/ y' = []) /\ len p' + len x' = mid /\ p' ++ rev y' ++ rev x' ++ s' = p ++ rev y ++ rev x ++ s /\
    len p' <= i + len y /\ (x' = [] -> len p' + len y' = i + len y) /\ (y' = [] -> len p' = i + len y).
Proof.
  induction fuel as [|fuel IH]; intros p x y s i mid last Ei Em El Hf; [lia|]. cbn [rotate_bid_loop].
  destruct x as [|u x].
  - simpl length in *. replace (i =? mid) with true by (symmetry; apply Z.eqb_eq; lia). cbn [negb andb].
    exists p, [], y, s. simpl length. split; [f_equal; f_equal; [f_equal|]; lia|]. split; [now left|]. split; [lia|]. split; [reflexivity|].
    split; [lia|]. split; [intros; lia|]. intros ->. simpl in *; lia.
  - destruct (@exists_last _ (u :: x)) as (x0 & u0 & Ex0); [discriminate|]. clear x0 u0 Ex0.
    destruct y as [|v0 y0].
    + simpl length in *. replace (mid =? last) with true by (symmetry; apply Z.eqb_eq; lia). rewrite andb_false_r.
      exists p, (u :: x), [], s. simpl length. split; [f_equal; f_equal; [f_equal|]; lia|]. split; [now right|]. split; [lia|].
      split; [reflexivity|]. split; [lia|]. split; [discriminate|]. intros; lia.
    + destruct (@exists_last _ (v0 :: y0)) as (y & v & Ey); [discriminate|]. rewrite Ey in *. clear v0 y0 Ey.
      rewrite app_length in *. simpl length in *.
      replace (i =? mid) with false by (symmetry; apply Z.eqb_neq; lia).
      replace (mid =? last) with false by (symmetry; apply Z.eqb_neq; lia). cbn [negb andb].
      replace (p ++ (u :: x) ++ (y ++ [v]) ++ s) with (p ++ u :: (x ++ y) ++ v :: s) by (rewrite <- !app_assoc; simpl; rewrite <- ?app_assoc; reflexivity).
      rewrite (iter_swap_at p u (x ++ y) v s) by (rewrite ?app_length; lia). cbn [obind].
      replace (p ++ v :: (x ++ y) ++ u :: s) with ((p ++ [v]) ++ x ++ y ++ (u :: s)) by (rewrite <- !app_assoc; reflexivity).
      destruct (IH (p ++ [v]) x y (u :: s) (i + 1) mid (last - 1)) as (p' & x' & y' & s' & E & H1 & H2 & H3 & H4 & H5 & H6);
        try (rewrite ?app_length; simpl; lia).
      exists p', x', y', s'. split; [exact E|]. split; [exact H1|]. split; [exact H2|]. split.
      * rewrite H3. rewrite rev_app_distr. simpl. rewrite <- !app_assoc. reflexivity.
      * split; [lia|]. split; intros Q; [specialize (H5 Q)|specialize (H6 Q)]; lia.
Qed.
Lemma rotate_bid_ok p x y s i mid last : x <> [] -> y <> [] -> i = len p -> mid = i + len x -> last = mid + len y ->
  rotate_bid (p ++ x ++ y ++ s) i mid last = Some (p ++ y ++ x ++ s, i + len y).
Proof.
  intros Nx Ny Ei Em El. unfold rotate_bid. rewrite reverse_ok by lia. cbn [obind].
  replace (p ++ rev x ++ y ++ s) with ((p ++ rev x) ++ y ++ s) by (rewrite <- app_assoc; reflexivity).
  rewrite reverse_ok by (rewrite ?app_length, ?rev_length; lia). cbn [obind]. rewrite <- app_assoc.
  destruct (rotate_bid_loop_ok (S (Z.to_nat (last - i))) p (rev x) (rev y) s i mid last) as (p' & x' & y' & s' & E & H1 & H2 & H3 & H4 & H5 & H6);
    try (rewrite ?rev_length; lia).
  rewrite E. cbn [obind]. clear E. rewrite !rev_involutive in H3. rewrite rev_length in *.
  destruct (Z.eqb_spec (len p') mid) as [Q|Q].
  - assert (x' = []) by (destruct x'; [reflexivity|simpl in *; lia]). subst x'. simpl app. simpl length.
    rewrite reverse_ok by (simpl; lia). cbn [obind]. simpl app in H3. f_equal. f_equal; [exact H3|]. specialize (H5 eq_refl). simpl; lia.
  - assert (y' = []) by (destruct H1 as [->|]; [simpl in *; lia|assumption]). subst y'. simpl app.
    rewrite reverse_ok by lia. cbn [obind]. simpl app in H3. f_equal. f_equal; [exact H3|]. now apply H6.
Qed.
End Lists.

(** ** the Euclidean algorithm *)
Lemma rgcd_ok fuel : forall m n, 0 <= m -> 0 <= n -> (Z.to_nat n < fuel)%nat -> rgcd fuel m n = Some (Z.gcd m n).
Proof.
  induction fuel as [|fuel IH]; intros m n Hm Hn Hf; [lia|]. cbn [rgcd]. destruct (Z.eqb_spec n 0) as [->|N].
  - rewrite Z.gcd_0_r, Z.abs_eq by lia. reflexivity.
  - rewrite Z.rem_mod_nonneg by lia. pose proof (Z.mod_pos_bound m n ltac:(lia)). rewrite IH by lia.
    f_equal. rewrite Z.gcd_comm, Z.gcd_mod by lia. apply Z.gcd_comm.
Qed.

(** ** rotate, random access iterators: cycles *)
Section Cycle.
Context {A : Type}.
Variables (f g L R i : Z).
Hypothesis (Hg : 0 < g) (HL : 0 < L) (HR : 0 < R) (Hc : Z.gcd L (L + R) = 1) (Hi : 0 <= i < g).
Notation N := (L + R).
Notation l := (g * L).
Notation r := (g * R).
Notation n := (g * (L + R)).
Implicit Types (a b : list A).

Definition cyc (t : Z) : Z := (i + t * l) mod n.
Lemma n_pos : 0 < n. Proof. apply Z.mul_pos_pos; lia. Qed.
Lemma cyc_range t : 0 <= cyc t < n.
Proof. apply Z.mod_pos_bound, n_pos. Qed.
Lemma cyc_0 : cyc 0 = i.
Proof. unfold cyc. rewrite Z.mul_0_l, Z.add_0_r. apply Z.mod_small. nia. Qed.
Lemma cyc_S t : cyc (t + 1) = if cyc t <? r then cyc t + l else cyc t - r.
Proof.
  pose proof (cyc_range t) as B. assert (E : cyc (t + 1) = (cyc t + l) mod n).
  { unfold cyc. rewrite Z.add_mod_idemp_l by (pose proof n_pos; lia). f_equal. ring. }
  rewrite E. destruct (Z.ltb_spec (cyc t) r).
  - apply Z.mod_small. nia.
  - symmetry. apply Z.mod_unique with 1; [left; nia|ring].
Qed.
Lemma cyc_dec t : exists w, cyc t = i + t * l - w * n.
Proof. exists ((i + t * l) / n). unfold cyc. rewrite Z.mod_eq by (pose proof n_pos; lia). ring. Qed.
Lemma cyc_res t : exists m, cyc t = i + g * m.
Proof. destruct (cyc_dec t) as [w E]. exists (t * L - w * N). rewrite E. ring. Qed.
Lemma cyc_inj t t' : 0 <= t < N -> 0 <= t' < N -> cyc t = cyc t' -> t = t'.
Proof.
  intros Ht Ht' E. destruct (cyc_dec t) as [w E1]. destruct (cyc_dec t') as [w' E2].
  assert (D : (N | L * (t - t'))). { exists (w - w'). rewrite E1, E2 in E. apply (Z.mul_cancel_l _ _ g); [lia|]. ring_simplify. ring_simplify in E. lia. }
  apply Z.gauss in D; [|now rewrite Z.gcd_comm]. destruct D as [k D]. assert (k = 0) by nia. subst. lia.
Qed.
Lemma cyc_surj k : 0 <= k < n -> k mod g = i -> exists t, 0 <= t < N /\ cyc t = k.
Proof.
  intros Hk Em. destruct (Z.gcd_bezout L N 1 Hc) as (u & v & B).
  exists ((k / g * u) mod N). split; [apply Z.mod_pos_bound; lia|].
  pose proof (Z.div_mod k g ltac:(lia)) as Dk. rewrite Em in Dk. set (m := k / g) in *. clearbody m.
  unfold cyc. rewrite Z.mod_eq with (b := N) by lia. set (d := m * u / N). clearbody d.
  symmetry. apply Z.mod_unique with (- m * v - d * L); [left; exact Hk|].
  rewrite Dk. assert (Q : u * L = 1 - v * N) by lia.
  replace (i + (m * u - N * d) * l) with (i + g * (m * (u * L)) - g * N * d * L) by ring. rewrite Q. ring.
Qed.
Lemma cyc_last t : 0 <= t < N -> cyc t = i + r -> t = N - 1.
Proof.
  intros Ht E. apply cyc_inj; [exact Ht|lia|]. rewrite E. unfold cyc.
  apply Z.mod_unique with (L - 1); [left; nia|]. ring.
Qed.
Lemma cyc_end : cyc (N - 1) = i + r.
Proof. unfold cyc. symmetry. apply Z.mod_unique with (L - 1); [left; nia|]. ring. Qed.

(** after j hops of the cycle: the elements c_0 .. c_(j-1) have received their successors *)
Definition st a b (j : Z) : Prop :=
  length b = length a /\
  (forall t, 0 <= t < j -> rd b (f + cyc t) = rd a (f + cyc (t + 1))) /\
  (forall q, (forall t, 0 <= t < j -> q <> f + cyc t) -> rd b q = rd a q).
Hypothesis (Hf : 0 <= f).
Lemma hop a b j : f + n <= len a -> 0 <= j -> j + 1 < N -> st a b j ->
  exists x b', rd b (f + cyc (j + 1)) = Some x /\ wr b (f + cyc j) x = Some b' /\ st a b' (j + 1).
Proof.
  intros Hn Hj Hj1 (El & S1 & S2).
  assert (Ex : rd b (f + cyc (j + 1)) = rd a (f + cyc (j + 1))).
  { apply S2. intros t Ht C. assert (t = j + 1) by (apply cyc_inj; [lia|lia|lia]). lia. }
  pose proof (cyc_range (j + 1)) as B1. pose proof (cyc_range j) as B0.
  destruct (rd_ex a (f + cyc (j + 1))) as [x Hx]; [lia|]. rewrite Hx in Ex.
  exists x, (up b (f + cyc j) x). split; [exact Ex|]. split; [apply wr_up; lia|]. split; [rewrite up_length; exact El|]. split.
  - intros t Ht. destruct (Z.eq_dec t j) as [->|Nt].
    + rewrite rd_up_eq by lia. now rewrite Hx.
    + rewrite rd_up_ne; [apply S1; lia|lia|]. intros C. apply Nt. apply cyc_inj; lia.
  - intros q Hq. rewrite rd_up_ne; [|lia|intros C; apply (Hq j); [lia|auto]]. apply S2. intros t Ht. apply Hq. lia.
Qed.

Lemma cycle_lt_ok a : L < R -> f + n <= len a -> forall k b j u, Z.of_nat k = R - u -> 0 <= u -> 0 <= j < N -> u <= j ->
  cyc j = i + u * l - (j - u) * r -> st a b j ->
  exists b', cycle_lt k b (f + i) (f + cyc j) l r = Some (b', f + cyc (N - 1)) /\ st a b' (N - 1).
Proof.
  intros HLR Hn. induction k as [|k IH]; intros b j u Hk Hu Hj Huj Ec S.
  - assert (u = R) by lia. subst u. assert (j = N - 1).
    { pose proof (cyc_range j) as B. assert (Q : cyc j = i + g * (R * (N - j))) by (rewrite Ec; ring). assert (g * (R * (N - j)) < g * N) by lia.
      assert (R * (N - j) < N) by nia. nia. }
    subst j. exists b. split; [reflexivity|exact S].
  - cbn [cycle_lt]. pose proof (cyc_range j) as B.
    assert (Step : forall b j, 0 <= j -> j + 1 < N -> cyc j < r -> st a b j -> cyc j = i + u * l - (j - u) * r -> u <= j ->
      exists b', (let* x := rd b (f + cyc j + l) in let* b := wr b (f + cyc j) x in cycle_lt k b (f + i) (f + cyc j + l) l r)
         = Some (b', f + cyc (N - 1)) /\ st a b' (N - 1)).
    { clear b j Hj Huj Ec S B. intros b j Hj Hj1 Hr S Ec Huj. pose proof (cyc_S j) as Es. destruct (Z.ltb_spec (cyc j) r); [|lia].
      destruct (hop a b j Hn Hj Hj1 S) as (x & b1 & E1 & E2 & S1). rewrite Es in E1.
      replace (f + cyc j + l) with (f + (cyc j + l)) by lia. rewrite E1. cbn [obind]. rewrite E2. cbn [obind]. rewrite <- Es.
      apply IH with (u + 1); auto; try lia; try (rewrite Es, Ec; ring). }
    destruct (Z.ltb_spec (f + i + r) (f + cyc j)) as [G|G].
    + assert (Hj1 : j + 1 < N). { destruct (Z.eq_dec j (N - 1)) as [->|]; [|lia]. rewrite cyc_end in G. lia. }
      pose proof (cyc_S j) as Es. destruct (Z.ltb_spec (cyc j) r); [lia|].
      destruct (hop a b j Hn (proj1 Hj) Hj1 S) as (x & b1 & E1 & E2 & S1).
      replace (f + cyc j - r) with (f + cyc (j + 1)) by (rewrite Es; lia). rewrite E1. cbn [obind]. rewrite E2. cbn [obind].
      assert (Hlt : cyc (j + 1) < r) by (rewrite Es; nia).
      assert (Hj2 : j + 1 + 1 < N). { destruct (Z.eq_dec (j + 1) (N - 1)) as [Q|]; [|lia]. rewrite Q, cyc_end in Hlt. lia. }
      assert (Ec2 : cyc (j + 1) = i + u * l - (j + 1 - u) * r) by (rewrite Es, Ec; ring).
      apply Step; auto; lia.
    + cbn [obind]. destruct (Z.eq_dec (cyc j) (i + r)) as [Q|Q].
      { exfalso. pose proof (cyc_last j Hj Q) as Ej. rewrite Q in Ec. subst j.
        assert (g * (u * N) = g * (R * N)) by lia. nia. }
      assert (Hr : cyc j < r). { destruct (cyc_res j) as [m Em]. assert (g * m < g * R) by lia. assert (m < R) by nia. assert (g * m <= g * (R - 1)) by (apply Z.mul_le_mono_nonneg_l; lia). lia. }
      assert (Hj1 : j + 1 < N). { destruct (Z.eq_dec j (N - 1)) as [->|]; [|lia]. rewrite cyc_end in Q. lia. }
      apply Step; auto; lia.
Qed.
Lemma cycle_gt_ok a : R < L -> f + n <= len a -> forall k b j w, Z.of_nat k = L - 1 - w -> 0 <= w -> 0 <= j < N -> w <= j ->
  cyc j = i + (j - w) * l - w * r -> st a b j ->
  exists b', cycle_gt k b (f + n) (f + cyc j) l r = Some (b', f + cyc (N - 1)) /\ st a b' (N - 1).
Proof.
  intros HLR Hn. induction k as [|k IH]; intros b j w Hk Hw Hj Hwj Ec S.
  - assert (w = L - 1) by lia. subst w. assert (j = N - 1).
    { pose proof (cyc_range j) as B. assert (Q : cyc j = i + r - g * (L * (N - 1 - j))) by (rewrite Ec; ring).
      assert (g * (R - L * (N - 1 - j)) > - g) by nia. assert (R - L * (N - 1 - j) >= 0) by nia. nia. }
    subst j. exists b. split; [reflexivity|exact S].
  - cbn [cycle_gt]. pose proof (cyc_range j) as B.
    assert (Step : forall b j, 0 <= j -> j + 1 < N -> r <= cyc j -> st a b j -> cyc j = i + (j - w) * l - w * r -> w <= j ->
      exists b', (let* x := rd b (f + cyc j - r) in let* b := wr b (f + cyc j) x in cycle_gt k b (f + n) (f + cyc j - r) l r)
         = Some (b', f + cyc (N - 1)) /\ st a b' (N - 1)).
    { clear b j Hj Hwj Ec S B. intros b j Hj Hj1 Hr S Ec Hwj. pose proof (cyc_S j) as Es. destruct (Z.ltb_spec (cyc j) r); [lia|].
      destruct (hop a b j Hn Hj Hj1 S) as (x & b1 & E1 & E2 & S1). rewrite Es in E1.
      replace (f + cyc j - r) with (f + (cyc j - r)) by lia. rewrite E1. cbn [obind]. rewrite E2. cbn [obind]. rewrite <- Es.
      apply IH with (w + 1); auto; try lia; try (rewrite Es, Ec; ring). }
    destruct (Z.ltb_spec (f + cyc j) (f + n - l)) as [G|G].
    + assert (Hlt : cyc j < r) by (ring_simplify in G; nia).
      assert (Hj1 : j + 1 < N). { destruct (Z.eq_dec j (N - 1)) as [->|]; [|lia]. rewrite cyc_end in Hlt. lia. }
      pose proof (cyc_S j) as Es. destruct (Z.ltb_spec (cyc j) r); [|lia].
      destruct (hop a b j Hn (proj1 Hj) Hj1 S) as (x & b1 & E1 & E2 & S1).
      replace (f + cyc j + l) with (f + cyc (j + 1)) by (rewrite Es; lia). rewrite E1. cbn [obind]. rewrite E2. cbn [obind].
      assert (Hge : i + r < cyc (j + 1)) by (rewrite Es; nia).
      assert (Hj2 : j + 1 + 1 < N). { destruct (Z.eq_dec (j + 1) (N - 1)) as [Q|]; [|lia]. rewrite Q, cyc_end in Hge. lia. }
      assert (Ec2 : cyc (j + 1) = i + (j + 1 - w) * l - w * r) by (rewrite Es, Ec; ring).
      apply Step; auto; lia.
    + cbn [obind]. assert (Hr : r <= cyc j) by (ring_simplify in G; nia).
      destruct (Z.eq_dec j (N - 1)) as [Q|Q].
      { exfalso. rewrite Q in Ec. rewrite cyc_end in Ec.
        assert (g * (w * N) = g * ((L - 1) * N)) by lia. nia. }
      apply Step; auto; lia.
Qed.
End Cycle.

Section Cycles.
Context {A : Type}.
Variables (f g L R : Z).
Hypothesis (Hf : 0 <= f) (Hg : 0 < g) (HL : 0 < L) (HR : 0 < R) (Hc : Z.gcd L (L + R) = 1) (HLR : L <> R).
Notation N := (L + R).
Notation l := (g * L).
Notation r := (g * R).
Notation n := (g * (L + R)).
Implicit Types (a b : list A).

(** after the cycles of 0 .. i-1 *)
Definition outer a b (i : Z) : Prop :=
  length b = length a /\
  (forall q, 0 <= q < n -> q mod g < i -> rd b (f + q) = rd a (f + (q + l) mod n)) /\
  (forall q, 0 <= q < n -> i <= q mod g -> rd b (f + q) = rd a (f + q)) /\
  (forall q, q < f \/ f + n <= q -> rd b q = rd a q).

Lemma one_cycle a b i : f + n <= len a -> 0 <= i < g -> outer a b i ->
  exists tmp b1 b2, rd b (f + i) = Some tmp /\
    (if l <? r then cycle_lt (Z.to_nat (Z.quot r g)) b (f + i) (f + i) l r else cycle_gt (Z.to_nat (Z.quot l g - 1)) b (f + n) (f + i) l r) = Some (b1, f + cyc g L R i (N - 1)) /\
    wr b1 (f + cyc g L R i (N - 1)) tmp = Some b2 /\ outer a b2 (i + 1).
Proof.
  intros Hn Hi (El & O1 & O2 & O3). pose proof (n_pos g L R Hg HL HR) as Np.
  pose proof (cyc_range g L R i Hg HL HR) as CR.
  assert (Hin : 0 <= i < n) by nia.
  destruct (rd_ex b (f + i)) as [tmp Et]; [lia|].
  assert (S0 : st f g L R i b b 0). { split; [reflexivity|]. split; [intros; lia|reflexivity]. }
  assert (C : exists b1, (if l <? r then cycle_lt (Z.to_nat (Z.quot r g)) b (f + i) (f + i) l r else cycle_gt (Z.to_nat (Z.quot l g - 1)) b (f + n) (f + i) l r)
      = Some (b1, f + cyc g L R i (N - 1)) /\ st f g L R i b b1 (N - 1)).
  { rewrite (Z.mul_comm g R), Z.quot_mul, (Z.mul_comm g L), Z.quot_mul by lia. rewrite (Z.mul_comm R g), (Z.mul_comm L g).
    pose proof (cyc_0 g L R i Hg HL HR Hi) as C0.
    destruct (Z.ltb_spec l r) as [G|G].
    - replace (cycle_lt (Z.to_nat R) b (f + i) (f + i) l r) with (cycle_lt (Z.to_nat R) b (f + i) (f + cyc g L R i 0) l r) by now rewrite C0.
      apply (cycle_lt_ok f g L R i Hg HL HR Hc Hi Hf b) with (u := 0); auto; try lia; nia.
    - replace (cycle_gt (Z.to_nat (L - 1)) b (f + n) (f + i) l r) with (cycle_gt (Z.to_nat (L - 1)) b (f + n) (f + cyc g L R i 0) l r) by now rewrite C0.
      assert (R < L) by nia. apply (cycle_gt_ok f g L R i Hg HL HR Hc Hi Hf b) with (w := 0); auto; try lia. }
  destruct C as (b1 & E1 & (El1 & S1 & S2)).
  set (e := cyc g L R i (N - 1)) in *. pose proof (cyc_end g L R i Hg HL HR Hi) as Ee. fold e in Ee.
  exists tmp, b1, (up b1 (f + e) tmp). split; [exact Et|]. split; [exact E1|].
  pose proof (CR (N - 1)) as Re. fold e in Re. split; [apply wr_up; lia|].
  assert (Rm : forall t, cyc g L R i t mod g = i).
  { intros t. destruct (cyc_res g L R i Hg HL HR t) as [m ->].
    rewrite (Z.mul_comm g m), Z.mod_add by lia. apply Z.mod_small; lia. }
  assert (Sg : forall t, (cyc g L R i t + l) mod n = cyc g L R i (t + 1)).
  { intros t. unfold cyc. rewrite Z.add_mod_idemp_l by lia. f_equal. ring. }
  split; [rewrite up_length; congruence|]. split; [|split].
  - intros q Hq Hm. destruct (Z.eq_dec (q mod g) i) as [Q|Q].
    + destruct (cyc_surj g L R i Hg HL HR Hc q Hq Q) as (t & Ht & Ec). rewrite <- Ec, Sg.
      destruct (Z.eq_dec t (N - 1)) as [->|Nt].
      * fold e. rewrite rd_up_eq by lia. rewrite <- Et. replace (cyc g L R i (N - 1 + 1)) with i.
        { apply O2; [lia|]. rewrite Z.mod_small; lia. }
        rewrite cyc_S by assumption. fold e. rewrite Ee. destruct (Z.ltb_spec (i + r) r); lia.
      * rewrite rd_up_ne; [|lia|].
        { rewrite S1 by lia. apply O2; [apply CR|]. rewrite Rm. lia. }
        intros C. apply Nt. apply (cyc_inj g L R i Hg HL HR Hc); [lia|lia|]. fold e. lia.
    + rewrite rd_up_ne; [|lia|].
      { rewrite S2; [apply O1; [exact Hq|lia]|]. intros t Ht C. apply Q. rewrite <- (Rm t). f_equal. lia. }
      intros C. apply Q. assert (q = e) by lia. subst q. apply Rm.
  - intros q Hq Hm. assert (Q : q mod g <> i) by lia. rewrite rd_up_ne; [|lia|].
    { rewrite S2; [apply O2; [exact Hq|lia]|]. intros t Ht C. apply Q. rewrite <- (Rm t). f_equal. lia. }
    intros C. apply Q. assert (q = e) by lia. subst q. apply Rm.
  - intros q Hq. rewrite rd_up_ne; [|lia|lia]. rewrite S2; [apply O3; exact Hq|]. intros t Ht. pose proof (CR t). lia.
Qed.
Lemma cycles_ok a : f + n <= len a -> forall k b i, Z.of_nat k = g - i -> 0 <= i <= g -> outer a b i ->
  exists b', cycles k g b (f + i) (f + n) l r = Some b' /\ outer a b' g.
Proof.
  intros Hn. induction k as [|k IH]; intros b i Hk Hi O.
  - exists b. assert (i = g) by lia. subst i. auto.
  - cbn [cycles]. destruct (one_cycle a b i Hn ltac:(lia) O) as (tmp & b1 & b2 & E1 & E2 & E3 & O2).
    rewrite E1. cbn [obind]. rewrite E2. cbn [obind]. rewrite E3. cbn [obind].
    replace (f + i + 1) with (f + (i + 1)) by lia. apply IH; auto; lia.
Qed.
End Cycles.

Lemma rotate_ran_ok {A} (p x y s : list A) i mid last : x <> [] -> y <> [] -> i = len p -> mid = i + len x -> last = mid + len y ->
  rotate_ran (p ++ x ++ y ++ s) i mid last = Some (p ++ y ++ x ++ s, i + len y).
Proof.
  intros Nx Ny Ei Em El. unfold rotate_ran. assert (Lx : 0 < len x) by (destruct x; [congruence|simpl length; lia]).
  assert (Ly : 0 < len y) by (destruct y; [congruence|simpl length; lia]).
  replace (mid - i) with (len x) by lia. replace (last - i - len x) with (len y) by lia. replace (last - mid) with (len y) by lia.
  destruct (Z.eqb_spec (len x) (len y)) as [E|N].
  - pose proof (swap_ranges_ok x (S (Z.to_nat (len x))) y p [] s i mid mid ltac:(lia) Ei Em ltac:(simpl; lia) ltac:(lia)) as W.
    simpl app in W. rewrite W. reflexivity.
  - rewrite rgcd_ok by lia. cbn [obind]. replace (last - i) with (len x + len y) by lia.
    set (g := Z.gcd (len x + len y) (len x)).
    destruct (Z.gcd_divide_r (len x + len y) (len x)) as [L EL]. fold g in EL.
    assert (Hg : 0 < g). { pose proof (Z.gcd_nonneg (len x + len y) (len x)) as G. fold g in G. pose proof (Z.gcd_eq_0_r (len x + len y) (len x)) as G2. fold g in G2. lia. }
    destruct (Z.gcd_divide_l (len x + len y) (len x)) as [M EM]. fold g in EM.
    assert (ER : len y = (M - L) * g) by lia.
    set (R := M - L) in *. assert (HL : 0 < L) by nia. assert (HR : 0 < R) by nia.
    assert (Hc : Z.gcd L (L + R) = 1).
    { pose proof (Z.gcd_div_gcd (len x + len y) (len x) g ltac:(lia) eq_refl) as D.
      rewrite EM, EL in D. rewrite !Z.div_mul in D by lia. replace (L + R) with M by (unfold R; lia).
      rewrite Z.gcd_comm. exact D. }
    assert (HN : L <> R) by (intros Q; apply N; rewrite EL, ER; now f_equal). clearbody R g. clear M EM.
    set (a := p ++ x ++ y ++ s).
    assert (La : len a = len p + len x + len y + len s) by (unfold a; rewrite !app_length; lia).
    destruct (cycles_ok i g L R ltac:(lia) Hg HL HR Hc HN a ltac:(nia) (Z.to_nat g) a 0) as (b & Eb & (Lb & B1 & _ & B3)); try lia.
    { split; [reflexivity|]. split; [|auto]. intros q Hq C. pose proof (Z.mod_pos_bound q g Hg). lia. }
    replace (i + 0) with i in Eb by lia.
    replace last with (i + g * (L + R)) by lia. rewrite EL, ER. rewrite (Z.mul_comm L g), (Z.mul_comm R g). rewrite Eb. cbn [obind].
    f_equal. f_equal. apply list_ext. intros k.
    assert (Hn : g * (L + R) = len x + len y) by lia.
    destruct (Z_lt_dec k i) as [K1|K1]; [|destruct (Z_lt_dec k (i + (len x + len y))) as [K2|K2]].
    + rewrite B3 by lia. unfold a. rewrite !(rd_app_l p) by lia. reflexivity.
    + replace k with (i + (k - i)) by lia. rewrite B1; [|lia|apply Z.mod_pos_bound; lia].
      rewrite Hn. replace (g * L) with (len x) by lia. set (q := k - i). assert (Hq : 0 <= q < len x + len y) by (unfold q; lia). clearbody q.
      unfold a. rewrite Ei, !rd_app_r by (try (apply Z.mod_pos_bound); lia).
      destruct (Z_lt_dec q (len y)) as [G|G].
      * rewrite Z.mod_small by lia. rewrite (rd_app_l y) by lia. replace (q + len x) with (len x + q) by lia.
        rewrite rd_app_r by lia. now rewrite rd_app_l by lia.
      * replace ((q + len x) mod (len x + len y)) with (q - len y).
        -- rewrite (rd_app_l x) by lia. replace q with (len y + (q - len y)) at 2 by lia. rewrite rd_app_r by lia. now rewrite rd_app_l by lia.
        -- apply Z.mod_unique with 1; [left; lia|lia].
    + rewrite B3 by lia. unfold a.
      replace (p ++ x ++ y ++ s) with ((p ++ x ++ y) ++ s) by (rewrite <- !app_assoc; reflexivity).
      replace (p ++ y ++ x ++ s) with ((p ++ y ++ x) ++ s) by (rewrite <- !app_assoc; reflexivity).
      set (d := k - (len p + len x + len y)). assert (0 <= d) by (unfold d; lia).
      replace k with (len (p ++ x ++ y) + d) at 1 by (rewrite !app_length; unfold d; lia).
      replace k with (len (p ++ y ++ x) + d) by (rewrite !app_length; unfold d; lia).
      now rewrite !rd_app_r by lia.
Qed.
