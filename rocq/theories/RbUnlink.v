(** Red-black trees in memory: taking a node out, and erase as a whole. *)
From Coq Require Import ZArith List Bool Lia.
From Verif Require Import F64 RbModel RbProof RbErase.
Import ListNotations.
Open Scope Z_scope.
Open Scope opt_scope.

Section Proof.
Context {V : Type}.
Notation mem := (@memory V).
Notation nd := (@nd V).
Notation tree := (@tree V).
Notation frame := (@frame V).
Implicit Types (m : mem) (h p q x y z a : Z) (s c : bool) (v : V) (t l r b : tree) (k : list frame) (e : list (Z * V)).
Ltac dist D z := let DD := fresh in pose proof (D z) as DD; cbn [tc kc] in DD; rewrite ?tc_mk, ?one_refl in DD; lia.

(** the nodes before and after an open place *)
Fixpoint lefts k : list (Z * V) := match k with [] => [] | F true _ _ _ _ :: k => lefts k | F false a _ v b :: k => lefts k ++ nodes b ++ [(a, v)] end.
Fixpoint rights k : list (Z * V) := match k with [] => [] | F true a _ v b :: k => (a, v) :: nodes b ++ rights k | F false _ _ _ _ :: k => rights k end.
Lemma plug_nodes k : forall t, nodes (plug k t) = lefts k ++ nodes t ++ rights k.
Proof.
  induction k as [|[s a c v b] k IH]; intros t; [simpl; now rewrite app_nil_r|]. simpl plug. rewrite IH. destruct s; simpl; rewrite <- !app_assoc; simpl; rewrite <- ?app_assoc; reflexivity.
Qed.
Definition first h e : Z := match e with [] => h | (a, _) :: _ => a end.
Definition final h e : Z := first h (rev e).
Lemma final_last h e a v : final h (e ++ [(a, v)]) = a.
Proof. unfold final. now rewrite rev_unit. Qed.
Lemma lefts_nil h k : lefts k = [] -> first h (rights k) = up h k.
Proof. destruct k as [|[[|] a c v b] k]; simpl; try reflexivity. intros H. apply app_eq_nil in H as [_ H]. apply app_eq_nil in H as [_ H]. discriminate. Qed.
Lemma rights_nil h k : rights k = [] -> final h (lefts k) = up h k.
Proof. destruct k as [|[[|] a c v b] k]; simpl; try reflexivity; [discriminate|]. intros _. rewrite app_assoc. apply final_last. Qed.

(** ** leftmost and rightmost nodes *)
Lemma tmin_ok fuel : forall m p t, t <> E -> rep m p t -> (forall z, (one 0 z + tc z t <= 1)%nat) -> (length (nodes t) <= fuel)%nat ->
  exists k y c v r, t = plug k (N y c E v r) /\ lefts k = [] /\ tmin fuel m (rt t) = Some y.
Proof.
  induction fuel as [|fuel IH]; intros m p t T H D Hf; (destruct t as [|a c l v r]; [congruence|]); simpl in Hf; rewrite app_length in Hf; simpl in Hf; [lia|].
  destruct H as (Ha & Hl & Hr). assert (A0 : a <> 0) by (intros ->; dist D 0). cbn [tmin rt]. rewrite (get_eq _ _ _ A0 Ha). cbn [obind lft]. destruct l as [|al cl ll vl rl].
  - exists [], a, c, v, r. auto.
  - assert (L0 : al <> 0) by (intros ->; dist D 0). cbn [rt]. rewrite (proj2 (Z.eqb_neq al 0) L0).
    destruct (IH m a (N al cl ll vl rl)) as (k & y & cy & vy & ry & E1 & L1 & E2); [discriminate|exact Hl|intros z; specialize (D z); cbn [tc] in D |- *; lia|lia|].
    exists (k ++ [F true a c v r]), y, cy, vy, ry. split; [|split; [|exact E2]].
    + rewrite E1. clear. generalize (N y cy E vy ry). induction k as [|[s' a' c' v' b'] k IH]; intros t; simpl; [reflexivity|]. apply IH.
    + clear -L1. induction k as [|[s' a' c' v' b'] k IH]; [reflexivity|]. simpl in *. destruct s'; [auto|]. apply app_eq_nil in L1 as [_ L1]. apply app_eq_nil in L1 as [_ L1]. discriminate.
Qed.
Lemma tmin_first fuel m p t h : t <> E -> rep m p t -> (forall z, (one 0 z + tc z t <= 1)%nat) -> (length (nodes t) <= fuel)%nat -> tmin fuel m (rt t) = Some (first h (nodes t)).
Proof.
  intros T H D Hf. destruct (tmin_ok fuel m p t T H D Hf) as (k & y & c & v & r & E1 & L & E2). rewrite E2, E1, plug_nodes, L. reflexivity.
Qed.
Lemma tmax_final fuel : forall m p t h, t <> E -> rep m p t -> (forall z, (one 0 z + tc z t <= 1)%nat) -> (length (nodes t) <= fuel)%nat -> tmax fuel m (rt t) = Some (final h (nodes t)).
Proof.
  induction fuel as [|fuel IH]; intros m p t h T H D Hf; (destruct t as [|a c l v r]; [congruence|]); simpl in Hf; rewrite app_length in Hf; simpl in Hf; [lia|].
  destruct H as (Ha & Hl & Hr). assert (A0 : a <> 0) by (intros ->; dist D 0). cbn [tmax rt]. rewrite (get_eq _ _ _ A0 Ha). cbn [obind rgt]. destruct r as [|al cl ll vl rl].
  - cbn [rt]. rewrite Z.eqb_refl. simpl. now rewrite final_last.
  - assert (L0 : al <> 0) by (intros ->; dist D 0). cbn [rt]. rewrite (proj2 (Z.eqb_neq al 0) L0).
    change al with (rt (N al cl ll vl rl)). rewrite (IH m a (N al cl ll vl rl) h); [|discriminate|exact Hr|intros z; specialize (D z); cbn [tc] in D |- *; lia|lia].
    f_equal. simpl nodes. unfold final. rewrite (rev_app_distr (nodes l)). simpl. rewrite <- app_assoc.
    rewrite rev_app_distr. simpl. rewrite <- app_assoc. destruct (rev (nodes rl)) as [|[u w] q]; reflexivity.
Qed.

(** ** the fields of the header *)
Lemma W_setlm m R h lm rm k t lm' : W m R h lm rm k t -> exists m', set_lft m h lm' = Some m' /\ W m' R h lm' rm k t.
Proof.
  intros H. unfold set_lft. rewrite (W_hdr _ _ H). cbn [obind par rgt col val]. eexists. split; [reflexivity|]. destruct H as [H1 H2 H3 D HR]. constructor; auto.
  - apply put_eq.
  - apply (seg_frame m); [|exact H2]. intros z Hz. apply put_ne. intros ->. dist D h.
  - apply (rep_frame m); [|exact H3]. intros z Hz. apply put_ne. intros ->. dist D h.
  - intros z Hz. rewrite put_ne; [now apply HR|]. intros ->. rewrite one_refl in Hz. lia.
Qed.
Lemma W_setrm m R h lm rm k t rm' : W m R h lm rm k t -> exists m', set_rgt m h rm' = Some m' /\ W m' R h lm rm' k t.
Proof.
  intros H. unfold set_rgt. rewrite (W_hdr _ _ H). cbn [obind par lft col val]. eexists. split; [reflexivity|]. destruct H as [H1 H2 H3 D HR]. constructor; auto.
  - apply put_eq.
  - apply (seg_frame m); [|exact H2]. intros z Hz. apply put_ne. intros ->. dist D h.
  - apply (rep_frame m); [|exact H3]. intros z Hz. apply put_ne. intros ->. dist D h.
  - intros z Hz. rewrite put_ne; [now apply HR|]. intros ->. rewrite one_refl in Hz. lia.
Qed.
Lemma W_1t m R h lm rm k t : W m R h lm rm k t -> forall z, (one 0 z + tc z t <= 1)%nat.
Proof. intros [_ _ _ D _] z. specialize (D z). lia. Qed.

(** ** a node with at most one child *)
Lemma unlink1_ok fuel m R h lm rm k z c l v r t : W m R h lm rm k (N z c l v r) -> (l = E /\ t = r \/ r = E /\ t = l) -> (length (nodes t) <= fuel)%nat ->
  exists m' n, unlink1 fuel m h z (rt t) = Some (m', up h k) /\ W m' (put R z n) h (if lm =? z then first (up h k) (nodes t) else lm) (if rm =? z then final (up h k) (nodes t) else rm) k t /\ col n = Some c /\ val n = Some v.
Proof.
  intros H T Hf. unfold unlink1. destruct (W_node _ _ _ _ _ _ H) as (Gz & Z0 & Zh). rewrite Gz. cbn [obind par]. cbv zeta. pose proof (W_h0 _ _ H) as H0.
  destruct H as [Hh Hs (Hz & Hl & Hr) D HR]. cbn [rt] in *.
  assert (Ht : rep m z t) by (destruct T as [[_ ->]|[_ ->]]; assumption).
  assert (Dt : forall w, (one 0 w + one h w + kc w k + (one z w + tc w t) <= 1)%nat) by (intros w; specialize (D w); cbn [tc] in D; destruct T as [[-> ->]|[-> ->]]; cbn [tc] in D; lia).
  assert (DR : forall w, (one 0 w + one h w + kc w k + (one z w + tc w t))%nat = 0%nat -> m w = R w) by (intros w Hw; apply HR; cbn [tc]; destruct T as [[-> ->]|[-> ->]]; cbn [tc]; lia).
  clear D HR T Hl Hr. rename Dt into D.
  destruct (rep_set_par m z (up h k) t Ht) as (m1 & E1 & Ht1 & F1 & _); [intros w; specialize (D w); lia|]. rewrite E1. cbn [obind].
  assert (Zt : forall w, (1 <= one h w + one z w + kc w k)%nat -> w <> rt t).
  { intros w Hw ->. destruct t as [|a ca ta va tb]; cbn [rt] in *; [pose proof (D 0) as DD; rewrite one_refl in DD; lia|dist D a]. }
  assert (M1z : m1 z = Some (mkNd (up h k) (rt l) (rt r) (Some c) (Some v))) by (rewrite F1; [exact Hz|apply Zt; rewrite one_refl; lia]).
  set (n := mkNd (up h k) (rt l) (rt r) (Some c) (Some v)) in *.
  destruct (relink_ok m1 h lm rm k z (rt t) (up h k) n H0 Z0) as (m2 & E2 & Hh2 & Hk2 & F2); [rewrite F1; [exact Hh|apply Zt; rewrite one_refl; lia]| |exact M1z|reflexivity|intros w; specialize (D w); lia|reflexivity|].
  { apply (seg_frame m); [|exact Hs]. intros w Hw. apply F1. apply Zt. lia. }
  rewrite E2. cbn [obind].
  assert (Uk : forall w, (1 <= one z w + tc w t)%nat -> w <> up h k). { intros w Hw ->. destruct k as [|[s' a ca va ba] k]; cbn [up] in *; [dist D h|dist D a]. }
  assert (H2 : W m2 (put R z n) h lm rm k t).
  { constructor.
    - exact Hh2.
    - exact Hk2.
    - apply (rep_frame m1); [|exact Ht1]. intros w Hw. apply F2. apply Uk. lia.
    - intros w. specialize (D w). lia.
    - intros w Hw. destruct (Z.eq_dec w z) as [->|Wz].
      + rewrite put_eq. rewrite F2 by (apply Uk; rewrite one_refl; lia). exact M1z.
      + rewrite put_ne by exact Wz. rewrite F2, F1.
        * apply DR. rewrite (one_ne z w) by congruence. lia.
        * intros ->. destruct t as [|a ca ta va tb]; cbn [rt tc] in *; rewrite one_refl in Hw; lia.
        * intros ->. destruct k as [|[s' a ca va ba] k]; cbn [up kc] in *; rewrite one_refl in Hw; lia. }
  assert (Cn : col n = Some c /\ val n = Some v) by (split; reflexivity). clearbody n. clear - H2 Hf Z0 Cn.
  rewrite (W_hdr _ _ H2). cbn [obind lft].
  assert (P1 : exists m3, (if lm =? z then let* lm := if rt t =? 0 then Some (up h k) else tmin fuel m2 (rt t) in set_lft m2 h lm else Some m2) = Some m3 /\
    W m3 (put R z n) h (if lm =? z then first (up h k) (nodes t) else lm) rm k t).
  { destruct (lm =? z); [|exists m2; auto]. destruct t as [|a ca ta va tb].
    - cbn [rt]. rewrite Z.eqb_refl. cbn [obind]. apply (W_setlm _ _ _ _ _ _ _ (up h k)) in H2. exact H2.
    - destruct (W_node _ _ _ _ _ _ H2) as (_ & A0 & _). cbn [rt]. rewrite (proj2 (Z.eqb_neq a 0) A0). change a with (rt (N a ca ta va tb)) at 1.
      rewrite (tmin_first fuel m2 (up h k) _ (up h k)); [|discriminate|exact (W_t _ _ _ _ _ _ _ H2)|exact (W_1t _ _ _ _ _ _ _ H2)|exact Hf]. cbn [obind].
      now apply W_setlm with (lm := lm). }
  destruct P1 as (m3 & E3 & H3). rewrite E3. cbn [obind]. clear H2 E3 m2. set (lm' := if lm =? z then first (up h k) (nodes t) else lm) in *. clearbody lm'.
  rewrite (W_hdr _ _ H3). cbn [obind rgt].
  assert (P1 : exists m4, (if rm =? z then let* rm := if rt t =? 0 then Some (up h k) else tmax fuel m3 (rt t) in set_rgt m3 h rm else Some m3) = Some m4 /\
    W m4 (put R z n) h lm' (if rm =? z then final (up h k) (nodes t) else rm) k t).
  { destruct (rm =? z); [|exists m3; auto]. destruct t as [|a ca ta va tb].
    - cbn [rt]. rewrite Z.eqb_refl. cbn [obind]. apply (W_setrm _ _ _ _ _ _ _ (up h k)) in H3. exact H3.
    - destruct (W_node _ _ _ _ _ _ H3) as (_ & A0 & _). cbn [rt]. rewrite (proj2 (Z.eqb_neq a 0) A0). change a with (rt (N a ca ta va tb)) at 1.
      rewrite (tmax_final fuel m3 (up h k) _ (up h k)); [|discriminate|exact (W_t _ _ _ _ _ _ _ H3)|exact (W_1t _ _ _ _ _ _ _ H3)|exact Hf]. cbn [obind].
      now apply W_setrm with (rm := rm). }
  destruct P1 as (m4 & E4 & H4). rewrite E4. cbn [obind]. exists m4, n. tauto.
Qed.

(** ** a node with two children *)
Lemma tc_plug w k : forall t, tc w (plug k t) = (kc w k + tc w t)%nat.
Proof. induction k as [|[s a c v b] k IH]; intros t; [reflexivity|]. cbn [plug kc]. rewrite IH, tc_mk. lia. Qed.
Lemma rt_plug k : forall t, rt (plug k t) = top k (rt t).
Proof. induction k as [|[s a c v b] k IH]; intros t; [reflexivity|]. cbn [plug top]. now rewrite IH, rt_mk. Qed.
Lemma rep_plug m p k : forall t, rep m p (plug k t) <-> seg m p k (rt t) /\ rep m (up p k) t.
Proof.
  induction k as [|[s a c v b] k IH]; intros t; [simpl; tauto|]. cbn [plug up]. rewrite IH, rep_mk, rt_mk. cbn [seg]. tauto.
Qed.

Definition tail2 m h z y : option mem :=
  let* m := relink m h z y in
  let* nz := get m z in
  let* m := set_par m y (par nz) in
  let* ny := get m y in
  let* nz := get m z in
  let* m := set_col m y (col nz) in
  set_col m z (col ny).
Lemma tail2_ok m R h lm rm k z c v pl pr y cy vy py l r :
  h <> 0 -> m h = Some (mkNd (top k z) lm rm (Some false) None) -> seg m h k z -> m z = Some (mkNd (up h k) pl pr (Some c) (Some v)) ->
  m y = Some (mkNd py (rt l) (rt r) (Some cy) (Some vy)) -> rep m y l -> rep m y r ->
  (forall w, (one 0 w + one h w + kc w k + one z w + one y w + tc w l + tc w r <= 1)%nat) ->
  (forall w, (one 0 w + one h w + kc w k + one z w + one y w + tc w l + tc w r)%nat = 0%nat -> m w = R w) ->
  exists m' n, tail2 m h z y = Some m' /\ W m' (put R z n) h lm rm k (N y c l vy r) /\ col n = Some cy /\ val n = Some v.
Proof.
  intros H0 Hh Hs Hz Hy Hl Hr D DR. unfold tail2.
  assert (Z0 : z <> 0) by (intros ->; dist D 0). assert (Y0 : y <> 0) by (intros ->; dist D 0).
  assert (YZ : y <> z) by (intros ->; dist D z). assert (Zh : z <> h) by (intros ->; dist D h). assert (Yh : y <> h) by (intros ->; dist D h).
  set (nz := mkNd (up h k) pl pr (Some c) (Some v)) in *.
  destruct (relink_ok m h lm rm k z y (up h k) nz H0 Z0 Hh Hs Hz eq_refl) as (m1 & E1 & Hh1 & Hs1 & F1); [intros w; specialize (D w); lia|reflexivity|].
  rewrite E1. cbn [obind].
  assert (U : forall w, (1 <= one z w + one y w + tc w l + tc w r)%nat -> w <> up h k). { intros w Hw ->. destruct k as [|[s' a ca va ba] k]; cbn [up] in *; [dist D h|dist D a]. }
  assert (Hz1 : m1 z = Some nz) by (rewrite F1; [exact Hz|apply U; rewrite one_refl; lia]).
  assert (Hy1 : m1 y = Some (mkNd py (rt l) (rt r) (Some cy) (Some vy))) by (rewrite F1; [exact Hy|apply U; rewrite one_refl; lia]).
  rewrite (get_eq m1 z _ Z0 Hz1). cbn [obind par nz]. unfold set_par. rewrite (get_eq m1 y _ Y0 Hy1). cbn [obind lft rgt col val].
  rewrite (get_eq _ y _ Y0 (put_eq _ _ _)). cbn [obind]. rewrite (get_eq _ z nz Z0) by (rewrite put_ne by congruence; exact Hz1). cbn [obind].
  unfold set_col. rewrite (get_eq _ y _ Y0 (put_eq _ _ _)). cbn [obind par lft rgt val col].
  rewrite (get_eq _ z nz Z0) by (rewrite !put_ne by congruence; exact Hz1). unfold nz. cbn [obind par lft rgt val col].
  eexists; eexists. split; [reflexivity|]. split; [|split; [|exact (eq_refl : val (mkNd (up h k) pl pr (Some cy) (Some v)) = _)]; reflexivity].
  set (m2 := put _ z _).
  assert (F2 : forall w, w <> z -> w <> y -> m2 w = m1 w) by (intros w Wz Wy; unfold m2; now rewrite !put_ne by assumption).
  constructor.
  - cbn [rt]. rewrite F2 by congruence. exact Hh1.
  - cbn [rt]. apply (seg_frame m1); [|exact Hs1]. intros w Hw. apply F2; intros ->; [dist D z|dist D y].
  - cbn [rep]. split; [|split].
    + unfold m2. rewrite put_ne by congruence. apply put_eq.
    + apply (rep_frame m); [|exact Hl]. intros w Hw. rewrite F2; [apply F1; apply U; lia|intros ->; dist D z|intros ->; dist D y].
    + apply (rep_frame m); [|exact Hr]. intros w Hw. rewrite F2; [apply F1; apply U; lia|intros ->; dist D z|intros ->; dist D y].
  - intros w. specialize (D w). cbn [tc]. lia.
  - intros w Hw. cbn [tc] in Hw. destruct (Z.eq_dec w z) as [->|Wz].
    + unfold m2. now rewrite !put_eq.
    + rewrite (put_ne R) by exact Wz. rewrite F2; [|exact Wz|intros ->; rewrite one_refl in Hw; lia]. rewrite F1.
      * apply DR. rewrite (one_ne z w) by congruence. lia.
      * intros ->. destruct k as [|[s' a ca va ba] k]; cbn [up kc] in *; rewrite one_refl in Hw; lia.
Qed.

Lemma unlink2_ok m R h lm rm k z c l v (k1 : list frame) y cy (vy : V) (x : tree) : W m R h lm rm k (N z c l v (plug k1 (N y cy E vy x))) -> l <> E -> lefts k1 = [] ->
  exists m' n, unlink2 m h z y (rt x) = Some (m', up y k1) /\ W m' (put R z n) h lm rm k (N y c l vy (plug k1 x)) /\ col n = Some cy /\ val n = Some v.
Proof.
  intros H L0 L1. unfold unlink2. destruct (W_node _ _ _ _ _ _ H) as (Gz & Z0 & Zh). rewrite Gz. cbn [obind lft rgt]. pose proof (W_h0 _ _ H) as H0.
  destruct H as [Hh Hs (Hz & Hl & Hr) D HR]. cbn [rt] in *. rewrite rt_plug in *. cbn [rt] in *. apply rep_plug in Hr as (Hk1 & Hy & _ & Hx). cbn [rt] in *.
  assert (D' : forall w, (one 0 w + one h w + kc w k + one z w + one y w + tc w l + kc w k1 + tc w x <= 1)%nat) by (intros w; specialize (D w); cbn [tc] in D; rewrite tc_plug in D; cbn [tc] in D; lia).
  assert (R' : forall w, (one 0 w + one h w + kc w k + one z w + one y w + tc w l + kc w k1 + tc w x)%nat = 0%nat -> m w = R w) by (intros w Hw; apply HR; cbn [tc]; rewrite tc_plug; cbn [tc]; lia).
  clear D HR. rename D' into D. rename R' into HR.
  assert (Y0 : y <> 0) by (intros ->; dist D 0). assert (YZ : y <> z) by (intros ->; dist D z). assert (Yh : y <> h) by (intros ->; dist D h).
  destruct (rep_set_par m z y l Hl) as (m1 & E1 & Hl1 & F1 & _); [intros w; specialize (D w); lia|].
  assert (Rl : rt l <> 0) by (destruct l as [|al cl ll vl rl]; [congruence|]; cbn [rt]; intros ->; dist D 0).
  rewrite (proj2 (Z.eqb_neq _ _) Rl) in E1. rewrite E1. cbn [obind].
  assert (Ll : forall w, (1 <= one h w + kc w k + one z w + one y w + kc w k1 + tc w x)%nat -> w <> rt l). { intros w Hw ->. destruct l as [|al cl ll vl rl]; [congruence|]. cbn [rt] in *. dist D al. }
  assert (Gy : get m1 y = Some (mkNd (up z k1) 0 (rt x) (Some cy) (Some vy))) by (apply get_eq; [exact Y0|]; rewrite F1; [exact Hy|apply Ll; rewrite one_refl; lia]).
  unfold set_lft at 1. rewrite Gy. cbn [obind par rgt col val].
  set (m2 := put m1 y _).
  assert (F2 : forall w, w <> y -> w <> rt l -> m2 w = m w) by (intros w Wy Wl; unfold m2; rewrite put_ne by exact Wy; now apply F1).
  assert (Hl2 : rep m2 y l) by (apply (rep_frame m1); [intros w Hw; apply put_ne; intros ->; dist D y|exact Hl1]).
  assert (Hz2 : m2 z = Some (mkNd (up h k) (rt l) (top k1 y) (Some c) (Some v))) by (rewrite F2; [exact Hz|congruence|apply Ll; rewrite one_refl; lia]).
  assert (Hh2 : m2 h = Some (mkNd (top k z) lm rm (Some false) None)) by (rewrite F2; [exact Hh|congruence|apply Ll; rewrite one_refl; lia]).
  assert (Hs2 : seg m2 h k z) by (apply (seg_frame m); [|exact Hs]; intros w Hw; apply F2; [intros ->; dist D y|apply Ll; lia]).
  assert (Hk2 : seg m2 z k1 y) by (apply (seg_frame m); [|exact Hk1]; intros w Hw; apply F2; [intros ->; dist D y|apply Ll; lia]).
  assert (Hx2 : rep m2 y x) by (apply (rep_frame m); [|exact Hx]; intros w Hw; apply F2; [intros ->; dist D y|apply Ll; lia]).
  assert (Hy2 : m2 y = Some (mkNd (up z k1) (rt l) (rt x) (Some cy) (Some vy))) by apply put_eq.
  assert (R2 : forall w, (one 0 w + one h w + kc w k + one z w + one y w + tc w l + kc w k1 + tc w x)%nat = 0%nat -> m2 w = R w).
  { intros w Hw. rewrite F2; [now apply HR|intros ->; rewrite one_refl in Hw; lia|intros ->; destruct l as [|al cl ll vl rl]; [congruence|]; cbn [rt tc] in Hw; rewrite one_refl in Hw; lia]. }
  clearbody m2. clear Hl1 F1 Gy F2 E1 m1 Gz Hh Hs Hz Hl Hy Hk1 Hx HR Ll m.
  cut (exists m5 py, (if negb (y =? top k1 y) then
      let* ny := get m2 y in
      let* m := if rt x =? 0 then Some m2 else set_par m2 (rt x) (par ny) in
      let* m := set_lft m (par ny) (rt x) in
      let* m := set_rgt m y (top k1 y) in
      let* m := set_par m (top k1 y) y in
      Some (m, par ny)
    else Some (m2, y)) = Some (m5, up y k1) /\ m5 h = Some (mkNd (top k z) lm rm (Some false) None) /\ seg m5 h k z /\
      m5 z = Some (mkNd (up h k) (rt l) (top k1 y) (Some c) (Some v)) /\ m5 y = Some (mkNd py (rt l) (rt (plug k1 x)) (Some cy) (Some vy)) /\ rep m5 y l /\ rep m5 y (plug k1 x) /\
      (forall w, (one 0 w + one h w + kc w k + one z w + one y w + tc w l + kc w k1 + tc w x)%nat = 0%nat -> m5 w = R w)).
  { intros (m5 & py & E5 & Hh5 & Hs5 & Hz5 & Hy5 & Hl5 & Hx5 & R5). rewrite E5. cbn [obind].
    destruct (tail2_ok m5 R h lm rm k z c v (rt l) (top k1 y) y cy vy py l (plug k1 x) H0 Hh5 Hs5 Hz5 Hy5 Hl5 Hx5) as (m' & n & E6 & A6 & B6).
    { intros w. rewrite tc_plug. specialize (D w). lia. }
    { intros w Hw. apply R5. rewrite tc_plug in Hw. lia. }
    exists m', n. split; [|auto]. unfold tail2 in E6. revert E6. destruct (relink m5 h z y) as [n1|]; [|discriminate]. cbn [obind].
    destruct (get n1 z) as [n2|]; [|discriminate]. cbn [obind]. destruct (set_par n1 y (par n2)) as [n3|]; [|discriminate]. cbn [obind].
    destruct (get n3 y) as [n4|]; [|discriminate]. cbn [obind]. destruct (get n3 z) as [n5|]; [|discriminate]. cbn [obind].
    destruct (set_col n3 y (col n5)) as [n6|]; [|discriminate]. cbn [obind]. intros ->. reflexivity. }
  destruct k1 as [|[s1 xp cx vx bx] k1].
  - cbn [top]. rewrite Z.eqb_refl. cbn [negb]. exists m2, z. cbn [up plug top] in *. auto 10.
  - assert (s1 = true) as -> by (destruct s1; [reflexivity|]; simpl in L1; apply app_eq_nil in L1 as [_ L1]; apply app_eq_nil in L1 as [_ L1]; discriminate).
    assert (T : (1 <= kc (top (F true xp cx vx bx :: k1) y) (F true xp cx vx bx :: k1))%nat) by (apply top_in; discriminate).
    rewrite (proj2 (Z.eqb_neq y (top (F true xp cx vx bx :: k1) y))) by (intros Q; rewrite <- Q in T; cbn [kc] in T; dist D y). cbn [negb].
    rewrite (get_eq _ _ _ Y0 Hy2). cbn [obind par up]. cbn [up] in Hy2.
    destruct (rep_set_par m2 y xp x Hx2) as (m3 & E3 & Hx3 & F3 & _); [intros w; specialize (D w); lia|]. rewrite E3. cbn [obind].
    assert (X0 : xp <> 0) by (intros ->; dist D 0).
    assert (Lx : forall w, (1 <= one h w + kc w k + one z w + one y w + kc w (F true xp cx vx bx :: k1) + tc w l)%nat -> w <> rt x).
    { intros w Hw ->. destruct x as [|al cl ll vl rl]; cbn [rt kc] in *; [dist D 0|dist D al]. }
    destruct Hk2 as (Hxp & Hbx & Hk1).
    assert (Hxp3 : m3 xp = Some (cell (up z k1) true y (rt bx) cx vx)) by (rewrite F3; [exact Hxp|apply Lx; cbn [kc]; rewrite one_refl; lia]).
    pose proof (set_kid_cell true m3 xp _ _ _ _ _ (rt x) X0 Hxp3) as E4. unfold set_kid in E4. rewrite E4. cbn [obind]. clear E4.
    set (m4 := put m3 xp _).
    assert (F4 : forall w, w <> xp -> w <> rt x -> m4 w = m2 w) by (intros w A B; unfold m4; rewrite put_ne by exact A; now apply F3).
    assert (XY : xp <> y) by (intros ->; dist D y).
    assert (Hy4 : m4 y = Some (mkNd xp (rt l) (rt x) (Some cy) (Some vy))) by (rewrite F4; [exact Hy2|congruence|apply Lx; rewrite one_refl; lia]).
    unfold set_rgt. rewrite (get_eq _ _ _ Y0 Hy4). cbn [obind par lft col val].
    set (m5 := put m4 y _).
    assert (F5 : forall w, w <> y -> w <> xp -> w <> rt x -> m5 w = m2 w) by (intros w A B C; unfold m5; rewrite put_ne by exact A; now apply F4).
    assert (P5 : rep m5 z (plug (F true xp cx vx bx :: k1) x)).
    { apply rep_plug. split; [|].
      - cbn [seg]. split; [|split].
        + unfold m5. rewrite put_ne by exact XY. apply put_eq.
        + apply (rep_frame m2); [|exact Hbx]. intros w Hw. apply F5; [intros ->; dist D y|intros ->; dist D xp|apply Lx; cbn [kc]; lia].
        + apply (seg_frame m2); [|exact Hk1]. intros w Hw. apply F5; [intros ->; dist D y|intros ->; dist D xp|apply Lx; cbn [kc]; lia].
      - cbn [up]. apply (rep_frame m3); [|exact Hx3]. intros w Hw. unfold m5. rewrite put_ne by (intros ->; dist D y). apply put_ne. intros ->; dist D xp. }
    destruct (rep_set_par m5 z y _ P5) as (m6 & E6 & P6 & F6 & _); [intros w; rewrite tc_plug; specialize (D w); lia|].
    rewrite rt_plug in E6, F6. change (top (F true xp cx vx bx :: k1) (rt x)) with (top (F true xp cx vx bx :: k1) y) in E6, F6. set (tp := top (F true xp cx vx bx :: k1) y) in *.
    assert (T0 : tp <> 0) by (intros Q; rewrite Q in T; cbn [kc] in T; dist D 0). rewrite (proj2 (Z.eqb_neq _ _) T0) in E6. rewrite E6. cbn [obind].
    assert (F7 : forall w, (1 <= one h w + kc w k + one z w + tc w l)%nat -> m6 w = m2 w).
    { intros w Hw. rewrite F6 by (intros ->; cbn [kc] in T; dist D tp). apply F5; [intros ->; dist D y|intros ->; dist D xp|apply Lx; lia]. }
    exists m6, xp. split; [reflexivity|]. split; [rewrite F7; [exact Hh2|rewrite one_refl; lia]|]. split; [apply (seg_frame m2); [intros w Hw; apply F7; lia|exact Hs2]|].
    split; [rewrite F7; [exact Hz2|rewrite one_refl; lia]|]. split; [|split; [|split; [exact P6|]]].
    + rewrite F6 by (intros Q; rewrite <- Q in T; cbn [kc] in T; dist D y). rewrite rt_plug. apply put_eq.
    + apply (rep_frame m2); [intros w Hw; apply F7; lia|exact Hl2].
    + intros w Hw. rewrite F6 by (intros ->; lia). rewrite F5; [apply R2; exact Hw|intros ->; rewrite one_refl in Hw; lia|intros ->; cbn [kc] in Hw; rewrite one_refl in Hw; lia|].
      intros ->. destruct x as [|al cl ll vl rl]; cbn [rt tc] in Hw; rewrite one_refl in Hw; lia.
Qed.

(** ** the balance after a node is gone *)
Lemma bal_plug k : forall t, rbtree (plug k t) -> exists n, bal t n /\ balc k n /\ (kblk k = false -> blk t = true).
Proof.
  induction k as [|[s a c v b] k IH]; intros t H.
  - destruct H as [H1 [n H2]]. exists n. simpl. auto.
  - apply IH in H as (n & H1 & H2 & H3). rewrite blk_mk in H3. destruct c.
    + destruct n as [|n]; [destruct s; contradiction|]. apply bal_mk_t in H1 as [H1 H4]. exists n. simpl. split; [exact H1|]. split; [auto|discriminate].
    + apply bal_mk_f in H1 as (H1 & H4 & H5 & H6). exists n. simpl. split; [exact H5|]. split; [|auto]. split; [exact H6|]. split; [exact H4|]. split; [|exact H2]. destruct (kblk k); [reflexivity|]. now apply H3.
Qed.
Lemma balc_swap s a a' c v v' b k : forall k1 n, balc (k1 ++ F s a c v b :: k) n -> balc (k1 ++ F s a' c v' b :: k) n.
Proof.
  assert (Q : forall k1, kblk (k1 ++ F s a c v b :: k) = kblk (k1 ++ F s a' c v' b :: k)) by (intros [|[s1 a1 c1 v1 b1] k1]; reflexivity).
  induction k1 as [|[s1 a1 c1 v1 b1] k1 IH]; intros n H; [exact H|]. simpl app in *. cbn [balc] in *. rewrite <- Q. destruct c1; intuition auto.
Qed.
Lemma plug_app k2 : forall k1 t, plug (k1 ++ k2) t = plug k2 (plug k1 t).
Proof. induction k1 as [|[s a c v b] k1 IH]; intros t; [reflexivity|]. simpl. apply IH. Qed.
Lemma len_ctx k t : (length k + length (nodes t) <= length (nodes (plug k t)))%nat.
Proof. revert t. induction k as [|[s a c v b] k IH]; intros t; [simpl; lia|]. simpl plug. specialize (IH (mk s a c t v b)). destruct s; simpl in *; rewrite app_length in IH; simpl in IH; lia. Qed.

Lemma era_fin fuel m R h lm rm k y c l v r t n : (S (length k) < fuel)%nat -> W m R h lm rm k t -> (l = E /\ t = r \/ r = E /\ t = l) ->
  bal (N y c l v r) n -> balc k n -> (kblk k = false -> c = true) ->
  exists m' T, (if negb c then Some m else let* (m, x) := era_loop fuel m h (rt t) (up h k) in finish m x) = Some m' /\ W m' R h lm rm [] T /\ nodes T = nodes (plug k t) /\ rbtree T.
Proof.
  intros Hf H T B K C. destruct c; cbn [negb].
  - destruct n as [|n]; [destruct B|]. destruct B as [B1 B2]. assert (B : bal t n /\ n = 0%nat) by (destruct T as [[-> ->]|[-> ->]]; simpl in *; auto). destruct B as [B ->]. clear B1 B2 T.
    apply (era_loop_ok fuel k m t 0 Hf H); [|exact K]. destruct t as [|a [|] la va ra]; [left; auto|left; auto|]. right. exists a, la, va, ra. destruct B as (_ & _ & B1 & B2). auto.
  - destruct B as (B1 & B2 & B3 & B4). exists m, (plug k t). split; [reflexivity|]. split; [exact (proj1 (W_plug _ _ _ _ _ _ _) H)|]. split; [reflexivity|].
    assert (B : bal t n /\ blk t = true) by (destruct T as [[-> ->]|[-> ->]]; auto). apply (plug_bal k t n); tauto.
Qed.

(** ** addresses of a sequence of nodes *)
Fixpoint ac (z : Z) e : nat := match e with [] => 0 | (a, _) :: e => one a z + ac z e end.
Lemma ac_app z e1 e2 : ac z (e1 ++ e2) = (ac z e1 + ac z e2)%nat.
Proof. induction e1 as [|[a v] e1 IH]; [reflexivity|]. simpl. rewrite IH. lia. Qed.
Lemma ac_tc z t : ac z (nodes t) = tc z t.
Proof. induction t as [|a c l IHl v r IHr]; [reflexivity|]. simpl. rewrite ac_app. simpl. lia. Qed.
Lemma ac_kc z k : (ac z (lefts k) + ac z (rights k) = kc z k)%nat.
Proof. induction k as [|[[|] a c v b] k IH]; [reflexivity| |]; simpl; rewrite ?ac_app; simpl; rewrite ?ac_app, ?ac_tc; lia. Qed.
Lemma ac_rev z e : ac z (rev e) = ac z e.
Proof. induction e as [|[a v] e IH]; [reflexivity|]. simpl. rewrite ac_app, IH. simpl. lia. Qed.
Lemma first_app h h' e1 e2 : e1 <> [] -> first h (e1 ++ e2) = first h' e1.
Proof. destruct e1 as [|[a v] e1]; [congruence|reflexivity]. Qed.
Lemma first_in h e : e <> [] -> (1 <= ac (first h e) e)%nat.
Proof. destruct e as [|[a v] e]; [congruence|]. intros _. simpl. rewrite one_refl. lia. Qed.
Lemma new_first h u z v e1 e2 : (ac z e1 = 0)%nat -> (e1 = [] -> first h e2 = u) -> (if first h (e1 ++ (z, v) :: e2) =? z then u else first h (e1 ++ (z, v) :: e2)) = first h (e1 ++ e2).
Proof.
  intros H U. destruct e1 as [|[a w] e1]; simpl.
  - rewrite Z.eqb_refl. symmetry. now apply U.
  - simpl in H. destruct (Z.eqb_spec a z) as [->|]; [rewrite one_refl in H; lia|reflexivity].
Qed.
Lemma new_final h u z v e1 e2 : (ac z e2 = 0)%nat -> (e2 = [] -> final h e1 = u) -> (if final h (e1 ++ (z, v) :: e2) =? z then u else final h (e1 ++ (z, v) :: e2)) = final h (e1 ++ e2).
Proof.
  intros H U. unfold final. rewrite !rev_app_distr. simpl. rewrite <- !app_assoc. simpl. apply new_first; [now rewrite ac_rev|]. intros Q. apply U.
  rewrite <- (rev_involutive e2), Q. reflexivity.
Qed.

Theorem era_rebalance_ok fuel m R h k z c l v r :
  let e1 := lefts k ++ nodes l in let e2 := nodes r ++ rights k in
  W m R h (first h (e1 ++ (z, v) :: e2)) (final h (e1 ++ (z, v) :: e2)) k (N z c l v r) -> rbtree (plug k (N z c l v r)) -> (length (e1 ++ (z, v) :: e2) < fuel)%nat ->
  exists m' n T, era_rebalance fuel m h z = Some m' /\ W m' (put R z n) h (first h (e1 ++ e2)) (final h (e1 ++ e2)) [] T /\ nodes T = e1 ++ e2 /\ rbtree T /\ val n = Some v.
Proof.
  intros e1 e2 H RB Hf. assert (NP : nodes (plug k (N z c l v r)) = e1 ++ (z, v) :: e2) by (rewrite plug_nodes; unfold e1, e2; simpl; now rewrite <- !app_assoc).
  rewrite <- NP in Hf. unfold era_rebalance. destruct (W_node _ _ _ _ _ _ H) as (Gz & Z0 & Zh). rewrite Gz. cbn [obind lft rgt].
  assert (D : forall w, (one 0 w + one h w + kc w k + (one z w + tc w l + tc w r) <= 1)%nat) by (destruct H; assumption).
  assert (Q1 : ac z e1 = 0%nat) by (unfold e1; rewrite ac_app, ac_tc; pose proof (ac_kc z k); dist D z).
  assert (Q2 : ac z e2 = 0%nat) by (unfold e2; rewrite ac_app, ac_tc; pose proof (ac_kc z k); dist D z).
  destruct ((rt l =? 0) || (rt r =? 0)) eqn:C.
  - cbn [obind]. rewrite Gz. cbn [obind lft rgt]. cbv zeta. rewrite Z.eqb_refl. cbn [negb].
    set (t := if negb (rt l =? 0) then l else r).
    assert (EX : (if negb (rt l =? 0) then rt l else rt r) = rt t) by (unfold t; destruct (negb (rt l =? 0)); reflexivity). rewrite EX.
    assert (T0 : forall t', (forall w, (one 0 w + tc w t' <= 1)%nat) -> rt t' = 0 -> t' = E) by (intros [|a' c' l' v' r'] D' Q; [reflexivity|]; simpl in Q; subst a'; specialize (D' 0); cbn [tc] in D'; rewrite one_refl in D'; lia).
    assert (T : l = E /\ t = r \/ r = E /\ t = l).
    { unfold t. destruct (Z.eqb_spec (rt l) 0) as [C1|C1]; cbn [negb orb] in *.
      - left. split; [|reflexivity]. apply T0; [intros w; specialize (D w); lia|exact C1].
      - right. split; [|reflexivity]. apply T0; [intros w; specialize (D w); lia|now apply Z.eqb_eq]. }
    clearbody t. clear EX.
    assert (Lt : (length (nodes t) <= fuel)%nat). { pose proof (len_ctx k (N z c l v r)) as LC. simpl nodes in LC. rewrite app_length in LC. simpl in LC. destruct T as [[_ ->]|[_ ->]]; lia. }
    destruct (unlink1_ok fuel _ _ _ _ _ _ _ _ _ _ _ t H T Lt) as (m1 & n & E1 & H1 & N1 & N2). rewrite E1. cbn [obind].
    assert (Mz : m1 z = Some n). { rewrite (W_R _ _ _ _ _ _ _ H1); [apply put_eq|]. specialize (D z). rewrite one_refl in D. destruct T as [[-> ->]|[-> ->]]; lia. }
    unfold red at 1. rewrite (get_eq _ _ _ Z0 Mz). cbn [obind]. rewrite N1. cbn [obind].
    assert (NE : forall t', nodes t' = [] -> t' = E) by (intros [|a' c' l' v' r'] Q; [reflexivity|]; simpl in Q; destruct (nodes l'); discriminate).
    rewrite new_first, new_final in H1; [|exact Q2| |exact Q1|].
    2:{ unfold e1, e2. intros Q. apply app_eq_nil in Q as [Qr Qk]. apply NE in Qr. assert (t = l) as -> by (destruct T as [[-> ->]|[-> ->]]; congruence).
      unfold final. rewrite rev_app_distr. destruct (rev (nodes l)) as [|[a' w'] e] eqn:El; [|reflexivity]. simpl. exact (rights_nil h k Qk). }
    2:{ unfold e1, e2. intros Q. apply app_eq_nil in Q as [Qk Ql]. apply NE in Ql. assert (t = r) as -> by (destruct T as [[-> ->]|[-> ->]]; congruence).
      destruct (nodes r) as [|[a' w'] e] eqn:El; [|reflexivity]. simpl. exact (lefts_nil h k Qk). }
    apply bal_plug in RB as (nb & B1 & B2 & B3).
    assert (HF := era_fin fuel m1 (put R z n) h (first h (e1 ++ e2)) (final h (e1 ++ e2)) k z c l v r t nb); destruct HF as (m2 & TT & E2 & H2 & H3 & H4); auto.
    { pose proof (len_ctx k (N z c l v r)) as LC. simpl nodes in LC. rewrite app_length in LC. simpl in LC. lia. }
    { intros Q. specialize (B3 Q). destruct c; [reflexivity|discriminate]. }
    exists m2, n, TT. split; [|split; [exact H2|split; [|auto]]].
    + rewrite <- E2. destruct c; cbn [negb]; reflexivity.
    + rewrite H3, plug_nodes. unfold e1, e2. destruct T as [[-> ->]|[-> ->]]; simpl; rewrite <- ?app_assoc, ?app_nil_r; reflexivity.
  - apply orb_false_iff in C as [C1 C2]. apply Z.eqb_neq in C1, C2. assert (L0 : l <> E) by (intros ->; apply C1; reflexivity). assert (R0 : r <> E) by (intros ->; apply C2; reflexivity).
    assert (LC : (S (length k + length (nodes l) + length (nodes r)) < fuel)%nat). { pose proof (len_ctx k (N z c l v r)) as LC. simpl nodes in LC. rewrite app_length in LC. simpl in LC. lia. }
    unfold next. rewrite Gz. cbn [obind rgt]. rewrite (proj2 (Z.eqb_neq _ _) C2). cbn [negb].
    destruct (tmin_ok fuel m z r R0) as (k1 & y & cy & vy & x & Er & L1 & E1); [destruct H as [_ _ (_ & _ & Hr) _ _]; exact Hr|intros w; specialize (D w); lia|lia|]. rewrite E1. cbn [obind]. clear E1.
    pose proof H as H'. rewrite Er in H'. destruct (unlink2_ok _ _ _ _ _ _ _ _ _ _ _ _ _ _ _ H' L0 L1) as (m1 & n & E1 & H1 & N1 & N2).
    assert (Dz : forall w, (one 0 w + one h w + kc w k + one z w + tc w l + kc w k1 + one y w + tc w x <= 1)%nat) by (intros w; specialize (D w); rewrite Er, tc_plug in D; cbn [tc] in D; lia).
    assert (Y0 : y <> 0) by (intros ->; dist Dz 0). assert (YZ : y <> z) by (intros ->; dist Dz z).
    assert (Gy : get m y = Some (mkNd (up z k1) 0 (rt x) (Some cy) (Some vy))). { apply get_eq; [exact Y0|]. destruct H' as [_ _ (_ & _ & Hr) _ _]. apply rep_plug in Hr as (_ & Hr & _). exact Hr. }
    rewrite Gy. cbn [obind lft rgt]. cbv zeta. rewrite Z.eqb_refl. cbn [negb]. rewrite (proj2 (Z.eqb_neq _ _) YZ). cbn [negb]. rewrite E1. cbn [obind].
    assert (Mz : m1 z = Some n). { rewrite (W_R _ _ _ _ _ _ _ H1); [apply put_eq|]. cbn [tc]. rewrite tc_plug. specialize (Dz z). rewrite one_refl in Dz. lia. }
    unfold red at 1. rewrite (get_eq _ _ _ Z0 Mz). cbn [obind]. rewrite N1. cbn [obind].
    assert (RB2 : rbtree (plug (k1 ++ F false z c v l :: k) (N y cy E vy x))) by (rewrite plug_app; cbn [plug]; rewrite <- Er; exact RB).
    apply bal_plug in RB2 as (nb & B1 & B2 & B3).
    assert (B4 : balc (k1 ++ F false y c vy l :: k) nb) by (exact (balc_swap _ _ _ _ _ _ _ _ _ _ B2)).
    assert (H2 : W m1 (put R z n) h (first h (e1 ++ (z, v) :: e2)) (final h (e1 ++ (z, v) :: e2)) (k1 ++ F false y c vy l :: k) x).
    { apply W_plug. rewrite plug_app. cbn [plug mk]. exact (proj1 (W_plug _ _ _ _ _ _ _) H1). }
    assert (LK : (length k1 + S (length (nodes x)) <= length (nodes r))%nat) by (rewrite Er; pose proof (len_ctx k1 (N y cy E vy x)) as LK; simpl in LK; lia).
    assert (HF := era_fin fuel m1 (put R z n) h (first h (e1 ++ (z, v) :: e2)) (final h (e1 ++ (z, v) :: e2)) (k1 ++ F false y c vy l :: k) y cy E vy x x nb); destruct HF as (m2 & TT & E2 & H3 & H4 & H5); auto.
    { rewrite app_length. simpl. destruct l as [|al cl ll vl rl]; [congruence|]. simpl nodes in LC. rewrite app_length in LC. simpl in LC. lia. }
    { intros Q. assert (Q' : kblk (k1 ++ F false z c v l :: k) = false) by (rewrite <- Q; destruct k1 as [|[? ? ? ? ?] ?]; reflexivity). specialize (B3 Q'). destruct cy; [reflexivity|discriminate]. }
    assert (X1 : nodes TT = e1 ++ e2).
    { rewrite H4, plug_app. cbn [plug mk]. rewrite plug_nodes. cbn [nodes]. unfold e1, e2. rewrite Er, !plug_nodes, L1. simpl. rewrite <- !app_assoc. simpl. rewrite <- !app_assoc. reflexivity. }
    assert (E10 : e1 <> []) by (unfold e1; destruct l as [|al cl ll vl rl]; [congruence|]; simpl; intros Q; apply app_eq_nil in Q as [_ Q]; apply app_eq_nil in Q as [_ Q]; discriminate).
    assert (E20 : e2 <> []) by (unfold e2; destruct r as [|al cl ll vl rl]; [congruence|]; simpl; intros Q; apply app_eq_nil in Q as [Q _]; apply app_eq_nil in Q as [_ Q]; discriminate).
    exists m2, n, TT. split; [|split; [|split; [exact X1|auto]]].
    + rewrite <- E2. replace (up h (k1 ++ F false y c vy l :: k)) with (up y k1) by (destruct k1 as [|[? ? ? ? ?] ?]; reflexivity). destruct cy; reflexivity.
    + rewrite (first_app h h e1 e2 E10), <- (first_app h h e1 ((z, v) :: e2) E10).
      replace (final h (e1 ++ e2)) with (final h (e1 ++ (z, v) :: e2)); [exact H3|]. unfold final. rewrite !rev_app_distr. simpl. rewrite <- !app_assoc.
      assert (rev e2 <> []) by (intros Q; apply E20; rewrite <- (rev_involutive e2), Q; reflexivity). now rewrite !(first_app h h (rev e2)).
Qed.
End Proof.
