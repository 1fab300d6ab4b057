(** Proofs for the string utilities. *)
From Coq Require Import ZArith List Ascii String Bool Lia Arith.
From Verif Require Import F64 Str DecSpec ItoaModel ItoaProof StrModel StrSpec.
Import ListNotations.
Open Scope Z_scope.

Lemma prefixb_ok pat s : prefixb pat s = true <-> exists b, s = pat ++ b.
Proof.
  revert s; induction pat as [|p pat IH]; intros s; cbn.
  - split; [now exists s|easy].
  - destruct s as [|c s]; [split; [easy|now intros [b H]]|].
    rewrite andb_true_iff, IH. destruct (Ascii.eqb_spec p c) as [->|N].
    + split; [intros [_ [b ->]]; now exists b | intros [b H]; injection H as ->; split; [easy|now exists b]].
    + split; [intros []; easy | intros [b H]; injection H as -> _; easy].
Qed.

Lemma find_at_some pat s i j : find_at pat s i = Some j ->
  exists a b, leftmost pat s a b /\ j = i + len a.
Proof.
  revert i; induction s as [|c s IH]; intros i; cbn [find_at].
  - destruct (prefixb pat []) eqn:P; [|easy]. intros [= <-]. apply prefixb_ok in P as [b E].
    exists [], b. split; [|unfold len; cbn; lia]. split; [easy|]. intros; cbn; lia.
  - destruct (prefixb pat (c :: s)) eqn:P.
    + intros [= <-]. apply prefixb_ok in P as [b E]. exists [], b. split; [|unfold len; cbn; lia].
      split; [easy|]. intros; cbn; lia.
    + intros H. destruct (IH _ H) as (a & b & [E L] & ->). exists (c :: a), b. split.
      * split; [cbn; now rewrite E|]. intros a' b' E'. destruct a' as [|x a'].
        -- exfalso. assert (prefixb pat (c :: s) = true) by (apply prefixb_ok; now exists b'). congruence.
        -- injection E' as _ E'. cbn. specialize (L _ _ E'). lia.
      * unfold len. cbn [List.length]. lia.
Qed.
Lemma find_at_none pat s i : find_at pat s i = None -> ~ occurs pat s.
Proof.
  revert i; induction s as [|c s IH]; intros i; cbn [find_at].
  - destruct (prefixb pat []) eqn:P; [easy|]. intros _ (a & b & E).
    assert (prefixb pat [] = true); [|congruence]. apply prefixb_ok. exists b. now destruct a.
  - destruct (prefixb pat (c :: s)) eqn:P; [easy|]. intros H (a & b & E). destruct a as [|x a].
    + assert (prefixb pat (c :: s) = true); [|congruence]. apply prefixb_ok. now exists b.
    + injection E as _ E. apply (IH _ H). now exists a, b.
Qed.

Lemma firstn_len (a b : bytes) : firstn (Z.to_nat (len a)) (a ++ b) = a.
Proof. unfold len. rewrite Nat2Z.id, firstn_app, firstn_all, Nat.sub_diag. cbn. apply app_nil_r. Qed.
Lemma skipn_len (a b : bytes) : skipn (Z.to_nat (len a)) (a ++ b) = b.
Proof. unfold len. rewrite Nat2Z.id, skipn_app, skipn_all, Nat.sub_diag. easy. Qed.
Lemma len_nonneg a : 0 <= len a. Proof. unfold len. lia. Qed.

Lemma find_here done s pat : find (done ++ s) pat (len done) = find_at pat s (len done).
Proof.
  unfold find. rewrite len_app. pose proof (len_nonneg s). destruct (Z.leb_spec (len done) (len done + len s)); [|lia].
  now rewrite skipn_len.
Qed.

Lemma replace_here done a pat b dst :
  replace (done ++ a ++ pat ++ b) (len done + len a) (len pat) dst = ((done ++ a) ++ dst) ++ b.
Proof.
  unfold replace.
  replace (Z.to_nat (len done + len a)) with (Z.to_nat (len (done ++ a))) by now rewrite len_app.
  replace (Z.to_nat (len done + len a + len pat)) with (Z.to_nat (len ((done ++ a) ++ pat))) by now rewrite !len_app.
  replace (done ++ a ++ pat ++ b) with ((done ++ a) ++ pat ++ b) at 1 by now rewrite <- !app_assoc.
  replace (done ++ a ++ pat ++ b) with (((done ++ a) ++ pat) ++ b) by now rewrite <- !app_assoc.
  rewrite firstn_len, skipn_len. now rewrite <- !app_assoc.
Qed.

(** the loop invariant: [done] has been treated *)
Lemma sr_loop_inv pat dst fuel done s r : pat <> [] ->
  sr_loop fuel (done ++ s) pat dst (len done) = Some r -> exists r', r = done ++ r' /\ replaced pat dst s r'.
Proof.
  intros Hp. revert done s r; induction fuel as [|fuel IH]; intros done s r; cbn [sr_loop]; [easy|].
  rewrite find_here. destruct (find_at pat s (len done)) as [p|] eqn:F.
  - apply find_at_some in F as (a & b & L & ->). destruct L as [E L].
    rewrite E at 1. rewrite replace_here.
    replace (len done + len a + len dst) with (len ((done ++ a) ++ dst)) by now rewrite !len_app.
    intros H. apply IH in H as (r' & -> & R). exists (a ++ dst ++ r'). split; [now rewrite <- !app_assoc|].
    apply rp_some with b; [split|]; assumption.
  - intros [= <-]. exists s. split; [easy|]. apply rp_none. now apply find_at_none in F.
Qed.
Lemma sr_loop_term pat dst fuel done s : pat <> [] -> (List.length s < fuel)%nat ->
  exists r, sr_loop fuel (done ++ s) pat dst (len done) = Some r.
Proof.
  intros Hp. revert done s; induction fuel as [|fuel IH]; intros done s Hf; [lia|]. cbn [sr_loop].
  rewrite find_here. destruct (find_at pat s (len done)) as [p|] eqn:F; [|eauto].
  apply find_at_some in F as (a & b & [E L] & ->).
  rewrite E. rewrite replace_here.
  replace (len done + len a + len dst) with (len ((done ++ a) ++ dst)) by now rewrite !len_app.
  apply IH. rewrite E in Hf. rewrite !app_length in Hf. destruct pat; [easy|]. cbn in Hf. lia.
Qed.
Lemma string_replace_ok big src dst : src <> [] ->
  exists r, string_replace big src dst r /\ replaced src dst big r.
Proof.
  intros Hs. destruct (sr_loop_term src dst (S (List.length big)) [] big Hs ltac:(lia)) as [r H].
  exists r. split; [exists (S (List.length big)); exact H|].
  destruct (sr_loop_inv src dst _ [] big r Hs H) as (r' & -> & R). exact R.
Qed.
Lemma sr_loop_more fuel fuel' big src dst pos r : sr_loop fuel big src dst pos = Some r -> (fuel <= fuel')%nat ->
  sr_loop fuel' big src dst pos = Some r.
Proof.
  revert fuel' big pos; induction fuel as [|fuel IH]; intros fuel' big pos; cbn [sr_loop]; [easy|].
  destruct fuel' as [|fuel']; [lia|]. cbn [sr_loop]. destruct (find big src pos); [|easy]. intros H L. apply IH; [easy|lia].
Qed.
Lemma string_replace_det big src dst r1 r2 : string_replace big src dst r1 -> string_replace big src dst r2 -> r1 = r2.
Proof.
  intros [f1 H1] [f2 H2]. apply (sr_loop_more _ (max f1 f2)) in H1; [|lia]. apply (sr_loop_more _ (max f1 f2)) in H2; [|lia]. congruence.
Qed.
Lemma string_replace_empty big dst r : ~ string_replace big [] dst r.
Proof.
  intros [f H].
  assert (G : forall f done s, sr_loop f (done ++ s) [] dst (len done) <> Some r); [|now apply (G f [] big)].
  clear. induction f as [|f IH]; intros done s; cbn [sr_loop]; [easy|].
  rewrite find_here. assert (F : find_at [] s (len done) = Some (len done)) by now destruct s.
  rewrite F. unfold replace. change (len []) with 0. rewrite Z.add_0_r, firstn_len, skipn_len, app_assoc.
  replace (len done + len dst) with (len (done ++ dst)) by now rewrite len_app. apply IH.
Qed.

(** the specification relation is a function *)
Lemma leftmost_det pat s a b a' b' : leftmost pat s a b -> leftmost pat s a' b' -> a = a' /\ b = b'.
Proof.
  intros [E L] [E' L']. assert (K : List.length a = List.length a') by (specialize (L _ _ E'); specialize (L' _ _ E); lia).
  rewrite E in E'. clear - E' K. revert a' K E'; induction a as [|x a IH]; intros [|y a'] K E; try easy.
  - cbn in E. split; [easy|]. now apply app_inv_head in E.
  - cbn in E. injection E as -> E. destruct (IH a' ltac:(cbn in K; lia) E) as [-> ->]. easy.
Qed.
Lemma replaced_det pat dst s r1 r2 : replaced pat dst s r1 -> replaced pat dst s r2 -> r1 = r2.
Proof.
  intros H. revert r2. induction H as [s N|s a b r L R IH]; intros r2 H2; destruct H2 as [s N2|s a2 b2 r2 L2 R2]; try easy.
  - destruct L2 as [E _]. exfalso. apply N. now exists a2, b2.
  - destruct L as [E _]. exfalso. apply N2. now exists a, b.
  - destruct (leftmost_det _ _ _ _ _ _ L L2) as [-> ->]. now rewrite (IH _ R2).
Qed.

(** one-byte pattern: every byte is treated on its own *)
Definition subst1 (c : ascii) (dst : bytes) (s : bytes) : bytes := flat_map (fun x => if Ascii.eqb x c then dst else [x]) s.
Lemma replaced_one c dst s : replaced [c] dst s (subst1 c dst s).
Proof.
  remember (List.length s) as n eqn:En. revert s En. induction n as [n IH] using lt_wf_ind. intros s En.
  assert (G : ~ occurs [c] s \/ exists a b, leftmost [c] s a b /\ Forall (fun x => x <> c) a).
  { clear. induction s as [|x s IH].
    - left. intros (a & b & E). now destruct a.
    - destruct (Ascii.eqb_spec x c) as [->|N].
      + right. exists [], s. split; [split; [easy|intros; cbn; lia]|constructor].
      + destruct IH as [IH|(a & b & [E L] & A)].
        * left. intros (a & b & E). destruct a as [|y a]; [injection E as -> _; easy|].
          injection E as _ E. apply IH. now exists a, b.
        * right. exists (x :: a), b. split; [|now constructor]. split; [cbn; now rewrite E|].
          intros a' b' E'. destruct a' as [|y a']; [injection E' as -> _; easy|]. injection E' as _ E'. cbn. specialize (L _ _ E'). lia. }
  assert (K : forall a, Forall (fun x => x <> c) a -> subst1 c dst a = a).
  { clear. induction 1 as [|x a N _ IH]; [easy|]. cbn. unfold subst1 in IH. rewrite IH. destruct (Ascii.eqb_spec x c); easy. }
  destruct G as [G|(a & b & L & A)].
  - rewrite K; [now apply rp_none|]. apply Forall_forall. intros x Hx ->. apply G. apply in_split in Hx as (a & b & ->). now exists a, b.
  - pose proof L as [E _].
    assert (S : subst1 c dst s = a ++ dst ++ subst1 c dst b).
    { rewrite E. unfold subst1. rewrite flat_map_app. cbn [flat_map app]. rewrite Ascii.eqb_refl.
      fold (subst1 c dst a). rewrite (K a A). reflexivity. }
    rewrite S. apply rp_some with b; [exact L|]. apply (IH (List.length b)); [|easy].
    rewrite En, E, app_length. cbn. lia.
Qed.
Lemma string_replace_one c dst s : string_replace s [c] dst (subst1 c dst s).
Proof.
  destruct (string_replace_ok s [c] dst) as (r & H & R); [easy|]. now rewrite <- (replaced_det _ _ _ _ _ R (replaced_one c dst s)).
Qed.

(** ** fill_str *)
Lemma iter_app (c s : bytes) k : Nat.iter k (fun s => c ++ s) s = List.concat (repeat c k) ++ s.
Proof. induction k; [easy|]. cbn [repeat List.concat]. rewrite <- app_assoc, <- IHk. reflexivity. Qed.
Lemma concat_repeat1 (x : ascii) k : List.concat (repeat [x] k) = repeat x k.
Proof. induction k; [easy|]. cbn. now rewrite IHk. Qed.

Lemma mk_int_z z : int_min <= z <= int_max -> mk_int z = Some z.
Proof. unfold mk_int, in_int. intros H. destruct (Z.leb_spec int_min z), (Z.leb_spec z int_max); try easy; lia. Qed.

(** ** split *)
Lemma ffo_some set s i j : ffo_at set s i = Some j ->
  exists a x b, s = a ++ x :: b /\ In x set /\ Forall (fun y => ~ In y set) a /\ j = i + len a.
Proof.
  revert i; induction s as [|c s IH]; intros i; cbn [ffo_at]; [easy|].
  destruct (existsb (Ascii.eqb c) set) eqn:E.
  - intros [= <-]. apply existsb_exists in E as (x & Hx & Ex). apply Ascii.eqb_eq in Ex. subst x.
    exists [], c, s. split; [easy|]. split; [easy|]. split; [easy|]. unfold len. cbn. lia.
  - intros H. destruct (IH _ H) as (a & x & b & -> & Hx & A & ->). exists (c :: a), x, b.
    split; [easy|]. split; [easy|]. split; [|unfold len; cbn [List.length]; lia].
    constructor; [|easy]. intros Hc. assert (existsb (Ascii.eqb c) set = true); [|congruence].
    apply existsb_exists. exists c. split; [easy|apply Ascii.eqb_refl].
Qed.
Lemma ffo_none set s i : ffo_at set s i = None -> Forall (fun y => ~ In y set) s.
Proof.
  revert i; induction s as [|c s IH]; intros i; cbn [ffo_at]; [constructor|].
  destruct (existsb (Ascii.eqb c) set) eqn:E; [easy|]. intros H. constructor; [|now apply IH in H].
  intros Hc. assert (existsb (Ascii.eqb c) set = true); [|congruence].
  apply existsb_exists. exists c. split; [easy|apply Ascii.eqb_refl].
Qed.

Lemma substr_mid pre a post : substr (pre ++ a ++ post) (len pre) (len a) = Some a.
Proof.
  unfold substr. rewrite len_app. pose proof (len_nonneg pre). pose proof (len_nonneg (a ++ post)).
  destruct (Z.leb_spec 0 (len pre)); [|lia]. destruct (Z.leb_spec (len pre) (len pre + len (a ++ post))); [|lia].
  cbn [andb]. now rewrite skipn_len, firstn_len.
Qed.
Lemma substr1_end pre a : substr1 (pre ++ a) (len pre) = Some a.
Proof.
  unfold substr1, substr. rewrite len_app. pose proof (len_nonneg pre). pose proof (len_nonneg a).
  destruct (Z.leb_spec 0 (len pre)); [|lia]. destruct (Z.leb_spec (len pre) (len pre + len a)); [|lia].
  cbn [andb]. rewrite skipn_len. f_equal. apply firstn_all2. unfold len in *. lia.
Qed.

(** the pieces of a text *)
Fixpoint pieces (c : ascii) (s : bytes) : list bytes :=
  match s with
  | [] => [[]]
  | x :: s => if Ascii.eqb x c then [] :: pieces c s
              else match pieces c s with p :: l => (x :: p) :: l | [] => [[x]] end
  end.
Lemma pieces_nonnil c s : pieces c s <> [].
Proof. destruct s as [|x s]; cbn; [easy|]. destruct (Ascii.eqb x c); [easy|]. now destruct (pieces c s). Qed.
Lemma pieces_app c a : Forall (fun y => ~ In y [c]) a -> pieces c a = [a].
Proof.
  induction 1 as [|x a N _ IH]; [easy|]. cbn [pieces]. destruct (Ascii.eqb_spec x c) as [->|]; [exfalso; apply N; now left|]. now rewrite IH.
Qed.
Lemma pieces_sep c a b : Forall (fun y => ~ In y [c]) a -> pieces c (a ++ c :: b) = a :: pieces c b.
Proof.
  induction 1 as [|x a N _ IH].
  - cbn. now rewrite Ascii.eqb_refl.
  - cbn [pieces app]. destruct (Ascii.eqb_spec x c) as [->|]; [exfalso; apply N; now left|]. now rewrite IH.
Qed.

Lemma split_loop_one c fuel pre s dest : (List.length s < fuel)%nat ->
  split_loop fuel (pre ++ s) [c] (len pre) dest = Some (dest ++ pieces c s).
Proof.
  revert pre s dest; induction fuel as [|fuel IH]; intros pre s dest Hf; [lia|]. cbn [split_loop].
  unfold find_first_of. rewrite skipn_len. destruct (ffo_at [c] s (len pre)) as [j|] eqn:F.
  - apply ffo_some in F as (a & x & b & -> & Hx & A & ->). destruct Hx as [<-|[]].
    replace (len pre + len a - len pre) with (len a) by lia.
    rewrite substr_mid. cbn [obind]. change (len [c]) with 1.
    replace (len pre + len a + 1) with (len (pre ++ a ++ [c])) by (rewrite !len_app; cbn; lia).
    replace (pre ++ a ++ c :: b) with ((pre ++ a ++ [c]) ++ b) by (rewrite <- !app_assoc; reflexivity).
    rewrite IH by (rewrite app_length in Hf; cbn in Hf; lia).
    rewrite pieces_sep by assumption. now rewrite <- app_assoc.
  - apply ffo_none in F. rewrite substr1_end. cbn [obind]. now rewrite pieces_app.
Qed.
Lemma split_one c s : split s [c] = Some (pieces c s).
Proof. unfold split. rewrite (split_loop_one c _ [] s []) by lia. easy. Qed.
Lemma pieces_join c s : join c (pieces c s) = s.
Proof.
  induction s as [|x s IH]; [easy|]. cbn [pieces]. pose proof (pieces_nonnil c s) as N.
  destruct (Ascii.eqb_spec x c) as [->|].
  - destruct (pieces c s) eqn:E; [easy|]. cbn [join app]. now rewrite <- IH.
  - destruct (pieces c s) as [|p l] eqn:E; [easy|]. destruct l; cbn [join app] in *; now rewrite <- IH.
Qed.
Lemma pieces_free c s : Forall (fun p => ~ In c p) (pieces c s).
Proof.
  induction s as [|x s IH]; cbn [pieces]; [constructor; [now intros []|constructor]|].
  destruct (Ascii.eqb_spec x c) as [->|N]; [constructor; [now intros []|exact IH]|].
  destruct (pieces c s) as [|p l]; [constructor; [intros [->|[]]; easy|constructor]|].
  inversion IH as [|? ? P L]; subst. constructor; [|easy]. intros [->|]; easy.
Qed.
(** the specification determines the pieces *)
Lemma join_unique c l l' : l <> [] -> l' <> [] -> Forall (fun p => ~ In c p) l -> Forall (fun p => ~ In c p) l' ->
  join c l = join c l' -> l = l'.
Proof.
  intros Hl Hl' F F' E.
  assert (G : forall l, l <> [] -> Forall (fun p => ~ In c p) l -> pieces c (join c l) = l).
  { clear. induction l as [|p l IH]; [easy|]. intros _ F. inversion F as [|? ? P L]; subst.
    assert (A : Forall (fun y => ~ In y [c]) p).
    { apply Forall_forall. intros y Hy [->|[]]. easy. }
    destruct l as [|q l]; [now apply pieces_app|]. cbn [join]. cbn [join] in IH. rewrite pieces_sep by easy. f_equal. now apply IH. }
  rewrite <- (G l), <- (G l'), E by easy. easy.
Qed.

(** ** my_stoi *)
Lemma take_digits_all s : Forall is_digit s -> take_digits s = s.
Proof.
  induction 1 as [|c s H _ IH]; [easy|]. cbn. unfold digitb, is_digit in *.
  destruct (Z.leb_spec 48 (code c)); [|lia]. destruct (Z.leb_spec (code c) 57); [|lia]. cbn. now rewrite IH.
Qed.
Lemma digit_no_space c : is_digit c -> is_space c = false.
Proof.
  unfold is_digit, is_space. intros H. destruct (Z.eqb_spec (code c) 32); [lia|]. destruct (Z.leb_spec (code c) 13); [lia|].
  now rewrite andb_false_r.
Qed.
Lemma digit_no_sign c : is_digit c -> Ascii.eqb c "-" = false /\ Ascii.eqb c "+" = false.
Proof.
  unfold is_digit. intros H. split.
  - destruct (Ascii.eqb_spec c "-") as [->|]; [destruct H as [H _]; vm_compute in H; now destruct H|easy].
  - destruct (Ascii.eqb_spec c "+") as [->|]; [destruct H as [H _]; vm_compute in H; now destruct H|easy].
Qed.
Lemma dec_val_nonneg s : Forall is_digit s -> 0 <= dec_val s.
Proof.
  induction 1 as [|c s H _ IH]; [now cbn|]. rewrite dec_val_cons. unfold is_digit, dval in *.
  pose proof (pow10_pos (List.length s)). nia.
Qed.

Lemma strtol_digits s : s <> [] -> Forall is_digit s ->
  strtol s = Some (if long_max <? dec_val s then (long_max, true) else (dec_val s, false)).
Proof.
  intros N F. destruct s as [|c s]; [easy|]. inversion F as [|? ? H F']; subst. unfold strtol. cbn [skip_space].
  rewrite digit_no_space by easy. destruct (digit_no_sign c H) as [-> ->].
  rewrite take_digits_all by easy. pose proof (dec_val_nonneg _ F). unfold long_min, long_max in *.
  destruct (Z.ltb_spec (dec_val (c :: s)) (- 2 ^ 63)); [lia|]. now destruct (Z.ltb_spec (2 ^ 63 - 1) (dec_val (c :: s))).
Qed.
Lemma strtol_neg s : s <> [] -> Forall is_digit s ->
  strtol ("-"%char :: s) = Some (if - dec_val s <? long_min then (long_min, true) else (- dec_val s, false)).
Proof.
  intros N F. destruct s as [|c s]; [easy|]. unfold strtol. cbn [skip_space].
  change (is_space "-") with false. cbv iota. change (Ascii.eqb "-" "-") with true. cbv iota.
  rewrite take_digits_all by easy. pose proof (dec_val_nonneg _ F). unfold long_min, long_max in *.
  destruct (Z.ltb_spec (- dec_val (c :: s)) (- 2 ^ 63)); [easy|].
  destruct (Z.ltb_spec (2 ^ 63 - 1) (- dec_val (c :: s))); [lia|easy].
Qed.
Lemma strtol_text i s : int_text i s -> long_min <= i <= long_max -> strtol s = Some (i, false).
Proof.
  unfold int_text. destruct (Z.ltb_spec i 0) as [L|L].
  - intros (t & -> & (N & F & _) & V) H. rewrite strtol_neg by easy. rewrite V, Z.opp_involutive.
    destruct (Z.ltb_spec i long_min); [lia|easy].
  - intros ((N & F & _) & V) H. rewrite strtol_digits by easy. rewrite V. destruct (Z.ltb_spec long_max i); [lia|easy].
Qed.
Lemma wrap_int_id i : int_min <= i <= int_max -> wrap_int i = i.
Proof. unfold int_min, int_max, wrap_int. intros H. change (2 ^ 31) with 2147483648. change (2 ^ 32) with 4294967296. rewrite Z.mod_small; lia. Qed.
Lemma my_stoi_text i s : int_text i s -> int_min <= i <= int_max -> my_stoi false s = (false, stoi_value i).
Proof.
  intros T H. unfold my_stoi. rewrite (strtol_text i s T) by (unfold int_min, int_max, long_min, long_max in *; lia).
  cbn [orb]. now rewrite wrap_int_id.
Qed.
Lemma my_stoi_stale i s : int_text i s -> int_min <= i <= int_max -> my_stoi true s = (true, out_of_range).
Proof.
  intros T H. unfold my_stoi. now rewrite (strtol_text i s T) by (unfold int_min, int_max, long_min, long_max in *; lia).
Qed.

(** decimal text of an integer: unique and injective *)
Lemma int_text_inj i j s : int_text i s -> int_text j s -> i = j.
Proof.
  unfold int_text. destruct (Z.ltb_spec i 0), (Z.ltb_spec j 0).
  - intros (t & -> & _ & V) (t' & E & _ & V'). injection E as <-. lia.
  - intros (t & -> & _ & V) ((_ & F & _) & _). exfalso. inversion F as [|? ? D _]. destruct D as [D _]. vm_compute in D. now destruct D.
  - intros ((_ & F & _) & _) (t & -> & _ & V). exfalso. inversion F as [|? ? D _]. destruct D as [D _]. vm_compute in D. now destruct D.
  - intros [_ <-] [_ <-]. easy.
Qed.
