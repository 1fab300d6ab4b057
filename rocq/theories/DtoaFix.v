(** Proofs for the text layout of dtoa.h (Prettify, PrettifyRoundUP, WriteExponent). *)
From Coq Require Import ZArith List Ascii String Bool Lia.
From Verif Require Import F64 Str DecSpec SsqModel ItoaModel ItoaProof DtoaModel.
Import ListNotations.
Open Scope Z_scope.
Open Scope opt_scope.

Lemma len_pos s : 0 <= len s. Proof. unfold len. lia. Qed.
Lemma len_cons x s : len (x :: s) = 1 + len s. Proof. unfold len. cbn [List.length]. lia. Qed.
Lemma len_repeat (c : ascii) n : len (repeat c n) = Z.of_nat n. Proof. unfold len. now rewrite repeat_length. Qed.
Lemma len_nil : len [] = 0. Proof. reflexivity. Qed.
Ltac lens := repeat (progress (rewrite ?len_app, ?len_cons, ?len_repeat, ?len_nil in *)).
Lemma setb_at a x b c i : i = len a -> setb (a ++ x :: b) i c = Some (a ++ c :: b).
Proof. intros ->. apply setb_ok. Qed.
Lemma getb_at a x b i : i = len a -> getb (a ++ x :: b) i = Some x.
Proof.
  intros ->. unfold getb, at_. destruct (Z.leb_spec 0 (len a)); [|pose proof (len_pos a); lia].
  unfold len. rewrite Nat2Z.id, nth_error_app2, Nat.sub_diag by lia. reflexivity.
Qed.
Lemma fill_ok k : forall a j b c i, i = len a -> List.length j = k -> fill k (a ++ j ++ b) i c = Some (a ++ repeat c k ++ b, i + Z.of_nat k).
Proof.
  induction k as [|k IH]; intros a j b c i Hi Hj.
  - destruct j; [|discriminate]. cbn [fill repeat app]. do 2 f_equal. lia.
  - destruct j as [|y j]; [discriminate|]. injection Hj as Hj. cbn [fill]. cbn [app]. rewrite setb_at by assumption. cbn [obind].
    replace (a ++ c :: j ++ b) with ((a ++ [c]) ++ j ++ b) by (now rewrite <- app_assoc).
    rewrite (IH _ j) by (rewrite ?len_app, ?len_cons, ?len_nil; (lia || assumption)). f_equal. f_equal; [|lia]. rewrite <- app_assoc. reflexivity.
Qed.
Lemma mmove_ok A X Y Z0 dst src n s :
  s = A ++ X -> src = len A -> n = len Y -> (exists r, X = Y ++ r) -> (exists J r, X = J ++ Z0 ++ r /\ dst = len A + len J /\ List.length Z0 = List.length Y) ->
  exists J r, X = J ++ Z0 ++ r /\ dst = len A + len J /\ mmove s dst src n = Some (A ++ J ++ Y ++ r).
Proof.
  intros -> -> -> (r0 & E0) (J & r & E1 & D & LZ). exists J, r. split; [exact E1|]. split; [exact D|]. unfold mmove.
  assert (L1 : dst + len Y <= len (A ++ X)) by (rewrite E1, D; lens; unfold len in *; rewrite ?LZ in *; lia).
  assert (L2 : len A + len Y <= len (A ++ X)) by (rewrite E0; lens; pose proof (len_pos r0); lia).
  pose proof (len_pos Y). pose proof (len_pos A). pose proof (len_pos J).
  replace (0 <=? len Y) with true by (symmetry; apply Z.leb_le; lia). replace (0 <=? dst) with true by (symmetry; apply Z.leb_le; lia).
  replace (0 <=? len A) with true by (symmetry; apply Z.leb_le; lia). replace (dst + len Y <=? len (A ++ X)) with true by (symmetry; apply Z.leb_le; lia).
  replace (len A + len Y <=? len (A ++ X)) with true by (symmetry; apply Z.leb_le; lia). cbn [andb]. f_equal.
  assert (F1 : firstn (Z.to_nat dst) (A ++ X) = A ++ J).
  { rewrite E1, app_assoc. replace (Z.to_nat dst) with (List.length (A ++ J)) by (rewrite app_length; unfold len in *; lia). apply firstn_app_exact || (rewrite firstn_app, Nat.sub_diag, firstn_all, firstn_O; apply app_nil_r). }
  assert (F2 : firstn (Z.to_nat (len Y)) (skipn (Z.to_nat (len A)) (A ++ X)) = Y).
  { rewrite E0. unfold len. rewrite !Nat2Z.id. rewrite skipn_app, Nat.sub_diag, skipn_all. cbn [skipn app]. rewrite firstn_app, Nat.sub_diag, firstn_all, firstn_O. apply app_nil_r. }
  assert (F3 : skipn (Z.to_nat (dst + len Y)) (A ++ X) = r).
  { rewrite E1, !app_assoc. replace (Z.to_nat (dst + len Y)) with (List.length ((A ++ J) ++ Z0)) by (rewrite !app_length; unfold len in *; lia). rewrite skipn_app, Nat.sub_diag, skipn_all. reflexivity. }
  rewrite F1, F2, F3. now rewrite <- app_assoc.
Qed.
Lemma split_len (X : bytes) n : 0 <= n <= len X -> exists a b, X = a ++ b /\ len a = n.
Proof.
  intros H. exists (firstn (Z.to_nat n) X), (skipn (Z.to_nat n) X). split; [symmetry; apply firstn_skipn|]. unfold len in *. rewrite firstn_length. lia.
Qed.
Lemma app_cut {A} (a b c d : list A) : a ++ b = c ++ d -> List.length a = List.length c -> a = c /\ b = d.
Proof. revert c. induction a as [|x a IH]; intros [|y c] H L; try discriminate; [now split|]. injection H as -> H. injection L as L. destruct (IH c H L) as [-> ->]. now split. Qed.
(** moving text one place to the right *)
Lemma mmove_one A Y x r dst src n : dst = len A + 1 -> src = len A -> n = len Y -> exists h, mmove (A ++ Y ++ x :: r) dst src n = Some (A ++ h :: Y ++ r).
Proof.
  intros -> -> ->.
  assert (exists h Z0, Y ++ [x] = h :: Z0 /\ List.length Z0 = List.length Y) as (h & Z0 & E & LZ).
  { destruct Y as [|y Y]; [now exists x, []|]. exists y, (Y ++ [x]). split; [reflexivity|]. rewrite app_length. cbn. lia. }
  destruct (mmove_ok A (Y ++ x :: r) Y Z0 (len A + 1) (len A) (len Y) _ eq_refl eq_refl eq_refl) as (J & r' & E1 & D & M).
  - now exists (x :: r).
  - exists [h], r. split; [|split; [reflexivity|exact LZ]]. change (Y ++ x :: r) with (Y ++ [x] ++ r). rewrite app_assoc, E. reflexivity.
  - exists h. rewrite M. f_equal. f_equal.
    assert (LJ : len J = 1) by lia. destruct J as [|j [|]]; try (unfold len in LJ; cbn in LJ; lia).
    change (Y ++ x :: r) with (Y ++ [x] ++ r) in E1. rewrite app_assoc, E in E1. injection E1 as -> E1. destruct (app_cut Z0 r Z0 r' E1 eq_refl) as [_ ->]. reflexivity.
Qed.
(** moving text to the right by a fixed distance, into a long enough tail *)
Lemma mmove_far A Y tail d n dst src : src = len A -> n = len Y -> dst = len A + d -> 0 <= d <= len tail ->
  exists J r, len J = d /\ len r = len tail - d /\ (forall c, tail = repeat c (List.length tail) -> r = repeat c (List.length r)) /\ mmove (A ++ Y ++ tail) dst src n = Some (A ++ J ++ Y ++ r).
Proof.
  intros -> -> -> H.
  destruct (split_len (Y ++ tail) d) as (J & X' & EJ & LJ); [lens; pose proof (len_pos Y); lia|].
  destruct (split_len X' (len Y)) as (Z0 & r & EZ & LZ); [assert (len (Y ++ tail) = len J + len X') by (rewrite EJ; now lens); lens; pose proof (len_pos Y); lia|].
  destruct (mmove_ok A (Y ++ tail) Y Z0 (len A + d) (len A) (len Y) _ eq_refl eq_refl eq_refl) as (J' & r' & E1 & D & M).
  - now exists tail.
  - exists J, r. split; [now rewrite EJ, EZ|]. split; [lia|]. unfold len in LZ. lia.
  - assert (J' = J /\ r' = r) as [-> ->].
    { rewrite EJ, EZ in E1. destruct (app_cut J (Z0 ++ r) J' (Z0 ++ r') E1) as [-> Q]; [unfold len in *; lia|]. destruct (app_cut Z0 r Z0 r' Q eq_refl) as [_ ->]. now split. }
    assert (LT : len Y + len tail = len J + (len Z0 + len r)) by (pose proof (f_equal len E1) as Q; lens; lia).
    exists J, r. split; [exact LJ|]. split; [lia|]. split; [|exact M].
    intros c Hc. rewrite Hc in E1.
    assert (Q : forall x, In x r -> x = c).
    { intros x Hx. assert (G : skipn (List.length Y) (Y ++ repeat c (List.length tail)) = skipn (List.length Y) (J ++ Z0 ++ r)) by now rewrite <- E1.
      rewrite skipn_app, Nat.sub_diag, skipn_all in G. cbn [skipn app] in G.
      rewrite app_assoc in G. rewrite skipn_app in G. assert (LE : (List.length Y <= List.length (J ++ Z0))%nat) by (rewrite app_length; unfold len in *; lia).
      replace (List.length Y - List.length (J ++ Z0))%nat with 0%nat in G by lia. cbn [skipn] in G.
      apply (repeat_spec (List.length tail) c). rewrite G. apply in_or_app. now right. }
    clear -Q. induction r as [|y r IH]; [reflexivity|]. cbn. f_equal; [apply Q; now left|]. apply IH. intros x Hx. apply Q. now right.
Qed.

(** ** carrying *)
Lemma chr_ord c : is_digit c -> c <> "9"%char -> is_digit (chr (ord c + 1)) /\ dval (chr (ord c + 1)) = dval c + 1.
Proof.
  unfold is_digit, dval. change (ord c) with (code c). intros H N. assert (E : c = digit (code c - 48)).
  { unfold digit. replace (48 + (code c - 48)) with (code c) by lia. unfold code. rewrite N2Z.id. symmetry. apply ascii_N_embedding. }
  assert (code c - 48 <> 9) by (intros Q; apply N; rewrite E, Q; reflexivity).
  assert (G : chr (code c + 1) = digit (code c - 48 + 1)).
  { unfold chr, digit. rewrite Z.mod_small by lia. do 2 f_equal. lia. }
  rewrite G, digit_code by lia. lia.
Qed.
Lemma roll_nine fuel a c base cur end_ x : cur = len a + 1 -> base < len a -> x <> "."%char ->
  roll (S fuel) (a ++ x :: "9"%char :: c) base cur end_ = roll fuel (a ++ x :: "0"%char :: c) base (cur - 1) end_.
Proof.
  intros -> HB Hx. cbn [roll]. replace (a ++ x :: "9"%char :: c) with ((a ++ [x]) ++ "9"%char :: c) by now rewrite <- app_assoc.
  rewrite getb_at by (lens; lia). cbn [obind]. rewrite Ascii.eqb_refl. rewrite setb_at by (lens; lia). cbn [obind].
  replace (base <? len a + 1 - 1) with true by (symmetry; apply Z.ltb_lt; lia). replace ((a ++ [x]) ++ "0"%char :: c) with (a ++ x :: "0"%char :: c) by now rewrite <- app_assoc.
  rewrite getb_at by lia. cbn [obind]. destruct (Ascii.eqb_spec x "."); [contradiction|]. reflexivity.
Qed.
Lemma repeat_snoc {A} (c : A) m : repeat c (S m) = repeat c m ++ [c].
Proof. induction m as [|m IH]; [reflexivity|]. cbn [repeat app] in *. now rewrite <- IH. Qed.
(** a run of nines behind a digit that is not the first character *)
Lemma roll_run m : forall fuel a c base x end_, (m <= fuel)%nat -> x <> "."%char -> base < len a \/ m = O ->
  roll fuel (a ++ x :: repeat "9"%char m ++ c) base (len a + Z.of_nat m) end_ = roll (fuel - m) (a ++ x :: repeat "0"%char m ++ c) base (len a) end_.
Proof.
  induction m as [|m IH]; intros fuel a c base x end_ HF Hx HB.
  - cbn [repeat app]. rewrite Z.add_0_r, Nat.sub_0_r. reflexivity.
  - destruct HB as [HB|]; [|discriminate]. destruct fuel as [|fuel]; [lia|].
    rewrite repeat_snoc, <- app_assoc. cbn [app].
    destruct m as [|m].
    + cbn [repeat app]. rewrite (roll_nine fuel a c base _ end_ x) by (lia || assumption). replace (S fuel - 1)%nat with fuel by lia. f_equal. lia.
    + rewrite repeat_snoc, <- app_assoc. cbn [app].
      replace (a ++ x :: repeat "9"%char m ++ "9"%char :: "9"%char :: c) with ((a ++ x :: repeat "9"%char m) ++ "9"%char :: "9"%char :: c) by (now rewrite <- app_assoc).
      rewrite (roll_nine fuel _ c base _ end_ "9"%char); [|lens; lia|lens; lia|discriminate].
      rewrite <- app_assoc. cbn [app]. change ("9"%char :: "0"%char :: c) with ([("9"%char)] ++ "0"%char :: c). rewrite app_assoc, <- repeat_snoc.
      replace (len a + Z.of_nat (S (S m)) - 1) with (len a + Z.of_nat (S m)) by lia. rewrite (IH fuel a ("0"%char :: c)) by (lia || assumption || (now left)).
      f_equal. rewrite (repeat_snoc _ (S m)), <- app_assoc. reflexivity.
Qed.
Lemma roll_stop fuel a x c base end_ : x <> "9"%char -> roll fuel (a ++ x :: c) base (len a) end_ = Some (a ++ chr (ord x + 1) :: c, end_).
Proof.
  intros H. destruct fuel; cbn [roll]; rewrite getb_at by reflexivity; cbn [obind]; (destruct (Ascii.eqb_spec x "9"); [contradiction|]); rewrite setb_at by reflexivity; reflexivity.
Qed.
Lemma roll_to m fuel a c base x end_ : (m <= fuel)%nat -> x <> "."%char -> x <> "9"%char -> base < len a \/ m = O ->
  roll fuel (a ++ x :: repeat "9"%char m ++ c) base (len a + Z.of_nat m) end_ = Some (a ++ chr (ord x + 1) :: repeat "0"%char m ++ c, end_).
Proof. intros. rewrite roll_run by assumption. now apply roll_stop. Qed.
(** nines right behind the point: the cursor passes the point *)
Lemma roll_point m fuel a c base end_ y : (m < fuel)%nat -> base <= len a ->
  roll fuel (a ++ y :: "."%char :: repeat "9"%char (S m) ++ c) base (len a + 2 + Z.of_nat m) end_ = roll (fuel - S m) (a ++ y :: "."%char :: repeat "0"%char (S m) ++ c) base (len a) end_.
Proof.
  intros HF HB. cbn [repeat app].
  replace (a ++ y :: "."%char :: "9"%char :: repeat "9"%char m ++ c) with ((a ++ [y; "."%char]) ++ "9"%char :: repeat "9"%char m ++ c) by now rewrite <- app_assoc.
  replace (len a + 2 + Z.of_nat m) with (len (a ++ [y; "."%char]) + Z.of_nat m) by (lens; lia).
  rewrite roll_run; [|lia|discriminate|left; lens; lia].
  destruct (fuel - m)%nat as [|f] eqn:E; [lia|]. replace (fuel - S m)%nat with f by lia. cbn [roll]. rewrite getb_at by reflexivity. cbn [obind]. rewrite Ascii.eqb_refl. rewrite setb_at by reflexivity. cbn [obind].
  replace (len (a ++ [y; "."%char]) - 1) with (len a + 1) by (lens; lia). replace (base <? len a + 1) with true by (symmetry; apply Z.ltb_lt; lia).
  replace ((a ++ [y; "."%char]) ++ "0"%char :: repeat "0"%char m ++ c) with ((a ++ [y]) ++ "."%char :: "0"%char :: repeat "0"%char m ++ c) by now rewrite <- !app_assoc.
  rewrite getb_at by (lens; lia). cbn [obind]. rewrite Ascii.eqb_refl. f_equal; [now rewrite <- app_assoc|lia].
Qed.
(** a single nine at the very start *)
Lemma roll_first fuel a X z r base : base = len a ->
  roll fuel (a ++ "9"%char :: X ++ z :: r) base base (base + 1 + len X) = Some (a ++ "1"%char :: "0"%char :: X ++ r, base + 2 + len X).
Proof.
  intros ->. destruct fuel; cbn [roll]; rewrite getb_at by reflexivity; cbn [obind]; rewrite Ascii.eqb_refl; rewrite setb_at by reflexivity; cbn [obind];
  (replace (len a <? len a - 1) with false by (symmetry; apply Z.ltb_ge; lia));
  (destruct (mmove_one a ("0"%char :: X) z r (len a + 1) (len a) (len a + 1 + len X - len a) eq_refl eq_refl ltac:(lens; lia)) as (h & M)); cbn [app] in M; rewrite M; cbn [obind]; rewrite setb_at by reflexivity; cbn [obind]; do 2 f_equal; lia.
Qed.
Lemma nines L : Forall is_digit L -> L = repeat "9"%char (List.length L) \/ exists A x m, L = A ++ x :: repeat "9"%char m /\ x <> "9"%char.
Proof.
  induction L as [|c L IH] using rev_ind; intros H; [now left|]. apply Forall_app in H as [H1 H2].
  destruct (Ascii.eqb_spec c "9") as [->|N].
  - destruct (IH H1) as [E|(A & x & m & E & Hx)].
    + left. rewrite app_length, Nat.add_1_r, repeat_snoc. now rewrite <- E.
    + right. exists A, x, (S m). split; [|exact Hx]. rewrite E, repeat_snoc, <- app_assoc. reflexivity.
  - right. exists L, c, O. now split.
Qed.
Lemma dec_nines m : dec_val (repeat "9"%char m) = 10 ^ Z.of_nat m - 1.
Proof. induction m as [|m IH]; [reflexivity|]. cbn [repeat]. rewrite dec_val_cons, repeat_length, IH, pow10_S. change (dval "9") with 9. lia. Qed.
Lemma dec_zeros m : dec_val (repeat "0"%char m) = 0.
Proof. induction m as [|m IH]; [reflexivity|]. cbn [repeat]. rewrite dec_val_cons, IH. change (dval "0") with 0. lia. Qed.
Lemma dec_bound s : Forall is_digit s -> 0 <= dec_val s < 10 ^ Z.of_nat (List.length s).
Proof.
  induction s as [|c s IH]; intros H; [cbn; lia|]. inversion H as [|? ? Hc Hs]; subst. rewrite dec_val_cons. cbn [List.length]. rewrite pow10_S. specialize (IH Hs). unfold is_digit, dval in *. pose proof (pow10_pos (List.length s)). nia.
Qed.
Lemma digits_zeros m : Forall is_digit (repeat "0"%char m).
Proof. apply Forall_forall. intros x Hx. apply repeat_spec in Hx. subst. vm_compute. split; discriminate. Qed.
Lemma dec_incr A x m : Forall is_digit (A ++ x :: repeat "9"%char m) -> x <> "9"%char ->
  Forall is_digit (A ++ chr (ord x + 1) :: repeat "0"%char m) /\ dec_val (A ++ chr (ord x + 1) :: repeat "0"%char m) = dec_val (A ++ x :: repeat "9"%char m) + 1.
Proof.
  intros H Hx. apply Forall_app in H as [HA H]. inversion H as [|? ? HX HN]; subst. destruct (chr_ord x HX Hx) as [HD HV]. split.
  - apply Forall_app. split; [exact HA|]. constructor; [exact HD|apply digits_zeros].
  - rewrite !dec_val_app, !dec_val_cons. cbn [List.length]. rewrite !repeat_length, dec_zeros, dec_nines, HV. lia.
Qed.
