(** Property C148: the conversions of texts to long and unsigned integers. *)
From Coq Require Import ZArith Lia List Ascii String Bool.
From Verif Require Import F64 Str DecSpec StrModel ItoaModel ItoaProof StoModel.
Import ListNotations.
Open Scope Z_scope.

(** ** Specification *)
(** [c] is the digit of value [d] *)
Definition digit_value (c : ascii) (d : Z) : Prop :=
  code c = 48 + d /\ 0 <= d <= 9 \/ code c = 87 + d /\ 10 <= d <= 35 \/ code c = 55 + d /\ 10 <= d <= 35.
(** [s] is a number of value [v] in base [b] *)
Inductive numeral (b : Z) : bytes -> Z -> Prop :=
| num_last c d : digit_value c d -> d < b -> numeral b [c] d
| num_cons c d s v : digit_value c d -> d < b -> numeral b s v -> numeral b (c :: s) (d * b ^ len s + v).
Definition blank (s : bytes) : Prop := Forall (fun c => code c = 32 \/ 9 <= code c <= 13) s.
Definition sign_text (neg : bool) (s : bytes) : Prop := if neg then s = ["-"%char] else s = [] \/ s = ["+"%char].
(** the text does not go on with a digit *)
Definition ends (b : Z) (s : bytes) : Prop := forall c r d, s = c :: r -> digit_value c d -> b <= d.
Definition hex_mark (s : bytes) : Prop := s = ["0"%char; "x"%char] \/ s = ["0"%char; "X"%char].
(** the text starts with 0x and a hexadecimal digit *)
Definition hex_like (s : bytes) : Prop := exists p c d r, s = p ++ c :: r /\ hex_mark p /\ digit_value c d /\ d < 16.
(** with the argument [base], behind the sign, [p] is skipped and [ds] read in base [b] *)
Definition form (base : Z) (p : bytes) (b : Z) (ds rest : bytes) : Prop :=
  2 <= base <= 36 /\ p = [] /\ b = base /\ (base = 16 -> ~ hex_like (ds ++ rest))
  \/ (base = 0 \/ base = 16) /\ hex_mark p /\ b = 16
  \/ base = 0 /\ p = [] /\ b = 8 /\ (exists t, ds = "0"%char :: t) /\ ~ hex_like (ds ++ rest)
  \/ base = 0 /\ p = [] /\ b = 10 /\ ~ (exists t, ds = "0"%char :: t).
(** [s] contains a number: blanks, sign, mark, digits, and what follows *)
Definition number (base : Z) (s : bytes) (neg : bool) (v : Z) (n : nat) : Prop := exists ws sg p ds rest b,
  s = ws ++ sg ++ p ++ ds ++ rest /\ blank ws /\ sign_text neg sg /\ form base p b ds rest /\ numeral b ds v /\ ends b rest /\ n = List.length (ws ++ sg ++ p ++ ds).

(** ** Proofs *)
Lemma digit_of_ok c d : digit_of c = Some d <-> digit_value c d.
Proof.
  unfold digit_of, digit_value. cbv zeta. destruct (Z.leb_spec 48 (code c)), (Z.leb_spec (code c) 57), (Z.leb_spec 97 (code c)), (Z.leb_spec (code c) 122), (Z.leb_spec 65 (code c)), (Z.leb_spec (code c) 90);
    cbn [andb]; (split; [intros Q; first [discriminate Q | injection Q as <-; lia] | intros Q; first [f_equal; lia | lia]]).
Qed.
Lemma digit_in_ok b c d : digit_in b c = Some d <-> digit_value c d /\ d < b.
Proof.
  unfold digit_in. rewrite <- digit_of_ok. destruct (digit_of c) as [e|].
  - destruct (Z.ltb_spec e b); split; intros Q.
    + injection Q as <-. now split.
    + exact (proj1 Q).
    + discriminate Q.
    + destruct Q as [Q L]. injection Q as <-. lia.
  - split; [discriminate|intros [Q _]; discriminate Q].
Qed.
Lemma digit_none b c : digit_in b c = None -> forall d, digit_value c d -> b <= d.
Proof. intros H d V. destruct (Z.le_gt_cases b d) as [|L]; [assumption|]. rewrite (proj2 (digit_in_ok b c d) (conj V L)) in H. discriminate H. Qed.
Lemma take_ends b rest : ends b rest -> take_in b rest = [].
Proof.
  destruct rest as [|c r]; [reflexivity|]. intros E. cbn. destruct (digit_in b c) as [d|] eqn:D; [|reflexivity].
  apply digit_in_ok in D. destruct D as [V L]. pose proof (E c r d eq_refl V). lia.
Qed.
Lemma take_ok b ds v rest : numeral b ds v -> ends b rest ->
  List.length (take_in b (ds ++ rest)) = List.length ds /\ forall a, fold_left (fun a d => b * a + d) (take_in b (ds ++ rest)) a = a * b ^ len ds + v.
Proof.
  intros N E. induction N as [c d V L|c d s v V L N IH]; cbn [app take_in].
  - rewrite (proj2 (digit_in_ok b c d) (conj V L)), (take_ends _ _ E). split; [reflexivity|]. intros a. cbn [fold_left]. unfold len. cbn [List.length]. change (Z.of_nat 1) with 1. rewrite Z.pow_1_r. ring.
  - rewrite (proj2 (digit_in_ok b c d) (conj V L)). destruct IH as [I1 I2]. split; [cbn; now rewrite I1|]. intros a. cbn [fold_left]. rewrite I2.
    unfold len. cbn [List.length]. rewrite Nat2Z.inj_succ, Z.pow_succ_r by lia. ring.
Qed.
Lemma numeral_nonnil b ds v : numeral b ds v -> exists c d s, ds = c :: s /\ digit_value c d /\ d < b.
Proof. intros [c d V L|c d s v' V L N]; exists c, d; eexists; repeat split; eassumption || reflexivity. Qed.
Lemma spaces_ok ws s : blank ws -> (forall c r, s = c :: r -> is_space c = false) -> spaces (ws ++ s) = List.length ws.
Proof.
  intros W N. induction W as [|c ws C W IH]; cbn.
  - destruct s as [|c r]; [reflexivity|]. cbn. now rewrite (N c r eq_refl).
  - assert (E : is_space c = true). { unfold is_space. apply orb_true_iff. rewrite Z.eqb_eq, andb_true_iff, !Z.leb_le. lia. } rewrite E. now rewrite IH.
Qed.
Lemma digit_no_space c d : digit_value c d -> is_space c = false.
Proof. unfold digit_value, is_space. intros H. apply orb_false_iff. rewrite Z.eqb_neq, andb_false_iff, !Z.leb_gt. lia. Qed.
Lemma digit_no_sign c d : digit_value c d -> Ascii.eqb c "-" = false /\ Ascii.eqb c "+" = false.
Proof.
  intros H. split; apply Ascii.eqb_neq; intros ->; unfold digit_value in H; [change (code "-") with 45 in H | change (code "+") with 43 in H]; lia.
Qed.
Lemma skipn_len {A} (a b : list A) n : n = List.length a -> skipn n (a ++ b) = b.
Proof. intros ->. rewrite skipn_app, skipn_all, Nat.sub_diag. reflexivity. Qed.
Lemma digit_zero : digit_value "0" 0.
Proof. left. change (code "0") with 48. lia. Qed.
Lemma hex_like_ok s : hex_like s <-> match s with c :: x :: d :: _ => Ascii.eqb c "0" && (Ascii.eqb x "x" || Ascii.eqb x "X") && (match digit_in 16 d with Some _ => true | None => false end) = true | _ => False end.
Proof.
  split.
  - intros (p & c & d & r & -> & P & V & L). pose proof (proj2 (digit_in_ok 16 c d) (conj V L)) as D. destruct P as [-> | ->]; cbn [app]; rewrite D; reflexivity.
  - destruct s as [|c [|x [|d r]]]; try contradiction. rewrite !andb_true_iff, orb_true_iff, !Ascii.eqb_eq. intros [[-> X] D].
    destruct (digit_in 16 d) as [e|] eqn:De; [|discriminate D]. apply digit_in_ok in De. exists ["0"%char; x], d, e, r. split; [reflexivity|]. split; [|exact De].
    destruct X as [-> | ->]; [now left|now right].
Qed.
Definition other_base (base : Z) (s : bytes) : Z := if base =? 0 then match s with c :: _ => if Ascii.eqb c "0" then 8 else 10 | [] => 10 end else base.
Lemma prefix_hex base s : (base = 0 \/ base = 16) -> hex_like s -> prefix_of base s = (16, 2%nat).
Proof.
  intros B H. apply hex_like_ok in H. destruct s as [|c [|x [|d r]]]; try contradiction. unfold prefix_of.
  destruct B as [-> | ->]; [change ((0 =? 0) || (0 =? 16))%bool with true|change ((16 =? 0) || (16 =? 16))%bool with true]; rewrite (andb_true_l (Ascii.eqb c "0")), H; reflexivity.
Qed.
Lemma prefix_not base s : ~ ((base = 0 \/ base = 16) /\ hex_like s) -> prefix_of base s = (other_base base s, 0%nat).
Proof.
  intros H. unfold prefix_of, other_base. destruct s as [|c [|x [|d r]]]; try reflexivity.
  destruct (((base =? 0) || (base =? 16)) && Ascii.eqb c "0" && (Ascii.eqb x "x" || Ascii.eqb x "X") && (match digit_in 16 d with Some _ => true | None => false end)) eqn:E; [|reflexivity].
  exfalso. apply H. rewrite <- !andb_assoc in E. apply andb_true_iff in E. destruct E as [E1 E2]. rewrite orb_true_iff, !Z.eqb_eq in E1. split; [exact E1|].
  apply hex_like_ok. rewrite <- andb_assoc. exact E2.
Qed.
Lemma sign_ok neg sg s : sign_text neg sg -> (forall c r, s = c :: r -> Ascii.eqb c "-" = false /\ Ascii.eqb c "+" = false) -> sign_of (sg ++ s) = (neg, List.length sg).
Proof.
  intros S N. destruct neg; cbn in S.
  - now subst sg.
  - destruct S as [-> | ->]; [|reflexivity]. cbn. destruct s as [|c r]; [reflexivity|]. destruct (N c r eq_refl) as [E1 E2]. cbn. now rewrite E1, E2.
Qed.
Lemma scan_number base s neg v n : number base s neg v n -> scan base s = Some (neg, v, n).
Proof.
  intros (ws & sg & p & ds & rest & b & -> & W & S & F & N & E & ->). destruct (numeral_nonnil _ _ _ N) as (c0 & d0 & t0 & Eds & V0 & L0).
  assert (H1 : forall c r, p ++ ds ++ rest = c :: r -> exists d, digit_value c d).
  { intros c r Q. assert (P : p = [] \/ hex_mark p) by (unfold form in F; tauto). destruct P as [-> | [-> | ->]]; cbn in Q.
    - rewrite Eds in Q. cbn in Q. injection Q as <- _. now exists d0.
    - injection Q as <- _. exists 0. apply digit_zero.
    - injection Q as <- _. exists 0. apply digit_zero. }
  assert (H2 : forall c r, sg ++ p ++ ds ++ rest = c :: r -> is_space c = false).
  { intros c r Q. assert (S' : sg = [] \/ sg = ["-"%char] \/ sg = ["+"%char]) by (destruct neg; cbn in S; tauto). destruct S' as [-> | [-> | ->]].
    - destruct (H1 c r Q) as [d V]. exact (digit_no_space c d V).
    - cbn in Q. injection Q as <- _. reflexivity.
    - cbn in Q. injection Q as <- _. reflexivity. }
  unfold scan. rewrite (spaces_ok ws _ W H2), (skipn_len ws _ _ eq_refl).
  rewrite (sign_ok neg sg _ S) by (intros c r Q; destruct (H1 c r Q) as [d V]; exact (digit_no_sign c d V)).
  rewrite (app_assoc ws sg), (skipn_len (ws ++ sg) _ _ ltac:(now rewrite app_length)).
  assert (P : prefix_of base (p ++ ds ++ rest) = (b, List.length p)).
  { destruct F as [(B & -> & -> & F)|[(B & P & ->)|[(-> & -> & -> & (t & ->) & F)|(-> & -> & -> & F)]]].
    - cbn [app List.length]. rewrite prefix_not by (intros [[Q|Q] K]; [lia|exact (F Q K)]). unfold other_base. destruct (Z.eqb_spec base 0); [lia|reflexivity].
    - rewrite prefix_hex; [|exact B|]. { destruct P as [-> | ->]; reflexivity. }
      exists p, c0, d0, (t0 ++ rest). rewrite Eds. split; [reflexivity|]. split; [exact P|]. now split.
    - cbn [app List.length]. rewrite prefix_not by (intros [_ K]; exact (F K)). reflexivity.
    - cbn [app List.length]. rewrite prefix_not.
      + unfold other_base. cbn. rewrite Eds. cbn. destruct (Ascii.eqb_spec c0 "0") as [->|]; [|reflexivity]. exfalso. apply F. now exists t0.
      + intros [_ (q & c & d & r & Q & M & _)]. apply F. rewrite Eds in Q. destruct M as [-> | ->]; cbn in Q; injection Q as -> _; now exists t0. }
  rewrite P. rewrite (app_assoc (ws ++ sg) p), (skipn_len ((ws ++ sg) ++ p) _ _ ltac:(now rewrite !app_length)).
  destruct (take_ok b ds v rest N E) as [T1 T2]. destruct (take_in b (ds ++ rest)) as [|d l] eqn:ET.
  - rewrite Eds in T1. discriminate T1.
  - rewrite T2, T1. rewrite Z.mul_0_l, Z.add_0_l, !app_length, !Nat.add_assoc. reflexivity.
Qed.
Lemma take_split b s : take_in b s = [] /\ ends b s \/ exists ds rest v, s = ds ++ rest /\ numeral b ds v /\ ends b rest.
Proof.
  induction s as [|c s IH]; [left; split; [reflexivity|intros c r d Q; discriminate Q]|]. cbn. destruct (digit_in b c) as [d|] eqn:D.
  - right. apply digit_in_ok in D. destruct D as [V L]. destruct IH as [[_ E]|(ds & rest & v & -> & N & E)].
    + exists [c], s, d. split; [reflexivity|]. split; [now apply num_last|exact E].
    + exists (c :: ds), rest, (d * b ^ len ds + v). split; [reflexivity|]. split; [now apply num_cons|exact E].
  - left. split; [reflexivity|]. intros c' r d Q V. injection Q as <- _. exact (digit_none b c D d V).
Qed.
Lemma blank_split s : exists ws t, s = ws ++ t /\ blank ws /\ (forall c r, t = c :: r -> is_space c = false).
Proof.
  induction s as [|c s (ws & t & -> & W & N)]; [exists [], []; repeat split; [constructor|intros c r Q; discriminate Q]|]. destruct (is_space c) eqn:S.
  - exists (c :: ws), t. split; [reflexivity|]. split; [|exact N]. constructor; [|exact W]. unfold is_space in S. rewrite orb_true_iff, Z.eqb_eq, andb_true_iff, !Z.leb_le in S. exact S.
  - exists [], (c :: ws ++ t). split; [reflexivity|]. split; [constructor|]. intros c' r Q. now injection Q as <- _.
Qed.
Lemma sign_split t : exists neg sg u, t = sg ++ u /\ sign_text neg sg /\ (sg = [] -> forall c r, u = c :: r -> Ascii.eqb c "-" = false /\ Ascii.eqb c "+" = false).
Proof.
  destruct t as [|c t]; [exists false, [], []; repeat split; [now left|discriminate|discriminate]|].
  destruct (Ascii.eqb_spec c "-") as [->|N1]; [exists true, ["-"%char], t; repeat split; discriminate|].
  destruct (Ascii.eqb_spec c "+") as [->|N2]; [exists false, ["+"%char], t; repeat split; [now right|discriminate|discriminate]|].
  exists false, [], (c :: t). split; [reflexivity|]. split; [now left|]. intros _ c' r Q. injection Q as <- _. split; now apply Ascii.eqb_neq.
Qed.
Lemma hex_dec s : hex_like s \/ ~ hex_like s.
Proof. rewrite hex_like_ok. destruct s as [|c [|x [|d r]]]; try tauto. destruct (_ && _ && _)%bool; [now left|right; discriminate]. Qed.
Lemma scan_none base ws sg u neg : blank ws -> (forall c r, sg ++ u = c :: r -> is_space c = false) -> sign_text neg sg ->
  (sg = [] -> forall c r, u = c :: r -> Ascii.eqb c "-" = false /\ Ascii.eqb c "+" = false) -> ~ ((base = 0 \/ base = 16) /\ hex_like u) ->
  take_in (other_base base u) u = [] -> scan base (ws ++ sg ++ u) = None.
Proof.
  intros W NS S NG HB T. unfold scan. rewrite (spaces_ok ws _ W NS), (skipn_len ws _ _ eq_refl).
  assert (SG : sign_of (sg ++ u) = (neg, List.length sg)).
  { destruct neg; cbn in S; [now subst sg|]. destruct S as [-> | ->]; [|reflexivity]. apply (sign_ok false [] u); [now left|exact (NG eq_refl)]. }
  rewrite SG, (app_assoc ws sg), (skipn_len (ws ++ sg) u (List.length ws + List.length sg)) by (now rewrite app_length).
  rewrite (prefix_not _ _ HB), Nat.add_0_r, (skipn_len (ws ++ sg) u (List.length ws + List.length sg)) by (now rewrite app_length). now rewrite T.
Qed.
(** every text has a number or none *)
Lemma number_or_none base s : base = 0 \/ 2 <= base <= 36 -> (exists neg v n, number base s neg v n) \/ scan base s = None.
Proof.
  intros B. destruct (blank_split s) as (ws & t & -> & W & NS). destruct (sign_split t) as (neg & sg & u & -> & S & NG).
  destruct (hex_dec u) as [H|H]; [destruct (Z.eq_dec base 0) as [B0|B0]; [|destruct (Z.eq_dec base 16) as [B1|B1]]|].
  1, 2: left; destruct H as (p & c & d & r & -> & P & V & L); destruct (take_split 16 (c :: r)) as [[_ E]|(ds & rest & v & E1 & N & E)];
    [pose proof (E c r d eq_refl V); lia|]; exists neg, v; eexists; exists ws, sg, p, ds, rest, 16; rewrite E1; (repeat split; try assumption); right; left; (split; [tauto|]); now split.
  all: assert (HB : ~ ((base = 0 \/ base = 16) /\ hex_like u)) by tauto; clear H.
  all: destruct (take_split (other_base base u) u) as [[T E]|(ds & rest & v & -> & N & E)].
  2, 4: left; exists neg, v; eexists; exists ws, sg, [], ds, rest, (other_base base (ds ++ rest)); (repeat split; try assumption);
    destruct (Z.eq_dec base 0) as [->|B0'];
    [ destruct (numeral_nonnil _ _ _ N) as (c0 & d0 & t0 & -> & V0 & L0); unfold other_base; cbn; destruct (Ascii.eqb_spec c0 "0") as [->|C0];
      [right; right; left; repeat split; [now exists t0|tauto] | right; right; right; repeat split; intros [q Q]; injection Q as Q _; contradiction]
    | left; unfold other_base; destruct (Z.eqb_spec base 0); [contradiction|]; repeat split; [lia|lia|intros ->; tauto] ].
  all: right; exact (scan_none base ws sg u neg W NS S NG HB T).
Qed.
Lemma number_digit base s neg v n : base = 0 \/ 2 <= base <= 36 -> number base s neg v n -> exists ws sg c d rest, s = ws ++ sg ++ c :: rest /\ blank ws /\ sign_text neg sg /\ digit_value c d /\ d < (if base =? 0 then 10 else base).
Proof.
  intros B (ws & sg & p & ds & rest & b & -> & W & S & F & N & _). destruct (numeral_nonnil _ _ _ N) as (c0 & d0 & t0 & -> & V0 & L0).
  assert (P : p = [] /\ b <= (if base =? 0 then 10 else base) \/ hex_mark p).
  { destruct F as [(F & -> & -> & _)|[(_ & F & _)|[(-> & -> & -> & _)|(-> & -> & -> & _)]]]; [left; split; [reflexivity|]; destruct (Z.eqb_spec base 0); lia|now right|left; split; [reflexivity|cbn; lia]|left; split; [reflexivity|cbn; lia]]. }
  destruct P as [[-> L]|P].
  - exists ws, sg, c0, d0, (t0 ++ rest). repeat split; try assumption. lia.
  - exists ws, sg, "0"%char, 0. assert (0 < (if base =? 0 then 10 else base)) by (destruct (Z.eqb_spec base 0); lia).
    destruct P as [-> | ->]; eexists; (split; [reflexivity|]); repeat split; try assumption; apply digit_zero.
Qed.

(** ** C148 *)
(** the number and its end *)
Theorem C148_stol w base s neg v n : number base s neg v n -> let i := if neg then - v else v in
  stol w false s base = (if (- 2 ^ (w - 1) <=? i) && (i <=? 2 ^ (w - 1) - 1) then (false, sto_value i n) else (true, sto_range)) /\
  stoll false s base = (if (- 2 ^ 63 <=? i) && (i <=? 2 ^ 63 - 1) then (false, sto_value i n) else (true, sto_range)).
Proof.
  intros H i. assert (G : forall w, after_call false (strto_s w base s) = (if (- 2 ^ (w - 1) <=? i) && (i <=? 2 ^ (w - 1) - 1) then (false, sto_value i n) else (true, sto_range))).
  { intros w'. unfold strto_s. rewrite (scan_number _ _ _ _ _ H). fold i. set (m := 2 ^ (w' - 1)).
    destruct (Z.ltb_spec i (- m)), (Z.leb_spec (- m) i); try lia; [reflexivity|]. destruct (Z.ltb_spec (m - 1) i), (Z.leb_spec i (m - 1)); try lia; reflexivity. }
  split; [apply G|exact (G 64)].
Qed.
(** the unsigned ones: a negative number counts from 2^w downwards *)
Theorem C148_stoul w base s neg v n : number base s neg v n -> let i := (if neg then - v else v) mod 2 ^ w in
  stoul w false s base = (if v <=? 2 ^ w - 1 then (false, sto_value i n) else (true, sto_range)) /\
  (w = 64 -> stoull false s base = stoul w false s base).
Proof.
  intros H i. split; [|intros ->; reflexivity]. unfold stoul, strto_u. rewrite (scan_number _ _ _ _ _ H). fold i.
  destruct (Z.ltb_spec (2 ^ w - 1) v), (Z.leb_spec v (2 ^ w - 1)); try lia; reflexivity.
Qed.
(** no number: invalid_argument, errno as before *)
Theorem C148_invalid w base s errno : base = 0 \/ 2 <= base <= 36 ->
  (forall neg ws sg c d rest, s = ws ++ sg ++ c :: rest -> blank ws -> sign_text neg sg -> digit_value c d -> (if base =? 0 then 10 else base) <= d) ->
  stol w errno s base = (errno, sto_invalid) /\ stoll errno s base = (errno, sto_invalid) /\ stoul w errno s base = (errno, sto_invalid) /\ stoull errno s base = (errno, sto_invalid).
Proof.
  intros B H. destruct (number_or_none base s B) as [(neg & v & n & N)|E].
  - destruct (number_digit _ _ _ _ _ B N) as (ws & sg & c & d & rest & E & W & S & V & L). pose proof (H neg ws sg c d rest E W S V). lia.
  - unfold stol, stoll, stoul, stoull, strto_s, strto_u. rewrite E. repeat split.
Qed.
(** every text is of one of the two kinds, and a text has only one number *)
Theorem C148_cases base s : base = 0 \/ 2 <= base <= 36 -> (exists neg v n, number base s neg v n) \/
  (forall neg ws sg c d rest, s = ws ++ sg ++ c :: rest -> blank ws -> sign_text neg sg -> digit_value c d -> (if base =? 0 then 10 else base) <= d).
Proof.
  intros B. destruct (number_or_none base s B) as [N|E]; [now left|right]. intros neg ws sg c d rest -> W S V.
  destruct (Z.le_gt_cases (if base =? 0 then 10 else base) d) as [|L]; [assumption|exfalso].
  assert (HN : exists v n, number base (ws ++ sg ++ c :: rest) neg v n).
  { destruct (hex_dec (c :: rest)) as [H|H]; [destruct (Z.eq_dec base 0) as [B0|B0]; [|destruct (Z.eq_dec base 16) as [B1|B1]]|].
    1, 2: destruct H as (p & c1 & d1 & r & Ep & P & V1 & L1); destruct (take_split 16 (c1 :: r)) as [[_ T]|(ds & rs & v & E1 & N & T)];
      [pose proof (T c1 r d1 eq_refl V1); lia|]; exists v; eexists; exists ws, sg, p, ds, rs, 16; rewrite Ep, E1; (repeat split; try assumption); right; left; (split; [tauto|]); now split.
    all: assert (HB : ~ ((base = 0 \/ base = 16) /\ hex_like (c :: rest))) by tauto; clear H.
    all: assert (LB : d < other_base base (c :: rest)) by
      (unfold other_base; destruct (Z.eqb_spec base 0); [|assumption]; destruct (Ascii.eqb_spec c "0") as [->|]; [|assumption]; unfold digit_value in V; change (code "0") with 48 in V; lia).
    all: destruct (take_split (other_base base (c :: rest)) (c :: rest)) as [[_ T]|(ds & rs & v & E1 & N & T)]; [pose proof (T c rest d eq_refl V); lia|].
    all: exists v; eexists; exists ws, sg, [], ds, rs, (other_base base (c :: rest)); rewrite E1 in *; (repeat split; try assumption).
    all: destruct (numeral_nonnil _ _ _ N) as (c0 & d0 & t0 & -> & V0 & L0); destruct (Z.eq_dec base 0) as [->|B0'];
      [ unfold other_base; cbn; destruct (Ascii.eqb_spec c0 "0") as [->|C0];
        [right; right; left; repeat split; [now exists t0|tauto] | right; right; right; repeat split; intros [q Q]; injection Q as Q _; contradiction]
      | left; unfold other_base; destruct (Z.eqb_spec base 0); [contradiction|]; repeat split; [lia|lia|intros ->; tauto] ]. }
  destruct HN as (v & n & HN). apply scan_number in HN. rewrite HN in E. discriminate E.
Qed.
Theorem C148_one_number base s neg v n neg' v' n' : number base s neg v n -> number base s neg' v' n' -> neg = neg' /\ v = v' /\ n = n'.
Proof. intros H H'. apply scan_number in H, H'. rewrite H in H'. injection H' as -> -> ->. auto. Qed.
(** the texts of to_str are read back *)
Lemma canonical_numeral s : s <> [] -> Forall is_digit s -> numeral 10 s (dec_val s).
Proof.
  assert (G : forall s a, fold_left (fun a c => 10 * a + dval c) s a = a * 10 ^ len s + dec_val s).
  { unfold dec_val. intros t. induction t as [|c t IH]; intros a; [cbn; lia|]. cbn [fold_left]. rewrite IH, (IH (10 * 0 + dval c)). unfold len. cbn [List.length]. rewrite Nat2Z.inj_succ, Z.pow_succ_r by lia. ring. }
  intros N F. induction F as [|c s C F IH]; [contradiction|]. assert (V : digit_value c (dval c)) by (unfold digit_value, dval, is_digit in *; lia).
  assert (L : dval c < 10) by (unfold dval, is_digit in *; lia). destruct s as [|c' s].
  - replace (dec_val [c]) with (dval c) by (unfold dec_val; cbn; ring). now apply num_last.
  - replace (dec_val (c :: c' :: s)) with (dval c * 10 ^ len (c' :: s) + dec_val (c' :: s)).
    + apply num_cons; [exact V|exact L|]. apply IH. discriminate.
    + unfold dec_val at 2. cbn [fold_left]. change (fold_left (fun a c0 => 10 * a + dval c0) s (10 * (10 * 0 + dval c) + dval c')) with (fold_left (fun a c0 => 10 * a + dval c0) (c' :: s) (10 * 0 + dval c)). rewrite G. ring.
Qed.
Lemma text_number i t : int_text i t -> number 10 t (i <? 0) (Z.abs i) (List.length t).
Proof.
  assert (E : forall r, r = [] -> ends 10 r) by (intros r -> c q d Q; discriminate Q).
  unfold int_text. destruct (Z.ltb_spec i 0).
  - intros (u & -> & (N & D & _) & V). exists [], ["-"%char], [], u, [], 10. cbn [app]. rewrite app_nil_r. repeat split; try constructor; [|rewrite Z.abs_neq, <- V by lia; now apply canonical_numeral|now apply E].
    repeat split; lia.
  - intros ((N & D & _) & V). exists [], [], [], t, [], 10. cbn [app]. rewrite app_nil_r. repeat split; try constructor; [reflexivity| |rewrite Z.abs_eq, <- V by lia; now apply canonical_numeral|now apply E].
    repeat split; lia.
Qed.
Theorem C148_inverts_to_str w i : w = 32 \/ w = 64 ->
  (- 2 ^ (w - 1) <= i < 2 ^ (w - 1) -> exists t, to_str_int w i 0 false = Some t /\ stol w false t 10 = (false, sto_value i (List.length t)) /\ stoll false t 10 = (false, sto_value i (List.length t))) /\
  (0 <= i < 2 ^ w -> exists t, to_str_int w i 0 false = Some t /\ stoul w false t 10 = (false, sto_value i (List.length t)) /\ stoull false t 10 = (false, sto_value i (List.length t))).
Proof.
  intros W. assert (P : 2 ^ w = 2 * 2 ^ (w - 1) /\ 0 < 2 ^ (w - 1) <= 2 ^ 63) by (destruct W as [-> | ->]; vm_compute; repeat split; discriminate). split; intros H.
  - destruct (to_str_int_ok w i W ltac:(lia)) as (t & E & T & _). exists t. split; [exact E|]. pose proof (C148_stol w 10 t _ _ _ (text_number i t T)) as [A B].
    assert (I : (if i <? 0 then - Z.abs i else Z.abs i) = i) by (destruct (Z.ltb_spec i 0); lia). rewrite I in A, B. rewrite A, B.
    destruct (Z.leb_spec (- 2 ^ (w - 1)) i), (Z.leb_spec i (2 ^ (w - 1) - 1)), (Z.leb_spec (- 2 ^ 63) i), (Z.leb_spec i (2 ^ 63 - 1)); try lia; cbn [andb]. split; reflexivity.
  - destruct (to_str_int_ok w i W ltac:(lia)) as (t & E & T & _). exists t. split; [exact E|]. pose proof (text_number i t T) as N.
    destruct (Z.ltb_spec i 0); [lia|]. rewrite Z.abs_eq in N by lia. pose proof (C148_stoul w 10 t _ _ _ N) as [A _]. pose proof (C148_stoul 64 10 t _ _ _ N) as [B C]. cbv zeta in A, B. rewrite A, (C eq_refl), B.
    rewrite !Z.mod_small by (destruct W as [-> | ->]; lia). destruct (Z.leb_spec i (2 ^ w - 1)), (Z.leb_spec i (2 ^ 64 - 1)); try (destruct W as [-> | ->]; lia). split; reflexivity.
Qed.
Lemma skipn_plus {A} (k n : nat) (s : list A) : skipn (k + n) s = skipn n (skipn k s).
Proof. revert s. induction k as [|k IH]; intros s; [reflexivity|]. destruct s; [now rewrite !skipn_nil|]. cbn. apply IH. Qed.
(** my_stoi is stol of 64 bits, cut to int *)
Theorem C148_my_stoi errno s : my_stoi errno s = (fst (stol 64 errno s 10),
  match snd (stol 64 errno s 10) with sto_value v _ => stoi_value ((v + 2 ^ 31) mod 2 ^ 32 - 2 ^ 31) | sto_invalid => invalid_argument | sto_range => out_of_range end).
Proof.
  assert (SK : forall s, skip_space s = skipn (spaces s) s). { intros t. induction t as [|c t IH]; [reflexivity|]. cbn. destruct (is_space c); [exact IH|reflexivity]. }
  assert (TD : forall s, take_in 10 s = map dval (take_digits s)).
  { intros t. induction t as [|c t IH]; [reflexivity|]. cbn [take_in take_digits]. unfold digit_in, digit_of, digitb. cbv zeta.
    destruct (Z.leb_spec 48 (code c)), (Z.leb_spec (code c) 57), (Z.leb_spec 97 (code c)), (Z.leb_spec (code c) 122), (Z.leb_spec 65 (code c)), (Z.leb_spec (code c) 90); cbn [andb];
      try reflexivity; try lia; try (destruct (Z.ltb_spec (code c - 87) 10); [lia|reflexivity]); try (destruct (Z.ltb_spec (code c - 55) 10); [lia|reflexivity]);
      (destruct (Z.ltb_spec (code c - 48) 10); [|lia]); cbn [map]; now rewrite IH. }
  assert (FD : forall l a, fold_left (fun a d => 10 * a + d) (map dval l) a = fold_left (fun a c => 10 * a + dval c) l a). { intros l. induction l as [|c l IH]; intros a; [reflexivity|]. cbn. apply IH. }
  assert (SG : forall t, match t with c :: s' => if Ascii.eqb c "-" then (true, s') else if Ascii.eqb c "+" then (false, s') else (false, t) | [] => (false, t) end = (fst (sign_of t), skipn (snd (sign_of t)) t)).
  { intros t. destruct t as [|c t]; [reflexivity|]. cbn. destruct (Ascii.eqb c "-"); [reflexivity|]. destruct (Ascii.eqb c "+"); reflexivity. }
  unfold my_stoi, stol, strto_s, strtol, scan. rewrite SK, SG. set (u := skipn (spaces s) s). destruct (sign_of u) as [neg n1] eqn:ES. cbn [fst snd].
  assert (K : skipn (spaces s + n1) s = skipn n1 u) by (unfold u; apply skipn_plus).
  rewrite K, prefix_not by (intros [[Q|Q] _]; discriminate Q). change (other_base 10 (skipn n1 u)) with 10. rewrite Nat.add_0_r, K, TD.
  destruct (take_digits (skipn n1 u)) as [|c l]; [reflexivity|]. cbn [map]. change (dval c :: map dval l) with (map dval (c :: l)). rewrite FD. fold (dec_val (c :: l)).
  change long_min with (- 2 ^ (64 - 1)). change long_max with (2 ^ (64 - 1) - 1). set (v := if neg then - dec_val (c :: l) else dec_val (c :: l)).
  destruct (v <? - 2 ^ (64 - 1)); [destruct errno; reflexivity|]. destruct (2 ^ (64 - 1) - 1 <? v); [destruct errno; reflexivity|]. destruct errno; reflexivity.
Qed.
(** finding, as for my_stoi: errno is not cleared, after one text out of range every number is refused *)
Theorem C148_history_refuted : exists before, fst (stol 64 false before 10) = true /\ forall base s neg v n, number base s neg v n ->
  snd (stol 64 (fst (stol 64 false before 10)) s base) = sto_range /\ snd (stoull (fst (stol 64 false before 10)) s base) = sto_range.
Proof.
  exists (B "9223372036854775808"). assert (E : fst (stol 64 false (B "9223372036854775808") 10) = true) by (vm_compute; reflexivity). split; [exact E|]. rewrite E.
  intros base s neg v n N. unfold stol, stoull, strto_s, strto_u. rewrite (scan_number _ _ _ _ _ N). split.
  - destruct (_ <? - 2 ^ (64 - 1)); [reflexivity|]. destruct (2 ^ (64 - 1) - 1 <? _); reflexivity.
  - destruct (2 ^ 64 - 1 <? v); reflexivity.
Qed.
Example C148_ex_number : number 0 (B " -0x1Fg") true 31 6.
Proof.
  exists (B " "), (B "-"), (B "0x"), (B "1F"), (B "g"), 16. split; [reflexivity|]. split; [repeat constructor|]. split; [reflexivity|]. split; [right; left; repeat split; left; reflexivity|].
  split; [|split; [|reflexivity]].
  - change 31 with (1 * 16 ^ len (B "F") + 15). apply num_cons; [left; vm_compute; repeat split; discriminate|lia|]. apply num_last; [right; right; vm_compute; repeat split; discriminate|lia].
  - intros c r d Q V. injection Q as <- _. unfold digit_value in V. change (code "g") with 103 in V. lia.
Qed.
Example C148_ex_values : stol 64 false (B " -0x1Fg") 0 = (false, sto_value (-31) 6) /\ stoul 64 false (B "-1") 10 = (false, sto_value 18446744073709551615 2) /\ stoll false (B "0xg") 16 = (false, sto_value 0 1) /\
  stol 32 false (B "zz") 36 = (false, sto_value 1295 2) /\ stol 32 false (B "2147483648") 10 = (true, sto_range) /\ stoull false (B "+ 1") 10 = (false, sto_invalid).
Proof. repeat split; vm_compute; reflexivity. Qed.
Print Assumptions C148_stol. Print Assumptions C148_stoul. Print Assumptions C148_invalid. Print Assumptions C148_cases. Print Assumptions C148_one_number.
Print Assumptions C148_inverts_to_str. Print Assumptions C148_my_stoi. Print Assumptions C148_history_refuted.
