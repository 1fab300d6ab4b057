(** Proofs about formatting. *)
From Coq Require Import ZArith Reals Lia Lra Bool List Ascii String.
From Coq Require Import Floats.SpecFloat.
From Flocq Require Import Core.
From Verif Require Import F64 F64R F64T CalModel CalSpec CalZ CalZ2 CalProof CalProof2 CalProof3.
From Verif Require Import Str DecSpec ItoaModel ItoaProof StrModel StrSpec StrProof FmtModel FmtSpec.
Import ListNotations.
Ltac Zify.zify_post_hook ::= idtac.
Open Scope Z_scope.

Lemma canonical_length s k : canonical s -> dec_val s < 10 ^ Z.of_nat (S k) -> (List.length s <= S k)%nat.
Proof.
  intros (N & F & L) H. destruct s as [|c s]; [easy|]. cbn [List.length].
  destruct (le_lt_dec (List.length s) k) as [?|G]; [lia|exfalso].
  inversion F as [|? ? D F']; subst. rewrite dec_val_cons in H. pose proof (dec_val_nonneg s F') as P.
  assert (1 <= dval c).
  { unfold dval, is_digit in *. destruct (Z.eq_dec (code c) 48) as [E|]; [|lia]. exfalso.
    assert (c = "0"%char).
    { unfold code in E. rewrite <- (ascii_N_embedding c). replace (N_of_ascii c) with 48%N by lia. reflexivity. }
    subst c. specialize (L s eq_refl). subst s. cbn in G. lia. }
  assert (10 ^ Z.of_nat (S k) <= 10 ^ Z.of_nat (List.length s)) by (apply Z.pow_le_mono_r; lia).
  pose proof (pow10_pos (List.length s)). nia.
Qed.

Lemma lastn_pad c k t n : (List.length t <= n <= k + List.length t)%nat ->
  lastn (repeat c k ++ t) (Z.of_nat n) = Some (repeat c (n - List.length t) ++ t).
Proof.
  intros H. unfold lastn.
  replace (repeat c k ++ t) with (repeat c (k - (n - List.length t)) ++ (repeat c (n - List.length t) ++ t) ++ []).
  2:{ rewrite app_nil_r, app_assoc. f_equal. rewrite <- repeat_app. f_equal. lia. }
  set (a := repeat c (k - (n - List.length t))). set (b := repeat c (n - List.length t) ++ t).
  assert (Hb : len b = Z.of_nat n) by (unfold b, len; rewrite app_length, repeat_length; lia).
  rewrite <- Hb. replace (len (a ++ b ++ []) - len b) with (len a) by (rewrite !len_app; cbn; lia).
  apply substr_mid.
Qed.

Lemma to_str_ok i : int_min <= i <= int_max -> exists t, to_str i = Some t /\ int_text i t.
Proof.
  intros H. destruct (to_str_int_ok 32 i) as (t & E & T & _); [now left| |now exists t].
  unfold int_min, int_max in H. change (2 ^ (32 - 1)) with 2147483648. change (2 ^ 32) with 4294967296. lia.
Qed.

Lemma zeros_dec k t : dec_val (repeat "0"%char k ++ t) = dec_val t.
Proof.
  induction k; [easy|]. cbn [repeat app]. rewrite dec_val_cons. change (dval "0") with 0. lia.
Qed.
Lemma zeros_dig k : Forall is_digit (repeat "0"%char k).
Proof. apply Forall_forall. intros x Hx. apply repeat_spec in Hx. subst. unfold is_digit. split; vm_compute; discriminate. Qed.

Lemma zero_field n k x t : int_text x t -> 0 <= x < 10 ^ Z.of_nat (S n) -> (S n <= k + List.length t)%nat ->
  exists f, lastn (repeat "0"%char k ++ t) (Z.of_nat (S n)) = Some f /\ digits_field (S n) x f.
Proof.
  intros T H K. unfold int_text in T. destruct (Z.ltb_spec x 0); [lia|]. destruct T as [C V].
  pose proof (canonical_length t n C ltac:(lia)) as L.
  exists (repeat "0"%char (S n - List.length t) ++ t). split; [apply lastn_pad; lia|].
  split; [rewrite app_length, repeat_length; lia|]. split; [|now rewrite zeros_dec].
  apply Forall_app. split; [apply zeros_dig|apply C].
Qed.
Lemma int_text_nonnil x t : int_text x t -> (1 <= List.length t)%nat.
Proof.
  unfold int_text. destruct (x <? 0); [intros (u & -> & _); cbn; lia|]. intros [[N _] _]. destruct t; [easy|cbn; lia].
Qed.
Lemma two_ok x : 0 <= x <= 99 -> exists t, two x = Some t /\ digits_field 2 x t.
Proof.
  intros H. unfold two. destruct (to_str_ok x) as (t & -> & T); [unfold int_min, int_max; lia|]. cbn [obind].
  change (B "0") with (repeat "0"%char 1). apply (zero_field 1 1 x t T); [cbn; lia|].
  pose proof (int_text_nonnil _ _ T). lia.
Qed.
Lemma int_text_length x t k : int_text x t -> - 10 ^ Z.of_nat (S k) < x < 10 ^ Z.of_nat (S (S k)) -> (List.length t <= S (S k))%nat.
Proof.
  unfold int_text. destruct (Z.ltb_spec x 0).
  - intros (u & -> & C & V) H'. cbn [List.length]. pose proof (canonical_length u k C ltac:(lia)). lia.
  - intros (C & V) H'. pose proof (canonical_length t (S k) C ltac:(lia)). lia.
Qed.
Lemma blank_ok n x t : int_text x t -> (List.length t <= n)%nat ->
  exists f, lastn (repeat " "%char n ++ t) (Z.of_nat n) = Some f /\ blank_field n x f.
Proof.
  intros T L. exists (repeat " "%char (n - List.length t) ++ t). split; [apply lastn_pad; lia|].
  exists (n - List.length t)%nat, t. split; [easy|]. split; [easy|]. rewrite app_length, repeat_length. lia.
Qed.

(** ** DD2str *)
Open Scope R_scope.

(** whole seconds, rounded half up; the two halves of the double addition *)
Lemma round_sec x : ok x -> 0 <= R64 x < 60 ->
  exists z, int2 (fadd x (lit 5 10)) = Some z /\ (0 <= z <= 60)%Z /\ Rabs (IZR z - R64 x) <= / 2 + bpow radix2 (-48).
Proof.
  intros O Bx. destruct lit_half as [O1 E1].
  destruct (fadd_ok x (lit 5 10)) as [O2 E2]; try assumption.
  { rewrite E1. apply Rabs_small with 100; [apply Rabs_le; lra|small]. }
  rewrite E1 in E2. assert (R : Rabs (rnd (R64 x + 1 / 2) - (R64 x + 1 / 2)) <= bpow radix2 (6 - 54)).
  { apply rnd_err; [lia|]. change (bpow radix2 6) with 64. apply Rabs_le. lra. }
  change (6 - 54)%Z with (-48)%Z in R. set (e := bpow radix2 (-48)) in *.
  assert (Le : e <= / 1000000) by (unfold e; change (bpow radix2 (-48)) with (/ 281474976710656); lra).
  assert (Pe : 0 < e) by apply bpow_gt_0.
  apply Rabs_le_inv in R. rewrite <- E2 in R. set (y := R64 (fadd x (lit 5 10))) in *.
  assert (L := Zfloor_lb y). assert (U := Zfloor_ub y). set (z := Zfloor y) in *.
  assert (0 <= y). { rewrite E2. apply rnd_ge_repr; [apply repr_0|lra]. }
  assert (-1 < z)%Z by (apply lt_IZR; lra). assert (z < 61)%Z by (apply lt_IZR; lra).
  exists z. rewrite int2_ok by assumption. fold y. fold z.
  rewrite mk_int_in by (unfold int_min, int_max; lia). split; [reflexivity|]. split; [lia|]. apply Rabs_le. lra.
Qed.

Lemma DD_hms_ok r : clock_ok r -> exists hh mm ss, DD_hms r = Some (hh, mm, ss) /\
  (0 <= hh <= 24)%Z /\ (0 <= mm <= 59)%Z /\ (0 <= ss <= 59)%Z /\ (hh = 24 -> mm = 0 /\ ss = 0)%Z /\
  Rabs (IZR (hh * 3600 + mm * 60 + ss) - clock r) <= / 2 + bpow radix2 (-48).
Proof.
  intros (Bh & Bm & Os & Bs). unfold DD_hms.
  destruct (round_sec _ Os Bs) as (z & -> & Bz & Ez). cbn [obind].
  assert (CL : forall t, t = (h r * 3600 + m r * 60 + z)%Z -> Rabs (IZR t - clock r) <= / 2 + bpow radix2 (-48)).
  { intros t ->. unfold clock. rewrite !plus_IZR, !mult_IZR.
    replace (_ - _) with (IZR z - R64 (s r)) by ring. exact Ez. }
  destruct (Z.leb_spec 60 z) as [C|C].
  - rewrite mk_int_in by (unfold int_min, int_max; lia). cbn [obind].
    rewrite mk_int_in by (unfold int_min, int_max; lia). cbn [obind].
    destruct (Z.leb_spec 60 (m r + 1)) as [C2|C2].
    + rewrite mk_int_in by (unfold int_min, int_max; lia). cbn [obind].
      rewrite mk_int_in by (unfold int_min, int_max; lia). cbn [obind].
      eexists _, _, _. split; [reflexivity|]. repeat split; try lia. apply CL. lia.
    + cbn [obind]. eexists _, _, _. split; [reflexivity|]. repeat split; try lia. apply CL. lia.
  - cbn [obind]. destruct (Z.leb_spec 60 (m r)) as [C2|C2]; [lia|]. cbn [obind].
    eexists _, _, _. split; [reflexivity|]. repeat split; try lia. apply CL. lia.
Qed.

Lemma DD2str_ok r : (-9999 <= Y r <= 99999)%Z -> (0 <= M r <= 99)%Z -> (0 <= D r <= 99)%Z -> clock_ok r ->
  exists t hh mm ss, DD2str r = Some t /\ date_text (Y r) (M r) (D r) hh mm ss t /\
  (0 <= hh <= 24)%Z /\ (0 <= mm <= 59)%Z /\ (0 <= ss <= 59)%Z /\ (hh = 24 -> mm = 0 /\ ss = 0)%Z /\
  Rabs (IZR (hh * 3600 + mm * 60 + ss) - clock r) <= / 2 + bpow radix2 (-48) /\ DD_hms r = Some (hh, mm, ss).
Proof.
  intros BY BM BD CK. destruct (DD_hms_ok r CK) as (hh & mm & ss & E & Bh & Bm & Bs & H24 & EC).
  unfold DD2str. destruct (to_str_ok (Y r)) as (y & -> & T); [unfold int_min, int_max; lia|]. cbn [obind].
  rewrite E. cbn [obind].
  destruct (blank_ok 5 (Y r) y T) as (fy & E0 & F0).
  { apply (int_text_length (Y r) y 3 T). change (10 ^ Z.of_nat 4)%Z with 10000%Z. change (10 ^ Z.of_nat 5)%Z with 100000%Z. lia. }
  change (B "     ") with (repeat " "%char 5). change 5%Z with (Z.of_nat 5). rewrite E0. cbn [obind].
  destruct (two_ok (M r) BM) as (fm & -> & F1). cbn [obind].
  destruct (two_ok (D r) BD) as (fd & -> & F2). cbn [obind].
  destruct (two_ok hh ltac:(lia)) as (fh & -> & F3). cbn [obind].
  destruct (two_ok mm ltac:(lia)) as (fmi & -> & F4). cbn [obind].
  destruct (two_ok ss ltac:(lia)) as (fs & -> & F5). cbn [obind].
  eexists _, hh, mm, ss. split; [reflexivity|]. split.
  - exists fy, fm, fd, fh, fmi, fs. tauto.
  - tauto.
Qed.

(** reading back *)
Lemma digits_inj n x y t : digits_field n x t -> digits_field n y t -> x = y.
Proof. intros (_ & _ & <-) (_ & _ & <-). reflexivity. Qed.
Lemma int_text_no_blank x t : int_text x t -> forall u, t <> " "%char :: u.
Proof.
  unfold int_text. destruct (x <? 0)%Z; [intros (u & -> & _) v; discriminate|]. intros [(_ & F & _) _] u ->.
  inversion F as [|? ? D _]. destruct D as [D _]. vm_compute in D. now apply D.
Qed.
Lemma blank_inj n x y t : blank_field n x t -> blank_field n y t -> x = y.
Proof.
  intros (k & d & E & T & _) (k' & d' & E' & T' & _). rewrite E in E'. clear E t n.
  assert (d = d'); [|subst; eapply int_text_inj; eassumption].
  revert k' E'. induction k; intros k' E.
  - destruct k'; [exact E|]. cbn in E. exfalso. exact (int_text_no_blank _ _ T _ E).
  - destruct k'; [exfalso; cbn in E; symmetry in E; exact (int_text_no_blank _ _ T' _ E)|].
    cbn in E. injection E as E. now apply (IHk k').
Qed.
Lemma app_len_inj {A} (a a' b b' : list A) : List.length a = List.length a' -> a ++ b = a' ++ b' -> a = a' /\ b = b'.
Proof.
  revert a'; induction a as [|x a IH]; intros [|y a'] L E; try discriminate L; [now split|].
  cbn in *. injection E as -> E. destruct (IH a' ltac:(lia) E) as [-> ->]. now split.
Qed.
Lemma date_text_inj y mo d hh mm ss y' mo' d' hh' mm' ss' t :
  date_text y mo d hh mm ss t -> date_text y' mo' d' hh' mm' ss' t ->
  y = y' /\ mo = mo' /\ d = d' /\ hh = hh' /\ mm = mm' /\ ss = ss'.
Proof.
  intros (ty & tmo & td & th & tm & ts & E & F0 & F1 & F2 & F3 & F4 & F5)
         (ty' & tmo' & td' & th' & tm' & ts' & E' & F0' & F1' & F2' & F3' & F4' & F5').
  rewrite E in E'. clear E t.
  assert (LB : forall x t, blank_field 5 x t -> List.length t = 5%nat) by (intros x t (k & dd & _ & _ & ?); assumption).
  assert (LD : forall x t, digits_field 2 x t -> List.length t = 2%nat) by (intros x t (? & _); assumption).
  apply app_len_inj in E' as [<- E]; [|rewrite (LB _ _ F0), (LB _ _ F0'); reflexivity].
  cbn [B list_ascii_of_string app] in E. injection E as E.
  apply app_len_inj in E as [<- E]; [|rewrite (LD _ _ F1), (LD _ _ F1'); reflexivity].
  cbn [B list_ascii_of_string app] in E. injection E as E.
  apply app_len_inj in E as [<- E]; [|rewrite (LD _ _ F2), (LD _ _ F2'); reflexivity].
  cbn [B list_ascii_of_string app] in E. injection E as E.
  apply app_len_inj in E as [<- E]; [|rewrite (LD _ _ F3), (LD _ _ F3'); reflexivity].
  cbn [B list_ascii_of_string app] in E. injection E as E.
  apply app_len_inj in E as [<- E]; [|rewrite (LD _ _ F4), (LD _ _ F4'); reflexivity].
  cbn [B list_ascii_of_string app] in E. injection E as <-.
  split; [eapply blank_inj; eassumption|].
  repeat split; eapply digits_inj; eassumption.
Qed.

(** ** timeStr *)
Lemma timeStr_hms_ok jd k : ok jd -> (8 <= k <= 31)%Z ->
  -2147483648 <= R64 jd <= 2147483646 -> Rabs (R64 jd + / 2) <= bpow radix2 k ->
  exists hh mm ss n, timeStr_hms jd = Some (hh, mm, ss) /\
  (0 <= hh <= 24)%Z /\ (0 <= mm <= 59)%Z /\ (0 <= ss <= 59)%Z /\ (hh = 24 -> mm = 0 /\ ss = 0)%Z /\
  Rabs (IZR n - / 2 + IZR (hh * 3600 + mm * 60 + ss) / 86400 - R64 jd) <= / 172800 + bpow radix2 (k - 53).
Proof.
  intros O Hk BJ BK. pose proof (half_up_err jd k ltac:(lia) BK) as E.
  assert (KK : bpow radix2 (k - 54) <= bpow radix2 (31 - 54)) by (apply bpow_le; lia).
  change (bpow radix2 (31 - 54)) with (/ 8388608) in KK. apply Rabs_le_inv in E.
  destruct (add_half_ok jd O) as [O1 E1].
  { change (bpow radix2 32) with 4294967296. apply Rabs_le. lra. }
  assert (L := Zfloor_lb (half_up jd)). assert (U := Zfloor_ub (half_up jd)).
  set (n := Zfloor (half_up jd)) in *.
  assert (Bn : (-2147483648 <= n <= 2147483647)%Z).
  { split.
    - assert (-2147483649 < n)%Z; [|lia]. apply lt_IZR. lra.
    - assert (n < 2147483648)%Z; [|lia]. apply lt_IZR. lra. }
  unfold timeStr_hms. rewrite int2_ok by assumption. rewrite E1. fold n.
  rewrite mk_int_in by (unfold int_min, int_max; lia). cbn [obind].
  destruct (fZ_ok n) as [O2 E2]; [lia|].
  destruct (fsub_ok (fadd jd (lit 5 10)) (fZ n)) as [O3 E3]; try assumption.
  { rewrite E1, E2. apply Rabs_small with 1; [apply Rabs_le; lra | small]. }
  rewrite E1, E2 in E3. rewrite (rnd_repr (half_up jd - IZR n)) in E3 by now apply half_up_frac.
  set (F := fsub (fadd jd (lit 5 10)) (fZ n)) in *. set (f := half_up jd - IZR n) in *.
  destruct (fZ_ok 86400) as [O4 E4]; [lia|].
  destruct (fmul_ok F (fZ 86400)) as [O5 E5]; try assumption.
  { rewrite E3, E4. apply Rabs_small with 86400; [apply Rabs_le; unfold f; lra | small]. }
  rewrite E3, E4 in E5.
  assert (R5 : Rabs (R64 (fmul F (fZ 86400)) - f * 86400) <= bpow radix2 (17 - 54)).
  { rewrite E5. apply rnd_err; [lia|]. change (bpow radix2 17) with 131072. apply Rabs_le. unfold f; lra. }
  assert (B5 : 0 <= R64 (fmul F (fZ 86400)) <= 86400).
  { rewrite E5. split; [apply rnd_ge_repr; [apply repr_0|unfold f; lra]|].
    apply rnd_le_repr; [apply (repr_IZR 86400); lia|unfold f; lra]. }
  destruct lit_half as [O6 E6].
  set (x := fmul F (fZ 86400)) in *.
  destruct (fadd_ok x (lit 5 10)) as [O7 E7]; try assumption.
  { rewrite E6. apply Rabs_small with 86401; [apply Rabs_le; lra | small]. }
  rewrite E6 in E7.
  assert (R7 : Rabs (R64 (fadd x (lit 5 10)) - (R64 x + 1 / 2)) <= bpow radix2 (17 - 54)).
  { rewrite E7. apply rnd_err; [lia|]. change (bpow radix2 17) with 131072. apply Rabs_le. lra. }
  assert (P7 : 0 <= R64 (fadd x (lit 5 10))). { rewrite E7. apply rnd_ge_repr; [apply repr_0|lra]. }
  change (bpow radix2 (17 - 54)) with (/ 137438953472) in R5, R7. apply Rabs_le_inv in R5, R7.
  set (y := R64 (fadd x (lit 5 10))) in *. assert (Ly := Zfloor_lb y). assert (Uy := Zfloor_ub y).
  rewrite int2_ok by assumption. fold y. set (t := Zfloor y) in *.
  assert (Bt : (0 <= t <= 86400)%Z).
  { assert (-1 < t)%Z by (apply lt_IZR; lra). assert (t < 86401)%Z by (apply lt_IZR; lra). lia. }
  rewrite mk_int_in by (unfold int_min, int_max; lia). cbn [obind].
  destruct (fZ_ok t) as [O8 E8]; [lia|]. destruct (fZ_ok 3600) as [O9 E9]; [lia|].
  rewrite (int2_div_Z _ _ t 3600 O8 O9 E8 E9) by lia.
  assert (D1 : (0 <= t / 3600 <= 24)%Z) by (Z.div_mod_to_equations; lia).
  rewrite mk_int_in by (unfold int_min, int_max; lia). cbn [obind].
  rewrite mk_int_in by (unfold int_min, int_max; lia). cbn [obind].
  set (hh := (t / 3600)%Z) in *. assert (D2 : (0 <= t - hh * 3600 < 3600)%Z) by (unfold hh; Z.div_mod_to_equations; lia).
  rewrite mk_int_in by (unfold int_min, int_max; lia). cbn [obind].
  set (u := (t - hh * 3600)%Z) in *.
  destruct (fZ_ok u) as [O10 E10]; [lia|]. destruct (fZ_ok 60) as [O11 E11]; [lia|].
  rewrite (int2_div_Z _ _ u 60 O10 O11 E10 E11) by lia.
  assert (D3 : (0 <= u / 60 <= 59)%Z) by (Z.div_mod_to_equations; lia).
  rewrite mk_int_in by (unfold int_min, int_max; lia). cbn [obind].
  rewrite mk_int_in by (unfold int_min, int_max; lia). cbn [obind].
  set (mm := (u / 60)%Z) in *. assert (D4 : (0 <= u - mm * 60 < 60)%Z) by (unfold mm; Z.div_mod_to_equations; lia).
  rewrite mk_int_in by (unfold int_min, int_max; lia). cbn [obind].
  exists hh, mm, (u - mm * 60)%Z, n. split; [reflexivity|]. split; [lia|]. split; [lia|]. split; [lia|].
  split; [lia|].
  replace (hh * 3600 + mm * 60 + (u - mm * 60))%Z with t by lia.
  assert (K53 : bpow radix2 (k - 53) = 2 * bpow radix2 (k - 54)).
  { replace (k - 53)%Z with (1 + (k - 54))%Z by lia. rewrite bpow_plus. reflexivity. }
  assert (K8 : bpow radix2 (8 - 54) <= bpow radix2 (k - 54)) by (apply bpow_le; lia).
  change (bpow radix2 (8 - 54)) with (/ 70368744177664) in K8.
  apply Rabs_le. rewrite K53. unfold f in *. lra.
Qed.
