(** Property C153: the timetable of an eclipse. *)
From Coq Require Import ZArith Reals Lia Lra Bool List Ascii String.
From Coq Require Import Floats.SpecFloat.
From Flocq Require Import Core.
From Verif Require Import F64 F64R F64T F64E AngModel PiBound ErrExpr SerSpec FormModel FormSpec FormProps TermDay IllProps.
From Verif Require Import CalModel Str FmtModel FmtSpec RptModel RptProps RysModel.
Import ListNotations.
Open Scope R_scope.
Open Scope list_scope.

(** ** Specification *)
(** the moment in the time asked for, as Julian date: Dynamical Time, or that of Beijing when [dt] is the difference of Dynamical and Universal Time *)
Definition in_zone (is_utc : bool) (dt jd : f64) : R := if is_utc then R64 jd - R64 dt + 8 / 24 + 2451545 else R64 jd + 2451545.
(** one line for each contact that takes place (time not zero), in order: its name, date and time to half a second, and the unit *)
Inductive contacts (moment : f64 -> R) (unit : string) : list (bytes * f64) -> bytes -> Prop :=
| no_contact : contacts moment unit [] []
| not_taking_place name jd l t : R64 jd = 0 -> contacts moment unit l t -> contacts moment unit ((name, jd) :: l) t
| contact name jd l x t : R64 jd <> 0 -> moment_text (moment jd) x -> contacts moment unit l t -> contacts moment unit ((name, jd) :: l) (name ++ B ":" ++ x ++ B unit ++ NL ++ t).
(** a number of days by which the two times can differ *)
Definition small_shift (dt : f64) : Prop := ok dt /\ Rabs (R64 dt) <= 100.

(** ** Proofs *)
Lemma minus_third : ok (fdiv (fZ (-8)) (fZ 24)) /\ Rabs (R64 (fdiv (fZ (-8)) (fZ 24)) - -8 / 24) <= / 10000000000.
Proof.
  destruct (fZ_ok (-8) ltac:(lia)) as [O8 E8], (fZ_ok 24 ltac:(lia)) as [O24 E24]. destruct (fdiv_ok _ _ O8 O24) as [O E]; [rewrite E24; lra| |].
  - rewrite E8, E24. apply Rle_trans with (bpow radix2 0); [change (bpow radix2 0) with 1; apply Rabs_le; lra|apply bpow_le; lia].
  - split; [exact O|]. rewrite E, E8, E24. eapply Rle_trans; [apply (rnd_err _ 0); [lia|change (bpow radix2 0) with 1; apply Rabs_le; lra]|].
    change (bpow radix2 (0 - 54)) with (/ 18014398509481984). lra.
Qed.
Lemma shift_ok dt_T jd : small_shift (dt_T jd) -> ok (zone_shift dt_T jd) /\ Rabs (R64 (zone_shift dt_T jd) - (-8 / 24 + R64 (dt_T jd))) <= / 1000000000.
Proof.
  intros [O D]. apply Rabs_le_inv in D. destruct minus_third as [O3 E3]. destruct (add_near _ (dt_T jd) _ _ (/ 10000000000) O3 O E3 (self_near _ (/ 10000000000) ltac:(lra)) ltac:(lra)) as [Os Es]; [apply Rabs_le; lra|].
  split; [exact Os|]. eapply Rle_trans; [exact Es|lra].
Qed.
Lemma from_ok dt_T is_utc jd : in_years jd -> small_shift (dt_T jd) -> ok (from_td dt_T is_utc jd) /\ Rabs (R64 (from_td dt_T is_utc jd) - (in_zone is_utc (dt_T jd) jd - 2451545)) <= / 400000000.
Proof.
  intros [O B] S. pose proof S as [_ D]. apply Rabs_le_inv in B, D. destruct is_utc; cbn [from_td in_zone].
  - destruct (shift_ok dt_T jd S) as [Os Es]. destruct (sub_near jd _ _ _ (/ 1000000000) O Os (self_near _ (/ 1000000000) ltac:(lra)) Es ltac:(lra)) as [Ox Ex]; [apply Rabs_le; lra|].
    split; [exact Ox|]. apply Rabs_le_inv in Ex. apply Rabs_le. lra.
  - split; [exact O|]. apply Rabs_le. lra.
Qed.
Lemma line_ok dt_T is_utc jd : in_years jd -> small_shift (dt_T jd) -> exists t, JD2str (fadd (from_td dt_T is_utc jd) (fZ 2451545)) = Some t /\ moment_text (in_zone is_utc (dt_T jd) jd) t.
Proof.
  intros Y S. destruct (from_ok dt_T is_utc jd Y S) as [O E]. set (x := from_td dt_T is_utc jd) in *. clearbody x. destruct Y as [_ B], S as [_ D]. apply Rabs_le_inv in B, D, E.
  assert (M : 400100 <= in_zone is_utc (dt_T jd) jd <= 4500000) by (destruct is_utc; cbn [in_zone]; lra). set (m := in_zone is_utc (dt_T jd) jd) in *. clearbody m.
  destruct (fZ_ok 2451545 ltac:(lia)) as [OZ EZ]. assert (Sx : Rabs (R64 x + R64 (fZ 2451545)) <= bpow radix2 23) by (rewrite EZ; change (bpow radix2 23) with 8388608; apply Rabs_le; lra).
  destruct (fadd_ok x _ O OZ) as [Oa Ea]; [eapply Rle_trans; [exact Sx|apply bpow_le; lia]|]. apply JD2str_near; [exact Oa| |lra].
  rewrite Ea. pose proof (rnd_err _ 23 ltac:(lia) Sx) as R1. change (bpow radix2 (23 - 54)) with (/ 2147483648) in R1. rewrite EZ in *. apply Rabs_le_inv in R1. apply Rabs_le. lra.
Qed.
Lemma timetable_ok dt_T is_utc : forall l td s, td = B " TD" \/ (is_utc = true /\ td = B " UTC") -> Forall (fun p => in_years (snd p) /\ small_shift (dt_T (snd p))) l ->
  exists t, timetable dt_T is_utc td l s = Some (s ++ t) /\ contacts (fun jd => in_zone is_utc (dt_T jd) jd) (if is_utc then " UTC" else " TD") l t.
Proof.
  induction l as [|[mc jd] l IH]; intros td s T F.
  - exists []. cbn [timetable]. rewrite app_nil_r. split; [reflexivity|constructor].
  - inversion F as [|? ? [Y S] F']; subst. cbn [snd] in *. cbn [timetable]. pose proof Y as [O _]. destruct (fZ_ok 0 ltac:(lia)) as [O0 E0]. rewrite (feqb_ok jd (fZ 0) O O0), E0.
    destruct (Req_bool_spec (R64 jd) 0) as [Z|N].
    + destruct (IH td s T F') as (t & E & C). exists t. split; [exact E|]. now apply not_taking_place.
    + destruct (line_ok dt_T is_utc jd Y S) as (x & Ex & Mx). rewrite Ex. cbn [obind].
      set (td' := if is_utc then B " UTC" else td). assert (T' : td' = B (if is_utc then " UTC" else " TD")) by (unfold td'; destruct is_utc; [reflexivity|destruct T as [T|[T _]]; [exact T|discriminate T]]).
      destruct (IH td' (s ++ mc ++ B ":" ++ x ++ td' ++ NL)) as (t & E & C); [destruct is_utc; [right; now split|left; exact T']|exact F'|].
      exists (mc ++ B ":" ++ x ++ B (if is_utc then " UTC" else " TD") ++ NL ++ t). split.
      * rewrite E, T'. f_equal. rewrite <- !app_assoc. reflexivity.
      * now apply contact.
Qed.

(** C153: the timetables.  The unit is called UTC though the time is that of Beijing *)
Theorem C153_solar dt_T is_utc annular a b c d e s : Forall (fun jd => in_years jd /\ small_shift (dt_T jd)) [a; b; c; d; e] ->
  exists t, solar_table dt_T is_utc annular [a; b; c; d; e] s = Some (s ++ t) /\
    contacts (fun jd => in_zone is_utc (dt_T jd) jd) (if is_utc then " UTC" else " TD")
      (if annular then [(B "初亏", a); (B "食甚", b); (B "复圆", c); (B "环食始", d); (B "环食终", e)] else [(B "初亏", a); (B "食甚", b); (B "复圆", c); (B "食既", d); (B "生光", e)]) t.
Proof.
  intros F. unfold solar_table. repeat match goal with H : Forall _ (_ :: _) |- _ => inversion H; clear H; subst end. destruct annular; (apply timetable_ok; [now left|repeat (apply Forall_cons; [cbn [snd]; assumption|]); apply Forall_nil]).
Qed.
Theorem C153_lunar dt_T is_utc a b c d e f g s : Forall (fun jd => in_years jd /\ small_shift (dt_T jd)) [a; b; c; d; e; f; g] ->
  exists t, lunar_table dt_T is_utc [a; b; c; d; e; f; g] s = Some (s ++ t) /\
    contacts (fun jd => in_zone is_utc (dt_T jd) jd) (if is_utc then " UTC" else " TD")
      [(B "初亏", a); (B "食甚", b); (B "复圆", c); (B "半影食始", d); (B "半影食终", e); (B "食既", f); (B "生光", g)] t.
Proof.
  intros F. unfold lunar_table. repeat match goal with H : Forall _ (_ :: _) |- _ => inversion H; clear H; subst end. apply timetable_ok; [now left|repeat (apply Forall_cons; [cbn [snd]; assumption|]); apply Forall_nil].
Qed.
(** the time given, made Dynamical Time, comes back as it was, up to the change of dt_T in between *)
Theorem C153_round_trip dt_T jd h : in_years jd -> in_years (to_td dt_T true jd) -> small_shift (dt_T jd) -> small_shift (dt_T (to_td dt_T true jd)) ->
  Rabs (R64 (dt_T (to_td dt_T true jd)) - R64 (dt_T jd)) <= h -> Rabs (R64 (from_td dt_T true (to_td dt_T true jd)) - R64 jd) <= h + / 150000000.
Proof.
  intros Y Y' S S' H. pose proof S as [_ D]. pose proof Y as [O B]. apply Rabs_le_inv in D, B. destruct (shift_ok dt_T jd S) as [Os Es].
  destruct (add_near jd _ _ _ (/ 1000000000) O Os (self_near _ (/ 1000000000) ltac:(lra)) Es ltac:(lra)) as [Ox Ex]; [apply Rabs_le; lra|].
  change (fadd jd (zone_shift dt_T jd)) with (to_td dt_T true jd) in *. destruct (from_ok dt_T true _ Y' S') as [_ E]. set (x := to_td dt_T true jd) in *. clearbody x. cbn [in_zone] in E.
  apply Rabs_le_inv in E, Ex, H. apply Rabs_le. lra.
Qed.
(** the limits: for each of the five curves a line with its longitude and latitude in degrees, or "none" for the latitude 100 *)
Definition limit_line (num : f64 -> bytes) (name : string) (j w : f64) (t : bytes) : Prop :=
  (R64 w = 100 /\ t = B name ++ B "：无　　　　　无" ++ NL) \/ (R64 w <> 100 /\ t = B name ++ B "：" ++ num (fmul j deg_per_rad) ++ B "　" ++ num (fmul w deg_per_rad) ++ NL).
Lemma one_limit num c mc i V s j w : nth_error V (i * 2) = Some j -> nth_error V (i * 2 + 1) = Some w -> ok w ->
  exists t, limit_lines num (B c :: mc) i V s = limit_lines num mc (S i) V (s ++ t) /\ limit_line num c j w t.
Proof.
  intros J W O. cbn [limit_lines]. rewrite W. cbn [obind]. destruct (fZ_ok 100 ltac:(lia)) as [O1 E1]. rewrite (feqb_ok w _ O O1), E1. destruct (Req_bool_spec (R64 w) 100) as [Q|Q].
  - exists (B c ++ B "：无　　　　　无" ++ NL). split; [|left; now split]. reflexivity.
  - rewrite J. cbn [obind]. eexists. split; [reflexivity|right; now split].
Qed.
Theorem C153_limits num j0 w0 j1 w1 j2 w2 j3 w3 j4 w4 s : Forall ok [w0; w1; w2; w3; w4] ->
  exists t0 t1 t2 t3 t4, limit_table num [j0; w0; j1; w1; j2; w2; j3; w3; j4; w4] s = Some (s ++ t0 ++ t1 ++ t2 ++ t3 ++ t4) /\
    limit_line num "食中心点" j0 w0 t0 /\ limit_line num "本影北界" j1 w1 t1 /\ limit_line num "本影南界" j2 w2 t2 /\ limit_line num "半影北界" j3 w3 t3 /\ limit_line num "半影南界" j4 w4 t4.
Proof.
  intros F. repeat match goal with H : Forall _ (_ :: _) |- _ => inversion H; clear H; subst end. unfold limit_table. set (V := [j0; w0; j1; w1; j2; w2; j3; w3; j4; w4]).
  match goal with |- context [limit_lines num (_ :: ?m) 0%nat V ?z] => destruct (one_limit num "食中心点" m 0 V z j0 w0) as (t0 & E0 & P0); try reflexivity; try assumption end. rewrite E0.
  match goal with |- context [limit_lines num (_ :: ?m) 1%nat V ?z] => destruct (one_limit num "本影北界" m 1 V z j1 w1) as (t1 & E1 & P1); try reflexivity; try assumption end. rewrite E1.
  match goal with |- context [limit_lines num (_ :: ?m) 2%nat V ?z] => destruct (one_limit num "本影南界" m 2 V z j2 w2) as (t2 & E2 & P2); try reflexivity; try assumption end. rewrite E2.
  match goal with |- context [limit_lines num (_ :: ?m) 3%nat V ?z] => destruct (one_limit num "半影北界" m 3 V z j3 w3) as (t3 & E3 & P3); try reflexivity; try assumption end. rewrite E3.
  match goal with |- context [limit_lines num (_ :: ?m) 4%nat V ?z] => destruct (one_limit num "半影南界" m 4 V z j4 w4) as (t4 & E4 & P4); try reflexivity; try assumption end. rewrite E4.
  exists t0, t1, t2, t3, t4. cbn [limit_lines]. rewrite <- !app_assoc. repeat split; assumption.
Qed.
(** the tables of a solar eclipse are given within 3 degrees of conjunction, those of a lunar eclipse within 10 degrees of opposition; never both *)
Lemma degrees_ok n : (Z.abs n <= 400)%Z -> ok (fdiv (fZ n) deg_per_rad) /\ Rabs (R64 (fdiv (fZ n) deg_per_rad) - IZR n * (PI / 180)) <= / 1000000000.
Proof.
  intros K. destruct good_lib_exists as (fsin & fcos & _ & Gs & Gc & _). assert (BK : Rabs (IZR n) <= 400) by (rewrite <- abs_IZR; apply IZR_le; lia).
  destruct (fZ_ok n ltac:(lia)) as [O V]. set (x := fZ n) in *. clearbody x. rewrite <- V in *. assert (E : env_ok [x] [R64 x] [given 400]) by (constructor; [apply given_ok; assumption|constructor]).
  assert (X : ok (fdiv x deg_per_rad) /\ Rabs (R64 (fdiv x deg_per_rad) - R64 x / (180 / PI)) <= IZR 12676506002282294014 * U).
  { unfold deg_per_rad. pose proof PI_RGT_0. formula2 fsin fcos Gs Gc [x] E; lra. }
  destruct X as [Ox Dx]. split; [exact Ox|]. assert (EU : 12676506002282294014 * U <= / 1000000000) by (unfold U, one; lra). replace (R64 x * (PI / 180)) with (R64 x / (180 / PI)) by (field; pose proof PI_RGT_0; lra). lra.
Qed.
Theorem C153_choice ms : ok ms -> let deg := R64 ms * (180 / PI) in
  (deg <= 2.999999 \/ 357.000001 <= deg -> solar_shown ms = true) /\ (3.000001 <= deg <= 356.999999 -> solar_shown ms = false) /\
  (170.000001 <= deg <= 189.999999 -> lunar_shown ms = true) /\ (deg <= 169.999999 \/ 190.000001 <= deg -> lunar_shown ms = false) /\ ~ (solar_shown ms = true /\ lunar_shown ms = true).
Proof.
  intros O deg. assert (M : R64 ms = deg * (PI / 180)) by (unfold deg; field; pose proof PI_RGT_0; lra). clearbody deg. pose proof PI_bounds as P. 
  destruct (degrees_ok 3 ltac:(lia)) as [O1 E1], (degrees_ok 357 ltac:(lia)) as [O2 E2], (degrees_ok 170 ltac:(lia)) as [O3 E3], (degrees_ok 190 ltac:(lia)) as [O4 E4].
  apply Rabs_le_inv in E1, E2, E3, E4. unfold solar_shown, lunar_shown. rewrite (fltb_ok ms _ O O1), (fltb_ok _ ms O2 O), (fltb_ok _ ms O3 O), (fltb_ok ms _ O O4).
  set (f1 := R64 (fdiv (fZ 3) deg_per_rad)) in *. set (f2 := R64 (fdiv (fZ 357) deg_per_rad)) in *. set (f3 := R64 (fdiv (fZ 170) deg_per_rad)) in *. set (f4 := R64 (fdiv (fZ 190) deg_per_rad)) in *. clearbody f1 f2 f3 f4.
  assert (K : 1 / 60 <= PI / 180 <= 1 / 50) by (revert P; decs; intros P; lra). set (k := PI / 180) in *. clearbody k. rewrite M.
  assert (G : forall f n, - / 1000000000 <= f - n * k <= / 1000000000 -> exists g, f = g * k /\ n - / 10000000 <= g <= n + / 10000000).
  { intros f n H. exists (f / k). split; [field; lra|]. assert (F : f = f / k * k) by (field; lra). set (g := f / k) in *. clearbody g. subst f. split; nra. }
  destruct (G f1 3 E1) as (g1 & -> & B1), (G f2 357 E2) as (g2 & -> & B2), (G f3 170 E3) as (g3 & -> & B3), (G f4 190 E4) as (g4 & -> & B4).
  assert (C : forall x y, Rlt_bool (x * k) (y * k) = Rlt_bool x y) by (intros x y; destruct (Rlt_bool_spec x y); [apply Rlt_bool_true|apply Rlt_bool_false]; nra).
  rewrite !C. clear - B1 B2 B3 B4.
  destruct (Rlt_bool_spec deg g1), (Rlt_bool_spec g2 deg), (Rlt_bool_spec g3 deg), (Rlt_bool_spec deg g4); cbn [orb andb]; repeat split; try reflexivity; try (intros [? ?]); try (intros [?|?]); exfalso; lra.
Qed.
(** the hypotheses can be met *)
Example C153_example : let dt := fun _ : f64 => fZ 1 in Forall (fun jd => in_years jd /\ small_shift (dt jd)) [fZ 3000; fZ 3001; fZ 3002; fZ 0; fZ 0] /\ in_years (to_td dt true (fZ 3000)) /\
  Forall ok [fZ 100; fZ 1; fZ 100; fZ 0; fZ 1] /\ solar_shown (fZ 0) = true /\ lunar_shown (fZ 3) = true /\ solar_shown (fZ 2) = false.
Proof.
  cbv zeta. assert (I : forall z, (Z.abs z <= 100000)%Z -> in_years (fZ z)).
  { intros z K. destruct (fZ_ok z ltac:(lia)) as [O V]. split; [exact O|]. rewrite V, <- abs_IZR. apply IZR_le. lia. }
  assert (S : small_shift (fZ 1)) by (destruct (fZ_ok 1 ltac:(lia)) as [O V]; split; [exact O|]; rewrite V; apply Rabs_le; lra).
  split; [repeat (apply Forall_cons; [split; [apply I; lia|exact S]|]); apply Forall_nil|]. split; [|split; [repeat (apply Forall_cons; [apply fZ_ok; lia|]); apply Forall_nil|repeat split; vm_compute; reflexivity]].
  pose proof (I 3000%Z ltac:(lia)) as [O _]. destruct (fZ_ok 3000 ltac:(lia)) as [_ V]. destruct (shift_ok (fun _ => fZ 1) (fZ 3000) S) as [Os Es]. destruct (fZ_ok 1 ltac:(lia)) as [_ V1].
  destruct (add_near (fZ 3000) _ _ _ (/ 1000000000) O Os (self_near _ (/ 1000000000) ltac:(lra)) Es ltac:(lra)) as [Ox Ex]; [rewrite V, V1; apply Rabs_le; lra|].
  split; [exact Ox|]. rewrite V, V1 in Ex. apply Rabs_le_inv in Ex. cbn [to_td]. apply Rabs_le. lra.
Qed.
Print Assumptions C153_solar.
Print Assumptions C153_lunar.
Print Assumptions C153_round_trip.
Print Assumptions C153_limits.
Print Assumptions C153_choice.
