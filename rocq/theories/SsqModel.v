(** Model of lunar/lunar_ssq.cpp (class SSQ). *)
From Coq Require Import ZArith List Ascii String Bool.
From Coq Require Import Floats.SpecFloat.
From Verif Require Import F64 Str StrModel FmtModel SsqTab.
Import ListNotations.
Open Scope Z_scope.
Open Scope opt_scope.

(** array element; None when the index is outside (undefined behaviour) *)
Definition at_ {A : Type} (l : list A) (i : Z) : option A :=
  if 0 <=? i then nth_error l (Z.to_nat i) else None.

(** ** jieya *)
(** successive calls of string_replace on one text *)
Fixpoint replace_all (rules : list (ascii * bytes)) (s r : bytes) : Prop :=
  match rules with
  | [] => r = s
  | (c, d) :: rules => exists m, string_replace s [c] d m /\ replace_all rules m r
  end.
(** lunar/lunar_ssq.cpp:86-165  jieya(type) returns the C string [r] (no NUL occurs in the tables) *)
Definition jieya (type : Z) (r : bytes) : Prop :=
  replace_all jieya_rules (if type =? 0 then qiS else suoS) r.

(** ** calc *)
(** The astronomical functions qi_high, so_high, qi_low, so_low (lunar_ssq.cpp:173-218) are parameters: the theorems hold
    for whatever doubles they return.  [str_qi], [str_so] are the static tables filled by SSQ::init (167-171). *)
Record ssq_env := mkEnv { qi_high : f64 -> f64; so_high : f64 -> f64; qi_low : f64 -> f64; so_low : f64 -> f64;
                          str_qi : bytes; str_so : bytes }.

(** lunar/lunar_ssq.cpp:249-251  the search [for (i = 0; i < L; i += 2) if (jd + pc < B[i + 2]) break;];
    x is jd + pc, computed once (the addition is deterministic) *)
Fixpoint seg_loop (fuel : nat) (B : list f64) (L : Z) (x : f64) (i : Z) : option Z :=
  match fuel with
  | O => None
  | S fuel =>
      if i <? L then
        let* b := at_ B (i + 2) in
        if fltb x b then Some i else seg_loop fuel B L x (i + 2)
      else Some i
  end.

Definition tropical : f64 := lit 3652422 10000.
Definition synodic : f64 := lit 295306 10000.

(** lunar/lunar_ssq.cpp:240, 262  angle of the solar term: [floor((jd + pc - 2451259) / 365.2422 * 24) * M_PI / 12] *)
Definition qi_angle (jd pc : f64) : f64 :=
  fdiv (fmul (ffloor (fmul (fdiv (fsub (fadd jd pc) (fZ 2451259)) tropical) (fZ 24))) M_PI) (fZ 12).
(** lunar/lunar_ssq.cpp:242, 267  angle of the new moon: [floor((jd + pc - 2451551) / 29.5306) * M_PI * 2] *)
Definition so_angle (jd pc : f64) : f64 :=
  fmul (fmul (ffloor (fdiv (fsub (fadd jd pc) (fZ 2451551)) synodic)) M_PI) (fZ 2).

(** lunar/lunar_ssq.cpp:248-256  the linear fit *)
Definition calc_mean (B : list f64) (pc jd : f64) : option Z :=
  let x := fadd jd pc in
  let* i := seg_loop (S (List.length B)) B (Z.of_nat (List.length B)) x 0 in
  let* b := at_ B i in
  let* k := at_ B (i + 1) in
  let D := fadd b (fmul k (ffloor (fdiv (fsub x b) k))) in
  let D := ffloor (fadd D (lit 5 10)) in
  let D := if feqb D (fZ 1683460) then fadd D (fZ 1) else D in
  cast_int (fsub D (fZ 2451545)).

(** lunar/lunar_ssq.cpp:263, 268  index into the correction text *)
Definition corr_index (qs : Z) (jd f2 : f64) : option Z :=
  if qs =? 0 then int2 (fdiv (fsub jd f2) synodic)
  else int2 (fmul (fdiv (fsub jd f2) tropical) (fZ 24)).

(** lunar/lunar_ssq.cpp:258-275  low-precision astronomy with correction *)
Definition calc_corr (e : ssq_env) (qs : Z) (pc f2 jd : f64) : option Z :=
  let D := if qs =? 0 then ffloor (fadd (so_low e (so_angle jd pc)) (lit 5 10))
           else ffloor (fadd (qi_low e (qi_angle jd pc)) (lit 5 10)) in
  let* i := corr_index qs jd f2 in
  let* n := at_ (if qs =? 0 then str_so e else str_qi e) i in
  if Ascii.eqb n "1" then cast_int (fadd D (fZ 1))
  else if Ascii.eqb n "2" then cast_int (fsub D (fZ 1))
  else cast_int D.

Definition calc_B (qs : Z) : list f64 := if qs =? 0 then suoKB else qiKB.
Definition calc_pc (qs : Z) : f64 := if qs =? 0 then fZ 14 else fZ 7.
Definition calc_f1 (qs : Z) : option f64 := let* b := at_ (calc_B qs) 0 in Some (fsub b (calc_pc qs)).
Definition calc_f2 (qs : Z) : option f64 :=
  let* b := at_ (calc_B qs) (Z.of_nat (List.length (calc_B qs)) - 1) in Some (fsub b (calc_pc qs)).
Definition calc_f3 : f64 := fZ 2436935.

(** lunar/lunar_ssq.cpp:220-278  calc(jd, qs) *)
Definition calc (e : ssq_env) (jd : f64) (qs : Z) : option Z :=
  let jd := fadd jd (fZ 2451545) in
  let pc := calc_pc qs in
  let* f1 := calc_f1 qs in
  let* f2 := calc_f2 qs in
  if fltb jd f1 || fgeb jd calc_f3 then
    if qs =? 1 then cast_int (ffloor (fadd (qi_high e (qi_angle jd pc)) (lit 5 10)))
    else cast_int (ffloor (fadd (so_high e (so_angle jd pc)) (lit 5 10)))
  else if fgeb jd f1 && fltb jd f2 then calc_mean (calc_B qs) pc jd
  else if fgeb jd f2 && fltb jd calc_f3 then calc_corr e qs pc f2 jd
  else Some 0.

(** ** calcY *)
(** lunar/lunar_ob.cpp:7 *)
Definition str_ymc : list bytes :=
  [B "十一"; B "腊"; B "正"; B "二"; B "三"; B "四"; B "五"; B "六"; B "七"; B "八"; B "九"; B "十"].

(** lunar/lunar_ssq.cpp:343  [for (i=1; B[i+1]>A[2*i] && i<13; i++);] *)
Fixpoint leap_loop (fuel : nat) (A B : list Z) (i : Z) : option Z :=
  match fuel with
  | O => None
  | S fuel =>
      let* b := at_ B (i + 1) in
      let* a := at_ A (2 * i) in
      if (a <? b) && (i <? 13) then leap_loop fuel A B (i + 1) else Some i
  end.
(** lunar/lunar_ssq.cpp:314, 340-346  [leap]: 0 when there is no leap month; A = ZQ, B = HS *)
Definition leap_of (A B : list Z) : option Z :=
  let* b13 := at_ B 13 in
  let* a24 := at_ A 24 in
  if b13 <=? a24 then leap_loop 14 A B 1 else Some 0.
(** lunar/lunar_ssq.cpp:319, 345  month number of month i *)
Definition month_no (leap i : Z) : Z := if (leap =? 0) || (i <? leap) then i else i - 1.

(** lunar/lunar_ssq.cpp:351-366  name of the month that starts on Julian day Dm with number v2 *)
Definition month_name (Dm v2 : Z) : option bytes :=
  let* mc := at_ str_ymc (Z.rem v2 12) in
  let* mc :=
    (if (1724360 <=? Dm) && (Dm <=? 1729794) then at_ str_ymc (Z.rem (v2 + 1) 12)
     else if (1807724 <=? Dm) && (Dm <=? 1808699) then at_ str_ymc (Z.rem (v2 + 1) 12)
     else if (1999349 <=? Dm) && (Dm <=? 1999467) then at_ str_ymc (Z.rem (v2 + 2) 12)
     else if (1973067 <=? Dm) && (Dm <=? 1977052) then
       let mc := if Z.rem v2 12 =? 0 then B "正" else mc in
       Some (if v2 =? 2 then B "一" else mc)
     else Some mc) in
  Some (if (Dm =? 1729794) || (Dm =? 1808699) then B "拾贰" else mc).

(** lunar/lunar_ssq.cpp:327-341: one year head of the years -721..-104: (ns[i], ns[i+3], ns[i+6]); [cal] is calc *)
Definition head_day (cal : f64 -> Z -> option Z) (base : Z) (c : f64) (yy off : Z) (rate : f64) : option Z :=
  let* k := int2 (fadd c (fmul (fZ (yy + off)) rate)) in
  cal (fadd (fZ (base - 2451545)) (fmul (fZ k) synodic)) 0.
Definition year_head (cal : f64 -> Z -> option Z) (yy : Z) : option (Z * Z * Z) :=
  let h := (0, 0, 0) in
  let* h := (if -721 <=? yy then let* d := head_day cal 1457698 (lit 342 1000) yy 721 (lit 12368422 1000000) in Some (d, 0, 2) else Some h) in
  let* h := (if -479 <=? yy then let* d := head_day cal 1546083 (lit 500 1000) yy 479 (lit 12368422 1000000) in Some (d, 0, 2) else Some h) in
  if -220 <=? yy then let* d := head_day cal 1640641 (lit 866 1000) yy 220 (lit 12369000 1000000) in Some (d, 1, 11) else Some h.

(** lunar/lunar_ssq.cpp:335  [for (nn=2;nn>=0;nn--) if (HS[i]>=ns[nn]) break;] : -1 when none *)
Definition head_search (ns : list (Z * Z * Z)) (hs : Z) : Z :=
  let ok nn := match at_ ns nn with Some (d, _, _) => d <=? hs | None => false end in
  if ok 2 then 2 else if ok 1 then 1 else if ok 0 then 0 else -1.
(** lunar/lunar_ssq.cpp:334-338  name of a month in the years -721..-104; ns[-1] is undefined behaviour *)
Definition old_name (ns : list (Z * Z * Z)) (hs : Z) : option bytes :=
  let* (d, lp, jian) := at_ ns (head_search ns hs) in
  let* v := mk_int (hs - d) in
  let* v := mk_int (v + 15) in
  let* f1 := int2 (fdiv (fZ v) synodic) in
  if f1 <? 12 then at_ str_ymc (Z.rem (f1 + jian) 12) else at_ [B "十三"; B "后九"] lp.

Fixpoint mapM {A C : Type} (f : A -> option C) (l : list A) : option (list C) :=
  match l with
  | [] => Some []
  | x :: l => let* y := f x in let* ys := mapM f l in Some (y :: ys)
  end.
Definition upto (n : nat) : list Z := map Z.of_nat (seq 0 n).

Record sui := mkSui { s_ZQ : list Z; s_pe : list Z; s_HS : list Z; s_dx : list Z; s_leap : Z; s_ym : list bytes }.

(** lunar/lunar_ssq.cpp:288-305  the solar terms ZQ and pe *)
Definition sui_terms (cal : f64 -> Z -> option Z) (jd : f64) : option (list Z * list Z) :=
  let* n := int2 (fdiv (fadd (fsub jd (fZ 355)) (fZ 183)) tropical) in
  let W := fadd (fmul (fZ n) tropical) (fZ 355) in
  let* q := cal W 1 in
  let W := if fgtb (fZ q) jd then fsub W tropical else W in
  let* ZQ := mapM (fun i => cal (fadd W (fmul (lit 152184 10000) (fZ i))) 1) (upto 25) in
  let* p0 := cal (fsub W (lit 152 10)) 1 in
  let* p1 := cal (fsub W (lit 304 10)) 1 in
  Some (ZQ, [p0; p1]).
(** lunar/lunar_ssq.cpp:303-311  the new moons HS *)
Definition sui_months (cal : f64 -> Z -> option Z) (A0 : Z) : option (list Z) :=
  let* q := cal (fZ A0) 0 in
  let w := fZ q in
  let w := if fgtb w (fZ A0) then fsub w (lit 2953 100) else w in
  mapM (fun i => cal (fadd w (fmul synodic (fZ i))) 0) (upto 15).
(** lunar/lunar_ssq.cpp:282-367  calcY *)
Definition calcY (cal : f64 -> Z -> option Z) (jd : f64) : option sui :=
  let* (ZQ, pe) := sui_terms cal jd in
  let* A0 := at_ ZQ 0 in
  let* HS := sui_months cal A0 in
  let* dx := mapM (fun i => let* a := at_ HS (i + 1) in let* b := at_ HS i in mk_int (a - b)) (upto 14) in
  let* t := mk_int (A0 + 190) in
  let* y := int2 (fdiv (fZ t) tropical) in
  let* YY := mk_int (y + 2000) in
  if (-721 <=? YY) && (YY <=? -104) then
    let* ns := mapM (fun i => year_head cal (YY + i - 1)) (upto 3) in
    let* ym := mapM (fun i => let* hs := at_ HS i in old_name ns hs) (upto 14) in
    Some (mkSui ZQ pe HS dx 0 ym)
  else
    let* leap := leap_of ZQ HS in
    let* ym := mapM (fun i => let* hs := at_ HS i in let* Dm := mk_int (hs + 2451545) in month_name Dm (month_no leap i)) (upto 14) in
    Some (mkSui ZQ pe HS dx leap ym).
