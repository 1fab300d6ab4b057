(** Model of lunar/lunar_ob.cpp: festivals (OBA::init, OBA::getDayName), eras (OBB::init, OBB::getNH) and lunar
    festivals (OBB::getDayName2). *)
From Coq Require Import ZArith List Ascii String Bool.
From Coq Require Import Floats.SpecFloat.
From Verif Require Import F64 Str ItoaModel StrModel SsqModel ObTab.
Import ListNotations.
Open Scope Z_scope.
Open Scope opt_scope.

(** ** Results of one day *)
(** lunar/lunar_ob.h:60-63  the members A, B, C and Fjia of OB_DAY.  [Fjia] is a bool that no constructor initialises:
    [None] is the indeterminate value. *)
Record notes := mkNotes { n_A : bytes; n_B : bytes; n_C : bytes; n_F : option bool }.
Definition add_A (r : notes) (s : bytes) := mkNotes (n_A r ++ s) (n_B r) (n_C r) (n_F r).
Definition add_B (r : notes) (s : bytes) := mkNotes (n_A r) (n_B r ++ s) (n_C r) (n_F r).
Definition add_C (r : notes) (s : bytes) := mkNotes (n_A r) (n_B r) (n_C r ++ s) (n_F r).
Definition set_F (r : notes) := mkNotes (n_A r) (n_B r) (n_C r) (Some true).

(** lunar/lunar_ob.cpp:153-155, 171-173  the entry s of the given type is added *)
Definition add_type (type s : bytes) (r : notes) : notes :=
  let r := if beq type (B "#") then set_F (add_A r (s ++ B " ")) else r in
  let r := if beq type (B "I") then add_B r (s ++ B " ") else r in
  if beq type (B ".") then add_C r (s ++ B " ") else r.

(** ** OBA *)
(** lunar/lunar_ob.cpp:74-113  OBA::init: the value of sFtv *)
Definition OBA_init (text : bytes) : option (list (list bytes)) :=
  let* sF := split text (B "|") in
  mapM (fun s => split s (B ",")) sF.

(** lunar/lunar_ob.cpp:126-127  "0" in front of a number below ten *)
Definition two_text (n : Z) : option bytes :=
  let* t := to_str n in Some ((if n <? 10 then B "0" else []) ++ t).

(** lunar/lunar_ob.cpp:137-156  one round of the loop over the month's festivals; state: errno = ERANGE?.
    [length() - 2] and the like are size_t; where they would wrap, the substr of the same line throws. *)
Definition fixed_entry (y : Z) (d0 s : bytes) (st : bool * notes) : option (bool * notes) :=
  let '(errno, r) := st in
  let* p := substr s 0 2 in
  if negb (beq p d0) then Some (errno, r)
  else
    let* s := substr s 2 (len s - 2) in
    let* type := substr s 0 1 in
    let* h := substr s 5 1 in
    if beq h (B "-") then
      let* ta := substr s 1 4 in
      match my_stoi errno ta with
      | (errno, stoi_value a) =>
          if y <? a then Some (errno, r)
          else
            let* tb := substr s 6 4 in
            match my_stoi errno tb with
            | (errno, stoi_value b) =>
                if b <? y then Some (errno, r)
                else let* s := substr s 10 (len s - 10) in Some (errno, add_type type s r)
            | _ => None
            end
      | _ => None
      end
    else if y <? 1850 then Some (errno, r)
    else let* s := substr s 1 (len s - 1) in Some (errno, add_type type s r).

(** lunar/lunar_ob.cpp:165-174  one round of the loop over wFtv *)
Definition week_entry (w w2 s : bytes) (r : notes) : option notes :=
  let* s2 := substr s 0 4 in
  if negb (beq s2 w) && negb (beq s2 w2) then Some r
  else
    let* type := substr s 4 1 in
    let* s := substr s 5 (len s - 5) in
    Some (add_type type s r).

Fixpoint foldM {A S : Type} (f : A -> S -> option S) (l : list A) (s : S) : option S :=
  match l with
  | [] => Some s
  | x :: l => let* s := f x s in foldM f l s
  end.

(** the members of OB_DAY that getDayName reads *)
Record day_in := mkDayIn { i_y : Z; i_m : Z; i_d : Z; i_week : Z; i_week0 : Z; i_weeki : Z; i_weekN : Z }.

(** lunar/lunar_ob.cpp:115-175  OBA::getDayName; [sFtv] and [wFtv] are the static tables *)
Definition getDayName (sFtv : list (list bytes)) (wFtv : list bytes) (u : day_in) (st : bool * notes) : option (bool * notes) :=
  let* m0 := two_text (i_m u) in
  let* d0 := two_text (i_d u) in
  let '(errno, r) := st in
  let r := if (i_week u =? 0) || (i_week u =? 6) then set_F r else r in
  let* l := at_ sFtv (i_m u - 1) in
  let* (errno, r) := foldM (fixed_entry (i_y u) d0) l (errno, r) in
  let w_ := if i_week0 u <=? i_week u then i_weeki u + 1 else i_weeki u in
  let w2_ := if i_weeki u =? i_weekN u - 1 then 5 else w_ in
  let* t1 := to_str w_ in
  let* t2 := to_str w2_ in
  let* tw := to_str (i_week u) in
  let w := m0 ++ t1 ++ tw in
  let w2 := m0 ++ t2 ++ tw in
  let* r := foldM (week_entry w w2) wFtv r in
  Some (errno, r).

(** ** OBB *)
(** lunar/lunar_ob.cpp:191-235  OBB::init: the value of JNB *)
Definition OBB_init (text : bytes) : option (list bytes) := split text (B ",").

(** lunar/lunar_ob.cpp:241-249  the loop of getNH; [ob] is what is left of the table.  ob[i+1] .. ob[i+6] beyond the end
    is undefined behaviour.  State: errno = ERANGE? *)
Fixpoint nh_loop (fuel : nat) (y : Z) (ob : list bytes) (errno : bool) (s : bytes) : option (bool * bytes) :=
  match fuel with
  | O => None
  | S fuel =>
      match ob with
      | [] => Some (errno, s)
      | f0 :: _ =>
          match my_stoi errno f0 with
          | (errno, stoi_value j) =>
              if y <? j then nh_loop fuel y (skipn 7 ob) errno s
              else
                let* f1 := at_ ob 1 in
                match my_stoi errno f1 with
                | (errno, stoi_value n) =>
                    let* e := mk_int (j + n) in
                    if e <=? y then nh_loop fuel y (skipn 7 ob) errno s
                    else
                      let* f6 := at_ ob 6 in
                      let* f2 := at_ ob 2 in
                      match my_stoi errno f2 with
                      | (errno, stoi_value u) =>
                          let* k := mk_int (y - j) in
                          let* k := mk_int (k + 1) in
                          let* k := mk_int (k + u) in
                          let* t := to_str k in
                          let c := f6 ++ t ++ B "年" in
                          let* f3 := at_ ob 3 in
                          let* f4 := at_ ob 4 in
                          let* f5 := at_ ob 5 in
                          nh_loop fuel y (skipn 7 ob) errno
                            (s ++ (match s with [] => [] | _ => B ";" end) ++ B "[" ++ f3 ++ B "]" ++ f4 ++ B " " ++ f5 ++ B " " ++ c)
                      | _ => None
                      end
                | _ => None
                end
          | _ => None
          end
      end
  end.
(** lunar/lunar_ob.cpp:237-250  OBB::getNH; each round consumes at least one element *)
Definition getNH (JNB : list bytes) (y : Z) (errno : bool) : option (bool * bytes) :=
  nh_loop (S (List.length JNB)) y JNB errno [].

(** the members of OB_DAY that getDayName2 reads *)
Record lunar_in := mkLunarIn { l_Lmc : bytes; l_Lmc2 : bytes; l_Ldc : bytes; l_Ldn : Z; l_Lleap : bytes; l_Ljq : bytes;
  l_Lday2 : bytes; l_dz : Z; l_xz : Z; l_lq : Z; l_mz : Z; l_xs : Z }.

(** lunar/lunar_ob.cpp:260-278  festivals on a lunar date outside leap months: text of the date, where it goes, name *)
Definition when (b : bool) (f : notes -> notes) (r : notes) : notes := if b then f r else r.
Definition lunar_dates (d : bytes) (r : notes) : notes :=
  let is t := beq d (B t) in
  let r := when (is "正月初一"%string) (fun r => set_F (add_A r (B "春节 "))) r in
  let r := when (is "正月初二"%string) (fun r => set_F (add_B r (B "大年初二 "))) r in
  let r := when (is "五月初五"%string) (fun r => set_F (add_A r (B "端午节 "))) r in
  let r := when (is "八月十五"%string) (fun r => set_F (add_A r (B "中秋节 "))) r in
  let r := when (is "正月十五"%string) (fun r => add_A r (B "元宵节 ")) r in
  let r := when (is "正月廿五"%string) (fun r => add_C r (B "填仓节 ")) r in
  let r := when (is "正月廿九"%string) (fun r => add_C r (B "送穷日 ")) r in
  let r := when (is "二月初二"%string) (fun r => add_B r (B "春龙节(龙抬头) ")) r in
  let r := when (is "三月初三"%string) (fun r => add_B r (B "北帝诞 ")) r in
  let r := when (is "三月廿三"%string) (fun r => add_B r (B "天后诞 妈祖诞 ")) r in
  let r := when (is "四月初八"%string) (fun r => add_B r (B "牛王诞 ")) r in
  let r := when (is "五月十三"%string) (fun r => add_B r (B "关帝诞 ")) r in
  let r := when (is "六月初六"%string) (fun r => add_B r (B "姑姑节 天贶节 ")) r in
  let r := when (is "七月初七"%string) (fun r => add_B r (B "七夕(中国情人节,乞巧节,女儿节 ) ")) r in
  let r := when (is "七月十五"%string) (fun r => add_B r (B "中元节 鬼节")) r in
  let r := when (is "九月初九"%string) (fun r => add_B r (B "重阳节 ")) r in
  let r := when (is "十月初一"%string) (fun r => add_B r (B "祭祖节(十月朝) ")) r in
  let r := when (is "十月十五"%string) (fun r => add_B r (B "下元节 ")) r in
  when (is "冬月初八"%string) (fun r => add_B r (B "腊八节 ")) r.
(** lunar/lunar_ob.cpp:280-285  the last month *)
Definition year_end (u : lunar_in) (d : bytes) (r : notes) : notes :=
  let r := when (beq d (B "腊月三十") && (l_Ldn u =? 30)) (fun r => set_F (add_A r (B "除夕 "))) r in
  let r := when (beq d (B "腊月廿九") && (l_Ldn u =? 29)) (fun r => set_F (add_A r (B "除夕 "))) r in
  when (beq d (B "腊月廿三")) (fun r => add_B r (B "小年 ")) r.
(** lunar/lunar_ob.cpp:286-290  solar term *)
Definition term_note (jq : bytes) (r : notes) : notes :=
  if len jq =? 0 then r
  else if beq jq (B "清明") then set_F (add_A r (jq ++ B " ")) else add_B r (jq ++ B " ").
(** lunar/lunar_ob.cpp:294-300  the nines after the winter solstice; [/] and [%] on non-negative ints *)
Definition nines (dz : Z) (r : notes) : option notes :=
  if (0 <=? dz) && (dz <? 81) then
    let* q := int2 (fZ (Z.quot dz 9)) in
    let* w := at_ str_num (q + 1) in
    if Z.rem dz 9 =? 0 then Some (add_B r (B "『" ++ w ++ B "九』 "))
    else let* t := to_str (Z.rem dz 9 + 1) in Some (add_C r (w ++ B "九第" ++ t ++ B "天 "))
  else Some r.
(** lunar/lunar_ob.cpp:302-308  dog days and plum rains *)
Definition between (a x b : Z) : bool := (a <=? x) && (x <? b).
Definition dog_days (u : lunar_in) (r : notes) : option notes :=
  let* w := substr (l_Lday2 u) 0 3 in
  let* w2 := substr (l_Lday2 u) 3 6 in
  let r := when (between 20 (l_xz u) 30 && beq w (B "庚")) (fun r => add_B r (B "初伏 ")) r in
  let r := when (between 30 (l_xz u) 40 && beq w (B "庚")) (fun r => add_B r (B "中伏 ")) r in
  let r := when (between 0 (l_lq u) 10 && beq w (B "庚")) (fun r => add_B r (B "末伏 ")) r in
  let r := when (between 0 (l_mz u) 10 && beq w (B "丙")) (fun r => add_B r (B "入梅 ")) r in
  Some (when (between 0 (l_xs u) 12 && beq w2 (B "未")) (fun r => add_B r (B "出梅 ")) r).
(** lunar/lunar_ob.cpp:252-309  OBB::getDayName2 *)
Definition getDayName2 (u : lunar_in) (r : notes) : option notes :=
  let d := l_Lmc u ++ B "月" ++ l_Ldc u in
  let r := if negb (beq (l_Lleap u) (B "闰")) then lunar_dates d r else r in
  let r := if beq (l_Lmc2 u) (B "正") then year_end u d r else r in
  let r := term_note (l_Ljq u) r in
  let* r := nines (l_dz u) r in
  dog_days u r.
