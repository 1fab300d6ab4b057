(** Specification of the lunar notes of a day: what is due on a lunar date, at the end of the lunar year, on a solar term,
    in the nines after the winter solstice and in the dog days and plum rains. *)
From Coq Require Import ZArith List Bool String.
From Verif Require Import Str ObSpec.
Import ListNotations.
Open Scope Z_scope.

(** a note: its class, whether the day is a holiday because of it, its text *)
Record item := mkItem { it_class : mark; it_free : bool; it_text : bytes }.

(** the texts of class k in order *)
Definition texts (k : mark) (l : list item) : bytes :=
  flat_map (fun x => if mark_eqb (it_class x) k then it_text x else []) l.

(** festivals on day [lf_day] (from 1) of the lunar month called [lf_month] *)
Record lfest := mkL { lf_month : bytes; lf_day : Z; lf_item : item }.
Definition lunar_festivals : list lfest := [
  mkL (B "正") 1 (mkItem Holiday true (B "春节 "));
  mkL (B "正") 2 (mkItem Major true (B "大年初二 "));
  mkL (B "五") 5 (mkItem Holiday true (B "端午节 "));
  mkL (B "八") 15 (mkItem Holiday true (B "中秋节 "));
  mkL (B "正") 15 (mkItem Holiday false (B "元宵节 "));
  mkL (B "正") 25 (mkItem Minor false (B "填仓节 "));
  mkL (B "正") 29 (mkItem Minor false (B "送穷日 "));
  mkL (B "二") 2 (mkItem Major false (B "春龙节(龙抬头) "));
  mkL (B "三") 3 (mkItem Major false (B "北帝诞 "));
  mkL (B "三") 23 (mkItem Major false (B "天后诞 妈祖诞 "));
  mkL (B "四") 8 (mkItem Major false (B "牛王诞 "));
  mkL (B "五") 13 (mkItem Major false (B "关帝诞 "));
  mkL (B "六") 6 (mkItem Major false (B "姑姑节 天贶节 "));
  mkL (B "七") 7 (mkItem Major false (B "七夕(中国情人节,乞巧节,女儿节 ) "));
  mkL (B "七") 15 (mkItem Major false (B "中元节 鬼节"));
  mkL (B "九") 9 (mkItem Major false (B "重阳节 "));
  mkL (B "十") 1 (mkItem Major false (B "祭祖节(十月朝) "));
  mkL (B "十") 15 (mkItem Major false (B "下元节 "));
  mkL (B "冬") 8 (mkItem Major false (B "腊八节 "))].
Definition lf_due (month : bytes) (day : Z) (f : lfest) : bool := beq month (lf_month f) && (day =? lf_day f).

(** a lunar date: month name, in a leap month?, day (from 1), length of the month, name of the next month *)
Record ldate := mkLDate { ld_month : bytes; ld_leap : bool; ld_day : Z; ld_length : Z; ld_next : bytes }.
Definition due_dates (c : ldate) : list item :=
  if ld_leap c then [] else map lf_item (filter (lf_due (ld_month c) (ld_day c)) lunar_festivals).
(** New Year's Eve (last day) and the 23rd of the last month of the year *)
Definition due_year_end (c : ldate) : list item :=
  if beq (ld_next c) (B "正") && beq (ld_month c) (B "腊") then
    (if ld_day c =? ld_length c then [mkItem Holiday true (B "除夕 ")] else []) ++
    (if ld_day c =? 23 then [mkItem Major false (B "小年 ")] else [])
  else [].
(** the solar term on the day, if any; Qingming is a holiday *)
Definition due_term (t : bytes) : list item :=
  match t with [] => [] | _ => [if beq t (B "清明") then mkItem Holiday true (t ++ B " ") else mkItem Major false (t ++ B " ")] end.
(** day x (from 0) after the winter solstice: the nine nines; [num] gives the texts of the numbers 1..9 *)
Definition numeral (n : Z) : bytes := nth (Z.to_nat (n - 1)) [B "一"; B "二"; B "三"; B "四"; B "五"; B "六"; B "七"; B "八"; B "九"] [].
Definition due_nines (x : Z) : list item :=
  if (0 <=? x) && (x <? 81) then
    [if x mod 9 =? 0 then mkItem Major false (B "『" ++ numeral (x / 9 + 1) ++ B "九』 ")
     else mkItem Minor false (numeral (x / 9 + 1) ++ B "九第" ++ dig 1 (x mod 9 + 1) ++ B "天 ")]
  else [].

(** ** Dog days and plum rains *)
(** stem (0 = 甲) and branch (0 = 子) of the day with number n *)
Definition stem (n : Z) : Z := (n - 6) mod 10.
Definition branch (n : Z) : Z := (n - 6) mod 12.
(** day n is the k-th day on or after day a with the property p *)
Definition kth_day (p : Z -> bool) (k a n : Z) : bool :=
  (a <=? n) && p n && (Z.of_nat (List.length (filter (fun j => p (a + Z.of_nat j)) (seq 0 (S (Z.to_nat (n - a)))))) =? k).
Definition is_geng n := stem n =? 6.
Definition is_bing n := stem n =? 2.
Definition is_wei n := branch n =? 7.
(** days of the summer solstice, the beginning of autumn, grain in ear, minor heat *)
Definition due_seasons (xz lq mz xs n : Z) : list item :=
  let major (b : bool) t := if b then [mkItem Major false t] else [] in
  major (kth_day is_geng 3 xz n) (B "初伏 ") ++
  major (kth_day is_geng 4 xz n) (B "中伏 ") ++
  major (kth_day is_geng 1 lq n) (B "末伏 ") ++
  major (kth_day is_bing 1 mz n) (B "入梅 ") ++
  major (kth_day is_wei 1 xs n) (B "出梅 ").

(** t occurs in s *)
Definition occurs (t s : bytes) : Prop := exists a b, s = a ++ t ++ b.
