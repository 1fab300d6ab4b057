(** Specification of the text of a year. *)
From Coq Require Import ZArith Reals String List Ascii Sorted.
From Verif Require Import F64 F64R Str DecSpec CalSpec FmtSpec.
Import ListNotations.
Open Scope Z_scope.

(** "MM-DD", the civil date of day number n (counted from 2000-01-01) *)
Definition md_text (n : Z) (t : bytes) : Prop :=
  exists y mo d tm td, day_number (n + 2451545) (mkc y mo d) /\ digits_field 2 mo tm /\ digits_field 2 d td /\ t = tm ++ B "-" ++ td.
(** "DD hh:mm:ss", the instant v (in days, from noon of 2000-01-01) to 0.51 seconds *)
Definition instant_text (v : R) (t : bytes) : Prop :=
  exists n y mo d hh mm ss td th tm ts, day_number n (mkc y mo d) /\ t = td ++ B " " ++ th ++ B ":" ++ tm ++ B ":" ++ ts /\
    digits_field 2 d td /\ digits_field 2 hh th /\ digits_field 2 mm tm /\ digits_field 2 ss ts /\
    0 <= hh <= 24 /\ 0 <= mm <= 59 /\ 0 <= ss <= 59 /\
    (Rabs (IZR n - / 2 + IZR (hh * 3600 + mm * 60 + ss) / 86400 - (v + 2451545)) <= 51 / 8640000)%R.
(** the instant in brackets, in red when it is not on the day d (half a second of tolerance at midnight) *)
Definition event_text (v : R) (d : Z) (t : bytes) : Prop :=
  exists c, instant_text v c /\
    ((t = B "(" ++ c ++ B ")" /\ (IZR d - / 172800 <= v + / 2 < IZR d + 1)%R) \/
     (t = (ascii_of_nat 27 :: B "[31m(") ++ c ++ (")"%char :: ascii_of_nat 27 :: B "[0m") /\ (v + / 2 < IZR d \/ IZR d + 1 - / 172800 <= v + / 2)%R)).
(** the names of the 24 terms from the winter solstice *)
Definition term_names : list bytes :=
  [B "冬至"; B "小寒"; B "大寒"; B "立春"; B "雨水"; B "惊蛰"; B "春分"; B "清明"; B "谷雨"; B "立夏"; B "小满"; B "芒种";
   B "夏至"; B "小暑"; B "大暑"; B "立秋"; B "处暑"; B "白露"; B "秋分"; B "寒露"; B "霜降"; B "立冬"; B "小雪"; B "大雪"].
Definition name_of_term (j : Z) : bytes := nth (Z.to_nat (j mod 24)) term_names [].
(** a term j on day d, whose exact time is v *)
Definition term_text (j d : Z) (v : R) (t : bytes) : Prop :=
  exists md ex, t = B "  " ++ name_of_term j ++ md ++ ex /\ md_text d md /\ event_text v d ex.

(** the line of a month: its leap mark, its name (with the word month after a name of one character), its length, its first day with the
    exact new moon, and the terms [js] *)
Definition month_text (leap : bool) (name : bytes) (d0 d1 : Z) (so : Z -> R) (T : Z -> Z) (qi : Z -> R) (js : list Z) (t : bytes) : Prop :=
  exists md ex ts,
    t = (if leap then B "闰" else B "  ") ++ name ++ (if (List.length name =? 3)%nat then B "月" else []) ++ (if d1 - d0 =? 30 then B "大" else B "小") ++
        B " " ++ md ++ ex ++ concat ts /\
    md_text d0 md /\ event_text (so d0) d0 ex /\
    Forall2 (fun j t => term_text j (T j) (qi (T j)) t) js ts.
(** [js] are the numbers of all terms of the days from d0 to before d1, in the order of time *)
Definition terms_between (T : Z -> Z) (d0 d1 : Z) (js : list Z) : Prop :=
  StronglySorted Z.lt js /\ forall j, In j js <-> d0 <= T j < d1.
