(** mylib/lat_lon_data.cpp: the choice of a place and the decoding of its position.

    The answers typed by the user are arguments.  [char] is signed; isalnum of a negative char is false (C locale of glibc).
    Reading or writing outside an array, and reading [str] before anything was written to it, is [None]. *)
From Coq Require Import ZArith List Ascii String Bool.
From Verif Require Import F64 Str StrModel.
Import ListNotations.
Open Scope Z_scope.
Open Scope opt_scope.

(** isalnum of <cctype> *)
Definition code (c : ascii) : Z := Z.of_N (N_of_ascii c).
Definition isalnum (c : ascii) : bool :=
  let n := code c in (48 <=? n) && (n <=? 57) || (65 <=? n) && (n <=? 90) || (97 <=? n) && (n <=? 122).
(** the value of a char, and conversion of an int to char *)
Definition schar (z : Z) : Z := (z + 128) mod 256 - 128.

(** lat_lon_data.cpp:69-79  the names of one row: [j] names are complete, the current one has [m] bytes; writes go to ch[i][j][m] of
    char ch[32][210][48].  [cur] and [done] are kept in reverse order. *)
Fixpoint cut (s : bytes) (j m : nat) (cur : bytes) (done : list bytes) : option (list bytes) :=
  match s with
  | [] => Some (rev (rev cur :: done))
  | c :: s =>
      if Ascii.eqb c " " then cut s (S j) 0 [] (rev cur :: done)
      else if isalnum c then cut s j m cur done
      else if (j <? 210)%nat && (m <? 48)%nat then cut s j (S m) (c :: cur) done
      else None
  end.
Definition names (row : bytes) : option (list bytes) := cut row 0 0 [] [].
(** lat_lon_data.cpp:67-80 *)
Fixpoint all_names (rows : list bytes) : option (list (list bytes)) :=
  match rows with [] => Some [] | r :: rows => let* n := names r in let* ns := all_names rows in Some (n :: ns) end.
(** ch[i][j] read as a C string; the array was zeroed, so cells never written are empty.  Without a terminating zero the read runs on. *)
Definition cell (ch : list (list bytes)) (i j : Z) : option bytes :=
  if (0 <=? i) && (i <? 32) && (0 <=? j) && (j <? 210) then
    let s := nth (Z.to_nat j) (nth (Z.to_nat i) ch []) [] in
    if (List.length s <? 48)%nat then Some s else None
  else None.
(** lat_lon_data.cpp:102  the loop that lists the places of a province ends at the first empty cell; [None] when it leaves the row *)
Fixpoint listing (n : nat) (ch : list (list bytes)) (num i : Z) : option unit :=
  match n with
  | O => None
  | S n => let* s := cell ch num i in match s with [] => Some tt | _ => listing n ch num (i + 1) end
  end.
(** scanf("%s", str) into char str[48] *)
Definition scan (typed : bytes) : option bytes := if (List.length typed <? 48)%nat then Some typed else None.
(** lat_lon_data.cpp:89-117  [num], [num0]: the numbers typed, [typed]: the name typed *)
Definition choose (ch : list (list bytes)) (num num0 : Z) (typed : bytes) : option bytes :=
  if num =? 0 then scan typed
  else if num <? 33 then
    let num := num - 1 in
    let* _ := listing 210 ch num 1 in
    if num0 =? 0 then scan typed else cell ch num num0
  else None.

(** lat_lon_data.cpp:129-134 *)
Definition unpack (c : ascii) : Z :=
  let a := schar (code c) in
  schar (if a >? 96 then a - (97 - 36) else if a >? 64 then a - (65 - 10) else a - 48).
(** lat_lon_data.cpp:128-136  longitude and latitude from the four bytes *)
Definition position (a0 a1 a2 a3 : ascii) : f64 * f64 :=
  (fadd (fadd (fZ (unpack a2)) (fdiv (fZ (unpack a3)) (fZ 60))) (fZ 73), fadd (fZ (unpack a0)) (fdiv (fZ (unpack a1)) (fZ 60))).
(** lat_lon_data.h:4-10 *)
Record JINGWEI := mkJW { pJ : f64; pW : f64; ps : bytes; px : bytes }.
(** lat_lon_data.cpp:64 *)
Definition jw0 : JINGWEI := mkJW (lit 1163833333 10000000) (fZ 39) (B "默认") (B "北京").
(** lat_lon_data.cpp:121-145  strstr in row after row, from byte 8 on; strcpy into char s[48], char x[48] *)
Fixpoint search (rows : list bytes) (ch : list (list bytes)) (i : Z) (str : bytes) : option JINGWEI :=
  match rows with
  | [] => Some jw0
  | r :: rows =>
      if len r <? 8 then None
      else match find r str 8 with
      | Some k =>
          let* s := cell ch i 0 in
          match skipn (Z.to_nat (k - 4)) r with
          | a0 :: a1 :: a2 :: a3 :: _ => let (J, W) := position a0 a1 a2 a3 in Some (mkJW J W s str)
          | _ => None
          end
      | None => search rows ch (i + 1) str
      end
  end.
(** lat_lon_data.cpp:28-147 *)
Definition GeographicalPosition (rows : list bytes) (num num0 : Z) (typed : bytes) : option JINGWEI :=
  let* ch := all_names rows in
  let* str := choose ch num num0 typed in
  search rows ch 0 str.
