(** Specification of fixed-width number fields. *)
From Coq Require Import ZArith List Ascii String.
From Verif Require Import Str DecSpec.
Import ListNotations.
Open Scope Z_scope.

(** [t] is the number [x] written with exactly [n] decimal digits *)
Definition digits_field (n : nat) (x : Z) (t : bytes) : Prop :=
  List.length t = n /\ Forall is_digit t /\ dec_val t = x.

(** [t] is the decimal text of the integer [x], right-aligned with blanks in a field of width [n] *)
Definition blank_field (n : nat) (x : Z) (t : bytes) : Prop :=
  exists k d, t = repeat " "%char k ++ d /\ int_text x d /\ List.length t = n.

(** the text "hh:mm:ss" *)
Definition time_text (hh mm ss : Z) (t : bytes) : Prop :=
  exists th tm ts, t = th ++ B ":" ++ tm ++ B ":" ++ ts /\
    digits_field 2 hh th /\ digits_field 2 mm tm /\ digits_field 2 ss ts.

(** the text of a date-time *)
Definition date_text (y mo d hh mm ss : Z) (t : bytes) : Prop :=
  exists ty tmo td th tm ts,
    t = ty ++ B "-" ++ tmo ++ B "-" ++ td ++ B " " ++ th ++ B ":" ++ tm ++ B ":" ++ ts /\
    blank_field 5 y ty /\ digits_field 2 mo tmo /\ digits_field 2 d td /\
    digits_field 2 hh th /\ digits_field 2 mm tm /\ digits_field 2 ss ts.

(** sum of the printed fields in units of the last digit *)
Definition sexagesimal (Q a b c d : Z) : Z := (((a * 60 + b) * 60 + c) * Q + d)%Z.


(** sign, degrees, minutes, seconds, [n] decimals; [w1], [w2], [w3] are the unit marks.  Without decimals there is
    neither a point nor the last mark. *)
Definition angle_text (sign w1 w2 w3 : bytes) (n : nat) (a b c d : Z) (t : bytes) : Prop :=
  exists ta tb tc td, t = sign ++ ta ++ w1 ++ tb ++ w2 ++ tc ++ td /\
    blank_field 3 a ta /\ digits_field 2 b tb /\ digits_field 2 c tc /\
    match n with
    | O => td = [] /\ d = 0
    | S _ => exists tf, td = B "." ++ tf ++ w3 /\ digits_field n d tf
    end.
