(** What the precession quantities and the truncated series should be, independent of the code. *)
From Coq Require Import ZArith Reals Bool List Ascii String.
From Coq Require Import Floats.SpecFloat.
From Verif Require Import F64 Str StrModel.
Import ListNotations.
Open Scope Z_scope.

(** ** precession: the twelve quantities, each with its coefficients of t^0, t^1, ... (t in Julian centuries from J2000)
    in units of 10^-10 arcsecond, in the models IAU1976, IAU2000 and P03 *)
Definition quantities : list (bytes * (list Z * list Z * list Z)) :=
  [
   (* psi, lunisolar precession *)
   (B "fi", ([0; 50387784000000; -10725900000; -11470000],
     [0; 50384787500000; -10725900000; -11470000; 0; 0],
     [0; 50384815070000; -10790069000; -11404500; 1328510; -951]));
   (* omega, inclination of the mean equator to the fixed ecliptic *)
   (B "w", ([843814480000000; 0; 512700000; -77260000],
     [843814480000000; -252400000; 512700000; -77260000; 0; 0],
     [843814060000000; -257540000; 512623000; -77250300; -4670; 3337]));
   (* P = sin pi sin Pi *)
   (B "P", ([0; 41976000000; 1944700000; -1790000],
     [0; 41976000000; 1944700000; -1790000; 0; 0],
     [0; 41990940000; 1939873000; -2246600; -9120; 120]));
   (* Q = sin pi cos Pi *)
   (B "Q", ([0; -468150000000; 505900000; 3440000],
     [0; -468150000000; 505900000; 3440000; 0; 0],
     [0; -468110150000; 510283000; 5241300; -6460; -172]));
   (* epsilon, obliquity of date *)
   (B "E", ([843814480000000; -468150000000; -5900000; 18130000],
     [843814480000000; -468402400000; -5900000; 18130000; 0; 0],
     [843814060000000; -468367690000; -1831000; 20034000; -5760; -434]));
   (* chi, planetary precession *)
   (B "x", ([0; 105526000000; -23806400000; -11250000],
     [0; 105526000000; -23806400000; -11250000; 0; 0],
     [0; 105564030000; -23814292000; -12119700; 1706630; -560]));
   (* pi, inclination of the ecliptic of date *)
   (B "pi", ([0; 470028000000; -330100000; 570000],
     [0; 470028000000; -330100000; 570000; 0; 0],
     [0; 469989730000; -334926000; -1255900; 1130; -22]));
   (* Pi, its node *)
   (B "II", ([6295548860000000; -8698192000000; 366600000; -15040000],
     [6295548860000000; -8698192000000; 366600000; -15040000; 0; 0],
     [6295467936000000; -8679575800000; 1579920000; -5371000; -479700; 720]));
   (* p, general precession *)
   (B "p", ([0; 50290966000000; 11111300000; 60000],
     [0; 50287969500000; 11111300000; 60000; 0; 0],
     [0; 50287961950000; 11054348000; 796400; -238570; 383]));
   (* theta *)
   (B "th", ([0; 20043109000000; -4266500000; -418330000],
     [0; 20041917476000; -4269353000; -418251000; -601000; -1000],
     [0; 20041919030000; -4294934000; -418226400; -70890; -1274]));
   (* zeta *)
   (B "Z", ([0; 23062181000000; 3018800000; 179980000],
     [25976176000; 23060809506000; 3019015000; 179663000; -327000; -2000],
     [26505450000; 23060832270000; 2988499000; 180182800; -59710; -3173]));
   (* z *)
   (B "z", ([0; 23062181000000; 10946800000; 182030000],
     [-25976176000; 23060803226000; 10947790000; 182273000; 470000; -3000],
     [-26505450000; 23060771810000; 10927348000; 182683700; -285960; -2904]))].
(** the value in radians; [half_turn] is the number used for pi *)
Fixpoint poly (cs : list Z) (T : R) : R := match cs with [] => 0%R | c :: cs => (IZR c / 10000000000 + T * poly cs T)%R end.
Definition in_radians (half_turn arcseconds : R) : R := (arcseconds * half_turn / (180 * 3600))%R.

(** ** truncated series.  A table is its divisor, 19 offsets and the coefficients; a coordinate has six groups of terms
    a cos(b + d t), group i to be multiplied with t^i; the groups are bounded by successive offsets. *)
Fixpoint triples (l : list f64) : list (f64 * f64 * f64) :=
  match l with a :: b :: d :: l' => (a, b, d) :: triples l' | _ => [] end.
Definition slice {A} (l : list A) (lo hi : Z) : list A := firstn (Z.to_nat (hi - lo)) (skipn (Z.to_nat lo) l).
Record table := { divisor : f64; offsets : list Z; coefs : list f64 }.
Definition memory (T : table) : list f64 := divisor T :: map fZ (offsets T) ++ coefs T.
Definition offset (T : table) (k : Z) : Z := nth (Z.to_nat k) (offsets T) 0.
(** the offsets point into the table, do not decrease, bound whole terms, and the first group of each coordinate is not empty *)
Definition well_formed (T : table) : Prop :=
  List.length (offsets T) = 19%nat /\ 20 <= offset T 0 /\ offset T 18 <= Z.of_nat (List.length (memory T)) <= 1000000 /\
  (forall k, 0 <= k < 18 -> exists m, 0 <= m /\ offset T (k + 1) - offset T k = 3 * m) /\
  (forall zn, 0 <= zn <= 2 -> offset T (6 * zn) < offset T (6 * zn + 1)).
Definition group (T : table) (zn i : Z) : list (f64 * f64 * f64) :=
  triples (slice (memory T) (offset T (6 * zn + i)) (offset T (6 * zn + i + 1))).
(** number of terms taken of a group of m terms when n are wanted of the first group, which has m0: all if n is negative,
    otherwise n m / m0 with a fraction of 1/3 or more rounded up, one more except in the first group, not more than m *)
Definition wanted (n m0 i m : Z) : Z := if n <? 0 then m else Z.min m ((3 * n * m + 2 * m0) / (3 * m0) + (if i =? 0 then 0 else 1)).
Section Sum.
Variable cosd : f64 -> f64.
Definition sum_terms (t : f64) (l : list (f64 * f64 * f64)) : f64 :=
  fold_left (fun c '(a, b, d) => fadd c (fmul a (cosd (fadd b (fmul t d))))) l (fZ 0).
(** sum of (truncated group i) * t^i, empty groups left out, powers of t by repeated multiplication *)
Fixpoint sum_groups (n m0 i : Z) (t : f64) (gs : list (list (f64 * f64 * f64))) (tn v : f64) : f64 :=
  match gs with
  | [] => v
  | [] :: gs => sum_groups n m0 (i + 1) t gs (fmul tn t) v
  | g :: gs => sum_groups n m0 (i + 1) t gs (fmul tn t)
                 (fadd v (fmul (sum_terms t (firstn (Z.to_nat (wanted n m0 i (Z.of_nat (List.length g)))) g)) tn))
  end.
Definition coordinate (T : table) (zn : Z) (t : f64) (n : Z) : f64 :=
  let gs := map (group T zn) [0; 1; 2; 3; 4; 5] in
  fdiv (sum_groups n (Z.of_nat (List.length (group T zn 0))) 0 t gs (fZ 1) (fZ 0)) (divisor T).
End Sum.
(** the length, divisor and offsets of the eight planet tables of eph_data.h *)
Definition headers : list (Z * Z * list Z) :=
  [
    (2666, 10000000000, [20; 578; 920; 1100; 1124; 1136; 1148; 1217; 1226; 1229; 1229; 1229; 1229; 1937; 2363; 2618; 2633; 2660; 2666]);
    (1823, 1000000000, [20; 443; 710; 761; 791; 818; 824; 1043; 1106; 1142; 1169; 1190; 1196; 1550; 1742; 1781; 1808; 1823; 1823]);
    (1094, 1000000000, [20; 257; 374; 425; 437; 449; 458; 566; 629; 641; 653; 665; 668; 929; 1040; 1082; 1091; 1094; 1094]);
    (3287, 1000000000, [20; 596; 1028; 1289; 1385; 1427; 1454; 1586; 1670; 1694; 1709; 1718; 1724; 2360; 2873; 3155; 3239; 3275; 3287]);
    (3923, 100000000, [20; 503; 863; 1256; 1451; 1529; 1550; 1676; 1802; 1910; 1964; 1988; 1991; 2513; 2945; 3482; 3761; 3896; 3923]);
    (6536, 100000000, [20; 806; 1406; 1946; 2177; 2282; 2333; 2537; 2726; 2867; 2963; 3008; 3026; 4091; 5063; 5789; 6260; 6452; 6536]);
    (3122, 100000000, [20; 539; 836; 980; 1070; 1085; 1088; 1193; 1271; 1307; 1322; 1325; 1325; 2150; 2660; 2936; 3089; 3122; 3122]);
    (746, 100000000, [20; 188; 260; 281; 293; 299; 302; 359; 404; 419; 422; 425; 425; 638; 701; 743; 746; 746; 746])].

(** ** the moon: terms a cos(b + d t + e t^2/10^4 + f t^3/10^8 + g t^4/10^8); one table for each power of t *)
Definition six := (f64 * f64 * f64 * f64 * f64 * f64)%type.
Fixpoint sixes (l : list f64) : list six :=
  match l with a :: b :: d :: e :: f :: g :: l' => (a, b, d, e, f, g) :: sixes l' | _ => [] end.
(** numbers of terms: longitude, latitude, distance *)
Definition moon_terms (zn : Z) : list Z := if zn =? 0 then [442; 149; 34; 2] else if zn =? 1 then [206; 45; 12] else [221; 52; 12].
Definition wanted6 (n m0 i m : Z) : Z := if n <? 0 then m else Z.min m ((6 * n * m + 5 * m0) / (6 * m0) + (if i =? 0 then 0 else 1)).
Section Moon.
Variable cosd : f64 -> f64.
Variables (t t2 t3 t4 : f64).
Definition sum_sixes (l : list six) : f64 :=
  fold_left (fun c '(a, b, d, e, f, g) => fadd c (fmul a (cosd (fadd (fadd (fadd (fadd b (fmul t d)) (fmul t2 e)) (fmul t3 f)) (fmul t4 g))))) l (fZ 0).
Fixpoint sum_tables (n m0 i : Z) (Fs : list (list six)) (tn v : f64) : f64 :=
  match Fs with
  | [] => v
  | F :: Fs => sum_tables n m0 (i + 1) Fs (fmul tn t) (fadd v (fmul (sum_sixes (firstn (Z.to_nat (wanted6 n m0 i (Z.of_nat (List.length F)))) F)) tn))
  end.
End Moon.
(** the tables have the numbers of terms given above *)
Definition moon_tables (zn : Z) (Fs : list (list f64)) : Prop := map (fun F => Z.of_nat (List.length F)) Fs = map (Z.mul 6) (moon_terms zn).
