(** Model of mylib/mystl/dtoa.h (decimal text of a double) and of the double instance of to_str (mylib/mystl/my_string.h).
    The x86-64 GCC branches of the preprocessor conditions are modelled.  [assert]s are not (NDEBUG); that they hold is proved
    separately. *)
From Coq Require Import ZArith List Ascii String Bool.
From Coq Require Import Floats.SpecFloat.
From Verif Require Import F64 Str SsqModel ItoaModel.
Import ListNotations.
Open Scope Z_scope.
Open Scope opt_scope.

(** dtoa.h:22-137  struct DiyFp: the number f * 2^e, f an unsigned 64-bit integer *)
Record diy := mkDiy { df : Z; de : Z }.

(** dtoa.h:27-43  the constructor from a double.  SpecFloat's canonical mantissa and exponent are the significand with
    the hidden bit and biased_e - 1075, or the bare significand and -1074 for a subnormal number.  An infinity has all exponent
    bits set and significand 0.  The payload of a NaN is not modelled. *)
Definition diy_of (d : f64) : option diy :=
  match d with
  | S754_finite _ m e => Some (mkDiy (Zpos m) e)
  | S754_zero _ => Some (mkDiy 0 (-1074))
  | S754_infinity _ => Some (mkDiy (2 ^ 52) 972)
  | S754_nan => None
  end.

(** dtoa.h:51-64  product: upper half of the 128-bit product, rounded by the top bit of the lower half *)
Definition diy_mul (x y : diy) : diy :=
  let p := df x * df y in
  let h := p / 2 ^ 64 in
  let l := u64w p in
  let h := if Z.testbit l 63 then u64w (h + 1) else h in
  mkDiy h (de x + de y + 64).

(** C++ [x << s] on uint64_t; a shift count outside 0..63 is undefined behaviour *)
Definition shl64 (x s : Z) : option Z := if (0 <=? s) && (s <? 64) then Some (u64w (x * 2 ^ s)) else None.
(** C++ [x >> s] on uint64_t *)
Definition shr64 (x s : Z) : option Z := if (0 <=? s) && (s <? 64) then Some (x / 2 ^ s) else None.

(** dtoa.h:81-99  Normalize with [__builtin_clzll], which is undefined for 0 *)
Definition normalize (x : diy) : option diy :=
  if df x =? 0 then None
  else let s := 63 - Z.log2 (df x) in
       let* f := shl64 (df x) s in Some (mkDiy f (de x - s)).

(** dtoa.h:107-111  the loop of NormalizeBoundary: double until bit 53 is set.  At most 64 rounds (fuel): a nonzero 64-bit value
    without bit 53 reaches it by doubling or becomes 0, for which the loop never ends (None). *)
Fixpoint norm_loop (k : nat) (f e : Z) : option diy :=
  if Z.testbit f 53 then Some (mkDiy f e)
  else match k with O => None | S k => norm_loop k (u64w (f * 2)) (e - 1) end.
(** dtoa.h:101-116 *)
Definition normalize_boundary (x : diy) : option diy :=
  let* r := norm_loop 64 (df x) (de x) in
  let* f := shl64 (df r) 10 in
  Some (mkDiy f (de r - 10)).

(** dtoa.h:118-125  (minus, plus) *)
Definition boundaries (x : diy) : option (diy * diy) :=
  let* pl := normalize_boundary (mkDiy (u64w (u64w (df x * 2) + 1)) (de x - 1)) in
  let mi := if df x =? 2 ^ 52 then mkDiy (u64w (u64w (df x * 4) - 1)) (de x - 2) else mkDiy (u64w (u64w (df x * 2) - 1)) (de x - 1) in
  let* f := shl64 (df mi) (de mi - de pl) in
  Some (mkDiy f (de pl), pl).

(** dtoa.h:141-186  10^-348, 10^-340, ..., 10^340: significands *)
Definition cached_F : list Z := [
  18054884314459144840; 13451937075301367670; 10022474136428063862; 14934650266808366570; 11127181549972568877;
  16580792590934885855; 12353653155963782858; 18408377700990114895; 13715310171984221708; 10218702384817765436;
  15227053142812498563; 11345038669416679861; 16905424996341287883; 12595523146049147757; 9384396036005875287;
  13983839803942852151; 10418772551374772303; 15525180923007089351; 11567161174868858868; 17236413322193710309;
  12842128665889583758; 9568131466127621947; 14257626930069360058; 10622759856335341974; 15829145694278690180;
  11793632577567316726; 17573882009934360870; 13093562431584567480; 9755464219737475723; 14536774485912137811;
  10830740992659433045; 16139061738043178685; 12024538023802026127; 17917957937422433684; 13349918974505688015;
  9946464728195732843; 14821387422376473014; 11042794154864902060; 16455045573212060422; 12259964326927110867;
  18268770466636286478; 13611294676837538539; 10141204801825835212; 15111572745182864684; 11258999068426240000;
  16777216000000000000; 12500000000000000000; 9313225746154785156; 13877787807814456755; 10339757656912845936;
  15407439555097886824; 11479437019748901445; 17105694144590052135; 12744735289059618216; 9495567745759798747;
  14149498560666738074; 10542197943230523224; 15709099088952724970; 11704190886730495818; 17440603504673385349;
  12994262207056124023; 9681479787123295682; 14426529090290212157; 10748601772107342003; 16016664761464807395;
  11933345169920330789; 17782069995880619868; 13248674568444952270; 9871031767461413346; 14708983551653345445;
  10959046745042015199; 16330252207878254650; 12166986024289022870; 18130221999122236476; 13508068024458167312;
  10064294952495520794; 14996968138956309548; 11173611982879273257; 16649979327439178909; 12405201291620119593;
  9242595204427927429; 13772540099066387757; 10261342003245940623; 15290591125556738113; 11392378155556871081;
  16975966327722178521; 12648080533535911531].
(** dtoa.h:187-197  and exponents *)
Definition cached_E : list Z := [
  (-1220); (-1193); (-1166); (-1140); (-1113); (-1087); (-1060); (-1034); (-1007); (-980); (-954); (-927); (-901);
  (-874); (-847); (-821); (-794); (-768); (-741); (-715); (-688); (-661); (-635); (-608); (-582); (-555); (-529);
  (-502); (-475); (-449); (-422); (-396); (-369); (-343); (-316); (-289); (-263); (-236); (-210); (-183); (-157);
  (-130); (-103); (-77); (-50); (-24); 3; 30; 56; 83; 109; 136; 162; 189; 216; 242; 269; 295; 322; 348; 375; 402; 428;
  455; 481; 508; 534; 561; 588; 614; 641; 667; 694; 720; 747; 774; 800; 827; 853; 880; 907; 933; 960; 986; 1013; 1039;
  1066].
(** dtoa.h:200  the double nearest to 0.30102999566398114 *)
Definition log10_2 : f64 := S754_finite false 5422874305198590 (-54).

(** dtoa.h:139-210  GetCachedPower: the power and the negated decimal exponent [*K].  Reading past the tables is undefined behaviour. *)
Definition cached_index (e : Z) : option Z :=
  let* a := mk_int (-61 - e) in
  let dk := fadd (fmul (fZ a) log10_2) (fZ 347) in
  let* k := cast_int dk in
  let k := if fgtb (fsub dk (fZ k)) (fZ 0) then k + 1 else k in
  Some (u32w (k / 8 + 1)).
Definition cached_power (e : Z) : option (diy * Z) :=
  let* index := cached_index e in
  let* f := at_ cached_F index in
  let* e := at_ cached_E index in
  Some (mkDiy f e, - (-348 + index * 8)).

(** the code of a char and the char with a code *)
Definition ord (c : ascii) : Z := Z.of_N (N_of_ascii c).
Definition chr (z : Z) : ascii := ascii_of_N (Z.to_N (z mod 256)).
(** reading from a char array *)
Definition getb (b : bytes) (i : Z) : option ascii := at_ b i.

(** dtoa.h:212-219  GrisuRound on the buffer that starts at [base] in [s].  64-bit arithmetic wraps.  [fuel] bounds the number
    of rounds; running out of it stands for a loop that is longer than that (proved not to happen). *)
Fixpoint grisu_round (fuel : nat) (s : bytes) (base len delta rest ten_kappa wp_w : Z) : option bytes :=
  if (rest <? wp_w) && (ten_kappa <=? u64w (delta - rest)) &&
     ((u64w (rest + ten_kappa) <? wp_w) || (u64w (rest + ten_kappa - wp_w) <? u64w (wp_w - rest)))
  then match fuel with
       | O => None
       | S fuel =>
           let* c := getb s (base + len - 1) in
           let* s := setb s (base + len - 1) (chr (ord c - 1)) in
           grisu_round fuel s base len delta (u64w (rest + ten_kappa)) ten_kappa wp_w
       end
  else Some s.

(** dtoa.h:221-233 *)
Definition count_digits (n : Z) : Z :=
  if n <? 10 then 1 else if n <? 100 then 2 else if n <? 1000 then 3 else if n <? 10000 then 4 else if n <? 100000 then 5
  else if n <? 1000000 then 6 else if n <? 10000000 then 7 else if n <? 100000000 then 8 else if n <? 1000000000 then 9 else 10.

(** dtoa.h:236 *)
Definition kPow10 : list Z := [1; 10; 100; 1000; 10000; 100000; 1000000; 10000000; 100000000; 1000000000].

Section Gen.
(** what a read of kPow10[i] outside of the table gives: [fun _ => None] for the language's rule that it is undefined, or some
    word for what an executable finds there *)
Variable beyond : Z -> option Z.
Definition pow10_at (i : Z) : option Z := match at_ kPow10 i with Some x => Some x | None => beyond i end.

(** dtoa.h:266-267, 282-283  append a digit unless it is a leading zero *)
Definition push (s : bytes) (base len d : Z) : option (bytes * Z) :=
  if negb (d =? 0) || negb (len =? 0) then let* s := setb s (base + len) (chr (48 + d)) in Some (s, len + 1) else Some (s, len).

(** dtoa.h:278-291  the digits after the point; result: buffer, number of digits, kappa *)
Fixpoint gen_frac (fuel : nat) (s : bytes) (base len kappa p2 delta sh wp_w : Z) : option (bytes * Z * Z) :=
  match fuel with
  | O => None
  | S fuel =>
      let p2 := u64w (p2 * 10) in
      let delta := u64w (delta * 10) in
      let d := p2 / 2 ^ sh in
      let* (s, len) := push s base len d in
      let p2 := p2 mod 2 ^ sh in
      let kappa := kappa - 1 in
      if p2 <? delta then
        let* t := pow10_at (- kappa) in
        let* s := grisu_round 64 s base len delta p2 (2 ^ sh) (u64w (wp_w * t)) in
        Some (s, len, kappa)
      else gen_frac fuel s base len kappa p2 delta sh wp_w
  end.

(** dtoa.h:244-275  the digits before the point; [k] is kappa *)
Fixpoint gen_int (k : nat) (s : bytes) (base len p1 p2 delta sh wp_w : Z) : option (bytes * Z * Z) :=
  match k with
  | O => gen_frac 64 s base len 0 p2 delta sh wp_w
  | S k =>
      let d := p1 / 10 ^ Z.of_nat k in
      let p1 := p1 mod 10 ^ Z.of_nat k in
      let* (s, len) := push s base len d in
      let* q := shl64 p1 sh in
      let tmp := u64w (q + p2) in
      if tmp <=? delta then
        let* t := pow10_at (Z.of_nat k) in
        let* t := shl64 t sh in
        let* s := grisu_round 64 s base len delta tmp t wp_w in
        Some (s, len, Z.of_nat k)
      else gen_int k s base len p1 p2 delta sh wp_w
  end.

(** dtoa.h:235-292  DigitGen; result: buffer, number of digits, what is added to [*K].  [one.f] is 2^sh. *)
Definition digit_gen (W Mp : diy) (delta : Z) (s : bytes) (base : Z) : option (bytes * Z * Z) :=
  let sh := - de Mp in
  let* _ := shl64 1 sh in
  let wp_w := u64w (df Mp - df W) in
  let* q := shr64 (df Mp) sh in
  let p1 := u32w q in
  let p2 := df Mp mod 2 ^ sh in
  gen_int (Z.to_nat (count_digits p1)) s base 0 p1 p2 delta sh wp_w.

(** dtoa.h:294-306  Grisu2: buffer, number of digits, K *)
Definition grisu2 (value : f64) (s : bytes) (base : Z) : option (bytes * Z * Z) :=
  let* v := diy_of value in
  let* (w_m, w_p) := boundaries v in
  let* (c_mk, K) := cached_power (de w_p) in
  let* nv := normalize v in
  let W := diy_mul nv c_mk in
  let Wp := diy_mul w_p c_mk in
  let Wm := diy_mul w_m c_mk in
  let Wm := mkDiy (u64w (df Wm + 1)) (de Wm) in
  let Wp := mkDiy (u64w (df Wp - 1)) (de Wp) in
  let* (s, len, kappa) := digit_gen W Wp (u64w (df Wp - df Wm)) s base in
  Some (s, len, K + kappa).
End Gen.

(** C memmove inside one char array; outside of the array, or with a negative size (a huge size_t), it is undefined behaviour *)
Definition mmove (s : bytes) (dst src n : Z) : option bytes :=
  if (0 <=? n) && (0 <=? dst) && (0 <=? src) && (dst + n <=? len s) && (src + n <=? len s) then
    Some (firstn (Z.to_nat dst) s ++ firstn (Z.to_nat n) (skipn (Z.to_nat src) s) ++ skipn (Z.to_nat (dst + n)) s)
  else None.

(** [k] times [*buffer++ = c], the loops of dtoa.h:434, 438, 455, 473, 479; result: array and pointer *)
Fixpoint fill (k : nat) (s : bytes) (i : Z) (c : ascii) : option (bytes * Z) :=
  match k with
  | O => Some (s, i)
  | S k => let* s := setb s i c in fill k s (i + 1) c
  end.

(** dtoa.h:324-346  WriteExponent; the pair table of lines 309-320 is that of itoa.h *)
Definition write_exponent (K : Z) (s : bytes) (i : Z) : option (bytes * Z) :=
  let* (s, i, K) := (if K <? 0 then let* s := setb s i "-"%char in Some (s, i + 1, - K) else Some (s, i, K)) in
  if 100 <=? K then
    let* s := setb s i (chr (48 + K / 100)) in
    let* p := dd_at (K mod 100) in
    let* s := put2 s (i + 1) p in Some (s, i + 3)
  else if 10 <=? K then
    let* p := dd_at K in
    let* s := put2 s i p in Some (s, i + 2)
  else let* s := setb s i (chr (48 + K)) in Some (s, i + 1).

(** dtoa.h:407-417  from the label [roll] on, with the cursor at [cur]; result: array and [end].  The comparison [--cursor > base]
    is modelled on indices.  Each round moves the cursor down, so [fuel] = its distance from [base] is enough. *)
Fixpoint roll (fuel : nat) (s : bytes) (base cur end_ : Z) : option (bytes * Z) :=
  let* c := getb s cur in
  if Ascii.eqb c "9" then
    let* s := setb s cur "0" in
    let cur := cur - 1 in
    if base <? cur then
      let* c := getb s cur in
      let cur := if Ascii.eqb c "." then cur - 1 else cur in
      match fuel with O => None | S fuel => roll fuel s base cur end_ end
    else
      let* s := mmove s (base + 1) base (end_ - base) in
      let* s := setb s base "1" in
      Some (s, end_ + 1)
  else let* s := setb s cur (chr (ord c + 1)) in Some (s, end_).
(** dtoa.h:399-423  PrettifyRoundUP (the second comparison of line 405 repeats that of line 402) *)
Definition round_up (s : bytes) (base end_ : Z) : option (bytes * Z) :=
  let* c := getb s end_ in
  let* (s, end_) :=
    (if ord "5" <=? ord c then
       let* p := getb s (end_ - 1) in
       let cur := if Ascii.eqb p "." then end_ - 2 else end_ - 1 in
       roll (Z.to_nat (end_ - base)) s base cur end_
     else Some (s, end_)) in
  let* s := setb s end_ NUL in
  Some (s, end_).

(** dtoa.h:490-501 and 383-394  the exponential forms *)
Definition expo (s : bytes) (base length kk : Z) : option (bytes * Z) :=
  if length =? 1 then
    let* s := setb s (base + 1) "e" in
    write_exponent (kk - 1) s (base + 2)
  else
    let* s := mmove s (base + 2) (base + 1) (length - 1) in
    let* s := setb s (base + 1) "." in
    let* s := setb s (base + length + 1) "e" in
    write_exponent (kk - 1) s (base + length + 2).

(** dtoa.h:427-502  Prettify with a precision and a padding flag; result: array and end of the text *)
Definition prettify (s : bytes) (base length k precision : Z) (rightpad : bool) : option (bytes * Z) :=
  let* kk := mk_int (length + k) in
  if (length <=? kk) && (kk <=? 21) then
    let* (s, i) := fill (Z.to_nat k) s (base + length) "0" in
    let* (s, i) := (if rightpad && (0 <? precision) then let* s := setb s i "." in fill (Z.to_nat precision) s (i + 1) "0" else Some (s, i)) in
    let* s := setb s i NUL in
    Some (s, i)
  else if (0 <? kk) && (kk <=? 21) then
    let length := length - kk in
    let* s := mmove s (base + kk + 1) (base + kk) length in
    let i := base + kk in
    if 0 <? precision then
      let* s := setb s i "." in
      let i := i + 1 in
      if length <=? precision then
        let i := i + length in
        let* (s, i) := (if rightpad then fill (Z.to_nat (precision - length)) s i "0" else Some (s, i)) in
        let* s := setb s i NUL in Some (s, i)
      else round_up s base (i + precision)
    else let* s := setb s i NUL in Some (s, i)
  else if (-6 <? kk) && (kk <=? 0) then
    let offset := - kk in
    let* s := mmove s (base + 2 + offset) base length in
    let* s := setb s base "0" in
    let i := base + 1 in
    if 0 <? precision then
      let* s := setb s i "." in
      let* (s, i) := fill (Z.to_nat offset) s (i + 1) "0" in
      let i := i + length in
      let* precision := mk_int (precision - (offset + length)) in
      if 0 <? precision then
        let* (s, i) := (if rightpad then fill (Z.to_nat precision) s i "0" else Some (s, i)) in
        let* s := setb s i NUL in Some (s, i)
      else round_up s base (i + precision)
    else let* s := setb s i NUL in Some (s, i)
  else expo s base length kk.

(** dtoa.h:348-395  Prettify without precision.  Its first case advances [buffer] from the start of the digits, over which it
    writes. *)
Definition prettify0 (s : bytes) (base length k : Z) : option (bytes * Z) :=
  let* kk := mk_int (length + k) in
  if (length <=? kk) && (kk <=? 21) then
    let* (s, i) := fill (Z.to_nat (kk - length)) s base "0" in
    let* s := setb s i "." in
    let* s := setb s (i + 1) "0" in
    let* s := setb s (i + 2) NUL in
    Some (s, i + 2)
  else if (0 <? kk) && (kk <=? 21) then
    let* s := mmove s (base + kk + 1) (base + kk) (length - kk) in
    let* s := setb s (base + kk) "." in
    let* s := setb s (base + length + 1) NUL in
    Some (s, base + length + 1)
  else if (-6 <? kk) && (kk <=? 0) then
    let offset := 2 - kk in
    let* s := mmove s (base + offset) base length in
    let* s := setb s base "0" in
    let* s := setb s (base + 1) "." in
    let* (s, _) := fill (Z.to_nat (offset - 2)) s (base + 2) "0" in
    let* s := setb s (base + length + offset) NUL in
    Some (s, base + length + offset)
  else expo s base length kk.

Section Dtoa.
Variable beyond : Z -> option Z.
(** dtoa.h:530-555  dtoa_milo2.  [std::signbit] of a zero. *)
Definition dtoa_milo2 (value : f64) (s : bytes) (precision : Z) (rightpad : bool) : option (bytes * Z) :=
  if feqb value (fZ 0) then
    let* (s, i) := (match value with S754_zero true => let* s := setb s 0 "-" in Some (s, 1) | _ => Some (s, 0) end) in
    let* s := setb s i "0" in
    let* (s, i) := (if rightpad && (0 <? precision) then let* s := setb s (i + 1) "." in fill (Z.to_nat precision) s (i + 2) "0" else Some (s, i + 1)) in
    let* s := setb s i NUL in
    Some (s, i)
  else
    let* (s, base, value) := (if fltb value (fZ 0) then let* s := setb s 0 "-" in Some (s, 1, fopp value) else Some (s, 0, value)) in
    let* (s, length, K) := grisu2 beyond value s base in
    if 0 <=? precision then prettify s base length K precision rightpad else prettify0 s base length K.

(** my_string.h:200-222  to_str of a double *)
Definition to_str_double (value : f64) (precision length : Z) (right_align : bool) : option bytes :=
  let* (s, _) := dtoa_milo2 value (repeat NUL 32) precision true in
  let* str := cstr s in
  to_str_pad str length right_align.
End Dtoa.
