# Formal model of sxwnl-cpp: design

Source: `/repo` (read as text only).  Prover: Coq 8.16.1.  Everything lives in `rocq/theories`.

## Layout

* `*Model.v`   – executable Gallina transcription of the C++ functions; every definition cites file and lines.  No proofs.
* `*Spec.v`    – small independent specification (day counting, decimal reading, lists, rotations ...).
* `*Proof.v`   – lemmas.
* `*Props.v`   – only the property theorems, `exact lemma`, the witnesses (`Example`) and `Print Assumptions`.

## Trusted base

* the Coq kernel (with `vm_compute`);
* what `Print Assumptions` prints for each theorem.  Theorems about doubles that need the real-number meaning of a
  double, and theorems of exact geometry, use the axioms of the Coq standard library's `Reals`
  (`ClassicalDedekindReals.sig_forall_dec`, `sig_not_dec`, `functional_extensionality_dep`, `Classical_Prop.classic`).
  No other axiom is used.  Other theorems are closed under the global context;
* the reading of the C++ code in the model files.  The platform model is: `int` is 32-bit two's complement and signed
  overflow is undefined behaviour; `long` is 64-bit; `double` is IEEE-754 binary64, every operation rounds to nearest
  even once (SSE2 arithmetic, no fused multiply-add, no excess precision); `double -> int` conversion outside the int
  range is undefined behaviour; decimal literals are correctly rounded.

### How doubles are modelled

`F64.v` uses `SpecFloat` of the Coq standard library (`SFadd 53 1024` ...), the executable specification of IEEE
binary64, so the model can be run by `vm_compute`.  Universal statements go through Flocq
(`BinarySingleNaN`), which gives the real-number meaning of the same operations.  A decimal literal `n/d` is
`SFdiv n d` of two exactly representable integers, which is the correctly rounded value.

Where a property is about geometry rather than rounding (C36-C41, C57-C62) the function is modelled over the real numbers
instead; this simplification is stated at the definition.

### Code that is not modelled

Only code that a definition cites is modelled.  Not modelled at all: `mylib/conio.h`, `mylib/test`, `test` (programs),
of `functional.h` all but the hash functions (the rest is one operator each), of `util.h` all but `swap` and the comparisons of pairs,
`type_traits.h`, `exceptdef.h`; `set.h` only through `rb_tree.h`; of `deque.h` not the comparison operators and the catch blocks;
of `hashtable.h` not the insertions with a hint (they forward to those without), `equal_to_multi` and the catch blocks; of `unordered_map.h` and `unordered_set.h`
only the constructors and assignments from values, `at` and `operator[]` (the rest forwards).  Of the astronomical code: in
`eph/eph_rsgs.cpp` of `feature` what is not cited (`jieX`, `jieX2` are commented out), in `eph/eph_show.cpp` the texts except those of `shengjiang`, `shengjiang2`,
`shengjiang3`, `rs_search`, the overview of `rs2_calc` and `rysCalc`.  Input and output of the programs (`std::cout`, locale, colours) is not modelled.  Memory exhaustion is not modelled except for
the temporary buffers; exceptions thrown by element constructors only in C128-C130.

## Plan per property

| id | what is modelled | how it is proved |
|----|------------------|------------------|
| C01 | `toJD` on SpecFloat doubles | floor/trunc of rounded values shown equal to integer formula; integer formula = day counter by induction on dates |
| C02 | `setFromJD` on SpecFloat | same, inverse direction |
| C03 | both | composition of C01, C02 |
| C04 | `toJD`, year < -4716 | expected false: witness |
| C05 | fraction part of `setFromJD` | Flocq: exactness of x - floor x and monotonic rounding |
| C06 | `DD2str` | expected false: witness; carry correct otherwise |
| C07 | `timeStr` | expected false at the last half second: witness; range proof otherwise |
| C08 | `DD2str` | parse function is a left inverse on -9999..99999; counterexample outside |
| C09 | `jeaiii::to_text_from_integer` | fixed-point lemma, all widths |
| C10 | `my_stoi` with errno as state | left inverse; witness for stale errno |
| C11 | `string_replace` with `find`/`replace` | measure on remaining suffix |
| C12 | `split` | induction |
| C13 | `fill_str` | induction |
| C14 | `rad2strE`, `rad2str2` carries | range analysis |
| C15 | `jieya` | string_replace of one character = map; the 30 maps commute into one; lengths by vm_compute |
| C16, C17 | `SSQ::calc` | Flocq bounds on the index; comparison lemmas |
| C18, C19, C20 | `SSQ::calcY` with the astronomical day function as a parameter | invariants of loops |
| C21, C30 | first half of `yueLiCalc` | arithmetic |
| C22 | `getDayName` week part | arithmetic / finite month shapes |
| C23 | `mingLiBaZi`, day pillar | modular arithmetic |
| C24 | `getHuiLi` on SpecFloat | 10631-day sweep lifted by periodicity |
| C25 | `getNH`, `OBB::init` table verbatim | list induction; table checked by computation |
| C26 | `getDayName`, `OBA::init` table verbatim | table sweep with the year kept symbolic |
| C27, C28, C29 | `getDayName2`, holiday flag as tri-state memory | case analysis, witness |
| C31 | `rad2mrad`, `rad2rrad` | reals and doubles |
| C32 | `dt_calc` | table sweep + real continuity |
| C33 | `prece` name search, offsets | finite |
| C34, C35 | index computations of the series | arithmetic |
| C36-C40, C57-C62 | geometry over R (`llr2xyz`, `xyz2llr`, `llrConv`, `CD2DP`, precession turns with the angles as parameters, `h2g`, `j1_j2`, `lineEll`, `lineEar`, `lineEar2`, `lineOvl`, `lineT`, `cd2bse`, `bse2cd`) | trigonometric identities, quadratic equation |
| C41, C42, C63 | `RS_GS::chazhi`, `init` | arithmetic; invariant over call histories |
| C43 | `SZJ::calcRTS` state | expected false: witness history |
| C44 | `moonIll` in doubles; the C library's sin and cos are parameters, assumed finite, within [-1,1] and (for the accuracy claim) within 2^-52 | bound and error propagation through every operation; PI from the standard library's Machin formula; refuted for t = 2^300 |
| C45, C46, C64 | `dtoa.h` (Grisu2, DigitGen, Prettify) and `to_str` of a double, on byte buffers and 64-bit words | text of every finite double up to 8 decimals; refuted for carries into the first digit, no decimals, negative precision, infinities, the table of 10 powers; digits read back as the same double for any content behind that table |
| C47 | `static_array` objects with their stored iterators on a memory | simulation over all histories; refuted for copies |
| C48, C49, C65 | `vector` on an explicit memory of cells (free, raw, live object) with allocation, assignment, construction, destruction and moves | simulation with lists over all operation histories on any number of vectors; refuted cases: own element at capacity, emplace of an own element, erase of an empty range, insert(n) and reserve lose objects |
| C50, C66, C67 | `GeographicalPosition` as a whole with the typed answers as arguments; its table copied by tools/postab.py | finite alphabet and rounding errors; search of the first occurrence; the table is swept once (48 kB) |
| C68, C69, C70, C71 | heap_algo.h, `sort`, `partial_sort`, `nth_element` of algo.h: a range is a part of a list, positions are integers, access outside is undefined; `const T&` arguments that refer to cells of the range are modelled as references | loop invariants over rearrangements; refuted: sort beyond 128 elements, nth_element |
| C72, C73, C74, C75, C76 | the searching, merging, set, reversing, rotating, shuffling and permuting algorithms of algo.h, set_algo.h and algobase.h, on the same arrays; iterator kinds are a parameter; the buffer of `inplace_merge` has any size; algorithms that write to another range give the list written (the ranges are assumed apart) | invariants; merges are characterised by the elements of every equivalence class; refuted: `binary_search` with a function object, `equal_range` of an absent value |
| C77, C78, C79 | the algorithms of algo.h and algobase.h that search a sequence, remove, replace, unique, partition and is_permutation, on the same arrays; sequences that are only read are functions from positions | invariants; is_permutation by counting the classes of equal elements. `is_permutation_aux` tests `is_ra_it` with a plain `if`, so the subtraction of iterators must compile: for list iterators the template does not compile, only random access iterators are possible (the other branch is proved too) |
| C80, C81, C82, C83, C84 | rb_tree.h and the access functions of map.h on an explicit memory of nodes (parent, children, colour, value; null and freed nodes are undefined); the address of every new node is an argument | trees with a hole (zippers) for every rebalancing step, separation of the rest of the memory, simulation with ordered lists over all histories; refuted: iterator of an existing key, `at` of an absent key, use after a move, header freed |
| C85 | the table `lxb` of eph_show.cpp as such a map, and the choice of the kind in `RS_GS::feature` with the shadow parameters as arguments | C80-C82 on strings; refuted for two names |
| C86 | `nianLiSTR` (lunar/lunar.cpp), with `calcY` as in C15-C20 and the exact times (`so_accurate2`, `qi_accurate2`) as parameters | the loops give the filtered range of term numbers; the days come from the window of the calendar as in C55 |
| C87 | closed formulas of eph/eph0.cpp: `hcjj`, `gxc_sunLon`, `gxc_moonLat`, `nutation2`, `nutationLon2`, `E_v`, `M_v`, `pGST`, `moonRad` (FormModel) against FormSpec | `ErrExpr`: a reflective interval and rounding-error analyser for expressions of doubles, proved sound once; each formula is read into it and its bound computed |
| C88 | `ecFast` (EcModel) against EcSpec: the truncated series, the shadow cone and the kinds in real numbers | error analysis of each stage by `ErrExpr` (EcProof, EcGeom), with real-analysis bounds where intervals are too wide (EcReal); the decision tree against the kinds with margins (EcKind) |
| C89 | longitudes `S_aLon`, `MS_aLon`, `E_Lon`, `M_Lon` over `XL0_calc`, `XL1_calc` with the built-in tables (SmModel, SmTab) against the series in real numbers (SmSpec, WaveF) | error of one term and of a sum of terms, with the phase bounded by its size (WaveF, SmF); sums of amplitudes computed on the integer tables (SmLon, SmProps) |
| C90 | `S_aLon_t` (SmModel) against SmSpec | the series' rate of change against `E_v` to first and second order, by the amplitudes (WaveR, SmSun); one Newton step in doubles (SmNewton); growth of the longitude and the intermediate value theorem for the unique root (SunProps) |
| C91 | `MS_aLon_t` (SmModel) against SmSpec | as C90, with the twelve waves of `M_v` matched to the first waves of the table (SmMoon) and the third step's old speed accounted for (MoonProps) |
| C92 | `S_aLon_t2`, `qi_high`, `SSQ::calc` for solar terms against the series | the error of the quick search: first guess with the waves at the wrong moment (sin x cos x <= 1/2), the left-out terms, the slope (QuickR, QuickSun); the choice between quick and accurate moment (HighR); the angle (TermDay) |
| C93, C19 | the first half of `SSQ::calcY` on top of C92 | TermDay |
| C94 | `MS_aLon_t2`, `so_high`, `SSQ::calc` for new moons against the series | as C92 for the Moon: QuickMoonR, QuickMoon, NewMoon |
| C95 | the whole of `SSQ::calcY` on top of C93 and C94 | the length of a lunation by bounding each wave's change over 29.008 and 29.992 days, the two large waves taken together (MoonGap); the change of Delta T in a year, the month lengths and the names (LunarYear) |
| C96, C97, C98, C99 | list.h on an explicit memory of nodes (links and value; null and freed nodes are undefined); the addresses of new nodes are arguments, any free ones (ListModel) | a list is a ring of nodes; taking a chain out of a ring and putting one in (ListProof), all operations on top of these two (ListProof2 to 5); loops by induction on the elements not yet visited; sort by the invariant that both runs are neighbours.  Specification: ListSpec |
| C100 | `rs_search` (EsModel) on the models of `toJD`, `MS_aLon_t2`, `ecFast` and `JD2str`; the close examination (`RS_GS::init`, `RS_GS::feature`) is a parameter | specification: one item per new moon and a grammar of the text (EsSpec); loop invariant: the lunation number grows by one per round; `MS_aLon_t2` within 5 days of the mean new moon (EsProof), which also gives the condition of C42 |
| C101 | `SZJ::St`, `Scoord`, `getH`, `mod2`, `llrConv` (StModel) on the models of `E_Lon`, `pGST`, `dt_T`, `hcjj` | specification: the Sun's direction (towards pole, meridian and west) as real functions of the time (StSpec); Lipschitz bounds of the direction in longitude, obliquity and time (StReal), rounding analysis of `Scoord` and `getH` (StProof), equation of time (StNoon), noon, obliquity and TD - UT of the day (StDay), the two steps (StProps) |
| C102 | `parallax`, `shiChaJ` (ObsModel), exact arithmetic | specification: the point above an ellipse where the normal has a given direction (ObsSpec); rotation lemmas of GeoProof |
| C103 | `YS_PL::lecMax` (ObsModel), exact arithmetic; `lecXY` is a parameter | the square of the distance along a straight path is a parabola; first and last moment inside a circle; triangle inequality for the error |
| C104 | `RS_PL::secMax` (SecModel), exact arithmetic; `secXY`, sunrise and sunset are parameters | as C103, with the search over seconds as a maximum over a list and the repeated estimates as a chain |
| C105 | deque iterators (DeqModel), explicit memory | an iterator is the quotient and remainder of a linear slot number |
| C106 | access and ends of the deque, map reallocation (DeqModel) | representation predicate with ownership of blocks (DeqSpec); "grown" relation for reallocation |
| C107 | insert, erase, resize, assign (DeqModel) | loops have a pointwise effect on slots; the two halves by case analysis; partial: refuted for range erase across buffers |
| C108 | construction, destruction, move (DeqModel) | as C106; partial: leaks characterised exactly |
| C109 to C117 | hashtable.h on an explicit memory of nodes; key, hash function and equality are parameters; float arithmetic in SpecFloat single precision (HtModel) | representation: one chain per bucket, equal keys neighbours (HtSpec); chains and buckets (HtProof), search and iteration (HtLook), insertion (HtIns), rehash (HtRehash), growth (HtGrow), erasure (HtErase), life cycle (HtLife), load factor with Flocq (F32R, HtLoad); C117 by induction on the history |
| C118, C119, C120 | queue.h, stack.h over the deque model, priority_queue over a list with the heap algorithms, numeric.h on storage with positions (AdModel) | refinement of a list, a bag and list functions, by induction on the history or the range (AdProps) |
| C121 | `m2fm` on SpecFloat doubles with the texts of C09 and C45 (FmModel) | predecessor of 60 k against the rounding midpoint below k; the remainder is representable; witnesses (FmProps) |
| C122 | `rSM` and the cone angles of `init` in exact arithmetic (ShModel) | lines of sight to discs; triangle inequality and the extreme points (ShProps) |
| C123 | the apexes in `zb0` | similarity of the two spheres about the apex (ShProps2) |
| C124, C125 | `Vxy`, `bse2db`, `bseXY2db` | derivative of `cd2bse` of a turning place; C37, C38, C62 (ShProps2) |
| C126, C127 | the kinematics of `feature`, the loops of `nanbei` and `mDian` | completing the square; invariant of the loops; C57, C62 (ShProps3) |
| C128 | `uninitialized.h` with its catch blocks; which constructor throws is an arbitrary function of its number (ExModel) | invariant of the construction loops up to the first exception (ExProof, ExProps); witnesses |
| C129 | the constructors, `push_back` and `fill_assign` of `vector.h` on top of it | agreement with VecModel without exceptions; C128 for the rest (ExVec); witnesses |
| C130 | the buffers of `memory.h`, success of malloc as an arbitrary function of the attempt (BufModel) | halving loop; C128 (BufProps); witnesses |
| C131 | `auto_ptr` in programs with numbered pointers and objects (BufModel) | simulation by an ownership machine (BufProps) |
| C132 | `sunShengJ` over R (SjModel) | spherical triangle by rotations (C32), `acos`, nearest representative of an angle (SjProps); bounds of the series (SjPolar); witness |
| C133 | `secMax` (SecModel) with `sunShengJ` | C104 with C132; interval bounds for the longitude of the Sun at the June solstice (SjPolar) |
| C134 | `zbXY`, `p2p`, `pp0`, `nbj` over R, the tables of Sun and Moon as parameters (ZbModel) | C62 for the line, C102 for the parallax, plane geometry on the limb (ZbProps); witness for the width |
| C135 | `moonMinR`, `earthMinR`, `moonNode`, `daJu` over R with the series as parameters (XtModel) | interpolation by a parabola, secant steps (XtProps) |
| C136 | `xingLiu` likewise | C31 for the approach with the mean speed, C135 for the rounds; witnesses (XtStat) |
| C137 | `xingHR`, `xingHY` likewise | Newton steps on even motion (XtStat) |
| C138 | `Mt`, `Mcoord`, `getH`, `mod2` over R, positions as parameters (MnModel) | two Newton steps on a nearly even motion, C31 for the turns (MnProps) |
| C139 | `pty_zty2` and the solar time of `mingLiBaZi` in doubles (PtModel) | error bounds of C87/C101 for the doubles; turning Sun and sidereal time together over R (PtProps) |
| C140 | `MSC::calc`, `MQC` over R (MscModel) | vectors: rotation, parallax and horizon frame from C37, C59, C102; convexity bounds for refraction; the quadratic of line and ellipsoid for the eclipse (MscProps) |
| C141 | `cirOvl` over R (CirModel) | complex-number style identities for the circle, Lipschitz bounds for the two corrections, witness for the lost crossing (CirProps) |
| C142 | `nutation(t, zq)` and `nuTab` over R (NutModel), `nutation2` in doubles (FormModel) | ten phase polynomials compared coefficient by coefficient, the other 67 amplitudes summed; periods from the derivative of the argument; filter decided in integers (NutProps) |
| C143 | `pty_zty`, numbers of `shengjiang3` in doubles (EtModel) | error of each formula by reflection, direction of the Sun as a vector in the equatorial frame, Lipschitz bounds, drift of sidereal time against the mean Sun (EtProps) |
| C144 | `qrd`, the half axis `bba` over R, tables as parameters (QrdModel) | one Newton step has the residual t^2 v^2; expansion of the normal of the ellipse to first order with explicit remainders; completing the square along the line of sight (QrdProps) |
| C145 | `partial_sort_copy` on two storages, on the heap functions of SortModel (PscModel) | induction over the rest of the input with the heap and the dropped elements; upper bounds of the heap stay upper bounds (PscProps) |
| C146 | `transform`, `replace_copy_if`, `reverse_copy`, `unique_copy` for output iterators, `partition_copy`, `for_each`, `generate`, `generate_n`; with `remove_copy_if` and `unique_copy` of SeqModel (CpModel) | induction over the loop; the unread input is not touched while the output does not overtake it (CpProps) |
| C147 | `xingX`, `xingJJ`, `xingLiu0`, `xingMP`, `xingSP` over the reals, with any ephemerides (XpModel) | the coordinates determine a vector; rotations of the vector; triangle inequality for the light time, mean value theorem for the aberration (XpProps) |
| C148 | `stol`, `stoll`, `stoul`, `stoull` with position and base on a model of the C functions `strtol`, `strtoll`, `strtoul`, `strtoull` (StoModel) | induction over the digits; every text has a number in the sense of the specification or none (StoProps) |
| C149 | texts of `shengjiang` and `shengjiang2`, with any `SZJ::St`, `SZJ::Mt`, `sunShengJ` (RptModel) | rounding errors of the moments, then C06 and C07; columns by position in the text (RptProps) |
| C150 | `rs2_calc` with its static variable (Rs2Model); the texts of one eclipse are parameters | invariant over call histories: the variable stays within 8.8 days of the line of mean new moons (Rs2Props), on C06, C42, C100 |
| C151 | `bitwise_hash`, `hash` of integers, double and long double (FnvModel) | each round of FNV-1a is injective in the state (the prime has an inverse mod 2^64); IEEE 754 fields (FnvProps) |
| C152 | comparison operators of `pair` (FnvModel) | order axioms (FnvProps) |
| C153 | choice, timetables and limits of `rysCalc` (RysModel); `dt_T` and the texts of numbers are parameters | rounding errors of the moments, then C06; induction over the lines (RysProps) |
| C154 | text of `shengjiang3` (EttModel); numbers of the rows by EtModel | C01 and C06 for the dates, C121 for the minutes, C143 for the numbers, induction over the rows (EttProps) |
| C155 | text of `MSC::toStr` (MtxModel) on doubles | C14 with the error of the factor 180/pi by reflection, C07, C121, C46 for the parts (MtxProps) |
| C156 | the text of `rs2_calc` for one eclipse (OvwModel), the feature a parameter | C06, C14, C121, C46 for the parts, error of the factor 180/pi by reflection; witness (OvwProps) |
| C157 | `RS_GS::jieX3` (JxModel), the limits a parameter | invariant of the loop: distance of the summed moment to the minute; C06 and C14 for the parts (JxProps) |
| C158 | text of `xingX` (XgtModel), the numbers a parameter | C14, C46 for the parts (XgtProps) |
| C159 | lines of `rysCalc` before and after its tables (RyhModel), radii, distance, duration and magnitude parameters | rounding of sums, C14, C46 for the parts (RyhProps) |
| C53, C54, C55, C56 | `yueLiCalc` (all of it except the series that give exact event times, which are parameters) | estimate-and-correct lemmas, invariant over the day loop and the call history |
| C51, C52 | `getDayName2` as a whole | fold over the list of notes; counting of residue classes |


## Findings (defects of the code, proved about the model)

* C04: `toJD` is wrong before 1 March -4716 (casts round toward zero): 1 Jan -5621 comes back as 2 Jan.
* C06, C07: `DD2str`, `timeStr` print `24:00:00` in the last half second of a day.
* C08: the 5-column year makes -10000 and 10000 print alike, and 112345 print as 12345.
* C09: `to_str(x, p, n)` with n negative or n - length >= 64 writes outside `fill[64]`.
* C10: `my_stoi` never clears `errno`: after one out-of-range text every later conversion throws.
  Text between int and long range is accepted modulo 2^32 (`4294967296` gives 0).
* C11: `string_replace` with an empty pattern never returns.
* C12: `split` with a separator longer than one byte drops bytes (`split("a,bc", ",;")` = a, c) or throws `out_of_range`.
* C13: `fill_str` overflows `n - len` for n near INT_MIN.
* C14: angles beyond 999 degrees lose their leading digit.
* C19 (no defect): for the year -721 the year-head search relies on the solstice series; a solstice before
  17 Dec -722 would read `ns[-1]`.  C19_from_721 proves that the series gives no such solstice.
* C22: a table entry "last weekday" for a day other than Sunday would be missed whenever the last row of the month sheet
  lacks that weekday (the shipped entries are Sundays).
* C25, C26: `getNH` and `getDayName` throw `out_of_range` once `errno` is ERANGE (consequence of C10).
* C26: a festival without year limits and with a one-character name would make `getDayName` throw (`substr(5,1)`).
* C27: `getDayName2` looks for `冬月初八`, but the month before 正 is named 腊 and the one before that 十一, so 腊八节 is
  never reported.
* C29: `OB_DAY::Fjia` is never initialised; on a plain weekday the page shows an indeterminate value.
* C40: `lineT` with a negative x velocity returns the earlier contact when the later one is asked for (and conversely);
  with x velocity 0 it divides by 0.
* C20 (comment only): the comment at lunar_ssq.cpp:356 dates the first era 8.01.15; the number is that of 15 January 9.
* C31: `rad2mrad` of a tiny negative angle (such as -1e-20) returns 2 pi, outside [0, 2 pi).
* C32: `dt_calc(NaN)` passes both range tests and walks past the end of the table.
* C33: `prece` with a quantity name of three or more bytes writes behind `char s[4]`; "", "i", "I", "h" name no quantity
  but are answered with the row they are found in.
* C34, C35: `3 * n * n0` and `n * len_M[zn][i]` overflow int for more than about 672000 and 134960 terms.  The `+ 0.5` there
  has no effect, as the division before it is one of ints: the number of terms is not rounded to nearest, but a
  fraction of 1/3 (moon: 1/6) or more is rounded up.
* C41: with a table of one row `chazhi` computes the start index -1 and reads before the table (`init` is only called with 7 rows
  and more).
* C42: the cache is keyed by the lunation number computed from the time asked for, and a new moon of another lunation found by
  the series would leave a table that is never reused.
* C43: `calcRTS` resets the moon texts to `--:--:--` in a local copy of each entry only.  On a day without a moonrise, transit or
  moonset the table shows the text of an earlier call (or nothing).  More than 31 days write behind the table.
* C63: an angle that falls below that of the first row (backward motion) is stored a full turn too large.
* C45: a carry into the first of several digits before the point puts a 1 before it: `to_str(19.96, 1)` is `110.0`,
  `to_str(99.96, 1)` is `190.0`.  Without decimals the value is cut: `to_str(2.7, 0)` is `2`.  A negative precision overwrites
  the digits of a whole number: `to_str(12.0, -1)` is `.0`.  An infinity is shown as `1.797693134862316e308`.  Values below
  1e-6 or from 1e21 on are shown in exponential form with all digits, whatever the precision.
* C46: `DigitGen` reads entries 10 to 16 of the 10-entry table `kPow10` for most values, even 1/3.  What is read there only
  affects which of the numbers that round to the double is shown (C64 holds for any content).  With 9 decimals or more a
  large value overflows the 32 bytes of `to_str`.
* C49: at capacity `push_back(v[i])`, `insert(pos, v[i])` with i before pos, `insert(pos, n, v[i])` and `resize(n, v[i])` store the
  moved-from value for class types, as the old elements are moved away first.  `emplace(pos, v[i])` with room and i behind pos
  stores the element before `v[i]`, for all types.
* C48: `erase(p, p)` moves every element behind p onto itself (unspecified value for class types such as std::string).  Copy assignment
  of a longer vector that fits sets the capacity down to the new size.
* C65: `insert(pos, n, x)` in the middle constructs over live objects; `reserve`, `shrink_to_fit` and the reallocations of
  `insert(pos, n, x)`, `insert(pos, first, last)` free the old block without destroying the moved-from objects (class types).
* C47: a copied `static_array` keeps the iterators of the original: iterating over the copy visits the original's elements, or dead
  storage once the original is gone.  A list longer than the array is written past its end.
* C66: the place is looked up by the first occurrence of its name anywhere in the table.  82 of the 3192 listed places (counted by a
  script, not proved) get other coordinates, 41 of them decoded from bytes of a name: 鞍山市 gives longitude 196 degrees.
* C67: a province number from 33 on searches for uninitialised text; negative numbers and place numbers from 210 on read outside the
  array; typed names of 48 bytes or more overflow `str`.
* C44: for times of about 2^256 centuries and more `moonIll` returns NaN (of no practical weight).
* C69: `unchecked_insertion_sort` passes the cell `*i` by reference to `unchecked_linear_insert`, which overwrites it first: from 129
  elements on `sort` replaces elements behind the 128th that are less than their predecessor by a copy of the predecessor.
  0, 1, ..., 126, 128, 127 becomes 0, 1, ..., 126, 128, 128.
* C71: `nth_element` passes `median(...)`, a reference to a cell of the range, as pivot; the pivot changes when that cell is swapped.
  {0, 2, 1, 0, 1, 0} with nth = 2 leaves 1 at nth and a 0 behind it.  The overload with a function object takes the median with
  `operator<` instead: {2, 0, 1, 3} ordered by the distance from 2 is an endless loop.
* C72: `binary_search(first, last, value, comp)` calls `lower_bound` without `comp`: in {3, 2, 1} ordered by `greater` 3 is not found
  and 0 is.  `equal_range` of a value that is not in the range returns (last, last), not the place for inserting it as the
  comment promises: {1, 3} and 2 give (2, 2).
* C80: `insert`, `emplace` and `emplace_hint` of a key that is there already return an iterator to the node under which the key
  would have been put, not to the element with that key: with keys 1, 2, 3 inserting 2 again gives the element 3.
* C80: `~rb_tree` only clears: the header node of every map and set is leaked (also by move assignment).
* C82: `map::at` tests `key_comp()(it->first, key)` instead of `key_comp()(key, it->first)`: for an absent key it returns the next greater
  element instead of throwing (it throws only beyond the last key).
* C84: a moved-from map has a null header; `begin()`, `find`, `insert` and assignment to it dereference the null pointer.
* C85: the kind "H" (annular at both ends, total in the middle) is named 全环全 (total, annular, total); "A1" (annular) is named ...全食 (total).
* C88: for the kinds on the rim (T0, A0, T1, A1) `ecFast` calls the letter certain without testing how near the vertex of the umbra is to the ground; every other decision has a margin.  The
  result "NN" that `rs_search` tests for is never returned.
* C91: `XL1_calc` adds its correction for the years after 3000 with a constant term of -0.866 arc seconds, so that the Moon's longitude jumps back
  by that much at t = 10 (about 1.6 seconds of time).
* C92, C94: `qi_high` and `so_high` test the distance to midnight with `fmod(t + 0.5, 1)`, which is negative for moments before J2000.  There the test
  `v < 1200` always holds, so that the quick search is never used: the result is right, only the time saved is lost.
* C97: `list::splice(pos, x, first, last)` does nothing when `x` is the list itself, instead of moving the range.
* C97: `list::remove(value)` takes a reference and reads it after every removal: for an element of the list itself a freed node is read.
* C99: a list moved from has no end node: `empty()`, `begin()`, insertions and move assignment from it dereference the null pointer.  `l = std::move(l)`
  fails an assertion, or loses all elements when assertions are off.
* C103: when the path of the moon is so curved that the straight continuation from the first estimate misses the circle, `YS_PL::lineT` returns 0 and `lecMax`
  stores 0 as the moment of contact of an eclipse it announces; `rysCalc` then leaves the line out.  `secMax` goes on with the moment 0 as an estimate.
* C104: a solar eclipse that is over before sunrise (or begins after sunset) is announced by `secMax` with its kind and its greatest magnitude; only the moments
  are left out.
* C107: `deque::erase(first, last)` destroys the objects between two raw pointers (`data_allocator::destroy(begin_.cur, new_begin.cur)`, deque.h:799, 806); when
  these are in different buffers the loop runs out of the buffer.  For types with a destructor `resize(30)` of 40 elements in buffers of 16 is undefined behaviour
  (`deque_resize_refuted`; exact condition `in_one`).  The buffers of the erased elements are kept.
* C107: `insert` of a range of input iterators reuses the same iterator for every value; in the first half of the deque the values arrive in reverse order
  (`deque_insert_input_refuted`).
* C107: `require_capacity` allocates one buffer more than needed when the new elements end just at the end of a buffer, and overwrites the pointers to spare buffers
  without freeing them (`deque_insert_n_lost_refuted`).
* C108: `clear` calls `shrink_to_fit` before it sets `end_ = begin_` (deque.h:831-832), so the buffers after the first one stay; the destructor then frees only
  `*begin_.node`: every deque with values in more than one buffer leaks (`deque_destroy_leaks`).
* C108: move assignment forgets the map and the buffers of `*this`; the iterators of `rhs` are copied, so `rhs.size()` does not change and its elements are those
  of the other deque; assigning a deque to itself loses the map (`deque_move_assign_refuted`, `deque_move_self_refuted`).  `push_back` on a deque that was moved from
  dereferences null (`deque_moved_from_refuted`).
* C108: construction from n input iterators makes n raw slots and then appends n values (`deque_input_init_refuted`).
* C112: `emplace_unique` makes a node, and when the key is there `insert_node_unique` returns without linking or freeing it (hashtable.h:860-880, 1460-1485): lost
  for good (`hash_emplace_leak`).
* C113: `replace_bucket` makes a new node for every element and never frees the old ones (hashtable.h:1487-1523): every growth leaks the whole table and all
  iterators and references become stale copies (`hash_rehash_leak`).
* C113: `rehash_if_need` asks for as many buckets as elements whatever `max_load_factor` is; with 0.5 the load factor grows beyond it (`hash_load_refuted`).
* C115: `erase_multi` erases the range and then computes `distance(first, last)` over the freed nodes (hashtable.h:999-1012): undefined whenever the key exists.
* C116: the constructor of `hashtable` from a range sets `size_` to the length and inserts nothing (`hash_construct_range_refuted`).
* C116: a table moved from has 0 buckets: `find`, `count`, `erase` and `operator[]` compute a remainder modulo 0 (`hash_moved_from_refuted`).
* C116: `begin(n)` and `end(n)` assert `n < size_` instead of `n < bucket_size_` (`hash_bucket_begin_refuted`).
* C121: 59.999 s with two decimals is shown as `0m150.00s` (`C121_seconds_refuted`); without decimals, the form used for the length of
  totality, seconds are cut (`C121_cut_refuted`); from 2147483700 s on `f * 60` overflows (`C121_range_refuted`); -0.0 is shown as
  `0m-0.00s` (`C121_minus_zero_refuted`).
* C128: `uninitialized_copy` and `uninitialized_copy_n` clean up from `cur` downwards to the element after the first: they destroy the object whose
  constructor threw (undefined) and not the first one.  They and `uninitialized_fill`, `uninitialized_fill_n` and `uninitialized_move` swallow the
  exception; only `uninitialized_move_n` throws it on.
* C129: so `vector(n, value)` whose k-th copy throws returns a vector of n elements that do not exist and whose destructor is undefined; `assign(n, value)`
  likewise.  `push_back` without room whose copy of the new value throws leaves all elements moved from, and the objects they were moved to are
  never destroyed; when moving the first element throws, `push_back` succeeds with the new element as the only one.
* C130: a `temporary_buffer` of an empty range frees an uninitialised pointer (`inplace_merge`, its only user, never makes one); one whose copies
  threw destroys elements that do not exist.
* C132, C133: `sunShengJ` returns 0 for polar day and polar night, and no caller looks: `secMax` takes it for the moment J2000 (sunrise and sunset both), so
  every contact of an eclipse seen under the midnight sun is set to 0 although the Sun is up, and its magnitudes at sunrise and sunset are computed for
  1 January 2000; `shengjiang2` prints that day.
* C134: the width of the umbra is computed from the plain difference of two longitudes in (-180, 180] degrees: with one limit east and one west of the
  meridian of 180 degrees it is about 40000 km.  Which of the two umbra limits is the northern one depends on the side of the apex the Earth is on
  (C134_side), so for annular eclipses the output calls the southern limit the northern one (a comment in `nbj` says so, `rs2_calc` does not).  A round
  after one without solution takes 100 radians for longitude and latitude.  `nasa_r`, set just before the call, has no effect on `nbj`.
* C136: `xingLiu` takes differences of right ascensions reduced to [0, 24 h): for a station next to 0 h the rounds do not move and the result is off
  by up to an hour and three quarters (witness: half an hour).  With sn = 1 it gives the station before opposition for the outer planets (turning
  retrograde) and the one after inferior conjunction for Mercury and Venus (turning direct).
* C138: where the Moon stays above or below the horizon all day, `SZJ::Mt` gives the lower transits before and after as rise and set, and the
  table shows them like any other (for the Sun `St` at least writes a note).
* C140: `MSC::calc` adds refraction only above the horizon. A body just below the true horizon, which refraction lifts into view, is shown as set; the shown altitude jumps by 28.5' at the horizon and no altitude strictly between 0 and 28.5' is ever shown. Near the zenith the correction of `MQC` is negative, by less than 0.13 seconds of arc.
* C141: `cirOvl` decides whether circle and outline meet by comparing with the equatorial radius: a penumbra that crosses the outline near the pole without reaching distance 1 (centre (0, 0.45), radius 0.547) is reported as having no common point, although there are two. (Its only caller, `jieX`, is commented out.)
* C142: `nutation(t, zq)` drops terms it should keep. The rate of the node Om enters the period with the wrong sign, and a negative rate gives a negative period, which is below every zq. For every positive zq the term of 411.8 days is lost; for zq = 170 the half-yearly term of 1.3 seconds is lost. (The program never calls `nutation`; the function is part of the interface of eph0.h.)
* C143: the table of `shengjiang3(y)` always has 368 rows, so it ends with two or three days of January of the year y + 1 (likewise `shengjiang2`).
* C144: `qrd` places the point of contact in the fundamental plane, while the points of the flattened Earth seen on its outline lie off that plane: at the answered place the axis is not at the horizon (`C144_horizon_refuted`), by up to 0.14 degrees at the solstices (the bound is `C144_horizon`).
* C144: when the penumbra misses the Earth, `feature` still calls `qrd` for the begin and end of the partial eclipse, from the nearest point of the path, where the divisor of the step is 0 for even motion (`C144_missed`); gk3 and gk4 are then meaningless.
* C147: `xingJJ` with jing >= 2 takes the Earth at the moment the light left the Sun also for the direction to the planet: the result is not the angle between the apparent directions
  (witness `C147_elongation_high_refuted`; some seconds of arc for Venus). `xingX` with xt = 0 takes the direction of the zero vector (0/0, `C147_earth_refuted`), with xt < 0 or xt > 10
  it uses `z` and `rc` without a value (`C147_other`).
* C148: `stol`, `stoll`, `stoul`, `stoull` do not clear `errno` either: after one text out of range they throw for every number (`C148_history_refuted`).
* C149: the table of `shengjiang2` takes `substr(1, 14)` of the text of sunrise: it shows the hour but not the minutes and seconds (`C149_minutes_refuted`), and without the first
  character of the year the years -2000 and 2000 look alike (`C149_sign_refuted`).
* C150: the table of `rs2_calc` (fs = 5) advances the static variable itself, so the next call with fs = 2, "keep the time", shows the new moon 100 steps later (`C150_table_moves_refuted`);
  with fs above 5 the function runs off its end without a value, which is undefined (`C150_no_return_refuted`).
* C151: `hash<long double>` hashes all 16 bytes of the object, six of which are padding without a defined value: equal keys can have different hashes (`C151_padding_refuted`).
* C152: `operator<` of `pair` asks for `==` of the first members instead of neither being less; when `==` is finer than that, the result is not a strict weak order (`C152_weak_refuted`).
* C153: the timetables call the time of Beijing UTC (`in_zone` in C153_solar and C153_lunar: Universal Time and eight hours, with the unit " UTC").
* C156: for an eclipse whose axis misses the Earth `feature` sets gk1 and gk2 to zero, and `rs2_calc` still prints them: the central eclipse begins and ends on 2000-01-01 12:00:00 at 0°00',0°00' (C156_no_center_refuted).
* C158: `xingX` with xt < 0 or xt > 10 prints the distance rc without having given it a value (C158_no_body_refuted, see C147).
* Not formalised because it does not compile when used: `equal_to_multi` (uses `p1.last`), `insert_unique_use_hint(value&&)` (returns a pair), `operator==` of the
  unordered containers (passes a table to `equal_range_*`), the unordered containers with keys of type `float` or `double` (`operator()` of their `hash` is not const, `hashtable::hash` is)
  or `string` (no `hash`).
