(** rs_search of eph/eph_show.cpp: the list of solar eclipses from a month on. *)
From Coq Require Import ZArith List Bool String Ascii.
From Coq Require Import Floats.SpecFloat.
From Verif Require Import F64 CalModel Str FmtModel AngModel SmModel EcModel.
Import ListNotations.
Open Scope Z_scope.
Open Scope opt_scope.

Section Search.
(** sin and cos of the C library, the table XL1 of the Moon, and RS_GS::init followed by RS_GS::feature (eph/eph_rsgs.cpp:18-73, 174-290):
    the moment and the kind it finds in lunation number k, with precision [fs].  That these depend on the lunation only: init leaves the same
    members for every jd of the lunation (C42), and feature puts RS_GS::Zjd in the place of its argument (eph/eph_rsgs.cpp:176). *)
Variables (fsin fcos : f64 -> f64) (XL1 : list (list (list f64))) (feature : bool -> Z -> f64 * string).
(** the number by which RS_GS::init finds the lunation (suoN, eph/eph0.cpp:751-754), and the same in eph/eph_show.cpp:125 *)
Definition lunation (jd : f64) : option Z := int2 (fdiv (fadd jd (fZ 8)) (lit 295306 10000)).
(** eph/eph_show.cpp:126-139: the moment and the kind used in one round *)
Definition answer (fs : bool) (jd : f64) : option (f64 * string) :=
  let r := ecFast fsin fcos jd in
  if ec_ac r then Some (ec_jd r, ec_lx r)
  else let* k := lunation jd in Some (feature fs k).
(** eph/eph_show.cpp:126-150: the rounds [i .. n-1].  [k] counts eclipses; it is at most n, so it stays in int.
    [s2 += s, s = ""] moves the text from s to s2. *)
Fixpoint search_loop (fs : bool) (i : nat) (jd : f64) (k : Z) (s s2 : bytes) : option bytes :=
  match i with
  | O => Some (s2 ++ s)
  | S i =>
    if String.eqb (ec_lx (ecFast fsin fcos jd)) "NN" then search_loop fs i (fadd jd (lit 295306 10000)) k s s2
    else
      let* (rjd, lx) := answer fs jd in
      let next := fadd rjd (lit 295306 10000) in
      if String.eqb lx "N" then search_loop fs i next k s s2
      else
        let* t := JD2str (fadd rjd (fZ 2451545)) in
        let* d := substr t 0 11 in
        let s := (s ++ d) ++ B lx in
        let k := k + 1 in
        let s := if Z.rem k 5 =? 0 then s ++ B (String (ascii_of_nat 10) "") else s in
        if Z.rem k 100 =? 0 then search_loop fs i next k [] (s2 ++ s) else search_loop fs i next k s s2
  end.
(** eph/eph_show.cpp:119-125, 153 *)
Definition rs_search (Y M n : Z) (fs : bool) : option bytes :=
  let* j := toJD (mkDate Y M 1 0 0 (fZ 0)) in
  let jd := fsub j (fZ 2451545) in
  let* k := lunation jd in
  let* t := MS_aLon_t2 fsin fcos XL1 (fmul (fmul (fZ k) dpi) (fZ 2)) in
  search_loop fs (Z.to_nat n) (fmul t (fZ 36525)) 0 [] [].
End Search.
