(** eph/eph_show.cpp:167, 192 (rs2_calc, the summary of one solar eclipse): the table of the names of the kinds of eclipses, an ordered map from strings
    to strings made from an initializer list and read with operator[]. *)
From Coq Require Import String ZArith List Bool.
From Verif Require Import F64 RbModel.
Import ListNotations.
Open Scope Z_scope.
Open Scope opt_scope.
Local Open Scope string_scope.

(** a pair of the map (map.h:30) and its key *)
Definition entry : Type := (string * string)%type.
Definition ekey (x : entry) : string := fst x.
(** eph/eph_show.cpp:167, the texts as their UTF-8 bytes *)
Definition lxb : list entry :=
  [("T", "全食"); ("A", "环食"); ("P", "偏食"); ("T0", "无中心全食"); ("T1", "部分本影有中心全食"); ("A0", "无中心环食"); ("A1", "部分伪本影有中心全食");
   ("H", "全环全"); ("H2", "全全环"); ("H3", "环全全")]%string.
(** map.h:77-79: the header at [h], the nodes at the addresses [al] *)
Definition lxb_make (m : memory) (h : Z) (al : list Z) : option (memory * obj) :=
  let* (m, o) := init m h in insert_range String.ltb ekey m o (combine al lxb).
(** lxb[r.lx] at eph/eph_show.cpp:192; a new entry would go to address [a] (map.h:168-183) *)
Definition lxb_read (m : memory) (o : obj) (a : Z) (lx : string) : option string :=
  let* (m, o, p) := map_index String.ltb ekey m o a lx (lx, EmptyString) in
  let* n := get m p in let* v := val n in Some (snd v).

(** eph/eph_rsgs.cpp:246-277, the kind of an eclipse; [central] is F.W!=100, [d] re.d; r1, ar2 and sf of Bc, ar2 and sf of Bp, sf of B2 and B3 *)
Definition kind (central : bool) (d r1c ar2c sfc ar2p sfp sf2 sf3 : f64) : string :=
  if negb central then
    if fgtb d (fadd (lit 9972 10000) r1c) then "N"
    else if fgtb d (fadd (lit 9972 10000) ar2c) then "P"
    else if fltb sfc (fZ 1) then "A0" else "T0"
  else if fgtb d (fsub (lit 9966 10000) ar2p) then if fltb sfp (fZ 1) then "A1" else "T1"
  else if fgeb sfp (fZ 1) then
    let lx := "H" in
    let lx := if fgtb sf2 (fZ 1) then "H2" else lx in
    let lx := if fgtb sf3 (fZ 1) then "H3" else lx in
    if fgtb sf2 (fZ 1) && fgtb sf3 (fZ 1) then "T" else lx
  else "A".
