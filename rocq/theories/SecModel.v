(** Model in exact arithmetic, as in GeoModel, of the local circumstances of a solar eclipse (eph/eph_rspl.cpp, secMax). *)
From Coq Require Import ZArith Reals List.
From Verif Require Import GeoModel ObsModel.
Import ListNotations.
Open Scope R_scope.

(** eph/eph_rspl.h _SECXY, the fields t, x, y, mr and sr; of the record re0, re_er stands for sr, and re_Er is not used *)
Definition re_sr : re0 -> R := re_er.
(** RS_PL::LX: the empty string, "偏", "全" and "环" *)
Inductive sec_kind := sec_none | sec_partial | sec_total | sec_annular.
(** RS_PL::sflx: " ", "#" (sunrise) and "*" (sunset) *)
Inductive sf_kind := sf_plain | sf_rise | sf_set.
(** RS_PL::sT, LX, sf, sflx, b1 and dur (P1, V1, P2, V2, sf2, sf3 are not kept; sun_s and sun_j are parameters) *)
Record sec := mkSec { c_kind : sec_kind; c_sf : R; c_sflx : sf_kind; c_b1 : R; c_dur : R; c_T : nat -> R }.
(** eph/eph_rspl.cpp:111, 118, 136, 140: the magnitude at the place g *)
Definition magnitude (g : re0) : R := (re_mr g + re_sr g - sqrt (re_x g * re_x g + re_y g * re_y g)) / re_sr g / 2.
(** eph/eph_rspl.cpp:108-113 and 115-120: the loops over the seconds [is] around jd; the state is (maxsf, maxjd) *)
Definition search_step (XY : R -> re0) (jd : R) (st : R * R) (i : Z) : R * R :=
  let tt := jd + IZR i / 86400 in let ls := magnitude (XY tt) in if Rlt_dec (fst st) ls then (ls, tt) else st.
(** the same, the whole loop *)
Definition search (XY : R -> re0) (jd : R) (is : list Z) (st : R * R) : R * R := fold_left (search_step XY jd) is st.
(** eph/eph_rspl.cpp:94-102, one round: the new jd with u and v *)
Definition newton (XY : R -> re0) (jd : R) : R * R * R :=
  let dt := 60 / 86400 in
  let G := XY jd in let g := XY (jd + dt) in
  let u := (re_y g - re_y G) / dt in
  let v := (re_x g - re_x G) / dt in
  (jd + - (re_y G * u + re_x G * v) / (u * u + v * v), u, v).
(** eph/eph_rspl.cpp:143-148, 153-158, 162-182: an estimate from G, then k estimates, each from the place at the one before *)
Fixpoint repeatT (XY : R -> re0) (v u : R) (rd : re0 -> R) (n : bool) (k : nat) (s : R) : R :=
  match k with O => s | S k => let g := XY s in repeatT XY v u rd n k (lineT0 g v u (rd g) n) end.
Definition contactT (XY : R -> re0) (G : re0) (v u : R) (rd : re0 -> R) (n : bool) (k : nat) : R :=
  repeatT XY v u rd n k (lineT0 G v u (rd G) n).
(** eph/eph_rspl.cpp:186-191: the magnitude at sunrise or sunset in place of the greatest, and the moments outside of the day set to 0 *)
Definition cut (sun_s sun_j : R) (kind : sec_kind) (sf b1 sf2 sf3 : R) (T : nat -> R) (dur : R) : sec :=
  let '(sf, fl) :=
    if Rlt_dec (T 1%nat) sun_s then if Rlt_dec 0 sf2 then (sf2, sf_rise) else (sf, sf_plain) else (sf, sf_plain) in
  let '(sf, fl) :=
    if Rlt_dec sun_j (T 1%nat) then if Rlt_dec 0 sf3 then (sf3, sf_set) else (sf, fl) else (sf, fl) in
  let T := fun i => if Rlt_dec (T i) sun_s then 0 else if Rlt_dec sun_j (T i) then 0 else T i in
  mkSec kind sf fl b1 dur T.
(** eph/eph_rspl.cpp:123-191: what follows from the moment jd with the place G at it, the speeds u and v, and the moments of sunrise and sunset *)
Definition outcome (XY : R -> re0) (jd : R) (G : re0) (u v sun_s sun_j : R) : sec :=
  let rmin := sqrt (re_x G * re_x G + re_y G * re_y G) in
  let rU g := re_mr g + re_sr g in
  let rT g := re_mr g - re_sr g in
  let rA g := re_sr g - re_mr g in
  let T := fun _ : nat => 0 in
  let '(kind, sf, b1, sf2, sf3, T) :=
    if Rle_dec rmin (re_mr G + re_sr G) then
      let sf2 := magnitude (XY sun_s) in
      let sf2 := if Rlt_dec sf2 0 then 0 else sf2 in
      let sf3 := magnitude (XY sun_j) in
      let sf3 := if Rlt_dec sf3 0 then 0 else sf3 in
      (sec_partial, (re_mr G + re_sr G - rmin) / re_sr G / 2, re_mr G / re_sr G, sf2, sf3,
       upd (upd (upd T 1 jd) 0 (contactT XY G v u rU false 3)) 2 (contactT XY G v u rU true 3))
    else (sec_none, 0, 1, 0, 0, T) in
  let '(kind, T, dur) :=
    if Rle_dec rmin (re_mr G - re_sr G) then
      let T := upd (upd T 3 (contactT XY G v u rT false 1)) 4 (contactT XY G v u rT true 1) in (sec_total, T, T 4%nat - T 3%nat)
    else (kind, T, 0) in
  let '(kind, T, dur) :=
    if Rle_dec rmin (re_sr G - re_mr G) then
      let T := upd (upd T 3 (contactT XY G v u rA false 1)) 4 (contactT XY G v u rA true 1) in (sec_annular, T, T 4%nat - T 3%nat)
    else (kind, T, dur) in
  cut sun_s sun_j kind sf b1 sf2 sf3 T dur.
(** eph/eph_rspl.cpp:72-195.  Parameters: [XY] is secXY at the station (31-58), [jd] is RS_GS::Zjd (87), [sun] gives sun_s and sun_j (125-126) for a jd. *)
Definition secMax (XY : R -> re0) (sun : R -> R * R) (jd : R) : sec :=
  let jd := jd - re_x (XY jd) / 0.2128 in
  let '(jd, u, v) := newton XY jd in
  let '(jd, u, v) := newton XY jd in
  let st := search XY jd [-30; -24; -18; -12; -6; 0; 6; 12; 18; 24]%Z (0, jd) in
  let st := search XY (snd st) [-5; -4; -3; -2; -1; 0; 1; 2; 3; 4]%Z st in
  let jd := snd st in
  let '(sun_s, sun_j) := sun jd in
  outcome XY jd (XY jd) u v sun_s sun_j.
