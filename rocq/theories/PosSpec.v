(** Position codes and place tables, as the comment lat_lon_data.cpp:11-27 describes them. *)
From Coq Require Import ZArith List Ascii String Bool Reals.
From Verif Require Import Str.
Import ListNotations.
Open Scope Z_scope.

Definition alphabet : bytes := B "0123456789ABCDEFGHIJKLMNOPQRSTUVWXYZabcdefghijklmnopqrstuvwxyz".
Definition sym (n : Z) : ascii := nth (Z.to_nat n) alphabet " "%char.
(** latitude wd degrees wm minutes, longitude jd degrees jm minutes *)
Definition encode (wd wm jd jm : Z) : bytes := [sym wd; sym wm; sym (jd - 73); sym jm].

(** A table: for every province its name and its places, each a code and a name. *)
Definition entry := (bytes * bytes)%type.
Definition province := (bytes * list entry)%type.
Definition places_text (es : list entry) : bytes := flat_map (fun e => " "%char :: fst e ++ snd e) es.
Definition text_of (p : province) : bytes := (fst p ++ places_text (snd p))%list.
Definition count (p : province) : nat := List.length (snd p).
Definition in_alphabet (c : ascii) : bool := existsb (Ascii.eqb c) alphabet.
Definition plain (c : ascii) : bool := negb (in_alphabet c) && negb (Ascii.eqb c " ").
Definition name_ok (s : bytes) : bool := (1 <=? List.length s)%nat && (List.length s <? 48)%nat && forallb plain s.
Definition entry_ok (e : entry) : bool := (List.length (fst e) =? 4)%nat && forallb in_alphabet (fst e) && name_ok (snd e).
Definition province_ok (p : province) : bool :=
  name_ok (fst p) && forallb entry_ok (snd p) && ((1 <=? count p)%nat && (count p <? 209)%nat) && (3 <=? List.length (fst p))%nat.
Definition table_ok (t : list province) : bool := (List.length t =? 32)%nat && forallb province_ok t.

(** [pat] is found in [s] at byte k *)
Definition occurs_at (pat s : bytes) (k : nat) : Prop := firstn (List.length pat) (skipn k s) = pat /\ (k <= List.length s)%nat.
(** the byte at which the name of place j begins in the text of the province *)
Definition offset (p : province) (j : nat) : nat :=
  (List.length (fst p ++ places_text (firstn j (snd p))) + 5)%nat.
(** the name of place j of province i does not occur before its own entry (the first 8 bytes of a province text do not count) *)
Definition first_of_its_name (t : list province) (i j : nat) (name : bytes) : Prop :=
  (forall i' p k, (i' < i)%nat -> nth_error t i' = Some p -> (8 <= k)%nat -> ~ occurs_at name (text_of p) k)
  /\ (forall p k, nth_error t i = Some p -> (8 <= k < offset p j)%nat -> ~ occurs_at name (text_of p) k).

(** reading a row of the table: a name up to the first space, then code and name after each space *)
Fixpoint words (s : bytes) : list bytes :=
  match s with
  | [] => [[]]
  | c :: s => match words s with
              | w :: ws => if Ascii.eqb c " " then [] :: w :: ws else (c :: w) :: ws
              | [] => []
              end
  end.
Definition structure (row : bytes) : province :=
  match words row with w :: ws => (w, map (fun x => (firstn 4 x, skipn 4 x)) ws) | [] => ([], []) end.
(** the angle wd degrees wm minutes *)
Definition degrees (d m : Z) : R := (IZR d + IZR m / 60)%R.
