(** mylib/mystl/memory.h: the temporary buffers and auto_ptr.

    The memory and the exceptions are those of ExModel, for a class type.  [mal i] says whether the i-th call of malloc of a buffer
    succeeds.  [cap] is INT_MAX / sizeof(T). *)
From Coq Require Import List Arith Bool.
From Verif Require Import F64 VecModel ExModel.
Import ListNotations.

(** a pointer variable: never assigned, null, or an address *)
Inductive ptr := Wild | Null | Addr (p : nat).

Section Buf.
Variable A : Type.
Variables mal thr : nat -> bool.
Notation heap := (heap A).

(** memory.h:33-39, 132-138  the loop that halves the length until malloc succeeds: the pointer and the length at its end; [b] is
    what the pointer was before; [t] counts the calls of malloc *)
Fixpoint alloc_loop (fuel len t : nat) (b : ptr) (h : heap) : ptr * nat * heap :=
  match fuel with
  | O => (b, len, h)
  | S fuel =>
      if len =? 0 then (b, len, h)
      else if mal t then let (p, h) := alloc A len h in (Addr p, len, h)
      else alloc_loop fuel (len / 2) (S t) Null h
  end.
(** memory.h:28-41 get_buffer_helper, 43-53 get_temporary_buffer *)
Definition get_temporary_buffer (cap len : nat) (h : heap) : ptr * nat * heap :=
  let len := if cap <? len then cap else len in
  match alloc_loop len len 0 Null h with
  | (Addr p, n, h) => (Addr p, n, h)
  | (_, _, h) => (Null, 0, h)
  end.
(** free of a pointer *)
Definition free (b : ptr) (h : heap) : option heap :=
  match b with Wild => None | Null => Some h | Addr p => dealloc A false p h end.
(** memory.h:55-59 *)
Definition release_temporary_buffer (b : ptr) (h : heap) : option heap := free b h.

(** memory.h:67-71 *)
Record tbuf := mkT { t_original : nat; t_len : nat; t_buffer : ptr }.
(** memory.h:127-140 allocate_buffer; the member buffer has no value before *)
Definition allocate_buffer (cap len : nat) (h : heap) : tbuf * heap :=
  let n := if cap <? len then cap else len in
  match alloc_loop n n 0 Wild h with (b, n, h) => (mkT len n b, h) end.
(** memory.h:103-123 the constructor for a range of n elements from [first] on, with 91-93 initialize_buffer for a class type *)
Definition tb_new (cap first n : nat) (h : heap) (c : nat) : out A tbuf :=
  let (b, h) := allocate_buffer cap n h in
  if 0 <? t_len b then
    match t_buffer b with
    | Addr p =>
        match uninit_fill_n A thr (t_len b) (At A first) p h c with
        | Ub => Ub
        | Throw h c => match free (t_buffer b) h with Some h => Ret h c (mkT (t_original b) 0 Null) | None => Ub end
        | Ret h c _ => Ret h c b
        end
    | _ => Ub
    end
  else Ret h c b.
(** memory.h:76-80 the destructor *)
Definition tb_delete (b : tbuf) (h : heap) : option heap :=
  match t_buffer b with
  | Wild => None
  | Null => Some h
  | Addr p => match des_range A false (t_len b) h p with Some h => free (t_buffer b) h | None => None end
  end.
End Buf.

(** auto_ptr, memory.h:143-204.  Objects have numbers from 1 on, 0 is the null pointer.  A program has numbered auto_ptrs and a list of
    pointers it got from release() and has to care for itself. *)
Record world := mkW { hold : nat -> option nat; alive : nat -> bool; fresh : nat; raw : list nat }.
Definition wupd {B : Type} (f : nat -> B) (i : nat) (x : B) : nat -> B := fun j => if j =? i then x else f j.
(** the delete expression: nothing for null, undefined for an object that does not live *)
Definition del (p : nat) (w : world) : option world :=
  if p =? 0 then Some w
  else if alive w p then Some (mkW (hold w) (wupd (alive w) p false) (fresh w) (raw w)) else None.
(** new T *)
Definition newT (w : world) : nat * world := (fresh w, mkW (hold w) (wupd (alive w) (fresh w) true) (S (fresh w)) (raw w)).
Definition set_hold (i : nat) (x : option nat) (w : world) : world := mkW (wupd (hold w) i x) (alive w) (fresh w) (raw w).
(** memory.h:188-193 release *)
Definition release (i : nat) (w : world) : option (nat * world) :=
  match hold w i with Some p => Some (p, set_hold i (Some 0) w) | None => None end.
(** memory.h:196-203 reset *)
Definition reset (i p : nat) (w : world) : option world :=
  match hold w i with
  | None => None
  | Some m => if negb (m =? p) then match del m w with Some w => Some (set_hold i (Some p) w) | None => None end else Some w
  end.
(** memory.h:157-165 the assignment from an auto_ptr of the same type: compares the addresses of the two auto_ptrs *)
Definition assign (i j : nat) (w : world) : option world :=
  match hold w i, hold w j with
  | Some m, Some _ =>
      if i =? j then Some w
      else match del m w with None => None | Some w =>
           match release j w with None => None | Some (p, w) => Some (set_hold i (Some p) w) end end
  | _, _ => None
  end.
(** memory.h:166-175 the assignment from an auto_ptr of another type: compares the pointers they hold *)
Definition assign_other (i j : nat) (w : world) : option world :=
  match hold w i, hold w j with
  | Some m, Some m' =>
      if m =? m' then Some w
      else match del m w with None => None | Some w =>
           match release j w with None => None | Some (p, w) => Some (set_hold i (Some p) w) end end
  | _, _ => None
  end.

Inductive aop :=
| ANew (i : nat)              (* auto_ptr<T> p(new T); memory.h:152 *)
| ANull (i : nat)             (* auto_ptr<T> p; memory.h:152 *)
| AAdopt (i p : nat)          (* auto_ptr<T> p(r) for a pointer r that release() gave *)
| ACopy (i j : nat)           (* auto_ptr<T> p(q); memory.h:153-155 *)
| AAssign (i j : nat) | AAssignOther (i j : nat)
| ARelease (i : nat) | AResetNew (i : nat) | AResetNull (i : nat) | AResetSame (i : nat)   (* p.reset(p.get()) *)
| ADrop (i : nat).            (* memory.h:177 *)
Definition astep (o : aop) (w : world) : option world :=
  match o with
  | ANew i => match hold w i with Some _ => None | None => let (p, w) := newT w in Some (set_hold i (Some p) w) end
  | ANull i => match hold w i with Some _ => None | None => Some (set_hold i (Some 0) w) end
  | AAdopt i p => match hold w i with Some _ => None | None =>
      if existsb (Nat.eqb p) (raw w)
      then Some (set_hold i (Some p) (mkW (hold w) (alive w) (fresh w) (filter (fun q => negb (q =? p)) (raw w)))) else None end
  | ACopy i j => match hold w i with Some _ => None | None =>
      match release j w with None => None | Some (p, w) => Some (set_hold i (Some p) w) end end
  | AAssign i j => assign i j w
  | AAssignOther i j => if i =? j then None else assign_other i j w
  | ARelease i => match release i w with None => None
                  | Some (p, w) => Some (if p =? 0 then w else mkW (hold w) (alive w) (fresh w) (p :: raw w)) end
  | AResetNew i => match hold w i with None => None | Some _ => let (p, w) := newT w in reset i p w end
  | AResetNull i => reset i 0 w
  | AResetSame i => match hold w i with None => None | Some p => reset i p w end
  | ADrop i => match hold w i with None => None
               | Some p => match del p w with None => None | Some w => Some (set_hold i None w) end end
  end.
Fixpoint arun (l : list aop) (w : world) : option world :=
  match l with [] => Some w | o :: l => match astep o w with Some w => arun l w | None => None end end.
Definition world0 : world := mkW (fun _ => None) (fun _ => false) 1 [].
