(** Model of CBuffer and ResetBuffer, /repo/src/mg/cbuffer.h lines 40-220, for
    byte-sized elements.  Simplified: size_t does not overflow (total size below
    2^64) and allocation succeeds. *)
From Coq Require Import ZArith List Bool Arith.
Import ListNotations.

(** cbuffer.h 67-76: m_p[0..m_iSize), m_iCurrent, m_iOrigin; m_iSize = length mem. *)
Record cbuf := mkcb { mem : list Z; current : nat; origin : nat }.

(** cbuffer.h 78-88 *)
Definition create (size : nat) : cbuf := mkcb (repeat 0%Z size) 0 size.

(** cbuffer.h 56-62: one growth step, without the recursive prepare of line 64. *)
Definition enlarge (size : nat) (b : cbuf) : cbuf :=
  let t := if Nat.ltb size (origin b) then origin b else size in
  mkcb (firstn (current b) (mem b) ++ repeat 0%Z (length (mem b) + t - current b)) (current b) (origin b).

(** cbuffer.h 125-130 with 51-65: prepare <-> growth; [None] = still looping. *)
Fixpoint prepare (fuel : nat) (size : nat) (b : cbuf) : option cbuf :=
  match fuel with
  | O => None
  | S f => if Nat.leb (length (mem b) - current b) size then prepare f size (enlarge size b) else Some b
  end.

(** Overwriting [data] at index [i] of a memory block; [None] = outside the block. *)
Definition blit (m : list Z) (i : nat) (data : list Z) : option (list Z) :=
  if Nat.leb (i + length data) (length m) then Some (firstn i m ++ data ++ skipn (i + length data) m) else None.

Inductive outcome := OK (b : cbuf) | Diverges | OutOfBounds | AssertFailed.

Definition FUEL := 3.

(** cbuffer.h 94-108 *)
Definition add (data : list Z) (b : cbuf) : outcome :=
  match data with
  | [] => OK b
  | _ =>
    match prepare FUEL (length data) b with
    | None => Diverges
    | Some b1 =>
      match blit (mem b1) (current b1) data with
      | None => OutOfBounds
      | Some m => OK (mkcb m (current b1 + length data) (origin b1))
      end
    end
  end.

(** The direct-access protocol (comments at 112-124): prepare(n), write up to n
    bytes at getCurrent(), updatePosition (115-120). *)
Definition direct (n : nat) (data : list Z) (b : cbuf) : outcome :=
  match prepare FUEL n b with
  | None => Diverges
  | Some b1 =>
    match blit (mem b1) (current b1) data with
    | None => OutOfBounds
    | Some m => OK (mkcb m (current b1 + length data) (origin b1))
    end
  end.

(** cbuffer.h 201-206 *)
Definition reset (b : cbuf) : cbuf := mkcb (repeat 0%Z (length (mem b))) 0 (origin b).
(** cbuffer.h 208-219 *)
Definition back (n : nat) (zero : bool) (b : cbuf) : outcome :=
  if Nat.ltb (current b) n then AssertFailed else
  let c := current b - n in
  OK (mkcb (if zero then firstn c (mem b) ++ repeat 0%Z n ++ skipn (c + n) (mem b) else mem b) c (origin b)).

Inductive op := Add (data : list Z) | Direct (n : nat) (data : list Z) | Reset | Back (n : nat) (zero : bool).
Definition do_op (o : op) (b : cbuf) : outcome :=
  match o with
  | Add d => add d b
  | Direct n d => direct n d b
  | Reset => OK (reset b)
  | Back n z => back n z b
  end.
Fixpoint run (l : list op) (b : cbuf) : outcome :=
  match l with
  | [] => OK b
  | o :: l' => match do_op o b with OK b' => run l' b' | x => x end
  end.

(** cbuffer.h 111, 142: what a user reads: get()[0..size()). *)
Definition content (b : cbuf) : list Z := firstn (current b) (mem b).

(** cbuffer.h 177-181: buffer += buffer.  When the argument is the buffer itself the
    source pointer was taken before prepare(); if prepare reallocates, the copy
    reads freed memory. *)
Definition self_append_reads_freed (b : cbuf) : bool :=
  match content b with
  | [] => false
  | d => Nat.leb (length (mem b) - current b) (length d)
  end.

(** Specification: the list of bytes the buffer stands for. *)
Definition spec_op (o : op) (c : list Z) : list Z :=
  match o with
  | Add d => c ++ d
  | Direct _ d => c ++ d
  | Reset => []
  | Back n _ => firstn (length c - n) c
  end.
Definition legal (o : op) (c : list Z) : Prop :=
  match o with
  | Direct n d => length d <= n
  | Back n _ => n <= length c
  | _ => True
  end.
Fixpoint legal_run (l : list op) (c : list Z) : Prop :=
  match l with [] => True | o :: l' => legal o c /\ legal_run l' (spec_op o c) end.
Definition spec_run (l : list op) (c : list Z) : list Z := fold_left (fun c o => spec_op o c) l c.
