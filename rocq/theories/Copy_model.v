(** Model of copy_stream, /repo/src/mg/core/bitstream.cpp 33-220, by the thread which copies and the
    thread of the event loop which completes reads and writes: a transition system, one label a
    step.  Storages: core/file.h 117-176 (file_bitstream: asynchronous, the end known by size),
    177-259 (sync_file_bitstream: the end known after a short read, [c_lazy]); reads complete in the
    order asked (C08), writes in any order, each at the place it was issued for (file.cpp 372, 395).
    A synchronous storage is a schedule in which completions follow at once.  Errors of the storages
    are left out: they leave by an exception on the loop's thread.  _read_event only shortens a wait
    which looks again after 50 ms (71): the wait is a loop. *)
From Verif Require Import Util.
Local Open Scope Z_scope.

Record cfg := mkCfg { c_src : list Z; c_lazy : bool; c_chunk : Z; c_from : Z; c_to : Z; c_dest : Z -> option Z; c_dpos : Z }.
(** where the copying thread is: 199 with 63; 133-136; 77; 79; 92 at the call, 92 asleep, 97, 100 at
    the call, 100 asleep; returned; 104 *)
Inductive phase := Looping | Reading | Ending | Comparing | Waiting | Asleep | TimedOut | Last | LastAsleep | Done | Failed.
Record st := mkSt { s_phase : phase; s_pos : Z; s_eof : bool; s_reads : list (list Z); s_next : Z; s_writes : list (Z * list Z); s_mem : Z -> option Z;
  s_read : Z; s_write : Z; s_wait_end : bool; s_signal : bool; s_cb : bool }.
Inductive label := Main | Timeout | ReadDone | WriteDone (i : nat) | CbEnd.

Definition zlen (l : list Z) : Z := Z.of_nat (length l).
Definition slice (l : list Z) (a n : Z) : list Z := firstn (Z.to_nat n) (skipn (Z.to_nat a) l).
Definition set_bytes (off : Z) (b : list Z) (m : Z -> option Z) (i : Z) : option Z := if (off <=? i) && (i <? off + zlen b) then nth_error b (Z.to_nat (i - off)) else m i.
Definition u32 (x : Z) : Z := x mod 2 ^ 32.
Fixpoint take_at {A} (i : nat) (l : list A) : option (A * list A) :=
  match l, i with
  | [], _ => None
  | x :: r, O => Some (x, r)
  | x :: r, S i => match take_at i r with Some (y, r) => Some (y, x :: r) | None => None end
  end.

(** 193; file.h 128, 258: the synchronous file is asked for the lower 32 bits *)
Definition seek (c : cfg) : Z := if c_lazy c then u32 (c_from c) else c_from c.
Definition initial (c : cfg) : st := mkSt Looping (seek c) false [] (c_dpos c) [] (c_dest c) 0 0 false false false.
(** source.eof(): file.h 130, 233 *)
Definition at_end (c : cfg) (s : st) : bool := if c_lazy c then s_eof s else zlen (c_src c) <=? s_pos s.
(** 199 *)
Definition more (c : cfg) (s : st) : bool := negb (at_end c s) && ((c_to c =? 0) || (s_pos s <? c_to c)).
Definition set_phase (p : phase) (s : st) : st := mkSt p (s_pos s) (s_eof s) (s_reads s) (s_next s) (s_writes s) (s_mem s) (s_read s) (s_write s) (s_wait_end s) (s_signal s) (s_cb s).
(** 133-136; the bytes a read asked for at a place gives *)
Definition issue (c : cfg) (s : st) : st :=
  let b := slice (c_src c) (s_pos s) (c_chunk c) in
  mkSt Looping (s_pos s + zlen b) (zlen b <? c_chunk c) (s_reads s ++ [b]) (s_next s) (s_writes s) (s_mem s) (u32 (s_read s + 1)) (s_write s) (s_wait_end s) (s_signal s) (s_cb s).
Definition main_step (c : cfg) (s : st) : option st :=
  match s_phase s with
  | Looping => if more c s then if 10 <? u32 (s_read s - s_write s) then Some s else Some (set_phase Reading s) else Some (set_phase Ending s)
  | Reading => Some (issue c s)
  | Ending => Some (mkSt Comparing (s_pos s) (s_eof s) (s_reads s) (s_next s) (s_writes s) (s_mem s) (s_read s) (s_write s) true (s_signal s) (s_cb s))
  | Comparing => Some (set_phase (if s_read s =? s_write s then Done else Waiting) s)
  | Waiting => Some (set_phase (if s_signal s then Done else Asleep) s)
  | Asleep => if s_signal s then Some (set_phase Done s) else None
  | TimedOut => Some (set_phase (if s_read s =? s_write s then Last else Waiting) s)
  | Last => Some (set_phase (if s_signal s then Done else LastAsleep) s)
  | LastAsleep => if s_signal s then Some (set_phase Done s) else None
  | Done | Failed => None
  end.
Definition timeout_step (s : st) : option st :=
  match s_phase s with Asleep => Some (set_phase TimedOut s) | LastAsleep => Some (set_phase Failed s) | _ => None end.
(** 141-156, file.cpp 352-403 *)
Definition read_done (s : st) : option st :=
  match s_reads s with
  | b :: r => Some (mkSt (s_phase s) (s_pos s) (s_eof s) r (s_next s + zlen b) (s_writes s ++ [(s_next s, b)]) (s_mem s) (s_read s) (s_write s) (s_wait_end s) (s_signal s) (s_cb s))
  | [] => None
  end.
(** the bytes are in place; 161 *)
Definition write_done (i : nat) (s : st) : option st :=
  match take_at i (s_writes s) with
  | Some ((off, b), r) => Some (mkSt (s_phase s) (s_pos s) (s_eof s) (s_reads s) (s_next s) r (set_bytes off b (s_mem s)) (s_read s) (u32 (s_write s + 1)) (s_wait_end s) (s_signal s) true)
  | None => None
  end.
(** 163-178 *)
Definition cb_end (s : st) : st :=
  mkSt (s_phase s) (s_pos s) (s_eof s) (s_reads s) (s_next s) (s_writes s) (s_mem s) (s_read s) (s_write s) (s_wait_end s) (s_signal s || (s_wait_end s && (s_read s =? s_write s))) false.
(** None: the step is not possible *)
Definition step (c : cfg) (l : label) (s : st) : option st :=
  match l with
  | Main => main_step c s
  | Timeout => timeout_step s
  | ReadDone => if s_cb s then None else read_done s
  | WriteDone i => if s_cb s then None else write_done i s
  | CbEnd => if s_cb s then Some (cb_end s) else None
  end.
Fixpoint run (c : cfg) (ls : list label) (s : st) : option st :=
  match ls with [] => Some s | l :: ls => match step c l s with Some s => run c ls s | None => None end end.

(** * Specification vocabulary *)
Definition returned (s : st) : Prop := s_phase s = Done.
Definition ended (s : st) : Prop := s_phase s = Done \/ s_phase s = Failed.
(** what has been asked for and is not written yet *)
Definition in_flight (s : st) : nat := (length (s_reads s) + length (s_writes s))%nat.
(** the callback of the last write has yet to look at the object of the copy *)
Definition touches (s : st) : Prop := s_cb s = true.
(** how far the source is copied: to its end, or to the first chunk's end at or after [c_to] *)
Definition stops_at (c : cfg) : Z :=
  if c_to c =? 0 then Z.of_nat (length (c_src c)) else Z.min (Z.of_nat (length (c_src c))) (c_from c + c_chunk c * ((c_to c - c_from c + c_chunk c - 1) / c_chunk c)).
(** a step which only waits: the state is as before, or the wait for the last write begins anew *)
Definition idle (l : label) (s s' : st) : Prop := s' = s \/ (l = Main /\ s_phase s = Waiting /\ s_phase s' = Asleep) \/ (l = Timeout /\ s_phase s = Asleep /\ s_phase s' = TimedOut) \/ (l = Main /\ s_phase s = TimedOut /\ s_phase s' = Waiting).
(** a run with a number of steps which do not only wait *)
Inductive runs (c : cfg) : nat -> st -> st -> Prop :=
| runs_none s : runs c 0 s s
| runs_wait n l s s' s'' : runs c n s s' -> step c l s' = Some s'' -> idle l s' s'' -> runs c n s s''
| runs_work n l s s' s'' : runs c n s s' -> step c l s' = Some s'' -> ~ idle l s' s'' -> runs c (S n) s s''.
