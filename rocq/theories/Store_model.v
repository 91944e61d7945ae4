(** Model of writing through the bit stream to a storage: bitstream.h in write
    mode (putbits, write_direct, set_position, flush, get_position) on the page
    writer of Bitstream_model, over
    - the growing memory storage fixed_memory_write (src/mg/media/TBitstream.h
      l.113-213) made of the CBuffer of CBuffer_model, and
    - the file storage cfile (src/mg/core/file.cpp l.352-403). *)
From Verif Require Import Util Bits_spec Bitstream_model.
From Verif Require CBuffer_model.

(** ** The writer *)
(** Calls of the client. *)
Inductive wop := Put (v : Z) (n : nat) | Bytes (d : list Z) | WSeek (p : nat) | WFlush | WTell.
(** Calls the bit stream makes on its storage. *)
Inductive scall := SWrite (d : list Z) | SSeek (p : nat).

(** what a page operation handed to the storage (bitstream.h l.426, l.347) *)
Definition drain (w : wst) : list scall := match wout w with [] => [] | d => [SWrite d] end.
Definition drained (w : wst) : wst := mkW (wbuf w) (wtail w) (wcur w) [].

(** One call: new page, new _tot_bits, storage calls, returned values.
    bitstream.h l.439-476 _putbits, l.880-899 _write_direct, l.834-865
    _set_position_write, l.478-486 _flush, l.666-668 _get_position. *)
Definition wstep (o : wop) (w : wst) (tot : nat) : wst * nat * list scall * list Z :=
  match o with
  | Put v n => let w' := putbits v n w in (drained w', (tot + n)%nat, drain w', [])
  | Bytes d => let w' := flush w in (drained w', (tot + 8 * length d)%nat, drain w' ++ [SWrite d], [])
  | WSeek p => let w' := flush w in (drained w', (8 * p)%nat, drain w' ++ [SSeek p], [])
  | WFlush => let w' := flush w in (drained w', tot, drain w', [])
  | WTell => (w, tot, [], [Z.of_nat (tot / 8)])
  end.
Fixpoint wrun (ops : list wop) (w : wst) (tot : nat) : wst * nat * list scall * list Z :=
  match ops with
  | [] => (w, tot, [], [])
  | o :: ops' =>
    let '(w1, t1, c1, x1) := wstep o w tot in
    let '(w2, t2, c2, x2) := wrun ops' w1 t1 in
    (w2, t2, c1 ++ c2, x1 ++ x2)
  end.

(** ** Memory storage *)
(** TBitstream.h l.117-120 _buffer, _current_pos, _size *)
Record ms := mkMs { cb : CBuffer_model.cbuf; mpos : nat; msize : nat }.
Definition mcreate (init : nat) : ms := mkMs (CBuffer_model.create init) 0 0.
Inductive mres := MOk (m : ms) | MBad.

(** TBitstream.h l.153-182 write *)
Definition mwrite (d : list Z) (m : ms) : mres :=
  let b := cb m in
  match (if Nat.leb (length (CBuffer_model.mem b) - mpos m) (length d)
         then CBuffer_model.prepare CBuffer_model.FUEL (length d) b else Some b) with
  | None => MBad
  | Some b1 =>
    match CBuffer_model.blit (CBuffer_model.mem b1) (mpos m) d with
    | None => MBad
    | Some mem' =>
      let np := (mpos m + length d)%nat in
      MOk (mkMs (CBuffer_model.mkcb mem' (CBuffer_model.current b1 + length d) (CBuffer_model.origin b1)) np
                (if Nat.leb (msize m) np then np else msize m))
    end
  end.
(** TBitstream.h l.194-205 set_position: MoveBack (cbuffer.h l.208-219 without
    clearing) or updatePosition (l.115-120) *)
Definition mseek (p : nat) (m : ms) : mres :=
  let b := cb m in
  if Nat.ltb p (CBuffer_model.current b) then
    match CBuffer_model.back (CBuffer_model.current b - p) false b with
    | CBuffer_model.OK b' => MOk (mkMs b' p (msize m))
    | _ => MBad
    end
  else if Nat.leb (p - CBuffer_model.current b) (length (CBuffer_model.mem b) - CBuffer_model.current b)
  then MOk (mkMs (CBuffer_model.mkcb (CBuffer_model.mem b) p (CBuffer_model.origin b)) p (msize m))
  else MBad.
Fixpoint mrun (calls : list scall) (m : ms) : mres :=
  match calls with
  | [] => MOk m
  | c :: calls' =>
    match (match c with SWrite d => mwrite d m | SSeek p => mseek p m end) with
    | MOk m' => mrun calls' m'
    | MBad => MBad
    end
  end.
(** TBitstream.h l.207-211 get_buffer()[0..size()) *)
Definition mcontent (m : ms) : list Z := firstn (msize m) (CBuffer_model.mem (cb m)).

(** ** File storage *)
(** file.cpp l.352-403 and file.h l.128: every write is issued at once with its
    own offset and the data it copied, and carried out by the thread pool later. *)
Fixpoint fissue (calls : list scall) (p : nat) : list (nat * list Z) :=
  match calls with
  | [] => []
  | SWrite d :: calls' => (p, d) :: fissue calls' (p + length d)
  | SSeek q :: calls' => fissue calls' q
  end.
(** one write carried out by the system; a hole reads as zeros *)
Definition fput (c : list Z) (w : nat * list Z) : list Z :=
  match snd w with
  | [] => c
  | d => firstn (fst w) (c ++ repeat 0 (fst w - length c)) ++ d ++ skipn (fst w + length d) c
  end.
Definition fapply (ws : list (nat * list Z)) (c : list Z) : list Z := fold_left fput ws c.

(** ** Specification vocabulary: a bit string with a write cursor *)
Definition over {A} (l : list A) (q : nat) (d : list A) : list A :=
  firstn q l ++ d ++ skipn (q + length d) l.
Definition wdata (o : wop) : list bool :=
  match o with Put v n => field_bits v n | Bytes d => bytes_bits d | _ => [] end.
(** where the cursor goes *)
Definition wmoved (q : nat) (o : wop) : nat :=
  match o with WSeek p => 8 * p | _ => q + length (wdata o) end%nat.
(** the bit string after a session *)
Fixpoint wspec (bits : list bool) (q : nat) (ops : list wop) : list bool :=
  match ops with [] => bits | o :: ops' => wspec (over bits q (wdata o)) (wmoved q o) ops' end.
(** the position queries of a session *)
Fixpoint wtells (q : nat) (ops : list wop) : list Z :=
  match ops with
  | [] => []
  | WTell :: ops' => Z.of_nat (q / 8) :: wtells q ops'
  | o :: ops' => wtells (wmoved q o) ops'
  end.
(** sessions the code is meant for: fields of 1 to 32 bits; blocks and moves
    from a byte boundary, moves to a byte already written (or the end); at the
    end whole bytes and a flush *)
Fixpoint wok (size q : nat) (ops : list wop) : Prop :=
  match ops with
  | [] => False
  | [WFlush] => (q mod 8 = 0)%nat
  | o :: ops' =>
    match o with
    | Put _ n => (1 <= n <= 32)%nat
    | Bytes d => bytes d /\ (q mod 8 = 0)%nat
    | WSeek p => (q mod 8 = 0 /\ 8 * p <= size)%nat
    | _ => True
    end /\ wok (Nat.max size (q + length (wdata o))) (wmoved q o) ops'
  end.
