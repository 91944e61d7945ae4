(** Model of mg::core::bitstream_base (src/mg/core/bitstream.h): the bit
    reader, its page/shadow refill machinery and the bit writer.

    Byte counts and bit cursors are [nat] (uint32/uint64 in the code: the model
    does not wrap them; files are below 2^61 bytes).  Byte values and field
    values are [Z]. *)
From Verif Require Import Util.

(** bitstream.h l.213-223 tmask *)
Definition tmask : list Z :=
 [0x00000000; 0x00000001; 0x00000003; 0x00000007;
  0x0000000f; 0x0000001f; 0x0000003f; 0x0000007f;
  0x000000ff; 0x000001ff; 0x000003ff; 0x000007ff;
  0x00000fff; 0x00001fff; 0x00003fff; 0x00007fff;
  0x0000ffff; 0x0001ffff; 0x0003ffff; 0x0007ffff;
  0x000fffff; 0x001fffff; 0x003fffff; 0x007fffff;
  0x00ffffff; 0x01ffffff; 0x03ffffff; 0x07ffffff;
  0x0fffffff; 0x1fffffff; 0x3fffffff; 0x7fffffff;
  0xffffffff].
(** bitstream.h l.227-237 ctmask *)
Definition ctmask : list Z :=
 [0xffffffff; 0xfffffffe; 0xfffffffc; 0xfffffff8;
  0xfffffff0; 0xffffffe0; 0xffffffc0; 0xffffff80;
  0xffffff00; 0xfffffe00; 0xfffffc00; 0xfffff800;
  0xfffff000; 0xffffe000; 0xffffc000; 0xffff8000;
  0xffff0000; 0xfffe0000; 0xfffc0000; 0xfff80000;
  0xfff00000; 0xffe00000; 0xffc00000; 0xff800000;
  0xff000000; 0xfe000000; 0xfc000000; 0xf8000000;
  0xf0000000; 0xe0000000; 0xc0000000; 0x80000000;
  0x00000000].
(** bitstream.h l.240-250 stmask *)
Definition stmask : list Z :=
 [0x00000000; 0x00000001; 0x00000002; 0x00000004;
  0x00000008; 0x00000010; 0x00000020; 0x00000040;
  0x00000080; 0x00000100; 0x00000200; 0x00000400;
  0x00000800; 0x00001000; 0x00002000; 0x00004000;
  0x00008000; 0x00010000; 0x00020000; 0x00040000;
  0x00080000; 0x00100000; 0x00200000; 0x00400000;
  0x00800000; 0x01000000; 0x02000000; 0x04000000;
  0x08000000; 0x10000000; 0x20000000; 0x40000000;
  0x80000000].

(** uint32_t arithmetic *)
Definition u32 (x : Z) : Z := x mod 2 ^ 32.
(** unsigned char *)
Definition u8 (x : Z) : Z := x mod 256.

(** bitstream.h l.1327-1341: the load part of _nextbits, once enough data are
    in the buffer.  [mem i] is the byte at [_buf + i]; the code always touches
    [v[0..3]] (and [v[4]] in the second branch), i.e. possibly bytes past the
    end of the allocation: [mem] is then an arbitrary oracle. *)
Definition load_bits (mem : nat -> Z) (cur n : nat) : Z :=
  let q := (cur / 8)%nat in
  let x := Z.lor (Z.lor (Z.lor (Z.shiftl (mem q) 24) (Z.shiftl (mem (q+1)%nat) 16))
                 (Z.shiftl (mem (q+2)%nat) 8)) (mem (q+3)%nat) in
  let s := 32 - (Z.of_nat (cur mod 8) + Z.of_nat n) in
  let x' := if 0 <=? s then Z.shiftr x s
            else Z.lor (u32 (Z.shiftl x (- s))) (Z.shiftr (mem (q+4)%nat) (8 + s)) in
  Z.land x' (nth n tmask 0).

(** the offsets from _buf that the load touches (same lines) *)
Definition load_touches (cur n : nat) : list nat :=
  let q := (cur / 8)%nat in
  [q; q + 1; q + 2; q + 3]%nat ++ (if Nat.ltb 32 (cur mod 8 + n) then [(q + 4)%nat] else []).

(** Outcomes of a call. *)
Inductive outcome (A : Type) :=
| Ok (a : A)
| EndOfData        (* exception EndOfData, bitstream.h l.1165 *)
| InvalidInput     (* exception InvalidInput, bitstream.h l.79 INVALIDELSE *)
| UB.              (* undefined behaviour of the C++ program *)
Arguments Ok {A}. Arguments EndOfData {A}. Arguments InvalidInput {A}. Arguments UB {A}.

Definition bindo {A B} (x : outcome A) (f : A -> outcome B) : outcome B :=
  match x with Ok a => f a | EndOfData => EndOfData | InvalidInput => InvalidInput | UB => UB end.

Definition slice {A} (l : list A) (start len : nat) : list A := firstn len (skipn start l).

(** ** Reader *)
Section Reader.
Variable file : list Z.       (* content of the storage *)
Variable P : nat.             (* _buf_size: page size given at creation *)
Variable oob : nat -> Z.      (* memory found past the end of _buf *)

(** bitstream.h members l.255-280: _buf, _buf_len, _cur_bit, _tot_bits,
    _shadow_buf, _shadow_len; storage position; the outstanding asynchronous
    read (file offset, requested size), issued but not yet called back. *)
Record rst := mkR { buf : list Z; buf_len : nat; cur : nat; tot : nat;
                    sh : list Z; sh_len : nat; pos : nat; pending : option (nat * nat) }.

(** storage eof(): file.h l.130-132 (cfile, non-empty file) and TBitstream.h l.82-85. *)
Definition eof (st : rst) : bool := Nat.leb (length file) (pos st).

(** bitstream.h l.1239-1289 read_cb with _load_shadow: append [data] after the
    kept bytes.  l.1260: memcpy of the last _shadow_len bytes of the shadow
    page to its beginning; memcpy on overlapping ranges is undefined. *)
Definition read_cb_shadow (data : list Z) (st : rst) : outcome rst :=
  match data with
  | [] => Ok (mkR (buf st) (buf_len st) (cur st) (tot st) (sh st) (sh_len st) (pos st) None)
  | _ =>
    if Nat.ltb (P - sh_len st) (sh_len st) then UB
    else
      let kept := slice (sh st) (P - sh_len st) (sh_len st) in
      let sh' := kept ++ data ++ skipn (sh_len st + length data) (sh st) in
      Ok (mkR (buf st) (buf_len st) (cur st) (tot st) sh' (sh_len st + length data) (pos st) None)
  end.

(** completion of the outstanding request: the OS returns what the file has.
    (cfile::read l.405-469; fixed_memory_read::read TBitstream.h l.61-72) *)
Definition complete (st : rst) : outcome rst :=
  match pending st with
  | None => Ok st
  | Some (p, k) => read_cb_shadow (slice file p k) st
  end.

(** bitstream.h l.293-315 internal_read(size, true): nothing at eof, otherwise
    issue the request; the storage advances its position at once, clipped to
    the file size (file.cpp l.434, l.465). *)
Definition internal_read (k : nat) (st : rst) : rst :=
  if eof st then st
  else mkR (buf st) (buf_len st) (cur st) (tot st) (sh st) (sh_len st)
           (Nat.min (pos st + k) (length file)) (Some (pos st, k)).

(** bitstream.h l.1162-1237 fill_buf *)
Definition fill_buf (st : rst) : outcome rst :=
  if Nat.eqb (sh_len st) 0 && eof st then EndOfData            (* l.1164 *)
  else
  bindo (if Nat.eqb (sh_len st) P then Ok st else complete st)  (* l.1169 wait() *)
  (fun st =>
    let n := (cur st / 8)%nat in
    let u := (buf_len st - n)%nat in
    let moved := slice (buf st) n u ++ repeat 0 n ++ skipn (u + n) (buf st) in  (* l.1193-1195 *)
    if Nat.eqb (sh_len st) 0 then InvalidInput                  (* l.1227 *)
    else
      let k := if Nat.ltb n (sh_len st) then n else sh_len st in (* l.1212-1225 *)
      let buf' := firstn u moved ++ slice (sh st) 0 k ++ skipn (u + k) moved in
      let sl := (sh_len st - k)%nat in
      Ok (internal_read (P - sl)
            (mkR buf' (u + k) (cur st mod 8) (tot st) (sh st) sl (pos st) (pending st)))).

(** the bytes visible at _buf + i *)
Definition mem (st : rst) (i : nat) : Z :=
  if Nat.ltb i P then nth i (buf st) 0 else oob i.

(** bitstream.h l.1309-1343 _nextbits *)
Definition nextbits (n : nat) (st : rst) : outcome (Z * rst) :=
  if Nat.ltb 32 n then InvalidInput
  else bindo (if Nat.ltb (buf_len st * 8) (cur st + n) then fill_buf st else Ok st)
       (fun st => Ok (load_bits (mem st) (cur st) n, st)).

Definition advance (n : nat) (st : rst) : rst :=
  mkR (buf st) (buf_len st) (cur st + n) (tot st + n) (sh st) (sh_len st) (pos st) (pending st).

(** bitstream.h l.408-418 _getbits *)
Definition getbits (n : nat) (st : rst) : outcome (Z * rst) :=
  bindo (nextbits n st) (fun '(x, st') => Ok (Z.land x (nth n tmask 0), advance n st')).

(** bitstream.h l.488-495 _sgetbits *)
Definition sgetbits (n : nat) (st : rst) : outcome (Z * rst) :=
  bindo (getbits n st) (fun '(x, st') =>
    Ok (if Nat.ltb 1 n && negb (Z.land x (nth n stmask 0) =? 0) then Z.lor x (nth n ctmask 0) else x, st')).

(** bitstream.h l.576-589 has_bits *)
Definition has_bits (n : nat) (st : rst) : bool :=
  if eof st then Nat.leb n (buf_len st * 8 - cur st) else true.

(** bitstream.h l.566-574 atend *)
Definition atend (st : rst) : bool :=
  eof st && Nat.eqb (sh_len st) 0 && Nat.leb (buf_len st * 8) (cur st).

(** bitstream.h l.904-968 _skipbits.  Branch l.932-948 (seek through
    _set_position) is not modelled: [UB] stands for it and no theorem covers it. *)
Definition skipbits (n : nat) (st : rst) : outcome rst :=
  let ava := (buf_len st * 8 - cur st)%nat in
  if Nat.ltb ava n then
    if Nat.ltb n (ava + sh_len st * 8) then
      (* l.922-931: switch to the shadow page; _tot_bits += n, _cur_bit as after the switch *)
      bindo (nextbits 32 (mkR (buf st) (buf_len st) (cur st + ava) (tot st) (sh st) (sh_len st) (pos st) (pending st)))
        (fun '(_, st) => Ok (mkR (buf st) (buf_len st) (cur st + (n - ava)) (tot st + n) (sh st) (sh_len st) (pos st) (pending st)))
    else if has_bits n st then UB
    else if atend st then Ok st else Ok (advance ava st)
  else Ok (advance n st).

(** bitstream.h l.497-515 _align(n), n a positive multiple of 8.  The while
    loop runs on [fuel] ([UB] when exhausted, excluded by the theorems; it is
    a real hang when skipping cannot advance at the end of the data). *)
Fixpoint align_loop (fuel n : nat) (st : rst) : outcome rst :=
  if Nat.eqb (tot st mod n) 0 then Ok st
  else match fuel with
  | O => UB
  | S f => bindo (skipbits 8 st) (align_loop f n)
  end.
Definition align (n : nat) (st : rst) : outcome rst :=
  if negb (Nat.eqb (n mod 8) 0) then InvalidInput
  else bindo (if Nat.eqb (tot st mod 8) 0 then Ok st else skipbits (8 - tot st mod 8) st)
       (align_loop n n).

(** bitstream.h l.386-400 init + l.364-384 reload: one synchronous page, then
    an asynchronous request for the shadow page. *)
Definition create : rst :=
  let data := slice file 0 P in
  let st0 := mkR (data ++ repeat 0 (P - length data)) (length data) 0 0 (repeat 0 P) 0
                 (Nat.min P (length file)) None in
  internal_read P st0.

(** A client issuing bit reads; [true] = the outstanding request (if any) has
    been called back before this read starts. *)
Definition deliver (done : bool) (st : rst) : outcome rst := if done then complete st else Ok st.
Fixpoint run_reads (ops : list (bool * nat)) (st : rst) : outcome (list Z * rst) :=
  match ops with
  | [] => Ok ([], st)
  | (done, n) :: ops' =>
    bindo (deliver done st) (fun st =>
    bindo (getbits n st) (fun '(x, st) =>
    bindo (run_reads ops' st) (fun '(xs, st) => Ok (x :: xs, st))))
  end.

(** bitstream.h l.971-1031 __read.  The destination is the returned list. *)
Definition read1 (size : nat) (st : rst) : outcome (list Z * rst) :=
  let used := (cur st / 8)%nat in
  let available := (buf_len st - used)%nat in
  if Nat.ltb size available then
    let data := slice (buf st) used size in
    bindo (nextbits 32 (advance (size * 8) st)) (fun '(_, st) => Ok (data, st))
  else
    let data := slice (buf st) used available in
    let st := advance (available * 8) st in
    if atend st then Ok (data, st)
    else
    bindo (nextbits 32 st) (fun '(_, st) =>
      let todo := Nat.min (size - available) (buf_len st) in
      let data2 := slice (buf st) 0 todo in
      let st := advance (todo * 8) st in
      if atend st then Ok (data ++ data2, st)
      else bindo (nextbits 32 st) (fun '(_, st) => Ok (data ++ data2, st))).

(** bitstream.h l.1035-1063 _read: loop until done or at end; [fuel] bounds the
    number of rounds ([UB] when exhausted, excluded by the theorems). *)
Fixpoint read_loop (fuel size : nat) (st : rst) : outcome (list Z * rst) :=
  match fuel with
  | O => UB
  | S f =>
    if Nat.eqb size 0 || atend st then Ok ([], st)
    else bindo (read1 size st) (fun '(d, st) =>
         bindo (read_loop f (size - length d) st) (fun '(d2, st) => Ok (d ++ d2, st)))
  end.

(** bitstream.h l.645-663 _little_getbits (whole bytes part and left-over bits) *)
Fixpoint little_get_bytes (i k : nat) (x : Z) (st : rst) : outcome (Z * rst) :=
  match k with
  | O => Ok (x, st)
  | S k' => bindo (getbits 8 st) (fun '(b, st) =>
      little_get_bytes (i + 1) k' (Z.lor x (u32 (Z.shiftl b (8 * Z.of_nat i)))) st)
  end.
Definition little_getbits (n : nat) (st : rst) : outcome (Z * rst) :=
  bindo (little_get_bytes 0 (n / 8) 0 st) (fun '(x, st) =>
    if Nat.eqb (n mod 8) 0 then Ok (x, st)
    else bindo (getbits (n mod 8) st) (fun '(b, st) =>
         Ok (Z.lor x (u32 (Z.shiftl b (8 * Z.of_nat (n / 8)))), st))).
End Reader.

(** ** Writer *)
(** Writer state: the page, the memory that follows it (arbitrary), the bit
    cursor, and the bytes handed to the storage so far. *)
Record wst := mkW { wbuf : list Z; wtail : list Z; wcur : nat; wout : list Z }.

(** [v[i] |= x] (x truncated to unsigned char) *)
Fixpoint or_at (i : nat) (x : Z) (m : list Z) : list Z :=
  match m, i with
  | [], _ => []
  | b :: m', O => Z.lor b (u8 x) :: m'
  | b :: m', S i' => b :: or_at i' x m'
  end.

(** bitstream.h l.421-437 _flush_buf *)
Definition flush_buf (w : wst) : wst :=
  let P := length (wbuf w) in
  let l := (wcur w / 8)%nat in
  let b' := if Nat.eqb (wcur w mod 8) 0 then repeat 0 P
            else nth l (wbuf w) 0 :: repeat 0 (P - 1) in
  mkW b' (wtail w) (wcur w mod 8) (wout w ++ firstn l (wbuf w)).

(** bitstream.h l.439-476 _putbits: the or-ing part; [m] is the page followed by
    whatever memory lies after it. *)
Definition put_word (m : list Z) (cur : nat) (value : Z) (n : nat) : list Z :=
  let val := Z.land value (nth n tmask 0) in
  let delta := 32 - Z.of_nat n - Z.of_nat (cur mod 8) in
  let q := (cur / 8)%nat in
  if 0 <=? delta then
    let tmp := u32 (Z.shiftl val delta) in
    or_at (q+3) tmp (or_at (q+2) (Z.shiftr tmp 8)
      (or_at (q+1) (Z.shiftr tmp 16) (or_at q (Z.shiftr tmp 24) m)))
  else
    let tmp := Z.shiftr val (- delta) in
    or_at (q+4) (u32 (Z.shiftl value (8 + delta)))
      (or_at (q+3) tmp (or_at (q+2) (Z.shiftr tmp 8)
      (or_at (q+1) (Z.shiftr tmp 16) (or_at q (Z.shiftr tmp 24) m)))).

Definition putbits (value : Z) (n : nat) (w : wst) : wst :=
  let P := length (wbuf w) in
  let w := if Nat.ltb (P * 8) (wcur w + n) then flush_buf w else w in
  let m := put_word (wbuf w ++ wtail w) (wcur w) value n in
  mkW (firstn P m) (skipn P m) (wcur w + n) (wout w).

(** bitstream.h l.478-486 _flush *)
Definition flush (w : wst) : wst := if Nat.ltb 7 (wcur w) then flush_buf w else w.

(** creation in write mode: init with load=false, reload l.366-370 zeroes the page *)
Definition wcreate (P : nat) (tail : list Z) : wst := mkW (repeat 0 P) tail 0 [].

Fixpoint run_puts (fs : list (Z * nat)) (w : wst) : wst :=
  match fs with [] => w | (v, n) :: fs' => run_puts fs' (putbits v n w) end.

(** bitstream.h l.627-643 _little_putbits *)
Fixpoint little_put_bytes (value : Z) (i k : nat) (w : wst) : wst :=
  match k with
  | O => w
  | S k' => little_put_bytes value (i + 1) k'
              (putbits (Z.land (Z.shiftr value (8 * Z.of_nat i)) (nth 8 tmask 0)) 8 w)
  end.
Definition little_putbits (value : Z) (n : nat) (w : wst) : wst :=
  let w := little_put_bytes value 0 (n / 8) w in
  if Nat.eqb (n mod 8) 0 then w
  else putbits (Z.land (Z.shiftr value (8 * Z.of_nat (n / 8))) (nth (n mod 8) tmask 0)) (n mod 8) w.
