(** Model of the random access of the bit reader: set_position, get_position
    and skipbits (src/mg/core/bitstream.h), on the reader state of
    Bitstream_model.  Storage: src/mg/core/file.h (cfile) and
    src/mg/media/TBitstream.h (fixed_memory_read). *)
From Verif Require Import Util Bits_spec Bitstream_model.

Section Seek.
Variable file : list Z.
Variable P : nat.
Variable oob : nat -> Z.

Definition set_cur (c t : nat) (st : rst) : rst :=
  mkR (buf st) (buf_len st) c t (sh st) (sh_len st) (pos st) (pending st).

(** bitstream.h l.666-698 _get_position *)
Definition get_position (st : rst) : nat := (tot st / 8)%nat.

(** bitstream.h l.364-384 reload in read mode, after the storage was moved to
    [p] (file.h l.128, TBitstream.h l.92-95): a page read synchronously into
    _buf (l.1272-1284: bytes beyond what is read keep their old value), then a
    request for the shadow page.  The outstanding request is waited for first
    (its data are dropped by _shadow_len = 0). *)
Definition reload (p : nat) (st : rst) : outcome rst :=
  bindo (complete file P st) (fun st =>
    let data := slice file p P in
    Ok (internal_read file P
      (mkR (data ++ skipn (length data) (buf st)) (length data) 0 (tot st) (sh st) 0
           (if Nat.leb (length file) p then p else Nat.min (p + P) (length file)) None))).

(** bitstream.h l.749 and l.925: _nextbits(32) called with _load_lock held.
    If fill_buf has to wait (l.1169) for an outstanding read, read_cb (l.1250)
    cannot enter: the wait ends in the exception Timeout (l.287-289), written
    [InvalidInput] here. *)
Definition nextbits_locked (st : rst) : outcome rst :=
  match pending st with
  | Some _ => if Nat.eqb (sh_len st) P then bindo (nextbits file P oob 32 st) (fun '(_, st) => Ok st)
              else if Nat.ltb (buf_len st * 8) (cur st + 32) then InvalidInput
              else bindo (nextbits file P oob 32 st) (fun '(_, st) => Ok st)
  | None => bindo (nextbits file P oob 32 st) (fun '(_, st) => Ok st)
  end.

(** bitstream.h l.700-832 _set_position_read *)
Definition set_position (rhs : nat) (st : rst) : outcome rst :=
  bindo (if Nat.eqb (sh_len st) 0 && (negb (eof file st) || match pending st with Some _ => true | None => false end)
         then complete file P st else Ok st)                        (* l.704-707 *)
  (fun st =>
    let epos := pos st in
    let kpos := (epos - buf_len st - sh_len st)%nat in
    let p := (kpos + cur st / 8)%nat in
    if Nat.ltb rhs epos && Nat.leb kpos rhs then                    (* l.725-726 *)
      let ava := (buf_len st - cur st / 8)%nat in
      let adv := (rhs - p)%nat in                                   (* l.734-737 *)
      if Nat.ltb ava adv then                                       (* l.739-762 *)
        bindo (nextbits_locked (advance (8 * ava) st))
              (fun st => Ok (advance (8 * (adv - ava)) st))
      else if Nat.ltb rhs p then                                    (* l.763-780 *)
        Ok (set_cur (cur st - 8 * (p - rhs)) (tot st - 8 * (p - rhs)) st)
      else Ok (advance (8 * adv) st)                                (* l.781-793 *)
    else if eof file st && Nat.ltb epos rhs then                    (* l.795-806 *)
      if Nat.ltb p epos then Ok (advance (8 * (epos - p)) st) else Ok st
    else reload rhs (set_cur (cur st) (8 * rhs) st)).               (* l.807-826 *)

(** bitstream.h l.904-968 _skipbits, all branches (n is a uint16_t) *)
Definition skip (n : nat) (st : rst) : outcome rst :=
  let ava := (buf_len st * 8 - cur st)%nat in
  if Nat.ltb ava n then
    if Nat.ltb n (ava + sh_len st * 8) then                         (* l.922-931 *)
      bindo (nextbits_locked (set_cur (cur st + ava) (tot st) st))
        (fun st => Ok (set_cur (cur st + (n - ava)) (tot st + n) st))
    else if has_bits file n st then                                 (* l.932-948 *)
      let remain := ((tot st + n) mod 8)%nat in
      bindo (set_position ((tot st + n + n) / 8) st) (fun st => Ok (advance remain st))
    else if atend file st then Ok st else Ok (advance ava st)       (* l.949-959 *)
  else Ok (advance n st).                                           (* l.962-966 *)

(** One client call. *)
Inductive op := Get (n : nat) | Skip (n : nat) | Seek (p : nat) | Tell.

(** A client session: before each call the outstanding read may ([true]) or may
    not ([false]) have been called back.  The values returned by Get and Tell. *)
Definition step (o : op) (st : rst) : outcome (list Z * rst) :=
  match o with
  | Get n => bindo (getbits file P oob n st) (fun '(x, st) => Ok ([x], st))
  | Skip n => bindo (skip n st) (fun st => Ok ([], st))
  | Seek p => bindo (set_position p st) (fun st => Ok ([], st))
  | Tell => Ok ([Z.of_nat (get_position st)], st)
  end.
Fixpoint session (ops : list (bool * op)) (st : rst) : outcome (list Z * rst) :=
  match ops with
  | [] => Ok ([], st)
  | (done, o) :: ops' =>
    bindo (deliver file P done st) (fun st =>
    bindo (step o st) (fun '(x, st) =>
    bindo (session ops' st) (fun '(xs, st) => Ok (x ++ xs, st))))
  end.
End Seek.

(** ** Specification vocabulary: a plain bit string with a cursor. *)
(** where a call leaves the cursor; a move past the end stops at the end *)
Definition moved (bits : list bool) (q : nat) (o : op) : nat :=
  match o with
  | Get n => (q + n)%nat
  | Skip n => Nat.min (q + n) (length bits)
  | Seek p => Nat.min (8 * p) (length bits)
  | Tell => q
  end.
(** what a call returns: the field under the cursor, most significant bit
    first, or the byte number *)
Definition shown (bits : list bool) (q : nat) (o : op) : list Z :=
  match o with
  | Get n => [bits_val (firstn n (skipn q bits))]
  | Skip _ | Seek _ => []
  | Tell => [Z.of_nat (q / 8)]
  end.
(** everything a session returns; [None] when a field passes the end *)
Fixpoint expected (bits : list bool) (q : nat) (ops : list op) : option (list Z) :=
  match ops with
  | [] => Some []
  | o :: ops' =>
    match o with
    | Get n => if Nat.leb (q + n) (length bits)
               then option_map (app (shown bits q o)) (expected bits (moved bits q o) ops') else None
    | _ => option_map (app (shown bits q o)) (expected bits (moved bits q o) ops')
    end
  end.
(** calls that the code is meant for: fields of 1 to 32 bits, skips of a
    uint16_t, positions set from a byte boundary *)
Fixpoint well_formed (bits : list bool) (q : nat) (ops : list op) : Prop :=
  match ops with
  | [] => True
  | o :: ops' =>
    match o with
    | Get n => (1 <= n <= 32)%nat
    | Skip n => Z.of_nat n < 2 ^ 16
    | Seek _ => (q mod 8 = 0)%nat
    | Tell => True
    end /\ well_formed bits (moved bits q o) ops'
  end.
(** every cursor position of the session has [room] bits of the file after it *)
Fixpoint inside (room : nat) (bits : list bool) (q : nat) (ops : list op) : Prop :=
  (q + room <= length bits)%nat /\
  match ops with
  | [] => True
  | o :: ops' => (match o with Seek p => 8 * p + room <= length bits | Skip n => q + n + room <= length bits | _ => True end)%nat
                 /\ inside room bits (moved bits q o) ops'
  end.
(** on a file read by pages of [P] bytes: the outstanding read is called back
    before every move, and no skip reaches beyond the next page *)
Definition calm (P : nat) (x : bool * op) : Prop :=
  match snd x with
  | Skip n => fst x = true /\ (n < 8 * P)%nat
  | Seek _ => fst x = true
  | _ => True
  end.
(** byte-wise calls: only skips need the outstanding read called back *)
Definition bytewise (P : nat) (x : bool * op) : Prop :=
  match snd x with
  | Get n => n = 8%nat
  | Skip n => fst x = true /\ (n mod 8 = 0)%nat /\ (n < 8 * P)%nat
  | _ => True
  end.
