(** Model of the string helpers of mg: searching, sub-strings, splitting,
    replacing, hex text and command-line options.
    A C string is the list of its non-zero characters; memory is the string
    followed by a 0. *)
From Coq Require Import String Ascii.
From Verif Require Import Util.
Local Open Scope Z_scope.

(** Example notation helper: characters of a Coq string literal. *)
Fixpoint str (s : string) : list Z :=
  match s with EmptyString => [] | String c s' => Z.of_nat (nat_of_ascii c) :: str s' end.

Fixpoint eqs (a b : list Z) : bool :=
  match a, b with
  | [], [] => true
  | x :: a', y :: b' => (x =? y) && eqs a' b'
  | _, _ => false
  end.

(** C library strncmp(p, s, strlen(p)) == 0 *)
Fixpoint is_prefix (p s : list Z) : bool :=
  match p, s with
  | [], _ => true
  | x :: p', y :: s' => (x =? y) && is_prefix p' s'
  | _, [] => false
  end.

(** C library strstr (_tcsstr): offset of the first occurrence.
    Used by alxstring.h 605-612 (find) and splitter.h 68. *)
Fixpoint strstr (s p : list Z) : option nat :=
  if is_prefix p s then Some 0%nat
  else match s with [] => None | _ :: s' => match strstr s' p with Some n => Some (S n) | None => None end end.

(** alxstring.h 605-612, nBegin = 0: offset or npos = -1. *)
Definition find (s p : list Z) : Z := match strstr s p with Some n => Z.of_nat n | None => -1 end.

(** The C string starting at a memory block. *)
Fixpoint cstr (m : list Z) : list Z :=
  match m with [] => [] | x :: m' => if x =? 0 then [] else x :: cstr m' end.

(** alxstring.h 636-646 subString on a string just assigned from a char pointer
    (alxstring.h 177-192: the buffer holds strlen+1 elements).  [None] = reads outside
    the buffer.  size_t subtraction wraps modulo 2^64. *)
Definition subString (s : list Z) (b n : nat) : option (list Z) :=
  let cap := S (length s) in
  let room := if Nat.leb b cap then Z.of_nat (cap - b) else 2 ^ 64 - Z.of_nat (b - cap) in
  let nlen := if room <? Z.of_nat n then cap else n in
  if Nat.leb (b + nlen) cap then Some (cstr (firstn nlen (skipn b (s ++ [0])))) else None.

(** splitter.h 51-90 (Csplitter::split) and 97-104 (operator[]): the list of tokens.
    [None] = does not terminate within the given number of rounds. *)
Fixpoint split_loop (fuel : nat) (s sep : list Z) : option (list (list Z)) :=
  match fuel with
  | O => None
  | S f =>
    match strstr s sep with
    | None => Some [s]
    | Some n =>
      match split_loop f (skipn (n + length sep) s) sep with
      | None => None
      | Some l => Some (firstn n s :: l)
      end
    end
  end.
Definition split (s sep : list Z) : option (list (list Z)) := split_loop (S (length s)) s sep.

(** Joining tokens; splitter.h 117-125 is this loop. *)
Definition join (sep : list Z) (ts : list (list Z)) : list Z :=
  match ts with [] => [] | t :: ts' => t ++ flat_map (fun x => sep ++ x) ts' end.
(** splitter.h 114-128: replace(str, in, out). *)
Definition replace (s new old : list Z) : option (list Z) :=
  match split s old with None => None | Some ts => Some (join new ts) end.

(** alxstring.h 67-69 *)
Definition hex_digit (x : Z) : Z := if x <? 10 then 48 + x else 55 + x.
(** alxstring.h 786-803 append_hex_buffer.  (char is signed: the shift is
    arithmetic, the mask removes the sign bits.) *)
Definition append_hex_buffer (s : list Z) (pb : list Z) : list Z :=
  s ++ flat_map (fun b => let ch := if b <? 128 then b else b - 256 in
    [hex_digit (Z.land (Z.shiftr ch 4) 15); hex_digit (Z.land ch 15)]) pb.
(** Value of a hex digit for scanf %x. *)
Definition hex_val (c : Z) : option Z :=
  if (48 <=? c) && (c <=? 57) then Some (c - 48)
  else if (65 <=? c) && (c <=? 70) then Some (c - 55)
  else if (97 <=? c) && (c <=? 102) then Some (c - 87) else None.
(** alxstring.h 120-134 with %x on a string of hex digits (at least one); other
    texts are not modelled ([None]). *)
Fixpoint scan_hex (acc : Z) (t : list Z) : option Z :=
  match t with
  | [] => Some acc
  | c :: t' => match hex_val c with Some d => scan_hex (acc * 16 + d) t' | None => None end
  end.
Definition to_type_hex (t : list Z) : option Z := match t with [] => None | _ => scan_hex 0 t end.
(** alxstring.h 806-823 extract_binary_hex. *)
Fixpoint extract_binary_hex (s : list Z) (size start_at : nat) : option (list Z) :=
  match size with
  | O => Some []
  | S k =>
    match subString s start_at 2 with
    | None => None
    | Some t => match to_type_hex t with
      | None => None
      | Some b => match extract_binary_hex s k (start_at + 2) with
        | None => None | Some r => Some (b mod 256 :: r) end end end
  end.

(** Specification vocabulary (not code). *)
(** [occurs p s i]: [p] occurs in [s] at offset [i] *)
Definition occurs (p s : list Z) (i : nat) : Prop := exists a b, s = a ++ p ++ b /\ length a = i.
(** leftmost: every separator used is the first occurrence in the remaining text *)
Fixpoint leftmost (sep : list Z) (ts : list (list Z)) : Prop :=
  match ts with
  | [] => True
  | [t] => True
  | t :: ts' => (forall i, (i < length t)%nat -> ~ occurs sep (join sep ts) i) /\ leftmost sep ts'
  end.
(** C strings contain no 0 *)
Definition nonul (s : list Z) : Prop := Forall (fun x => x <> 0) s.
