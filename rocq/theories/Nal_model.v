(** Model of H.264 NAL unit decoding, /repo/src/mg/media/h264nal.h 47-156. *)
From Verif Require Import Util.
Local Open Scope Z_scope.

(** h264nal.h 75-95: the loop over the bytes after the header; the list is what is left to
    read (idx + 1 == N: one byte left; idx + 2 < N: three bytes left). *)
Fixpoint decode_loop (l : list Z) : list Z :=
  match l with
  | [] => []
  | [x] => if x =? 3 then [] else [x]
  | x :: ((y :: z :: r) as l') =>
      if (x =? 0) && (y =? 0) && (z =? 3) then 0 :: 0 :: decode_loop r else x :: decode_loop l'
  | x :: l' => x :: decode_loop l'
  end.
Record nal := mknal { nal_ref_idc : Z; nal_unit_type : Z; rbsp : list Z }.
(** 56-96 (the header byte is copied to the output).  No byte: the bit stream throws. *)
Definition decode_nal (l : list Z) : option nal :=
  match l with [] => None | h :: r => Some (mknal (h / 32) (h mod 32) (h :: decode_loop r)) end.

(** 105-123: the same over the buffer that is being read.  [i] is idx, [w] is
    NumBytesInRBSP, [n] the number of bytes after the header; the byte read at idx is
    p_nal[idx + 1]. *)
Definition set_nth (k : nat) (v : Z) (l : list Z) : list Z := firstn k l ++ v :: skipn (S k) l.
Fixpoint in_place_loop (fuel : nat) (p : list Z) (i w n : nat) : list Z * nat :=
  match fuel with
  | O => (p, w)
  | S k =>
    if Nat.ltb i n then
      if Nat.eqb (i + 1) n && (nth (i + 1) p 0 =? 3) then (p, w) else
      if Nat.ltb (i + 2) n && ((nth (i + 1) p 0 =? 0) && (nth (i + 2) p 0 =? 0) && (nth (i + 3) p 0 =? 3))
      then in_place_loop k (set_nth (w + 1) 0 (set_nth w 0 p)) (i + 3) (w + 2) n
      else in_place_loop k (set_nth w (nth (i + 1) p 0) p) (i + 1) (w + 1) n
    else (p, w)
  end.
Definition decode_nal_in_place (l : list Z) : option (Z * Z * list Z * nat) :=
  match l with
  | [] => None
  | h :: r => let '(p, w) := in_place_loop (length l) l 0 1 (length r) in Some (h / 32, h mod 32, p, w)
  end.

(** * Specification vocabulary: encapsulation of an RBSP, ITU-T H.264 7.4.1.1.
    [z] counts the zero bytes just written (at most 2). *)
Fixpoint escape (z : nat) (l : list Z) : list Z :=
  match l with
  | [] => match z with O => [] | _ => [3] end     (* an RBSP ending in 0 gets a final 3 *)
  | x :: r => match z with
              | 2%nat => if x <=? 3 then 3 :: x :: escape (if x =? 0 then 1 else 0) r else x :: escape 0 r
              | _ => x :: escape (if x =? 0 then S z else 0) r
              end
  end.
Definition without_last_3 (l : list Z) : list Z := if last l 0 =? 3 then removelast l else l.
