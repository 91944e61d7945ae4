(** Model of the section CRC, /repo/src/mg/media/wincrc.cpp lines 19-118 and
    wincrc.h, for AV_CRC_32_IEEE (le = 0, bits = 32).  unsigned int is Z in
    [0,2^32).  Little-endian machine (the 32-bit load of line 77). *)
From Verif Require Import Util Bits_spec.
Local Open Scope Z_scope.

Definition POLY := 0x04C11DB7.                       (* wincrc.cpp 98, 106 *)
Definition ones32 := 0xFFFFFFFF.
(** wincrc.h 29: AV_BSWAP32C *)
Definition bswap (x : Z) : Z :=
  Z.lor (Z.shiftl (Z.lor (Z.land (Z.shiftl x 8) 0xff00) (Z.land (Z.shiftr x 8) 0x00ff)) 16)
        (Z.lor (Z.land (Z.shiftl (Z.shiftr x 16) 8) 0xff00) (Z.land (Z.shiftr (Z.shiftr x 16) 8) 0x00ff)).

(** wincrc.cpp 36: c = (c << 1) ^ (poly & (((int)c) >> 31)) on 32 bits *)
Definition bit_step (c : Z) : Z :=
  Z.lxor (Z.land (Z.shiftl c 1) ones32) (if Z.testbit c 31 then POLY else 0).
Fixpoint iter {A} (n : nat) (f : A -> A) (x : A) : A := match n with O => x | S k => iter k f (f x) end.

(** wincrc.cpp 29-39 *)
Definition tab0 (i : Z) : Z := bswap (iter 8 bit_step (Z.shiftl i 24)).
Definition T0 : list Z := map tab0 (zseq 0 256).
Definition look (t : list Z) (i : Z) : Z := nth (Z.to_nat i) t 0.
(** wincrc.cpp 42-46 *)
Definition next_tab (t : list Z) : list Z := map (fun x => Z.lxor (Z.shiftr x 8) (look T0 (Z.land x 0xff))) t.
Definition T1 := next_tab T0.
Definition T2 := next_tab T1.
Definition T3 := next_tab T2.
(** the table after av_crc_init; ctx[256] is first 1 (line 40) then overwritten *)
Definition ctx : list Z := T0 ++ T1 ++ T2 ++ T3.

(** wincrc.cpp 74, 86 *)
Definition byte_step (t : list Z) (c b : Z) : Z := Z.lxor (look t (Z.lxor (Z.land c 0xff) b)) (Z.shiftr c 8).
(** wincrc.cpp 77-81 *)
Definition word_step (t : list Z) (c b0 b1 b2 b3 : Z) : Z :=
  let x := Z.lxor c (Z.lor (Z.lor b0 (Z.shiftl b1 8)) (Z.lor (Z.shiftl b2 16) (Z.shiftl b3 24))) in
  Z.lxor (Z.lxor (Z.lxor (look t (3 * 256 + Z.land x 0xff)) (look t (2 * 256 + Z.land (Z.shiftr x 8) 0xff)))
         (look t (1 * 256 + Z.land (Z.shiftr x 16) 0xff))) (look t (0 * 256 + Z.shiftr x 24)).
(** wincrc.cpp 76-87 *)
Fixpoint words (t : list Z) (c : Z) (l : list Z) : Z :=
  match l with
  | b0 :: b1 :: b2 :: b3 :: l' => words t (word_step t c b0 b1 b2 b3) l'
  | _ => fold_left (byte_step t) l c
  end.
(** wincrc.cpp 66-89; [align] is the buffer address modulo 4 *)
Definition av_crc (t : list Z) (align : nat) (c : Z) (l : list Z) : Z :=
  if look t 256 =? 0 then
    let h := Nat.modulo (4 - align) 4 in
    words t (fold_left (byte_step t) (firstn h l) c) (skipn h l)
  else fold_left (byte_step t) l c.
(** wincrc.cpp 115-118 *)
Definition crc_32 (align : nat) (l : list Z) (c : Z) : Z := bswap (av_crc ctx align c l).

(** * Specification vocabulary: the CRC of ISO 13818-1, one bit at a time. *)
Definition crc_bit (r : Z) (b : bool) : Z :=
  let s := (2 * r) mod 2 ^ 32 in
  if xorb (2 ^ 31 <=? r) b then Z.lxor s 0x04C11DB7 else s.
Definition crc_bits (r : Z) (bs : list bool) : Z := fold_left crc_bit bs r.
Definition crc_spec (data : list Z) : Z := crc_bits 0xFFFFFFFF (bytes_bits data).
(** big-endian bytes of a 32-bit number, as stored after a section *)
Definition be32 (v : Z) : list Z := [v / 2 ^ 24 mod 256; v / 2 ^ 16 mod 256; v / 2 ^ 8 mod 256; v mod 256].

(** The table while another thread runs av_crc_init between its line 40 and the first
    round of line 45: ctx[256] is 1 again, all other entries are unchanged. *)
Definition ctx_reinit : list Z := firstn 256 ctx ++ 1 :: skipn 257 ctx.
(** av_crc of a 4-aligned buffer that passed the test of line 72 just before. *)
Definition crc_32_during_reinit (l : list Z) (c : Z) : Z := bswap (words ctx_reinit c l).
