(** Model of HLS segment encryption, /repo/src/mg/media/hls_renderer.h 32-37 and 285-387.
    The block cipher (aes_encrypt_key, AES) is any function on blocks of 16 bytes;
    aes_cbc_encrypt (a library) is CBC: each block is xored into the iv, which is encrypted
    in place and written.  Memory of the destination is a list of bytes. *)
From Verif Require Import Util.
Local Open Scope Z_scope.

(** 36-37 *)
Definition enc_missing (s : Z) : Z := 16 - s mod 16.
Definition enc_size (s : Z) : Z := s + enc_missing s.
Fixpoint xor_bytes (a b : list Z) : list Z := match a, b with x :: a', y :: b' => Z.lxor x y :: xor_bytes a' b' | _, _ => [] end.
Section Cipher.
  Variable E : list Z -> list Z.
  (** [n] blocks; the iv afterwards *)
  Fixpoint cbc_encrypt (n : nat) (iv data : list Z) : list Z * list Z :=
    match n with
    | O => ([], iv)
    | S k => let c := E (xor_bytes iv (firstn 16 data)) in let '(r, iv') := cbc_encrypt k c (skipn 16 data) in (c ++ r, iv')
    end.
  (** memcpy into the destination *)
  Definition store (dest : list Z) (pos : Z) (data : list Z) : list Z :=
    firstn (Z.to_nat pos) dest ++ data ++ skipn (Z.to_nat pos + length data) dest.
  Inductive result := BadArgument | Size (n : Z) | TooSmall | Encrypted (dest : list Z) (n : Z).
  (** 355-364; int is 32 bits, >> arithmetic *)
  Definition iv_of (sequence : Z) : list Z :=
    repeat 0 12 ++ [Z.land (Z.shiftr sequence 24) 255; Z.land (Z.shiftr sequence 16) 255; Z.land (Z.shiftr sequence 8) 255; Z.land sequence 255].
  (** 286-386.  [dest]: the buffer given, [dest_size] the size announced *)
  Definition hls3_encrypt (dest : list Z) (dest_size : Z) (clear : list Z) (sequence : Z) : result :=
    let clear_size := zlen clear in
    if clear_size =? 0 then BadArgument else
    if dest_size =? 0 then Size (enc_size clear_size) else
    if dest_size <? enc_size clear_size then TooSmall else
    let missing := enc_missing clear_size in
    let full_block := clear_size / 16 * 16 in
    let last := skipn (Z.to_nat full_block) clear ++ repeat missing (Z.to_nat missing) in
    (* 371: the length is cut to 32 bits *)
    let '(a, iv) := cbc_encrypt (Z.to_nat (full_block mod 2 ^ 32 / 16)) (iv_of sequence) clear in
    let dest := store dest 0 a in
    (* 375-381: 16 >= missing always holds *)
    let '(b, _) := cbc_encrypt 1 iv last in
    Encrypted (store dest full_block b) (enc_size clear_size).
End Cipher.

(** * Specification vocabulary: what a player does (RFC 8216 4.3.2.4, RFC 5652 6.3) *)
Fixpoint cbc_decrypt (D : list Z -> list Z) (n : nat) (iv data : list Z) : list Z :=
  match n with O => [] | S k => xor_bytes iv (D (firstn 16 data)) ++ cbc_decrypt D k (firstn 16 data) (skipn 16 data) end.
(** the last byte says how many bytes to drop; each of them has that value *)
Definition unpad (l : list Z) : option (list Z) :=
  let n := last l 0 in
  if (1 <=? n) && (n <=? 16) && forallb (fun x => x =? n) (skipn (length l - Z.to_nat n) l) then Some (firstn (length l - Z.to_nat n) l) else None.
(** the media sequence number as a big-endian 128-bit number *)
Fixpoint be_bytes (n : nat) (x : Z) : list Z := match n with O => [] | S k => be_bytes k (x / 256) ++ [x mod 256] end.
(** a block cipher with a fixed key *)
Definition is_block (b : list Z) : Prop := length b = 16%nat /\ bytes b.
Definition block_cipher (E D : list Z -> list Z) : Prop := forall b, is_block b -> is_block (E b) /\ D (E b) = b.
