(** Independent vocabulary for bit streams: a byte string is a list of bits,
    most significant bit of each byte first; a field is a number written on n
    bits, most significant first. *)
From Verif Require Import Util.

(** the n low bits of v, most significant first *)
Fixpoint field_bits (v : Z) (n : nat) : list bool :=
  match n with O => [] | S k => Z.testbit v (Z.of_nat k) :: field_bits v k end.

Definition byte_bits (b : Z) : list bool := field_bits b 8.
Definition bytes_bits (l : list Z) : list bool := flat_map byte_bits l.

(** value of a list of bits, most significant first *)
Definition bits_val (bs : list bool) : Z :=
  fold_left (fun a (b : bool) => 2 * a + (if b then 1 else 0)) bs 0.

(** cut a bit string in successive fields of the given widths and give their values *)
Fixpoint fields (ws : list nat) (bs : list bool) : list Z :=
  match ws with
  | [] => []
  | w :: ws' => bits_val (firstn w bs) :: fields ws' (skipn w bs)
  end.

Definition total (ws : list nat) : nat := fold_right Nat.add 0%nat ws.

(** two's complement reading of an n-bit field, as a 32-bit pattern *)
Definition sign_extend32 (n : nat) (v : Z) : Z :=
  if v <? 2 ^ (Z.of_nat n - 1) then v else v + (2 ^ 32 - 2 ^ Z.of_nat n).

(** little-endian numbers *)
Fixpoint le_bytes (v : Z) (k : nat) : list Z :=
  match k with O => [] | S k' => v mod 256 :: le_bytes (v / 256) k' end.
Fixpoint le_val (l : list Z) : Z :=
  match l with [] => 0 | b :: l' => b + 256 * le_val l' end.
