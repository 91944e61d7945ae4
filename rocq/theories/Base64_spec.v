(** Independent specification: RFC 4648 section 4. *)
From Verif Require Import Util.

(** the character of a 6-bit digit *)
Definition rfc_char (d : Z) : Z :=
  if d <? 26 then 65 + d              (* A-Z *)
  else if d <? 52 then 97 + (d - 26)  (* a-z *)
  else if d <? 62 then 48 + (d - 52)  (* 0-9 *)
  else if d =? 62 then 43 else 47.    (* + / *)

(** a 24-bit group, most significant digit first *)
Definition digit (n k : Z) : Z := n / 64 ^ k mod 64.

Fixpoint rfc4648 (bs : list Z) : list Z :=
  match bs with
  | [] => []
  | [a] => let n := a * 2^16 in
      [rfc_char (digit n 3); rfc_char (digit n 2); 61; 61]
  | [a; b] => let n := a * 2^16 + b * 2^8 in
      [rfc_char (digit n 3); rfc_char (digit n 2); rfc_char (digit n 1); 61]
  | a :: b :: c :: rest => let n := a * 2^16 + b * 2^8 + c in
      [rfc_char (digit n 3); rfc_char (digit n 2); rfc_char (digit n 1); rfc_char (digit n 0)]
      ++ rfc4648 rest
  end.

(** characters of the base64 alphabet *)
Definition alphabet_char (c : Z) : Prop :=
  65 <= c <= 90 \/ 97 <= c <= 122 \/ 48 <= c <= 57 \/ c = 43 \/ c = 47.
Definition alphabet_charb (c : Z) : bool :=
  ((65 <=? c) && (c <=? 90)) || ((97 <=? c) && (c <=? 122)) || ((48 <=? c) && (c <=? 57)) || (c =? 43) || (c =? 47).
