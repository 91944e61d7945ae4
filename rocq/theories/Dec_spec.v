(** Decimal text of integers (what printf %lld / %llu / %u produce, used by
    /repo/src/mg/alxstring.h 468-600 operator+= of integer types), and the number a
    digit string stands for.  Independent mathematics. *)
From Verif Require Import Util.
Local Open Scope Z_scope.

Fixpoint dec_fuel (f : nat) (n : Z) : list Z :=
  match f with
  | O => []
  | S f' => (if n <? 10 then [] else dec_fuel f' (n / 10)) ++ [48 + n mod 10]
  end.
(** decimal digits (ASCII) of n >= 0, no leading zero *)
Definition dec (n : Z) : list Z := dec_fuel (S (Z.to_nat (Z.log2 n))) n.
Definition dec_signed (n : Z) : list Z := if n <? 0 then 45 :: dec (- n) else dec n.

(** value of a digit string *)
Definition undec (l : list Z) : Z := fold_left (fun a c => 10 * a + (c - 48)) l 0.
Definition is_digit (c : Z) : Prop := 48 <= c <= 57.
