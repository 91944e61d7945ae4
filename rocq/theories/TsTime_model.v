(** Model of MpegTime, /repo/src/mg/media/mp4/mpeg2ts.fl lines 97-157: conversion
    between 100 ns times and 90 kHz / 27 MHz MPEG clocks. *)
From Verif Require Import Util.
Local Open Scope Z_scope.

(** * Double arithmetic: the nearest 53-bit number, ties to even.  A double is (m, k),
    standing for m / 2^k.  Simplified: no overflow or underflow of the exponent (values
    here lie between 2^-15 and 2^45). *)
Definition rne (N D : Z) : Z :=
  let q := N / D in let r := N mod D in
  if 2 * r <? D then q else if D <? 2 * r then q + 1 else if Z.even q then q else q + 1.
Definition num_at (k N : Z) : Z := if 0 <=? k then N * 2 ^ k else N.
Definition den_at (k D : Z) : Z := if 0 <=? k then D else D * 2 ^ (- k).
Definition rnd (N D : Z) : Z * Z :=
  if N =? 0 then (0, 0) else
  let k0 := 52 + Z.log2 D - Z.log2 N in
  let k := if num_at k0 N <? 2 ^ 52 * den_at k0 D then k0 + 1 else k0 in
  (rne (num_at k N) (den_at k D), k).
(** integer / integer, double * integer, conversion to an integer (truncation) *)
Definition dbl_div (a b : Z) : Z * Z := rnd a b.
Definition dbl_mul (x : Z * Z) (b : Z) : Z * Z := rnd (num_at (- snd x) (fst x * b)) (den_at (- snd x) 1).
Definition dbl_trunc (x : Z * Z) : Z := num_at (- snd x) (fst x) / den_at (- snd x) 1.

(** mpeg2ts.fl 100-121: SCR * 300.0 + ext is below 2^53, hence exact. *)
Definition Time (t32_30 t29_15 t14_0 ext : Z) : Z :=
  let scr := Z.lor (Z.lor (Z.shiftl t32_30 30) ((Z.shiftl t29_15 15) mod 2 ^ 32)) t14_0 in
  dbl_trunc (dbl_mul (dbl_div (scr * 300 + ext) 27000) 10000).

(** mpeg2ts.fl 128-147 *)
Record clock := mkclock { c32_30 : Z; c29_15 : Z; c14_0 : Z; cext : Z }.
Definition ToMpegTime (time : Z) : clock :=
  let p := (time / 10000 * 27000) mod 2 ^ 64 in
  let base := p / 300 in
  mkclock (Z.shiftr base 30 mod 2 ^ 32) (Z.land (Z.shiftr base 15) 0x2FFFFFFF) (Z.land base 0x7FFF) (p mod 300).
