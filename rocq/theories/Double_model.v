(** Model of the conversions between units of 100 ns and ticks of the mp4 writer
    (/repo/src/mg/media/mp4write.h 261-298) in the double precision they are written in: IEEE
    754 binary64, rounded to nearest even (Flocq's executable arithmetic, as SSE2 does).  The
    conversion of a double outside of 64 bits back to an integer, undefined in C++, is not
    modelled: [Btrunc] is the integer part of any double. *)
From Coq Require Import ZArith Lia.
From Flocq Require Import Core BinarySingleNaN.
Local Open Scope Z_scope.

Definition prec53 : Prec_gt_0 53 := eq_refl.
Definition prec53_1024 : Prec_lt_emax 53 1024 := eq_refl.
Definition double : Type := binary_float 53 1024.
(** conversion of an integer: (double)x *)
Definition dbl (z : Z) : double := binary_normalize 53 1024 prec53 prec53_1024 mode_NE z 0 false.
Definition ddiv (x y : double) : double := @Bdiv 53 1024 prec53 prec53_1024 mode_NE x y.
Definition dmul (x y : double) : double := @Bmult 53 1024 prec53 prec53_1024 mode_NE x y.
(** static_cast<uint64_t> *)
Definition dtrunc (x : double) : Z := @Btrunc 53 1024 x.

(** time_scale 261-267, 282-291: seconds = hnano / 10000000.0, times the time scale *)
Definition time_scale (ts hnano : Z) : Z := dtrunc (dmul (ddiv (dbl hnano) (dbl 10000000)) (dbl ts)).
(** get_hnano 292-298 *)
Definition get_hnano (ts scaled : Z) : Z := dtrunc (dmul (ddiv (dbl scaled) (dbl ts)) (dbl 10000000)).
