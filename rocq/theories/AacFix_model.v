(** Model of the AAC time correction of the mp4 writer, /repo/src/mg/media/aac_time_fix.h 6-170 and
    its use in mp4mux.h 253-263, 298-326.  Asserts do nothing in a release build.  The corrector is
    written once for any arithmetic and taken in two: IEEE 754 doubles rounded to nearest even
    (Flocq), as the program has it, and exact, in units of 1 / rate of 100 ns. *)
From Coq Require Import ZArith List Lia Bool.
From Flocq Require Import Core BinarySingleNaN.
From Verif Require Import Double_model.
Import ListNotations.
Local Open Scope Z_scope.

Section Fix.
Variable num : Type.
Variables (add sub : num -> num -> num) (le lt eq : num -> num -> bool).
(** INT32_MAX as a number, and 0 *)
Variables (never zero : num).
(** CAACFixStream 6-15: _min_frame_duration, _max_frame_duration, _previus, _error *)
Record fixer := mkF { f_min : num; f_max : num; f_prev : num; f_err : num }.
(** set_info 25-46, the first time (a second time changes nothing) *)
Definition start (mn mx : num) : fixer := mkF mn mx never never.
(** fix_audio_frequency_timing 48-115 *)
Definition fix_time (s : fixer) (time_in : num) : num * fixer :=
  if eq never (f_prev s) then (time_in, mkF (f_min s) (f_max s) time_in zero)
  else
    let '(time, error) :=
      if le (f_max s) (sub time_in (f_prev s))
      then (add (f_prev s) (f_max s), add (f_err s) (sub (sub time_in (f_prev s)) (f_max s)))
      else
        let error := add (f_err s) (sub (sub time_in (f_prev s)) (f_min s)) in
        let time := add (f_prev s) (f_min s) in
        let correction := sub (f_max s) (f_min s) in
        if le correction error then (add time correction, sub error correction) else (time, error) in
    let time :=
      if lt (f_max s) (sub time_in time) || lt (f_max s) (sub time time_in)
      then (if lt time time_in then time_in else time) else time in
    (time, mkF (f_min s) (f_max s) time error).
(** CAACFix::fix_audio_frequency_timing 158-168 for the samples of one stream *)
Fixpoint fix_all (s : fixer) (l : list num) : list num :=
  match l with [] => [] | t :: l => let '(t, s) := fix_time s t in t :: fix_all s l end.
End Fix.
Arguments mkF {num}. Arguments f_min {num}. Arguments f_max {num}. Arguments f_prev {num}. Arguments f_err {num}.

(** ** In doubles *)
Definition dadd (x y : double) : double := @Bplus 53 1024 prec53 prec53_1024 mode_NE x y.
Definition dsub (x y : double) : double := @Bminus 53 1024 prec53 prec53_1024 mode_NE x y.
Definition dle (x y : double) : bool := @Bleb 53 1024 x y.
Definition dlt (x y : double) : bool := @Bltb 53 1024 x y.
Definition deq (x y : double) : bool := @Beqb 53 1024 x y.
Definition dfixer := fixer double.
(** set_info 29-34 *)
Definition dstart (rate : Z) : dfixer :=
  start double (dbl 2147483647) (dmul (ddiv (dbl 1024) (dbl rate)) (dbl 10000000)) (dmul (ddiv (dbl 1025) (dbl rate)) (dbl 10000000)).
Definition dfix : dfixer -> double -> double * dfixer := fix_time double dadd dsub dle dlt deq (dbl 2147483647) (dbl 0).

(** a sample given to the writer: stream, composition and decoding time *)
Record call := mkC { c_stream : Z; c_comp : Z; c_dec : Z }.
(** MP4Mux::add_sample 308-323: the times passed on; [fs]: CAACFix::_streams *)
Definition add_sample (fs : Z -> option dfixer) (c : call) : call * (Z -> option dfixer) :=
  match fs (c_stream c) with
  | None =>
    let comp := dtrunc (dbl (c_comp c)) in
    (mkC (c_stream c) comp (if negb (comp =? c_comp c) && (c_dec c =? c_comp c) then comp else c_dec c), fs)
  | Some s =>
    let '(t, s) := dfix s (dbl (c_comp c)) in
    let comp := dtrunc t in
    (mkC (c_stream c) comp (if negb (comp =? c_comp c) && (c_dec c =? c_comp c) then comp else c_dec c),
     fun i => if i =? c_stream c then Some s else fs i)
  end.
Fixpoint add_samples (fs : Z -> option dfixer) (l : list call) : list call :=
  match l with [] => [] | c :: l => let '(c, fs) := add_sample fs c in c :: add_samples fs l end.
(** the corrector in use: [rates] gives the sample rate of every stream added with
    add_audio_stream and sample rate = time scale 253-256 *)
Definition mux (rates : Z -> option Z) : list call -> list call :=
  add_samples (fun i => match rates i with Some rate => Some (dstart rate) | None => None end).

(** ** Exact: one stream of samples at times in 100 ns, and the times delivered.  Simplified: no
    rounding; the frame of 1024 samples is 1024 * 10^7 / rate. *)
Definition exact (rate : Z) (times : list Z) : list Z :=
  map (fun t => t / rate)
    (fix_all Z Z.add Z.sub Z.leb Z.ltb Z.eqb (2147483647 * rate) 0 (start Z (2147483647 * rate) 10240000000 10250000000) (map (Z.mul rate) times)).

(** * Specification vocabulary *)
(** the samples of a stream *)
Definition of_stream (s : Z) (l : list call) : list call := filter (fun c => c_stream c =? s) l.
(** frame [k] of a stream that starts at [t0] and has 1024 samples in every frame *)
Definition frame (rate t0 k : Z) : Z := t0 + k * 1024 * 10000000 / rate.
Fixpoint frames (rate t0 k : Z) (n : nat) : list Z := match n with O => [] | S n => frame rate t0 k :: frames rate t0 (k + 1) n end.
