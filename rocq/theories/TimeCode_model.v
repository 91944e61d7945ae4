(** Model of time codes, /repo/src/mg/media/WaveParser.h 243-477 (class TC) and 479-717 (class
    CTimeCode, the receiver of linear time code), and of the time code stream: recorded by
    CMP4LTCStream::queue_sample, /repo/src/mg/media/mp4write.h 1488-1577, and read by
    get_interpolated_time_code, /repo/src/mg/media/mp4parse.h 3188-3267.  DWORD is a 32-bit
    unsigned integer (core/core.h 56); the size of long, 64 bits on Linux and 32 on Windows, is a
    parameter.  Not modelled: GetTCHAR (415-441). *)
From Verif Require Import Util SampleTab_model RangeMap_model TimeTab_model.
Local Open Scope Z_scope.

(** the fields of TC 247-251 *)
Record tc := mkTC { n_frames : Z; frames : Z; seconds : Z; minutes : Z; hours : Z }.
(** TC(DWORD, DWORD, DWORD, DWORD) 258-268 with the default of 25, and TC() 270-280 *)
Definition tc_of (f s m h : Z) : tc := mkTC 25 f s m h.
Definition tc_zero : tc := tc_of 0 0 0 0.
(** TC(uint32_t) 282-291 *)
Definition tc_unpack (w : Z) : tc :=
  let part tens ts units us := u32 (Z.shiftr (Z.land tens w) ts mod 16 * 10 + Z.shiftr (Z.land units w) us mod 10) in
  mkTC 25 (part 0xF0 4 0xF 0) (part 0xF000 12 0xF00 8) (part 0xF00000 20 0xF0000 16) (part 0xF0000000 28 0xF000000 24).
(** TC(int64_t) 293-299 *)
Definition tc_of_time (time : Z) : tc :=
  mkTC 25 (u32 (Z.rem (Z.quot time 10000) 1000) / (1000 / 25)) (u32 (Z.quot time 10000000) mod 60) (u32 (Z.quot time 600000000) mod 60) (u32 (Z.quot time 600000000) / 60).
(** operator= 301-308: the number of frames per second stays *)
Definition tc_assign (a b : tc) : tc := mkTC (n_frames a) (frames b) (seconds b) (minutes b) (hours b).
(** isValid 310-317 *)
Definition tc_valid (a : tc) : bool := (frames a <? n_frames a) && (seconds a <? 60) && (minutes a <? 60) && (hours a <? 24).
(** operator+ 319-336 *)
Definition tc_add (a b : tc) : tc :=
  let f := u32 (frames a + frames b) in
  let s := u32 (seconds a + seconds b + f / n_frames a) in
  let m := u32 (minutes a + minutes b + s / 60) in
  let h := u32 (hours a + hours b + m / 60) in
  mkTC 25 (f mod n_frames a) (s mod 60) (m mod 60) (h mod 24).
(** a 32-bit unsigned number as a long of [lw] bits *)
Definition as_long (lw x : Z) : Z := if (lw =? 32) && (2 ^ 31 <=? x) then x - 2 ^ 32 else x.
(** operator- 338-391, with a long of [lw] bits.  344-352 (and 356-364, 368-377): the difference
    of a field and what is carried; [base] is _nFrames or 60, [carry_base] 25 or 60. *)
Definition tc_borrow (lw base carry_base x : Z) : Z * Z :=
  let l := as_long lw x in
  if l <? 0 then (u32 (base - Z.opp l mod base), u32 (Z.opp l / carry_base + 1)) else (u32 l, 0).
Definition tc_sub (lw : Z) (a b : tc) : tc :=
  let '(f, fr) := tc_borrow lw (n_frames a) 25 (u32 (frames a - frames b)) in
  let '(s, sr) := tc_borrow lw 60 60 (u32 (seconds a - seconds b - fr)) in
  let '(m, mr) := tc_borrow lw 60 60 (u32 (minutes a - minutes b - sr)) in
  let l := as_long lw (u32 (hours a - hours b - mr)) in
  mkTC 25 f s m (if l <? 0 then (if -23 <? l then 0 else u32 (24 + l)) else u32 l).
(** operator uint32_t 402-413 *)
Definition tc_pack (a : tc) : Z :=
  let part x ts us := Z.lor (u32 (Z.shiftl (x / 10) ts)) (u32 (Z.shiftl (x mod 10) us)) in
  Z.lor (Z.lor (Z.lor (part (frames a) 4 0) (part (seconds a) 12 8)) (part (minutes a) 20 16)) (part (hours a) 28 24).
(** TC tmp = operator+(tc) (397, 452; mp4parse.h 3254, 3260): the copy constructor 253 cannot take
    a temporary, so C++11 goes through operator uint32_t and TC(uint32_t) *)
Definition tc_copied (a : tc) : tc := tc_unpack (tc_pack a).
(** operator++ 393-400 *)
Definition tc_next (a : tc) : tc := tc_assign a (tc_copied (tc_add a (tc_of 1 0 0 0))).
(** SumHnano 443-455 *)
Definition tc_sum_hnano (a : tc) (rhs : Z) : tc :=
  tc_copied (tc_add a (tc_of (u32 (Z.quot (Z.rem (Z.quot rhs 10000) 1000) (1000 / 25))) (u32 (Z.rem (Z.quot rhs 10000000) 60)) (u32 (Z.rem (Z.quot rhs 600000000) 60)) (u32 (Z.quot (Z.quot rhs 600000000) 60)))).
(** operator== 462-468 *)
Definition tc_eqb (a b : tc) : bool := (frames a =? frames b) && (seconds a =? seconds b) && (minutes a =? minutes b) && (hours a =? hours b).

(** ** CTimeCode *)
(** __shift_t_code 479-484 *)
Record shift := mkSh { sh_one : Z; sh_two : Z; sh_check : Z }.
(** init 491-496, ReSet 503-506 *)
Definition sh_init : shift := mkSh 0 0 0.
(** push 690-715, with an unsigned long of [lw] bits *)
Definition sh_push (lw : Z) (c : shift) (b : bool) : shift :=
  let ul x := x mod 2 ^ lw in
  let two := negb (Z.land 0x80000000 (sh_two c) =? 0) in
  let sh := negb (Z.land 0x8000 (sh_check c) =? 0) in
  mkSh (Z.lor (ul (Z.shiftl (sh_one c) 1)) (if two then 1 else 0)) (Z.lor (ul (Z.shiftl (sh_two c) 1)) (if sh then 1 else 0)) (Z.lor (Z.shiftl (sh_check c) 1 mod 2 ^ 16) (if b then 1 else 0)).
(** IsValid 508-511 *)
Definition sh_valid (c : shift) : bool := 0x3FFD =? sh_check c.
(** FrameUnit 513 to MinsTens 574 *)
Definition frame_unit (c : shift) : Z := Z.shiftr (Z.land 0xF0000000 (sh_one c)) 28.
Definition frame_tens (c : shift) : Z := Z.shiftr (Z.land 0x00C00000 (sh_one c)) 22.
Definition hours_unit (c : shift) : Z := Z.shiftr (Z.land 0x0000F000 (sh_two c)) 12.
Definition hours_tens (c : shift) : Z := Z.shiftr (Z.land 0x000000C0 (sh_two c)) 6.
Definition secs_unit (c : shift) : Z := Z.shiftr (Z.land 0x0000F000 (sh_one c)) 12.
Definition secs_tens (c : shift) : Z := Z.shiftr (Z.land 0x000000E0 (sh_one c)) 5.
Definition mins_unit (c : shift) : Z := Z.shiftr (Z.land 0xF0000000 (sh_two c)) 28.
Definition mins_tens (c : shift) : Z := Z.shiftr (Z.land 0x00E00000 (sh_two c)) 21.
(** DecodeUnits 610-615, Decode3Tens 635-638, Decode6Tens 663-667 *)
Definition decode_units (n : Z) : Z := Z.lor (Z.lor (Z.lor (Z.shiftl (Z.land 1 n) 3) (Z.shiftl (Z.land 2 n) 1)) (Z.shiftr (Z.land 4 n) 1)) (Z.shiftr (Z.land 8 n) 3).
Definition decode_3tens (n : Z) : Z := Z.lor (Z.shiftl (Z.land 1 n) 1) (Z.shiftr (Z.land 2 n) 1).
Definition decode_6tens (n : Z) : Z := Z.lor (Z.lor (Z.shiftl (Z.land 1 n) 2) (Z.land 2 n)) (Z.shiftr (Z.land 4 n) 2).
(** GetTimeCode 670-687 *)
Definition sh_time_code (c : shift) : tc :=
  tc_of (decode_3tens (frame_tens c) * 10 + decode_units (frame_unit c)) (decode_6tens (secs_tens c) * 10 + decode_units (secs_unit c))
        (decode_6tens (mins_tens c) * 10 + decode_units (mins_unit c)) (decode_3tens (hours_tens c) * 10 + decode_units (hours_unit c)).

(** ** The time code stream *)
(** _base and _next of CMP4LTCStream (mp4write.h 1491-1492) *)
Record ltc := mkL { l_base : tc; l_next : Z }.
(** CMP4LTCStream 1521-1525 *)
Definition ltc_new : ltc := mkL tc_zero 0.
(** queue_sample 1532-1577 of a sample presented at [time] whose time code (the 32-bit word at
    offset 2 of its body) is [code]; [avg] is avg_frame_rate.  The state after it, and whether the
    sample is stored.  1555: both sides are compared as packed words. *)
Definition ltc_queue (avg : Z) (s : ltc) (time code : Z) : ltc * bool :=
  let next := u64 (time + avg) in
  if (avg <? l_next s) && (time <=? u64 (l_next s - avg)) then (mkL (l_base s) next, false)
  else if (l_next s / 10000 =? time / 10000) && (tc_pack (l_base s) =? code) then (mkL (tc_next (l_base s)) next, false)
  else (mkL (tc_next (tc_assign (l_base s) (tc_unpack code))) next, true).
(** the samples (time, time code) stored of those given *)
Fixpoint ltc_record (avg : Z) (s : ltc) (l : list (Z * Z)) : list (Z * Z) :=
  match l with
  | [] => []
  | (time, code) :: r => let '(s, w) := ltc_queue avg s time code in (if w then [(time, code)] else []) ++ ltc_record avg s r
  end.

(** the answer of get_interpolated_time_code: a time code and the flag of ltcextension.fl 23-24 *)
Inductive answer := Missing | Read (code : Z) | Interpolated (code : Z) | Fault.
(** get_interpolated_time_code (mp4parse.h 3188-3267).  [ts] the time scale of the media, [t] the
    track, [so] get_stream_offset in units of 100 ns, [av] frame_avg_time, [codes] the time codes of
    the samples ([None]: recorded as missing, 3234); no sample: has_one is false (3201).  Fault: a
    division by 0 (3247, or % in operator+, operator-), or a sample which does not exist. *)
Definition interpolated (lw ts : Z) (t : track) (so av : Z) (codes : list (option Z)) (time : Z) : answer :=
  match codes with
  | [] => Missing
  | _ =>
    let '(pt, s) := if so <? time then (time - so, composition_sample_hns ts t (time - so)) else (0, Some 0) in
    match s with
    | None => Fault
    | Some s =>
      match option_map (to_hns ts) (composition_time t s), nth_error codes (Z.to_nat s) with
      | Some at_, Some (Some code) =>
        if (u64 (at_ - av) <? pt) && (pt <? u64 (at_ + av)) then Read code
        else if av =? 0 then Fault
        else let n := u32 (10000000 / av) in
             if n =? 0 then Fault
             else let m := tc_unpack code in
                  let m := mkTC n (frames m) (seconds m) (minutes m) (hours m) in
                  let r := if at_ <? pt then tc_add m (tc_of_time (pt - at_)) else tc_sub lw m (tc_of_time (at_ - pt)) in
                  Interpolated (tc_pack (tc_copied r))
      | Some _, Some None => Missing
      | _, _ => Fault
      end
    end
  end.

(** * Specification vocabulary *)
(** a time of day and frame: hours, minutes, seconds, frame *)
Record clock := mkClock { ck_h : Z; ck_m : Z; ck_s : Z; ck_f : Z }.
(** it exists, with [n] frames per second *)
Definition proper (n : Z) (c : clock) : Prop := 0 <= ck_h c < 24 /\ 0 <= ck_m c < 60 /\ 0 <= ck_s c < 60 /\ 0 <= ck_f c < n.
(** its number, counted in frames from midnight *)
Definition count (n : Z) (c : clock) : Z := ((ck_h c * 60 + ck_m c) * 60 + ck_s c) * n + ck_f c.
(** frames in a day *)
Definition day (n : Z) : Z := 24 * 60 * 60 * n.
(** the clock with that number, frames counted across midnight *)
Definition at_count (n k : Z) : clock := let k := k mod day n in mkClock (k / (3600 * n)) (k / (60 * n) mod 60) (k / n mod 60) (k mod n).
(** two decimal digits per part, four bits each, hours first *)
Definition digits2 (x : Z) : Z := 16 * (x / 10) + x mod 10.
Definition bcd (c : clock) : Z := ((digits2 (ck_h c) * 256 + digits2 (ck_m c)) * 256 + digits2 (ck_s c)) * 256 + digits2 (ck_f c).
(** the object holding it *)
Definition tc_is (n : Z) (c : clock) : tc := mkTC n (ck_f c) (ck_s c) (ck_m c) (ck_h c).

(** every part has at most two digits *)
Definition small (c : clock) : Prop := 0 <= ck_h c < 100 /\ 0 <= ck_m c < 100 /\ 0 <= ck_s c < 100 /\ 0 <= ck_f c < 100.
(** hours may go on after a day *)
Definition loose (n : Z) (c : clock) : Prop := 0 <= ck_h c < 2 ^ 31 /\ 0 <= ck_m c < 60 /\ 0 <= ck_s c < 60 /\ 0 <= ck_f c < n.
(** no part of [b] is greater than that of [a] *)
Definition covers (a b : clock) : Prop := ck_h b <= ck_h a /\ ck_m b <= ck_m a /\ ck_s b <= ck_s a /\ ck_f b <= ck_f a.
(** taking [b] from [a] borrows exactly 60 seconds, or exactly 60 minutes *)
Definition exact_minute (a b : clock) : Prop :=
  (ck_s a - ck_s b = -59 /\ ck_f a < ck_f b) \/ (ck_m a - ck_m b = -59 /\ (ck_s a < ck_s b \/ ck_s a = ck_s b /\ ck_f a < ck_f b)).

(** linear time code (SMPTE 12M): the 80 bits of a frame in the order sent.  [d] are bits of the
    user and flags. *)
Record ltc_frame := mkF { lf_clock : clock; lf_u1 : bool * bool * bool * bool; lf_u2 : bool * bool * bool * bool; lf_u3 : bool * bool * bool * bool; lf_u4 : bool * bool * bool * bool;
  lf_u5 : bool * bool * bool * bool; lf_u6 : bool * bool * bool * bool; lf_u7 : bool * bool * bool * bool; lf_u8 : bool * bool * bool * bool;
  lf_drop : bool; lf_color : bool; lf_27 : bool; lf_43 : bool; lf_58 : bool; lf_59 : bool }.
Definition four (u : bool * bool * bool * bool) : list bool := let '(a, b, c, d) := u in [a; b; c; d].
(** [n] bits of x, the least first *)
Definition lsb_first (n : nat) (x : Z) : list bool := map (Z.testbit x) (zseq 0 n).
Definition sync_word : list bool := [false; false; true; true; true; true; true; true; true; true; true; true; true; true; false; true].
Definition ltc_bits (l : ltc_frame) : list bool :=
  let c := lf_clock l in
  lsb_first 4 (ck_f c mod 10) ++ four (lf_u1 l) ++ lsb_first 2 (ck_f c / 10) ++ [lf_drop l; lf_color l] ++ four (lf_u2 l)
  ++ lsb_first 4 (ck_s c mod 10) ++ four (lf_u3 l) ++ lsb_first 3 (ck_s c / 10) ++ [lf_27 l] ++ four (lf_u4 l)
  ++ lsb_first 4 (ck_m c mod 10) ++ four (lf_u5 l) ++ lsb_first 3 (ck_m c / 10) ++ [lf_43 l] ++ four (lf_u6 l)
  ++ lsb_first 4 (ck_h c mod 10) ++ four (lf_u7 l) ++ lsb_first 2 (ck_h c / 10) ++ [lf_58 l; lf_59 l] ++ four (lf_u8 l) ++ sync_word.
(** frames sent one after the other *)
Definition sent (fs : list ltc_frame) : list bool := concat (map ltc_bits fs).

(** samples (time, clock), each later than the one before *)
Fixpoint later (prev : Z) (l : list (Z * clock)) : Prop := match l with [] => True | x :: r => prev < fst x /\ later (fst x) r end.
(** [y] goes on from [x] at 25 frames per second: [avg] later, to the millisecond, and the next
    frame *)
Definition goes_on (avg : Z) (x y : Z * clock) : bool := ((fst x + avg) / 10000 =? fst y / 10000) && (count 25 (snd y) =? (count 25 (snd x) + 1) mod day 25).
(** the samples which do not go on from the one before *)
Fixpoint breaks (avg : Z) (prev : Z * clock) (l : list (Z * clock)) : list (Z * clock) :=
  match l with [] => [] | x :: r => (if goes_on avg prev x then [] else [x]) ++ breaks avg x r end.
(** [n] frames from clock [c] and time [t] on, 25 per second *)
Fixpoint play (n : nat) (t : Z) (c : clock) : list (Z * clock) := match n with O => [] | S n => (t, c) :: play n (t + 400000) (at_count 25 (count 25 c + 1)) end.
Definition words (l : list (Z * clock)) : list (Z * Z) := map (fun x => (fst x, bcd (snd x))) l.
