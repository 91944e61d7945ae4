(** Model of the clock class Ctime, /repo/src/mg/core/nx/ctime.cpp 29-394 (declared in
    /repo/src/mg/core/ctime.h 30-125), and of MP4NOW, /repo/src/mg/media/mp4write.h 56, whose
    value every movie, track and media header written carries as its creation and modification
    time (mp4write.h 1096-1097, 1113-1114, 2231-2232).
    The C library is modelled by the Gregorian calendar of the specification below: mktime on
    normalised months, gmtime_r and localtime_r by the relation [broken_down], strftime for the
    conversions used.  The zone of the machine is a fixed number of seconds east of Greenwich (no
    summer time).  Not modelled: the constructors from FILETIME and the formats given by the
    caller to ToTimeString; the scanning of the text by sscanf (only what it stores). *)
From Verif Require Import Util Dec_spec.
Local Open Scope Z_scope.

(** * Specification vocabulary: the calendar, and the text of an instant *)
Definition leap (y : Z) : bool := (y mod 4 =? 0) && (negb (y mod 100 =? 0) || (y mod 400 =? 0)).
Definition month_length (y m : Z) : Z :=
  if m =? 2 then (if leap y then 29 else 28) else if (m =? 4) || (m =? 6) || (m =? 9) || (m =? 11) then 30 else 31.
Definition real_date (y m d : Z) : Prop := 1 <= y /\ 1 <= m <= 12 /\ 1 <= d <= month_length y m.
Definition real_time (h mi s : Z) : Prop := 0 <= h < 24 /\ 0 <= mi < 60 /\ 0 <= s < 60.
(** the days before the first of January of year [y], and before month [m] in it *)
Definition days_before_year (y : Z) : Z := 365 * (y - 1) + (y - 1) / 4 - (y - 1) / 100 + (y - 1) / 400.
Definition days_before_month (y m : Z) : Z := fold_right Z.add 0 (map (month_length y) (zseq 1 (Z.to_nat (m - 1)))).
Definition day_number (y m d : Z) : Z := days_before_year y + days_before_month y m + d - 1.
(** the day after *)
Definition next_day (y m d : Z) : Z * Z * Z :=
  if d <? month_length y m then (y, m, d + 1) else if m <? 12 then (y, m + 1, 1) else (y + 1, 1, 1).
(** seconds since 1970-01-01T00:00:00Z *)
Definition epoch_second (y m d h mi s : Z) : Z := (day_number y m d - day_number 1970 1 1) * 86400 + h * 3600 + mi * 60 + s.
(** [k] decimal digits *)
Fixpoint digits (k : nat) (n : Z) : list Z := match k with O => [] | S j => digits j (n / 10) ++ [48 + n mod 10] end.
(** YYYY-MM-DDThh:mm:ss.mmm followed by the zone: Z or +hh:mm or -hh:mm *)
Definition iso_text (y m d h mi s ms : Z) (zone : list Z) : list Z :=
  digits 4 y ++ [45] ++ digits 2 m ++ [45] ++ digits 2 d ++ [84] ++ digits 2 h ++ [58] ++ digits 2 mi ++ [58] ++ digits 2 s ++ [46] ++ digits 3 ms ++ zone.
Definition zone_text (minutes : Z) : list Z :=
  if minutes =? 0 then [90]
  else (if minutes <? 0 then [45] else [43]) ++ digits 2 (Z.abs minutes / 60) ++ [58] ++ digits 2 (Z.abs minutes mod 60).
(** the text denotes this number of milliseconds since 1970-01-01T00:00:00Z *)
Definition denotes (text : list Z) (t : Z) : Prop :=
  exists y m d h mi s ms zone, y <= 9999 /\ real_date y m d /\ real_time h mi s /\ 0 <= ms < 1000 /\ -6000 < zone < 6000
    /\ text = iso_text y m d h mi s ms (zone_text zone) /\ t = (epoch_second y m d h mi s - zone * 60) * 1000 + ms.

(** * The model *)
Definition u64 (x : Z) : Z := x mod 2 ^ 64.
Definition i64 (x : Z) : Z := let r := x mod 2 ^ 64 in if r <? 2 ^ 63 then r else r - 2 ^ 64.
Definition UINT64_MAX : Z := 2 ^ 64 - 1.

(** struct tm of the C library, the members used *)
Record tm := mkTm { tm_year : Z; tm_mon : Z; tm_wday : Z; tm_mday : Z; tm_hour : Z; tm_min : Z; tm_sec : Z }.
(** SYSTEMTIME, core/ctime.h 30-46: the first eight are 16-bit *)
Record systime := mkSt { wYear : Z; wMonth : Z; wDayOfWeek : Z; wDay : Z; wHour : Z; wMinute : Z; wSecond : Z; wMilliseconds : Z; st_hnano : Z }.
(** what gmtime_r (zone 0) and localtime_r (zone [z]) give for the time [t] *)
Definition broken_down (z t : Z) (m : tm) : Prop :=
  real_date (1900 + tm_year m) (tm_mon m + 1) (tm_mday m) /\ real_time (tm_hour m) (tm_min m) (tm_sec m)
  /\ epoch_second (1900 + tm_year m) (tm_mon m + 1) (tm_mday m) (tm_hour m) (tm_min m) (tm_sec m) = t + z.
(** mktime: the fields are a local time; months beyond December run into the next year *)
Definition mktime (z : Z) (m : tm) : Z :=
  epoch_second (1900 + tm_year m + tm_mon m / 12) (tm_mon m mod 12 + 1) (tm_mday m) (tm_hour m) (tm_min m) (tm_sec m) - z.

(** tm_to_sm 29-40, with _systime.total_hnano set by line 105 *)
Definition tm_to_sm (m : tm) (hn : Z) : systime :=
  mkSt (tm_year m mod 65536) (tm_mon m mod 65536) (tm_wday m mod 65536) (tm_mday m mod 65536) (tm_hour m mod 65536) (tm_min m mod 65536) (tm_sec m mod 65536) 0 (u64 hn).
(** sm_to_tm 43-53 *)
Definition sm_to_tm (s : systime) : tm := mkTm (wYear s) (wMonth s) (wDayOfWeek s) (wDay s) (wHour s) (wMinute s) (wSecond s).
(** total_seconds 54-60 *)
Definition total_seconds (z : Z) (s : systime) : Z := u64 (mktime z (sm_to_tm s)).
(** total_hnano 61-71 *)
Definition total_hnano (z : Z) (s : systime) : Z :=
  if st_hnano s =? UINT64_MAX then u64 (total_seconds z s * 10000000) else st_hnano s.
(** _GetUTCOffset 74-89 in minutes: mktime of gmtime of any moment is that moment less the zone *)
Definition utc_offset (z : Z) : Z := Z.quot z 60.
Record clock := mkCk { ck_st : systime; ck_local : bool; ck_offset : Z }.
(** ResetToNow 93-122, Ctime(bool) 126-129: [m] is time(NULL) of line 98 broken down, [hn] the
    units of 100 ns of clock_gettime of line 102 *)
Definition now (local : bool) (z : Z) (m : tm) (hn : Z) : clock := mkCk (tm_to_sm m hn) local (if local then utc_offset z else 0).
(** Ctime(wYear, wMonth, wDay) 132-145 (_local and _offset are left as they are) *)
Definition of_date (y m d : Z) : systime := mkSt (y mod 65536) (m mod 65536) 0 (d mod 65536) 0 0 0 0 UINT64_MAX.

(** MilliSeconds 175-191 *)
Definition milliseconds (z : Z) (a b : systime) : Z :=
  if Bool.eqb (st_hnano b =? UINT64_MAX) (st_hnano a =? UINT64_MAX) then i64 (u64 (total_hnano z a - total_hnano z b) / 10000)
  else i64 (u64 (total_seconds z a - total_seconds z b) * 1000).
(** Seconds 236-239, Minutes 241-244, Hours 246-251, Days 259-262 *)
Definition seconds (z : Z) (a b : systime) : Z := Z.quot (milliseconds z a b) 1000.
Definition minutes (z : Z) (a b : systime) : Z := Z.quot (seconds z a b) 60.
Definition hours (z : Z) (a b : systime) : Z := Z.quot (minutes z a b) 60.
Definition days (z : Z) (a b : systime) : Z := Z.quot (minutes z a b) 1440.
(** TotalHNano 194-206 *)
Definition TotalHNano (z : Z) (a : systime) : Z :=
  if st_hnano a =? UINT64_MAX then i64 (mktime z (sm_to_tm a) * 10000000) else i64 (st_hnano a).
(** TotalMilliseconds 209: the division is unsigned *)
Definition TotalMilliseconds (z : Z) (a : systime) : Z := i64 (u64 (TotalHNano z a) / 10000).
(** AddMilliSeconds 210-215 *)
Definition AddMilliSeconds (z : Z) (a : systime) (n : Z) : Z := i64 (TotalMilliseconds z a + n).
(** clock_elapsed, core/ctime.h 132-144 *)
Definition clock_elapsed (z : Z) (started ended : systime) : Z := u64 (TotalHNano z ended - TotalHNano z started).

(** strftime: %02d *)
Definition two (n : Z) : list Z := (if n <? 10 then [48] else []) ++ dec n.
(** ToDateString 310-319 with "%Y-%m-%d", ToTimeString 277-308 with "%H:%M:%S" *)
Definition to_date_string (s : systime) : list Z :=
  let m := sm_to_tm s in dec (1900 + tm_year m) ++ [45] ++ two (tm_mon m + 1) ++ [45] ++ two (tm_mday m).
Definition to_time_string (s : systime) : list Z :=
  let m := sm_to_tm s in two (tm_hour m) ++ [58] ++ two (tm_min m) ++ [58] ++ two (tm_sec m).
(** get_MillisecondsString 321-337 *)
Definition ms_string (z : Z) (s : systime) : list Z :=
  let mx := total_hnano z s mod 10000000 / 10000 in
  (if mx <? 100 then [48] else []) ++ (if mx <? 10 then [48] else []) ++ dec mx.
(** ToXml 356-394: the offset in hours is unsigned, so that 371 takes it for positive *)
Definition to_xml (z : Z) (c : clock) : list Z :=
  let offset := if ck_local c then u64 (Z.quot (ck_offset c) 60) else 0 in
  to_date_string (ck_st c) ++ [84] ++ to_time_string (ck_st c) ++ [46] ++ ms_string z (ck_st c) ++
  (if negb (offset =? 0) then
     (if 0 <? offset then [43] ++ (if offset <? 10 then [48] else []) ++ dec offset
      else [45] ++ (if u64 (- offset) <? 10 then [48] else []) ++ dec (u64 (- offset))) ++ [58; 48; 48]
   else [90]).

(** MP4NOW, mp4write.h 56; [m], [hn] as in [now] *)
Definition mp4now (z : Z) (m : tm) (hn : Z) : Z := u64 (seconds z (ck_st (now false z m hn)) (of_date 1904 1 1)).
(** set_creation_time and the header written, mp4/mp4.fl 5-6, 213-227: version 0 keeps the low 32 bits *)
Definition creation_field (version z : Z) (m : tm) (hn : Z) : Z := if version =? 1 then mp4now z m hn else mp4now z m hn mod 2 ^ 32.

(** Ctime(text) 149-172: sscanf stores each number as four bytes, least significant first, over a
    field of two.  [mem] is what the 24 bytes of the object held before. *)
Fixpoint patch (mem : list Z) (at_ : nat) (v : list Z) : list Z :=
  match at_, mem with
  | O, _ => v ++ skipn (length v) mem
  | S k, b :: r => b :: patch r k v
  | S _, [] => []
  end.
Definition int_bytes (x : Z) : list Z := [x mod 256; x / 256 mod 256; x / 65536 mod 256; x / 16777216 mod 256].
Definition scanned (mem : list Z) (y m d h mi s ms : Z) : list Z :=
  let mem := patch mem 0 (int_bytes y) in
  let mem := patch mem 2 (int_bytes m) in
  let mem := patch mem 6 (int_bytes d) in
  let mem := patch mem 8 (int_bytes h) in
  let mem := patch mem 10 (int_bytes mi) in
  let mem := patch mem 12 (int_bytes s) in
  patch mem 14 (int_bytes ms).
Definition field16 (mem : list Z) (at_ : nat) : Z := nth at_ mem 0 + 256 * nth (at_ + 1) mem 0.
Definition field64 (mem : list Z) (at_ : nat) : Z := field16 mem at_ + 2 ^ 16 * field16 mem (at_ + 2) + 2 ^ 32 * field16 mem (at_ + 4) + 2 ^ 48 * field16 mem (at_ + 6).
Definition systime_of_memory (mem : list Z) : systime :=
  mkSt (field16 mem 0) (field16 mem 2) (field16 mem 4) (field16 mem 6) (field16 mem 8) (field16 mem 10) (field16 mem 12) (field16 mem 14) (field64 mem 16).
Definition of_text (mem : list Z) (y m d h mi s ms : Z) : systime := systime_of_memory (scanned mem y m d h mi s ms).
