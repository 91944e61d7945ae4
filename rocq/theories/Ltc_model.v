(** Listing the time codes of a movie: timecode2, /repo/src/mgcli/mp4info.cpp 3466-3620 (the
    operation "ltc", 5761-5767), with wmt_timecode, /repo/src/mg/media/mp4/ltcextension.fl 34-40.
    The searches and times are those of TimeTab_model.  Not modelled: the summary, and the line of the
    starting time code (3526-3540), which is get_interpolated_time_code of TimeCode_model.  [timecode]
    (3370-3461) isn't called. *)
From Verif Require Import Util SampleTab_model RangeMap_model TimeTab_model.
Local Open Scope Z_scope.

(** little-endian numbers *)
Fixpoint put_le (n : nat) (z : Z) : list Z := match n with O => [] | S n => z mod 256 :: put_le n (z / 256) end.
Fixpoint get_le (l : list Z) : Z := match l with [] => 0 | b :: l => b + 256 * get_le l end.
(** wmt_timecode: wRange, dwTimecode, dwUserbits, dwAmFlags *)
Record tcode := mkTcode { c_range : Z; c_code : Z; c_user : Z; c_flags : Z }.
(** what wmt_timecode::put writes (mp4edit.cpp 690-699) *)
Definition put_tcode (c : tcode) : list Z := put_le 2 (c_range c) ++ put_le 4 (c_code c) ++ put_le 4 (c_user c) ++ put_le 4 (c_flags c).
(** mp4.set_position(p); mp4.read_box(tc): None = the end of the file is met *)
Definition read_tcode (file : list Z) (p : Z) : option tcode :=
  let l := firstn 14 (skipn (Z.to_nat p) file) in
  if (length l <? 14)%nat then None
  else Some (mkTcode (get_le (firstn 2 l)) (get_le (firstn 4 (skipn 2 l))) (get_le (firstn 4 (skipn 6 l))) (get_le (firstn 4 (skipn 10 l)))).
(** a line of the list: the number of the sample, the time, and what was read *)
Record row := mkRow { w_sample : Z; w_time : Z; w_code : tcode }.
(** it returned with the code after these lines; an exception; a read outside of a vector *)
Inductive listing := Returned (n : Z) (l : list row) | Ended (l : list row) | Outside (l : list row).
Definition add_row (r : row) (o : listing) : listing := match o with Returned n l => Returned n (r :: l) | Ended l => Ended (r :: l) | Outside l => Outside (r :: l) end.
(** the loop 3574-3612: [x] is the sample, [n] those left.  [places]: get_sample_offset *)
Fixpoint list_loop (ts : Z) (t : track) (so : Z) (places : list Z) (file : list Z) (n : nat) (x : Z) : listing :=
  match n with
  | O => Returned 0 []
  | S n =>
    match (if x <? 0 then None else nth_error places (Z.to_nat x)), option_map (to_hns ts) (composition_time t x) with
    | Some p, Some time =>
      match read_tcode file p with
      | Some c => add_row (mkRow x (u64 (time + so)) c) (list_loop ts t so places file n (x + 1))
      | None => Ended []
      end
    | _, _ => Outside []
    end
  end.
(** timecode2.  [ltc] = the first stream with time codes, if there is one: its time scale, track,
    get_stream_offset and the places of its samples *)
Definition list_codes (ltc : option (Z * track * Z * list Z)) (file : list Z) (start end_ : Z) : listing :=
  match ltc with
  | None => Returned 2 []
  | Some (ts, t, so, places) =>
    if (length (t_times t) =? 0)%nat then Returned 3 [] else
    match composition_sample_hns ts t start, composition_sample_hns ts t end_ with
    | Some s, Some e =>
      match composition_time t s, composition_time t e with
      | Some _, Some _ => list_loop ts t so places file (if s <=? e then Z.to_nat (e - s + 1) else 0) s
      | _, _ => Outside []
      end
    | _, _ => Outside []
    end
  end.

(** * Specification vocabulary *)
(** the sum of the first [i] durations: when sample [i] begins *)
Definition begin_of (durations : list Z) (i : nat) : Z := fold_right Z.add 0 (firstn i durations).
(** the sample looked up for a time: the first which begins then or later; before the second begins it is
    the first, and after the last began it is the last *)
Definition looked_up (durations : list Z) (time : Z) (s : nat) : Prop :=
  (s < length durations)%nat /\ (forall j, (j < s)%nat -> begin_of durations j < time) /\
  ((s = 0%nat /\ forall j, (0 < j < length durations)%nat -> time < begin_of durations j) \/ (0 < s)%nat /\ begin_of durations 1 <= time /\ (time <= begin_of durations s \/ s = (length durations - 1)%nat)).
Definition fields_fit (c : tcode) : Prop := 0 <= c_range c < 2 ^ 16 /\ 0 <= c_code c < 2 ^ 32 /\ 0 <= c_user c < 2 ^ 32 /\ 0 <= c_flags c < 2 ^ 32.
(** the time codes [codes] are in the file at [places] *)
Definition stored (file : list Z) (places : list Z) (codes : list tcode) : Prop :=
  Forall fields_fit codes /\ Forall2 (fun p c => 0 <= p /\ exists before after, file = before ++ put_tcode c ++ after /\ p = Z.of_nat (length before)) places codes.
