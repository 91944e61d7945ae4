(** Model of the listing of the groups of pictures (mgcli --goplist): gop_list,
    /repo/src/mgcli/mp4info.cpp 2907-2979, with get_IFrame_number and get_next_IFrame_time,
    /repo/src/mg/media/mp4parse.h 1299-1322, 2320-2335, 2809-2819. *)
From Verif Require Import Util RangeMap_model SampleTab_model TimeTab_model Walk_model Cut_model.
Local Open Scope Z_scope.

(** a line printed (the number of the stream and the time as text left out): sample number,
    time, decoding time *)
Record row := mkRow { r_sample : Z; r_time : Z; r_decoding : Z }.
(** get_IFrame_number 2320-2326, 1299-1310: the number and the upper limit the search leaves in
    the key frame table; None = an empty table is read.  Without a key frame table there is none
    to search (1301-1302), and next_iframe reads the empty one. *)
Definition key_at (k : trk) (time : Z) : option (Z * Z) :=
  match t_keys (k_track k) with
  | None => match composition_sample (k_track k) (of_hns (k_ts k) time) with Some s => Some (s, 0) | None => None end
  | Some m => match decoding_sample (k_track k) (of_hns (k_ts k) time) with Some s => iframe_at m s | None => None end
  end.
(** get_next_IFrame_time 2328-2335, 1312-1322: the time of the key frame found; the limit this
    leaves is overwritten by the next search.  None = an empty table is read, or no such sample
    (exception 1277-1290) *)
Definition next_key_time (k : trk) (limit : Z) : option Z :=
  let m := match t_keys (k_track k) with Some m => m | None => [] end in
  match next_iframe m limit with
  | Some (s, _) => option_map (to_hns (k_ts k)) (composition_time (k_track k) s)
  | None => None
  end.
(** the loop 2958-2975; [limit] = what the last search left; None = still running after [n]
    rounds, or undefined *)
Fixpoint gop_rows (n : nat) (k : trk) (limit next time end_ : Z) : option (list row) :=
  match n with
  | O => None
  | S n =>
    if (time <? next) && (time <? end_) then
      let time := if next <? U64MAX then next else time in
      match next_key_time k limit with
      | None => None
      | Some t =>
        match key_at k t with
        | None => None
        | Some (s, lim) =>
          match decoding_time_hns (k_ts k) (k_track k) s with
          | None => None
          | Some d => option_map (cons (mkRow s t d)) (gop_rows n k lim t time end_)
          end
        end
      end
    else Some []
  end.
(** gop_list 2907-2979 of the video track [k]; [duration] = get_duration() of the movie, used
    when no end is given (2918-2919) *)
Definition gop_list (n : nat) (k : trk) (duration start end_ : Z) : option (list row) :=
  let end_ := if end_ =? 0 then duration else end_ in
  match key_at k start with
  | None => None
  | Some (s, lim) =>
    match option_map (to_hns (k_ts k)) (composition_time (k_track k) s), decoding_time_hns (k_ts k) (k_track k) s with
    | Some t, Some d => option_map (cons (mkRow s t d)) (gop_rows n k lim U64MAX t end_)
    | _, _ => None
    end
  end.

(** * Specification vocabulary *)
(** sample [j] of a track, its presentation and decoding time in units of 100 ns *)
Definition nth_sample (k : trk) (j : nat) : sample := nth j (samples_of k) (mkS 0 0 0 0 0 false).
Definition shown (k : trk) (j : nat) : Z := s_comp (nth_sample k j).
Definition decoded (k : trk) (j : nat) : Z := s_dec (nth_sample k j).
(** the line which tells the truth about sample [j] *)
Definition true_row (k : trk) (j : nat) : row := mkRow (Z.of_nat j) (shown k j) (decoded k j).
(** the key frames from sample [K] on *)
Definition keys_from (flags : list bool) (K : nat) : list nat := filter (fun j => nth j flags false) (seq K (length flags - K)).
(** how many of the samples are shown before a time *)
Definition before (k : trk) (end_ : Z) (l : list nat) : nat := length (filter (fun j => shown k j <? end_) l).
(** the end of the last sample *)
Definition ends (k : trk) : Z := let x := nth_sample k (length (k_places k) - 1) in s_dec x + s_dur x.
(** listing goes to the end asked for, or without one to the end of the movie *)
Definition until (duration end_ : Z) : Z := if end_ =? 0 then duration else end_.
(** a time of 100 ns is a whole number of ticks of the track's clock, or the key frames wait
    between being decoded and being shown; none waits beyond the decoding of the next *)
Definition orderly (flags : list bool) (k : trk) (K : nat) : Prop := forall j, (K <= j)%nat -> nth j flags false = true ->
  (10000000 mod k_ts k = 0 \/ decoded k j < shown k j) /\ shown k j < ends k /\ forall j', (j < j')%nat -> nth j' flags false = true -> shown k j < decoded k j'.
