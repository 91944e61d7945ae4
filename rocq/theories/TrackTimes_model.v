(** Model of what a movie reports about the times of a stream: get_start_time, get_end_time and
    get_end_time_plus_duration of the time tables (/repo/src/mg/media/mp4parse.h 1365-1434), of the
    track (2380-2396), get_sample_duration and get_trak_bit_rate (2224-2253), and
    get_decoding_end_time, get_decoding_end_time_plus_duration of the movie (2872-2882).  Built on
    the tables of TimeTab_model.  None: a sample which does not exist is asked for. *)
From Verif Require Import Util SampleTab_model RangeMap_model TimeTab_model.
Local Open Scope Z_scope.

(** LOOK_UP_SAMPLES 48 *)
Definition look_up : Z := 100.
(** _sample_count *)
Definition sample_count (t : track) : Z := Z.of_nat (length (t_times t)).
(** 1374-1383, 1405-1413: over the samples [idx], the time kept if [better] *)
Fixpoint scan (better : Z -> Z -> bool) (t : track) (idx : list Z) (time : Z) : option Z :=
  match idx with
  | [] => Some time
  | i :: idx => match composition_time t i with Some c => scan better t idx (if better c time then c else time) | None => None end
  end.
(** get_start_time 1365-1392 *)
Definition start_ticks (t : track) : option Z :=
  if t_has_ctts t then option_map fst (nth_error (t_order t) 0)
  else match composition_time t 0 with
       | Some s => scan Z.ltb t (zseq 1 (Z.to_nat (Z.min look_up (sample_count t)) - 1)) s
       | None => None
       end.
(** get_end_time 1394-1422: the samples from the one before the last down *)
Definition end_ticks (t : track) : option Z :=
  let n := sample_count t in
  if t_has_ctts t then option_map fst (nth_error (t_order t) (Z.to_nat (n - 1)))
  else match composition_time t (n - 1) with
       | Some e => if 1 <? n then scan Z.gtb t (rev (zseq (n - Z.min look_up n + 1) (Z.to_nat (Z.min look_up n) - 2))) e else Some e
       | None => None
       end.
(** get_end_time_plus_duration 1424-1434 *)
Definition end_duration_ticks (t : track) : option Z :=
  let n := sample_count t in
  match end_ticks t, (if t_has_ctts t then match nth_error (t_order t) (Z.to_nat (n - 1)) with Some (_, s) => duration_of t s | None => None end else duration_of t (n - 1)) with
  | Some e, Some d => Some (u64 (e + d))
  | _, _ => None
  end.
(** 2380-2396 *)
Definition start_time (ts : Z) (t : track) : option Z := option_map (to_hns ts) (start_ticks t).
Definition end_time (ts : Z) (t : track) : option Z := option_map (to_hns ts) (end_ticks t).
Definition end_time_plus_duration (ts : Z) (t : track) : option Z := option_map (to_hns ts) (end_duration_ticks t).
(** get_sample_duration() 2224-2237; [header] is _mdhd.get_duration_hns() *)
Definition mean_duration (ts header : Z) (t : track) : option Z :=
  if sample_count t <? 2 then Some header
  else match end_time_plus_duration ts t, start_time ts t with Some e, Some s => Some (u64 (e - s) / sample_count t) | _, _ => None end.
(** get_trak_bit_rate 2238-2253; [total] is get_total_size() *)
Definition bit_rate (header total : Z) : Z := if header =? 0 then 0 else if header / 10000000 =? 0 then 0 else u64 (total * 8) / (header / 10000000).
(** a movie: time scale, header duration and tables of each stream *)
Record stream_times := mkST { st_scale : Z; st_header : Z; st_track : track }.
(** get_decoding_end_time 2872-2876 *)
Definition decoding_end_time (m : list stream_times) (stream : nat) : option Z :=
  match nth_error m stream with Some s => decoding_time_hns (st_scale s) (st_track s) (Z.of_nat (length m) - 1) | None => None end.
(** get_decoding_end_time_plus_duration 2878-2882 *)
Definition decoding_end_plus (m : list stream_times) (stream : nat) : option Z :=
  match decoding_end_time m (length m - 1), nth_error m (length m - 1) with
  | Some e, Some s => option_map (fun d => u64 (e + d)) (mean_duration (st_scale s) (st_header s) (st_track s))
  | _, _ => None
  end.

(** * Specification vocabulary *)
(** [m] is among the numbers and the least, the greatest *)
Definition least (m : Z) (l : list Z) : Prop := In m l /\ forall x, In x l -> m <= x.
Definition greatest (m : Z) (l : list Z) : Prop := In m l /\ forall x, In x l -> x <= m.
